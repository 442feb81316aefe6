(** Lemmas for the packing of custom coefficients: the packed array. *)
From Coq Require Import List ZArith Reals Lia Arith Sorting.Sorted Permutation.
From Verif Require Import M_PyBase M_PyFacets M_PyQuadUtils M_PyPack S_PyQuadUtils S_PyPack L_PyNodes L_PyFacets L_PyQuadUtils L_PyPack L_PyPack2 L_PyPack3 L_PyPack4 L_PyPack5.
Import ListNotations.
Local Open Scope nat_scope.

Lemma comb_map {X A B C} (h : A * B -> C) (f : X -> A) (g : X -> B) : forall l, map h (combine (map f l) (map g l)) = map (fun j => h (f j, g j)) l.
Proof. induction l as [|x l IH]; cbn; [reflexivity|]. f_equal. exact IH. Qed.
Lemma starts_seq (f : nat -> nat) : forall n s a, starts a (map f (seq s n)) = map (fun j => a + sum (map f (seq s (j - s)))) (seq s n).
Proof.
  induction n as [|n IH]; intros s a; [reflexivity|]. cbn [seq map starts]. f_equal.
  - rewrite Nat.sub_diag. cbn. lia.
  - rewrite IH. apply map_ext_in. intros j J. apply in_seq in J. replace (j - s) with (S (j - S s)) by lia. unfold sum. cbn. lia.
Qed.
Lemma sum_split (f : nat -> nat) i n : i <= n -> sum (map f (seq 0 i)) <= sum (map f (seq 0 n)).
Proof. intros H. replace n with (i + (n - i)) by lia. rewrite seq_app, map_app, sum_app. lia. Qed.
Lemma sum_succ (f : nat -> nat) i : sum (map f (seq 0 (S i))) = sum (map f (seq 0 i)) + f i.
Proof. rewrite seq_S, map_app, sum_app. unfold sum. cbn. lia. Qed.
Lemma ncols_pos ct cs : 0 < ncols ct cs.
Proof. unfold ncols. destruct ct; cbn; lia. Qed.
Lemma encode_len ct z : length (encode_offset ct z) = n_extra_cols ct * ratio ct.
Proof. destruct ct; reflexivity. Qed.
Lemma block_len mixed dom gdim fdim q e : eok mixed dom gdim fdim (p_unf q) e -> length (block mixed dom (p_unf q) e) = length (p_w e) * n_vals_per_pt mixed dom gdim fdim q + 1.
Proof.
  intros K. destruct (vals_len mixed dom gdim fdim (p_unf q) e K) as [L1 L2]. unfold block. cbn [length].
  assert (R : length (concat (vals_of mixed dom (p_unf q) e)) = length (p_w e) * fold_right Nat.add 0 (widths mixed dom gdim fdim (p_unf q))).
  { revert L1 L2. generalize (vals_of mixed dom (p_unf q) e) as v. generalize (widths mixed dom gdim fdim (p_unf q)) as w.
    induction w as [|a w IH]; intros [|x v] L1 L2; try discriminate; cbn; [lia|]. rewrite app_length. rewrite (IH v).
    - specialize (L2 0 ltac:(cbn; lia)). cbn in L2. lia.
    - injection L1 as L1. exact L1.
    - intros i Hi. exact (L2 (S i) ltac:(cbn; lia)). }
  rewrite R. unfold n_vals_per_pt, widths. destruct (is_interior dom), mixed, (p_unf q); cbn [app fold_right]; lia.
Qed.
Lemma nvals_ok mixed dom gdim fdim E : forall qes (a : nat -> nat), (forall x, In x qes -> gath mixed dom E (fst x) (snd x) /\ forall j, j < E -> eok mixed dom gdim fdim (p_unf (fst x)) (snd x j)) ->
  n_vals_per_entity mixed dom gdim fdim E (map fst qes) (map a (seq 0 E)) = Ret (map (fun j => a j + length (content mixed dom qes j)) (seq 0 E)).
Proof.
  induction qes as [|[q e] qes IH]; intros a H; cbn [map fst n_vals_per_entity].
  - f_equal. apply map_ext. intros j. cbn. lia.
  - destruct (H (q, e) (or_introl eq_refl)) as [G K]. cbn [fst snd] in G, K. unfold assert_. rewrite (proj1 G) at 1. rewrite map_length, seq_length, Nat.eqb_refl.
    rewrite (proj1 G), comb_map. cbn [fst snd]. rewrite IH by (intros x I; apply H; right; exact I). f_equal. apply map_ext_in. intros j J. apply in_seq in J.
    unfold content. cbn [map concat fst snd]. rewrite app_length, (block_len mixed dom gdim fdim) by (apply K; lia). lia.
Qed.

Section Run.
  Variables (argsort : list nat -> list nat) (cut_cells empty_cells : list nat) (cut_facets empty_facets : bool -> list facet).
  Variables (rc : qdata -> nat -> rule) (rf : qdata -> bool -> facet -> rule).
  Variables (create_cells : qdata -> list nat -> cquad) (create_facets : qdata -> list facet -> bool -> cquad).
  Variables (ctyp : celltype) (all_perms : list (list nat)) (junk : nat -> vec) (ct : ctype) (mixed : bool) (qds : list qdata) (dom : idomain) (gdim fdim : nat).
  Hypothesis AS : stable_argsort argsort.
  Hypothesis ST : setting cut_cells empty_cells cut_facets empty_facets rc rf ctyp all_perms mixed create_cells create_facets qds dom gdim fdim.
  Notation ids := (ids argsort cut_cells cut_facets dom).
  Notation E := (E argsort cut_cells cut_facets dom).
  Notation ent := (ent argsort cut_cells cut_facets dom).
  Notation earr := (earr rc rf ctyp all_perms mixed).
  (** The data of an entity in the array. *)
  Definition data_of (e : entity) : list R := concat (map (fun qd => block mixed dom (qd_unf qd) (earr qd e)) qds).

  Lemma quads_ok : exists qes, create_quadratures argsort cut_cells cut_facets create_cells create_facets ctyp all_perms junk mixed qds dom = Ret (map fst qes)
    /\ (forall x, In x qes -> gath mixed dom E (fst x) (snd x) /\ forall j, j < E -> eok mixed dom gdim fdim (p_unf (fst x)) (snd x j))
    /\ forall j, content mixed dom qes j = data_of (ent j).
  Proof.
    assert (C := create_ok argsort cut_cells empty_cells cut_facets empty_facets rc rf create_cells create_facets ctyp all_perms junk mixed qds dom gdim fdim AS ST).
    unfold create_quadratures, data_of. assert (IN : incl qds qds) by (apply incl_refl). revert IN. generalize qds at 1 3 4 as l.
    induction l as [|qd l IH]; intros IN.
    - exists []. split; [reflexivity|]. split; [intros x []|]. intros j. reflexivity.
    - destruct (C qd (IN qd (or_introl eq_refl))) as [q [E1 [E2 [G K]]]]. destruct IH as [qes [F1 [F2 F3]]]. { intros x I. apply IN. right. exact I. }
      exists ((q, fun j => earr qd (ent j)) :: qes). cbn [pmap map fst]. rewrite E1. cbn [bind]. rewrite F1. split; [reflexivity|]. split.
      + intros x [<-|I]; [cbn [fst snd]; rewrite E2; split; [exact G|exact K]|apply F2; exact I].
      + intros j. unfold content in *. cbn [map concat fst snd]. rewrite E2, F3. reflexivity.
  Qed.

  Variables (cs : nat) (old : list (list R)).
  Notation nc := (ncols ct cs).
  Notation nr := (n_rows dom).
  Definition row_of (i : nat) : nat := if is_interior dom then 2 * i else i.
  Lemma row_lt i : i < shape0 dom -> row_of i < nr.
  Proof. unfold row_of, n_rows. destruct (is_interior dom); lia. Qed.
  Hypothesis OL : length old <= nr.
  Hypothesis OW : forall r, In r old -> length r = cs * ratio ct.
  Hypothesis NE : is_interior dom = true -> forall i e, entity_at dom i = Some e -> ~ empty_entity empty_cells empty_facets e.

  Lemma eids_ok : NoDup (empty_ids argsort empty_cells empty_facets dom) /\ forall i, In i (empty_ids argsort empty_cells empty_facets dom) <-> exists e, entity_at dom i = Some e /\ empty_entity empty_cells empty_facets e.
  Proof. destruct ST as [_ [N [U _]]]. exact (ids_ok argsort empty_cells empty_facets dom AS N U). Qed.

  (** The offset of every entity. *)
  Definition good_offset (O : nat -> nat) (i : nat) (e : entity) (z : Z) : Prop :=
    (cut_entity cut_cells cut_facets e -> exists j, j < E /\ ent j = e /\ z = (Z.of_nat (O j) - Z.of_nat (row_of i * nc))%Z)
    /\ (empty_entity empty_cells empty_facets e -> z = 0%Z)
    /\ (~ cut_entity cut_cells cut_facets e -> ~ empty_entity empty_cells empty_facets e -> z = (-1)%Z).
  Lemma all_rel_ok O : exists rel all,
    rel_offsets argsort cut_cells cut_facets ct dom cs (map O (seq 0 E)) = Ret rel
    /\ all_rel_offsets argsort cut_cells empty_cells cut_facets empty_facets dom rel = Ret all
    /\ length all = nr /\ forall i e, entity_at dom i = Some e -> exists z, nth_error all (row_of i) = Some z /\ good_offset O i e z.
  Proof.
    assert (LT := ids_lt argsort cut_cells empty_cells cut_facets empty_facets rc rf create_cells create_facets ctyp all_perms mixed qds dom gdim fdim AS ST).
    assert (ND := ids_nodup argsort cut_cells empty_cells cut_facets empty_facets rc rf create_cells create_facets ctyp all_perms mixed qds dom gdim fdim AS ST).
    assert (IN := ids_in argsort cut_cells empty_cells cut_facets empty_facets rc rf create_cells create_facets ctyp all_perms mixed qds dom gdim fdim AS ST).
    assert (EA := ent_at argsort cut_cells empty_cells cut_facets empty_facets rc rf create_cells create_facets ctyp all_perms mixed qds dom gdim fdim AS ST).
    destruct eids_ok as [EN EI].
    exists (map (fun j => Z.of_nat (O j) - Z.of_nat (row_of (nth j ids 0%nat) * nc))%Z (seq 0 E)).
    set (rel := map (fun j => Z.of_nat (O j) - Z.of_nat (row_of (nth j ids 0%nat) * nc))%Z (seq 0 E)).
    assert (HR : rel_offsets argsort cut_cells cut_facets ct dom cs (map O (seq 0 E)) = Ret rel).
    { unfold rel_offsets. change (custom_ids argsort cut_cells cut_facets dom) with ids.
      assert (T : take_ids (if is_interior dom then map (fun i => 2 * i * nc) (seq 0 (shape0 dom)) else map (fun i => i * nc) (seq 0 nr)) ids
                  = Ret (map (fun j => row_of (nth j ids 0) * nc) (seq 0 (length ids)))).
      { unfold n_rows, row_of. destruct (is_interior dom).
        - rewrite (take_map _ 0) by (intros i I; rewrite map_length, seq_length; apply LT; exact I). f_equal. apply map_ext_in. intros j J. apply in_seq in J.
          apply (nth_seq_map (fun i => 2 * i * nc)). apply LT. apply nth_In. lia.
        - rewrite (take_map _ 0) by (intros i I; rewrite map_length, seq_length; apply LT; exact I). f_equal. apply map_ext_in. intros j J. apply in_seq in J.
          apply (nth_seq_map (fun i => i * nc)). apply LT. apply nth_In. lia. }
      rewrite T. cbn [bind]. change (length ids) with E. rewrite comb_map. reflexivity. }
    unfold all_rel_offsets. change (custom_ids argsort cut_cells cut_facets dom) with ids.
    set (idx := if is_interior dom then map (fun i => 2 * i) ids else ids).
    assert (Hidx : idx = map row_of ids). { unfold idx, row_of. destruct (is_interior dom); [reflexivity|]. symmetry. apply map_id. }
    assert (INJ : forall i i', row_of i = row_of i' -> i = i') by (intros i i'; unfold row_of; destruct (is_interior dom); lia).
    destruct (put_at_nodup idx rel (repeat (-1)%Z nr)) as [all1 [P1 [L1 [A1 B1]]]].
    { rewrite Hidx. apply FinFun.Injective_map_NoDup; [|exact ND]. intros i i' Q. apply INJ. exact Q. }
    { rewrite Hidx. unfold rel. rewrite !map_length, seq_length. reflexivity. }
    { intros r I. rewrite Hidx in I. apply in_map_iff in I. destruct I as [i [<- I]]. rewrite repeat_length. apply row_lt, LT. exact I. }
    rewrite P1. cbn [bind]. rewrite repeat_length in L1.
    set (eids := empty_ids argsort empty_cells empty_facets dom) in *.
    destruct (put_at_nodup eids (map (fun _ => 0%Z) eids) all1 EN) as [all [P2 [L2 [A2 B2]]]].
    { apply map_length. }
    { intros i I. apply EI in I. destruct I as [e [I1 I2]]. rewrite L1. unfold n_rows. apply entity_lt in I1. destruct (is_interior dom); lia. }
    exists all. split; [exact HR|]. split; [exact P2|]. split; [congruence|].
    intros i e Hi. assert (Li := entity_lt _ _ _ Hi).
    assert (ROW : In (row_of i) eids -> is_interior dom = false /\ In i eids).
    { intros I. destruct (is_interior dom) eqn:Q.
      - exfalso. apply EI in I. destruct I as [e' [I1 I2]]. first [exact (NE Q _ _ I1 I2)|exact (NE eq_refl _ _ I1 I2)].
      - split; [reflexivity|]. unfold row_of in I. rewrite Q in I. exact I. }
    destruct (in_dec Nat.eq_dec i ids) as [Ic|Ic].
    - assert (Hc : cut_entity cut_cells cut_facets e). { apply IN in Ic. destruct Ic as [e' [C1 C2]]. rewrite Hi in C1. injection C1 as <-. exact C2. }
      destruct (In_nth ids i 0 Ic) as [j [Hj Ej]].
      exists (Z.of_nat (O j) - Z.of_nat (row_of i * nc))%Z. split.
      + rewrite B2.
        * assert (Q := A1 j 0%Z). rewrite Hidx, map_length in Q. specialize (Q Hj). rewrite (nth_map_d row_of 0) in Q by exact Hj. rewrite Ej in Q. rewrite Q. f_equal. unfold rel. rewrite nth_seq_map by exact Hj. rewrite Ej. reflexivity.
        * intros I. destruct (ROW I) as [_ I']. apply EI in I'. destruct I' as [e' [I1 I2]]. rewrite Hi in I1. injection I1 as <-. destruct ST as [_ [_ [_ [D _]]]]. exact (D i e Hi Hc I2).
      + split; [|split].
        * intros _. exists j. split; [exact Hj|]. split; [|reflexivity]. destruct (EA j Hj) as [Q _]. rewrite Ej, Hi in Q. injection Q as Q. symmetry. exact Q.
        * intros He. exfalso. destruct ST as [_ [_ [_ [D _]]]]. exact (D i e Hi Hc He).
        * intros Nc _. contradiction.
    - assert (Nc : ~ cut_entity cut_cells cut_facets e) by (intros Hc; apply Ic, IN; exists e; auto).
      assert (NI : ~ In (row_of i) idx). { rewrite Hidx. intros I. apply in_map_iff in I. destruct I as [i' [Q I]]. apply INJ in Q. subst i'. contradiction. }
      destruct (in_dec Nat.eq_dec i eids) as [Ie|Ie].
      + assert (He : empty_entity empty_cells empty_facets e). { apply EI in Ie. destruct Ie as [e' [C1 C2]]. rewrite Hi in C1. injection C1 as <-. exact C2. }
        assert (Qi : is_interior dom = false). { destruct (is_interior dom) eqn:Q; [|reflexivity]. exfalso. first [exact (NE Q i e Hi He)|exact (NE eq_refl i e Hi He)]. }
        assert (Ri : row_of i = i) by (unfold row_of; rewrite Qi; reflexivity).
        exists 0%Z. split.
        * rewrite Ri. destruct (In_nth eids i 0 Ie) as [j [Hj Ej]]. assert (Q := A2 j 0%Z Hj). rewrite Ej in Q. rewrite Q. f_equal. apply (nth_map_d (fun _ => 0%Z) 0). exact Hj.
        * split; [intros Hc; contradiction|]. split; [reflexivity|]. intros _ Q. contradiction.
      + exists (-1)%Z. split.
        * rewrite B2 by (intros I; apply ROW in I; destruct I; contradiction). rewrite B1 by exact NI. apply nth_error_repeat. apply row_lt. exact Li.
        * split; [intros Hc; contradiction|]. split; [intros He; exfalso; apply Ie, EI; exists e; auto|reflexivity].
  Qed.

  Lemma pack_ok : exists mem O,
    pack argsort cut_cells empty_cells cut_facets empty_facets create_cells create_facets ctyp all_perms junk ct mixed qds dom gdim fdim cs old = Ret mem
    /\ (forall j, j < E -> nr * nc <= O j /\ seg mem (O j) (map Num (data_of (ent j))))
    /\ (forall i e, entity_at dom i = Some e -> exists z, seg mem (row_of i * nc + cs * ratio ct) (encode_offset ct z) /\ good_offset O i e z)
    /\ (forall r, r < length old -> seg mem (r * nc) (map Num (nth r old [])))
    /\ nr * nc <= length mem.
  Proof.
    destruct quads_ok as [qes [Q1 [Q2 Q3]]]. unfold pack. rewrite Q1. cbn [bind].
    change (custom_ids argsort cut_cells cut_facets dom) with ids. change (length ids) with E.
    assert (Z0 : map (fun _ : nat => 0) ids = map (fun _ => 0) (seq 0 E)) by (exact (by_index (fun _ => 0) 0 ids)).
    rewrite Z0, (nvals_ok mixed dom gdim fdim E qes (fun _ => 0) Q2). cbn [bind].
    set (f := fun j => length (content mixed dom qes j)). change (map (fun j => 0 + length (content mixed dom qes j)) (seq 0 E)) with (map f (seq 0 E)).
    set (mem0 := allocate ct dom cs (map f (seq 0 E))).
    assert (NP := ncols_pos ct cs).
    assert (LM : nr * nc + sum (map f (seq 0 E)) <= length mem0).
    { unfold mem0, allocate. rewrite repeat_length. set (T := sum (map f (seq 0 E))).
      assert (T <= (T + (nc - 1)) / nc * nc). { assert (D := Nat.div_mod (T + (nc - 1)) nc ltac:(lia)). assert (M := Nat.mod_upper_bound (T + (nc - 1)) nc ltac:(lia)). rewrite (Nat.mul_comm _ nc). lia. }
      rewrite Nat.mul_add_distr_r. lia. }
    assert (NCs : cs * ratio ct + n_extra_cols ct * ratio ct = nc) by (unfold ncols; lia).
    destruct (put_rows_ok nc 0 (cs * ratio ct) ltac:(lia) (map (map Num) old) 0 mem0) as [m1 [E1 [L1 [S1 F1]]]].
    { intros r I. apply in_map_iff in I. destruct I as [r' [<- I]]. rewrite map_length. apply OW. exact I. }
    { rewrite map_length. cbn [Nat.add]. assert (length old * nc <= nr * nc) by (apply Nat.mul_le_mono_r; exact OL). lia. }
    rewrite E1. cbn [bind]. rewrite map_length in S1, F1.
    set (O := fun j => nr * nc + sum (map f (seq 0 j))).
    assert (HO : offsets_of ct dom cs (map f (seq 0 E)) = map O (seq 0 E)).
    { unfold offsets_of. rewrite starts_seq. apply map_ext. intros j. rewrite Nat.sub_0_r. reflexivity. }
    unfold compute_offsets. rewrite HO. change (custom_ids argsort cut_cells cut_facets dom) with ids. unfold assert_ at 1. rewrite map_length, seq_length. change (length ids) with E. rewrite Nat.eqb_refl.
    destruct (all_rel_ok O) as [rel [all [R1 [R2 [R3 R4]]]]]. rewrite R1. cbn [bind]. rewrite R2. cbn [bind].
    destruct (put_rows_ok nc (cs * ratio ct) (n_extra_cols ct * ratio ct) ltac:(lia) (map (encode_offset ct) all) 0 m1) as [m2 [E2 [L2 [S2 F2]]]].
    { intros r I. apply in_map_iff in I. destruct I as [z [<- I]]. apply encode_len. }
    { rewrite map_length, R3. cbn [Nat.add]. lia. }
    rewrite E2. cbn [bind fst snd]. rewrite map_length, R3 in S2, F2.
    destruct (copy_vals_ok mixed dom gdim fdim E qes O m2 Q2) as [m3 [E3 [L3 [S3 F3]]]].
    { split.
      - intros i j [Hij Hj]. rewrite map_length. unfold O. change (length (content mixed dom qes i)) with (f i). rewrite <- Nat.add_assoc, <- sum_succ. assert (W := sum_split f (S i) j Hij). lia.
      - intros j Hj. rewrite map_length. unfold O. change (length (content mixed dom qes j)) with (f j). rewrite <- Nat.add_assoc, <- sum_succ. assert (W := sum_split f (S j) E Hj). lia. }
    exists m3, O. split; [exact E3|].
    assert (F3' : forall k, k < nr * nc -> nth_error m3 k = nth_error m2 k) by (intros k Hk; apply F3; intros j _; left; unfold O; lia).
    split; [intros j Hj; split; [unfold O; lia|rewrite <- Q3; apply S3; exact Hj]|]. split; [|split].
    - intros i e Hi. destruct (R4 i e Hi) as [z [Z1 Z2]]. exists z. split; [|exact Z2].
      assert (Lr : row_of i < nr) by (apply row_lt; exact (entity_lt _ _ _ Hi)).
      assert (Lr' : (row_of i + 1) * nc <= nr * nc) by (apply Nat.mul_le_mono_r; lia).
      assert (SS := S2 (row_of i) Lr). cbn [Nat.add] in SS. rewrite (nth_map_d _ 0%Z) in SS by (rewrite R3; exact Lr). rewrite (nth_error_nth all (row_of i) 0%Z Z1) in SS.
      apply (seg_agree m2); [|exact SS]. intros k Hk. rewrite encode_len in Hk. apply F3'. lia.
    - intros r Hr. assert (Lr' : (r + 1) * nc <= nr * nc) by (apply Nat.mul_le_mono_r; lia).
      assert (SS := S1 r Hr). cbn [Nat.add] in SS. rewrite Nat.add_0_r in SS. rewrite (nth_map_d (map Num) []) in SS by exact Hr.
      assert (Lw : length (nth r old []) = cs * ratio ct) by (apply OW, nth_In; exact Hr).
      apply (seg_agree m1); [|exact SS]. intros k Hk. rewrite map_length, Lw in Hk. rewrite F3' by lia. apply F2. intros j Hj. cbn [Nat.add].
      destruct (lt_eq_lt_dec j r) as [[l|e]|l].
      + right. assert ((j + 1) * nc <= r * nc) by (apply Nat.mul_le_mono_r; lia). lia.
      + subst j. left. lia.
      + left. assert ((r + 1) * nc <= j * nc) by (apply Nat.mul_le_mono_r; lia). lia.
    - lia.
  Qed.

  (** The kernel on an entity. *)
  Lemma load_all_ok mem e i : entity_at dom i = Some e -> cut_entity cut_cells cut_facets e -> forall l p, incl l qds ->
    seg mem p (map Num (concat (map (fun qd => block mixed dom (qd_unf qd) (earr qd e)) l))) ->
    load_all mixed dom gdim fdim mem p l = Ret (map (fun qd => expected rc rf ctyp all_perms mixed qd e) l).
  Proof.
    intros Hi Hc.
    assert (KK : forall qd, In qd qds -> eok mixed dom gdim fdim (qd_unf qd) (earr qd e)).
    { intros qd Hq. destruct (create_ok argsort cut_cells empty_cells cut_facets empty_facets rc rf create_cells create_facets ctyp all_perms junk mixed qds dom gdim fdim AS ST qd Hq) as [q [_ [_ [_ K]]]].
      assert (I : In i ids) by (apply (ids_in argsort cut_cells empty_cells cut_facets empty_facets rc rf create_cells create_facets ctyp all_perms mixed qds dom gdim fdim AS ST); exists e; auto).
      destruct (In_nth ids i 0 I) as [j [Hj Ej]]. specialize (K j Hj). unfold L_PyPack5.ent in K. rewrite Ej, Hi in K. exact K. }
    induction l as [|qd l IH]; intros p IN S; [reflexivity|]. cbn [map concat] in S. rewrite map_app, seg_app in S. destruct S as [S1 S2]. rewrite map_length in S2.
    assert (Hq : In qd qds) by (apply IN; left; reflexivity).
    cbn [load_all]. rewrite (load_points_ok mixed dom gdim fdim (qd_unf qd) (earr qd e) mem p (KK qd Hq) S1). cbn [bind fst snd].
    rewrite IH by (first [intros x I; apply IN; right; exact I|exact S2]). cbn [bind map].
    rewrite (loaded_expected cut_cells empty_cells cut_facets empty_facets rc rf create_cells create_facets ctyp all_perms mixed qds dom gdim fdim ST qd e i Hq Hi). reflexivity.
  Qed.
  Lemma read_offset_ok mem p z : seg mem p (encode_offset ct z) -> read_offset ct mem p = Ret z.
  Proof.
    unfold read_offset. destruct ct; cbn [encode_offset]; rewrite ?seg_cons; intros H.
    - destruct H as [-> [-> _]]. reflexivity.
    - destruct H as [-> _]. reflexivity.
    - destruct H as [-> [-> _]]. reflexivity.
    - destruct H as [-> _]. reflexivity.
  Qed.
  (** The right kernel runs on an entity as soon as its offset and its data are in memory. *)
  Lemma run_ok mem O i e z : entity_at dom i = Some e ->
    (forall j, j < E -> nr * nc <= O j /\ seg mem (O j) (map Num (data_of (ent j)))) ->
    seg mem (row_of i * nc + cs * ratio ct) (encode_offset ct z) -> good_offset O i e z ->
    exists k, wrapper ct mixed qds dom gdim fdim mem (row_of i * nc) cs = Ret k
      /\ right_run cut_cells empty_cells cut_facets empty_facets rc rf ctyp all_perms mixed qds e k.
  Proof.
    intros Hi HO S [G1 [G2 G3]]. unfold wrapper. rewrite (read_offset_ok _ _ _ S). cbn [bind].
    assert (Dc : cut_entity cut_cells cut_facets e \/ ~ cut_entity cut_cells cut_facets e).
    { assert (IN := ids_in argsort cut_cells empty_cells cut_facets empty_facets rc rf create_cells create_facets ctyp all_perms mixed qds dom gdim fdim AS ST i).
      destruct (in_dec Nat.eq_dec i ids) as [I|I]; [left|right].
      - apply IN in I. destruct I as [e' [C1 C2]]. rewrite Hi in C1. injection C1 as <-. exact C2.
      - intros Q. apply I, IN. exists e. auto. }
    assert (De : empty_entity empty_cells empty_facets e \/ ~ empty_entity empty_cells empty_facets e).
    { destruct eids_ok as [_ EI]. destruct (in_dec Nat.eq_dec i (empty_ids argsort empty_cells empty_facets dom)) as [I|I]; [left|right].
      - apply EI in I. destruct I as [e' [C1 C2]]. rewrite Hi in C1. injection C1 as <-. exact C2.
      - intros Q. apply I, EI. exists e. auto. }
    destruct Dc as [Hc|Hc].
    - destruct (G1 Hc) as [j [Hj [Ej Ez]]]. destruct (HO j Hj) as [H1 H2].
      assert (Lr : row_of i < nr) by (apply row_lt; exact (entity_lt _ _ _ Hi)).
      assert (Lr' : (row_of i + 1) * nc <= nr * nc) by (apply Nat.mul_le_mono_r; lia). assert (NP := ncols_pos ct cs).
      destruct (Z.ltb_spec 0 z); [|lia].
      replace (Z.to_nat (Z.of_nat (row_of i * nc) + z)) with (O j) by lia.
      rewrite (load_all_ok mem e i Hi Hc qds (O j) (incl_refl _)) by (rewrite <- Ej; exact H2). cbn [bind].
      eexists. split; [reflexivity|]. split; [reflexivity|]. split; [|contradiction].
      intros He. exfalso. destruct ST as [_ [_ [_ [D _]]]]. exact (D i e Hi Hc He).
    - destruct De as [He|He].
      + rewrite (G2 He). cbn. eexists. split; [reflexivity|]. split; [contradiction|]. split; [reflexivity|contradiction].
      + rewrite (G3 Hc He). cbn. eexists. split; [reflexivity|]. split; [contradiction|]. split; [contradiction|reflexivity].
  Qed.
End Run.
