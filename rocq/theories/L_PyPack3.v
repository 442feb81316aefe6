(** Lemmas for the packing of custom coefficients: all the integrands. *)
From Coq Require Import List ZArith Reals Lia Arith.
From Verif Require Import M_PyBase M_PyFacets M_PyQuadUtils M_PyPack S_PyQuadUtils S_PyPack L_PyNodes L_PyQuadUtils L_PyPack L_PyPack2.
Import ListNotations.
Local Open Scope nat_scope.

Lemma concat_concat {A B} (f : A -> list (list B)) : forall l, concat (concat (map f l)) = concat (map (fun x => concat (f x)) l).
Proof. induction l as [|x l IH]; cbn; [reflexivity|]. rewrite concat_app, IH. reflexivity. Qed.
Lemma concat_len {A} n : forall l : list (list A), Forall (fun x => length x = n) l -> length (concat l) = length l * n.
Proof. induction l as [|x l IH]; intros H; cbn; [reflexivity|]. inversion H; subst. rewrite app_length, IH by assumption. reflexivity. Qed.

Section Vals.
  Variables (mixed : bool) (dom : idomain) (gdim fdim : nat).
  Definition rows_ok (n dim : nat) (l : list vec) : Prop := length l = n /\ Forall (fun x => length x = dim) l.
  (** The arrays of a single entity. *)
  Definition eok (unf : bool) (e : pquad) : Prop :=
    p_unf e = unf /\ rows_ok (length (p_w e)) gdim (p_pts e) /\ (is_interior dom = true -> rows_ok (length (p_w e)) gdim (p_pts1 e))
    /\ (mixed = true -> rows_ok (length (p_w e)) fdim (p_fpts e)) /\ (unf = true -> rows_ok (length (p_w e)) gdim (p_nrm e)).
  Definition widths (unf : bool) : list nat :=
    [gdim] ++ (if is_interior dom then [gdim] else []) ++ (if mixed then [fdim] else []) ++ [1] ++ (if unf then [gdim] else []).
  Definition vals_of (unf : bool) (e : pquad) : list (list R) :=
    [concat (p_pts e)] ++ (if is_interior dom then [concat (p_pts1 e)] else []) ++ (if mixed then [concat (p_fpts e)] else []) ++ [p_w e]
    ++ (if unf then [concat (p_nrm e)] else []).
  Lemma vals_len unf e : eok unf e -> length (vals_of unf e) = length (widths unf) /\ forall i, i < length (widths unf) -> length (nth i (vals_of unf e) []) = length (p_w e) * nth i (widths unf) 0.
  Proof.
    intros [_ [H1 [H2 [H3 H4]]]]. unfold vals_of, widths.
    assert (R : forall dim l, rows_ok (length (p_w e)) dim l -> length (concat l) = length (p_w e) * dim) by (intros dim l [A B]; rewrite (concat_len dim) by exact B; rewrite A; reflexivity).
    destruct (is_interior dom), mixed, unf; cbn; (split; [reflexivity|]); intros [|[|[|[|[|i]]]]] Hi; cbn; try lia;
      first [rewrite (R gdim); [reflexivity|auto] | rewrite (R fdim); [reflexivity|auto]].
  Qed.
  (** The quadrature [q] stores the arrays of the entities [e 0], ..., [e (E-1)]. *)
  Definition gath (E : nat) (q : pquad) (e : nat -> pquad) : Prop :=
    p_npts q = map (fun j => length (p_w (e j))) (seq 0 E)
    /\ p_pts q = concat (map (fun j => p_pts (e j)) (seq 0 E))
    /\ (is_interior dom = true -> p_pts1 q = concat (map (fun j => p_pts1 (e j)) (seq 0 E)))
    /\ (mixed = true -> p_fpts q = concat (map (fun j => p_fpts (e j)) (seq 0 E)))
    /\ p_w q = concat (map (fun j => p_w (e j)) (seq 0 E))
    /\ (p_unf q = true -> p_nrm q = concat (map (fun j => p_nrm (e j)) (seq 0 E))).
  Lemma new_vals_gath E q e : gath E q e ->
    new_vals mixed dom q = map (fun i => concat (map (fun j => nth i (vals_of (p_unf q) (e j)) []) (seq 0 E))) (seq 0 (length (widths (p_unf q)))).
  Proof.
    intros [_ [H1 [H2 [H3 [H4 H5]]]]]. unfold new_vals, vals_of, widths. rewrite H1, H4.
    destruct (is_interior dom), mixed, (p_unf q); cbn [app length seq map nth];
      try rewrite (H2 eq_refl); try rewrite (H3 eq_refl); try rewrite (H5 eq_refl); rewrite !concat_concat; reflexivity.
  Qed.
  Lemma sum_app a b : sum (a ++ b) = sum a + sum b.
  Proof. unfold sum. induction a as [|x a IH]; cbn; [reflexivity|]. lia. Qed.
  Lemma concat_sum {B} (f : nat -> list B) (n : nat -> nat) w : forall l, (forall j, In j l -> length (f j) = n j * w) -> length (concat (map f l)) = sum (map n l) * w.
  Proof. induction l as [|j l IH]; intros H; cbn; [reflexivity|]. rewrite app_length, IH by (intros k K; apply H; right; exact K). rewrite H by (left; reflexivity). unfold sum. cbn. lia. Qed.

  (** The numbers packed for one integrand of one entity: the header, then the arrays. *)
  Definition block (unf : bool) (e : pquad) : list R := INR (length (p_w e)) :: concat (vals_of unf e).

  Lemma writesf_app {A} E (mem m mem' : list A) O N1 N2 : disj E O (fun j => N1 j ++ N2 j) (length mem) ->
    writesf E mem m O N1 -> writesf E m mem' (fun j => O j + length (N1 j)) N2 -> writesf E mem mem' O (fun j => N1 j ++ N2 j).
  Proof.
    intros [D1 D2] [L1 [S1 F1]] [L2 [S2 F2]]. split; [congruence|]. split.
    - intros j Hj. apply seg_app. split; [|apply S2; exact Hj]. apply (seg_agree m); [|apply S1; exact Hj].
      intros k Hk. apply F2. intros i Hi. destruct (lt_eq_lt_dec i j) as [[l|e]|l].
      + right. specialize (D1 i j (conj l Hj)). rewrite app_length in D1. lia.
      + subst i. left. lia.
      + left. specialize (D1 j i (conj l Hi)). rewrite app_length in D1. lia.
    - intros k Hk. rewrite F2.
      + apply F1. intros j Hj. specialize (Hk j Hj). rewrite app_length in Hk. lia.
      + intros j Hj. specialize (Hk j Hj). rewrite app_length in Hk. lia.
  Qed.
  Lemma writes_f {A} E (mem mem' : list A) O N : writes mem mem' (map O (seq 0 E)) (map N (seq 0 E)) -> writesf E mem mem' O N.
  Proof.
    intros [L [S F]]. rewrite map_length, seq_length in S, F. split; [exact L|]. split.
    - intros j Hj. specialize (S j Hj). rewrite !nth_seq_map in S by exact Hj. exact S.
    - intros k Hk. apply F. intros j Hj. rewrite !nth_seq_map by exact Hj. apply Hk. exact Hj.
  Qed.
  Lemma disj_chain0 {A} E O (N : nat -> list A) top : disj E O N top -> (0 < E -> True) -> exists b, chain b (map O (seq 0 E)) (map N (seq 0 E)) top.
  Proof.
    intros [D1 D2] _. destruct E as [|E]; [exists 0; cbn; lia|]. exists (O 0). apply disj_chain.
    - specialize (D2 0 ltac:(lia)). lia.
    - lia.
    - intros i j H. apply D1. lia.
    - intros j H. apply D2. lia.
  Qed.

  (** One integrand. *)
  Lemma copy_one E q e O mem : gath E q e -> (forall j, j < E -> eok (p_unf q) (e j)) ->
    disj E O (fun j => map Num (block (p_unf q) (e j))) (length mem) ->
    exists mem1 mem2,
      put_at mem (map O (seq 0 E)) (map (fun n => Num (INR n)) (p_npts q)) = Ret mem1
      /\ (let arrs := new_vals mixed dom q in
          let tot := sum (p_npts q) in
          copy_entities (p_npts q) (map (fun a => if 0 <? tot then length a / tot else length a) arrs) (map (fun _ => 0) arrs) arrs (map (fun o => o + 1) (map O (seq 0 E))) mem1
          = Ret (mem2, map (fun j => O j + length (block (p_unf q) (e j))) (seq 0 E)))
      /\ writesf E mem mem2 O (fun j => map Num (block (p_unf q) (e j))).
  Proof.
    intros G K D. set (unf := p_unf q) in *.
    set (n := fun j => length (p_w (e j))). assert (Hn : p_npts q = map n (seq 0 E)) by (exact (proj1 G)).
    set (N1 := fun j => [Num (INR (n j))]). set (N2 := fun j => map Num (concat (vals_of unf (e j)))).
    assert (DD : disj E O (fun j => N1 j ++ N2 j) (length mem)) by exact D.
    assert (D1 : disj E O N1 (length mem)).
    { destruct DD as [A B]. split; [intros i j H; specialize (A i j H)|intros j H; specialize (B j H)]; rewrite app_length in *; lia. }
    destruct (disj_chain0 E O N1 _ D1 (fun _ => I)) as [b1 C1].
    destruct (put_at_chain (map O (seq 0 E)) b1 (map (fun n => Num (INR n)) (p_npts q)) mem) as [m1 [E1 W1]].
    { rewrite Hn, !map_map. exact C1. }
    rewrite Hn, !map_map in W1. apply writes_f in W1.
    exists m1.
    assert (D2 : disj E (fun j => O j + 1) N2 (length m1)).
    { rewrite (proj1 W1). destruct DD as [A B]. split; [intros i j H; specialize (A i j H)|intros j H; specialize (B j H)]; rewrite app_length in *; cbn [length N1] in *; lia. }
    destruct (disj_chain0 E _ N2 _ D2 (fun _ => I)) as [b2 C2].
    set (arrs := new_vals mixed dom q). set (tot := sum (p_npts q)).
    set (w := fun i => if 0 <? tot then nth i (widths unf) 0 else 0).
    assert (Da : arrs = map (fun i => concat (map (fun j => nth i (vals_of unf (e j)) []) (seq 0 E))) (seq 0 (length (widths unf)))) by (apply new_vals_gath; exact G).
    assert (Ln : forall j i, j < E -> i < length (widths unf) -> length (nth i (vals_of unf (e j)) []) = n j * nth i (widths unf) 0) by (intros j i Hj Hi; exact (proj2 (vals_len unf (e j) (K j Hj)) i Hi)).
    assert (La : forall i, i < length (widths unf) -> length (concat (map (fun j => nth i (vals_of unf (e j)) []) (seq 0 E))) = tot * nth i (widths unf) 0).
    { intros i Hi. unfold tot. rewrite Hn. apply concat_sum. intros j J. apply in_seq in J. apply Ln; [lia|exact Hi]. }
    assert (Hz : tot = 0 -> forall j, j < E -> n j = 0).
    { unfold tot. rewrite Hn. intros Z j Hj. assert (Is : In j (seq 0 E)) by (apply in_seq; lia). clear - Z Is. induction (seq 0 E) as [|x l IH]; [contradiction|]. unfold sum in Z. cbn in Z. destruct Is as [->|Is]; [lia|]. apply IH; [unfold sum; lia|exact Is]. }
    assert (Hnv : map (fun a => if 0 <? tot then length a / tot else length a) arrs = map w (seq 0 (length (widths unf)))).
    { rewrite Da, map_map. apply map_ext_in. intros i Hi. apply in_seq in Hi. rewrite La by lia. unfold w. destruct (Nat.ltb_spec 0 tot) as [l|l].
      - rewrite Nat.mul_comm. apply Nat.div_mul. lia.
      - assert (tot = 0) by lia. rewrite H. reflexivity. }
    assert (Ff : fits_all (p_npts q) (map w (seq 0 (length (widths unf)))) (map (fun _ => 0) arrs) arrs (map (fun j => map (fun i => nth i (vals_of unf (e j)) []) (seq 0 (length (widths unf)))) (seq 0 E))).
    { rewrite Hn. rewrite Da at 1 2. rewrite map_map. apply (fits_all_concat n w (fun j i => nth i (vals_of unf (e j)) []) (seq 0 (length (widths unf))) (seq 0 E) [] (fun _ => 0)).
      - intros j i J I'. cbn [app] in J. apply in_seq in J. apply in_seq in I'. rewrite Ln by lia. unfold w. destruct (Nat.ltb_spec 0 tot) as [l|l]; [reflexivity|].
        rewrite (Hz ltac:(lia) j) by lia. reflexivity.
      - reflexivity.
      - reflexivity. }
    assert (Ev : forall j, j < E -> map (fun i => nth i (vals_of unf (e j)) []) (seq 0 (length (widths unf))) = vals_of unf (e j)).
    { intros j Hj. rewrite <- (proj1 (vals_len unf (e j) (K j Hj))). apply (nth_ext _ _ [] []); [rewrite map_length, seq_length; reflexivity|].
      intros i Hi. rewrite map_length, seq_length in Hi. exact (nth_seq_map (fun i => nth i (vals_of unf (e j)) []) _ i [] Hi). }
    assert (Ed : map (fun j => map (fun i => nth i (vals_of unf (e j)) []) (seq 0 (length (widths unf)))) (seq 0 E) = map (fun j => vals_of unf (e j)) (seq 0 E)).
    { apply map_ext_in. intros j J. apply in_seq in J. apply Ev. lia. }
    rewrite Ed in Ff.
    destruct (copy_entities_ok _ arrs (p_npts q) _ _ (map (fun o => o + 1) (map O (seq 0 E))) b2 m1 Ff) as [m2 [E2 W2]].
    { rewrite !map_map. exact C2. }
    exists m2. split; [exact E1|]. split.
    - cbv zeta. rewrite Hnv. rewrite E2. f_equal. f_equal. rewrite map_map.
      assert (Q : forall (f : nat -> nat) (g : nat -> list (list R)) l, map (fun p => fst p + length (concat (snd p))) (combine (map f l) (map g l)) = map (fun j => f j + length (concat (g j))) l).
      { intros f g l. induction l as [|x l IH]; cbn; [reflexivity|]. f_equal. exact IH. }
      rewrite Q. apply map_ext. intros j. unfold block. cbn [length]. lia.
    - rewrite !map_map in W2. apply writes_f in W2.
      assert (R := writesf_app E mem m1 m2 O N1 N2 DD W1 W2). exact R.
  Qed.

  (** All the integrands: [qes] are the quadratures with the arrays of their entities. *)
  Definition content (qes : list (pquad * (nat -> pquad))) (j : nat) : list R := concat (map (fun x => block (p_unf (fst x)) (snd x j)) qes).
  Lemma copy_vals_ok E : forall qes O mem, (forall x, In x qes -> gath E (fst x) (snd x) /\ forall j, j < E -> eok (p_unf (fst x)) (snd x j)) ->
    disj E O (fun j => map Num (content qes j)) (length mem) ->
    exists mem', copy_vals mixed dom (map fst qes) (map O (seq 0 E)) mem = Ret mem' /\ writesf E mem mem' O (fun j => map Num (content qes j)).
  Proof.
    induction qes as [|[q e] qes IH]; intros O mem H D.
    - exists mem. split; [reflexivity|]. split; [reflexivity|]. split; [intros j Hj; apply seg_nil|reflexivity].
    - destruct (H (q, e) (or_introl eq_refl)) as [G K]. cbn [fst snd] in G, K.
      assert (EQ : forall j, map Num (content ((q, e) :: qes) j) = map Num (block (p_unf q) (e j)) ++ map Num (content qes j)) by (intros j; unfold content; cbn [map concat fst snd]; apply map_app).
      assert (DD : disj E O (fun j => map Num (block (p_unf q) (e j)) ++ map Num (content qes j)) (length mem)).
      { destruct D as [A B]. split; [intros i j Hij; specialize (A i j Hij)|intros j Hj; specialize (B j Hj)]; rewrite EQ in *; assumption. }
      destruct (copy_one E q e O mem G K) as [m1 [m2 [E1 [E2 W]]]].
      { destruct DD as [A B]. split; [intros i j Hij; specialize (A i j Hij)|intros j Hj; specialize (B j Hj)]; rewrite app_length in *; lia. }
      cbn [map fst copy_vals]. rewrite E1. cbn [bind]. cbv zeta in E2. rewrite E2. cbn [bind fst snd].
      destruct (IH (fun j => O j + length (map Num (block (p_unf q) (e j)))) m2) as [m3 [E3 W3]].
      { intros x I. apply H. right. exact I. }
      { rewrite (proj1 W). destruct DD as [A B]. split; [intros i j Hij; specialize (A i j Hij)|intros j Hj; specialize (B j Hj)]; rewrite app_length in *; lia. }
      assert (EO : map (fun j => O j + length (block (p_unf q) (e j))) (seq 0 E) = map (fun j => O j + length (map Num (block (p_unf q) (e j)))) (seq 0 E)) by (apply map_ext; intros j; rewrite map_length; reflexivity).
      rewrite EO, E3. exists m3. split; [reflexivity|].
      assert (R := writesf_app E mem m2 m3 O _ _ DD W W3). destruct R as [R1 [R2 R3]]. split; [exact R1|]. split.
      + intros j Hj. rewrite EQ. apply R2. exact Hj.
      + intros k Hk. apply R3. intros j Hj. specialize (Hk j Hj). rewrite EQ in Hk. exact Hk.
  Qed.

  (** The loaders read the blocks back. *)
  Definition loaded_of (unf : bool) (e : pquad) : loaded :=
    {| l_pts := concat (p_pts e); l_pts1 := if is_interior dom then concat (p_pts1 e) else []; l_fpts := if mixed then concat (p_fpts e) else [];
       l_w := p_w e; l_nrm := if unf then concat (p_nrm e) else [] |}.
  Lemma load_points_ok unf e mem p : eok unf e -> seg mem p (map Num (block unf e)) ->
    load_points mixed dom gdim fdim mem p unf = Ret (loaded_of unf e, p + length (block unf e)).
  Proof.
    intros K S. unfold block in *. cbn [map] in S. rewrite seg_cons in S. destruct S as [S0 S].
    destruct K as [_ [H1 [H2 [H3 H4]]]].
    assert (R : forall dim l, rows_ok (length (p_w e)) dim l -> length (concat l) = dim * length (p_w e)) by (intros dim l [A B]; rewrite (concat_len dim) by exact B; rewrite A; apply Nat.mul_comm).
    assert (RS : forall l n q, length l = n -> seg mem q (map Num l) -> rd mem q n = Ret l) by (intros l n q <-; apply rd_seg).
    unfold load_points. cbn [rd]. rewrite S0. cbn [bind hd]. rewrite Int_part_INR, Nat2Z.id.
    unfold vals_of in *. rewrite !concat_app, !map_app in S.
    rewrite seg_app in S. destruct S as [Sp S]. rewrite seg_app in S. destruct S as [S1 S]. rewrite seg_app in S. destruct S as [S2 S]. rewrite seg_app in S. destruct S as [Sw Sn].
    cbn [concat app] in *. rewrite app_nil_r in *.
    rewrite (RS _ _ _ (R _ _ H1) Sp). cbn [bind].
    rewrite !map_length in *. cbn [length] in *. rewrite !concat_app, !app_length in *. cbn [concat length] in *. rewrite app_nil_r in *.
    unfold loaded_of. rewrite (R _ _ H1) in *.
    destruct (is_interior dom), mixed, unf; cbn [concat map length app bind] in *; rewrite ?app_nil_r in *; rewrite ?Nat.add_0_r in *;
      repeat match goal with
      | H : true = true -> _ |- _ => specialize (H eq_refl)
      end;
      try rewrite (R gdim _ H2) in *; try rewrite (R fdim _ H3) in *; try rewrite (R gdim _ H4) in *;
      try rewrite (RS _ _ _ (R gdim _ H2) S1); cbn [bind]; try rewrite (RS _ _ _ (R fdim _ H3) S2); cbn [bind]; rewrite (RS _ _ _ eq_refl Sw); cbn [bind];
      try rewrite (RS _ _ _ (R gdim _ H4) Sn); cbn [bind];
      rewrite ?app_length; try rewrite (R gdim _ H4) in *; f_equal; f_equal; lia.
  Qed.
End Vals.
