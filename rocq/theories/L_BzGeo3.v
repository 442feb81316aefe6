(** Lemmas for the position of the points of a Bezier reparameterization: the top object over a piece of the base. *)
From Coq Require Import Reals List Lia Lra Permutation Sorted Arith ZArith.
From Verif Require Import M_BzReparam S_BzReparam S_BzGeo S_General S_Mesh S_Roots L_Real L_BBox L_Point L_Mesh L_Roots P_Roots L_General L_General2 L_General3 L_Geo1 L_BzReparam L_BzReparam2 L_BzGeo1 L_BzGeo2.
Import ListNotations.
Local Close Scope Z_scope. Local Close Scope nat_scope. Local Open Scope R_scope.

Section Top.
Context {P : Type}.
Variable Z : bz_oracles P.
Hypothesis HZ : bz_sound Z.
Variables (p : P) (k base : nat).
Hypothesis Hk : (k < 2)%nat.
Notation l := (mk_bl 2 [p] k base).
Notation f := (height_value Z p k).
Hypothesis HF : forall x, unit_interval x -> finds_zeros Z p [x] k (over k x).
Variables (a b : R) (ys : list (R -> R)) (positive : list bool).
Hypothesis Hab : a < b.
Hypothesis Ha : 0 <= a.
Hypothesis Hb : b <= 1.
Hypothesis HL : layered f a b ys positive.
Notation xm := (/ 2 * (a + b)).
Hypothesis HS : separated ys xm.
Definition vals (x : R) : list R := map (fun y : R -> R => y x) ys.

Lemma ins_over x y : ins_at [x] k y = over k x y.
Proof. destruct k as [|[|k']]; [reflexivity|reflexivity|lia]. Qed.
Lemma unit_ab x : a <= x <= b -> unit_interval x.
Proof. unfold unit_interval. lra. Qed.
Lemma top_zeros x : unit_interval x -> zeros_of Z l p [x] (f x).
Proof.
  intros Hx. destruct (HF x Hx) as [ND H]. unfold zeros_of, bz_roots. cbn [v_dir]. split; [destruct (z_line Z p [x] k); [apply NoDup_filter; exact ND|constructor]|]. intros y Hy. rewrite <- (H y Hy). rewrite <- ins_over.
  destruct (z_line Z p [x] k); [rewrite filter_In; tauto|]. split; [intros []|intros [E _]; discriminate].
Qed.
Lemma vals_len x : length (vals x) = length ys.
Proof. apply map_length. Qed.
Lemma vals_zero x v : a <= x <= b -> In v (vals x) -> f x v = 0.
Proof. intros Hx Hv. apply in_map_iff in Hv as (y & <- & Hy). apply (ly_zero _ _ _ _ _ HL); assumption. Qed.
Lemma vals_sorted x : a <= x <= b -> StronglySorted Rle (vals x) /\ Forall unit_interval (vals x).
Proof.
  intros Hx. pose proof (ly_order _ _ _ _ _ HL x Hx) as S1. fold (vals x) in S1. inversion S1 as [|? ? S2 F]; subst. apply sorted_app_inv in S2 as (A & _ & C). split; [exact A|].
  apply Forall_forall. intros v Hv. rewrite Forall_forall in F. split; [apply F, in_or_app; left; exact Hv|apply C; [exact Hv|left; reflexivity]].
Qed.
Lemma xm_in : a < xm < b.
Proof. lra. Qed.
(** The roots strictly inside the piece. *)
Lemma strict_roots x : a < x < b -> Permutation (bz_roots Z l p [x]) (vals x).
Proof.
  intros Hx. assert (Hx' : a <= x <= b) by lra. destruct (top_zeros x (unit_ab x Hx')) as [ND H]. apply NoDup_Permutation; [exact ND| |].
  - pose proof (ly_strict _ _ _ _ _ HL x Hx) as S1. fold (vals x) in S1. inversion S1 as [|? ? S2 F]; subst. apply sorted_lt_nodup. apply sorted_app_inv in S2. apply S2.
  - intros y. split; intros Hy.
    + assert (Uy : unit_interval y) by (pose proof (roots_inside Z HZ l p [x]) as F; rewrite Forall_forall in F; apply F; exact Hy). destruct (ly_all _ _ _ _ _ HL x y Hx Uy (proj1 (H y Uy) Hy)) as (g & Hg & ->). apply in_map_iff. eauto.
    + assert (Uy : unit_interval y) by (destruct (vals_sorted x Hx') as [_ F]; rewrite Forall_forall in F; apply F; exact Hy). apply H; [exact Uy|]. apply vals_zero; assumption.
Qed.
Hypothesis HO : forall x, a <= x <= b -> orderly f ys x.
Hypothesis Hbase : (base <= 1)%nat.
Definition close_to (x : R) (ms : list R) : Prop := exists x', a <= x' <= b /\ Rabs (x - x') <= tiny /\ Forall2 (fun m v => Rabs (x - x') + Rabs (m - v) <= 2 * tiny) ms (vals x').
Lemma F2_map_near {A} (g h : A -> R) ms (s : list A) : Forall2 (fun x m => Rabs (g x - m) <= tiny) s ms -> (forall x, In x s -> Rabs (g x - h x) <= tiny) -> Forall2 (fun m v => Rabs (m - v) <= 2 * tiny) ms (map h s).
Proof.
  intros H. induction H as [|x m s ms H1 _ IH]; intros Hs; cbn [map]; constructor; [|apply IH; intros; apply Hs; right; assumption]. specialize (Hs x (or_introl eq_refl)). cases_abs; lra.
Qed.
Lemma f2_unmap (g : R -> R) : forall vs ms, Forall2 (fun u m : R => Rabs (u - m) <= tiny) (map g vs) ms -> Forall2 (fun v m => Rabs (g v - m) <= tiny) vs ms.
Proof. induction vs as [|v vs IH]; intros ms H; inversion H; subst; constructor; [assumption|apply IH; assumption]. Qed.
Lemma F2_near {A B} (Q1 Q2 : A -> B -> Prop) s t : (forall u v, Q1 u v -> Q2 u v) -> Forall2 Q1 s t -> Forall2 Q2 s t.
Proof. intros H. induction 1; constructor; auto. Qed.
Lemma f2_flip {A B} (Q : A -> B -> Prop) (R : B -> A -> Prop) : (forall x y, Q x y -> R y x) -> forall s t, Forall2 Q s t -> Forall2 R t s.
Proof. intros H s t. induction 1; constructor; auto. Qed.
(** The roots over x, for the reference of the middle of the piece. *)
Lemma top_roots ref x rs : a <= x <= b -> iv_ri ref = ent (full_list (fo 1) (tag0 (vals xm))) -> iv_point ref = [xm] -> similar_roots Z l ref 0 p [x] = Ret rs -> length rs = length (vals xm) ->
  forall s ms, Permutation s rs -> StronglySorted Rle s -> Forall2 (fun u m => Rabs (u - m) <= tiny) s ms -> close_to x ms.
Proof.
  intros Hx Er Ep E Lr s ms Ps Ss Hs. pose proof tiny_pos as T0. pose proof tiny_small as T1. destruct (vals_sorted x Hx) as [Sv Uv]. assert (Ux := unit_ab x Hx).
  unfold similar_roots in E. rewrite Er in E. rewrite roots_full in E. assert (EI : ri_func_ids (ent (full_list (fo 1) (tag0 (vals xm)))) = map snd (full_list (fo 1) (tag0 (vals xm)))) by reflexivity. rewrite EI in E. rewrite <- (roots_full 1) in E. cbn [ent ri_roots] in E.
  unfold assert_ in E. replace (length (map fst (full_list (fo 1) (tag0 (vals xm)))) <=? length (map snd (full_list (fo 1) (tag0 (vals xm)))))%nat with true in E by (rewrite !map_length, Nat.leb_refl; reflexivity). rewrite combine_fst_snd in E. set (rr := map fst (filter _ (full_list (fo 1) (tag0 (vals xm))))) in E.
  assert (Lrr : length rr = length ys) by (unfold rr; rewrite (wanted_cnt (full_list (fo 1) (tag0 (vals xm))) 0), cnt_full, cnt_tag0; apply vals_len). rewrite vals_len in Lr.
  clearbody rr. destruct rr as [|r0 rr'] eqn:Err.
  - injection E as <-. cbn in Lr. exists x. split; [exact Hx|]. split; [rewrite Rminus_eq_0, Rabs_R0; lra|]. unfold vals. destruct ys; [|discriminate]. apply Permutation_sym, Permutation_nil in Ps. subst s. inversion Hs. constructor.
  - cbv beta iota zeta in E. rewrite <- Err in *. clear Err r0 rr'.
    assert (Ev : forall y, z_eval Z p (ins_at [x] (v_dir l) y) = f x y) by (intros; cbn [v_dir]; rewrite ins_over; reflexivity).
    destruct (HO x Hx) as [(O1 & O2 & O3 & O4 & O5)|(O1 & O2 & O3)].
    + fold (vals x) in O1, O2, O3, O4, O5. pose proof (complete_ok Z HZ l ref p rr [x] (f x) (vals x) (top_zeros x Ux) Ev ltac:(rewrite vals_len; exact Lrr) Uv (fun v => vals_zero x v Hx) O1 O2 O3 O4 O5) as PC.
      pose proof (Permutation_length PC) as LC. rewrite map_length, vals_len in LC. destruct (Nat.eqb_spec (length (complete_roots Z l ref p rr [x])) (length rr)) as [Eq|Ne]; [|lia]. injection E as <-.
      assert (Es : s = map snap (vals x)) by (apply sorted_unique; [exact Ss|apply snap_sorted; assumption|rewrite Ps; exact PC]). subst s.
      exists x. split; [exact Hx|]. split; [rewrite Rminus_eq_0, Rabs_R0; lra|]. apply f2_unmap in Hs. pose proof (F2_map_near snap (fun v => v) ms (vals x) Hs) as H. rewrite map_id in H. rewrite Rminus_eq_0, Rabs_R0. eapply F2_near; [|apply H].
      * intros u v Huv. cbn beta in Huv |- *. lra.
      * intros v Hv. rewrite Forall_forall in Uv. apply snap_near. apply Uv. exact Hv.
    + pose proof (complete_away Z l ref p rr [x] (f x) Ev O1 O2) as PC. rewrite PC in E.
      assert (Ne : length (filter interior (bz_roots Z l p [x])) <> length rr).
      { rewrite Lrr. destruct (top_zeros x Ux) as [ND H]. apply O3; [apply NoDup_filter; exact ND|]. intros y. rewrite filter_In. split.
        - intros [A B]. assert (Uy : unit_interval y) by (pose proof (roots_inside Z HZ l p [x]) as F; rewrite Forall_forall in F; apply F; exact A). split; [apply interior_away; assumption|apply H; assumption].
        - intros [A B]. assert (Uy : unit_interval y) by (unfold away in A; unfold unit_interval; lra). split; [apply H; assumption|apply interior_away; assumption]. }
      destruct (Nat.eqb_spec (length (filter interior (bz_roots Z l p [x]))) (length rr)) as [Eq|_]; [contradiction|]. cbn [v_base v_dim] in E.
      assert (Bz : base = 0%nat \/ base = 1%nat) by lia. destruct Bz as [Bz|Bz]; rewrite Bz in E; [|discriminate E]. cbn [Nat.max Nat.sub Nat.ltb Nat.leb] in E. destruct backup_head as [ts Et]. rewrite Et in E. cbn [try_roots] in E. rewrite Ep in E. cbn [set_at nth] in E.
      set (x' := (1 - tiny) * x + tiny * xm) in E. assert (Hx' : a < x' < b).
      { unfold x'. pose proof xm_in. split; nra. }
      pose proof (strict_roots x' Hx') as PR. rewrite Bz in PR. pose proof (Permutation_length PR) as LR. rewrite vals_len in LR. rewrite LR, Lrr, Nat.eqb_refl in E. rewrite LR, Nat.eqb_refl in E. rewrite LR, Nat.eqb_refl in E. injection E as <-.
      assert (Hx2 : a <= x' <= b) by lra. destruct (vals_sorted x' Hx2) as [Sv' _]. assert (Es : s = vals x') by (apply sorted_unique; [exact Ss|exact Sv'|rewrite Ps; exact PR]). subst s.
      assert (Dx : Rabs (x - x') <= tiny). { unfold x'. replace (x - ((1 - tiny) * x + tiny * xm)) with (tiny * (x - xm)) by ring. rewrite Rabs_mult, (Rabs_right tiny) by lra. assert (Rabs (x - xm) <= 1) by (cases_abs; lra). nra. }
      exists x'. split; [exact Hx2|]. split; [exact Dx|]. revert Hs. apply f2_flip. intros u m Hum. assert (Rabs (m - u) <= tiny) by (rewrite Rabs_minus_sym; exact Hum). lra.
Qed.
(** The intervals over x. *)
Lemma top_similar ref x iv : a <= x <= b -> iv_ri ref = ent (full_list (fo 1) (tag0 (vals xm))) -> iv_point ref = [xm] -> similar_intervals Z l ref [x] = Ret iv ->
  exists ms, ri_roots (iv_ri iv) = 0 :: ms ++ [1] /\ iv_active iv = iv_active ref /\ StronglySorted Rle (0 :: ms ++ [1]) /\ length ms = length ys /\ Forall unit_interval ms /\ close_to x ms.
Proof.
  intros Hx Er Ep E. assert (Hm : a <= xm <= b) by (pose proof xm_in; lra). destruct (vals_sorted xm Hm) as [_ Um].
  destruct (unit_similar Z HZ l p eq_refl ref (vals xm) [x] (close_to x) iv Um Er) as (ms & A & B & S1 & C & D).
  - intros E0. exists x. split; [exact Hx|]. split; [rewrite Rminus_eq_0, Rabs_R0; pose proof tiny_pos; lra|]. unfold vals in *. destruct ys; [constructor|discriminate].
  - intros rs Es Lr _ s ms. exact (top_roots ref x rs Hx Er Ep Es Lr s ms).
  - exact E.
  - exists ms. rewrite vals_len in C. repeat (split; [assumption|]). split; [|exact D]. inversion S1 as [|? ? S2 F]; subst. apply sorted_app_inv in S2 as (_ & _ & G). apply Forall_forall. intros v Hv. rewrite Forall_forall in F.
    split; [apply F, in_or_app; left; exact Hv|apply G; [exact Hv|left; reflexivity]].
Qed.

(** The reference intervals: the active intervals are between graphs where f is not positive. *)
Definition ref_good (lev : bool) (ref : intervals) : Prop :=
  iv_ri ref = ent (full_list (fo 1) (tag0 (vals xm))) /\ iv_point ref = [xm] /\ length (iv_active ref) = S (length ys) /\
  (forall i, nth i (iv_active ref) false = true -> if lev then (i < length ys)%nat else nth i positive false = false).
Lemma fold_acts {X} (g : nat -> R -> R -> bool) (roots : list R) (rup : X) : forall n s act st,
  foldM (fun (st : list bool * X) i => v <- M_Mesh.at_ (fst st) i ;; if v : bool then x0 <- M_Mesh.at_ roots i ;; x1 <- M_Mesh.at_ roots (S i) ;; Ret (set_at (fst st) i (g i x0 x1), snd st) else Ret st) (seq s n) (act, rup) = Ret st ->
  snd st = rup /\ length (fst st) = length act /\ forall i, nth i (fst st) false = true -> nth i act false = true /\ ((s <= i < s + n)%nat -> g i (nth i roots 0) (nth (S i) roots 0) = true).
Proof.
  induction n as [|n IH]; intros s act st E; cbn [seq foldM] in E; [injection E as <-; cbn; split; [reflexivity|]; split; [reflexivity|]; intros i Hi; split; [exact Hi|lia]|].
  apply bind_inv in E as ([act1 rup1] & E1 & E). cbn [fst snd] in E1. apply bind_inv in E1 as (v & Ev & E1).
  unfold M_Mesh.at_ in Ev, E1. destruct (nth_error act s) as [v'|] eqn:Ea; [|discriminate]. injection Ev as ->. destruct v.
  - destruct (nth_error roots s) as [x0|] eqn:E0; [|discriminate]. cbn [bind] in E1. destruct (nth_error roots (S s)) as [x1|] eqn:E2; [|discriminate]. cbn [bind] in E1. injection E1 as <- <-.
    destruct (IH _ _ _ E) as (A & B & C). rewrite set_at_length in B. split; [exact A|]. split; [exact B|]. intros i Hi. destruct (C i Hi) as [C1 C2].
    assert (Ls : (s < length act)%nat) by (apply nth_error_Some; congruence). rewrite set_at_nth in C1.
    destruct (Nat.eqb_spec s i) as [->|Ne].
    + split; [apply nth_error_nth with (d := false) in Ea; exact Ea|]. intros _. rewrite (nth_error_nth _ _ 0 E0), (nth_error_nth _ _ 0 E2). destruct (Nat.ltb_spec i (length act)); [exact C1|lia].
    + split; [exact C1|]. intros Hr. apply C2. lia.
  - injection E1 as <- <-. destruct (IH _ _ _ E) as (A & B & C). split; [exact A|]. split; [exact B|]. intros i Hi. destruct (C i Hi) as [C1 C2]. split; [exact C1|]. intros Hr. apply C2.
    destruct (Nat.eq_dec i s) as [->|Ne]; [|lia]. apply nth_error_nth with (d := false) in Ea. congruence.
Qed.
Lemma changes_true : forall act i, nth i (changes act) false = true -> (S i < length act)%nat.
Proof.
  induction act as [|v act IH]; intros i H; [destruct i; discriminate|]. destruct act as [|w act]; [destruct i as [|[|i]]; discriminate|]. cbn [changes] in H. destruct i as [|i]; [cbn; lia|]. cbn [nth] in H. apply IH in H. cbn [length] in *. lia.
Qed.
Definition ends (x : R) : list R := 0 :: vals x ++ [1].
Lemma ends_len x : length (ends x) = S (S (length ys)).
Proof. unfold ends. cbn [length]. rewrite app_length, vals_len. cbn [length]. lia. Qed.
Lemma ref_top lev r tid rs : ref_intervals Z lev [l] [r] [xm] tid = Ret rs -> exists ref, rs = [emplace r tid ref] /\ ref_good lev ref.
Proof.
  intros E. cbn [ref_intervals v_dim v_dir] in E. apply bind_inv in E as (iv & Ei & E). assert (Hm : a <= xm <= b) by (pose proof xm_in; lra). assert (Um := unit_ab xm Hm).
  destruct (ref_unit Z HZ l p eq_refl [xm] (f xm) (vals xm) iv (top_zeros xm Um) HS) as (A & B & C).
  { intros v Hv. apply vals_zero; assumption. }
  { intros y Hy H0. destruct (ly_all _ _ _ _ _ HL xm y xm_in Hy H0) as (g & Hg & ->). apply in_map_iff. eauto. }
  { exact Ei. }
  apply bind_inv in E as (st & Est & E). cbn [Nat.eqb] in Est. rewrite A, roots_full, tag0_fst in Est. fold (ends xm) in Est, C.
  pose proof (fold_acts (fun i x0 x1 => point_inside Z l (ins_at [xm] k (/ 2 * (x0 + x1)))) (ends xm) (@nil refmap) (length (iv_active iv)) 0 (iv_active iv) st Est) as (S1 & S2 & S3).
  assert (La : length (iv_active iv) = S (length ys)) by (rewrite C, wide_len, ends_len; lia).
  injection E as <-. rewrite S1. eexists. split; [reflexivity|]. unfold ref_good. cbn [iv_ri iv_point iv_active]. split; [exact A|]. split; [reflexivity|]. split; [destruct lev; [rewrite changes_len|]; congruence|].
  intros i Hi. destruct lev.
  - apply changes_true in Hi. rewrite S2, La in Hi. lia.
  - destruct (Nat.lt_ge_cases i (S (length ys))) as [Hr|Hr]; [|rewrite nth_overflow in Hi by lia; discriminate]. destruct (S3 i Hi) as [_ In_]. specialize (In_ ltac:(lia)). set (y := / 2 * (nth i (ends xm) 0 + nth (S i) (ends xm) 0)) in *.
    assert (Le : f xm y <= 0).
    { unfold point_inside in In_. cbn [v_phi forallb] in In_. rewrite Bool.andb_true_r, Bool.negb_true_iff in In_. apply Rltb_false in In_. rewrite ins_over in In_. exact In_. }
    destruct (nth i positive false) eqn:Ep; [|reflexivity]. exfalso. pose proof (ly_strict _ _ _ _ _ HL xm xm_in) as St. fold (vals xm) in St. fold (ends xm) in St.
    assert (Hlt : nth i (ends xm) 0 < nth (S i) (ends xm) 0) by (apply (sorted_nth _ 0); [exact St|rewrite ends_len; lia]).
    assert (Hy : nth i (ends xm) 0 < y < nth (S i) (ends xm) 0) by (unfold y; lra).
    pose proof (ly_sign _ _ _ _ _ HL xm y i Hm Hr) as Sg. cbv zeta in Sg. fold (vals xm) in Sg. fold (ends xm) in Sg. specialize (Sg ltac:(lra)). rewrite Ep in Sg.
    assert (Uy : unit_interval y).
    { assert (Fe : forall v, In v (ends xm) -> unit_interval v). { destruct (vals_sorted xm Hm) as [_ Fv]. intros v [<-|Hv]; [unfold unit_interval; lra|]. apply in_app_or in Hv as [Hv|[<-|[]]]; [rewrite Forall_forall in Fv; auto|unfold unit_interval; lra]. }
      assert (U0 := Fe _ (nth_In (ends xm) 0 (n := i) ltac:(rewrite ends_len; lia))). assert (U1 := Fe _ (nth_In (ends xm) 0 (n := S i) ltac:(rewrite ends_len; lia))). unfold unit_interval in *. lra. }
    destruct (ly_all _ _ _ _ _ HL xm y xm_in Uy ltac:(lra)) as (g & Hg & Eg). assert (Iy : In y (ends xm)) by (right; apply in_or_app; left; rewrite Eg; apply in_map_iff; eauto).
    destruct (In_nth _ _ 0 Iy) as (j & Hj & Ej). destruct (Nat.lt_trichotomy j i) as [C1|[C1|C1]].
    + pose proof (sorted_nth _ 0 _ j i St ltac:(rewrite ends_len; lia)). lra.
    + subst j. lra.
    + destruct (Nat.eq_dec j (S i)) as [->|Ne]; [lra|]. pose proof (sorted_nth _ 0 _ (S i) j St ltac:(lia)). lra.
Qed.

(** The values at the points that are near the graphs. *)
Variable L : R.
Hypothesis Hslope : slope Z p k L.
Lemma near_graph x ms i : a <= x <= b -> Forall unit_interval ms -> length ms = length ys -> close_to x ms -> (i < length ys)%nat -> Rabs (f x (nth i ms 0)) <= 2 * L * tiny.
Proof.
  intros Hx Fm Lm (x' & Hx' & _ & F2) Hi. destruct Hslope as [L0 HSl]. assert (N : Rabs (x - x') + Rabs (nth i ms 0 - nth i (vals x') 0) <= 2 * tiny).
  { clear -F2 Hi Lm. assert (Hi' : (i < length ms)%nat) by lia. clear Hi Lm. revert i Hi'. induction F2 as [|m v ms vs H _ IH]; intros i Hi; [cbn in Hi; lia|]. destruct i as [|i]; [exact H|]. cbn [nth]. apply IH. cbn in Hi. lia. }
  assert (Iv : In (nth i (vals x') 0) (vals x')) by (apply nth_In; rewrite vals_len; exact Hi). pose proof (vals_zero x' _ Hx' Iv) as E0.
  assert (Uv : unit_interval (nth i (vals x') 0)) by (destruct (vals_sorted x' Hx') as [_ F]; rewrite Forall_forall in F; apply F; exact Iv).
  assert (Um : unit_interval (nth i ms 0)) by (rewrite Forall_forall in Fm; apply Fm, nth_In; lia).
  pose proof (HSl x (nth i ms 0) x' (nth i (vals x') 0) (unit_ab x Hx) Um (unit_ab x' Hx') Uv) as B. rewrite E0, Rminus_0_r in B. eapply Rle_trans; [exact B|]. rewrite (Rmult_comm 2 L), Rmult_assoc. apply Rmult_le_compat_l; assumption.
Qed.
Lemma near_ends x x' ms i : Rabs (x - x') <= tiny -> Forall2 (fun m v => Rabs (x - x') + Rabs (m - v) <= 2 * tiny) ms (vals x') -> (i < S (S (length ys)))%nat -> Rabs (x - x') + Rabs (nth i (0 :: ms ++ [1]) 0 - nth i (ends x') 0) <= 2 * tiny.
Proof.
  intros Hx F2 Hi. assert (F3 : Forall2 (fun m v => Rabs (x - x') + Rabs (m - v) <= 2 * tiny) (0 :: ms ++ [1]) (ends x')).
  { unfold ends. constructor; [rewrite Rminus_0_r, Rabs_R0; pose proof tiny_pos; lra|]. apply Forall2_app; [exact F2|]. constructor; [rewrite Rminus_eq_0, Rabs_R0; pose proof tiny_pos; lra|constructor]. }
  assert (Hi' : (i < length (0%R :: ms ++ [1%R]))%nat). { rewrite (F2_len _ _ _ F3), ends_len. exact Hi. } clear -F3 Hi'. revert i Hi'. induction F3 as [|m v s t H _ IH]; intros i Hi; [cbn in Hi; lia|]. destruct i as [|i]; [exact H|]. cbn [nth]. apply IH. cbn in Hi. lia.
Qed.
Lemma near_strip x ms i y : a <= x <= b -> Forall unit_interval ms -> length ms = length ys -> close_to x ms -> (i < S (length ys))%nat -> nth i positive false = false ->
  nth i (0 :: ms ++ [1]) 0 <= y <= nth (S i) (0 :: ms ++ [1]) 0 -> f x y <= 2 * L * tiny.
Proof.
  intros Hx Fm Lm (x' & Hx' & Dx & F2) Hi Hp Hy. destruct Hslope as [L0 HSl].
  pose proof (near_ends x x' ms i Dx F2 ltac:(lia)) as N0. pose proof (near_ends x x' ms (S i) Dx F2 ltac:(lia)) as N1.
  assert (Fe : forall v, In v (ends x') -> unit_interval v). { destruct (vals_sorted x' Hx') as [_ Fv]. intros v [<-|Hv]; [unfold unit_interval; lra|]. apply in_app_or in Hv as [Hv|[<-|[]]]; [rewrite Forall_forall in Fv; auto|unfold unit_interval; lra]. }
  assert (Fr : forall v, In v (0 :: ms ++ [1]) -> unit_interval v). { intros v [<-|Hv]; [unfold unit_interval; lra|]. apply in_app_or in Hv as [Hv|[<-|[]]]; [rewrite Forall_forall in Fm; auto|unfold unit_interval; lra]. }
  assert (Lr : length (0%R :: ms ++ [1%R]) = S (S (length ys))) by (cbn [length]; rewrite app_length; cbn [length]; lia).
  assert (U0 := Fe _ (nth_In (ends x') 0 (n := i) ltac:(rewrite ends_len; lia))). assert (U1 := Fe _ (nth_In (ends x') 0 (n := S i) ltac:(rewrite ends_len; lia))).
  assert (R0 := Fr _ (nth_In (0 :: ms ++ [1]) 0 (n := i) ltac:(lia))). assert (R1 := Fr _ (nth_In (0 :: ms ++ [1]) 0 (n := S i) ltac:(lia))).
  pose proof (ly_order _ _ _ _ _ HL x' Hx') as So. fold (vals x') in So. fold (ends x') in So. pose proof (sorted_nth _ 0 _ i (S i) So ltac:(rewrite ends_len; lia)) as Ho. cbn beta in Ho.
  pose proof (fun y' => ly_sign _ _ _ _ _ HL x' y' i Hx' Hi) as Sg. cbv zeta in Sg. fold (vals x') in Sg. fold (ends x') in Sg. rewrite Hp in Sg.
  set (r0 := nth i (0 :: ms ++ [1]) 0) in *. set (r1 := nth (S i) (0 :: ms ++ [1]) 0) in *. set (u0 := nth i (ends x') 0) in *. set (u1 := nth (S i) (ends x') 0) in *. clearbody r0 r1 u0 u1.
  assert (Ex : exists y', u0 <= y' <= u1 /\ Rabs (x - x') + Rabs (y - y') <= 2 * tiny).
  { destruct (Rle_dec y u0); [exists u0; split; [lra|]; cases_abs; lra|]. destruct (Rle_dec y u1); [exists y; split; [lra|]; rewrite Rminus_eq_0, Rabs_R0; pose proof tiny_pos; lra|]. exists u1. split; [lra|]. cases_abs; lra. }
  destruct Ex as (y' & Hy' & N). specialize (Sg y' Hy'). unfold unit_interval in *.
  pose proof (HSl x y x' y' ltac:(unfold unit_interval; lra) ltac:(unfold unit_interval; lra) ltac:(unfold unit_interval; lra) ltac:(unfold unit_interval; lra)) as B.
  assert (B2 : L * (Rabs (x - x') + Rabs (y - y')) <= L * (2 * tiny)) by (apply Rmult_le_compat_l; assumption). pose proof (Rle_abs (f x y - f x' y')). lra.
Qed.
End Top.
