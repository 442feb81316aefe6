(** Which edges generate_wirebasket selects. *)
From Coq Require Import Reals List Lia Lra Permutation Bool Arith ZArith.
From Verif Require Import M_Mesh S_Mesh L_Real L_BBox L_Point L_TensorNat L_Mesh L_Mesh2 L_Mesh3.
Import ListNotations.
Local Close Scope R_scope. Local Close Scope Z_scope. Local Open Scope nat_scope.

Lemma tol_equal_near tol x y : tol_equal tol x y = true <-> near tol x y.
Proof. unfold tol_equal, near. apply Rleb_true. Qed.
Lemma allM_ret {A} (f : A -> outcome bool) (g : A -> bool) l : (forall x, In x l -> f x = Ret (g x)) -> allM f l = Ret (forallb g l).
Proof.
  induction l as [|x l IH]; intros H; cbn [allM forallb]; auto. rewrite (H x) by (left; auto). cbn [bind].
  destruct (g x); cbn [andb]; auto. apply IH. intros; apply H; right; auto.
Qed.
Lemma coincident_near range tol p q : length p = range -> length q = range ->
  (tol_coincident tol p q = true <-> forall d, d < range -> near tol (nth d p 0%R) (nth d q 0%R)).
Proof.
  unfold tol_coincident. revert p q. induction range as [|n IH]; intros [|x p] [|y q] Lp Lq; try discriminate.
  - cbn. split; auto. intros _ d Hd. lia.
  - cbn [combine forallb fst snd]. rewrite andb_true_iff, tol_equal_near, IH by (cbn in *; lia). split.
    + intros [A B] [|d] Hd; cbn [nth]; auto. apply B. lia.
    + intros H. split; [apply (H 0); lia|]. intros d Hd. apply (H (S d)). lia.
Qed.
Lemma point_bounds_len tol dom p range : length p = range -> length (bmin dom) = range -> length (bmax dom) = range -> length (point_bounds tol dom p) = range.
Proof. intros. unfold point_bounds. rewrite map3_length; lia. Qed.
Lemma point_bounds_nth tol dom p range d : length p = range -> length (bmin dom) = range -> length (bmax dom) = range -> d < range ->
  nth d (point_bounds tol dom p) (-1)%Z = if tol_equal tol (nth d p 0%R) (nth d (bmin dom) 0%R) then 0%Z else if tol_equal tol (nth d p 0%R) (nth d (bmax dom) 0%R) then 1%Z else (-1)%Z.
Proof. intros. unfold point_bounds. rewrite (map3_nth _ 0%R 0%R 0%R) by lia. reflexivity. Qed.
Definition shares (ab : Z * Z) : bool := (0 <=? fst ab)%Z && (fst ab =? snd ab)%Z.
Lemma shares_side tol dom p q range d : length p = range -> length q = range -> length (bmin dom) = range -> length (bmax dom) = range -> d < range ->
  (shares (nth d (point_bounds tol dom p) (-1)%Z, nth d (point_bounds tol dom q) (-1)%Z) = true <-> share_side tol (bmin dom) (bmax dom) p q d).
Proof.
  intros Lp Lq L1 L2 Hd. rewrite !(point_bounds_nth tol dom _ range) by auto. unfold shares, share_side, on_side. cbn [fst snd].
  destruct (tol_equal tol (nth d p 0%R) (nth d (bmin dom) 0%R)) eqn:E1, (tol_equal tol (nth d q 0%R) (nth d (bmin dom) 0%R)) eqn:E2,
    (tol_equal tol (nth d p 0%R) (nth d (bmax dom) 0%R)) eqn:E3, (tol_equal tol (nth d q 0%R) (nth d (bmax dom) 0%R)) eqn:E4; cbn;
    (split; [intros K; try discriminate; first [exists false; rewrite <- ?tol_equal_near, ?E1, ?E2, ?E3, ?E4; split; reflexivity | exists true; rewrite <- ?tol_equal_near, ?E1, ?E2, ?E3, ?E4; repeat split; congruence]
            | intros ([|] & A & B); rewrite <- ?tol_equal_near, ?E1, ?E2, ?E3, ?E4 in *; try reflexivity; intuition congruence]).
Qed.
Lemma filter_count {A} (f : A -> bool) (dflt : A) l k : k <= length (filter f l) <-> exists ds, NoDup ds /\ length ds = k /\ forall d, In d ds -> d < length l /\ f (nth d l dflt) = true.
Proof.
  assert (G : length (filter f l) = length (filter (fun d => f (nth d l dflt)) (seq 0 (length l)))).
  { clear. induction l as [|x l IH]; auto. cbn [length]. rewrite <- cons_seq. cbn [filter nth]. rewrite <- seq_shift.
    assert (H : forall s, length (filter (fun d => f (nth d (x :: l) dflt)) (map S s)) = length (filter (fun d => f (nth d l dflt)) s)).
    { clear. induction s as [|a s IH]; auto. cbn [map filter nth]. destruct (f (nth a l dflt)); cbn [length]; auto. }
    destruct (f x); cbn [length]; rewrite H; auto. }
  rewrite G. set (s := filter _ _). assert (Ns : NoDup s) by (apply NoDup_filter, seq_NoDup).
  assert (Is : forall d, In d s <-> d < length l /\ f (nth d l dflt) = true).
  { intros d. unfold s. rewrite filter_In, in_seq. split; intros [A1 A2]; split; auto; lia. }
  split.
  - intros H. exists (firstn k s). split; [|split].
    + rewrite <- (firstn_skipn k s) in Ns. apply NoDup_app_remove_r in Ns. auto.
    + apply firstn_length_le; auto.
    + intros d Hd. apply Is. rewrite <- (firstn_skipn k s). apply in_or_app; auto.
  - intros (ds & N & <- & H). apply NoDup_incl_length; auto. intros d Hd. apply Is. auto.
Qed.
Lemma shared_count range tol dom p q k : length p = range -> length q = range -> length (bmin dom) = range -> length (bmax dom) = range ->
  (negb (length (filter shares (combine (point_bounds tol dom p) (point_bounds tol dom q))) <? k) = true <-> share_sides range tol (bmin dom) (bmax dom) k p q).
Proof.
  intros Lp Lq L1 L2. rewrite negb_true_iff, Nat.ltb_ge, (filter_count _ ((-1)%Z, (-1)%Z)).
  pose proof (point_bounds_len tol dom p range Lp L1 L2) as A. pose proof (point_bounds_len tol dom q range Lq L1 L2) as B.
  unfold share_sides. split; intros (ds & N & L & H); exists ds; (split; [auto|split; [auto|]]); intros d Hd; specialize (H d Hd) as [H1 H2].
  - rewrite combine_length, A, B, Nat.min_id in H1. split; auto. rewrite combine_nth in H2 by lia. apply (shares_side tol dom p q range); auto.
  - rewrite combine_length, A, B, Nat.min_id. split; auto. rewrite combine_nth by lia. apply (shares_side tol dom p q range); auto.
Qed.
Definition pts_of (m : mesh) (ids : list nat) : list (list R) := map (fun i => nth i (m_points m) []) ids.
Lemma in_sub_ok range m ids dom tol k : (forall i, In i ids -> i < length (m_points m)) -> ids <> [] -> Forall (fun p => length p = range) (m_points m) ->
  length (bmin dom) = range -> length (bmax dom) = range ->
  exists b, check_edge_in_subdomain k m ids dom tol = Ret b /\ (b = true <-> forall p, In p (pts_of m ids) -> share_sides range tol (bmin dom) (bmax dom) k (hd [] (pts_of m ids)) p).
Proof.
  intros Hi Ne Fp L1 L2. destruct ids as [|i0 ids]; [congruence|]. rewrite Forall_forall in Fp.
  assert (Lp : forall i, In i (i0 :: ids) -> length (nth i (m_points m) []) = range) by (intros; apply Fp, nth_In; auto).
  unfold check_edge_in_subdomain. rewrite (at_ok _ _ []) by (apply Hi; left; auto). cbn [bind].
  eexists. split.
  - apply (allM_ret _ (fun i => negb (length (filter shares (combine (point_bounds tol dom (nth i0 (m_points m) [])) (point_bounds tol dom (nth i (m_points m) [])))) <? k))).
    intros i Hin. rewrite (at_ok _ _ []) by (apply Hi; auto). reflexivity.
  - rewrite forallb_forall. cbn [pts_of map hd]. split.
    + intros H p Hp. change (In p (pts_of m (i0 :: ids))) in Hp. apply in_map_iff in Hp as (i & <- & Hin). apply (shared_count range); auto. apply Lp; left; auto.
    + intros H i Hin. apply (shared_count range); auto. { apply Lp; left; auto. } apply H. apply (in_map (fun i => nth i (m_points m) []) (i0 :: ids)). auto.
Qed.
Lemma degenerate_ok range m ids tol : (forall i, In i ids -> i < length (m_points m)) -> ids <> [] -> Forall (fun p => length p = range) (m_points m) ->
  exists b, check_degenerate m ids tol = Ret b /\ (b = true <-> collapsed range tol (pts_of m ids)).
Proof.
  intros Hi Ne Fp. destruct ids as [|i0 ids]; [congruence|]. rewrite Forall_forall in Fp.
  assert (Lp : forall i, In i (i0 :: ids) -> length (nth i (m_points m) []) = range) by (intros; apply Fp, nth_In; auto).
  unfold check_degenerate. rewrite (at_ok _ _ []) by (apply Hi; left; auto). cbn [bind]. eexists. split.
  - apply (allM_ret _ (fun i => tol_coincident tol (nth i0 (m_points m) []) (nth i (m_points m) []))). intros i Hin. rewrite (at_ok _ _ []) by (apply Hi; auto). reflexivity.
  - rewrite forallb_forall. unfold collapsed. split.
    + intros H p Hp. apply in_map_iff in Hp as (i & <- & Hin). apply (coincident_near range); auto. apply Lp; left; auto.
    + intros H i Hin. apply (coincident_near range); auto. { apply Lp; left; auto. } apply (H (nth i (m_points m) [])). apply (in_map (fun i => nth i (m_points m) []) (i0 :: ids)). auto.
Qed.
Lemma edge_in_ok range m ids dom tol cf ci : (forall i, In i ids -> i < length (m_points m)) -> ids <> [] -> Forall (fun p => length p = range) (m_points m) ->
  length (bmin dom) = range -> length (bmax dom) = range ->
  exists b, edge_in_wirebasket range m ids dom tol cf ci = Ret b /\ (b = true <-> wire_edge range tol (bmin dom) (bmax dom) cf ci (pts_of m ids)).
Proof.
  intros Hi Ne Fp L1 L2. unfold edge_in_wirebasket, wire_edge.
  destruct (degenerate_ok range m ids tol Hi Ne Fp) as (bd & Ed & Hd). rewrite Ed. cbn [bind].
  destruct (in_sub_ok range m ids dom tol (range - 1) Hi Ne Fp L1 L2) as (b1 & E1 & H1). rewrite E1.
  destruct (in_sub_ok range m ids dom tol 1 Hi Ne Fp L1 L2) as (b2 & E2 & H2). rewrite E2. cbn [bind].
  destruct bd. { exists false. split; auto. split; [discriminate|]. intros [N _]. exfalso. apply N, Hd. auto. }
  assert (Nd : ~ collapsed range tol (pts_of m ids)) by (intros K; apply Hd in K; discriminate).
  destruct b1. { exists true. split; auto. split; auto. intros _. split; auto. left. apply H1. auto. }
  assert (N1 : ~ (forall p, In p (pts_of m ids) -> share_sides range tol (bmin dom) (bmax dom) (range - 1) (hd [] (pts_of m ids)) p)) by (intros K; apply H1 in K; discriminate).
  assert (All : forall c : list R -> bool, forallb (fun i => c (nth i (m_points m) [])) ids = true <-> forall p, In p (pts_of m ids) -> c p = true).
  { intros c. rewrite forallb_forall. split.
    - intros H p Hp. apply in_map_iff in Hp as (i & <- & Hin). auto.
    - intros H i Hin. apply H. apply (in_map (fun i => nth i (m_points m) [])). auto. }
  eexists. split.
  - apply (allM_ret _ (fun i => if b2 then cf (nth i (m_points m) []) else ci (nth i (m_points m) []))). intros i Hin. rewrite (at_ok _ _ []) by (apply Hi; auto). reflexivity.
  - destruct b2.
    + rewrite All. split; [intros H; split; auto; right; left; split; auto; apply H2; auto|]. intros [_ [K|[[_ K]|[K _]]]]; [exfalso; apply (N1 K)|exact K|exfalso; apply K, H2; auto].
    + rewrite All. split.
      * intros H. split; auto. right. right. split; auto. intros K. apply H2 in K. discriminate.
      * intros [_ [K|[[K _]|[_ K]]]]; [exfalso; apply (N1 K)|apply H2 in K; discriminate|exact K].
Qed.
(** The ids returned for a pair (cell, edge). *)
Lemma gwb_ok range dim dom tol cf ci edges : dim = 2 \/ dim = 3 -> forall m, vmesh dim m -> Forall (fun p => length p = range) (m_points m) ->
  length (bmin dom) = range -> length (bmax dom) = range ->
  Forall (fun ce => (fst ce + 1) * m_order m ^ dim <= length (m_conn m) /\ snd ce < edge_count dim) edges ->
  exists chosen, generate_wirebasket range dim m edges dom tol cf ci = Ret (mk_mesh (m_order m) (m_points m) (m_conn m) (m_wires m ++ concat (map snd chosen))) /\
    (exists sel, map fst chosen = filter sel edges /\
      forall ce ids, In ce edges -> get_edge_points dim m (fst ce) (Z.of_nat (snd ce)) = Ret ids -> (sel ce = true <-> wire_edge range tol (bmin dom) (bmax dom) cf ci (pts_of m ids))) /\
    (forall ce ids, In (ce, ids) chosen -> get_edge_points dim m (fst ce) (Z.of_nat (snd ce)) = Ret ids).
Proof.
  intros Hd. set (sel := fun (m : mesh) (ce : nat * nat) => match get_edge_points dim m (fst ce) (Z.of_nat (snd ce)) with
     | Ret ids => match edge_in_wirebasket range m ids dom tol cf ci with Ret b => b | _ => false end | _ => false end).
  intros m V Fp L1 L2 Fe.
  assert (Sel : forall ce ids, In ce edges -> get_edge_points dim m (fst ce) (Z.of_nat (snd ce)) = Ret ids ->
    edge_in_wirebasket range m ids dom tol cf ci = Ret (sel m ce) /\ (sel m ce = true <-> wire_edge range tol (bmin dom) (bmax dom) cf ci (pts_of m ids))).
  { intros ce ids Hin E. destruct V as (Ho & _ & _ & Fc & _). destruct (get_edge_points_len dim m _ _ ids Hd Ho E) as [Li Fi]. specialize (Fi _ Fc). rewrite Forall_forall in Fi.
    destruct (edge_in_ok range m ids dom tol cf ci Fi) as (b & Eb & Hb); auto. { intros ->. cbn in Li. lia. } unfold sel. rewrite E, Eb. auto. }
  exists (flat_map (fun ce => match get_edge_points dim m (fst ce) (Z.of_nat (snd ce)) with Ret ids => if sel m ce then [(ce, ids)] else [] | _ => [] end) edges).
  split; [|split].
  - assert (G : forall w, generate_wirebasket range dim (mk_mesh (m_order m) (m_points m) (m_conn m) w) edges dom tol cf ci =
       Ret (mk_mesh (m_order m) (m_points m) (m_conn m) (w ++ concat (map snd (flat_map (fun ce => match get_edge_points dim m (fst ce) (Z.of_nat (snd ce)) with Ret ids => if sel m ce then [(ce, ids)] else [] | _ => [] end) edges))))).
    { induction edges as [|[c e] edges IH]; intros w; cbn [generate_wirebasket flat_map]; [rewrite app_nil_r; auto|].
      change (get_edge_points dim (mk_mesh (m_order m) (m_points m) (m_conn m) w) c (Z.of_nat e)) with (get_edge_points dim m c (Z.of_nat e)).
      inversion Fe as [|x y [Hc He] Fe']; subst. cbn [fst snd] in *.
      destruct V as (Ho & Rest). rewrite (get_edge_points_ok dim m c e Hd Ho He Hc).
      destruct (Sel (c, e) _ (or_introl eq_refl) (get_edge_points_ok dim m c e Hd Ho He Hc)) as [Ew _]. cbn [bind]. set (ids := sort_edge_points _ _) in *.
      change (edge_in_wirebasket (length (bmin dom)) (mk_mesh (m_order m) (m_points m) (m_conn m) w) ids dom tol cf ci) with (edge_in_wirebasket (length (bmin dom)) m ids dom tol cf ci).
      rewrite Ew. cbn [bind]. pose proof (IH Fe' (fun ce0 ids0 Hin => Sel ce0 ids0 (or_intror Hin))) as IH'. clear IH.
      destruct (sel m (c, e)); cbn [m_order m_points m_conn m_wires app map concat snd fst].
      - rewrite IH', <- app_assoc. reflexivity.
      - apply IH'. }
    specialize (G (m_wires m)). destruct m; exact G.
  - exists (sel m). split; [|intros ce ids Hin E; apply (Sel ce ids); auto].
    clear Sel. induction edges as [|ce edges IH]; auto. inversion Fe as [|x y [Hc He] Fe']; subst. cbn [flat_map filter]. destruct V as (Ho & Rest).
    rewrite (get_edge_points_ok dim m (fst ce) (snd ce) Hd Ho He Hc). destruct (sel m ce); cbn [app map fst]; [f_equal|]; auto.
  - intros ce ids Hin. apply in_flat_map in Hin as (ce' & _ & Hin). destruct (get_edge_points dim m (fst ce') (Z.of_nat (snd ce'))) eqn:E; try contradiction.
    destruct (sel m ce'); [|contradiction]. destruct Hin as [Hin|[]]. injection Hin as <- <-. auto.
Qed.
