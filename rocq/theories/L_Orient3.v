(** C48 (geometry), C49, C83. *)
From Coq Require Import Reals List Lia Lra Arith Permutation ZArith.
From Coquelicot Require Import Coquelicot.
From Verif Require Import M_Orient S_Orient S_Lagrange S_Mesh S_Affine L_Real L_Point L_BBox L_TensorNat L_Poly L_Poly2 L_Poly3 L_Poly4 L_Poly5 L_Poly6 L_Poly8 L_Lagrange.
From Verif Require Import L_Mesh L_Mesh2 L_Mesh3 L_Mesh5 L_Orient L_Orient2.
Import ListNotations.
Local Close Scope Z_scope. Local Close Scope nat_scope. Local Open Scope R_scope.

Definition rangem (range : nat) (m : mesh) : Prop := Forall (fun p => length p = range) (m_points m).
(** ** C49 *)
Lemma decide_full cheb fresh dim k n pts : dim = 2%nat \/ dim = 3%nat -> zero_init dim fresh -> (2 <= n)%nat -> length pts = (n ^ dim)%nat -> Forall (fun p => length p = dim) pts ->
  compute_determinant dim (map (fun dir => accumulate (nth dir (map (fun dir => map (termp (dF (fun i => cheb i n) n (centre dim) dir) dim) (T dim n)) (seq 0 dim)) []) pts (fresh k dir)) (seq 0 dim)) =
  cell_jacobian (fun i => cheb i n) dim n pts (centre dim).
Proof.
  intros Hdim Hz Hn HL F. rewrite <- det_ok by assumption. f_equal. apply map_ext_in. intros dir Hd. apply in_seq in Hd.
  apply (row_ok cheb dim n Hn (centre dim) (centre_length dim)); [assumption|assumption|lia|apply Hz].
Qed.
Lemma C49_proof cheb fresh dim m n ids : dim = 2%nat \/ dim = 3%nat -> zero_init dim fresh ->
  vm dim m -> length (m_conn m) = (n * m_order m ^ dim)%nat -> rangem dim m -> Forall (fun c => (c < n)%nat) ids ->
  let J := fun m c => cell_jacobian (fun i => cheb i (m_order m)) dim (m_order m) (gp dim m c) (centre dim) in
  exists m', orient_cells_positively cheb fresh dim m ids = Ret m' /\ vm dim m' /\
    m_order m' = m_order m /\ m_points m' = m_points m /\ m_wires m' = m_wires m /\ length (m_conn m') = length (m_conn m) /\
    (forall c, ~ In c ids -> group_ids (m_order m ^ dim) (m_conn m') c = group_ids (m_order m ^ dim) (m_conn m) c) /\
    (forall c, In c ids -> 0 <= J m' c) /\
    (forall c, In c ids -> 0 <= J m c -> gp dim m' c = gp dim m c) /\
    (forall c, In c ids -> J m c < 0 -> flip_pts dim (m_order m) (gp dim m c) (gp dim m' c)) /\
    orient_cells_positively cheb fresh dim m' ids = Ret m'.
Proof.
  intros Hdim Hz Hv Hn Fp Fi J. assert (H2 := Hv). destruct H2 as (Ho & _). assert (Hd1 : (1 <= dim)%nat) by (destruct Hdim; lia). set (o := m_order m) in *.
  set (decide := fun (k : nat) pts => Rltb (compute_determinant dim (map (fun dir => accumulate (nth dir (map (fun dir => map (termp (dF (fun i => cheb i o) o (centre dim) dir) dim) (T dim o)) (seq 0 dim)) []) pts (fresh k dir)) (seq 0 dim))) 0).
  set (dec := fun pts => Rltb (cell_jacobian (fun i => cheb i o) dim o pts (centre dim)) 0).
  assert (EqO : forall mm, m_order mm = o -> orient_cells_positively cheb fresh dim mm ids = orient_loop dim decide 0 ids mm).
  { intros mm E. unfold orient_cells_positively. fold (centre dim). rewrite E. rewrite (ders_eq cheb dim o Ho (centre dim) (centre_length dim)). cbn [bind]. reflexivity. }
  assert (Hdec : forall k mm c, okm dim n o (m_points m) mm -> (c < n)%nat -> decide k (gp dim mm c) = dec (gp dim mm c)).
  { intros k mm c (V & Eo & Ep & El) Hc. unfold decide, dec. rewrite decide_full; [reflexivity|assumption|assumption|assumption|rewrite gp_length; congruence|].
    apply (gp_range dim dim mm n); rewrite ?Eo; try assumption. rewrite Ep. assumption. }
  assert (Hflip : forall mm c mm', okm dim n o (m_points m) mm -> okm dim n o (m_points m) mm' -> (c < n)%nat -> dec (gp dim mm c) = true -> flip_pts dim o (gp dim mm c) (gp dim mm' c) -> dec (gp dim mm' c) = false).
  { intros mm c mm' _ _ _ D Pf. unfold dec in *. apply Rltb_true in D. apply Rltb_false.
    rewrite (cell_jacobian_flip _ dim o (gp dim mm c) (gp dim mm' c)) by (assumption || apply centre_length). rewrite flip_centre. lra. }
  assert (O1 : okm dim n o (m_points m) m) by (split; [assumption|split; [reflexivity|split; [reflexivity|assumption]]]).
  destruct (loop_ok dim Hd1 n o (m_points m) decide dec Hdec Hflip ids O m O1 Fi) as (m' & E' & O' & S' & K' & D' & F').
  assert (O2 := O'). destruct O2 as (V' & Eo' & Ep' & El'). destruct S' as (Ew & Pc).
  exists m'. split; [rewrite EqO by reflexivity; exact E'|]. split; [assumption|]. split; [assumption|]. split; [assumption|]. split; [assumption|]. split; [congruence|]. split; [assumption|].
  unfold J. fold o. rewrite Forall_forall in Fi.
  split; [intros c Hc; apply D' in Hc; unfold dec in Hc; apply Rltb_false in Hc; rewrite Eo'; exact Hc|].
  split; [intros c Hc HJ; apply K'; [apply Fi; assumption|unfold dec; apply Rltb_false; exact HJ]|].
  split; [intros c Hc HJ; apply F'; [assumption|unfold dec; apply Rltb_true; exact HJ]|].
  rewrite EqO by assumption. apply (loop_idem dim Hd1 n o (m_points m) decide dec Hdec Hflip); [assumption|apply Forall_forall; assumption|assumption].
Qed.
Lemma orient_abort cheb fresh dim m n c ids : vm dim m -> length (m_conn m) = (n * m_order m ^ dim)%nat -> (n <= c)%nat -> orient_cells_positively cheb fresh dim m (c :: ids) = Abort.
Proof.
  intros Hv Hn Hc. unfold orient_cells_positively. assert (H2 := Hv). destruct H2 as (Ho & _). fold (centre dim). rewrite (ders_eq cheb dim _ Ho (centre dim) (centre_length dim)). cbn [bind].
  apply (loop_abort dim _ O n); assumption.
Qed.
(** the nodes matter only up to the order *)
Lemma lagrange_nodes c c' n i x : (forall j, (j < n)%nat -> c j = c' j) -> (i < n)%nat -> lagrange c n i x = lagrange c' n i x.
Proof. intros E Hi. unfold lagrange. f_equal. apply map_ext_in. intros j Hj. apply in_seq in Hj. rewrite !E by lia. reflexivity. Qed.
Lemma cell_map_nodes c c' dim n pts xi comp : (0 < n)%nat -> (forall j, (j < n)%nat -> c j = c' j) -> cell_map c dim n pts xi comp = cell_map c' dim n pts xi comp.
Proof.
  intros Hn E. unfold cell_map, sum_n. f_equal. apply map_ext. intros k. f_equal. f_equal. apply map_ext. intros d. apply lagrange_nodes; [assumption|]. apply Nat.mod_upper_bound. lia.
Qed.
Lemma cell_derivative_nodes c c' dim n pts xi dir comp : (0 < n)%nat -> (forall j, (j < n)%nat -> c j = c' j) -> cell_derivative c dim n pts xi dir comp = cell_derivative c' dim n pts xi dir comp.
Proof. intros Hn E. unfold cell_derivative. apply Derive_ext. intros s. apply cell_map_nodes; assumption. Qed.
Lemma tangent_nodes c c' dim range n pts xi dir : (0 < n)%nat -> (forall j, (j < n)%nat -> c j = c' j) -> tangent c dim range n pts xi dir = tangent c' dim range n pts xi dir.
Proof. intros Hn E. unfold tangent. apply map_ext. intros comp. apply cell_derivative_nodes; assumption. Qed.
Lemma cell_jacobian_nodes c c' dim n pts xi : (0 < n)%nat -> (forall j, (j < n)%nat -> c j = c' j) -> cell_jacobian c dim n pts xi = cell_jacobian c' dim n pts xi.
Proof. intros Hn E. unfold cell_jacobian. cbv zeta. rewrite !(tangent_nodes c c') by assumption. reflexivity. Qed.

(** ** level sets *)
Lemma dot_v_sum a b : dot_v a b = rsum (map2 Rmult a b).
Proof. unfold dot_v. rewrite <- (map_id (map2 Rmult a b)) at 2. rewrite <- (Rplus_0_l (rsum _)), <- (fold_left_sum (fun x => x)). reflexivity. Qed.
Lemma dot_v_scal k a : forall b, dot_v (map (fun x => x / k) a) b = dot_v a b / k.
Proof.
  intros b. rewrite !dot_v_sum. revert b. induction a as [|x a IH]; intros [|y b]; cbn [map map2]; try (unfold rsum; simpl; unfold Rdiv; ring).
  rewrite !rsum_cons, IH. unfold Rdiv. ring.
Qed.
Lemma dot_v_opp a : forall b, dot_v (map Ropp a) b = - dot_v a b.
Proof. intros b. rewrite !dot_v_sum. revert b. induction a as [|x a IH]; intros [|y b]; cbn [map map2]; try (unfold rsum; simpl; ring). rewrite !rsum_cons, IH. ring. Qed.
Lemma vec_norm_opp a : vec_norm (map Ropp a) = vec_norm a.
Proof. unfold vec_norm. f_equal. generalize 0. induction a as [|x a IH]; intros v; [reflexivity|]. cbn [map fold_left]. rewrite IH. f_equal. ring. Qed.
Lemma vec_norm_pos a : 0 <= vec_norm a. Proof. apply sqrt_pos. Qed.
Lemma sqsum_ge a : forall v, v <= fold_left (fun a x => a + x * x) a v.
Proof. induction a as [|x a IH]; intros v; [simpl; lra|]. cbn [fold_left]. specialize (IH (v + x * x)). nra. Qed.
Lemma vec_norm_zero a : vec_norm a = 0 -> Forall (fun x => x = 0) a.
Proof.
  intros H. unfold vec_norm in H. apply sqrt_eq_0 in H; [|apply sqsum_ge].
  assert (G : forall a v, 0 <= v -> fold_left (fun a x => a + x * x) a v = 0 -> v = 0 /\ Forall (fun x => x = 0) a).
  { clear. induction a as [|x a IH]; intros v Hv H; [simpl in H; split; [assumption|constructor]|]. cbn [fold_left] in H. destruct (IH (v + x * x)) as [A B]; [nra|assumption|]. split; [nra|]. constructor; [nra|assumption]. }
  apply (G a 0); [lra|assumption].
Qed.
Lemma dot_v_zero a : forall b, Forall (fun x => x = 0) a -> dot_v a b = 0.
Proof. intros b. rewrite dot_v_sum. revert b. induction a as [|x a IH]; intros [|y b] F; try reflexivity. inversion F; subst. cbn [map2]. rewrite rsum_cons, IH by assumption. ring. Qed.
Lemma normalized_sign v w : 0 <= dot_v (normalize v) w <-> 0 <= dot_v v w.
Proof.
  unfold normalize. rewrite dot_v_scal. destruct (Req_dec (vec_norm v) 0) as [E|E].
  - rewrite (dot_v_zero v w) by (apply vec_norm_zero; assumption). unfold Rdiv. rewrite Rmult_0_l. tauto.
  - assert (0 < vec_norm v) by (generalize (vec_norm_pos v); lra). split; intros HH.
    + replace (dot_v v w) with (dot_v v w / vec_norm v * vec_norm v) by (field; assumption). nra.
    + apply Rmult_le_pos; [assumption|]. left. apply Rinv_0_lt_compat. assumption.
Qed.
Lemma dot_v_comm a : forall b, dot_v a b = dot_v b a.
Proof. intros b. rewrite !dot_v_sum. revert b. induction a as [|x a IH]; intros [|y b]; try reflexivity. cbn [map2]. rewrite !rsum_cons, IH. ring. Qed.
Lemma normalized_sign_r v w : 0 <= dot_v v (normalize w) <-> 0 <= dot_v v w.
Proof. rewrite (dot_v_comm v (normalize w)), (dot_v_comm v w). apply normalized_sign. Qed.
Lemma dot_v_inner a b : length a = length b -> dot_v a b = inner a b.
Proof. intros HL. rewrite dot_v_sum. unfold inner. rewrite (map2_seq _ 0 0) by assumption. reflexivity. Qed.
Lemma normal_flip c dim n pts q xi : dim = 1%nat \/ dim = 2%nat -> (2 <= n)%nat -> length xi = dim -> (dim = 1%nat -> symmetric_nodes n c) -> flip_pts dim n pts q ->
  geometric_normal c dim n q xi = map Ropp (geometric_normal c dim n pts (flip_param xi)).
Proof.
  intros [-> | ->] Hn Hx Hs Hq; unfold geometric_normal, tangent; cbn [seq map nth cross].
  - specialize (Hs eq_refl). destruct xi as [|x [|]]; try discriminate. cbn [flip_param]. rewrite !(cell_derivative_flip1 c n pts q x) by assumption. reflexivity.
  - unfold cross. cbn [nth map]. rewrite !(cell_derivative_flip c 2 n pts q xi) by (assumption || lia). cbn [sw]. f_equal; [ring|f_equal; [ring|f_equal; ring]].
Qed.
Lemma normal_ok c dim n pts xi : dim = 1%nat \/ dim = 2%nat -> cell_normal dim (map (tangent c dim (S dim) n pts xi) (seq 0 dim)) = geometric_normal c dim n pts xi.
Proof. intros [-> | ->]; reflexivity. Qed.
Lemma normal_length c dim n pts xi : dim = 1%nat \/ dim = 2%nat -> length (geometric_normal c dim n pts xi) = S dim.
Proof. intros [-> | ->]; reflexivity. Qed.
Definition cell_centre (c : nat -> R) (dim n : nat) (pts : list (list R)) : list R := map (cell_map c dim n pts (centre dim)) (seq 0 (S dim)).
Lemma C83_proof cheb fresh dim m n ids target : dim = 1%nat \/ dim = 2%nat -> zero_init (S dim) fresh ->
  vm dim m -> length (m_conn m) = (n * m_order m ^ dim)%nat -> rangem (S dim) m -> Forall (fun c => (c < n)%nat) ids ->
  (dim = 1%nat -> symmetric_nodes (m_order m) (fun i => cheb i (m_order m))) ->
  let S := fun m c => dot_v (geometric_normal (fun i => cheb i (m_order m)) dim (m_order m) (gp dim m c) (centre dim)) (target (cell_centre (fun i => cheb i (m_order m)) dim (m_order m) (gp dim m c))) in
  exists m', orient_levelset_with cheb fresh dim m ids target = Ret m' /\ vm dim m' /\
    m_order m' = m_order m /\ m_points m' = m_points m /\ m_wires m' = m_wires m /\ length (m_conn m') = length (m_conn m) /\
    (forall c, ~ In c ids -> group_ids (m_order m ^ dim) (m_conn m') c = group_ids (m_order m ^ dim) (m_conn m) c) /\
    (forall c, In c ids -> 0 <= S m' c) /\
    (forall c, In c ids -> 0 <= S m c -> gp dim m' c = gp dim m c) /\
    (forall c, In c ids -> S m c < 0 -> flip_pts dim (m_order m) (gp dim m c) (gp dim m' c)) /\
    orient_levelset_with cheb fresh dim m' ids target = Ret m'.
Proof.
  intros Hdim Hz Hv Hn Fp Fi Hsym J. assert (H2 := Hv). destruct H2 as (Ho & _). assert (Hd1 : (1 <= dim)%nat) by (destruct Hdim; lia). set (o := m_order m) in *.
  set (cc := fun i => cheb i o) in *.
  set (DD := map (fun dir => map (termp (dF cc o (centre dim) dir) dim) (T dim o)) (seq 0 dim)).
  set (BB := map (termp (fun d i => Lg cc o i (nth d (centre dim) 0)) dim) (T dim o)).
  set (decide := fun (k : nat) pts => Rltb (dot_v (normalize (cell_normal dim (map (fun dir => accumulate (nth dir DD []) pts (fresh k dir)) (seq 0 dim)))) (target (accumulate BB pts (fresh k dim)))) 0).
  set (dec := fun pts => Rltb (dot_v (normalize (geometric_normal cc dim o pts (centre dim))) (target (cell_centre cc dim o pts))) 0).
  assert (EqO : forall mm, m_order mm = o -> orient_levelset_with cheb fresh dim mm ids target = orient_loop dim decide 0 ids mm).
  { intros mm E. unfold orient_levelset_with. fold (centre dim). cbv zeta. rewrite E. rewrite (basis_eq_c cheb dim o Ho (centre dim) (centre_length dim)). cbn [bind].
    rewrite (ders_eq cheb dim o Ho (centre dim) (centre_length dim)). cbn [bind]. reflexivity. }
  assert (Hdec : forall k mm c, okm dim n o (m_points m) mm -> (c < n)%nat -> decide k (gp dim mm c) = dec (gp dim mm c)).
  { intros k mm c (V & Eo & Ep & El) Hc. unfold decide, dec.
    assert (L1 : length (gp dim mm c) = (o ^ dim)%nat) by (rewrite gp_length; congruence).
    assert (F1 : Forall (fun p => length p = S dim) (gp dim mm c)) by (apply (gp_range dim (S dim) mm n); rewrite ?Eo; try assumption; rewrite Ep; assumption).
    f_equal. f_equal; [f_equal|f_equal].
    - rewrite <- normal_ok by assumption. f_equal. apply map_ext_in. intros dir Hdir. apply in_seq in Hdir. apply (row_ok cheb dim o Ho (centre dim) (centre_length dim)); [assumption|assumption|lia|apply Hz].
    - exact (point_ok cheb dim o Ho (centre dim) (centre_length dim) (Datatypes.S dim) _ _ L1 F1 (Hz k dim)). }
  assert (Hcen : forall pts q, flip_pts dim o pts q -> cell_centre cc dim o q = cell_centre cc dim o pts).
  { intros pts q Pf. unfold cell_centre. apply map_ext. intros comp. rewrite (cell_map_flip cc dim o pts q) by (try assumption; apply centre_length). rewrite flip_centre. reflexivity. }
  assert (Hnor : forall pts q, flip_pts dim o pts q -> geometric_normal cc dim o q (centre dim) = map Ropp (geometric_normal cc dim o pts (centre dim))).
  { intros pts q Pf. rewrite (normal_flip cc dim o pts q) by (try assumption; apply centre_length). rewrite flip_centre. reflexivity. }
  assert (Sg : forall pts, dec pts = false <-> 0 <= dot_v (geometric_normal cc dim o pts (centre dim)) (target (cell_centre cc dim o pts))).
  { intros pts. unfold dec. rewrite Rltb_false. apply normalized_sign. }
  assert (Hflip : forall mm c mm', okm dim n o (m_points m) mm -> okm dim n o (m_points m) mm' -> (c < n)%nat -> dec (gp dim mm c) = true -> flip_pts dim o (gp dim mm c) (gp dim mm' c) -> dec (gp dim mm' c) = false).
  { intros mm c mm' _ _ _ D Pf. apply Sg. rewrite (Hnor _ _ Pf), (Hcen _ _ Pf), dot_v_opp.
    destruct (Rle_lt_dec 0 (dot_v (geometric_normal cc dim o (gp dim mm c) (centre dim)) (target (cell_centre cc dim o (gp dim mm c))))) as [HH|HH]; [apply Sg in HH; congruence|lra]. }
  assert (O1 : okm dim n o (m_points m) m) by (split; [assumption|split; [reflexivity|split; [reflexivity|assumption]]]).
  destruct (loop_ok dim Hd1 n o (m_points m) decide dec Hdec Hflip ids O m O1 Fi) as (m' & E' & O' & S' & K' & D' & F').
  assert (O2 := O'). destruct O2 as (V' & Eo' & Ep' & El'). destruct S' as (Ew & Pc).
  exists m'. split; [rewrite EqO by reflexivity; exact E'|]. split; [assumption|]. split; [assumption|]. split; [assumption|]. split; [assumption|]. split; [congruence|]. split; [assumption|].
  unfold J. fold o. rewrite Eo'. fold cc. rewrite Forall_forall in Fi.
  split; [intros c Hc; apply Sg, D'; assumption|].
  split; [intros c Hc HJ; apply K'; [apply Fi; assumption|apply Sg; exact HJ]|].
  split; [intros c Hc HJ; apply F'; [assumption|]; destruct (dec (gp dim m c)) eqn:D; [reflexivity|apply Sg in D; exfalso; cbv zeta in HJ; lra]|].
  rewrite EqO by assumption. apply (loop_idem dim Hd1 n o (m_points m) decide dec Hdec Hflip); [assumption|apply Forall_forall; assumption|assumption].
Qed.
Lemma min_element_ok {A} (value : A -> R) l : forall best, In (min_element value best l) (best :: l) /\ forall a, In a (best :: l) -> value (min_element value best l) <= value a.
Proof.
  induction l as [|x l IH]; intros best; cbn [min_element]; [split; [left; reflexivity|intros a [<- | []]; lra]|].
  destruct (Rltb_spec (value x) (value best)) as [HH|HH].
  - destruct (IH x) as [A1 A2]. split; [right; exact A1|]. intros a [<- | Ha]; [apply Rle_trans with (value x); [apply A2; left; reflexivity|lra]|apply A2; exact Ha].
  - destruct (IH best) as [A1 A2]. split; [destruct A1 as [E|A1]; [left; exact E|right; right; exact A1]|]. intros a [<- | [<- | Ha]]; [apply A2; left; reflexivity| |apply A2; right; exact Ha].
    apply Rle_trans with (value best); [apply A2; left; reflexivity|lra].
Qed.
