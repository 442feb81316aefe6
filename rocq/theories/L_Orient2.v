(** The geometry of cells and its behaviour under permutation of the directions. *)
From Coq Require Import Reals List Lia Lra Arith Permutation.
From Coquelicot Require Import Coquelicot.
From Verif Require Import M_Orient S_Orient S_Lagrange S_Mesh S_Affine L_Real L_Point L_BBox L_TensorNat L_Poly L_Poly2 L_Poly3 L_Poly4 L_Poly5 L_Poly6 L_Poly8 L_Lagrange.
From Verif Require Import L_Mesh L_Mesh2 L_Mesh3 L_Mesh5 L_Orient.
Import ListNotations.
Local Close Scope Z_scope. Local Close Scope nat_scope. Local Open Scope R_scope.

Lemma lagrange_Lg c n i x : lagrange c n i x = Lg c n i x.
Proof. unfold lagrange, Lg, prodl. f_equal. apply map_ext. intros j. rewrite Nat.eqb_sym. reflexivity. Qed.
Definition T (dim n : nat) := tp_all (tp_const dim n).
Lemma digits n : (0 < n)%nat -> forall t d, Forall (fun i => (i < n)%nat) t -> (d < length t)%nat -> ((position n t / n ^ d) mod n)%nat = nth d t O.
Proof.
  intros Hn. induction t as [|i t IH]; intros d F Hd; [simpl in Hd; lia|]. inversion F; subst. destruct d as [|d]; cbn [position nth].
  - cbn [Nat.pow]. rewrite Nat.div_1_r. rewrite Nat.mul_comm, Nat.mod_add by lia. apply Nat.mod_small. assumption.
  - replace (n ^ S d)%nat with (n * n ^ d)%nat by reflexivity. rewrite <- Nat.div_div by (try apply Nat.pow_nonzero; lia).
    rewrite (Nat.mul_comm n (position n t)), Nat.div_add by lia. rewrite (Nat.div_small i n) by assumption. rewrite Nat.add_0_l. apply IH; [assumption|]. simpl in Hd. lia.
Qed.
Lemma T_is_index dim n t : In t (T dim n) <-> is_index dim n t. Proof. symmetry. apply is_index_all. Qed.
Lemma seq_T dim n : seq 0 (n ^ dim) = map (position n) (T dim n).
Proof.
  rewrite <- (tp_size_const dim n), <- tp_all_flat. apply map_ext_in. intros t Ht. apply T_is_index in Ht. apply tp_flat_position. apply Ht.
Qed.
Definition psum (dim n : nat) (pts : list (list R)) (comp : nat) (F : nat -> nat -> R) : R :=
  rsum (map (fun t => nth comp (nth (position n t) pts []) 0 * termp F dim t) (T dim n)).
Lemma cell_map_psum c dim n pts xi comp : (0 < n)%nat -> cell_map c dim n pts xi comp = psum dim n pts comp (fun d i => Lg c n i (nth d xi 0)).
Proof.
  intros Hn. unfold cell_map, sum_n, psum. rewrite seq_T, map_map. apply rsum_ext. intros t Ht. f_equal. unfold termp, prodl. f_equal. apply map_ext_in. intros d Hd. apply in_seq in Hd.
  apply T_is_index in Ht. destruct Ht as [Lt Ft]. rewrite digits by (assumption || lia). apply lagrange_Lg.
Qed.
Definition dF (c : nat -> R) (n : nat) (xi : list R) (dir : nat) : nat -> nat -> R :=
  fun d i => if (d =? dir)%nat then dLg c n i (nth d xi 0) else Lg c n i (nth d xi 0).
Lemma set_coord xi dir s dim : length xi = dim -> map (fun d => if (d =? dir)%nat then s else nth d xi 0) (seq 0 dim) = set_at xi dir s.
Proof.
  intros HL. apply (list_eq_nth 0); [rewrite map_length, seq_length, set_at_len; congruence|]. rewrite map_length, seq_length. intros i Hi. rewrite map_seq_nth' by assumption.
  rewrite nth_set_at. destruct (Nat.eqb_spec i dir); destruct (Nat.eq_dec i dir); try congruence. subst i; destruct (lt_dec dir (length xi)); [reflexivity|lia].
Qed.
Lemma psum_derive c dim n pts xi comp dir : length xi = dim -> (dir < dim)%nat -> (0 < n)%nat ->
  is_derive (fun s : R => cell_map c dim n pts (map (fun d => if (d =? dir)%nat then s else nth d xi 0) (seq 0 dim)) comp) (nth dir xi 0) (psum dim n pts comp (dF c n xi dir)).
Proof.
  intros HL Hd Hn. apply (is_derive_ext (fun s : R => rsum (map (fun t => nth comp (nth (position n t) pts []) 0 * termp (fun d i => Lg c n i (nth d (set_at xi dir s) 0)) dim t) (T dim n)))).
  { intros s. rewrite set_coord by assumption. symmetry. apply cell_map_psum. assumption. }
  unfold psum. apply is_derive_rsum. intros t Ht.
  apply (is_derive_scal (fun s : R => termp (fun d i => Lg c n i (nth d (set_at xi dir s) 0)) dim t)).
  pose proof (has_gradient_prod (fun d a => Lg c n (nth d t O) a) (fun d => dLg c n (nth d t O) (nth d xi 0)) dim xi HL ltac:(intros; apply Lg_derive)) as G.
  pose proof (gradient_partial _ _ _ _ dir G HL Hd) as P. cbn beta in P. rewrite map_seq_nth' in P by assumption. exact P.
Qed.
Lemma cell_derivative_psum c dim n pts xi dir comp : length xi = dim -> (dir < dim)%nat -> (0 < n)%nat -> cell_derivative c dim n pts xi dir comp = psum dim n pts comp (dF c n xi dir).
Proof. intros. unfold cell_derivative. apply is_derive_unique, psum_derive; assumption. Qed.
Lemma nodup_map_in {A B} (f : A -> B) l : (forall a b, In a l -> In b l -> f a = f b -> a = b) -> NoDup l -> NoDup (map f l).
Proof.
  induction l as [|x l IH]; intros Hf ND; [constructor|]. inversion ND; subst. cbn [map]. constructor.
  - intros Hin. apply in_map_iff in Hin. destruct Hin as (y & E & Hy). assert (y = x) by (apply Hf; [right; assumption|left; reflexivity|assumption]). subst. contradiction.
  - apply IH; [|assumption]. intros a b Ha Hb. apply Hf; right; assumption.
Qed.
Lemma flip_perm dim n : Permutation (map (flip n) (T dim n)) (T dim n).
Proof.
  assert (ND : NoDup (T dim n)) by apply tp_all_NoDup.
  apply NoDup_Permutation_bis.
  - apply nodup_map_in; [|assumption]. intros a b Ha Hb E. apply T_is_index in Ha, Hb. rewrite <- (flip_flip dim n a Ha), <- (flip_flip dim n b Hb), E. reflexivity.
  - rewrite map_length. lia.
  - intros t Ht. apply in_map_iff in Ht. destruct Ht as (u & <- & Hu). apply T_is_index. apply flip_index. apply T_is_index. assumption.
Qed.
Lemma rsum_perm l l' : Permutation l l' -> rsum l = rsum l'.
Proof. induction 1; rewrite ?rsum_cons in *; try reflexivity; try lra. Qed.
Lemma psum_flip dim n pts q comp F G : flip_pts dim n pts q -> (forall t, is_index dim n t -> termp F dim (flip n t) = termp G dim t) ->
  psum dim n q comp F = psum dim n pts comp G.
Proof.
  intros [_ Hq] HF. unfold psum. transitivity (rsum (map (fun t => nth comp (nth (position n (flip n t)) pts []) 0 * termp F dim t) (T dim n))).
  - apply rsum_ext. intros t Ht. apply T_is_index in Ht. rewrite Hq by assumption. reflexivity.
  - rewrite <- (rsum_perm _ _ (Permutation_map (fun t => nth comp (nth (position n (flip n t)) pts []) 0 * termp F dim t) (flip_perm dim n))).
    rewrite map_map. apply rsum_ext. intros t Ht. apply T_is_index in Ht. rewrite (flip_flip dim n t Ht), HF by assumption. reflexivity.
Qed.
Definition sw (d : nat) : nat := match d with 0%nat => 1%nat | 1%nat => 0%nat | _ => d end.
Lemma termp_swap F dim a b r : termp F (S (S dim)) (b :: a :: r) = termp (fun d => F (sw d)) (S (S dim)) (a :: b :: r).
Proof. rewrite !termp_S. cbn [sw]. rewrite <- !Rmult_assoc. rewrite (Rmult_comm (F O b)). reflexivity. Qed.
Lemma sw_lt dim d : (2 <= dim)%nat -> (d < dim)%nat -> (sw d < dim)%nat. Proof. destruct d as [|[|d]]; simpl; lia. Qed.
Lemma sw_sw d : sw (sw d) = d. Proof. destruct d as [|[|d]]; reflexivity. Qed.
Lemma flip_param_nth xi d : (2 <= length xi)%nat -> nth d (flip_param xi) 0 = nth (sw d) xi 0.
Proof. destruct xi as [|a [|b r]]; simpl length; try lia. intros _. destruct d as [|[|d]]; reflexivity. Qed.
Lemma flip_param_length xi : length (flip_param xi) = length xi. Proof. destruct xi as [|a [|b r]]; reflexivity. Qed.
Lemma termp_flip F dim n t : (2 <= dim)%nat -> is_index dim n t -> termp F dim (flip n t) = termp (fun d => F (sw d)) dim t.
Proof. intros Hd [L _]. destruct t as [|a [|b r]]; simpl length in L; try lia. destruct dim as [|[|dim]]; try lia. cbn [flip]. apply termp_swap. Qed.
(** one dimension *)
Lemma Lg_sym c n i x : symmetric_nodes n c -> (i < n)%nat -> Lg c n (n - 1 - i) x = Lg c n i (1 - x).
Proof.
  intros Hs Hi. unfold Lg.
  assert (P : Permutation (map (fun j => (n - 1 - j)%nat) (seq 0 n)) (seq 0 n)).
  { apply NoDup_Permutation_bis; [|rewrite map_length; lia|].
    - apply nodup_map_in; [|apply seq_NoDup]. intros a b Ha Hb E. apply in_seq in Ha, Hb. lia.
    - intros j Hj. apply in_map_iff in Hj. destruct Hj as (k & <- & Hk). apply in_seq in Hk. apply in_seq. lia. }
  assert (PP : forall l l', Permutation l l' -> prodl l = prodl l') by (induction 1; rewrite ?prodl_cons in *; try reflexivity; try nra).
  rewrite <- (PP _ _ (Permutation_map (fun j => if (n - 1 - i =? j)%nat then 1 else (x - c j) / (c (n - 1 - i)%nat - c j)) P)). rewrite map_map.
  apply prodl_ext. intros j Hj. apply in_seq in Hj. destruct (Nat.eqb_spec i j) as [-> | Hne]; [rewrite Nat.eqb_refl; reflexivity|].
  destruct (Nat.eqb_spec (n - 1 - i) (n - 1 - j)); [lia|]. rewrite !Hs by lia. unfold Rdiv.
  replace (x - (1 - c j)) with (- (1 - x - c j)) by ring. replace (1 - c i - (1 - c j)) with (- (c i - c j)) by ring.
  destruct (Req_dec (c i - c j) 0) as [E|E]; [|field; lra]. rewrite E, Ropp_0, Rinv_0. ring.
Qed.
Lemma dLg_sym c n i x : symmetric_nodes n c -> (i < n)%nat -> dLg c n (n - 1 - i) x = - dLg c n i (1 - x).
Proof.
  intros Hs Hi. assert (A := Lg_derive c n (n - 1 - i) x).
  assert (B : is_derive (fun x : R => Lg c n (n - 1 - i) x) x (- dLg c n i (1 - x))).
  { apply (is_derive_ext (fun x : R => Lg c n i (1 - x))); [intros; symmetry; apply Lg_sym; assumption|].
    replace (- dLg c n i (1 - x)) with (-1 * dLg c n i (1 - x)) by ring. apply (is_derive_comp (fun y : R => Lg c n i y) (fun x : R => 1 - x) x _ (-1)); [apply Lg_derive|]. auto_derive; [trivial|ring]. }
  rewrite <- (is_derive_unique _ _ _ A). apply is_derive_unique. assumption.
Qed.

(** the map of the permuted cell *)
Lemma cell_map_flip c dim n pts q xi comp : (1 <= dim)%nat -> (2 <= n)%nat -> length xi = dim -> (dim = 1%nat -> symmetric_nodes n c) -> flip_pts dim n pts q ->
  cell_map c dim n q xi comp = cell_map c dim n pts (flip_param xi) comp.
Proof.
  intros Hd Hn Hx Hs Hq. rewrite !cell_map_psum by lia. apply psum_flip; [assumption|]. intros t Ht.
  destruct (Nat.eq_dec dim 1) as [-> | H1].
  - specialize (Hs eq_refl). destruct Ht as [Lt Ft]. destruct t as [|i [|]]; try discriminate. destruct xi as [|x [|]]; try discriminate. inversion Ft; subst.
    cbn [flip flip_param]. rewrite !termp_S. cbn [nth]. rewrite Lg_sym by assumption. reflexivity.
  - rewrite termp_flip by (assumption || lia). apply termp_ext. intros d Hd'. rewrite flip_param_nth by lia. reflexivity.
Qed.
Lemma cell_derivative_flip c dim n pts q xi dir comp : (2 <= dim)%nat -> (2 <= n)%nat -> length xi = dim -> (dir < dim)%nat -> flip_pts dim n pts q ->
  cell_derivative c dim n q xi dir comp = cell_derivative c dim n pts (flip_param xi) (sw dir) comp.
Proof.
  intros Hd Hn Hx Hdir Hq. rewrite !cell_derivative_psum by (rewrite ?flip_param_length; try apply sw_lt; lia). apply psum_flip; [assumption|]. intros t Ht.
  rewrite termp_flip by (assumption || lia). apply termp_ext. intros d Hd'. unfold dF. rewrite flip_param_nth by lia.
  destruct (Nat.eqb_spec d (sw dir)) as [-> | Hne]; [rewrite sw_sw, Nat.eqb_refl; reflexivity|]. destruct (Nat.eqb_spec (sw d) dir) as [<- | ]; [rewrite sw_sw in Hne; congruence|reflexivity].
Qed.
Lemma cell_derivative_flip1 c n pts q x comp : (2 <= n)%nat -> symmetric_nodes n c -> flip_pts 1 n pts q ->
  cell_derivative c 1 n q [x] 0 comp = - cell_derivative c 1 n pts [1 - x] 0 comp.
Proof.
  intros Hn Hs Hq. rewrite !cell_derivative_psum by (simpl; lia). replace (- psum 1 n pts comp (dF c n [1 - x] 0)) with (psum 1 n pts comp (fun d i => - dF c n [1 - x] 0 d i)).
  - apply psum_flip; [assumption|]. intros t [Lt Ft]. destruct t as [|i [|]]; try discriminate. inversion Ft; subst. cbn [flip]. rewrite !termp_S. unfold dF. cbn [nth Nat.eqb]. rewrite dLg_sym by assumption. reflexivity.
  - unfold psum. transitivity (-1 * rsum (map (fun t => nth comp (nth (position n t) pts []) 0 * termp (dF c n [1 - x] 0) 1 t) (T 1 n))); [|ring]. rewrite <- rsum_scal. apply rsum_ext. intros t Ht.
    apply T_is_index in Ht. destruct Ht as [Lt _]. destruct t as [|i [|]]; try discriminate. rewrite !termp_S. unfold termp, prodl. simpl. ring.
Qed.
Lemma cell_jacobian_flip c dim n pts q xi : dim = 2%nat \/ dim = 3%nat -> (2 <= n)%nat -> length xi = dim -> flip_pts dim n pts q ->
  cell_jacobian c dim n q xi = - cell_jacobian c dim n pts (flip_param xi).
Proof.
  intros [-> | ->] Hn Hx Hq; unfold cell_jacobian, tangent, det2, det3; cbn [seq map nth]; rewrite !(cell_derivative_flip c _ n pts q xi) by (assumption || lia); cbn [sw]; ring.
Qed.

(** the sums of the code *)
Lemma accumulate_ok w pts init r : Forall (fun p => length p = r) pts -> length init = r ->
  length (accumulate w pts init) = r /\ forall comp, (comp < r)%nat -> nth comp (accumulate w pts init) 0 = nth comp init 0 + bigsum (length pts) (fun k => nth comp (nth k pts []) 0 * nth k w 0).
Proof.
  intros F L0. unfold accumulate, bigsum. rewrite Forall_forall in F.
  assert (G : forall l v, length v = r -> (forall k, In k l -> (k < length pts)%nat) ->
    length (fold_left (fun v i => map2 Rplus v (map (fun x => x * nth i w 0) (nth i pts []))) l v) = r /\
    forall comp, (comp < r)%nat -> nth comp (fold_left (fun v i => map2 Rplus v (map (fun x => x * nth i w 0) (nth i pts []))) l v) 0 = nth comp v 0 + rsum (map (fun k => nth comp (nth k pts []) 0 * nth k w 0) l)).
  { induction l as [|k l IH]; intros v Lv Hl; [split; [assumption|intros; unfold rsum; simpl; ring]|]. cbn [fold_left map].
    assert (Lk : length (nth k pts []) = r) by (apply F, nth_In, Hl; left; reflexivity).
    destruct (IH (map2 Rplus v (map (fun x => x * nth k w 0) (nth k pts [])))) as [A B]; [rewrite L_Real.map2_length; rewrite ?map_length; congruence|intros; apply Hl; right; assumption|].
    split; [assumption|]. intros comp Hc. rewrite B by assumption. rewrite rsum_cons. rewrite (L_Real.map2_nth _ 0 0 0) by (rewrite ?map_length; congruence || lia).
    rewrite (nth_indep (map (fun x => x * nth k w 0) (nth k pts [])) 0 (0 * nth k w 0)) by (rewrite map_length; lia). rewrite (map_nth (fun x => x * nth k w 0)). ring. }
  apply G; [assumption|]. intros k Hk. apply in_seq in Hk. lia.
Qed.
Definition zero_init (range : nat) (fresh : nat -> nat -> list R) : Prop := forall k i, fresh k i = repeat 0 range.
Lemma tp_const_nth dim n d : (d < dim)%nat -> nth d (tp_const dim n) O = n. Proof. intros. apply repeat_nth_lt. assumption. Qed.
Lemma tp_const_length dim n : length (tp_const dim n) = dim. Proof. apply repeat_length. Qed.
Lemma weights_sum dim n pts comp (F : nat -> nat -> R) : length pts = (n ^ dim)%nat ->
  bigsum (length pts) (fun k => nth comp (nth k pts []) 0 * nth k (map (termp F dim) (T dim n)) 0) = psum dim n pts comp F.
Proof.
  intros HL. unfold bigsum, psum. rewrite HL, seq_T, map_map. apply rsum_ext. intros t Ht. f_equal. 
  assert (It := Ht). apply T_is_index in It. rewrite <- (tp_flat_position n dim t) by apply It. apply (coef_map (tp_const dim n) (termp F dim)). assumption.
Qed.
Section Weights.
Context (cheb : nat -> nat -> R) (dim n : nat) (Hn : (2 <= n)%nat) (xi : list R) (Hxi : length xi = dim).
Let c := fun i => cheb i n.
Lemma ders_eq : lagrange_derivative cheb xi (tp_const dim n) false = Ret (map (fun dir => map (termp (dF c n xi dir) dim) (T dim n)) (seq 0 dim)).
Proof.
  rewrite derivative_eq by (rewrite ?tp_const_length; try assumption; apply Forall_forall; intros x Hx; apply repeat_spec in Hx; lia).
  f_equal. unfold Gx. rewrite tp_const_length. apply map_ext. intros dir. apply map_ext_in. intros t Ht. apply termp_ext. intros d Hd. unfold dF, cnode, get_coord. rewrite tp_const_nth by assumption. reflexivity.
Qed.
Lemma basis_eq_c : lagrange_basis cheb xi (tp_const dim n) false = Ret (map (termp (fun d i => Lg c n i (nth d xi 0)) dim) (T dim n)).
Proof.
  rewrite L_Lagrange.basis_eq by (rewrite ?tp_const_length; try assumption; apply Forall_forall; intros x Hx; apply repeat_spec in Hx; lia).
  f_equal. unfold Fx. rewrite tp_const_length. apply map_ext_in. intros t Ht. apply termp_ext. intros d Hd. unfold cnode, get_coord. rewrite tp_const_nth by assumption. reflexivity.
Qed.
Lemma row_ok range pts dir init : length pts = (n ^ dim)%nat -> Forall (fun p => length p = range) pts -> (dir < dim)%nat -> init = repeat 0 range ->
  accumulate (nth dir (map (fun dir => map (termp (dF c n xi dir) dim) (T dim n)) (seq 0 dim)) []) pts init = tangent c dim range n pts xi dir.
Proof.
  intros HL F Hd ->. rewrite (map_seq_nth_gen _ 0 dim dir []) by assumption. rewrite Nat.add_0_l.
  destruct (accumulate_ok (map (termp (dF c n xi dir) dim) (T dim n)) pts (repeat 0 range) range F (repeat_length _ _)) as [A B].
  unfold tangent. apply (list_eq_nth 0); [rewrite map_length, seq_length; assumption|]. rewrite A. intros comp Hc. rewrite B, map_seq_nth' by assumption. rewrite repeat_nth_lt by assumption.
  rewrite weights_sum by assumption. rewrite cell_derivative_psum by (assumption || lia). ring.
Qed.
Lemma point_ok range pts init : length pts = (n ^ dim)%nat -> Forall (fun p => length p = range) pts -> init = repeat 0 range ->
  accumulate (map (termp (fun d i => Lg c n i (nth d xi 0)) dim) (T dim n)) pts init = map (cell_map c dim n pts xi) (seq 0 range).
Proof.
  intros HL F ->. destruct (accumulate_ok (map (termp (fun d i => Lg c n i (nth d xi 0)) dim) (T dim n)) pts (repeat 0 range) range F (repeat_length _ _)) as [A B].
  apply (list_eq_nth 0); [rewrite map_length, seq_length; assumption|]. rewrite A. intros comp Hc. rewrite B, map_seq_nth' by assumption. rewrite repeat_nth_lt by assumption.
  rewrite weights_sum by assumption. rewrite cell_map_psum by lia. ring.
Qed.
End Weights.
Lemma flip_centre dim : flip_param (centre dim) = centre dim.
Proof. destruct dim as [|[|dim]]; [reflexivity| |reflexivity]. unfold centre. cbn [repeat flip_param]. f_equal. field. Qed.
Lemma centre_length dim : length (centre dim) = dim. Proof. apply repeat_length. Qed.
Lemma det_ok c dim n pts xi : dim = 2%nat \/ dim = 3%nat -> compute_determinant dim (map (tangent c dim dim n pts xi) (seq 0 dim)) = cell_jacobian c dim n pts xi.
Proof. intros [-> | ->]; unfold compute_determinant, cell_jacobian, ent, det2, det3; cbn [seq map nth]; ring. Qed.
Lemma gp_length dim m c : length (gp dim m c) = (m_order m ^ dim)%nat. Proof. unfold gp, group_points. rewrite map_length, seq_length. reflexivity. Qed.
Lemma gp_range dim range m n c : vm dim m -> length (m_conn m) = (n * m_order m ^ dim)%nat -> (c < n)%nat -> Forall (fun p => length p = range) (m_points m) -> Forall (fun p => length p = range) (gp dim m c).
Proof.
  intros (Ho & _ & _ & Fc & _) Hn Hc Fp. apply Forall_forall. intros p Hp. unfold gp, group_points in Hp. apply in_map_iff in Hp. destruct Hp as (k & <- & Hk). apply in_seq in Hk.
  rewrite Forall_forall in Fp, Fc. apply Fp, nth_In, Fc, nth_In. nia.
Qed.
