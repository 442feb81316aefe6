From Coq Require Import Reals List Lia Lra Permutation Sorting.Sorted Bool Arith ZArith.
From Verif Require Import M_Mesh S_Mesh S_MeshOps S_Point L_Point L_TensorNat L_Mesh L_Mesh2.
Import ListNotations.
Local Close Scope R_scope. Local Close Scope Z_scope. Local Open Scope nat_scope.

Lemma mapM_inv {A B} (f : A -> outcome B) l : forall r, mapM f l = Ret r -> length r = length l /\ forall x, In x l -> exists y, f x = Ret y /\ In y r.
Proof.
  induction l as [|x l IH]; cbn [mapM]; intros r H; [injection H as <-; split; auto; intros ? []|].
  destruct (f x) as [y| | |] eqn:E; try discriminate. cbn [bind] in H. destruct (mapM f l) as [ys| | |] eqn:Em; try discriminate. injection H as <-.
  destruct (IH ys eq_refl) as [L I]. split; [cbn; auto|]. intros z [<-|Hz]; [exists y; split; auto; left; auto|]. destruct (I z Hz) as (y' & H1 & H2). exists y'. split; auto. right; auto.
Qed.
Lemma mapM_forall {A B} (f : A -> outcome B) (P : B -> Prop) l : (forall x y, In x l -> f x = Ret y -> P y) -> forall r, mapM f l = Ret r -> Forall P r.
Proof.
  induction l as [|x l IH]; cbn [mapM]; intros Hp r H; [injection H as <-; constructor|].
  destruct (f x) as [y| | |] eqn:E; try discriminate. cbn [bind] in H. destruct (mapM f l) as [ys| | |] eqn:Em; try discriminate. injection H as <-.
  constructor; [apply (Hp x); auto; left; auto|]. apply IH; auto. intros; eapply Hp; eauto; right; auto.
Qed.

(** ** merge *)
Lemma group_app_l n (a b : list nat) c : (c + 1) * n <= length a -> group_ids n (a ++ b) c = group_ids n a c.
Proof. intros H. unfold group_ids. apply map_ext_in. intros k Hk. apply in_seq in Hk. apply app_nth1. nia. Qed.
Lemma group_app_r n (a b : list nat) c d : length a = c * n -> group_ids n (a ++ b) (c + d) = group_ids n b d.
Proof. intros H. unfold group_ids. apply map_ext_in. intros k Hk. apply in_seq in Hk. rewrite app_nth2 by nia. f_equal. nia. Qed.
Lemma group_points_ids n pts conn c : group_points n pts conn c = map (fun i => nth i pts []) (group_ids n conn c).
Proof. unfold group_points, group_ids. rewrite map_map. reflexivity. Qed.
Lemma group_ids_lt n conn c N b : (c + 1) * n <= length conn -> Forall (fun i => i < N) conn -> In b (group_ids n conn c) -> b < N.
Proof. intros H F I. apply in_map_iff in I as (k & <- & Hk). apply in_seq in Hk. rewrite Forall_forall in F. apply F. apply nth_In. nia. Qed.
Lemma group_shift n conn off c : (c + 1) * n <= length conn -> group_ids n (map (fun i => i + off) conn) c = map (fun i => i + off) (group_ids n conn c).
Proof.
  intros H. unfold group_ids. rewrite map_map. apply map_ext_in. intros k Hk. apply in_seq in Hk.
  rewrite (nth_indep _ 0 (0 + off)) by (rewrite map_length; nia). apply (map_nth (fun i => i + off)).
Qed.
Lemma valid_merge dim m o m' : vmesh dim m -> vmesh dim o -> mesh_merge m o = Ret m' -> vmesh dim m'.
Proof.
  intros (Ho & (n & Hc) & (w & Hw) & Fc & Fw) (Ho' & (n' & Hc') & (w' & Hw') & Fc' & Fw') E. unfold mesh_merge in E.
  destruct (Nat.eqb_spec (m_order m) (m_order o)) as [Eo|]; [|discriminate]. cbn [assert_] in E. injection E as <-. rewrite <- Eo in *.
  unfold vmesh. cbn [m_order m_points m_conn m_wires]. split; [auto|]. split; [exists (n + n')|split; [exists (w + w')|split]].
  - rewrite app_length, map_length. lia.
  - rewrite app_length, map_length. lia.
  - apply Forall_app. split; [eapply Forall_impl; [|exact Fc]; cbv beta; intros; rewrite app_length; lia|]. apply Forall_map. eapply Forall_impl; [|exact Fc']. cbv beta. intros. rewrite app_length. lia.
  - apply Forall_app. split; [eapply Forall_impl; [|exact Fw]; cbv beta; intros; rewrite app_length; lia|]. apply Forall_map. eapply Forall_impl; [|exact Fw']. cbv beta. intros. rewrite app_length. lia.
Qed.
Lemma groups_merge n (p q : list (list R)) a b k l : length a = k * n -> length b = l * n -> Forall (fun i => i < length p) a -> Forall (fun i => i < length q) b ->
  (forall c, c < k -> group_points n (p ++ q) (a ++ map (fun i => i + length p) b) c = group_points n p a c) /\
  (forall c, c < l -> group_points n (p ++ q) (a ++ map (fun i => i + length p) b) (k + c) = group_points n q b c).
Proof.
  intros Ha Hb Fa Fb. split; intros c Hc; rewrite !group_points_ids.
  - rewrite group_app_l by nia. apply map_ext_in. intros i Hi. apply app_nth1. eapply group_ids_lt; [|exact Fa|exact Hi]. nia.
  - rewrite group_app_r by auto. rewrite group_shift by nia. rewrite map_map. apply map_ext_in. intros i Hi. rewrite app_nth2 by lia. f_equal. lia.
Qed.

Lemma last_map_seq (g : nat -> nat) n : 0 < n -> last (map g (seq 0 n)) 0 = g (n - 1).
Proof. intros H. destruct n; [lia|]. rewrite seq_S, map_app. cbn [map]. rewrite last_last. f_equal. lia. Qed.

(** ** add_full_cell *)
Lemma add_full_cell_ok cheb dim m domain wb : vmesh dim m -> dim = 2 \/ dim = 3 ->
  add_full_cell cheb dim m domain wb = Ret (mk_mesh (m_order m)
    (m_points m ++ map (cell_point cheb (m_order m) domain) (tp_all (tp_const dim (m_order m))))
    (m_conn m ++ seq (length (m_points m)) (m_order m ^ dim))
    (m_wires m ++ if wb then flat_map (fun e => map (fun i => length (m_points m) + position (m_order m) (edge_point dim (m_order m) e i)) (seq 0 (m_order m))) (seq 0 (n_edges dim)) else [])).
Proof.
  intros (Ho & (n & Hc) & (w & Hw) & Fc & Fw) Hd. unfold add_full_cell. rewrite add_loop, tp_all_length, tp_size_const.
  set (L := mk_mesh _ _ _ _). pose proof (pow_pos (m_order m) dim Ho) as Pp.
  assert (EL : length (m_conn L) = (n + 1) * m_order m ^ dim) by (unfold L; cbn [m_conn]; rewrite app_length, seq_length, Hc; lia).
  rewrite (num_cells_ok dim L (n + 1)); [|exact Pp|exact EL]. cbn [bind]. destruct wb.
  2:{ unfold L. rewrite app_nil_r. reflexivity. }
  rewrite mapM_ok with (g := fun e => map (fun i => length (m_points m) + position (m_order m) (edge_point dim (m_order m) e i)) (seq 0 (m_order m))).
  { cbn [bind]. rewrite <- flat_map_concat_map. reflexivity. }
  intros e He. apply in_seq in He. rewrite (get_edge_points_ok dim L (n + 1 - 1) e Hd); [|exact Ho|lia|].
  2:{ rewrite EL. change (m_order L) with (m_order m). nia. }
  f_equal. change (m_order L) with (m_order m).
  assert (Ei : map (fun i => nth ((n + 1 - 1) * m_order m ^ dim + position (m_order m) (edge_point dim (m_order m) e i)) (m_conn L) 0) (seq 0 (m_order m)) =
               map (fun i => length (m_points m) + position (m_order m) (edge_point dim (m_order m) e i)) (seq 0 (m_order m))).
  { apply map_ext_in. intros i Hi. apply in_seq in Hi. unfold L. cbn [m_conn].
    pose proof (edge_point_in dim (m_order m) e i Hd Ho ltac:(lia)) as K. apply is_index_all, position_lt in K.
    rewrite app_nth2 by nia. rewrite seq_nth; nia. }
  rewrite Ei. unfold sort_edge_points.
  (* the first id is smaller than the last one *)
  assert (Mono : position (m_order m) (edge_point dim (m_order m) e 0) < position (m_order m) (edge_point dim (m_order m) e (m_order m - 1))).
  { clear - Hd Ho. unfold edge_point. destruct Hd as [-> | ->]; repeat match goal with |- context [if ?b then _ else _] => destruct b end; cbn [position]; nia. }
  set (f := fun i => length (m_points m) + position (m_order m) (edge_point dim (m_order m) e i)) in *.
  assert (Hh : hd 0 (map f (seq 0 (m_order m))) = f 0). { destruct (m_order m); [lia|reflexivity]. }
  assert (Hl : last (map f (seq 0 (m_order m))) 0 = f (m_order m - 1)).
  { apply last_map_seq; lia. }
  rewrite Hh, Hl. replace (f 0 =? f (m_order m - 1)) with false by (symmetry; apply Nat.eqb_neq; unfold f; lia). cbn [andb].
  replace (f (m_order m - 1) <? f 0) with false by (symmetry; apply Nat.ltb_ge; unfold f; lia). reflexivity.
Qed.
Lemma flat_map_forall {A B} (P : B -> Prop) (f : A -> list B) l : (forall x, In x l -> Forall P (f x)) -> Forall P (flat_map f l).
Proof. intros H. apply Forall_forall. intros y Hy. apply in_flat_map in Hy as (x & Hx & Hy). specialize (H x Hx). rewrite Forall_forall in H. auto. Qed.
Lemma valid_full_cell cheb dim m domain wb m' : vmesh dim m -> dim = 2 \/ dim = 3 -> add_full_cell cheb dim m domain wb = Ret m' -> vmesh dim m'.
Proof.
  intros V Hd E. rewrite add_full_cell_ok in E by auto. injection E as <-. destruct V as (Ho & (n & Hc) & (w & Hw) & Fc & Fw).
  unfold vmesh. cbn [m_order m_points m_conn m_wires].
  assert (Lp : length (map (cell_point cheb (m_order m) domain) (tp_all (tp_const dim (m_order m)))) = m_order m ^ dim) by (rewrite map_length, tp_all_length, tp_size_const; auto).
  split; [auto|]. split; [exists (n + 1)|split; [|split]].
  - rewrite app_length, seq_length. lia.
  - destruct wb; [exists (w + n_edges dim)|exists w; rewrite app_nil_r; auto].
    rewrite app_length, (flat_map_len _ (m_order m)), seq_length by (intros; rewrite map_length, seq_length; auto). lia.
  - apply Forall_app. split; [eapply Forall_impl; [|exact Fc]; cbv beta; intros; rewrite app_length; lia|]. apply Forall_forall. intros i Hi. apply in_seq in Hi. rewrite app_length. lia.
  - apply Forall_app. split; [eapply Forall_impl; [|exact Fw]; cbv beta; intros; rewrite app_length; lia|]. destruct wb; [|constructor].
    apply flat_map_forall. intros e He. apply Forall_map. apply Forall_forall. intros i Hi. apply in_seq in Hi. rewrite app_length, Lp.
    pose proof (edge_point_in dim (m_order m) e i Hd Ho ltac:(lia)) as K. apply is_index_all, position_lt in K. lia.
Qed.
Lemma valid_full_cells cheb dim domains wb : forall m m', vmesh dim m -> dim = 2 \/ dim = 3 -> add_full_cells cheb dim m domains wb = Ret m' -> vmesh dim m'.
Proof.
  induction domains as [|d ds IH]; intros m m' V Hd E; cbn [add_full_cells] in E; [injection E as <-; auto|].
  destruct (add_full_cell cheb dim m d wb) as [m1| | |] eqn:E1; try discriminate. cbn [bind] in E. apply (IH m1 m'); auto. eapply valid_full_cell; eauto.
Qed.

(** ** Merging coincident points *)
Lemma sort_edge_len o e : length (sort_edge_points o e) = length e.
Proof. unfold sort_edge_points. match goal with |- context [if ?b then rev _ else _] => destruct b end; rewrite ?rev_length; auto. Qed.
Lemma sort_edge_same o e : same_edge (sort_edge_points o e) e.
Proof. unfold sort_edge_points, same_edge. match goal with |- context [if ?b then rev _ else _] => destruct b end; auto. Qed.
Lemma sort_edge_in o e x : In x (sort_edge_points o e) <-> In x e.
Proof. unfold sort_edge_points. match goal with |- context [if ?b then rev _ else _] => destruct b end; [rewrite <- in_rev|]; tauto. Qed.
Lemma purge_wires_ok esort order wires w : sorts_by edge_lt esort -> 0 < order -> length wires = w * order ->
  exists ls, purge_wires esort order wires = Ret (concat ls) /\ Forall (fun e => length e = order) ls /\ NoDup ls /\
    (forall e, In e ls <-> exists c, c < w /\ e = sort_edge_points order (group_ids order wires c)).
Proof.
  intros Hs Ho Hw. unfold purge_wires. rewrite Hw, Nat.mod_mul by lia. cbn [Nat.eqb]. eexists. split; [reflexivity|].
  unfold sort_wirebasket. rewrite (chunks_groups order wires w Ho Hw), purge_edges_uniq. set (l := map (sort_edge_points order) (map (group_ids order wires) (seq 0 w))).
  destruct (Hs l) as [P D].
  assert (Fl : Forall (fun e => length e = order) (esort l)).
  { apply (Permutation_Forall (Permutation_sym P)). unfold l. rewrite map_map. apply Forall_map. apply Forall_forall. intros c _. rewrite sort_edge_len. apply group_ids_length. }
  split; [|split].
  - apply Forall_forall. intros e He. apply uniq_In in He; auto. rewrite Forall_forall in Fl. auto.
  - apply uniq_NoDup; auto. apply (no_descent_sorted order); auto.
  - intros e. rewrite uniq_In by auto. split.
    + intros He. apply (Permutation_in _ P) in He. unfold l in He. rewrite map_map in He. apply in_map_iff in He as (c & <- & Hc). apply in_seq in Hc. exists c. split; auto. lia.
    + intros (c & Hc & ->). apply (Permutation_in _ (Permutation_sym P)). unfold l. rewrite map_map. apply (in_map (fun c => sort_edge_points order (group_ids order wires c))). apply in_seq. lia.
Qed.
Lemma group_map n (f : nat -> nat) conn c : (c + 1) * n <= length conn -> group_ids n (map f conn) c = map f (group_ids n conn c).
Proof.
  intros H. unfold group_ids. rewrite map_map. apply map_ext_in. intros k Hk. apply in_seq in Hk.
  rewrite (nth_indep _ 0 (f 0)) by (rewrite map_length; nia). apply (map_nth f).
Qed.
Lemma merge_points_ok sort esort dim range m tol : vmesh dim m -> (0 <= tol)%R -> 0 < range -> sorting_routine (m_points m) sort -> sorts_by edge_lt esort ->
  2 <= length (m_points m) ->
  let otn := snd (make_points_unique sort range (m_points m) tol []) in
  let f := fun i => nth i otn 0 in
  exists ls w, length (m_wires m) = w * m_order m /\
    merge_coincident_points sort esort range m tol = Ret (mk_mesh (m_order m) (fst (make_points_unique sort range (m_points m) tol [])) (map f (m_conn m)) (concat ls)) /\
    Forall (fun e => length e = m_order m) ls /\ NoDup ls /\
    (forall e, In e ls <-> exists c, c < w /\ e = sort_edge_points (m_order m) (map f (group_ids (m_order m) (m_wires m) c))).
Proof.
  intros (Ho & (n & Hc) & (w & Hw) & Fc & Fw) Ht Hr Hs He Hp. cbv zeta. destruct (make_unique_spec sort range (m_points m) tol [] Ht Hr Hs) as (reps & _ & _ & Enew & Ln & _ & Hlt & _).
  set (pm := make_points_unique sort range (m_points m) tol []) in *.
  destruct (purge_wires_ok esort (m_order m) (map (fun i => nth i (snd pm) 0) (m_wires m)) w He ltac:(lia)) as (ls & E & F & N & I); [rewrite map_length; auto|].
  exists ls, w. split; auto. split.
  - unfold merge_coincident_points. replace (length (m_points m) <? 2) with false by (symmetry; apply Nat.ltb_ge; auto). fold pm.
    rewrite (mapM_ok _ (fun i => nth i (snd pm) 0) (m_conn m)). 2:{ intros i Hi. apply at_ok. rewrite Forall_forall in Fc. rewrite Ln. auto. }
    rewrite (mapM_ok _ (fun i => nth i (snd pm) 0) (m_wires m)). 2:{ intros i Hi. apply at_ok. rewrite Forall_forall in Fw. rewrite Ln. auto. }
    cbn [bind]. rewrite E. reflexivity.
  - split; auto. split; auto. intros e. rewrite I. split; intros (c & Hcw & ->); exists c; (split; [auto|]); rewrite group_map by nia; reflexivity.
Qed.
Lemma valid_merge_points sort esort dim range m tol m' : vmesh dim m -> (0 <= tol)%R -> 0 < range -> sorting_routine (m_points m) sort -> sorts_by edge_lt esort ->
  merge_coincident_points sort esort range m tol = Ret m' -> vmesh dim m'.
Proof.
  intros V Ht Hr Hs He E. destruct (Nat.lt_ge_cases (length (m_points m)) 2) as [H|H].
  { unfold merge_coincident_points in E. replace (length (m_points m) <? 2) with true in E by (symmetry; apply Nat.ltb_lt; auto). injection E as <-. auto. }
  destruct (merge_points_ok sort esort dim range m tol V Ht Hr Hs He H) as (ls & w & Hw & E' & F & N & I). rewrite E in E'. injection E' as ->.
  destruct (make_unique_spec sort range (m_points m) tol [] Ht Hr Hs) as (reps & _ & _ & Enew & Ln & _ & Hlt & _).
  destruct V as (Ho & (n & Hc) & _ & Fc & Fw). unfold vmesh. cbn [m_order m_points m_conn m_wires].
  assert (Lnew : length (fst (make_points_unique sort range (m_points m) tol [])) = length reps) by (rewrite Enew, map_length; auto).
  split; auto. split; [exists n; rewrite map_length; auto|]. split; [exists (length ls); apply concat_length; auto|]. split.
  - apply Forall_map. eapply Forall_impl; [|exact Fc]. cbv beta. intros i Hi. refine (eq_ind_r (fun n => _ < n) _ Lnew). apply Hlt. auto.
  - apply Forall_concat. apply Forall_forall. intros e Hin. apply I in Hin as (c & Hcw & ->). apply Forall_forall. intros x Hx. apply sort_edge_in in Hx.
    apply in_map_iff in Hx as (i & <- & Hi). refine (eq_ind_r (fun n => _ < n) _ Lnew). apply Hlt. eapply group_ids_lt; [|exact Fw|exact Hi]. nia.
Qed.

(** ** Histories *)
Definition pmesh (dim : nat) (m : mesh) (pend : list nat) : Prop :=
  2 <= m_order m /\ (exists n, length (m_conn m) = n * m_order m ^ dim) /\ (exists n, length (m_wires m) = n * m_order m) /\
  (forall k, k < length (m_conn m) -> ~ In k pend -> nth k (m_conn m) 0 < length (m_points m)) /\ Forall (fun i => i < length (m_points m)) (m_wires m).
Lemma pmesh_nil dim m : pmesh dim m [] <-> vmesh dim m.
Proof.
  unfold pmesh, vmesh, valid. split; intros (A & B & C & D & E); (split; [auto|split; [auto|split; [auto|split; [|auto]]]]).
  - apply Forall_forall. intros i Hi. apply (In_nth _ _ 0) in Hi as (k & Hk & <-). apply D; auto.
  - intros k Hk _. rewrite Forall_forall in D. apply D. apply nth_In. auto.
Qed.
Lemma scale_points_ok ids od nd : forall m m', scale_points m ids od nd = Ret m' ->
  m_order m' = m_order m /\ m_conn m' = m_conn m /\ m_wires m' = m_wires m /\ length (m_points m') = length (m_points m).
Proof.
  induction ids as [|i ids IH]; intros m m' E; cbn [scale_points] in E; [injection E as <-; auto|].
  destruct (at_ (m_points m) i); try discriminate. cbn [bind] in E. apply IH in E as (A & B & C & D). cbn [m_order m_points m_conn m_wires] in *. rewrite set_at_length in D. auto.
Qed.
Lemma get_edge_points_len dim m cell e ids : dim = 2 \/ dim = 3 -> 2 <= m_order m -> get_edge_points dim m cell e = Ret ids ->
  length ids = m_order m /\ (forall N, Forall (fun i => i < N) (m_conn m) -> Forall (fun i => i < N) ids).
Proof.
  intros Hd Ho E. unfold get_edge_points in E.
  destruct ((0 <=? e)%Z && (e <? Z.of_nat (n_edges dim))%Z) eqn:B; [|discriminate]. cbn [assert_] in E. apply andb_true_iff in B as [B1 B2]. apply Z.leb_le in B1. apply Z.ltb_lt in B2.
  destruct (edge_range dim (m_order m) (Z.to_nat e) Hd Ho ltac:(lia)) as (ds & E1 & E2). rewrite Z2Nat.id in E1 by lia. rewrite E1 in E. cbn [bind] in E. rewrite E2 in E.
  destruct (mapM _ _) as [l| | |] eqn:Em in E; try discriminate. cbn [bind] in E. injection E as <-. rewrite sort_edge_len. split.
  - apply mapM_inv in Em as [L _]. rewrite L, map_length, seq_length. auto.
  - intros N F. apply Forall_forall. intros x Hx. apply sort_edge_in in Hx. assert (Fl : Forall (fun i => i < N) l).
    { eapply mapM_forall; [|exact Em]. intros t y _ Ht. cbv beta in Ht. pose proof (at_inv _ _ _ Ht) as Hlt. rewrite (at_ok _ _ 0 Hlt) in Ht. injection Ht as <-. rewrite Forall_forall in F. apply F. apply nth_In. auto. }
    rewrite Forall_forall in Fl. auto.
Qed.
Lemma valid_wirebasket range dim edges domain tol cf ci : dim = 2 \/ dim = 3 -> forall m m', vmesh dim m ->
  generate_wirebasket range dim m edges domain tol cf ci = Ret m' ->
  vmesh dim m' /\ m_points m' = m_points m /\ m_conn m' = m_conn m /\ m_order m' = m_order m.
Proof.
  intros Hd. induction edges as [|[c e] edges IH]; intros m m' V E; cbn [generate_wirebasket] in E; [injection E as <-; auto|].
  destruct (get_edge_points dim m c (Z.of_nat e)) as [ids| | |] eqn:Eg; try discriminate. cbn [bind] in E.
  destruct (edge_in_wirebasket range m ids domain tol cf ci) as [b| | |]; try discriminate. cbn [bind] in E.
  destruct b; [|apply IH; auto].
  apply IH in E; auto. destruct V as (Ho & Hc & (w & Hw) & Fc & Fw). destruct (get_edge_points_len dim m c _ ids Hd Ho Eg) as [L F].
  unfold vmesh. cbn [m_order m_points m_conn m_wires]. split; [auto|]. split; [auto|]. split; [exists (w + 1); rewrite app_length; lia|]. split; auto. apply Forall_app. split; auto.
Qed.
Lemma reachable_pmesh dim range : 1 <= dim -> 0 < range -> forall m pend, reachable dim range m pend -> pmesh dim m pend.
Proof.
  intros Hd Hr m pend H. induction H.
  - apply pmesh_nil. unfold new_mesh in H. destruct (Nat.ltb_spec 1 order); [|discriminate]. injection H as <-. unfold vmesh, valid. cbn.
    split; [lia|]. split; [exists 0; auto|]. split; [exists 0; auto|]. split; constructor.
  - destruct IHreachable as (A & (k & B) & C & D & E). cbn [allocate_cells fst]. unfold pmesh. cbn [m_order m_points m_conn m_wires]. unfold pts_per_cell.
    split; auto. split; [exists (k + n); rewrite app_length, repeat_length; lia|]. split; auto. split; auto.
    intros j Hj Hn. rewrite app_length, repeat_length in Hj. destruct (Nat.lt_ge_cases j (length (m_conn m))) as [Hl|Hl].
    + rewrite app_nth1 by auto. apply D; auto. intros K. apply Hn. apply in_or_app; auto.
    + exfalso. apply Hn. apply in_or_app. right. apply in_seq. lia.
  - destruct IHreachable as (A & (k & B) & C & D & E). unfold insert_cell_point in H0. destruct (Nat.ltb_spec (cell * pts_per_cell dim m + pt) (length (m_conn m))) as [Hlt|]; [|discriminate].
    cbn [assert_] in H0. injection H0 as <-. unfold pmesh. cbn [m_order m_points m_conn m_wires]. unfold pts_per_cell in *.
    split; auto. split; [exists k; rewrite set_at_length; auto|]. split; auto. split.
    + intros j Hj Hn. rewrite set_at_length in Hj. rewrite set_at_nth, app_length. cbn [length]. destruct (Nat.eqb_spec (cell * m_order m ^ dim + pt) j) as [Ej|N].
      * destruct (Nat.ltb_spec (cell * m_order m ^ dim + pt) (length (m_conn m))); lia.
      * apply Nat.lt_lt_add_r. apply D; auto. intros K. apply Hn. apply in_in_remove; auto.
    + eapply Forall_impl; [|exact E]. cbv beta. intros. rewrite app_length. lia.
  - apply pmesh_nil. apply pmesh_nil in IHreachable. eapply valid_full_cell; eauto.
  - apply pmesh_nil. apply pmesh_nil in IHreachable. eapply valid_full_cells; eauto.
  - apply pmesh_nil. apply pmesh_nil in IHreachable1. apply pmesh_nil in IHreachable2. eapply valid_merge; [exact IHreachable1|exact IHreachable2|eassumption].
  - apply pmesh_nil. apply pmesh_nil in IHreachable. eapply valid_merge_points; eauto.
  - apply pmesh_nil. apply pmesh_nil in IHreachable. destruct IHreachable as (A & (k & B) & C & D & E). unfold permute_cell_directions in H0.
    rewrite (num_cells_ok dim m k) in H0 by (unfold pts_per_cell; auto using pow_pos). cbn [bind] in H0. destruct (Nat.ltb_spec cell k) as [Hl|]; [|discriminate]. cbn [assert_] in H0. injection H0 as <-.
    destruct (permute_conn_ok dim (m_order m) (cell * pts_per_cell dim m) (m_conn m) Hd) as (L & P & U); [unfold pts_per_cell; nia|]. cbv zeta in *.
    unfold vmesh. cbn [m_order m_points m_conn m_wires]. split; auto. split; [exists k; congruence|]. split; auto. split; auto.
    apply Forall_forall. intros i Hi. apply (In_nth _ _ 0) in Hi as (j & Hj & <-). rewrite L in Hj. rewrite Forall_forall in D.
    destruct (Nat.lt_ge_cases j (cell * pts_per_cell dim m)) as [H1|H1]; [rewrite U by auto; apply D, nth_In; auto|].
    destruct (Nat.lt_ge_cases j (cell * pts_per_cell dim m + m_order m ^ dim)) as [H2|H2]; [|rewrite U by auto; apply D, nth_In; auto].
    destruct (position_surj dim (m_order m) (j - cell * pts_per_cell dim m)) as (t & Ht & Et); [lia|].
    replace j with (cell * pts_per_cell dim m + position (m_order m) t) by lia. rewrite P by auto. apply D, nth_In.
    pose proof (position_lt dim (m_order m) _ (flip_index _ _ _ Ht)). unfold pts_per_cell in *. nia.
  - apply pmesh_nil. apply pmesh_nil in IHreachable. apply scale_points_ok in H0 as (A & B & C & D). unfold vmesh in *. rewrite A, B, C. unfold valid in *. rewrite D. auto.
  - apply pmesh_nil. apply pmesh_nil in IHreachable. eapply valid_wirebasket; eauto.
Qed.
