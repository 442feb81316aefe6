From Coq Require Import Reals List Lia Lra Permutation Sorting.Sorted Bool Arith ZArith.
From Verif Require Import M_Mesh S_Mesh S_MeshOps S_Point L_BBox L_Point L_TensorNat L_Mesh L_Mesh2 L_Mesh3 L_Mesh4.
Import ListNotations.
Local Close Scope R_scope. Local Close Scope Z_scope. Local Open Scope nat_scope.

(** ** C45 *)
Lemma tp_all_position dim order t : is_index dim order t -> nth (position order t) (tp_all (tp_const dim order)) [] = t.
Proof.
  intros H. rewrite <- (tp_flat_position order dim) by apply H. apply tp_all_nth_flat. apply is_index_all. auto.
Qed.
Lemma cell_point_nth cheb order dom t d : length (bmin dom) = length t -> length (bmax dom) = length t -> d < length t ->
  (nth d (cell_point cheb order dom t) 0 = nth d (bmin dom) 0 + (nth d (bmax dom) 0 - nth d (bmin dom) 0) * node01 cheb order (nth d t 0%nat))%R.
Proof.
  intros A B C. unfold cell_point. rewrite (map3_nth _ 0 0%R 0%R) by (rewrite ?lengths_len; lia). rewrite lengths_nth by lia. reflexivity.
Qed.
Lemma group_nil n l c : n = 0 -> group_ids n l c = [].
Proof. intros ->. reflexivity. Qed.

Lemma C45_proof cheb dim m domain wb : dim = 2 \/ dim = 3 -> valid dim (m_order m) (m_points m) (m_conn m) (m_wires m) ->
  length (bmin domain) = dim -> length (bmax domain) = dim ->
  exists m' new, add_full_cell cheb dim m domain wb = Ret m' /\ m_order m' = m_order m /\
    m_points m' = m_points m ++ new /\ length new = m_order m ^ dim /\
    (forall t d, is_index dim (m_order m) t -> d < dim ->
       let lo := nth d (bmin domain) 0%R in let hi := nth d (bmax domain) 0%R in let i := nth d t 0 in
       length (nth (position (m_order m) t) new []) = dim /\
       nth d (nth (position (m_order m) t) new []) 0%R =
         (lo + (hi - lo) * (if m_order m <? 7 then INR i / INR (m_order m - 1) else cheb i (m_order m)))%R) /\
    m_conn m' = m_conn m ++ seq (length (m_points m)) (m_order m ^ dim) /\
    m_wires m' = m_wires m ++ (if wb then flat_map (fun e => map (fun i => length (m_points m) + position (m_order m) (edge_point dim (m_order m) e i))
                                                     (seq 0 (m_order m))) (seq 0 (edge_count dim)) else []).
Proof.
  intros Hd V L1 L2. set (new := map (cell_point cheb (m_order m) domain) (tp_all (tp_const dim (m_order m)))).
  eexists. exists new. split; [apply (add_full_cell_ok cheb dim m domain wb V Hd)|]. cbn [m_order m_points m_conn m_wires].
  split; [auto|]. split; [reflexivity|]. split; [unfold new; rewrite map_length, tp_all_length, tp_size_const; auto|]. split; [|split; reflexivity].
  intros t d Ht Hdd. cbv zeta.
  assert (E : nth (position (m_order m) t) new [] = cell_point cheb (m_order m) domain t).
  { unfold new. rewrite (nth_indep _ [] (cell_point cheb (m_order m) domain [])) by (rewrite map_length, tp_all_length, tp_size_const; apply position_lt; auto).
    rewrite map_nth, (tp_all_position dim) by auto. reflexivity. }
  destruct Ht as [Lt F]. rewrite E. split.
  - unfold cell_point. rewrite map3_length by (rewrite ?lengths_len; lia). auto.
  - rewrite cell_point_nth by lia. unfold node01, use_chebyshev. destruct (Nat.leb_spec 7 (m_order m)), (Nat.ltb_spec (m_order m) 7); try lia; reflexivity.
Qed.

(** ** C46 *)
Lemma C46_proof dim m o : valid dim (m_order m) (m_points m) (m_conn m) (m_wires m) -> valid dim (m_order o) (m_points o) (m_conn o) (m_wires o) ->
  m_order m = m_order o ->
  forall cm co wm wo, length (m_conn m) = cm * m_order m ^ dim -> length (m_conn o) = co * m_order o ^ dim ->
    length (m_wires m) = wm * m_order m -> length (m_wires o) = wo * m_order o ->
  exists r, mesh_merge m o = Ret r /\ m_order r = m_order m /\ m_points r = m_points m ++ m_points o /\
    length (m_conn r) = (cm + co) * m_order r ^ dim /\ length (m_wires r) = (wm + wo) * m_order r /\
    (forall c, c < cm -> group_ids (m_order r ^ dim) (m_conn r) c = group_ids (m_order m ^ dim) (m_conn m) c) /\
    (forall c, c < cm -> group_points (m_order r ^ dim) (m_points r) (m_conn r) c = group_points (m_order m ^ dim) (m_points m) (m_conn m) c) /\
    (forall c, c < co -> group_points (m_order r ^ dim) (m_points r) (m_conn r) (cm + c) = group_points (m_order o ^ dim) (m_points o) (m_conn o) c) /\
    (forall c, c < wm -> group_points (m_order r) (m_points r) (m_wires r) c = group_points (m_order m) (m_points m) (m_wires m) c) /\
    (forall c, c < wo -> group_points (m_order r) (m_points r) (m_wires r) (wm + c) = group_points (m_order o) (m_points o) (m_wires o) c).
Proof.
  intros (Ho & _ & _ & Fc & Fw) (_ & _ & _ & Fc' & Fw') Eo cm co wm wo H1 H2 H3 H4. unfold mesh_merge. rewrite <- Eo in *. rewrite Nat.eqb_refl. cbn [assert_].
  eexists. split; [reflexivity|]. cbn [m_order m_points m_conn m_wires].
  destruct (groups_merge (m_order m ^ dim) (m_points m) (m_points o) (m_conn m) (m_conn o) cm co H1 H2 Fc Fc') as [A B].
  destruct (groups_merge (m_order m) (m_points m) (m_points o) (m_wires m) (m_wires o) wm wo H3 H4 Fw Fw') as [C D].
  split; [auto|]. split; [auto|]. split; [rewrite app_length, map_length; lia|]. split; [rewrite app_length, map_length; lia|].
  split; [intros c Hc; apply group_app_l; nia|]. split; [exact A|]. split; [exact B|]. split; [exact C|exact D].
Qed.

(** ** C47 *)
Lemma nth_concat_map {A} (f : A -> list nat) n (l : list A) : (forall x, In x l -> length (f x) = n) -> forall c d, c < length l -> forall k, k < n -> nth (c * n + k) (concat (map f l)) 0 = nth k (f (nth c l d)) 0.
Proof.
  induction l as [|x l IH]; intros Hf c d Hc k Hk; [cbn in Hc; lia|]. cbn [map concat]. destruct c as [|c].
  - cbn [Nat.mul Nat.add]. rewrite app_nth1 by (rewrite Hf; [auto|left; auto]). reflexivity.
  - rewrite (nth_r _ _ _ _ (c * n + k)) by (rewrite Hf; [lia|left; auto]). cbn [nth]. apply IH; auto. { intros; apply Hf; right; auto. } cbn in Hc; lia.
Qed.
Lemma C47_proof dim order : 1 <= dim <= 3 -> 2 <= order -> exists mask, vtu_mask dim order = Ret mask /\ Permutation mask (seq 0 (order ^ dim)) /\
  (forall t, is_index dim order t -> vtk_index order t < order ^ dim /\ nth (vtk_index order t) mask 0 = position order t).
Proof.
  intros Hd Ho. destruct (vtu_mask_perm dim order Hd Ho) as (mask & E & P). destruct (vtu_mask_vtk dim order Hd Ho) as (mask' & E' & _ & V).
  rewrite E in E'. injection E' as <-. exists mask. auto.
Qed.
Lemma C47_conn_proof dim m n : 1 <= dim <= 3 -> valid dim (m_order m) (m_points m) (m_conn m) (m_wires m) -> length (m_conn m) = n * m_order m ^ dim ->
  exists out, vtu_connectivity dim m = Ret out /\ length out = n * m_order m ^ dim /\
   (forall c, c < n -> Permutation (group_ids (m_order m ^ dim) out c) (group_ids (m_order m ^ dim) (m_conn m) c)) /\
   (forall c t, c < n -> is_index dim (m_order m) t ->
     nth (c * m_order m ^ dim + vtk_index (m_order m) t) out 0 = nth (c * m_order m ^ dim + position (m_order m) t) (m_conn m) 0).
Proof.
  intros Hd (Ho & _ & _ & Fc & _) Hn. destruct (C47_proof dim (m_order m) Hd Ho) as (mask & E & P & V).
  assert (Lm : length mask = m_order m ^ dim) by (rewrite (Permutation_length P), seq_length; auto).
  set (g := fun c => map (fun p => nth (c * m_order m ^ dim + p) (m_conn m) 0) mask).
  assert (Lg : forall c, length (g c) = m_order m ^ dim) by (intros; unfold g; rewrite map_length; auto).
  pose proof (pow_pos (m_order m) dim Ho) as Pp.
  exists (concat (map g (seq 0 n))). split; [|split; [|split]].
  - unfold vtu_connectivity. rewrite (num_cells_ok dim m n) by (unfold pts_per_cell; auto). cbn [bind]. rewrite E. cbn [bind].
    rewrite (mapM_ok _ g). { reflexivity. } intros c Hc. apply in_seq in Hc. apply mapM_ok. intros p Hp. apply at_ok. unfold pts_per_cell.
    apply (Permutation_in _ P) in Hp. apply in_seq in Hp. nia.
  - rewrite (concat_length (m_order m ^ dim)), map_length, seq_length by (apply Forall_map, Forall_forall; auto). auto.
  - intros c Hc. rewrite (group_ids_concat (m_order m ^ dim)) by (try (apply Forall_map, Forall_forall; auto); rewrite map_length, seq_length; auto).
    rewrite (nth_indep _ [] (g 0)) by (rewrite map_length, seq_length; auto). rewrite map_nth, seq_nth by auto. cbn [Nat.add].
    unfold g, group_ids. apply Permutation_map. auto.
  - intros c t Hc Ht. destruct (V t Ht) as [Vl Vn]. rewrite (nth_concat_map g (m_order m ^ dim) _ (fun x _ => Lg x) c 0) by (rewrite ?seq_length; auto).
    rewrite seq_nth by auto. cbn [Nat.add]. unfold g. rewrite (nth_indep _ 0 (nth (c * m_order m ^ dim + 0) (m_conn m) 0)) by (rewrite map_length, Lm; auto).
    rewrite (map_nth (fun p => nth (c * m_order m ^ dim + p) (m_conn m) 0)), Vn. reflexivity.
Qed.

(** ** C48 *)
Lemma nth_ext_nat (a b : list nat) : length a = length b -> (forall k, k < length a -> nth k a 0 = nth k b 0) -> a = b.
Proof. intros L H. apply (nth_ext _ _ 0 0); auto. Qed.
Lemma C48_proof dim m n cell : 1 <= dim -> valid dim (m_order m) (m_points m) (m_conn m) (m_wires m) -> length (m_conn m) = n * m_order m ^ dim ->
  (cell < n -> exists m', permute_cell_directions dim m cell = Ret m' /\ m_order m' = m_order m /\ m_points m' = m_points m /\ m_wires m' = m_wires m /\
     length (m_conn m') = length (m_conn m) /\
     (forall t, is_index dim (m_order m) t -> nth (cell * m_order m ^ dim + position (m_order m) t) (m_conn m') 0 =
                                              nth (cell * m_order m ^ dim + position (m_order m) (flip (m_order m) t)) (m_conn m) 0) /\
     (forall c, c <> cell -> group_ids (m_order m ^ dim) (m_conn m') c = group_ids (m_order m ^ dim) (m_conn m) c) /\
     permute_cell_directions dim m' cell = Ret m) /\
  (n <= cell -> permute_cell_directions dim m cell = Abort).
Proof.
  intros Hd (Ho & _ & _ & Fc & _) Hn. pose proof (pow_pos (m_order m) dim Ho) as Pp. set (N := m_order m ^ dim) in *.
  unfold permute_cell_directions. rewrite (num_cells_ok dim m n) by (unfold pts_per_cell; auto). cbn [bind]. split.
  2:{ intros H. destruct (Nat.ltb_spec cell n); [lia|]. reflexivity. }
  intros H. destruct (Nat.ltb_spec cell n); [|lia]. cbn [assert_]. eexists. split; [reflexivity|]. cbn [m_order m_points m_conn m_wires]. unfold pts_per_cell. cbn [m_order]. fold N.
  destruct (permute_conn_ok dim (m_order m) (cell * N) (m_conn m) Hd) as (L & P & U); [fold N; nia|]. cbv zeta in *.
  split; [auto|]. split; [auto|]. split; [auto|]. split; [auto|]. split; [exact P|]. split.
  - intros c Hc. unfold group_ids. apply map_ext_in. intros k Hk. apply in_seq in Hk. apply U. fold N. nia.
  - rewrite (num_cells_ok dim _ n) by (unfold pts_per_cell; cbn [m_order m_conn]; fold N; lia). cbn [bind]. destruct (Nat.ltb_spec cell n); [|lia]. cbn [assert_].
    set (c1 := permute_conn dim (m_order m) (cell * N) (m_conn m)) in *.
    destruct (permute_conn_ok dim (m_order m) (cell * N) c1 Hd) as (L2 & P2 & U2); [fold N; nia|]. cbv zeta in *.
    assert (E : permute_conn dim (m_order m) (cell * N) c1 = m_conn m).
    { apply nth_ext_nat; [lia|]. intros k Hk.
      destruct (Nat.lt_ge_cases k (cell * N)) as [Hl|Hl]; [rewrite U2, U by auto; auto|].
      destruct (Nat.lt_ge_cases k (cell * N + N)) as [Hr|Hr]; [|rewrite U2, U by auto; auto].
      destruct (position_surj dim (m_order m) (k - cell * N)) as (t & Ht & Et); [fold N; lia|]. replace k with (cell * N + position (m_order m) t) by lia.
      rewrite P2, P by (auto; apply flip_index; auto). rewrite (flip_flip dim) by auto. reflexivity. }
    rewrite E. destruct m; reflexivity.
Qed.

(** ** C51 *)
Lemma C51_proof dim m n cell edge : dim = 2 \/ dim = 3 -> valid dim (m_order m) (m_points m) (m_conn m) (m_wires m) -> length (m_conn m) = n * m_order m ^ dim ->
  cell < n -> edge < edge_count dim ->
  let along := map (fun i => nth (cell * m_order m ^ dim + position (m_order m) (edge_point dim (m_order m) edge i)) (m_conn m) 0) (seq 0 (m_order m)) in
  exists ids, get_edge_points dim m cell (Z.of_nat edge) = Ret ids /\ length ids = m_order m /\ hd 0 ids <= last ids 0 /\
    (hd 0 along < last along 0 -> ids = along) /\ (last along 0 < hd 0 along -> ids = rev along) /\ (ids = along \/ ids = rev along).
Proof.
  intros Hd (Ho & _ & _ & Fc & _) Hn Hc He. cbv zeta. eexists. split; [apply get_edge_points_ok; auto; nia|]. set (along := map _ _).
  assert (La : length along = m_order m) by (unfold along; rewrite map_length, seq_length; auto).
  split; [rewrite sort_edge_len; auto|].
  assert (Hr : hd 0 (rev along) = last along 0). { destruct along as [|x l] using rev_ind; [reflexivity|]. rewrite rev_app_distr, last_last. reflexivity. }
  assert (Lr : last (rev along) 0 = hd 0 along). { destruct along as [|x l]; [reflexivity|]. cbn [rev hd]. apply last_last. }
  unfold sort_edge_points. destruct (Nat.eqb_spec (hd 0 along) (last along 0)) as [E|E]; cbn [andb].
  - split; [|split; [|split]]; try lia.
    + destruct (2 <? m_order m); [destruct (_ <? _)|destruct (_ <? _)]; rewrite ?Hr, ?Lr; lia.
    + match goal with |- (if ?b then _ else _) = _ \/ _ => destruct b; auto end.
  - destruct (Nat.ltb_spec (last along 0) (hd 0 along)); (split; [rewrite ?Hr, ?Lr; lia|split; [intros; try lia; auto|split; [intros; try lia; auto|auto]]]).
Qed.
Lemma edge_share dim order e f : dim = 2 \/ dim = 3 -> 2 <= order -> e < edge_count dim -> f < edge_count dim -> e <> f ->
  forall i j, i < order -> j < order -> edge_point dim order e i = edge_point dim order f j ->
  (i = 0 \/ i = order - 1) /\ (j = 0 \/ j = order - 1) /\
  (forall i' j', i' < order -> j' < order -> edge_point dim order e i' = edge_point dim order f j' -> i' = i /\ j' = j).
Proof.
  intros Hd Ho He Hf Hef i j Hi Hj E.
  destruct Hd as [-> | ->]; unfold edge_count in *.
  - destruct e as [|[|[|[|e]]]]; try lia; destruct f as [|[|[|[|f]]]]; try lia; unfold edge_point in E; cbn in E; (split; [|split]); try (intros i' j' Hi' Hj' E'; unfold edge_point in E'; cbn in E'; injection E'; clear E'); injection E; clear E; intros; lia.
  - destruct e as [|[|[|[|[|[|[|[|[|[|[|[|e]]]]]]]]]]]]; try lia; destruct f as [|[|[|[|[|[|[|[|[|[|[|[|f]]]]]]]]]]]]; try lia; unfold edge_point in E; cbn in E; (split; [|split]); try (intros i' j' Hi' Hj' E'; unfold edge_point in E'; cbn in E'; injection E'; clear E'); injection E; clear E; intros; lia.
Qed.
