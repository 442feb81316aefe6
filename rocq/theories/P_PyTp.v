(** C112 (tensor and flat indices, corners, faces and edges), C113 (DOLFINx numbering of faces and edges), C114 (internal and boundary
    indices) of TensorProdIndex. *)
From Coq Require Import List Arith Bool Lia Permutation Sorting.Sorted.
From Verif Require Import M_PyBase M_PyNodes M_PyTp S_PyTp L_PyNodes L_PyTp L_PyTp2 L_PyTp3 L_PyTp4.
Import ListNotations.
Local Open Scope nat_scope.

(** C112: in any dimension, get_flat_index and get_tensor_index are inverse bijections between the tensor indices of a grid and the
    numbers below the product of its sizes; the first direction varies fastest. *)
Theorem C112_flat_tensor : forall n, Forall (fun k => 1 <= k) n ->
  (forall t, index n t -> exists k, get_flat_index n t = Ret k /\ k = flat n t /\ k < fold_right Nat.mul 1 n /\ get_tensor_index n k = t)
  /\ (forall k, k < fold_right Nat.mul 1 n -> index n (get_tensor_index n k) /\ get_flat_index n (get_tensor_index n k) = Ret k).
Proof.
  intros n P. assert (L : forall t, index n t -> length n = length t) by (intros t H; symmetry; clear - H; induction H; cbn; auto). split.
  - intros t It. exists (flat n t). split; [apply get_flat_ok; auto|]. split; auto. split; [apply flat_lt; auto|apply get_tensor_ok; auto].
  - intros k Hk. destruct (flat_exists n k P Hk) as (t & It & <-). rewrite get_tensor_ok by auto. split; auto. apply get_flat_ok. auto.
Qed.
(** Corner c is the index at the ends given by the bits of c; *)
Theorem C112_corner : forall n c, Forall (fun k => 1 <= k) n -> 1 <= length n <= 3 -> c < 2 ^ length n ->
  get_corner n c = Ret (flat n (map (fun d => end_of n d (side c d)) (seq 0 (length n))))
  /\ (l <- get_all_corners n ;; Ret (nth_error l c)) = Ret (Some (flat n (map (fun d => end_of n d (side c d)) (seq 0 (length n))))).
Proof.
  intros n c P H Hc. assert (Q : forall d, d < length n -> 0 < nth d n 0). { intros d Hd. rewrite Forall_forall in P. apply (P (nth d n 0)). apply nth_In; auto. }
  split; [apply get_corner_ok; auto|]. destruct (corner_list n Q H) as (l & E & L & V). rewrite E. cbn [bind]. f_equal. rewrite <- (V c Hc). apply nth_error_nth'. lia.
Qed.
(** face f holds exactly the indices at its end, in increasing order; *)
Theorem C112_face : forall n f, Forall (fun k => 1 <= k) n -> 1 <= length n <= 3 -> f < 2 * length n ->
  exists l, get_face n f true = Ret l /\ lists_exactly n (on_lex_face n f) l.
Proof. intros n f P H Hf. apply get_face_lex; auto. Qed.
(** and edge e of a hexahedron exactly the indices between its two vertices, in increasing order (below 3D the edges are the faces). *)
Theorem C112_edge : forall n e, Forall (fun k => 1 <= k) n ->
  (length n = 3 -> e < 12 -> exists l, get_edge n e true = Ret l /\ lists_exactly n (on_entity n (nth e lex_edges [])) l)
  /\ (1 <= length n <= 2 -> e < 2 * length n -> exists l, get_edge n e true = Ret l /\ lists_exactly n (on_lex_face n e) l).
Proof.
  intros n e P. split.
  - intros H He. apply get_edge_lex; auto.
  - intros H He. destruct (get_face_lex n e P ltac:(lia) He) as (l & E & X). exists l. split; auto. unfold get_edge. replace (1 <=? length n) with true by (symmetry; apply Nat.leb_le; lia).
    replace (length n <=? 3) with true by (symmetry; apply Nat.leb_le; lia). replace (length n <? 3) with true by (symmetry; apply Nat.ltb_lt; lia). cbn [andb assert_ bind]. auto.
Qed.
Print Assumptions C112_flat_tensor.
Print Assumptions C112_corner.
Print Assumptions C112_face.
Print Assumptions C112_edge.
Example C112_case : get_flat_index [3; 4; 2] [2; 1; 1] = Ret 17 /\ get_tensor_index [3; 4; 2] 17 = [2; 1; 1] /\ get_corner [3; 4; 2] 6 = Ret 21
  /\ get_face [3; 4; 2] 1 true = Ret [2; 5; 8; 11; 14; 17; 20; 23] /\ get_edge [3; 4; 2] 7 true = Ret [14; 17; 20; 23].
Proof. repeat split. Qed.

(** C113: with lexicg=False, the faces and the edges are numbered as in DOLFINx. Refuted for the edges 4 and 6 of hexahedra, on every
    grid with two indices per direction or more: they are swapped. *)
Theorem C113_refuted : forall n e, length n = 3 -> Forall (fun k => 2 <= k) n -> e = 4 \/ e = 6 ->
  exists l, get_edge n e false = Ret l /\ ~ lists_exactly n (on_entity n (nth e (basix_edges 3) [])) l /\ lists_exactly n (on_entity n (nth (10 - e) (basix_edges 3) [])) l.
Proof.
  intros n e H P He. destruct (edge_swap n H) as (E4 & E6). assert (P1 : pos_dims n) by (eapply Forall_impl; [|exact P]; cbn; lia).
  destruct n as [|a [|b [|c [|? ?]]]]; try discriminate H. repeat match goal with X : Forall _ (_ :: _) |- _ => inversion X; clear X; subst end.
  destruct He as [-> | ->]; [rewrite E4; destruct (get_edge_lex [a; b; c] 2 P1 H ltac:(lia)) as (l & G & X)|rewrite E6; destruct (get_edge_lex [a; b; c] 1 P1 H ltac:(lia)) as (l & G & X)];
    exists l; (split; [auto|split; [|exact X]]); intros (_ & Y); destruct X as (_ & X).
  - assert (M : In (flat [a; b; c] [0; b - 1; 0]) l).
    { apply X. exists [0; b - 1; 0]. split; [apply index3; exists 0, (b - 1), 0; repeat split; lia|]. split; auto. rewrite on_entity_dec. intros [|[|[|d]]] Hd up; cbn in Hd; try lia; destruct up; cbn; intros U; try discriminate U; auto. }
    apply Y in M. destruct M as (t & It & F & E). apply flat_inj in E; auto; [|apply index3; exists 0, (b - 1), 0; repeat split; lia]. subst t. rewrite on_entity_dec in F. specialize (F 0 ltac:(cbn; lia) true eq_refl). cbn in F. lia.
  - assert (M : In (flat [a; b; c] [a - 1; 0; 0]) l).
    { apply X. exists [a - 1; 0; 0]. split; [apply index3; exists (a - 1), 0, 0; repeat split; lia|]. split; auto. rewrite on_entity_dec. intros [|[|[|d]]] Hd up; cbn in Hd; try lia; destruct up; cbn; intros U; try discriminate U; auto. }
    apply Y in M. destruct M as (t & It & F & E). apply flat_inj in E; auto; [|apply index3; exists (a - 1), 0, 0; repeat split; lia]. subst t. rewrite on_entity_dec in F. specialize (F 0 ltac:(cbn; lia) false eq_refl). cbn in F. lia.
Qed.
(** The faces in all dimensions, the edges below 3D and the other edges of hexahedra are right. *)
Theorem C113_faces_partial : forall n f, Forall (fun k => 1 <= k) n -> 1 <= length n <= 3 -> f < 2 * length n ->
  exists l, get_face n f false = Ret l /\ lists_exactly n (on_entity n (nth f (basix_facets (length n)) [])) l.
Proof.
  intros n f P H Hf. destruct (facet_lex n f H Hf) as (f' & L & T & X). destruct (lex_face_ok n f' P H L) as (l & E & Y). exists l. split.
  - unfold get_face. replace (1 <=? length n) with true by (symmetry; apply Nat.leb_le; lia). replace (length n <=? 3) with true by (symmetry; apply Nat.leb_le; lia).
    replace (f <? 2 * length n) with true by (symmetry; apply Nat.ltb_lt; lia). cbn [andb assert_]. rewrite T. cbn [bind]. auto.
  - eapply lists_ext; [|exact Y]. intros t _. apply X.
Qed.
Theorem C113_edges_partial : forall n e, Forall (fun k => 1 <= k) n -> 1 <= length n <= 3 -> e < length (basix_edges (length n)) ->
  ~ (length n = 3 /\ (e = 4 \/ e = 6)) ->
  exists l, get_edge n e false = Ret l /\ lists_exactly n (on_entity n (nth e (basix_edges (length n)) [])) l.
Proof.
  intros n e P H He N. destruct (Nat.eq_dec (length n) 3) as [E3|N3].
  - rewrite E3 in *. apply edge_dlf; auto; intros ->; apply N; auto.
  - assert (H2 : length n = 1 \/ length n = 2) by lia. assert (He' : e < 2 * length n) by (destruct H2 as [H2|H2]; rewrite H2 in He |- *; cbn in He; lia).
    destruct (C113_faces_partial n e P H He') as (l & E & X). exists l. split.
    + unfold get_edge, get_face in *. assert (G : lexicg_to_DOLFINx_edges (length n) = lexicg_to_DOLFINx_faces (length n)) by (destruct H2 as [H2|H2]; rewrite H2; reflexivity). rewrite G.
      destruct (facet_lex n e H He') as (f' & L & T & _). rewrite T in *. replace (length n <? 3) with true by (symmetry; apply Nat.ltb_lt; lia). replace (1 <=? length n) with true in * by (symmetry; apply Nat.leb_le; lia).
      replace (length n <=? 3) with true in * by (symmetry; apply Nat.leb_le; lia). replace (e <? 2 * length n) with true in E by (symmetry; apply Nat.ltb_lt; lia). cbn [andb assert_ bind] in *.
      replace (f' <? 2 * length n) with true by (symmetry; apply Nat.ltb_lt; lia). cbn [assert_]. auto.
    + destruct H2 as [H2|H2]; rewrite H2 in *; exact X.
Qed.
(** The tables to and from DOLFINx' and VTK's faces, and DOLFINx' edges, are inverse to each other. *)
Theorem C113_tables_partial : forall dim, 1 <= dim <= 3 ->
  (exists p q, lexicg_to_DOLFINx_faces dim = Ret p /\ DOLFINx_to_lexicg_faces dim = Ret q /\ inverse (2 * dim) p q)
  /\ (exists p q, lexicg_to_VTK_faces dim = Ret p /\ VTK_to_lexicg_faces dim = Ret q /\ inverse (2 * dim) p q)
  /\ (exists p q, lexicg_to_DOLFINx_edges dim = Ret p /\ DOLFINx_to_lexicg_edges dim = Ret q /\ inverse (length (basix_edges dim)) p q).
Proof.
  intros dim H. destruct dim as [|[|[|[|dim]]]]; try lia; (split; [|split]); do 2 eexists; (split; [reflexivity|split; [reflexivity|]]); (split; [reflexivity|split; [reflexivity|]]);
    intros i Hi; cbn in Hi; do 12 (destruct i as [|i]; [cbn; repeat split; lia|try (exfalso; lia)]); lia.
Qed.
(** The numbering of the faces of VTK: right in 1D and 2D; in 3D only face 5 is (the nodes of VTK_to_lexicg_nodes, C110, are in the order of
    the faces of VTK). *)
Definition vtk_face_right (dim f : nat) : Prop := exists g, (t <- lexicg_to_VTK_faces dim ;; pat t f) = Ret g
  /\ forall n t, length n = dim -> on_lex_face n g t <-> on_entity n (nth f (vtk_facets dim) []) t.
Theorem C113_VTK_refuted : forall f, f < 5 -> ~ vtk_face_right 3 f.
Proof.
  intros f Hf (g & E & H). pose proof (H [4; 4; 4] [0; 1; 2] eq_refl) as H0. pose proof (H [4; 4; 4] [1; 0; 2] eq_refl) as H1. pose proof (H [4; 4; 4] [3; 1; 2] eq_refl) as H2.
  pose proof (H [4; 4; 4] [1; 3; 2] eq_refl) as H3. pose proof (H [4; 4; 4] [1; 2; 0] eq_refl) as H4. clear H. unfold on_lex_face in *. rewrite on_entity_dec in *.
  assert (D : forall vs i j k, (forall d, d < length [4; 4; 4] -> forall up, forallb (fun v => eqb (side v d) up) vs = true -> nth d [i; j; k] 0 = end_of [4; 4; 4] d up) <->
     forallb (fun d => forallb (fun up => implb (forallb (fun v => eqb (side v d) up) vs) (nth d [i; j; k] 0 =? end_of [4; 4; 4] d up)) [false; true]) [0; 1; 2] = true).
  { intros vs i j k. rewrite forallb_forall. split.
    - intros X d Hd. apply forallb_forall. intros up _. apply implb_true_iff. intros Y. apply Nat.eqb_eq. apply X; auto. cbn in *. lia.
    - intros X d Hd up Y. specialize (X d ltac:(cbn in *; lia)). rewrite forallb_forall in X. specialize (X up ltac:(destruct up; cbn; auto)). rewrite Y in X. cbn [implb] in X. apply Nat.eqb_eq; auto. }
  rewrite D in *. do 5 (destruct f as [|f]; [vm_compute in E; injection E as <-; vm_compute in H0, H1, H2, H3, H4; intuition congruence|]). lia.
Qed.
Theorem C113_VTK_partial : forall dim f, 1 <= dim <= 2 -> f < 2 * dim -> vtk_face_right dim f.
Proof.
  intros dim f H Hf. destruct dim as [|[|[|dim]]]; try lia; cbn in Hf;
  do 4 (destruct f as [|f]; [eexists; split; [reflexivity|]; intros n t Hn; rewrite on_entity_dec, Hn; split;
     [ intros F d Hd up; unfold on_lex_face in F; cbn in F; destruct d as [|[|d]]; try lia; cbn; destruct up; cbn; intros X; try discriminate X; auto
     | intros F; unfold on_lex_face; cbn [Nat.div]; first [ apply (F 0 ltac:(lia)); reflexivity | apply (F 1 ltac:(lia)); reflexivity ] ] | ]; try lia); lia.
Qed.
Theorem C113_VTK_last_partial : vtk_face_right 3 5.
Proof. eexists; split; [reflexivity|]; intros n t Hn; rewrite on_entity_dec, Hn; split;
     [ intros F d Hd up; unfold on_lex_face in F; cbn in F; destruct d as [|[|[|d]]]; try lia; cbn; destruct up; cbn; intros X; try discriminate X; auto
     | intros F; unfold on_lex_face; cbn [Nat.div]; apply (F 2 ltac:(lia)); reflexivity ]. Qed.
Print Assumptions C113_VTK_refuted.
Print Assumptions C113_VTK_partial.
Print Assumptions C113_VTK_last_partial.
Print Assumptions C113_refuted.
Print Assumptions C113_faces_partial.
Print Assumptions C113_edges_partial.
Print Assumptions C113_tables_partial.
Example C113_case : get_edge [2; 3; 4] 4 false = Ret [4; 10; 16; 22] /\ get_edge [2; 3; 4] 3 false = Ret [1; 3; 5] /\ get_face [2; 3; 4] 2 false = Ret (map (fun k => 2 * k) (seq 0 12)).
Proof. repeat split. Qed.

(** C114: get_all_internal returns exactly the indices at no end of a direction, get_all_faces exactly the others. Refuted: in 3D, with three
    indices or more in the first direction and four or more in the others, get_all_internal raises or loses indices; *)
Theorem C114_internal_refuted : forall a b c, 3 <= a -> 4 <= b -> 4 <= c ->
  ~ exists r, get_all_internal [a; b; c] = Ret r /\ lists_exactly [a; b; c] (internal [a; b; c]) (entries r).
Proof. intros a b c Ha Hb Hc. apply int3_missing; auto. Qed.
(** it raises unless the last two sizes are the same; *)
Theorem C114_internal_raises : forall a b c, 3 <= a -> 4 <= b -> 4 <= c -> b <> c -> get_all_internal [a; b; c] = Abort.
Proof.
  intros a b c Ha Hb Hc N. unfold get_all_internal. cbn [length]. rewrite internal3_eq by lia. unfold add_column.
  assert (Lr : length (outer_sum (arange 1 (a - 1) 1) (arange a (a * (b - 1)) a)) = b - 2) by (rewrite outer_len; apply cols_len; lia).
  assert (Lc : length (arange (a * b) (a * b * (c - 1)) (a * b)) = c - 2) by (apply cols_len; nia).
  replace (_ =? _) with false by (symmetry; apply Nat.eqb_neq; rewrite Lr, Lc; lia).
  destruct (outer_sum _ _) as [|r0 [|r1 rows']]; cbn [length] in Lr; try lia. destruct (arange (a * b) _ _) as [|y [|y' cs']]; cbn [length] in Lc; try lia. reflexivity.
Qed.
(** get_all_faces repeats indices when a direction has a single one. *)
Theorem C114_faces_refuted : ~ (forall n, Forall (fun k => 1 <= k) n -> 1 <= length n <= 3 -> exists l, get_all_faces n = Ret l /\ lists_exactly n (on_boundary n) l).
Proof.
  intros H. destruct (H [3; 1] ltac:(repeat constructor) ltac:(cbn; lia)) as (l & E & (S & _)). vm_compute in E. injection E as <-. inversion S as [|? ? _ F]; subst. inversion F; subst. lia.
Qed.
(** Proved: get_all_internal in 1D, 2D, and in 3D with three indices in the second or the third direction; *)
Theorem C114_internal_partial : forall n, Forall (fun k => 1 <= k) n -> 1 <= length n <= 2 \/ (length n = 3 /\ (nth 1 n 0 = 3 \/ nth 2 n 0 = 3)) ->
  exists r, get_all_internal n = Ret r /\ lists_exactly n (internal n) (entries r).
Proof.
  intros n P H. destruct (dim_cases n ltac:(lia)) as [(a & ->)|[(a & b & ->)|(a & b & c & ->)]]; repeat match goal with X : Forall _ (_ :: _) |- _ => inversion X; clear X; subst end; unfold get_all_internal; cbn [length].
  - eexists. split; [reflexivity|]. apply int1.
  - rewrite internal2_ok by auto. eexists. split; [reflexivity|]. cbn [entries]. apply int2. auto.
  - cbn [length nth] in H. destruct H as [H|(_ & [-> | ->])]; [lia|apply int3_row; auto|apply int3_layer; auto].
Qed.
(** and get_all_faces with two indices or more per direction. *)
Theorem C114_faces_partial : forall n, Forall (fun k => 2 <= k) n -> 1 <= length n <= 3 -> exists l, get_all_faces n = Ret l /\ lists_exactly n (on_boundary n) l.
Proof.
  intros n P H. destruct (dim_cases n H) as [(a & ->)|[(a & b & ->)|(a & b & c & ->)]]; repeat match goal with X : Forall _ (_ :: _) |- _ => inversion X; clear X; subst end; unfold get_all_faces; cbn [length].
  - eexists. split; [reflexivity|]. apply bdry1_ok. auto.
  - rewrite all_faces2_eq by auto. eexists. split; [reflexivity|]. apply bdry2_ok; auto.
  - rewrite all_faces3_eq by auto. eexists. split; [reflexivity|]. apply bdry3_ok; auto.
Qed.
Print Assumptions C114_internal_refuted.
Print Assumptions C114_internal_raises.
Print Assumptions C114_faces_refuted.
Print Assumptions C114_internal_partial.
Print Assumptions C114_faces_partial.
Example C114_case : (exists r, get_all_internal [4; 4; 4] = Ret r /\ entries r = [21; 22; 41; 42]) /\ get_all_internal [4; 4; 5] = Abort
  /\ (exists r, get_all_internal [4; 4] = Ret r /\ entries r = [5; 6; 9; 10]) /\ get_all_faces [3; 4] = Ret [0; 1; 2; 3; 5; 6; 8; 9; 10; 11].
Proof. split; [eexists; split; reflexivity|]. split; [reflexivity|]. split; [eexists; split; reflexivity|reflexivity]. Qed.
