(** C121: boxes of cells. C122: facets of the faces of a tensor-product mesh. C123: create_Cartesian_mesh. *)
From Coq Require Import List Arith Bool Lia ZArith Permutation Sorting.Sorted Reals Lra.
From Verif Require Import M_PyBase M_PyNodes M_PyTp M_PyMesh M_PyTpMesh S_PyTp S_PyMesh S_PyTpMesh L_PyNodes L_PyTp L_PyTp2 L_PyTp3 L_PyFacets L_PyMesh L_PyTpMesh L_PyTpMesh2 L_PyTpMesh3 P_PyMesh P_PyTpMesh.
Import ListNotations.
Local Close Scope R_scope. Local Close Scope Z_scope. Local Open Scope nat_scope.

(** C121: the box of a local cell is the product of the intervals of its original cell. Refuted: with the documented argument (a scalar id)
    the functions always raise. *)
Theorem C121_scalar_refuted : forall m breaks n i, get_cell_tensor_index m n (Scalar i) = Abort /\ get_cell_bbox m breaks n (Scalar i) = Abort.
Proof.
  intros m breaks n i. assert (A : get_cell_tensor_index m n (Scalar i) = Abort).
  { unfold get_cell_tensor_index, get_original_cell_ids, assert_. destruct (forallb _ _); [|reflexivity]. cbn [take_zids pmap bind].
    unfold patz, pat. cbn. destruct (0 <=? i)%Z; [|destruct (0 <=? _)%Z]; try destruct (nth_error _ _); cbn; try reflexivity; destruct (active_cells m); cbn; try reflexivity;
      unfold patz, pat; destruct (0 <=? _)%Z; try destruct (0 <=? _)%Z; try destruct (nth_error _ _); reflexivity. }
  split; auto. unfold get_cell_bbox. rewrite A. reflexivity.
Qed.
(** With an array of one id: right. *)
Theorem C121_bbox_partial : forall argsort m breaks, sorts argsort ->
  let n := cells_of_breaks breaks in
  cells_of_process m (fold_right Nat.mul 1 n) -> original_cell_index m <> [] -> Forall (fun b => 2 <= length b) breaks ->
  forall i, (0 <= i < Z.of_nat (length (original_cell_index m)))%Z ->
  exists t lo hi, original_of m i (Z.of_nat (flat n t)) /\ index n t /\ get_cell_tensor_index m n (Array [i]) = Ret t /\ get_cell_bbox m breaks n (Array [i]) = Ret (lo, hi)
    /\ lo = coordinates breaks 1 t (map (fun _ => 0) n) /\ hi = coordinates breaks 1 t (map (fun _ => 1) n).
Proof.
  intros argsort m breaks HS n HC NE B i Hi. assert (Ln : length n = length breaks) by (unfold n, cells_of_breaks; apply map_length).
  destruct (C117_cells_partial argsort m _ HS HC NE) as (G & _ & _). destruct (G [i]) as (orig & E & F & _). { intros x [<-|[]]. auto. }
  inversion F as [|i' c l l' O F']; subst. inversion F'; subst. clear F F'.
  assert (Bc : (0 <= c < Z.of_nat (nprod n))%Z).
  { destruct O as (_ & O). destruct HC as (ND & HA). destruct (active_cells m) as [a|].
    - destruct HA as (_ & Ra & Ia). apply Ra. rewrite <- O. apply nth_In. assert (Ii : In (nth (Z.to_nat i) (original_cell_index m) 0%Z) (original_cell_index m)) by (apply nth_In; lia). apply Ia in Ii. lia.
    - rewrite <- O. apply HA. apply nth_In. lia. }
  assert (PB : Forall (fun x => 1 <= x) n). { unfold n, cells_of_breaks. apply Forall_forall. intros x Hx. apply in_map_iff in Hx. destruct Hx as (b & <- & Ib). rewrite Forall_forall in B. specialize (B b Ib). lia. }
  destruct (flat_exists n (Z.to_nat c) PB) as (t & It & Et). { lia. }
  assert (TI : get_cell_tensor_index m n (Array [i]) = Ret t). { unfold get_cell_tensor_index. rewrite E. cbn [bind pat nth_error]. rewrite <- Et, get_tensor_ok by auto. reflexivity. }
  assert (Lt : length t = length n) by (apply (f2_len_c _ _ _ It)).
  assert (W : forall d, d < length n -> nth d t 0 + 1 < length (nth d breaks [])).
  { intros d Hd. pose proof (f2_nth' _ _ _ 0 0 It d ltac:(lia)) as Bc'. cbn beta in Bc'. unfold n in Bc' at 1. unfold cells_of_breaks in Bc'. rewrite (nth_map_at _ _ _ []) in Bc' by lia. lia. }
  assert (P : forall k, k <= 1 -> pmap (fun d => b <- pat breaks d ;; i <- pat t d ;; pat b (i + k)) (seq 0 (length n)) = Ret (coordinates breaks 1 t (map (fun _ => k) n))).
  { intros k Hk. unfold coordinates. rewrite <- Ln. apply L_PyNodes.pmap_ret. intros d Hd. apply in_seq in Hd. specialize (W d ltac:(lia)). rewrite (pat_ret breaks d []) by lia. cbn [bind]. rewrite (pat_ret t d 0) by lia. cbn [bind]. rewrite (pat_ret _ _ 0%R) by lia.
    f_equal. cbv zeta. rewrite (nth_map_at _ _ _ 0) by lia. destruct (Nat.eq_dec k 0) as [->|]; [rewrite Nat.add_0_r; cbn [INR]; field|replace k with 1 by lia; cbn [INR]; field]. }
  exists t, (coordinates breaks 1 t (map (fun _ => 0) n)), (coordinates breaks 1 t (map (fun _ => 1) n)).
  split; [rewrite Et, Z2Nat.id by lia; auto|]. split; auto. split; auto. split; auto. unfold get_cell_bbox. rewrite TI. cbn [bind].
  pose proof (P 0 ltac:(lia)) as P0. assert (X : pmap (fun d => b <- pat breaks d ;; i <- pat t d ;; pat b i) (seq 0 (length n)) = Ret (coordinates breaks 1 t (map (fun _ => 0) n))).
  { rewrite <- P0. generalize (seq 0 (length n)) as l. induction l as [|d l IH]; cbn; auto. rewrite IH. destruct (pat breaks d); cbn; auto. destruct (pat t d); cbn; auto. rewrite Nat.add_0_r. reflexivity. }
  rewrite X. cbn [bind]. rewrite (P 1) by lia. reflexivity.
Qed.
Print Assumptions C121_scalar_refuted.
Print Assumptions C121_bbox_partial.
Example C121_case : let m := {| original_cell_index := [2; 0]%Z; active_cells := None; input_global_indices := []; merged_nodes_map := [] |} in
  get_cell_bbox m [[0; 1; 3]; [5; 7; 8]]%R [2; 2] (Array [0%Z]) = Ret ([0; 7], [1; 8])%R /\ cells_of_process m 4.
Proof. cbv zeta. split; [reflexivity|]. split; cbn; [repeat (constructor; [cbn; lia|]); constructor|]. intros i [<-|[<-|[]]]; lia. Qed.

(** The facets of a face of the mesh that are in the process: the facets on that side of the local cells whose original cell touches the face. *)
Definition facet_of_cells (m : mesh) (n : list nat) (ctf : list (list Z)) (f k : nat) (x : Z) : Prop :=
  exists i t, original_of m i (Z.of_nat (flat n t)) /\ index n t /\ on_lex_face n f t /\ x = nth k (nth (Z.to_nat i) ctf []) 0%Z.
Definition face_facet (m : mesh) (n : list nat) (ctf : list (list Z)) (f : nat) (x : Z) : Prop :=
  exists k, local_facet (length n) f k /\ facet_of_cells m n ctf f k x.
Lemma filter_in_f2 (P : Z -> Z -> Prop) cs ids : Forall2 (fun c i => (P i c /\ (0 <= i)%Z) \/ (i = -1)%Z /\ forall k, ~ P k c) cs ids -> (forall i j c, P i c -> P j c -> i = j) ->
  forall i, In i (filter (fun c => 0 <=? c)%Z ids) <-> exists c, In c cs /\ P i c.
Proof.
  intros F U. induction F as [|c i cs ids H F IH]; intros x; cbn [filter].
  - split; [intros []|intros (c & [] & _)].
  - destruct H as [(Hp & Hi)|(-> & Hn)].
    + replace (0 <=? i)%Z with true by (symmetry; apply Z.leb_le; auto). cbn [In]. rewrite IH. split.
      * intros [<-|(c' & I & Q)]; [exists c; cbn; auto|exists c'; cbn; auto].
      * intros (c' & [<-|I] & Q); [left; eapply U; eauto|right; eauto].
    + cbn. rewrite IH. split; [intros (c' & I & Q); exists c'; auto|]. intros (c' & [<-|I] & Q); [destruct (Hn _ Q)|eauto].
Qed.
Lemma original_inj m n : cells_of_process m n -> forall i j c, original_of m i c -> original_of m j c -> i = j.
Proof.
  intros (ND & HA) i j c (Bi & Vi) (Bj & Vj). assert (Ii : In (nth (Z.to_nat i) (original_cell_index m) 0%Z) (original_cell_index m)) by (apply nth_In; lia). assert (Ij : In (nth (Z.to_nat j) (original_cell_index m) 0%Z) (original_cell_index m)) by (apply nth_In; lia).
  assert (E : nth (Z.to_nat i) (original_cell_index m) 0%Z = nth (Z.to_nat j) (original_cell_index m) 0%Z).
  { destruct (active_cells m) as [a|]; [|congruence]. destruct HA as (Na & _ & Ia). apply Ia in Ii, Ij. assert (Z.to_nat (nth (Z.to_nat i) (original_cell_index m) 0%Z) = Z.to_nat (nth (Z.to_nat j) (original_cell_index m) 0%Z)) by (apply (proj1 (NoDup_nth a (-1)%Z) Na); try lia; congruence). lia. }
  assert (Z.to_nat i = Z.to_nat j) by (apply (proj1 (NoDup_nth _ 0%Z) ND); auto; lia). lia.
Qed.
Section Faces.
  Variables (sort unique : list Z -> list Z) (argsort : list Z -> list nat) (m : mesh) (n : list nat) (ctf : list (list Z)).
  Hypothesis Hs : sorting sort.
  Hypothesis Hu : uniques unique.
  Hypothesis Ha : sorts argsort.
  Hypothesis Hn : 1 <= length n <= 3.
  Hypothesis Pn : Forall (fun k => 1 <= k) n.
  Hypothesis HC : cells_of_process m (fold_right Nat.mul 1 n).
  Hypothesis NE : original_cell_index m <> [].
  Hypothesis Lc : length ctf = length (original_cell_index m).
  Hypothesis Rc : forall r, In r ctf -> length r = 2 * length n.
  (** The cells of a face: sorted, each once, exactly the local cells touching the face. *)
  Lemma face_cells f : f < 2 * length n -> exists cells, get_face_DOLFINx_cells sort argsort m n f = Ret cells /\ StronglySorted Z.le cells /\ NoDup cells /\
    forall i, In i cells <-> exists t, original_of m i (Z.of_nat (flat n t)) /\ index n t /\ on_lex_face n f t.
  Proof.
    intros Hf. destruct (get_face_lex n f Pn Hn Hf) as (l & E & (SS & IL)). unfold get_face_DOLFINx_cells. rewrite E. cbn [bind].
    destruct (C117_cells_partial argsort m _ Ha HC NE) as (_ & G & _). destruct (G (map Z.of_nat l)) as (ids & E' & F). rewrite E'. cbn [bind].
    destruct (Hs (filter (fun c => 0 <=? c)%Z ids)) as (Pm & Ss). exists (sort (filter (fun c => 0 <=? c)%Z ids)). split; auto. split; auto.
    assert (F1 : Forall2 (fun c i => (original_of m i c /\ (0 <= i)%Z) \/ (i = -1)%Z /\ forall k, ~ original_of m k c) (map Z.of_nat l) ids).
    { clear - F. induction F as [|c i cs ids H F IH]; constructor; auto. destruct H as [H|H]; [left; split; auto; destruct H; lia|right; auto]. }
    pose proof (original_inj m _ HC) as U. pose proof (filter_in_f2 (original_of m) _ _ F1 U) as FI. split.
    - apply (Permutation_NoDup (Permutation_sym Pm)). clear - F SS.
      assert (ND : NoDup (map Z.of_nat l)). { apply FinFun.Injective_map_NoDup; [intros x y; apply Nat2Z.inj|]. clear - SS. induction SS as [|x l SS IH Hx]; constructor; auto. intros I. rewrite Forall_forall in Hx. specialize (Hx x I). lia. }
      revert ND F. generalize (map Z.of_nat l) as cs. clear. intros cs ND F. induction F as [|c i cs ids H F IH]; cbn; [constructor|]. inversion ND as [|? ? N1 N2]; subst. destruct (0 <=? i)%Z eqn:Ei; [|auto]. constructor; auto.
      intros I. apply filter_In in I. destruct I as (I & _). destruct H as [H|(-> & _)]; [|discriminate]. apply N1. clear - H I F Ei. induction F as [|c' i' cs ids H' F IH]; [destruct I|]. destruct I as [->|I]; [|right; auto]. left.
      destruct H' as [H'|(-> & _)]; [|discriminate]. destruct H as (_ & H), H' as (_ & H'). destruct (active_cells m); congruence.
    - intros i. assert (X : In i (sort (filter (fun c => 0 <=? c)%Z ids)) <-> In i (filter (fun c => 0 <=? c)%Z ids)) by (split; intros J; [eapply Permutation_in; [exact Pm|auto]|eapply Permutation_in; [apply Permutation_sym; exact Pm|auto]]).
      rewrite X, FI. split.
      + intros (c & I & O). apply in_map_iff in I. destruct I as (k & <- & I). apply IL in I. destruct I as (t & It & Ot & ->). exists t. auto.
      + intros (t & O & It & Ot). exists (Z.of_nat (flat n t)). split; auto. apply in_map. apply IL. exists t. auto.
  Qed.
  Lemma face_facets f : f < 2 * length n -> exists fs, get_face_facets sort unique argsort m n ctf f = Ret fs /\ StronglySorted Z.le fs /\ NoDup fs /\ forall x, In x fs <-> facet_of_cells m n ctf f f x.
  Proof.
    intros Hf. destruct (face_cells f Hf) as (cells & E & _ & _ & I). unfold get_face_facets. rewrite E. cbn [bind].
    assert (X : pmap (fun c => row <- patz ctf c ;; pat row f) cells = Ret (map (fun c => nth f (nth (Z.to_nat c) ctf []) 0%Z) cells)).
    { apply L_PyNodes.pmap_ret. intros c Ic. apply I in Ic. destruct Ic as (t & (Bc & _) & _). rewrite (patz_ok ctf []) by lia. cbn [bind]. rewrite (pat_ret _ f 0%Z); auto. rewrite Rc; auto. apply nth_In. lia. }
    rewrite X. cbn [bind]. set (L := map _ cells). destruct (Hu L) as (ND & IU). destruct (Hs (unique L)) as (Pm & Ss). exists (sort (unique L)). split; auto. split; auto. split.
    { apply (Permutation_NoDup (Permutation_sym Pm)). auto. }
    intros x. assert (Y : In x (sort (unique L)) <-> In x L) by (rewrite <- IU; split; intros J; [eapply Permutation_in; [exact Pm|auto]|eapply Permutation_in; [apply Permutation_sym; exact Pm|auto]]).
    rewrite Y. unfold L. rewrite in_map_iff. unfold facet_of_cells. split.
    - intros (c & <- & Ic). apply I in Ic. destruct Ic as (t & O & It & Ot). exists c, t. auto.
    - intros (i & t & O & It & Ot & ->). exists i. split; auto. apply I. exists t. auto.
  Qed.
End Faces.

(** C122: get_face_facets gives, sorted and once each, exactly the facets of the face of the mesh that are in the process; and
    create_facet_bdry_tags marks them with the number of the face. Refuted: the left face of a mesh of 2 x 1 cells (facets numbered as DOLFINx does:
    the bottom, left, right, top facets of the first cell, then the others) gives the bottom facet of the first cell. *)
Definition ex_mesh : mesh := {| original_cell_index := [0; 1]%Z; active_cells := None; input_global_indices := []; merged_nodes_map := [] |}.
Definition ex_facets : list (list Z) := [[0; 1; 2; 3]; [4; 2; 5; 6]]%Z.
Lemma ex_ok : cells_of_process ex_mesh (fold_right Nat.mul 1 [2; 1]).
Proof. split; cbn; [repeat (constructor; [cbn; lia|]); constructor|]. intros i [<-|[<-|[]]]; lia. Qed.
Lemma ex_original i c : original_of ex_mesh i c <-> (i = c /\ (c = 0 \/ c = 1))%Z.
Proof.
  unfold original_of, ex_mesh; cbn [original_cell_index active_cells length]. split.
  - intros (B & H). assert (i = 0 \/ i = 1)%Z as [-> | ->] by (change (Z.of_nat 2) with 2%Z in B; lia); vm_compute in H; subst c; auto.
  - intros (-> & [-> | ->]); split; (lia || reflexivity).
Qed.
Theorem C122_left_face_refuted : forall sort unique argsort, sorting sort -> uniques unique -> sorts argsort ->
  get_face_facets sort unique argsort ex_mesh [2; 1] ex_facets 0 = Ret [0%Z] /\ (forall x, face_facet ex_mesh [2; 1] ex_facets 0 x <-> x = 1%Z).
Proof.
  intros sort unique argsort Hs Hu Ha. split.
  - destruct (face_facets sort unique argsort ex_mesh [2; 1] ex_facets Hs Hu Ha ltac:(cbn; lia) ltac:(repeat constructor) ex_ok ltac:(discriminate) eq_refl ltac:(intros r [<-|[<-|[]]]; reflexivity) 0 ltac:(cbn; lia)) as (fs & E & _ & ND & I).
    rewrite E. f_equal.
    assert (O : forall x, In x fs <-> x = 0%Z).
    { intros x. rewrite I. unfold facet_of_cells. split.
      - intros (i & t & O & It & F & ->). apply index2 in It. destruct It as (a & b & -> & Ha' & Hb). vm_compute in F. subst a. replace b with 0 in * by lia. cbn in O. apply ex_original in O. destruct O as (-> & _). reflexivity.
      - intros ->. exists 0%Z, [0; 0]. repeat split; cbn; try lia. repeat constructor. }
    destruct fs as [|x [|y fs]]; [exfalso; apply (proj2 (O 0%Z)); auto|f_equal; apply O; cbn; auto|]. exfalso. assert (x = 0%Z) by (apply O; cbn; auto). assert (y = 0%Z) by (apply O; cbn; auto). subst. inversion ND as [|? ? N _]. apply N. cbn. auto.
  - intros x. unfold face_facet, facet_of_cells, local_facet. cbn [length]. split.
    + intros (k & (Hk & S) & i & t & O & It & F & ->). apply index2 in It. destruct It as (a & b & -> & Ha' & Hb). vm_compute in F. subst a. replace b with 0 in * by lia. cbn in O. apply ex_original in O. destruct O as (-> & _).
      destruct k as [|[|[|[|k]]]]; [specialize (S 1 ltac:(cbn; auto)); discriminate|reflexivity|specialize (S 1 ltac:(cbn; auto)); discriminate|specialize (S 3 ltac:(cbn; auto)); discriminate|cbn in Hk; lia].
    + intros ->. exists 1. split; [split; [cbn; lia|]|].
      * cbn. intros v [<-|[<-|[]]]; reflexivity.
      * exists 0%Z, [0; 0]. repeat split; cbn; try lia. repeat constructor.
Qed.

(** What it gives: the facets with the local number f of the cells touching the face f; *)
Theorem C122_facets_partial : forall sort unique argsort m n ctf, sorting sort -> uniques unique -> sorts argsort -> 1 <= length n <= 3 -> Forall (fun k => 1 <= k) n ->
  cells_of_process m (fold_right Nat.mul 1 n) -> original_cell_index m <> [] -> length ctf = length (original_cell_index m) -> (forall r, In r ctf -> length r = 2 * length n) ->
  forall f, f < 2 * length n ->
  (exists cells, get_face_DOLFINx_cells sort argsort m n f = Ret cells /\ StronglySorted Z.le cells /\ NoDup cells
     /\ forall i, In i cells <-> exists t, original_of m i (Z.of_nat (flat n t)) /\ index n t /\ on_lex_face n f t)
  /\ exists fs, get_face_facets sort unique argsort m n ctf f = Ret fs /\ StronglySorted Z.le fs /\ NoDup fs
     /\ (forall x, In x fs <-> facet_of_cells m n ctf f f x)
     (** which are those of the face for the faces of an interval, the top of a rectangle and the top of a box *)
     /\ (length n = 1 \/ (length n = 2 /\ f = 3) \/ (length n = 3 /\ f = 5) -> forall x, In x fs <-> face_facet m n ctf f x).
Proof.
  intros sort unique argsort m n ctf Hs Hu Ha Hn Pn HC NE Lc Rc f Hf. split; [apply face_cells; auto|].
  destruct (face_facets sort unique argsort m n ctf Hs Hu Ha Hn Pn HC NE Lc Rc f Hf) as (fs & E & S & N & I). exists fs. split; auto. split; auto. split; auto. split; auto.
  intros C x. rewrite I. assert (U : forall k, local_facet (length n) f k <-> k = f).
  { intros k. unfold local_facet. destruct C as [C|[(C & ->)|(C & ->)]]; rewrite C in *.
    - assert (f = 0 \/ f = 1) as [-> | ->] by lia; (split; [intros (Hk & S'); assert (k = 0 \/ k = 1) as [-> | ->] by lia; auto; exfalso; first [specialize (S' 0 ltac:(cbn; auto)); discriminate|specialize (S' 1 ltac:(cbn; auto)); discriminate]|intros ->; split; [lia|]; cbn; intros v [<-|[]]; reflexivity]).
    - split; [intros (Hk & S')|intros ->; split; [lia|]; cbn; intros v [<-|[<-|[]]]; reflexivity].
      destruct k as [|[|[|[|k]]]]; [| | |reflexivity|lia]; exfalso; first [specialize (S' 0 ltac:(cbn; auto)); discriminate|specialize (S' 1 ltac:(cbn; auto)); discriminate].
    - split; [intros (Hk & S')|intros ->; split; [lia|]; cbn; intros v [<-|[<-|[<-|[<-|[]]]]]; reflexivity].
      destruct k as [|[|[|[|[|[|k]]]]]]; [| | | | |reflexivity|lia]; exfalso; first [specialize (S' 0 ltac:(cbn; auto)); discriminate|specialize (S' 1 ltac:(cbn; auto)); discriminate|specialize (S' 2 ltac:(cbn; auto)); discriminate]. }
  unfold face_facet. split; [intros X; exists f; split; [apply U; auto|auto]|]. intros (k & K & X). apply U in K. subst k. auto.
Qed.
(** and the tags are the pairs (facet given by get_face_facets f, f), in increasing order of the facets. *)
Theorem C122_tags_partial : forall sort unique argsort m n ctf, sorting sort -> uniques unique -> sorts argsort -> 1 <= length n <= 3 -> Forall (fun k => 1 <= k) n ->
  cells_of_process m (fold_right Nat.mul 1 n) -> original_cell_index m <> [] -> length ctf = length (original_cell_index m) -> (forall r, In r ctf -> length r = 2 * length n) ->
  exists tags, facet_bdry_tags sort unique argsort m n ctf = Ret tags /\ StronglySorted Z.le (map fst tags)
    /\ forall x f, In (x, f) tags <-> f < 2 * length n /\ exists fs, get_face_facets sort unique argsort m n ctf f = Ret fs /\ In x fs.
Proof.
  intros sort unique argsort m n ctf Hs Hu Ha Hn Pn HC NE Lc Rc. unfold facet_bdry_tags.
  set (g := fun f => match get_face_facets sort unique argsort m n ctf f with Ret fs => map (fun x => (x, f)) fs | _ => [] end).
  assert (X : pmap (fun f => fs <- get_face_facets sort unique argsort m n ctf f ;; Ret (map (fun x => (x, f)) fs)) (seq 0 (2 * length n)) = Ret (map g (seq 0 (2 * length n)))).
  { apply L_PyNodes.pmap_ret. intros f Hf. apply in_seq in Hf. destruct (face_facets sort unique argsort m n ctf Hs Hu Ha Hn Pn HC NE Lc Rc f ltac:(lia)) as (fs & E & _). unfold g. rewrite E. reflexivity. }
  rewrite X. cbn [bind]. set (L := concat (map g (seq 0 (2 * length n)))). destruct (Ha (map fst L)) as (Pm & Ss). rewrite map_length in Pm.
  assert (B : forall i, In i (argsort (map fst L)) -> i < length L) by (intros i Hi; apply (Permutation_in _ Pm) in Hi; apply in_seq in Hi; lia).
  rewrite (take_ids_ok L (0%Z, 0)) by auto. eexists. split; [reflexivity|]. split.
  - rewrite map_map. replace (map (fun x => fst (nth x L (0%Z, 0))) (argsort (map fst L))) with (map (fun i => nth i (map fst L) 0%Z) (argsort (map fst L))); auto.
    apply map_ext_in. intros i Hi. apply (nth_map_at fst L i (0%Z, 0)). auto.
  - intros x f. assert (Y : In (x, f) (map (fun i => nth i L (0%Z, 0)) (argsort (map fst L))) <-> In (x, f) L).
    { rewrite in_map_iff. split; [intros (i & E & Hi); rewrite <- E; apply nth_In; auto|]. intros I. apply (In_nth _ _ (0%Z, 0)) in I. destruct I as (i & Hi & E). exists i. split; auto. apply (Permutation_in _ (Permutation_sym Pm)). apply in_seq. lia. }
    rewrite Y. unfold L. rewrite in_concat. split.
    + intros (l & Il & I). apply in_map_iff in Il. destruct Il as (f' & <- & If). apply in_seq in If. unfold g in I. destruct (get_face_facets sort unique argsort m n ctf f') as [fs| | |] eqn:E; try destruct I.
      apply in_map_iff in I. destruct I as (y & Ey & Iy). injection Ey as -> ->. split; [lia|]. exists fs. auto.
    + intros (Hf & fs & E & I). exists (g f). split; [apply in_map; apply in_seq; lia|]. unfold g. rewrite E. apply in_map_iff. exists x. auto.
Qed.
Print Assumptions C122_left_face_refuted.
Print Assumptions C122_facets_partial.
Print Assumptions C122_tags_partial.
(** The hypotheses are met by the mesh of two cells above: the top face, with both top facets. *)
Example C122_case : forall sort unique argsort, sorting sort -> uniques unique -> sorts argsort ->
  exists fs, get_face_facets sort unique argsort ex_mesh [2; 1] ex_facets 3 = Ret fs /\ (forall x, In x fs <-> face_facet ex_mesh [2; 1] ex_facets 3 x) /\ In 3%Z fs /\ In 6%Z fs.
Proof.
  intros sort unique argsort Hs Hu Ha.
  destruct (C122_facets_partial sort unique argsort ex_mesh [2; 1] ex_facets Hs Hu Ha ltac:(cbn; lia) ltac:(repeat constructor) ex_ok ltac:(discriminate) eq_refl ltac:(intros r [<-|[<-|[]]]; reflexivity) 3 ltac:(cbn; lia)) as (_ & fs & E & _ & _ & I & K).
  exists fs. split; auto. split; [apply K; auto|]. split; apply I; unfold facet_of_cells.
  - exists 0%Z, [0; 0]. repeat split; cbn; try lia. repeat constructor.
  - exists 1%Z, [1; 0]. repeat split; cbn; try lia. repeat constructor.
Qed.

(** C123: create_Cartesian_mesh creates the mesh. Refuted: the ghost mode is handed over as the active cells, and the construction raises for
    every ghost mode, type and number of cells. *)
Theorem C123_never_creates_refuted : forall rows ghost dtype, create_Cartesian_mesh rows ghost dtype = Abort.
Proof. reflexivity. Qed.
(** The constructor of CartesianMesh itself accepts any active cells (given by position or not at all). *)
Theorem C123_constructor_partial : forall rows ghost dtype a, (a = PyNone \/ exists k, a = PyArray k) -> exists r, CartesianMesh_init rows a ghost dtype = Ret r /\ (r = PyNone <-> a = PyNone \/ a = PyArray rows).
Proof.
  intros rows ghost dtype a [-> | (k & ->)]; unfold CartesianMesh_init, mesh_active_cells, py_size; cbn [bind].
  - exists PyNone. tauto.
  - destruct (Nat.eqb_spec k rows) as [->|N]; [exists PyNone; tauto|]. exists (PyArray k). split; auto. split; [discriminate|]. intros [E|E]; [discriminate|congruence].
Qed.
Print Assumptions C123_never_creates_refuted.
Print Assumptions C123_constructor_partial.
