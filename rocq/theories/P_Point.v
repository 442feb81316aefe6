(** Theorems for merging points (C42, C43). *)
From Coq Require Import Reals List Lia Lra Permutation Sorting.Sorted.
From Verif Require Import M_Point S_Point L_Point.
Import ListNotations.
Open Scope R_scope.

(** C42: the kept points are the old points at increasing positions [reps]; the map old->new is total, in range, onto (new point
    [k] is the image of its own old position), and coincident points get the same new id. *)
Theorem C42_merge_points_map : forall sort dim points tol old, 0 <= tol -> (0 < dim)%nat -> sorting_routine points sort ->
  let new_points := fst (make_points_unique sort dim points tol old) in
  let old_to_new := snd (make_points_unique sort dim points tol old) in
  exists reps, increasing reps /\ (forall r, In r reps -> (r < length points)%nat) /\
    new_points = map (fun r => nth r points []) reps /\ length old_to_new = length points /\
    (forall i, (i < length points)%nat -> (nth i old_to_new O < length new_points)%nat) /\
    (forall k, (k < length new_points)%nat -> nth (nth k reps O) old_to_new O = k) /\
    (forall i j, (i < length points)%nat -> (j < length points)%nat -> coincident dim points tol i j ->
       nth i old_to_new O = nth j old_to_new O).
Proof.
  intros sort dim points tol old H1 H2 H3. destruct (make_unique_spec sort dim points tol old H1 H2 H3) as (reps & A & B & C & D & E & F & G & _).
  cbv zeta. exists reps. rewrite C, map_length. exact (conj A (conj B (conj eq_refl (conj D (conj F (conj E G)))))).
Qed.
Print Assumptions C42_merge_points_map.

(** C43 is false: three points at distances within the tolerance of their neighbours only are merged, whatever the sorting routine. *)
Theorem C43_merge_only_coincident_refuted : exists dim points tol, (0 < dim)%nat /\ 0 <= tol /\ (exists sort, sorting_routine points sort) /\
  forall sort old, sorting_routine points sort ->
  exists i j, (i < length points)%nat /\ (j < length points)%nat /\ ~ coincident dim points tol i j /\
    nth i (snd (make_points_unique sort dim points tol old)) O = nth j (snd (make_points_unique sort dim points tol old)) O.
Proof. exact C43_witness. Qed.
Print Assumptions C43_merge_only_coincident_refuted.

(** C43, the true part: merged points differ by at most (n-1) tolerances in every coordinate; and if proximity is transitive in
    every coordinate (clusters are separated), exactly the coincident points are merged. *)
Theorem C43_merge_only_coincident_partial : forall sort dim points tol old, 0 <= tol -> (0 < dim)%nat -> sorting_routine points sort ->
  let old_to_new := snd (make_points_unique sort dim points tol old) in
  (forall i j, (i < length points)%nat -> (j < length points)%nat -> nth i old_to_new O = nth j old_to_new O ->
     coincident dim points (INR (length points - 1) * tol) i j) /\
  ((forall d i j k, (i < length points)%nat -> (j < length points)%nat -> (k < length points)%nat ->
      Rabs (pt_coord points i d - pt_coord points j d) <= tol -> Rabs (pt_coord points j d - pt_coord points k d) <= tol ->
      Rabs (pt_coord points i d - pt_coord points k d) <= tol) ->
   forall i j, (i < length points)%nat -> (j < length points)%nat ->
     (nth i old_to_new O = nth j old_to_new O <-> coincident dim points tol i j)).
Proof.
  intros sort dim points tol old H1 H2 H3. destruct (make_unique_spec sort dim points tol old H1 H2 H3) as (reps & _ & _ & _ & _ & _ & _ & G & H).
  exact (conj (fun i j Hi Hj E d Hd => proj1 (H i j Hi Hj E d Hd))
    (fun T i j Hi Hj => conj (fun E d Hd => proj2 (H i j Hi Hj E d Hd) T) (G i j Hi Hj))).
Qed.
Print Assumptions C43_merge_only_coincident_partial.

(** The hypotheses are met, with any sorting by insertion, by separated clusters of points. *)
Example points_example : let points := [[0; 1]; [5; 5]; [0; 1]] in
  sorting_routine points (isort points) /\
  (forall d i j k, (i < length points)%nat -> (j < length points)%nat -> (k < length points)%nat ->
      Rabs (pt_coord points i d - pt_coord points j d) <= 1 -> Rabs (pt_coord points j d - pt_coord points k d) <= 1 ->
      Rabs (pt_coord points i d - pt_coord points k d) <= 1) /\
  coincident 2 points 1 0 2 /\ ~ coincident 2 points 1 0 1.
Proof.
  cbv zeta. split; [apply isort_ok|]. split; [|split].
  - intros d i j k Hi Hj Hk. unfold pt_coord. cbn [length] in *.
    destruct i as [|[|[|i]]]; try lia; destruct j as [|[|[|j]]]; try lia; destruct k as [|[|[|k]]]; try lia; destruct d as [|[|d]]; cbn [nth];
      try (destruct d); repeat (unfold Rabs; destruct (Rcase_abs _)); lra.
  - intros d Hd. unfold pt_coord. cbn [nth]. rewrite Rminus_eq_0, Rabs_R0. lra.
  - intros K. specialize (K 0%nat ltac:(lia)). unfold pt_coord in K. cbn [nth] in K. rewrite Rabs_left in K by lra. lra.
Qed.
