(** Properties C34, C35 (boxes), C40, C41 (tolerances). *)
From Verif Require Import M_Real M_BBox M_Tolerance S_Grid L_BBox L_Tolerance.
From Coq Require Import Lra Permutation.
Open Scope R_scope.

(** C34 *)
Theorem C34_box_scaling : forall b nb p, positive_box (bmin b) (bmax b) -> positive_box (bmin nb) (bmax nb) ->
  length (bmin nb) = length (bmin b) -> length p = length (bmin b) ->
  scale_from_01 b (scale_to_01 b p) = p /\ scale_to_01 b (scale_from_01 b p) = p /\
  scale_to_new nb b (scale_to_new b nb p) = p /\
  scale_to_new b nb (bmin b) = bmin nb /\ scale_to_new b nb (bmax b) = bmax nb /\
  scale_from_01 nb (scale_to_01 b p) = scale_to_new b nb p /\
  (in_closed (bmin b) (bmax b) p -> in_closed (bmin nb) (bmax nb) (scale_to_new b nb p)) /\
  (in_closed (bmin b) (bmax b) p -> forall d, (d < length p)%nat -> 0 <= nth d (scale_to_01 b p) 0 <= 1) /\
  ((forall d, (d < length p)%nat -> 0 <= nth d p 0 <= 1) -> in_closed (bmin b) (bmax b) (scale_from_01 b p)).
Proof. exact C34_lemma. Qed.
Print Assumptions C34_box_scaling.

Example C34_nonvacuous : positive_box [0;-1] [2;1] /\ positive_box [3;3] [4;7] /\ in_closed [0;-1] [2;1] [1;0].
Proof. repeat split; auto; intros; destruct d as [|[|d]]; simpl in *; try lra; lia. Qed.

(** C35 *)
Theorem C35_box_extend : forall b p delta, wf_box b -> length p = length (bmin b) -> 0 <= delta ->
  (let e := box_extend_pt b p in
   wf_box e /\ in_closed (bmin e) (bmax e) p /\ box_within (bmin b) (bmax b) (bmin e) (bmax e) /\
   forall e', wf_box e' -> in_closed (bmin e') (bmax e') p -> box_within (bmin b) (bmax b) (bmin e') (bmax e') ->
     box_within (bmin e) (bmax e) (bmin e') (bmax e')) /\
  (exists e, box_extend b delta = Ret e /\ wf_box e /\ box_within (bmin b) (bmax b) (bmin e) (bmax e) /\
     forall d, (d < length (bmin b))%nat -> nth d (bmin e) 0 = nth d (bmin b) 0 - delta /\ nth d (bmax e) 0 = nth d (bmax b) 0 + delta).
Proof. exact C35_lemma. Qed.
Print Assumptions C35_box_extend.

Example C35_nonvacuous : wf_box (mk_box [0;-1] [2;-1]) /\ length [5;5] = length (bmin (mk_box [0;-1] [2;-1])).
Proof. repeat split; auto; intros; destruct d as [|[|d]]; simpl in *; try lra; lia. Qed.

(** C40 *)
Theorem C40_tolerant_comparisons : forall tol x y, 0 <= tol ->
  exactly_one (is_zero tol x) (is_negative tol x) (is_positive tol x) /\
  exactly_one (tol_equal tol x y) (greater_than tol x y) (smaller_than tol x y) /\
  (tol_equal tol x y = true <-> Rabs (x - y) <= tol) /\
  (greater_than tol x y = true <-> x > y + tol) /\
  tol_equal tol x x = true /\ tol_equal tol x y = tol_equal tol y x /\
  greater_equal_than tol x y = negb (smaller_than tol x y) /\
  smaller_equal_than tol x y = negb (greater_than tol x y) /\
  is_zero tol (x - y) = tol_equal tol x y /\
  (forall other, mk_tol other = Ret other -> tol <= tol_update tol other /\ other <= tol_update tol other) /\
  mk_tol tol = Ret tol /\ (forall v, v < 0 -> mk_tol v = Abort).
Proof. exact C40_lemma. Qed.
Print Assumptions C40_tolerant_comparisons.

Example C40_nonvacuous : (0 <= / 4) /\ Rabs (1 - (1 + / 8)) <= / 4.
Proof. split; [lra|]. apply Rabs_le. lra. Qed.

(** C41 *)
Theorem C41_unique_clusters : forall tol values, 0 <= tol -> let u := tol_unique tol values in
  (forall i, (S i < length u)%nat -> nth (S i) u 0 - nth i u 0 > tol) /\
  (exists rest, Permutation values (u ++ rest)) /\
  (forall v, In v values -> exists w, In w u /\ Rabs (v - w) <= tol).
Proof. exact C41_lemma. Qed.
Print Assumptions C41_unique_clusters.
