(** Model of cpp/qugar/bbox.cpp: a box is its two corners. *)
From Verif Require Export M_Real.
Open Scope R_scope.

Record bbox := mk_box { bmin : list R; bmax : list R }.

Fixpoint all_leR (a b : list R) : bool :=
  match a, b with x :: a', y :: b' => Rleb x y && all_leR a' b' | _, _ => true end.

(** bbox.cpp 70-77: set(min,max), used by all constructors (54-66); asserts min <= max. *)
Definition box_set (mn mx : list R) : outcome bbox := assert_ (all_leR mn mx) (Ret (mk_box mn mx)).
(** bbox.cpp 79-85: extend(point) (std::min/std::max). *)
Definition box_extend_pt (b : bbox) (p : list R) : bbox := mk_box (map2 Rmin (bmin b) p) (map2 Rmax (bmax b) p).
(** bbox.cpp 136-147: extend(delta). *)
Definition box_extend (b : bbox) (delta : R) : outcome bbox :=
  box_set (map (fun x => x - delta) (bmin b)) (map (fun x => x + delta) (bmax b)).
(** bbox.cpp 150-162: length(dir), get_lengths. *)
Definition box_lengths (b : bbox) : list R := map2 Rminus (bmax b) (bmin b).
(** bbox.cpp 172-179: volume. *)
Definition box_volume (b : bbox) : R := fold_left Rmult (box_lengths b) 1.
(** bbox.cpp 181-184: mid_point. *)
Definition box_mid (b : bbox) : list R := map2 (fun x y => / 2 * (x + y)) (bmin b) (bmax b).

Fixpoint map3 {A B C D} (f : A -> B -> C -> D) (l : list A) (m : list B) (n : list C) : list D :=
  match l, m, n with
  | a :: l', b :: m', c :: n' => f a b c :: map3 f l' m' n'
  | _, _, _ => []
  end.
(** bbox.cpp 186-195: scale_to_new_domain. *)
Definition scale_to_new (b nb : bbox) (p : list R) : list R :=
  map3 (fun x lo_l nlo_nl => (x - fst lo_l) * snd nlo_nl / snd lo_l + fst nlo_nl) p
       (combine (bmin b) (box_lengths b)) (combine (bmin nb) (box_lengths nb)).
(** bbox.cpp 197-204: scale_to_0_1. *)
Definition scale_to_01 (b : bbox) (p : list R) : list R :=
  map3 (fun x lo l => (x - lo) / l) p (bmin b) (box_lengths b).
(** bbox.cpp 206-213: scale_from_0_1. *)
Definition scale_from_01 (b : bbox) (p : list R) : list R :=
  map3 (fun x lo l => x * l + lo) p (bmin b) (box_lengths b).
