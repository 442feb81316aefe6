(** Model of cpp/qugar/point.cpp.  Points are lists of reals; indices are natural numbers. *)
From Verif Require Export M_Tolerance.
Open Scope R_scope.

(** Assignment [v[i] = x] in a vector. *)
Fixpoint set_at {A} (v : list A) (i : nat) (x : A) : list A :=
  match v, i with
  | [], _ => []
  | _ :: v', O => x :: v'
  | y :: v', S i' => y :: set_at v' i' x
  end.
(** [points[i](dir)] *)
Definition coord (points : list (list R)) (dir i : nat) : R := nth dir (nth i points []) 0.

(** point.cpp 50-60: the maximal runs of consecutive indices whose neighbours are equal up to tolerance (the C++ loop over [i],
    [it_1], [it_2]).  A last run of one index is not visited by the C++ loop; such runs have no effect. *)
Fixpoint runs (eqb : nat -> nat -> bool) (l : list nat) : list (list nat) :=
  match l with
  | [] => []
  | x :: l' => match runs eqb l' with
               | (y :: g) :: gs => if eqb x y then (x :: y :: g) :: gs else [x] :: (y :: g) :: gs
               | _ => [[x]]
               end
  end.

(** point.cpp 34-77: find_coincident_points<dim, sub_dim>.  [sort dir indices] is std::ranges::sort by the coordinate [dir]: any
    function returning a sorted permutation (the order of equal coordinates is unspecified). *)
Fixpoint find_coincident_rec (sort : nat -> list nat -> list nat) (points : list (list R)) (tol : R) (sub_dim : nat)
    (indices points_map : list nat) : list nat :=
  if Nat.ltb (length indices) 2 then points_map
  else fold_left (fun points_map group =>
         if Nat.ltb (length group) 2 then points_map
         else match sub_dim with
              | O => fold_left (fun m it => set_at m it (hd O group)) (tl group) points_map
              | S sub => find_coincident_rec sort points tol sub group points_map
              end)
         (runs (fun i j => tol_equal tol (coord points sub_dim i) (coord points sub_dim j)) (sort sub_dim indices)) points_map.

(** point.cpp 82-102: find_coincident_points. *)
Definition find_coincident (sort : nat -> list nat -> list nat) (dim : nat) (points : list (list R)) (tol : R) : list nat :=
  let n := length points in
  let points_map := seq 0 n in
  if Nat.ltb 1 n then find_coincident_rec sort points tol (dim - 1) points_map points_map else points_map.

(** point.cpp 113-119: the first loop of make_points_unique: ids of the representatives, and the kept points.  Entries of
    [old_to_new] that are not written here keep the value of [resize] (zero for new entries). *)
Fixpoint number_reps (otu : list nat) (points : list (list R)) (otn : list nat) (i n : nat) : list nat * list (list R) :=
  match otu, points, otn with
  | u :: otu', p :: points', o :: otn' =>
      if Nat.eqb u i then let r := number_reps otu' points' otn' (S i) (S n) in (n :: fst r, p :: snd r)
      else let r := number_reps otu' points' otn' (S i) n in (o :: fst r, snd r)
  | _, _, _ => (otn, [])
  end.
(** point.cpp 122-125: the second loop, overwriting [old_to_new] in place while reading it. *)
Fixpoint renumber (otu : list nat) (i : nat) (otn : list nat) : list nat :=
  match otu with [] => otn | u :: otu' => renumber otu' (S i) (set_at otn i (nth u otn O)) end.
(** point.cpp 104-126: make_points_unique: the new points and [old_to_new] ([old] is its content before the call). *)
Definition make_points_unique (sort : nat -> list nat -> list nat) (dim : nat) (points : list (list R)) (tol : R) (old : list nat)
    : list (list R) * list nat :=
  let otu := find_coincident sort dim points tol in
  let resized := firstn (length points) old ++ repeat O (length points - length old) in
  let r := number_reps otu points resized 0 0 in
  (snd r, renumber otu 0 (fst r)).
