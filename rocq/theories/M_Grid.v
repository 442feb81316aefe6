(** Model of cpp/qugar/cart_grid_tp.cpp. *)
From Verif Require Export M_Real M_BBox M_TensorIndex M_Tolerance.
Open Scope R_scope.

(** CartGridTP: breaks per direction, domain, index range (cart_grid_tp.cpp 79). *)
Record grid := mk_grid { breaks : list (list R); gdomain : bbox; grange : range }.

(** cart_grid_tp.cpp 91-94: strictly incr_breaks breaks. *)
Fixpoint incr_breaks (l : list R) : bool :=
  match l with
  | x :: ((y :: _) as l') => Rltb x y && incr_breaks l'
  | _ => true
  end.

(** cart_grid_tp.cpp 38-49: get_num_cells_dir (the cast of the vector length to int is exact here). *)
Definition n_cells_dir (brks : list (list R)) : list Z := map (fun b => (Z.of_nat (length b) - 1)%Z) brks.

(** cart_grid_tp.cpp 78-111: the constructor from breaks, with its debug assertions. *)
Definition make_grid (brks : list (list R)) : outcome grid :=
  assert_ (forallb (fun b => (1 <? length b)%nat && incr_breaks b) brks) (
  dom <- box_set (map (fun b => hd 0 b) brks) (map (fun b => last b 0) brks) ;;
  Ret (mk_grid brks dom (mk_range (map (fun _ => 0%Z) brks) (n_cells_dir brks)))).

(** cart_grid_tp.cpp 51-74: create_equispaced_breaks. *)
Definition equispaced_dir (x0 len : R) (n : nat) : list R :=
  map (fun i => x0 + len / INR n * INR i) (seq 0 (S n)).
Definition create_equispaced_breaks (dom : bbox) (ns : list nat) : outcome (list (list R)) :=
  assert_ (forallb (fun n => (0 <? n)%nat) ns)
    (Ret (map3 equispaced_dir (bmin dom) (box_lengths dom) ns)).
(** cart_grid_tp.cpp 114-117: constructor from a box and numbers of intervals. *)
Definition make_equispaced_grid (dom : bbox) (ns : list nat) : outcome grid :=
  b <- create_equispaced_breaks dom ns ;; make_grid b.

(** cart_grid_tp.cpp 237-245 *)
Definition num_cells_dir (g : grid) : list Z := range_sizes (grange g).
Definition num_cells (g : grid) : Z := size_prod (num_cells_dir g).

(** std::upper_bound: index of the first break greater than [v]; a linear scan gives the same answer as
    the binary search on sorted breaks. *)
Fixpoint upper_bound (brks : list R) (v : R) : Z :=
  match brks with
  | [] => 0
  | b :: brks' => if Rltb v b then 0 else 1 + upper_bound brks' v
  end%Z.

(** cart_grid_tp.cpp 138-157: body of the loop of get_cell_id for one direction.  [std::prev(begin)] is UB. *)
Definition find_span (tol : R) (brks : list R) (coord : R) : outcome Z :=
  let n_spans := (Z.of_nat (length brks) - 1)%Z in
  assert_ (0 <? n_spans)%Z (
  let ub := upper_bound brks (coord + tol) in
  if (ub =? 0)%Z then UB else
  let dist := (ub - 1)%Z in
  b <- at_ brks dist ;;
  let dist := if tol_equal tol coord b && (dist =? n_spans)%Z then (dist - 1)%Z else dist in
  assert_ ((0 <=? dist) && (dist <? n_spans))%Z (Ret dist)).
(** cart_grid_tp.cpp 134-161: get_cell_id. *)
Definition get_cell_id (g : grid) (point : list R) (tol : R) : outcome Z :=
  tid <- map2M (find_span tol) (breaks g) point ;; to_flat tid (num_cells_dir g).

(** cart_grid_tp.cpp 163-185: at_cells_boundary; the loop over directions from [dir]. *)
Fixpoint at_cells_boundary_from (dir : nat) (tol : R) (brks : list (list R)) (point : list R) : outcome (option nat) :=
  match brks, point with
  | b :: brks', coord :: point' =>
      let n_spans := (Z.of_nat (length b) - 1)%Z in
      assert_ (0 <? n_spans)%Z (
      let ub := upper_bound b (coord + tol) in
      if (ub =? 0)%Z then UB else
      let dist := (ub - 1)%Z in
      bc <- at_ b dist ;;
      assert_ (0 <=? dist)%Z (
      if tol_equal tol coord bc && (0 <? dist)%Z && (dist <? n_spans)%Z then Ret (Some dir)
      else at_cells_boundary_from (S dir) tol brks' point'))
  | _, _ => Ret None
  end.
Definition at_cells_boundary (g : grid) (point : list R) (tol : R) : outcome (option nat) :=
  at_cells_boundary_from 0 tol (breaks g) point.

(** cart_grid_tp.cpp 187-199: on_boundary. *)
Definition on_boundary (g : grid) (cell_id facet : Z) : outcome bool :=
  assert_ ((0 <=? facet) && (facet <? 2 * Z.of_nat (length (breaks g))))%Z (
  let const_dir := Z.to_nat (facet / 2) in
  let side := (facet mod 2)%Z in
  tid <- to_tensor cell_id (num_cells_dir g) ;;
  Ret (nth const_dir tid 0 =? (if side =? 0 then 0 else nth const_dir (num_cells_dir g) 0 - 1))%Z).

(** cart_grid_tp.cpp 201-225: get_boundary_cells, including the cast of each flat id to int. *)
Definition get_boundary_cells (fuel : nat) (g : grid) (facet : Z) : outcome (list Z) :=
  assert_ ((0 <=? facet) && (facet <? 2 * Z.of_nat (length (breaks g))))%Z (
  let const_dir := Z.to_nat (facet / 2) in
  let side := (facet mod 2)%Z in
  let n := num_cells_dir g in
  let tid_0 := set_nth const_dir (if side =? 0 then 0 else nth const_dir n 0 - 1)%Z (map (fun _ => 0%Z) n) in
  let tid_1 := set_nth const_dir (if side =? 0 then 1 else nth const_dir n 0)%Z n in
  tids <- iterate fuel (mk_range tid_0 tid_1) ;;
  mapM (fun t => f <- to_flat t n ;; Ret (cast_int f)) tids).

(** cart_grid_tp.cpp 247-266: get_cell_domain. *)
Definition get_cell_domain (g : grid) (cell_id : Z) : outcome bbox :=
  tid <- to_tensor cell_id (num_cells_dir g) ;;
  mn <- map2M (fun b i => at_ b i) (breaks g) tid ;;
  mx <- map2M (fun b i => at_ b (i + 1)) (breaks g) tid ;;
  box_set mn mx.

(** ** SubCartGridTP: a grid (fixed) and a range. *)
(** cart_grid_tp.cpp 277-283: constructor; asserts a positive number of cells. *)
Definition make_sub (r : range) : outcome range := assert_ (0 <? range_size r)%Z (Ret r).
(** cart_grid_tp.cpp 285-289: the subgrid of all cells. *)
Definition full_sub (g : grid) : outcome range :=
  make_sub (mk_range (map (fun _ => 0%Z) (num_cells_dir g)) (num_cells_dir g)).
(** cart_grid_tp.cpp 301-309 *)
Definition sub_is_full (g : grid) (r : range) : bool := tid_eqb (range_sizes r) (num_cells_dir g).
Definition sub_is_unique (r : range) : bool := (range_size r =? 1)%Z.
(** cart_grid_tp.cpp 316-326: split. *)
Definition sub_split (r : range) : outcome (range * range) :=
  assert_ (negb (sub_is_unique r)) (
  p <- split_range r ;;
  a <- make_sub (fst p) ;; b <- make_sub (snd p) ;; Ret (a, b)).
(** cart_grid_tp.cpp 328-343: get_domain. *)
Definition sub_domain (g : grid) (r : range) : outcome bbox :=
  mn <- map2M (fun b i => at_ b i) (breaks g) (lower r) ;;
  mx <- map2M (fun b i => at_ b i) (breaks g) (upper r) ;;
  box_set mn mx.
(** cart_grid_tp.cpp 349-353: to_flat. *)
Definition sub_to_flat (g : grid) (r : range) (t : list Z) : outcome Z :=
  assert_ (in_range r t) (to_flat t (num_cells_dir g)).
(** cart_grid_tp.cpp 355-359: get_single_cell. *)
Definition sub_single_cell (g : grid) (r : range) : outcome Z :=
  assert_ (sub_is_unique r) (sub_to_flat g r (lower r)).
