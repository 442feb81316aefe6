(** Model of cpp/qugar/reparam_mesh.cpp (ReparamMesh).  Ids are natural numbers (size_t, exact); the [int] arithmetic on cell ids and
    offsets is exact (no overflow); [reserve] has no effect. *)
From Verif Require Export M_Base M_TensorNat M_Point M_BBox M_Classify M_Grid.
Close Scope Z_scope.
Open Scope nat_scope.

(** reparam_mesh.hpp: the members order_, points_, connectivity_, wires_connectivity_. *)
Record mesh := mk_mesh { m_order : nat; m_points : list (list R); m_conn : list nat; m_wires : list nat }.

(** reparam_mesh.cpp 325-328: constructor. *)
Definition new_mesh (order : nat) : outcome mesh := assert_ (1 <? order) (Ret (mk_mesh order [] [] [])).

(** utils.hpp 38-43: at(): asserts the bounds. *)
Definition at_ {A} (l : list A) (i : nat) : outcome A := match nth_error l i with Some x => Ret x | None => Abort end.
Fixpoint mapM {A B} (f : A -> outcome B) (l : list A) : outcome (list B) :=
  match l with [] => Ret [] | x :: l' => y <- f x ;; r <- mapM f l' ;; Ret (y :: r) end.

(** reparam_mesh.cpp 431-434: get_num_points_per_cell. *)
Definition pts_per_cell (dim : nat) (m : mesh) : nat := m_order m ^ dim.
(** reparam_mesh.cpp 419-424: get_num_cells. *)
Definition num_cells (dim : nat) (m : mesh) : outcome nat :=
  assert_ (length (m_conn m) mod pts_per_cell dim m =? 0) (Ret (length (m_conn m) / pts_per_cell dim m)).

(** reparam_mesh.cpp 330-347: merge. *)
Definition mesh_merge (m o : mesh) : outcome mesh :=
  assert_ (m_order m =? m_order o) (
  let off := length (m_points m) in
  Ret (mk_mesh (m_order m) (m_points m ++ m_points o)
    (m_conn m ++ map (fun i => i + off) (m_conn o)) (m_wires m ++ map (fun i => i + off) (m_wires o)))).

(** reparam_mesh.cpp 515-529: sort_edge_points ([order > 2] with equal ends compares the second ids). *)
Definition sort_edge_points (order : nat) (e : list nat) : list nat :=
  let front := hd 0 e in let back := last e 0 in
  let reverse := if (front =? back) && (2 <? order) then nth (order - 2) e 0 <? nth 1 e 0 else back <? front in
  if reverse then rev e else e.

(** impl_utils.cpp 59-87: the constant directions and sides of an edge, paired. *)
Definition edge_dirs (dim : nat) (edge : Z) : outcome (list (Z * Z)) :=
  match dim with
  | 2 => d <- edge_const_dirs2 edge ;; s <- edge_sides2 edge ;; Ret [(d, s)]
  | _ => d <- edge_const_dirs3 edge ;; s <- edge_sides3 edge ;; Ret [(fst d, fst s); (snd d, snd s)]
  end.
Definition n_edges (dim : nat) : nat := match dim with 2 => 4 | _ => 12 end.
(** reparam_mesh.cpp 545-554: bounds of the tensor indices of the points of an edge. *)
Definition edge_bounds (dim order : nat) (ds : list (Z * Z)) : list nat * list nat :=
  fold_left (fun lu p => if (snd p =? 0)%Z then (fst lu, set_at (snd lu) (Z.to_nat (fst p)) 1)
                         else (set_at (fst lu) (Z.to_nat (fst p)) (order - 1), snd lu))
    ds (tp_const dim 0, tp_const dim order).
(** reparam_mesh.cpp 531-571: get_edge_points. *)
Definition get_edge_points (dim : nat) (m : mesh) (cell : nat) (edge : Z) : outcome (list nat) :=
  assert_ ((0 <=? edge)%Z && (edge <? Z.of_nat (n_edges dim))%Z) (
  ds <- edge_dirs dim edge ;;
  let lu := edge_bounds dim (m_order m) ds in
  let size := tp_const dim (m_order m) in
  let offset := cell * pts_per_cell dim m in
  ids <- mapM (fun tid => at_ (m_conn m) (offset + tp_flat size tid)) (tp_range (fst lu) (snd lu)) ;;
  Ret (sort_edge_points (m_order m) ids)).

(** reparam_mesh.hpp 53, reparam_mesh.cpp 477-485: use_Chebyshev. *)
Definition use_chebyshev (order : nat) : bool := 7 <=? order.
(** reparam_mesh.cpp 360-366: the one-dimensional nodes; [cheb ind order] is algoim's modifiedChebyshevNode. *)
Definition node01 (cheb : nat -> nat -> R) (order ind : nat) : R :=
  if use_chebyshev order then cheb ind order else (INR ind / INR (order - 1))%R.
(** reparam_mesh.cpp 370-372: a point of a full cell. *)
Definition cell_point (cheb : nat -> nat -> R) (order : nat) (domain : bbox) (tid : list nat) : list R :=
  map3 (fun i lo len => (lo + len * node01 cheb order i)%R) tid (bmin domain) (box_lengths domain).
(** reparam_mesh.cpp 349-390: add_full_cell. *)
Definition add_full_cell (cheb : nat -> nat -> R) (dim : nat) (m : mesh) (domain : bbox) (wirebasket : bool) : outcome mesh :=
  let loop := fold_left (fun m tid => mk_mesh (m_order m) (m_points m ++ [cell_point cheb (m_order m) domain tid])
                          (m_conn m ++ [length (m_points m)]) (m_wires m))
                (tp_all (tp_const dim (m_order m))) m in
  nc <- num_cells dim loop ;;
  if wirebasket then
    edges <- mapM (fun e => get_edge_points dim loop (nc - 1) (Z.of_nat e)) (seq 0 (n_edges dim)) ;;
    Ret (mk_mesh (m_order loop) (m_points loop) (m_conn loop) (m_wires loop ++ concat edges))
  else Ret loop.
(** reparam_mesh.cpp 392-416: add_full_cells; [domains] are the boxes of the given cells of the grid. *)
Fixpoint add_full_cells (cheb : nat -> nat -> R) (dim : nat) (m : mesh) (domains : list bbox) (wirebasket : bool) : outcome mesh :=
  match domains with
  | [] => Ret m
  | d :: ds => m' <- add_full_cell cheb dim m d wirebasket ;; add_full_cells cheb dim m' ds wirebasket
  end.

(** reparam_mesh.cpp 465-475: allocate_cells: new entries are zero; returns the id of the first new cell. *)
Definition allocate_cells (dim : nat) (m : mesh) (n : nat) : mesh * nat :=
  (mk_mesh (m_order m) (m_points m) (m_conn m ++ repeat 0 (n * pts_per_cell dim m)) (m_wires m), length (m_conn m) / pts_per_cell dim m).
(** reparam_mesh.cpp 487-498: insert_cell_point. *)
Definition insert_cell_point (dim : nat) (m : mesh) (p : list R) (cell pt : nat) : outcome mesh :=
  let con_id := cell * pts_per_cell dim m + pt in
  assert_ (con_id <? length (m_conn m))
    (Ret (mk_mesh (m_order m) (m_points m ++ [p]) (set_at (m_conn m) con_id (length (m_points m))) (m_wires m))).

(** Contiguous pieces of [n] entries (the subspans of reparam_mesh.cpp 662-669). *)
Fixpoint chunks_f {A} (fuel n : nat) (l : list A) : list (list A) :=
  match fuel with
  | O => []
  | S f => match l with [] => [] | _ => firstn n l :: chunks_f f n (skipn n l) end
  end.
Definition chunks {A} (n : nat) (l : list A) : list (list A) := chunks_f (length l) n l.
(** reparam_mesh.cpp 676-685: comparison of edges. *)
Fixpoint edge_lt (a b : list nat) : bool :=
  match a, b with
  | x :: a', y :: b' => if x =? y then edge_lt a' b' else x <? y
  | _, _ => false
  end.
(** reparam_mesh.cpp 659-696: sort_wirebasket_edges, as a list of edges; [esort] is std::ranges::sort with [edge_lt]: any function
    returning a sorted permutation. *)
Definition sort_wirebasket (esort : list (list nat) -> list (list nat)) (order : nat) (edges : list (list nat)) : list (list nat) :=
  esort (map (sort_edge_points order) edges).
(** reparam_mesh.cpp 707-730: the loops of purge_duplicate_wirebasket_edges on the list [edges]; positions [it], [it0] count edges,
    [rest] are the edges from [it] on. *)
Definition slice {A} (l : list A) (a b : nat) : list A := firstn (b - a) (skipn a l).
Fixpoint purge_inner (edges : list (list nat)) (e0 : list nat) (rest : list (list nat)) (it it0 : nat) (rep : bool) (new : list (list nat))
    : list (list nat) * nat * nat * bool * list (list nat) :=
  match rest with
  | [] => ([], it, it0, rep, new)
  | e1 :: rest' =>
      if list_eq_dec Nat.eq_dec e0 e1 then purge_inner edges e0 rest' (S it) it0 true (if rep then new else new ++ slice edges it0 it)
      else (rest, it, if rep then it else it0, rep, new)
  end.
Fixpoint purge_outer (fuel : nat) (edges rest : list (list nat)) (it it0 : nat) (rep : bool) (new : list (list nat)) : list (list nat) :=
  match fuel, rest with
  | S f, e0 :: rest' => let '(r, it', it0', rep', new') := purge_inner edges e0 rest' (S it) it0 false new in
                        purge_outer f edges r it' it0' rep' new'
  | _, _ => if rep then new else new ++ slice edges it0 (length edges)
  end.
Definition purge_edges (edges : list (list nat)) : list (list nat) := purge_outer (length edges) edges edges 0 0 false [].
(** reparam_mesh.cpp 698-735: purge_duplicate_wirebasket_edges.  A wirebasket that is not made of whole edges is read out of bounds. *)
Definition purge_wires (esort : list (list nat) -> list (list nat)) (order : nat) (wires : list nat) : outcome (list nat) :=
  if length wires mod order =? 0 then Ret (concat (purge_edges (sort_wirebasket esort order (chunks order wires)))) else UB.

(** reparam_mesh.cpp 607-626: merge_coincident_points ([at] of std::vector throws out of range: Abort). *)
Definition merge_coincident_points (sort : nat -> list nat -> list nat) (esort : list (list nat) -> list (list nat)) (range : nat) (m : mesh) (tol : R)
    : outcome mesh :=
  if length (m_points m) <? 2 then Ret m else
  let pm := make_points_unique sort range (m_points m) tol [] in
  conn <- mapM (at_ (snd pm)) (m_conn m) ;;
  wires <- mapM (at_ (snd pm)) (m_wires m) ;;
  wires' <- purge_wires esort (m_order m) wires ;;
  Ret (mk_mesh (m_order m) (fst pm) conn wires').

(** reparam_mesh.cpp 628-656: scale_points (all points, or those listed). *)
Definition scale_point (od nd : bbox) (p : list R) : list R :=
  map3 (fun x sc sh => (sc * x + sh)%R) p (map2 Rdiv (box_lengths nd) (box_lengths od))
    (map3 (fun nm om sc => (nm - om * sc)%R) (bmin nd) (bmin od) (map2 Rdiv (box_lengths nd) (box_lengths od))).
Fixpoint scale_points (m : mesh) (ids : list nat) (od nd : bbox) : outcome mesh :=
  match ids with
  | [] => Ret m
  | i :: ids' => p <- at_ (m_points m) i ;;
                 scale_points (mk_mesh (m_order m) (set_at (m_points m) i (scale_point od nd p)) (m_conn m) (m_wires m)) ids' od nd
  end.

(** std::swap of two entries. *)
Definition swap_at {A} (d : A) (l : list A) (i j : nat) : list A := set_at (set_at l i (nth j l d)) j (nth i l d).
(** std::swap(tid_1(0), tid_1(1)) *)
Definition swap01 (t : list nat) : list nat := match t with a :: b :: t' => b :: a :: t' | _ => t end.
(** reparam_mesh.cpp 759-787: permute_cell_directions.  The bounds asserted by [at] hold once the cell id is in range. *)
Definition permute_conn (dim order offset : nat) (conn : list nat) : list nat :=
  match dim with
  | 1 => fold_left (fun c i => swap_at 0 c (offset + i) (offset + (order - 1 - i))) (seq 0 (order / 2)) conn
  | _ => fold_left (fun c t => if nth 0 t 0 <=? nth 1 t 0 then c
                               else swap_at 0 c (offset + tp_flat (tp_const dim order) t) (offset + tp_flat (tp_const dim order) (swap01 t)))
           (tp_all (tp_const dim order)) conn
  end.
Definition permute_cell_directions (dim : nat) (m : mesh) (cell : nat) : outcome mesh :=
  nc <- num_cells dim m ;;
  assert_ (cell <? nc)
    (Ret (mk_mesh (m_order m) (m_points m) (permute_conn dim (m_order m) (cell * pts_per_cell dim m) (m_conn m)) (m_wires m))).

(** reparam_mesh.cpp 84-243: create_VTU_conn_mask, dimensions 1, 2, 3. *)
Definition inner_ids (order : nat) : list nat := seq 1 (order - 2).
Definition vtu_mask1 (order : nat) : list nat := [0; order - 1] ++ inner_ids order.
Definition vtu_mask2 (order : nat) : list nat :=
  let f i j := tp_flat [order; order] [i; j] in
  let e := order - 1 in let inn := inner_ids order in
  [f 0 0; f e 0; f e e; f 0 e]
  ++ map (fun i => f i 0) inn ++ map (fun j => f e j) inn ++ map (fun i => f i e) inn ++ map (fun j => f 0 j) inn
  ++ flat_map (fun j => map (fun i => f i j) inn) inn.
Definition vtu_mask3 (order : nat) : list nat :=
  let f i j k := tp_flat [order; order; order] [i; j; k] in
  let e := order - 1 in let inn := inner_ids order in
  [f 0 0 0; f e 0 0; f e e 0; f 0 e 0; f 0 0 e; f e 0 e; f e e e; f 0 e e]
  ++ map (fun i => f i 0 0) inn ++ map (fun j => f e j 0) inn ++ map (fun i => f i e 0) inn ++ map (fun j => f 0 j 0) inn
  ++ map (fun i => f i 0 e) inn ++ map (fun j => f e j e) inn ++ map (fun i => f i e e) inn ++ map (fun j => f 0 j e) inn
  ++ map (fun k => f 0 0 k) inn ++ map (fun k => f e 0 k) inn ++ map (fun k => f 0 e k) inn ++ map (fun k => f e e k) inn
  ++ flat_map (fun k => map (fun j => f 0 j k) inn) inn ++ flat_map (fun k => map (fun j => f e j k) inn) inn
  ++ flat_map (fun k => map (fun i => f i 0 k) inn) inn ++ flat_map (fun k => map (fun i => f i e k) inn) inn
  ++ flat_map (fun j => map (fun i => f i j 0) inn) inn ++ flat_map (fun j => map (fun i => f i j e) inn) inn
  ++ flat_map (fun k => flat_map (fun j => map (fun i => f i j k) inn) inn) inn.
Definition vtu_mask (dim order : nat) : outcome (list nat) :=
  assert_ (1 <? order) (Ret (match dim with 1 => vtu_mask1 order | 2 => vtu_mask2 order | _ => vtu_mask3 order end)).
(** reparam_mesh.cpp 293-298: the connectivity written for each cell. *)
Definition vtu_connectivity (dim : nat) (m : mesh) : outcome (list nat) :=
  nc <- num_cells dim m ;;
  mask <- vtu_mask dim (m_order m) ;;
  cells <- mapM (fun c => mapM (fun p => at_ (m_conn m) (c * pts_per_cell dim m + p)) mask) (seq 0 nc) ;;
  Ret (concat cells).

(** tolerance.hpp 200-209: coincident. *)
Definition tol_coincident (tol : R) (p q : list R) : bool := forallb (fun xy => tol_equal tol (fst xy) (snd xy)) (combine p q).
(** std::ranges::all_of, stopping at the first failure. *)
Fixpoint allM {A} (f : A -> outcome bool) (l : list A) : outcome bool :=
  match l with [] => Ret true | x :: l' => b <- f x ;; if b then allM f l' else Ret false end.
(** reparam_mesh.cpp 501-513: check_subentity_degenerate. *)
Definition check_degenerate (m : mesh) (ids : list nat) (tol : R) : outcome bool :=
  match ids with
  | [] => Abort
  | i0 :: _ => p0 <- at_ (m_points m) i0 ;; allM (fun i => p <- at_ (m_points m) i ;; Ret (tol_coincident tol p0 p)) ids
  end.
(** reparam_mesh.cpp 578-590: the sides of the box on which a point lies (-1 none, 0 lower, 1 upper). *)
Definition point_bounds (tol : R) (domain : bbox) (p : list R) : list Z :=
  map3 (fun x lo hi => if tol_equal tol x lo then 0%Z else if tol_equal tol x hi then 1%Z else (-1)%Z) p (bmin domain) (bmax domain).
(** reparam_mesh.cpp 572-605: check_edge_in_subdomain<sub_dim>. *)
Definition check_edge_in_subdomain (sub_dim : nat) (m : mesh) (ids : list nat) (domain : bbox) (tol : R) : outcome bool :=
  match ids with
  | [] => UB
  | i0 :: _ =>
      p0 <- at_ (m_points m) i0 ;;
      let b0 := point_bounds tol domain p0 in
      allM (fun i => p <- at_ (m_points m) i ;;
        let n := length (filter (fun ab => (0 <=? fst ab)%Z && (fst ab =? snd ab)%Z) (combine b0 (point_bounds tol domain p))) in
        Ret (negb (n <? sub_dim))) ids
  end.
(** impl_reparam_mesh.cpp 127-177: generate_wirebasket with the two point predicates [check_face], [check_internal] (lines 111-122:
    the point is on the level set; no internal check succeeds for one function in 3D). *)
Definition edge_in_wirebasket (range : nat) (m : mesh) (ids : list nat) (domain : bbox) (tol : R) (check_face check_internal : list R -> bool) : outcome bool :=
  deg <- check_degenerate m ids tol ;;
  if deg then Ret false else
  add <- check_edge_in_subdomain (range - 1) m ids domain tol ;;
  if add then Ret true else
  face <- check_edge_in_subdomain 1 m ids domain tol ;;
  allM (fun i => p <- at_ (m_points m) i ;; Ret (if face then check_face p else check_internal p)) ids.
Fixpoint generate_wirebasket (range dim : nat) (m : mesh) (edges : list (nat * nat)) (domain : bbox) (tol : R) (check_face check_internal : list R -> bool)
    : outcome mesh :=
  match edges with
  | [] => Ret m
  | (cell, e) :: edges' =>
      ids <- get_edge_points dim m cell (Z.of_nat e) ;;
      b <- edge_in_wirebasket range m ids domain tol check_face check_internal ;;
      generate_wirebasket range dim (if b then mk_mesh (m_order m) (m_points m) (m_conn m) (m_wires m ++ ids) else m)
        edges' domain tol check_face check_internal
  end.
