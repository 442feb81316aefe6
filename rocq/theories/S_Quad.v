(** Specification vocabulary for quadratures. *)
From Verif Require Export M_Quad S_Domain S_Classify.
Open Scope R_scope.

(** The one-dimensional rule with [n] points stored in a table, mapped to the interval [lo, lo+len]. *)
Definition x1d (table : list R) (n i : nat) : R := nth ((n - 1) * n + 2 * i) table 0.
Definition w1d (table : list R) (n i : nat) : R := nth ((n - 1) * n + 2 * i + 1) table 0.
(** The integral of a function of one coordinate with the mapped one-dimensional rule. *)
Definition integ1 (table : list R) (n : nat) (lo hi : R) (f : R -> R) : R :=
  fold_right (fun i a => w1d table n i * (hi - lo) * f (lo + x1d table n i * (hi - lo)) + a) 0 (seq 0 n).
(** The integral of a function with a rule. *)
Definition integ (q : rule) (F : list R -> R) : R := fold_right (fun nw a => snd nw * F (fst nw) + a) 0 q.

(** The elements whose position (counted from [k]) is not in [ids]. *)
Fixpoint keep_from {A} (k : Z) (ids : list Z) (l : list A) : list A :=
  match l with
  | [] => []
  | x :: l' => if in_dec Z.eq_dec k ids then keep_from (k + 1) ids l' else x :: keep_from (k + 1) ids l'
  end.

(** The calls of the public interface that generate quadratures, and their results. *)
Inductive call :=
| call_cells (o : alg) (D : domain) (cells : list Z) (n : Z)
| call_unf (o : alg) (D : domain) (cells : list Z) (n : Z) (include exclude_ext : bool)
| call_int (o : alg) (D : domain) (cells facets : list Z) (n : Z)
| call_ext (o : alg) (D : domain) (cells facets : list Z) (n : Z).
Inductive result := res_cells (q : cells_quad) | res_unf (q : unf_quad) | res_iso (q : iso_quad).
Definition call_dim (c : call) : nat :=
  match c with call_cells _ D _ _ | call_unf _ D _ _ _ _ | call_int _ D _ _ _ | call_ext _ D _ _ _ => length (breaks (d_grid D)) end.
Definition run_call (table : list R) (c : call) (s : statics) : outcome (result * statics) :=
  match c with
  | call_cells o D cells n => r <- create_quadrature table o D cells n s ;; Ret (res_cells (fst r), snd r)
  | call_unf o D cells n i e => r <- create_unfitted_bound table o D cells n i e s ;; Ret (res_unf (fst r), snd r)
  | call_int o D cells facets n => r <- create_facets_interior table o D cells facets n s ;; Ret (res_iso (fst r), snd r)
  | call_ext o D cells facets n => r <- create_facets_exterior table o D cells facets n s ;; Ret (res_iso (fst r), snd r)
  end.
(** The states of the static variables that a history of calls (of one dimension, 2 or 3) can produce. *)
Inductive reachable (table : list R) (dim : nat) : statics -> Prop :=
| reach_start : reachable table dim statics0
| reach_call : forall s c r s', reachable table dim s -> call_dim c = dim -> run_call table c s = Ret (r, s') -> reachable table dim s'.

(** Counts and concatenated entries of consecutive slices. *)
Definition counts_of {A} (chunks : list (list A)) : list Z := map (fun c => Z.of_nat (length c)) chunks.

(** ** Contents of facet rules *)
(** The rule for the cut part of facet [f] (direction f/2, side f mod 2) of the cell box [dom], in coordinates of the
    unit facet: what algoim generates on that facet, scaled (for Bezier functions, the nodes in the negative region). *)
Definition facet_rule (o : alg) (dom : bbox) (f n : Z) : rule :=
  if is_bezier o then filter (fun nw => Rltb (bz_facet o dom f (fst nw)) 0) (map (fun nw => (rev (fst nw), snd nw)) (bz_fct o dom f n))
  else let dir := Z.to_nat (f / 2) in let face := box_slice dom dir in
       map (fun nw => (scale_to_01 face (remove_component dir (fst nw)), snd nw / box_volume face)) (alg_fct o dom (f / 2) (f mod 2) n).
(** The point of the cell corresponding to a point of the unit facet. *)
Definition facet_point (dom : bbox) (f : Z) (pt : list R) : list R :=
  let dir := Z.to_nat (f / 2) in
  scale_from_01 dom (firstn dir pt ++ (if (f mod 2 =? 0)%Z then 0 else 1) :: skipn dir pt).
(** It lies (up to 1000 eps) on the level set; the gradient there points out of the cell. *)
Definition on_level_set (o : alg) (x : list R) : bool := Rleb (Rabs (phi o x)) (1000 * eps).
Definition points_out (o : alg) (f : Z) (x : list R) : bool :=
  let c := nth (Z.to_nat (f / 2)) (grad o x) 0 in
  if (f mod 2 =? 0)%Z then Rltb c (- (1000 * eps)) else Rltb (1000 * eps) c.
(** The quadrature of a single facet / cell holding the given nodes. *)
Definition one_facet (id f : Z) (c : rule) : iso_quad := mk_iq [id] [f] [Z.of_nat (length c)] (map fst c) (map snd c).
Definition one_unf (id : Z) (c : list ((list R * R) * list R)) : unf_quad :=
  mk_uq [id] [Z.of_nat (length c)] (map (fun x => fst (fst x)) c) (map (fun x => snd (fst x)) c) (map snd c).
(** The result of a call without the new state of the static variables. *)
Definition value {A B} (m : outcome (A * B)) : outcome A := match m with Ret x => Ret (fst x) | Abort => Abort | UB => UB | OutOfFuel => OutOfFuel end.
(** A per-facet answer in which [None] stands for a failing assertion. *)
Definition answer {A} (m : option A) : outcome A := match m with Some x => Ret x | None => Abort end.
Definition nsum (l : list Z) : Z := fold_right Z.add 0%Z l.

(** The nodes a facet contributes to the interior and to the exterior integral ([None]: the call aborts), given: is it on
    the grid boundary, is it full, full unfitted, cut, has it unfitted boundary; which facet points are on the level
    set, and where the gradient points outwards; the Gauss rule of the unit facet and the rule of the cut facet. *)
Definition facet_answer_int (bnd full fullunf cut unf : bool) (ls : list R -> bool) (G nodes : rule) : option rule :=
  if bnd then Some [] else if fullunf then Some [] else if full then Some G
  else if cut then Some (if unf then filter (fun nw => negb (ls (fst nw))) nodes else nodes)
  else if unf then None else Some [].
Definition facet_answer_ext (bnd full fullunf cut unf : bool) (ls outw : list R -> bool) (G nodes : rule) : option rule :=
  if bnd then
    if fullunf || full then Some G
    else if cut then Some (if unf then filter (fun nw => negb (ls (fst nw) && negb (outw (fst nw)))) nodes else nodes)
    else if unf then None else Some []
  else if negb unf then Some []
  else if fullunf then Some G
  else if cut then Some (filter (fun nw => ls (fst nw) && outw (fst nw)) nodes) else None.

(** The last two predicates, for points of the unit facet. *)
Definition ls_at (o : alg) (dom : bbox) (f : Z) (pt : list R) : bool := on_level_set o (facet_point dom f pt).
Definition out_at (o : alg) (dom : bbox) (f : Z) (pt : list R) : bool := points_out o f (facet_point dom f pt).
