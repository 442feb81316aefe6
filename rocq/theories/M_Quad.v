(** Model of the quadrature generation: cpp/qugar/cut_quadrature.cpp and cpp/qugar/impl_quadrature.cpp. *)
From Verif Require Export M_QuadTP.
Open Scope R_scope.

(** What the external library and the level-set function contribute.  [alg_*]: the nodes and weights algoim passes to
    the callback for a general function on a box (volume, surface, facet with constant direction and side);
    [bz_*]: the same for a Bezier function rescaled to the box (nodes in the unit box, directions reversed). *)
Record alg := mk_alg {
  phi : list R -> R; grad : list R -> list R; is_bezier : bool;
  alg_vol : bbox -> Z -> rule; alg_srf : bbox -> Z -> rule; alg_fct : bbox -> Z -> Z -> Z -> rule;
  bz : bbox -> list R -> R; bz_grad : bbox -> list R -> list R; bz_facet : bbox -> Z -> list R -> R;
  bz_vol : bbox -> Z -> rule; bz_srf : bbox -> Z -> rule; bz_fct : bbox -> Z -> Z -> rule;
  fresh_point : list R  (* the components of a default-constructed Point *)
}.

(** cut_quadrature.hpp 33-79.  [reserve] has no observable effect and is not modelled. *)
Record cells_quad := mk_cq { cq_cells : list Z; cq_n : list Z; cq_pts : list (list R); cq_wts : list R }.
Record iso_quad := mk_iq { iq_cells : list Z; iq_facets : list Z; iq_n : list Z; iq_pts : list (list R); iq_wts : list R }.
Record unf_quad := mk_uq { uq_cells : list Z; uq_n : list Z; uq_pts : list (list R); uq_wts : list R; uq_nrm : list (list R) }.

(** The function-local static variables [gauss_01] of create_cell_quadrature (impl_quadrature.cpp 522) and of
    create_facet_quadrature (625), for one dimension; None before the first execution of the declaration. *)
Record statics := mk_st { st_cell : option rule; st_facet : option rule }.
Definition statics0 : statics := mk_st None None.

(** impl_quadrature.cpp 522-525 (625-628): the static initialised on the first pass, replaced when the number of
    points differs. *)
Definition gauss_lookup (table : list R) (dim : nat) (n n_set : Z) (c : option rule) : outcome rule :=
  g <- match c with Some g => Ret g | None => create_01 table dim n end ;;
  if negb (Z.of_nat (length g) =? n_set)%Z then create_01 table dim n else Ret g.

(** algoim's vector functions: add_component inserts a component at a position. *)
Definition add_component (v : list R) (dir : nat) (x : R) : list R := firstn dir v ++ x :: skipn dir v.
(** vector.hpp 69-76 *)
Definition permute_dirs (v : list R) : list R := rev v.
Definition vscale_inv (v : list R) (a : R) : list R := map (fun x => x / a) v.
(** bbox.cpp slice(const_dir). *)
Definition box_slice (b : bbox) (dir : nat) : bbox := mk_box (remove_component dir (bmin b)) (remove_component dir (bmax b)).

(** impl_quadrature.cpp 65-69: CutCellsQuadWrapper::evalIntegrand (one callback = one appended node). *)
Definition eval_cell (dom : bbox) (nw : list R * R) : list R * R := (scale_to_01 dom (fst nw), snd nw / box_volume dom).
(** impl_quadrature.cpp 87-112: CutUnfBoundsQuadWrapper::evalIntegrand: point, weight, normal. *)
Definition eval_unf (o : alg) (dom : bbox) (nw : list R * R) : (list R * R) * list R :=
  let normal := grad o (fst nw) in
  let normal1 := vscale_inv normal (vec_norm normal) in
  let normal2 := map2 Rmult normal1 (box_lengths dom) in
  let nn := vec_norm normal2 in
  ((scale_to_01 dom (fst nw), snd nw * nn / box_volume dom), vscale_inv normal2 nn).
(** impl_quadrature.cpp 130-135: CutIsoBoundsQuadWrapper::evalIntegrand. *)
Definition eval_iso (face : bbox) (dir : nat) (nw : list R * R) : list R * R :=
  (scale_to_01 face (remove_component dir (fst nw)), snd nw / box_volume face).

(** impl_quadrature.cpp 138-158, 160-201 (188-196), 203-215 with is_srf = false. *)
Definition vol_nodes (o : alg) (dom : bbox) (n : Z) : rule :=
  if is_bezier o then
    filter (fun nw => Rltb (bz o dom (fst nw)) 0) (map (fun nw => (permute_dirs (fst nw), snd nw)) (bz_vol o dom n))
  else map (eval_cell dom) (alg_vol o dom n).
(** impl_quadrature.cpp 138-158, 160-201 (175-187), 203-215 with is_srf = true. *)
Definition srf_nodes (o : alg) (dom : bbox) (n : Z) : list ((list R * R) * list R) :=
  if is_bezier o then
    map (fun nw => let g := bz_grad o dom (fst nw) in
                   ((permute_dirs (fst nw), snd nw), permute_dirs (vscale_inv g (vec_norm g)))) (bz_srf o dom n)
  else map (eval_unf o dom) (alg_srf o dom n).

(** ** Cells *)
(** impl_quadrature.cpp 492-537: create_cell_quadrature. *)
Definition create_cell_quadrature (table : list R) (o : alg) (D : domain) (id n : Z) (q : cells_quad) (s : statics) : outcome (cells_quad * statics) :=
  let dim := length (breaks (d_grid D)) in
  assert_ (0 <? n)%Z (assert_ (0 <=? id)%Z (
  cut <- is_cut_cell D id ;;
  if cut then
    dom <- get_cell_domain (d_grid D) id ;;
    let nodes := vol_nodes o dom n in
    let pts := cq_pts q ++ map fst nodes in
    Ret (mk_cq (cq_cells q) (cq_n q ++ [Z.of_nat (length pts) - Z.of_nat (length (cq_pts q))]%Z) pts (cq_wts q ++ map snd nodes), s)
  else
    full <- is_full_cell D id ;;
    if full then
      let n_set := (n * n * (if Nat.eqb dim 3 then n else 1))%Z in
      g <- gauss_lookup table dim n n_set (st_cell s) ;;
      Ret (mk_cq (cq_cells q) (cq_n q ++ [n_set]) (cq_pts q ++ map fst g) (cq_wts q ++ map snd g), mk_st (Some g) (st_facet s))
    else Ret (mk_cq (cq_cells q) (cq_n q ++ [0%Z]) (cq_pts q) (cq_wts q), s))).

Fixpoint foldM {A B} (f : A -> B -> outcome B) (l : list A) (b : B) : outcome B :=
  match l with [] => Ret b | a :: l' => b' <- f a b ;; foldM f l' b' end.

(** cut_quadrature.cpp 107-138: create_quadrature (implicit domains; the other branch asserts). *)
Definition create_quadrature (table : list R) (o : alg) (D : domain) (cells : list Z) (n : Z) (s : statics) : outcome (cells_quad * statics) :=
  assert_ (0 <? n)%Z (
  foldM (fun id qs => create_cell_quadrature table o D id n (fst qs) (snd qs)) cells (mk_cq cells [] [] [], s)).

(** ** Erasing points *)
(** std::vector::erase(begin + i). *)
Definition erase_at {A} (l : list A) (i : Z) : outcome (list A) :=
  if ((0 <=? i) && (i <? Z.of_nat (length l)))%Z then Ret (firstn (Z.to_nat i) l ++ skipn (S (Z.to_nat i)) l) else UB.
(** back() -= k *)
Definition back_minus (l : list Z) (k : Z) : outcome (list Z) :=
  match l with [] => UB | _ => Ret (removelast l ++ [last l 0 - k])%Z end.
(** impl_quadrature.cpp 217-237: erase_points_in_quad, facet version. *)
Definition erase_iso (ids : list Z) (q : iso_quad) : outcome iso_quad :=
  q' <- foldM (fun i q => p <- erase_at (iq_pts q) i ;; w <- erase_at (iq_wts q) i ;;
                 Ret (mk_iq (iq_cells q) (iq_facets q) (iq_n q) p w)) (rev (zsort ids)) q ;;
  n <- back_minus (iq_n q') (Z.of_nat (length ids)) ;;
  Ret (mk_iq (iq_cells q') (iq_facets q') n (iq_pts q') (iq_wts q')).
(** impl_quadrature.cpp 217-237: erase_points_in_quad, cell version. *)
Definition erase_unf (ids : list Z) (q : unf_quad) : outcome unf_quad :=
  q' <- foldM (fun i q => p <- erase_at (uq_pts q) i ;; w <- erase_at (uq_wts q) i ;; m <- erase_at (uq_nrm q) i ;;
                 Ret (mk_uq (uq_cells q) (uq_n q) p w m)) (rev (zsort ids)) q ;;
  n <- back_minus (uq_n q') (Z.of_nat (length ids)) ;;
  Ret (mk_uq (uq_cells q') n (uq_pts q') (uq_wts q') (uq_nrm q')).

(** The tolerance 1000 eps (impl_quadrature.cpp 253, 312). *)
Definition tol_purge : R := 1000 * eps.
Definition facet_coord (side : Z) : R := if (side =? 0)%Z then 0 else 1.
(** The ids n_tot - n_pts .. n_tot - 1 of the last slice. *)
Definition last_ids (n_tot n_pts : Z) : list Z := map (fun k => (n_tot - n_pts + k)%Z) (zseq n_pts).
Definition back_ (l : list Z) : outcome Z := match l with [] => UB | _ => Ret (last l 0)%Z end.

(** impl_quadrature.cpp 238-289: purge_facet_points for unfitted boundaries. *)
Definition purge_unf (o : alg) (D : domain) (id f : Z) (q : unf_quad) : outcome unf_quad :=
  unf <- has_unfitted_boundary D id f ;;
  ext <- has_external_boundary D id f ;;
  if negb unf && negb ext then Ret q else
  let dim := Z.of_nat (length (breaks (d_grid D))) in
  dir <- facet_const_dir dim f ;; side <- facet_side dim f ;;
  dom <- get_cell_domain (d_grid D) id ;;
  n_pts <- back_ (uq_n q) ;;
  ids <- filterM (fun i =>
      pt <- at_ (uq_pts q) i ;;
      if negb (tol_equal tol_purge (nth (Z.to_nat dir) pt 0) (facet_coord side)) then Ret false else
      nm <- at_ (uq_nrm q) i ;;
      if smaller_than tol_purge (Rabs (nth (Z.to_nat dir) nm 0)) 1 then Ret false else
      Ret (is_zero tol_purge (phi o (scale_from_01 dom pt)))) (last_ids (Z.of_nat (length (uq_pts q))) n_pts) ;;
  erase_unf ids q.

(** impl_quadrature.cpp 291-347: purge_facet_points for facets. *)
Definition purge_iso (o : alg) (D : domain) (id f : Z) (p_unf p_unf_ext p_cut : bool) (q : iso_quad) : outcome iso_quad :=
  hu <- has_unfitted_boundary D id f ;;
  let p_unf := p_unf && hu in let p_unf_ext := p_unf_ext && hu in
  pc <- (if p_cut then is_cut_facet D id f else Ret false) ;;
  if negb p_unf && negb p_unf_ext && negb pc then Ret q else
  let dim := Z.of_nat (length (breaks (d_grid D))) in
  dir <- facet_const_dir dim f ;; side <- facet_side dim f ;;
  dom <- get_cell_domain (d_grid D) id ;;
  n_pts <- back_ (iq_n q) ;;
  ids <- filterM (fun i =>
      pt <- at_ (iq_pts q) i ;;
      let point := scale_from_01 dom (add_component pt (Z.to_nat dir) (facet_coord side)) in
      if is_zero tol_purge (phi o point) then
        let comp := nth (Z.to_nat dir) (grad o point) 0 in
        let outside := if (side =? 0)%Z then is_negative tol_purge comp else is_positive tol_purge comp in
        Ret ((outside && p_unf) || (negb outside && p_unf_ext))
      else Ret pc) (last_ids (Z.of_nat (length (iq_pts q))) n_pts) ;;
  erase_iso ids q.

(** ** Facets *)
(** impl_quadrature.cpp 392-487: compute_facet_quadrature_with_algoim (general and Bezier). *)
Definition compute_facet (o : alg) (D : domain) (id f n : Z) (q : iso_quad) : outcome iso_quad :=
  let dim := Z.of_nat (length (breaks (d_grid D))) in
  assert_ (0 <? n)%Z (
  cut <- is_cut_facet D id f ;;
  assert_ cut (
  nodes <- (if is_bezier o then
      dom <- get_cell_domain (d_grid D) id ;;
      Ret (filter (fun nw => Rltb (bz_facet o dom f (fst nw)) 0) (map (fun nw => (permute_dirs (fst nw), snd nw)) (bz_fct o dom f n)))
    else
      dir <- facet_const_dir dim f ;; side <- facet_side dim f ;;
      dom <- get_cell_domain (d_grid D) id ;;
      Ret (map (eval_iso (box_slice dom (Z.to_nat dir)) (Z.to_nat dir)) (alg_fct o dom dir side n))) ;;
  let pts := iq_pts q ++ map fst nodes in
  Ret (mk_iq (iq_cells q) (iq_facets q) (iq_n q ++ [Z.of_nat (length pts) - Z.of_nat (length (iq_pts q))]%Z) pts (iq_wts q ++ map snd nodes)))).

(** impl_quadrature.cpp 594-649: create_facet_quadrature. *)
Definition create_facet_quadrature (table : list R) (o : alg) (D : domain) (id f n : Z) (remove_unf remove_cut : bool)
    (q : iso_quad) (s : statics) : outcome (iso_quad * statics) :=
  let dim := length (breaks (d_grid D)) in
  assert_ (0 <=? id)%Z (assert_ ((0 <=? f) && (f <? Z.of_nat dim * 2))%Z (assert_ (0 <? n)%Z (
  fu <- is_full_unfitted_facet D id f ;;
  full <- (if fu then Ret true else is_full_facet D id f) ;;
  if full then
    if fu && remove_unf then Ret (mk_iq (iq_cells q) (iq_facets q) (iq_n q ++ [0%Z]) (iq_pts q) (iq_wts q), s) else
    let n_set := (n * (if Nat.eqb dim 3 then n else 1))%Z in
    g <- gauss_lookup table (dim - 1) n n_set (st_facet s) ;;
    Ret (mk_iq (iq_cells q) (iq_facets q) (iq_n q ++ [n_set]) (iq_pts q ++ map fst g) (iq_wts q ++ map snd g), mk_st (st_cell s) (Some g))
  else
    cut <- is_cut_facet D id f ;;
    some <- (if cut then Ret true else has_unfitted_boundary D id f) ;;
    if some then
      q1 <- compute_facet o D id f n q ;;
      q2 <- purge_iso o D id f remove_unf true remove_cut q1 ;;
      Ret (q2, s)
    else Ret (mk_iq (iq_cells q) (iq_facets q) (iq_n q ++ [0%Z]) (iq_pts q) (iq_wts q), s)))).

(** cut_quadrature.cpp 40-78: create_facets_quadrature_generic. *)
Definition facets_generic (gen : Z -> Z -> iso_quad -> statics -> outcome (iso_quad * statics)) (cells facets : list Z) (n : Z) (s : statics) : outcome (iso_quad * statics) :=
  assert_ (Nat.eqb (length cells) (length facets)) (assert_ (0 <? n)%Z (
  foldM (fun cf qs => gen (fst cf) (snd cf) (fst qs) (snd qs)) (combine cells facets) (mk_iq cells facets [] [] [], s))).
(** cut_quadrature.cpp 197-208: the generator of the interior integrals. *)
Definition gen_interior table o D n (id f : Z) (q : iso_quad) (s : statics) : outcome (iso_quad * statics) :=
  ext <- is_exterior_facet D id f ;;
  if negb ext then create_facet_quadrature table o D id f n true false q s
  else Ret (mk_iq (iq_cells q) (iq_facets q) (iq_n q ++ [0%Z]) (iq_pts q) (iq_wts q), s).
(** cut_quadrature.cpp 238-255: the generator of the exterior integrals. *)
Definition gen_exterior table o D n (id f : Z) (q : iso_quad) (s : statics) : outcome (iso_quad * statics) :=
  ext <- is_exterior_facet D id f ;;
  if ext then create_facet_quadrature table o D id f n false false q s
  else
    hu <- has_unfitted_boundary D id f ;;
    if hu then create_facet_quadrature table o D id f n false true q s
    else Ret (mk_iq (iq_cells q) (iq_facets q) (iq_n q ++ [0%Z]) (iq_pts q) (iq_wts q), s).
(** cut_quadrature.cpp 178-216 and 219-262. *)
Definition create_facets_interior table o D cells facets n s := assert_ (0 <? n)%Z (facets_generic (gen_interior table o D n) cells facets n s).
Definition create_facets_exterior table o D cells facets n s := assert_ (0 <? n)%Z (facets_generic (gen_exterior table o D n) cells facets n s).

(** ** Unfitted boundaries *)
(** impl_quadrature.cpp 349-389: add_unf_bdry_quad. *)
Definition add_unf_bdry (table : list R) (o : alg) (D : domain) (id f n : Z) (q : unf_quad) (s : statics) : outcome (unf_quad * statics) :=
  let dim := Z.of_nat (length (breaks (d_grid D))) in
  hu <- has_unfitted_boundary D id f ;;
  if negb hu then Ret (q, s) else
  fs <- create_facet_quadrature table o D id f n false true (mk_iq [] [] [] [] []) s ;;
  let fq := fst fs in
  n_pts <- back_ (iq_n fq) ;;
  dir <- facet_const_dir dim f ;; side <- facet_side dim f ;;
  let normal := set_nth (Z.to_nat dir) (if (side =? 0)%Z then - (1) else 1) (fresh_point o) in
  q' <- foldM (fun i q =>
      match uq_n q with [] => UB | _ =>
      pt <- at_ (iq_pts fq) i ;;
      w <- at_ (iq_wts fq) i ;;
      Ret (mk_uq (uq_cells q) (removelast (uq_n q) ++ [last (uq_n q) 0 + 1])%Z
             (uq_pts q ++ [add_component pt (Z.to_nat dir) (facet_coord side)]) (uq_wts q ++ [w]) (uq_nrm q ++ [normal])) end)
      (zseq n_pts) q ;;
  Ret (q', snd fs).

(** impl_quadrature.cpp 539-592: create_cell_unfitted_bound_quadrature. *)
Definition create_cell_unf (table : list R) (o : alg) (D : domain) (id n : Z) (include exclude_ext : bool) (q : unf_quad) (s : statics) : outcome (unf_quad * statics) :=
  let dim := length (breaks (d_grid D)) in
  assert_ (0 <? n)%Z (assert_ (0 <=? id)%Z (
  w <- is_cell_with_unf_bdry D id ;;
  if negb w then Ret (mk_uq (uq_cells q) (uq_n q ++ [0%Z]) (uq_pts q) (uq_wts q) (uq_nrm q), s) else
  cut <- is_cut_cell D id ;;
  q1 <- (if cut then
      dom <- get_cell_domain (d_grid D) id ;;
      let nodes := srf_nodes o dom n in
      let pts := uq_pts q ++ map (fun x => fst (fst x)) nodes in
      let q0 := mk_uq (uq_cells q) (uq_n q ++ [Z.of_nat (length pts) - Z.of_nat (length (uq_pts q))]%Z) pts
                  (uq_wts q ++ map (fun x => snd (fst x)) nodes) (uq_nrm q ++ map snd nodes) in
      foldM (fun f q => hu <- has_unfitted_boundary D id f ;; if hu then purge_unf o D id f q else Ret q) (zseq (Z.of_nat dim * 2)) q0
    else Ret (mk_uq (uq_cells q) (uq_n q ++ [0%Z]) (uq_pts q) (uq_wts q) (uq_nrm q))) ;;
  if include then
    foldM (fun f qs =>
      hu <- has_unfitted_boundary D id f ;;
      if hu then
        skip <- (if exclude_ext then is_exterior_facet D id f else Ret false) ;;
        if negb skip then add_unf_bdry table o D id f n (fst qs) (snd qs) else Ret qs
      else Ret qs) (zseq (Z.of_nat dim * 2)) (q1, s)
  else Ret (q1, s))).
(** cut_quadrature.cpp 140-174: create_unfitted_bound_quadrature. *)
Definition create_unfitted_bound (table : list R) (o : alg) (D : domain) (cells : list Z) (n : Z) (include exclude_ext : bool) (s : statics) : outcome (unf_quad * statics) :=
  assert_ (0 <? n)%Z (
  foldM (fun id qs => create_cell_unf table o D id n include exclude_ext (fst qs) (snd qs)) cells (mk_uq cells [] [] [] [], s)).
