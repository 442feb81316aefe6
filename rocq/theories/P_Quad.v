(** Properties C26-C33, C74-C76: quadratures.  [table] is the Gauss table of quadrature_lib.cpp. *)
From Verif Require Import M_Quad S_Quad S_Domain S_Grid L_QuadTP L_Quad L_QuadRun L_QuadProps L_QuadMap L_DomainT.
From Coq Require Import Lra.
Open Scope R_scope.

(** C26.  [vol_nodes] is the rule of the cut cell in coordinates of the unit cell (see C74). *)
Theorem C26_cell_quadratures : forall table, Z.of_nat (length table) = n_entries ->
  forall g sign ccell cfacet D s0, built g sign ccell cfacet D s0 -> (length (breaks g) = 2 \/ length (breaks g) = 3)%nat ->
  forall o cells n st, (1 <= n <= n_max)%Z -> reachable table (length (breaks g)) st -> Forall (cell_id g) cells ->
  exists q st' chunks, create_quadrature table o D cells n st = Ret (q, st') /\ cq_cells q = cells /\
    cq_n q = counts_of chunks /\ cq_pts q = concat (map (map fst) chunks) /\ cq_wts q = concat (map (map snd) chunks) /\
    nsum (cq_n q) = Z.of_nat (length (cq_pts q)) /\ length (cq_wts q) = length (cq_pts q) /\
    Forall2 (fun id c =>
      (is_empty_cell D id = Ret true -> c = []) /\
      (is_full_cell D id = Ret true -> create_01 table (length (breaks g)) n = Ret c /\ Z.of_nat (length c) = (n ^ Z.of_nat (length (breaks g)))%Z) /\
      (is_cut_cell D id = Ret true -> exists dom, get_cell_domain g id = Ret dom /\ c = vol_nodes o dom n)) cells chunks.
Proof. exact C26_body. Qed.
Print Assumptions C26_cell_quadratures.
Example C26_nonvacuous : forall sign ccell cfacet, exists g D s, built g sign ccell cfacet D s /\ num_cells g = 2%Z /\ length (breaks g) = 2%nat.
Proof. exact demo_built. Qed.
Example C26_table : Z.of_nat (length (repeat 0 10100)) = n_entries.
Proof. rewrite repeat_length. reflexivity. Qed.

(** C27: the slice of every facet / cell is what the same call returns for it alone; no contribution means no points
    (the content of the facet slices is C29). *)
Theorem C27_facet_quadratures : forall table, Z.of_nat (length table) = n_entries ->
  forall (ext : bool) o D cells facets n st q st', (length (breaks (d_grid D)) = 2 \/ length (breaks (d_grid D)) = 3)%nat ->
  reachable table (length (breaks (d_grid D))) st ->
  (if ext then create_facets_exterior else create_facets_interior) table o D cells facets n st = Ret (q, st') ->
  length facets = length cells /\ iq_cells q = cells /\ iq_facets q = facets /\
  exists chunks, length chunks = length cells /\ iq_n q = counts_of chunks /\ iq_pts q = concat (map (map fst) chunks) /\ iq_wts q = concat (map (map snd) chunks) /\
    nsum (iq_n q) = Z.of_nat (length (iq_pts q)) /\ length (iq_wts q) = length (iq_pts q) /\
    forall k, (k < length cells)%nat -> forall st1, reachable table (length (breaks (d_grid D))) st1 ->
      value ((if ext then create_facets_exterior else create_facets_interior) table o D [nth k cells 0%Z] [nth k facets 0%Z] n st1) =
      Ret (one_facet (nth k cells 0%Z) (nth k facets 0%Z) (nth k chunks [])).
Proof. exact C27_facets_body. Qed.
Print Assumptions C27_facet_quadratures.
Theorem C27_unfitted_quadratures : forall table, Z.of_nat (length table) = n_entries ->
  forall o D cells n inc exc st q st', (length (breaks (d_grid D)) = 2 \/ length (breaks (d_grid D)) = 3)%nat ->
  reachable table (length (breaks (d_grid D))) st -> create_unfitted_bound table o D cells n inc exc st = Ret (q, st') ->
  uq_cells q = cells /\
  exists chunks, uq_n q = counts_of chunks /\ uq_pts q = concat (map (map (fun x => fst (fst x))) chunks) /\
    uq_wts q = concat (map (map (fun x => snd (fst x))) chunks) /\ uq_nrm q = concat (map (map snd) chunks) /\
    nsum (uq_n q) = Z.of_nat (length (uq_pts q)) /\ length (uq_wts q) = length (uq_pts q) /\ length (uq_nrm q) = length (uq_pts q) /\
    Forall2 (fun id c => (is_cell_with_unf_bdry D id = Ret false -> c = []) /\ forall st1, reachable table (length (breaks (d_grid D))) st1 ->
      value (create_unfitted_bound table o D [id] n inc exc st1) = Ret (one_unf id c)) cells chunks.
Proof. exact C27_unf_body. Qed.
Print Assumptions C27_unfitted_quadratures.
(** Without facets the unfitted quadrature never aborts on a built domain (with facets, see C30). *)
Theorem C27_unfitted_total : forall table, Z.of_nat (length table) = n_entries ->
  forall g sign ccell cfacet D s0, built g sign ccell cfacet D s0 -> (length (breaks g) = 2 \/ length (breaks g) = 3)%nat ->
  forall o cells n exc st, (0 < n)%Z -> reachable table (length (breaks g)) st -> Forall (cell_id g) cells ->
  exists q st', create_unfitted_bound table o D cells n false exc st = Ret (q, st').
Proof. exact C27_total_body. Qed.
Print Assumptions C27_unfitted_total.

(** C28 *)
Theorem C28_erase_facet_points : forall ids q, NoDup ids -> iq_n q <> [] -> Forall (fun i => 0 <= i < Z.of_nat (length (iq_pts q)))%Z ids -> length (iq_wts q) = length (iq_pts q) ->
  exists q', erase_iso ids q = Ret q' /\ iq_cells q' = iq_cells q /\ iq_facets q' = iq_facets q /\
    iq_pts q' = keep_from 0 ids (iq_pts q) /\ iq_wts q' = keep_from 0 ids (iq_wts q) /\
    Z.of_nat (length (iq_pts q')) = (Z.of_nat (length (iq_pts q)) - Z.of_nat (length ids))%Z /\
    (exists ns n, iq_n q = ns ++ [n] /\ iq_n q' = ns ++ [n - Z.of_nat (length ids)])%Z.
Proof. exact C28_iso_lemma. Qed.
Print Assumptions C28_erase_facet_points.
Theorem C28_erase_boundary_points : forall ids q, NoDup ids -> uq_n q <> [] -> Forall (fun i => 0 <= i < Z.of_nat (length (uq_pts q)))%Z ids ->
  length (uq_wts q) = length (uq_pts q) -> length (uq_nrm q) = length (uq_pts q) ->
  exists q', erase_unf ids q = Ret q' /\ uq_cells q' = uq_cells q /\
    uq_pts q' = keep_from 0 ids (uq_pts q) /\ uq_wts q' = keep_from 0 ids (uq_wts q) /\ uq_nrm q' = keep_from 0 ids (uq_nrm q) /\
    Z.of_nat (length (uq_pts q')) = (Z.of_nat (length (uq_pts q)) - Z.of_nat (length ids))%Z /\
    (exists ns n, uq_n q = ns ++ [n] /\ uq_n q' = ns ++ [n - Z.of_nat (length ids)])%Z.
Proof. exact C28_unf_lemma. Qed.
Print Assumptions C28_erase_boundary_points.
Example C28_nonvacuous : erase_iso [2; 0]%Z (mk_iq [5]%Z [1]%Z [3]%Z [[1];[2];[3]] [4;5;6]) = Ret (mk_iq [5]%Z [1]%Z [1]%Z [[2]] [5]).
Proof. reflexivity. Qed.

(** C29 *)
Theorem C29_interior_exterior : forall table, Z.of_nat (length table) = n_entries ->
  forall g sign ccell cfacet D s0, built g sign ccell cfacet D s0 -> (length (breaks g) = 2 \/ length (breaks g) = 3)%nat ->
  forall o id f n st qi qe, (1 <= n <= n_max)%Z -> reachable table (length (breaks g)) st -> cell_id g id -> facet_id g f ->
  value (create_facets_interior table o D [id] [f] n st) = Ret qi -> value (create_facets_exterior table o D [id] [f] n st) = Ret qe ->
  (on_boundary g id f = Ret true -> iq_pts qi = [] /\ iq_n qi = [0%Z]) /\
  (on_boundary g id f = Ret false -> has_unfitted_boundary D id f = Ret false -> iq_pts qe = [] /\ iq_n qe = [0%Z]) /\
  (is_full_unfitted_facet D id f = Ret true -> iq_pts qi = [] /\ iq_n qi = [0%Z]) /\
  (forall p, In p (iq_pts qi) -> In p (iq_pts qe) -> False).
Proof. exact C29_body. Qed.
Print Assumptions C29_interior_exterior.
(** The exact content of both rules. *)
Theorem C29_facet_content : forall table, Z.of_nat (length table) = n_entries ->
  forall g sign ccell cfacet D s0, built g sign ccell cfacet D s0 -> (length (breaks g) = 2 \/ length (breaks g) = 3)%nat ->
  forall o id f n st, (1 <= n <= n_max)%Z -> reachable table (length (breaks g)) st -> cell_id g id -> facet_id g f ->
  exists bnd a c d u G dom,
   on_boundary g id f = Ret bnd /\ is_full_facet D id f = Ret a /\ is_cut_facet D id f = Ret c /\ is_full_unfitted_facet D id f = Ret d /\ has_unfitted_boundary D id f = Ret u /\
   create_01 table (length (breaks g) - 1) n = Ret G /\ get_cell_domain g id = Ret dom /\
   (d = true -> u = true /\ a = false /\ c = false) /\ (a = true -> u = false /\ c = false) /\
   value (create_facets_interior table o D [id] [f] n st) = (r <- answer (facet_answer_int bnd a d c u (ls_at o dom f) G (facet_rule o dom f n)) ;; Ret (one_facet id f r)) /\
   value (create_facets_exterior table o D [id] [f] n st) = (r <- answer (facet_answer_ext bnd a d c u (ls_at o dom f) (out_at o dom f) G (facet_rule o dom f n)) ;; Ret (one_facet id f r)).
Proof. exact C29_content_body. Qed.
Print Assumptions C29_facet_content.

(** C30: false for facets whose only status is a piece of unfitted boundary. *)
Theorem C30_unfitted_facets_refuted : forall table, Z.of_nat (length table) = n_entries ->
  exists g sign ccell cfacet D s id f, built g sign ccell cfacet D s /\ length (breaks g) = 2%nat /\ cell_id g id /\ facet_id g f /\
  has_unfitted_boundary D id f = Ret true /\ forall o n, (1 <= n <= n_max)%Z -> value (create_facets_exterior table o D [id] [f] n statics0) = Abort.
Proof. exact C30_refuted_body. Qed.
Print Assumptions C30_unfitted_facets_refuted.
(** It aborts only for those. *)
Theorem C30_unfitted_facets_partial : forall table, Z.of_nat (length table) = n_entries ->
  forall g sign ccell cfacet D s0, built g sign ccell cfacet D s0 -> (length (breaks g) = 2 \/ length (breaks g) = 3)%nat ->
  forall o id f n st, (1 <= n <= n_max)%Z -> reachable table (length (breaks g)) st -> cell_id g id -> facet_id g f ->
  (exists qe, value (create_facets_exterior table o D [id] [f] n st) = Ret qe) \/
  (value (create_facets_exterior table o D [id] [f] n st) = Abort /\ has_unfitted_boundary D id f = Ret true /\ is_cut_facet D id f = Ret false /\ is_full_unfitted_facet D id f = Ret false).
Proof. exact C30_body. Qed.
Print Assumptions C30_unfitted_facets_partial.

(** C31: whatever calls (of the same dimension) came before, the result is that of a fresh process. *)
Theorem C31_no_leak : forall table, Z.of_nat (length table) = n_entries ->
  forall dim c s, (dim = 2 \/ dim = 3)%nat -> call_dim c = dim -> reachable table dim s ->
  value (run_call table c s) = value (run_call table c statics0).
Proof. exact C31_lemma. Qed.
Print Assumptions C31_no_leak.

(** C32 *)
Theorem C32_table_positions : forall n pt, (1 <= n <= n_max)%Z -> (0 <= pt < n)%Z ->
  exists a w, abscissa_pos n pt = Ret a /\ weight_pos n pt = Ret w /\ (0 <= a < n_entries)%Z /\ (0 <= w < n_entries)%Z /\ a <> w /\
  forall n' pt' a' w', (1 <= n' <= n_max)%Z -> (0 <= pt' < n')%Z -> abscissa_pos n' pt' = Ret a' -> weight_pos n' pt' = Ret w' ->
    a <> w' /\ (a = a' \/ w = w' -> n = n' /\ pt = pt').
Proof. exact C32_lemma. Qed.
Print Assumptions C32_table_positions.
(** ... and every entry of the table is read by some lookup. *)
Theorem C32_table_used : forall i, (0 <= i < n_entries)%Z -> exists n pt, (1 <= n <= n_max)%Z /\ (0 <= pt < n)%Z /\
  (abscissa_pos n pt = Ret i \/ weight_pos n pt = Ret i).
Proof. exact C32_onto_lemma. Qed.
Print Assumptions C32_table_used.

(** C33 *)
Theorem C33_tensor_1d : forall table dom n0, Z.of_nat (length table) = n_entries -> (1 <= n0)%nat -> (Z.of_nat n0 <= n_max)%Z ->
  exists q, create_tp table [Z.of_nat n0] dom = Ret q /\ length q = n0 /\
  (forall i, (i < n0)%nat -> nth i q dpt = ([nth 0 (bmin dom) 0 + x1d table n0 i * (nth 0 (bmax dom) 0 - nth 0 (bmin dom) 0)], w1d table n0 i * (nth 0 (bmax dom) 0 - nth 0 (bmin dom) 0))) /\
  (forall f, integ q (fun p => f (nth 0 p 0)) = integ1 table n0 (nth 0 (bmin dom) 0) (nth 0 (bmax dom) 0) f).
Proof. exact C33_1d_lemma. Qed.
Print Assumptions C33_tensor_1d.
Theorem C33_tensor_2d : forall table dom n0 n1, Z.of_nat (length table) = n_entries -> (1 <= n0)%nat -> (Z.of_nat n0 <= n_max)%Z -> (1 <= n1)%nat -> (Z.of_nat n1 <= n_max)%Z ->
  exists q, create_tp table [Z.of_nat n0; Z.of_nat n1] dom = Ret q /\ length q = (n1 * n0)%nat /\
  (forall i j, (i < n0)%nat -> (j < n1)%nat -> nth (j * n0 + i) q dpt =
     ([nth 0 (bmin dom) 0 + x1d table n0 i * (nth 0 (bmax dom) 0 - nth 0 (bmin dom) 0); nth 1 (bmin dom) 0 + x1d table n1 j * (nth 1 (bmax dom) 0 - nth 1 (bmin dom) 0)],
      w1d table n0 i * (nth 0 (bmax dom) 0 - nth 0 (bmin dom) 0) * (w1d table n1 j * (nth 1 (bmax dom) 0 - nth 1 (bmin dom) 0)))) /\
  (forall f g, integ q (fun p => f (nth 0 p 0) * g (nth 1 p 0)) =
     integ1 table n0 (nth 0 (bmin dom) 0) (nth 0 (bmax dom) 0) f * integ1 table n1 (nth 1 (bmin dom) 0) (nth 1 (bmax dom) 0) g).
Proof. exact C33_2d_lemma. Qed.
Print Assumptions C33_tensor_2d.
(** In 3D it is false: a rule whose point leaves the box and whose weights do not add up to the volume. *)
Theorem C33_tensor_3d_refuted : forall table, Z.of_nat (length table) = n_entries -> nth 0 table 0 = / 2 -> nth 1 table 0 = 1 ->
  exists dom q, positive_box (bmin dom) (bmax dom) /\ create_tp table [1; 1; 1]%Z dom = Ret q /\
    (exists p w, In (p, w) q /\ ~ in_closed (bmin dom) (bmax dom) p) /\ box_volume dom = 1 /\ integ q (fun _ => 1) = 8.
Proof. exact C33_refuted_lemma. Qed.
Print Assumptions C33_tensor_3d_refuted.
(** It holds for boxes with the minimum corner at the origin. *)
Theorem C33_tensor_3d_partial : forall table dom n0 n1 n2, Z.of_nat (length table) = n_entries -> (1 <= n0)%nat -> (Z.of_nat n0 <= n_max)%Z -> (1 <= n1)%nat -> (Z.of_nat n1 <= n_max)%Z ->
  (1 <= n2)%nat -> (Z.of_nat n2 <= n_max)%Z -> bmin dom = [0; 0; 0] ->
  exists q, create_tp table [Z.of_nat n0; Z.of_nat n1; Z.of_nat n2] dom = Ret q /\ length q = (n2 * (n1 * n0))%nat /\
  (forall i j k, (i < n0)%nat -> (j < n1)%nat -> (k < n2)%nat -> nth (k * (n1 * n0) + (j * n0 + i)) q dpt =
     ([x1d table n0 i * nth 0 (bmax dom) 0; x1d table n1 j * nth 1 (bmax dom) 0; x1d table n2 k * nth 2 (bmax dom) 0],
      w1d table n0 i * nth 0 (bmax dom) 0 * (w1d table n1 j * nth 1 (bmax dom) 0) * (w1d table n2 k * nth 2 (bmax dom) 0))) /\
  (forall f g h, integ q (fun p => f (nth 0 p 0) * g (nth 1 p 0) * h (nth 2 p 0)) =
     integ1 table n0 0 (nth 0 (bmax dom) 0) f * integ1 table n1 0 (nth 1 (bmax dom) 0) g * integ1 table n2 0 (nth 2 (bmax dom) 0) h).
Proof. exact C33_3d_lemma. Qed.
Print Assumptions C33_tensor_3d_partial.

(** C74 *)
Theorem C74_cell_rule : forall o dom n F, is_bezier o = false -> positive_box (bmin dom) (bmax dom) ->
  (forall nw, In nw (alg_vol o dom n) -> length (fst nw) = length (bmin dom)) ->
  integ (vol_nodes o dom n) (fun p => F (scale_from_01 dom p)) * box_volume dom = integ (alg_vol o dom n) F.
Proof. exact vol_change_lemma. Qed.
Print Assumptions C74_cell_rule.
Theorem C74_facet_rule : forall o dom f n F, is_bezier o = false -> positive_box (bmin dom) (bmax dom) -> (0 <= f < 2 * Z.of_nat (length (bmin dom)))%Z ->
  let dir := Z.to_nat (f / 2) in
  (forall nw, In nw (alg_fct o dom (f / 2) (f mod 2) n) -> length (fst nw) = length (bmin dom) /\
     nth dir (fst nw) 0 = nth dir (if (f mod 2 =? 0)%Z then bmin dom else bmax dom) 0) ->
  integ (facet_rule o dom f n) (fun p => F (facet_point dom f p)) * box_volume (box_slice dom dir) = integ (alg_fct o dom (f / 2) (f mod 2) n) F.
Proof. exact facet_change_lemma. Qed.
Print Assumptions C74_facet_rule.
Theorem C74_surface_rule : forall o dom nw, positive_box (bmin dom) (bmax dom) -> length (fst nw) = length (bmin dom) -> length (grad o (fst nw)) = length (bmin dom) ->
  (exists d, nth d (grad o (fst nw)) 0 <> 0) ->
  let p := fst (fst (eval_unf o dom nw)) in let w := snd (fst (eval_unf o dom nw)) in let m := snd (eval_unf o dom nw) in
  scale_from_01 dom p = fst nw /\ vec_norm m = 1 /\
  (forall d, (d < length (bmin dom))%nat -> w * nth d m 0 * box_volume dom = snd nw * (nth d (grad o (fst nw)) 0 / vec_norm (grad o (fst nw))) * (nth d (bmax dom) 0 - nth d (bmin dom) 0)) /\
  (0 < snd nw -> 0 < w).
Proof. exact srf_change_lemma. Qed.
Print Assumptions C74_surface_rule.
Example C74_nonvacuous : positive_box [1; 2] [3; 5] /\ box_volume (mk_box [1; 2] [3; 5]) = 6 /\ facet_point (mk_box [1;2] [3;5]) 1 [/ 3] = [3; 3].
Proof.
  split; [split; auto; intros [|[|d]] Hd; simpl in *; try lra; lia|]. split; [cbn; lra|]. cbn. f_equal; [lra|]. f_equal. lra.
Qed.

(** C75: false for facets with external but without unfitted boundary pieces. *)
Theorem C75_external_points_refuted : forall table, Z.of_nat (length table) = n_entries ->
  exists g sign ccell cfacet D s id f dom o, built g sign ccell cfacet D s /\ length (breaks g) = 2%nat /\ cell_id g id /\ facet_id g f /\
  has_external_boundary D id f = Ret true /\ get_cell_domain g id = Ret dom /\ on_boundary g id f = Ret false /\
  forall n, (1 <= n <= n_max)%Z -> exists q p, value (create_facets_interior table o D [id] [f] n statics0) = Ret q /\ In p (iq_pts q) /\
    phi o (facet_point dom f p) = 0 /\ grad o (facet_point dom f p) = [-1; 0].
Proof. exact C75_refuted_body. Qed.
Print Assumptions C75_external_points_refuted.
(** It holds for facets with unfitted boundary. *)
Theorem C75_external_points_partial : forall table, Z.of_nat (length table) = n_entries ->
  forall g sign ccell cfacet D s0, built g sign ccell cfacet D s0 -> (length (breaks g) = 2 \/ length (breaks g) = 3)%nat ->
  forall (ext : bool) o id f n st q dom, (1 <= n <= n_max)%Z -> reachable table (length (breaks g)) st -> cell_id g id -> facet_id g f ->
  is_cut_facet D id f = Ret true -> has_unfitted_boundary D id f = Ret true ->
  get_cell_domain g id = Ret dom -> value ((if ext then create_facets_exterior else create_facets_interior) table o D [id] [f] n st) = Ret q ->
  forall p, In p (iq_pts q) -> on_level_set o (facet_point dom f p) = true -> points_out o f (facet_point dom f p) = true.
Proof. exact C75_body. Qed.
Print Assumptions C75_external_points_partial.

(** C76, under the assumption that a default-constructed Point is the null vector (algoim is not part of the model). *)
Theorem C76_facet_normals_partial : forall table, Z.of_nat (length table) = n_entries ->
  forall o D id n exc st q0 q1, (length (breaks (d_grid D)) = 2 \/ length (breaks (d_grid D)) = 3)%nat -> reachable table (length (breaks (d_grid D))) st ->
  fresh_point o = repeat 0 (length (breaks (d_grid D))) ->
  value (create_unfitted_bound table o D [id] n false exc st) = Ret q0 -> value (create_unfitted_bound table o D [id] n true exc st) = Ret q1 ->
  exists added, q1 = mk_uq [id] [(nsum (uq_n q0) + Z.of_nat (length added))%Z] (uq_pts q0 ++ map (fun x => fst (fst x)) added) (uq_wts q0 ++ map (fun x => snd (fst x)) added) (uq_nrm q0 ++ map snd added) /\
   Forall (fun x => exists f, (0 <= f < 2 * Z.of_nat (length (breaks (d_grid D))))%Z /\ has_unfitted_boundary D id f = Ret true /\ (exc = true -> on_boundary (d_grid D) id f = Ret false) /\
     nth (Z.to_nat (f / 2)) (snd x) 0 = (if (f mod 2 =? 0)%Z then -1 else 1) /\ (forall d, d <> Z.to_nat (f / 2) -> nth d (snd x) 0 = 0) /\
     exists p, fst (fst x) = firstn (Z.to_nat (f / 2)) p ++ (if (f mod 2 =? 0)%Z then 0 else 1) :: skipn (Z.to_nat (f / 2)) p) added.
Proof. exact C76_body. Qed.
Print Assumptions C76_facet_normals_partial.
