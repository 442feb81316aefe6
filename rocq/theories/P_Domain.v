(** Properties C13-C23: unfitted domains. *)
From Verif Require Import M_Domain S_Domain S_Grid L_DomainQ L_DomainT.
Open Scope Z_scope.

(** C13 *)
Theorem C13_cells_partition : forall g sign ccell cfacet D s, built g sign ccell cfacet D s ->
  exists F E C, get_cells D Cfull = Ret F /\ get_cells D Cempty = Ret E /\ get_cells D Ccut = Ret C /\
  StronglySorted Z.lt F /\ StronglySorted Z.lt E /\ StronglySorted Z.lt C /\
  (forall id, cell_id g id <-> In id F \/ In id E \/ In id C) /\
  (forall id, ~ (In id F /\ In id E) /\ ~ (In id F /\ In id C) /\ ~ (In id E /\ In id C)) /\
  get_num_cells D Cfull = Z.of_nat (length F) /\ get_num_cells D Cempty = Z.of_nat (length E) /\
  get_num_cells D Ccut = Z.of_nat (length C) /\
  get_num_cells D Cfull + get_num_cells D Cempty + get_num_cells D Ccut = num_cells g.
Proof. exact C13_body. Qed.
Print Assumptions C13_cells_partition.

(** For every choice of oracles there is a built domain on a grid of 2 cells. *)
Example C13_nonvacuous : forall sign ccell cfacet, exists g D s, built g sign ccell cfacet D s /\ num_cells g = 2 /\ length (breaks g) = 2%nat.
Proof. exact demo_built. Qed.

(** C14 *)
Theorem C14_queries_agree : forall g sign ccell cfacet D s, built g sign ccell cfacet D s ->
  forall id F E C, cell_id g id -> get_cells D Cfull = Ret F -> get_cells D Cempty = Ret E -> get_cells D Ccut = Ret C ->
  exists f e c, is_full_cell D id = Ret f /\ is_empty_cell D id = Ret e /\ is_cut_cell D id = Ret c /\
   (f = true <-> In id F) /\ (e = true <-> In id E) /\ (c = true <-> In id C).
Proof. exact C14_body. Qed.
Print Assumptions C14_queries_agree.

(** C15 *)
Theorem C15_target_lists : forall g sign ccell cfacet D s, built g sign ccell cfacet D s ->
  forall st targets all, Forall (cell_id g) targets -> get_cells D st = Ret all ->
  exists l, get_cells_target D st targets = Ret l /\ StronglySorted Z.le l /\
    Permutation l (filter (fun id => if in_dec Z.eq_dec id all then true else false) targets).
Proof. exact C15_body. Qed.
Print Assumptions C15_target_lists.

(** C16: [cs_classified s] is the list of the cells that were classified individually. *)
Theorem C16_subdivision_sound : forall g sign ccell cfacet D s, built g sign ccell cfacet D s ->
  forall phi : list R -> R,
  (forall k b, sign k b = Sneg -> forall p, in_closed (bmin b) (bmax b) p -> (phi p < 0)%R) ->
  (forall k b, sign k b = Spos -> forall p, in_closed (bmin b) (bmax b) p -> (0 < phi p)%R) ->
  forall id, cell_id g id -> exists lo hi, get_cell_domain g id = Ret (mk_box lo hi) /\
    (~ In id (cs_classified s) ->
       (is_full_cell D id = Ret true -> forall p, in_closed lo hi p -> (phi p < 0)%R) /\
       (is_empty_cell D id = Ret true -> forall p, in_closed lo hi p -> (0 < phi p)%R)) /\
    (is_cut_cell D id = Ret true -> In id (cs_classified s)) /\
    (In id (cs_classified s) -> exists k,
       sign k (mk_box (map (fun x => x - eps * 1000)%R lo) (map (fun x => x + eps * 1000)%R hi)) = Sund).
Proof. exact C16_body. Qed.
Print Assumptions C16_subdivision_sound.

(** Complete description of the result: every cell has exactly the result described by [cell_result]. *)
Theorem C16_every_cell : forall g sign ccell cfacet D s, built g sign ccell cfacet D s ->
  forall id, cell_id g id -> exists st h,
    cell_result g sign ccell cfacet id h st (fm_find (d_fm D) id) /\ (h = by_cell <-> In id (cs_classified s)) /\
    is_full_cell D id = Ret (cstatus_eqb st Cfull) /\ is_empty_cell D id = Ret (cstatus_eqb st Cempty) /\
    is_cut_cell D id = Ret (cstatus_eqb st Ccut).
Proof. exact every_cell_lemma. Qed.
Print Assumptions C16_every_cell.

Example C16_nonvacuous : exists g D s (phi : list R -> R), let sign := fun (_ : nat) (b : bbox) => if Rltb (nth 0 (bmax b) 3%R) 2 then Sneg else Sund in
  built g sign (fun _ => Tcut) (fun _ _ _ => Fcut) D s /\ num_cells g = 2 /\
  (forall k b, sign k b = Sneg -> forall p, in_closed (bmin b) (bmax b) p -> (phi p < 0)%R) /\
  (forall k b, sign k b = Spos -> forall p, in_closed (bmin b) (bmax b) p -> (0 < phi p)%R).
Proof. exact C16_example. Qed.

(** C17: the construction returns for every grid and every behaviour of the oracles. *)
Theorem C17_terminates_bounded : forall g sign ccell cfacet order, usable_grid g -> map_order order ->
  exists D s, build_domain g sign ccell cfacet None order = Ret (D, s) /\
    1 <= Z.of_nat (cs_signs s) <= 2 * num_cells g - 1 /\
    Z.of_nat (length (cs_classified s)) <= num_cells g /\ NoDup (cs_classified s).
Proof. exact C17_lemma. Qed.
Print Assumptions C17_terminates_bounded.

(** C18: false, because a conclusive sign test aborts when there are target cells. *)
Theorem C18_target_cells_refuted : exists g sign ccell cfacet T order, usable_grid g /\ map_order order /\ Forall (cell_id g) T /\
  build_domain g sign ccell cfacet (Some T) order = Abort.
Proof. exact C18_refuted_lemma. Qed.
Print Assumptions C18_target_cells_refuted.
(** If every sign test made is inconclusive it completes; when it completes, targets (and only they) are
    classified, as in the unrestricted domain.  Missing: the cases of a conclusive sign test. *)
Theorem C18_target_cells_partial : forall g sign ccell cfacet T order, usable_grid g -> map_order order -> Forall (cell_id g) T ->
  (build_domain g sign ccell cfacet (Some T) order = Abort /\ exists k b, sign k b <> Sund) \/
  exists D s, build_domain g sign ccell cfacet (Some T) order = Ret (D, s) /\ forall id, cell_id g id ->
    exists st, is_full_cell D id = Ret (cstatus_eqb st Cfull) /\ is_empty_cell D id = Ret (cstatus_eqb st Cempty) /\
      is_cut_cell D id = Ret (cstatus_eqb st Ccut) /\
      (In id T -> cell_result g sign ccell cfacet id by_cell st (fm_find (d_fm D) id)) /\
      (~ In id T -> st = Cunknown /\ fm_find (d_fm D) id = None).
Proof. exact C18_lemma. Qed.
Print Assumptions C18_target_cells_partial.

(** C19: false for every leaf; get_status() only works on inner nodes. *)
Theorem C19_leaf_status_refuted : forall r st t, set_status (Leaf r Cunknown) st = Ret t -> get_status t = Abort.
Proof. exact C19_lemma. Qed.
Print Assumptions C19_leaf_status_refuted.
Example C19_nonvacuous : exists t, set_status (Leaf (mk_range [0;0] [2;3]) Cunknown) Cfull = Ret t.
Proof. eexists. reflexivity. Qed.
(** What does work: the status stored in a leaf is the one find_leaf/is_cell report (part of C14). *)
Theorem C19_leaf_status_partial : forall g r st t id, set_status (Leaf r Cunknown) st = Ret t -> in_range_flat r id (num_cells_dir g) = Ret true ->
  find_leaf g t id = Ret st.
Proof. exact C19_partial_lemma. Qed.
Print Assumptions C19_leaf_status_partial.

(** C20 *)
Theorem C20_facet_lists_agree : forall g sign ccell cfacet D s, built g sign ccell cfacet D s ->
  list_agrees g (get_empty_facets D) (is_empty_facet D) /\ list_agrees g (get_full_facets D) (is_full_facet D) /\
  list_agrees g (get_cut_facets D) (is_cut_facet D) /\ list_agrees g (get_full_unfitted_facets D) (is_full_unfitted_facet D) /\
  list_agrees g (get_unfitted_facets D) (has_unfitted_boundary D).
Proof. exact C20_body. Qed.
Print Assumptions C20_facet_lists_agree.

(** C21 *)
Theorem C21_target_facet_lists : forall g sign ccell cfacet D s, built g sign ccell cfacet D s ->
  forall q cells facets,
  In q [is_full_facet D; is_empty_facet D; is_cut_facet D; is_full_unfitted_facet D; has_unfitted_boundary D] ->
  length cells = length facets -> Forall (cell_id g) cells -> Forall (facet_id g) facets ->
  exists l, get_facets_target q cells facets = Ret l /\
    l = filter (fun p => match q (fst p) (snd p) with Ret true => true | _ => false end) (combine cells facets).
Proof. exact C21_body. Qed.
Print Assumptions C21_target_facet_lists.

(** C22 *)
Theorem C22_facet_kinds_refuted : exists g sign ccell cfacet D s id f, built g sign ccell cfacet D s /\ cell_id g id /\ facet_id g f /\
  is_full_facet D id f = Ret false /\ is_empty_facet D id f = Ret false /\ is_cut_facet D id f = Ret false /\ is_full_unfitted_facet D id f = Ret false.
Proof. exact C22_refuted_lemma. Qed.
Print Assumptions C22_facet_kinds_refuted.
(** At most one holds; none holds only for facets stored with a status that is just a piece of unfitted boundary. *)
Theorem C22_facet_kinds_partial : forall g sign ccell cfacet D s, built g sign ccell cfacet D s ->
  forall id f, cell_id g id -> facet_id g f ->
  exists a b c d u e, is_full_facet D id f = Ret a /\ is_empty_facet D id f = Ret b /\ is_cut_facet D id f = Ret c /\
    is_full_unfitted_facet D id f = Ret d /\ has_unfitted_boundary D id f = Ret u /\ has_external_boundary D id f = Ret e /\
    ((if a then 1 else 0) + (if b then 1 else 0) + (if c then 1 else 0) + (if d then 1 else 0) <= 1) /\
    ((if a then 1 else 0) + (if b then 1 else 0) + (if c then 1 else 0) + (if d then 1 else 0) = 0 <->
        exists v, fm_find (d_fm D) id = Some v /\ (nth (Z.to_nat f) v Ffull = Funf \/ nth (Z.to_nat f) v Ffull = Funf_ext)).
Proof. exact C22_body. Qed.
Print Assumptions C22_facet_kinds_partial.

(** C23 *)
Theorem C23_unfitted_boundary_cells : forall g sign ccell cfacet D s, built g sign ccell cfacet D s ->
  forall id, cell_id g id ->
  exists cu, is_cell_with_unf_bdry D id = Ret cu /\
   (is_full_with_unf_bdry_cell D id = true <-> is_full_cell D id = Ret true /\ exists f, facet_id g f /\ is_full_facet D id f = Ret false) /\
   (cu = true <-> is_cut_cell D id = Ret true \/ is_full_with_unf_bdry_cell D id = true) /\
   (cu = true -> is_empty_cell D id = Ret false).
Proof. exact C23_body. Qed.
Print Assumptions C23_unfitted_boundary_cells.
