(** Properties C24, C25, C73: classification of cells and facets from sample points, facet and edge numbering. *)
From Verif Require Import M_Classify S_Classify L_Classify.
From Coq Require Import Lra.
Open Scope R_scope.

(** C24, facets of cut cells and of full cells touching the unfitted boundary. *)
Theorem C24_facet_from_samples : forall phi grad dom facet cell q,
  length (bmax dom) = length (bmin dom) ->
  (0 <= facet < Z.of_nat (length (bmin dom)) * 2)%Z -> (cell = Tcut \/ cell = Tfull_unf) ->
  let dir := Z.to_nat (facet / 2) in let side := Z.to_nat (facet mod 2) in
  let off := some_off phi q in let outw := some_outward phi grad dir side q in let inw := some_inward phi grad dir side q in
  let cov := covers q (fold_right Rmult 1 (remove_component dir (map2 Rminus (bmax dom) (bmin dom)))) in
  exists st, classify_facet phi grad dom facet cell q = Ret st /\
    (q = [] -> st = match cell with Tfull_unf => Ffull_unf | _ => Fempty end) /\
    (q <> [] -> cell = Tfull_unf -> ~ off -> st = Ffull_unf) /\
    (q <> [] -> cell = Tcut \/ off ->
       (st_is_cut st = true <-> off /\ (outw \/ inw \/ ~ cov)) /\
       (st = Ffull <-> off /\ ~ outw /\ ~ inw /\ cov) /\
       (st_has_unf st = true <-> outw) /\ (st_has_ext st = true <-> inw) /\
       (st = Ffull_unf <-> ~ off /\ outw /\ ~ inw /\ cov /\ length q = 1%nat) /\
       (st = Ffull_ext <-> ~ off /\ ~ outw /\ inw /\ cov /\ length q = 1%nat)).
Proof. exact C24_lemma. Qed.
Print Assumptions C24_facet_from_samples.

Example C24_nonvacuous : exists (dom : bbox) (facet : Z) (cell : tmpstatus) (q : rule),
  length (bmax dom) = length (bmin dom) /\ (0 <= facet < Z.of_nat (length (bmin dom)) * 2)%Z /\ (cell = Tcut \/ cell = Tfull_unf) /\
  some_off (fun x => nth 0 x 0 - 1) q /\ length q = 2%nat.
Proof.
  exists {| bmin := [0; 0]; bmax := [1; 1] |}, 1%Z, Tcut, [([1; /2], /2); ([0; /2], /2)].
  repeat split; try (cbn; lia); auto. exists [0; /2], (/2). split; [cbn; auto|].
  pose proof eps_small. cbn. rewrite Rabs_left; lra.
Qed.

(** C24, cells. *)
Theorem C24_cell_from_samples : forall q dom,
  let vol := fold_right (fun nw a => snd nw + a) 0 q in
  (classify_cell_from_quad q dom = Tempty <-> Rabs vol <= default_tol) /\
  (classify_cell_from_quad q dom = Tfull_unf <-> default_tol < Rabs vol /\ Rabs (vol - box_volume dom) <= default_tol) /\
  (classify_cell_from_quad q dom = Tcut <-> default_tol < Rabs vol /\ default_tol < Rabs (vol - box_volume dom)) /\
  classify_cell_from_quad q dom <> Tfull.
Proof. exact C24_cell_lemma. Qed.
Print Assumptions C24_cell_from_samples.

(** C25 *)
Theorem C25_facet_ids : forall dim,
  (forall f, (0 <= f < dim * 2)%Z -> exists d s, facet_const_dir dim f = Ret d /\ facet_side dim f = Ret s /\
      (0 <= d < dim)%Z /\ (s = 0 \/ s = 1)%Z /\ local_facet_id dim d s = Ret f) /\
  (forall d s, (0 <= d < dim)%Z -> (s = 0 \/ s = 1)%Z -> exists f, local_facet_id dim d s = Ret f /\ (0 <= f < dim * 2)%Z /\
      facet_const_dir dim f = Ret d /\ facet_side dim f = Ret s).
Proof. exact C25_lemma. Qed.
Print Assumptions C25_facet_ids.

Theorem C25_edge_ids :
  (forall e, (0 <= e < 12)%Z -> exists d1 d2 s1 s2, edge_const_dirs3 e = Ret (d1, d2) /\ edge_sides3 e = Ret (s1, s2) /\
      (0 <= d1 < d2)%Z /\ (d2 < 3)%Z /\ (s1 = 0 \/ s1 = 1)%Z /\ (s2 = 0 \/ s2 = 1)%Z) /\
  (forall d1 d2 s1 s2, (0 <= d1 < d2)%Z -> (d2 < 3)%Z -> (s1 = 0 \/ s1 = 1)%Z -> (s2 = 0 \/ s2 = 1)%Z ->
      exists e, (0 <= e < 12)%Z /\ (forall e', (0 <= e' < 12)%Z -> (edge_const_dirs3 e' = Ret (d1, d2) /\ edge_sides3 e' = Ret (s1, s2) <-> e' = e))).
Proof. exact C25_edges_lemma. Qed.
Print Assumptions C25_edge_ids.

(** C73: full statement: for every cell of positive volume, samples that cover the cell make it full. *)
Theorem C73_full_cell_refuted : exists q dom, Forall (fun nw => 0 < snd nw) q /\ 0 < box_volume dom /\
  fold_right (fun nw a => snd nw + a) 0 q = box_volume dom /\ classify_cell_from_quad q dom = Tempty.
Proof. exact C73_refuted_lemma. Qed.
Print Assumptions C73_full_cell_refuted.

(** What is true: cells of volume above twice the (absolute) tolerance. *)
Theorem C73_full_cell_partial : forall q dom, let vol := fold_right (fun nw a => snd nw + a) 0 q in
  2 * default_tol < box_volume dom ->
  (vol = box_volume dom -> classify_cell_from_quad q dom = Tfull_unf) /\
  (vol = 0 -> classify_cell_from_quad q dom = Tempty) /\
  (default_tol < vol < box_volume dom - default_tol -> classify_cell_from_quad q dom = Tcut).
Proof. exact C73_partial_lemma. Qed.
Print Assumptions C73_full_cell_partial.

Example C73_nonvacuous : 2 * default_tol < box_volume {| bmin := [0; 0]; bmax := [1; 1] |}.
Proof. pose proof eps_small. cbn. lra. Qed.
