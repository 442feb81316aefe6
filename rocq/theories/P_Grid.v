(** Properties C08-C12: Cartesian grids. *)
From Verif Require Import M_Real M_BBox M_Grid S_Grid L_Grid.
From Coq Require Import Sorting.Sorted Lra.
Open Scope R_scope.

(** C08 *)
Theorem C08_cells_tile_domain : forall brks g, brks <> [] -> make_grid brks = Ret g -> (num_cells g <= INT_MAX)%Z ->
  (forall f, (0 <= f < num_cells g)%Z -> exists lo hi, get_cell_domain g f = Ret (mk_box lo hi) /\
      positive_box lo hi /\ box_within lo hi (bmin (gdomain g)) (bmax (gdomain g))) /\
  (forall p, in_closed (bmin (gdomain g)) (bmax (gdomain g)) p ->
      exists f lo hi, (0 <= f < num_cells g)%Z /\ get_cell_domain g f = Ret (mk_box lo hi) /\ in_closed lo hi p) /\
  (forall f f' lo hi lo' hi' p, (0 <= f < num_cells g)%Z -> (0 <= f' < num_cells g)%Z -> f <> f' ->
      get_cell_domain g f = Ret (mk_box lo hi) -> get_cell_domain g f' = Ret (mk_box lo' hi') ->
      ~ (in_open lo hi p /\ in_open lo' hi' p)).
Proof. exact C08_lemma. Qed.
Print Assumptions C08_cells_tile_domain.

Example C08_nonvacuous : exists g, make_grid demo_breaks = Ret g /\ num_cells g = 2%Z /\
  bmin (gdomain g) = [0;0] /\ bmax (gdomain g) = [2;1] /\
  get_cell_domain g 0 = Ret (mk_box [0;0] [1;1]) /\ get_cell_domain g 1 = Ret (mk_box [1;0] [2;1]).
Proof. exact demo_grid_ex. Qed.

(** C09 (for every tolerance >= 0, also larger than the spans). *)
Theorem C09_get_cell_id_locates : forall brks g p tol, brks <> [] -> make_grid brks = Ret g -> (num_cells g <= INT_MAX)%Z ->
  0 <= tol -> in_closed (bmin (gdomain g)) (bmax (gdomain g)) p ->
  exists f lo hi, get_cell_id g p tol = Ret f /\ (0 <= f < num_cells g)%Z /\
    get_cell_domain g f = Ret (mk_box lo hi) /\ in_enlarged tol lo hi p.
Proof. exact C09_lemma. Qed.
Print Assumptions C09_get_cell_id_locates.

(** C10: what the code does is the opposite of what is documented: the highest id is returned. *)
Theorem C10_lowest_neighbour_refuted : exists brks g p f f' lo hi, brks <> [] /\ make_grid brks = Ret g /\
  in_closed (bmin (gdomain g)) (bmax (gdomain g)) p /\ get_cell_id g p 0 = Ret f /\
  (0 <= f' < f)%Z /\ get_cell_domain g f' = Ret (mk_box lo hi) /\ in_closed lo hi p.
Proof. exact C10_refuted_lemma. Qed.
Print Assumptions C10_lowest_neighbour_refuted.

Theorem C10_highest_neighbour_partial : forall brks g p, brks <> [] -> make_grid brks = Ret g -> (num_cells g <= INT_MAX)%Z ->
  in_closed (bmin (gdomain g)) (bmax (gdomain g)) p ->
  exists f, get_cell_id g p 0 = Ret f /\
    (exists lo hi, get_cell_domain g f = Ret (mk_box lo hi) /\ in_closed lo hi p) /\
    (forall f' lo hi, (0 <= f' < num_cells g)%Z -> get_cell_domain g f' = Ret (mk_box lo hi) -> in_closed lo hi p -> (f' <= f)%Z).
Proof. exact C10_lemma. Qed.
Print Assumptions C10_highest_neighbour_partial.

(** C11 *)
Theorem C11_boundary_cells : forall brks g facet fuel, brks <> [] -> make_grid brks = Ret g -> (num_cells g <= INT_MAX)%Z ->
  (0 <= facet < 2 * Z.of_nat (length brks))%Z -> (Z.to_nat (num_cells g) <= fuel)%nat ->
  (exists l, get_boundary_cells fuel g facet = Ret l /\ StronglySorted Z.lt l /\
     forall id, In id l <-> (0 <= id < num_cells g)%Z /\ on_boundary g id facet = Ret true) /\
  (forall id, (0 <= id < num_cells g)%Z ->
     exists b lo hi, on_boundary g id facet = Ret b /\ get_cell_domain g id = Ret (mk_box lo hi) /\
       (b = true <-> if (facet mod 2 =? 0)%Z
                     then nth (Z.to_nat (facet / 2)) lo 0 = nth (Z.to_nat (facet / 2)) (bmin (gdomain g)) 0
                     else nth (Z.to_nat (facet / 2)) hi 0 = nth (Z.to_nat (facet / 2)) (bmax (gdomain g)) 0)).
Proof. exact C11_lemma. Qed.
Print Assumptions C11_boundary_cells.

(** C12 *)
Theorem C12_equispaced_breaks : forall dom ns, ns <> [] -> positive_box (bmin dom) (bmax dom) -> length ns = length (bmin dom) ->
  (forall d, (d < length ns)%nat -> (1 <= nth d ns 0)%nat) ->
  exists g, make_equispaced_grid dom ns = Ret g /\ length (breaks g) = length ns /\
    gdomain g = dom /\
    forall d, (d < length ns)%nat -> let b := nth d (breaks g) [] in let n := nth d ns O in
      length b = S n /\ nth 0 b 0 = nth d (bmin dom) 0 /\ nth n b 0 = nth d (bmax dom) 0 /\
      forall i, (i < n)%nat -> nth (S i) b 0 - nth i b 0 = (nth d (bmax dom) 0 - nth d (bmin dom) 0) / INR n /\
         nth i b 0 < nth (S i) b 0.
Proof. exact C12_lemma. Qed.
Print Assumptions C12_equispaced_breaks.

Example C12_nonvacuous : let dom := mk_box [0;-1] [2;1] in let ns := [3;2]%nat in
  ns <> [] /\ positive_box (bmin dom) (bmax dom) /\ length ns = length (bmin dom) /\
  (forall d, (d < length ns)%nat -> (1 <= nth d ns 0)%nat).
Proof.
  cbn. split; [discriminate|]. split; [|split; [auto|]].
  - split; auto. intros [|[|d]] Hd; simpl in *; try lra; lia.
  - intros [|[|d]] Hd; simpl in *; lia.
Qed.
