(** Model of the orientation of cells, cpp/qugar/impl_reparam_mesh.cpp. *)
From Verif Require Export M_Mesh M_Lagrange M_Classify.
Close Scope Z_scope.
Close Scope nat_scope.
Open Scope R_scope.

(** at(Jacobian, r)(c) *)
Definition ent (J : list (list R)) (r c : nat) : R := nth c (nth r J []) 0.
(** impl_reparam_mesh.cpp 47-62: compute_determinant. *)
Definition compute_determinant (dim : nat) (J : list (list R)) : R :=
  match dim with
  | 3%nat => (ent J 0 0 * (ent J 1 1 * ent J 2 2 - ent J 1 2 * ent J 2 1) + ent J 0 1 * (ent J 1 2 * ent J 2 0 - ent J 1 0 * ent J 2 2) + ent J 0 2 * (ent J 1 0 * ent J 2 1 - ent J 1 1 * ent J 2 0))
  | _ => (ent J 0 0 * ent J 1 1 - ent J 0 1 * ent J 1 0)
  end.
(** impl_reparam_mesh.cpp 64-69: cross_product. *)
Definition cross_product (l r : list R) : list R :=
  [nth 1 l 0 * nth 2 r 0 - nth 2 l 0 * nth 1 r 0; nth 2 l 0 * nth 0 r 0 - nth 0 l 0 * nth 2 r 0; nth 0 l 0 * nth 1 r 0 - nth 1 l 0 * nth 0 r 0].
(** impl_reparam_mesh.cpp 201-210, 252-262: [v += point * weights[i]] for every point of the cell, starting from the value [init] of a
    default-constructed Point (algoim::uvector does not initialise its entries). *)
Definition accumulate (weights : list R) (pts : list (list R)) (init : list R) : list R :=
  fold_left (fun v i => map2 Rplus v (map (fun x => x * nth i weights 0) (nth i pts []))) (seq 0 (length pts)) init.
(** impl_reparam_mesh.cpp 195-204, 245-255: the points of a cell.  [at] checks the point ids. *)
Definition cell_points (dim : nat) (m : mesh) (cell : nat) : outcome (list (list R)) :=
  M_Mesh.mapM (fun i => id <- M_Mesh.at_ (m_conn m) (cell * pts_per_cell dim m + i)%nat ;; M_Mesh.at_ (m_points m) id) (seq 0 (pts_per_cell dim m)).
(** impl_reparam_mesh.cpp 193-215, 243-280: the loop over the cells; [decide k pts] is the test made on the k-th visited cell.  Cell ids are
    natural numbers: negative ones, rejected by the same assertion, are not represented. *)
Fixpoint orient_loop (dim : nat) (decide : nat -> list (list R) -> bool) (k : nat) (ids : list nat) (m : mesh) : outcome mesh :=
  match ids with
  | [] => Ret m
  | cell :: ids' =>
      nc <- M_Mesh.num_cells dim m ;;
      assert_ (cell <? nc)%nat (
      pts <- cell_points dim m cell ;;
      m' <- (if decide k pts then permute_cell_directions dim m cell else Ret m) ;;
      orient_loop dim decide (S k) ids' m')
  end.
(** impl_reparam_mesh.cpp 180-216: orient_cells_positively(cell_ids), for dim = range = 2, 3.  [fresh k dir] is the indeterminate content of
    the default-constructed row [dir] of the Jacobian of the k-th visited cell. *)
Definition orient_cells_positively (cheb : nat -> nat -> R) (fresh : nat -> nat -> list R) (dim : nat) (m : mesh) (cell_ids : list nat) : outcome mesh :=
  ders <- lagrange_derivative cheb (repeat (1/2) dim) (tp_const dim (m_order m)) false ;;
  orient_loop dim (fun k pts =>
      Rltb (compute_determinant dim (map (fun dir => accumulate (nth dir ders []) pts (fresh k dir)) (seq 0 dim))) 0) 0 cell_ids m.
(** impl_reparam_mesh.cpp 218-226: orient_cells_positively(). *)
Definition orient_all_cells_positively (cheb : nat -> nat -> R) (fresh : nat -> nat -> list R) (dim : nat) (m : mesh) : outcome mesh :=
  nc <- M_Mesh.num_cells dim m ;; orient_cells_positively cheb fresh dim m (seq 0 nc).

(** algoim::dot. *)
Definition dot_v (a b : list R) : R := fold_left Rplus (map2 Rmult a b) 0.
(** [v /= norm(v)]: vec_norm in M_Classify; a zero vector gives NaN entries in the code and zeros here: with both no comparison holds. *)
Definition normalize (v : list R) : list R := map (fun x => x / vec_norm v) v.
(** impl_reparam_mesh.cpp 264-270: the normal of the cell, for dim 2 (range 3) and dim 1 (range 2). *)
Definition cell_normal (dim : nat) (J : list (list R)) : list R :=
  match dim with
  | 2%nat => cross_product (nth 0 J []) (nth 1 J [])
  | _ => [nth 1 (nth 0 J []) 0; - nth 0 (nth 0 J []) 0]
  end.
(** impl_reparam_mesh.cpp 228-281: orient_levelset_cells_positively(cell_ids, outer_normal_computer), dim = 1, 2. *)
Definition orient_levelset_with (cheb : nat -> nat -> R) (fresh : nat -> nat -> list R) (dim : nat) (m : mesh) (cell_ids : list nat)
    (outer_normal : list R -> list R) : outcome mesh :=
  let mid := repeat (1/2) dim in let order := tp_const dim (m_order m) in
  basis <- lagrange_basis cheb mid order false ;;
  ders <- lagrange_derivative cheb mid order false ;;
  orient_loop dim (fun k pts =>
      let J := map (fun dir => accumulate (nth dir ders []) pts (fresh k dir)) (seq 0 dim) in
      let eval_point := accumulate basis pts (fresh k dim) in
      Rltb (dot_v (normalize (cell_normal dim J)) (outer_normal eval_point)) 0) 0 cell_ids m.
(** std::ranges::min_element on the values: the first smallest one. *)
Fixpoint min_element {A} (value : A -> R) (best : A) (l : list A) : A :=
  match l with [] => best | a :: l' => min_element value (if Rltb (value a) (value best) then a else best) l' end.
(** impl_reparam_mesh.cpp 283-303: orient_levelset_cells_positively(impl_funcs, cell_ids).  A function is given by its value and its gradient; no function:
    the end iterator is dereferenced. *)
Definition orient_levelset (cheb : nat -> nat -> R) (fresh : nat -> nat -> list R) (dim : nat) (m : mesh)
    (funcs : list ((list R -> R) * (list R -> list R))) (cell_ids : list nat) : outcome mesh :=
  match funcs with
  | [] => match cell_ids with [] => orient_levelset_with cheb fresh dim m cell_ids (fun p => p) | _ => UB end
  | f :: fs => orient_levelset_with cheb fresh dim m cell_ids (fun p => normalize (snd (min_element (fun g => fst g p) f fs) p))
  end.
(** impl_reparam_mesh.cpp 316-341: orient_facet_cells_positively(local_facet_id, cell_ids). *)
Definition orient_facet (cheb : nat -> nat -> R) (fresh : nat -> nat -> list R) (dim : nat) (m : mesh) (facet : Z) (cell_ids : list nat) : outcome mesh :=
  let range := S dim in
  assert_ ((0 <=? facet)%Z && (facet <? 2 * Z.of_nat range)%Z)%bool (
  dir <- facet_const_dir (Z.of_nat range) facet ;;
  side <- facet_side (Z.of_nat range) facet ;;
  let normal := set_at (repeat 0 range) (Z.to_nat dir) (if (side =? 0)%Z then -1 else 1) in
  orient_levelset_with cheb fresh dim m cell_ids (fun _ => normal)).
