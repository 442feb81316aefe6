(** Model of cpp/qugar/unfitted_domain_binary_part.cpp, cpp/qugar/unfitted_domain.cpp and of the
    construction part of cpp/qugar/impl_unfitted_domain.cpp. *)
From Verif Require Export M_Real M_BBox M_Grid.
Open Scope Z_scope.

(** include/qugar/unfitted_domain_binary_part.hpp 34-39 *)
Inductive cstatus := Ccut | Cfull | Cempty | Cunknown.
(** include/qugar/unfitted_domain.hpp 36-48 *)
Inductive fstatus := Fcut | Ffull | Fempty | Fcut_unf | Fcut_ext | Fcut_unf_ext | Ffull_unf | Ffull_ext
                   | Funf | Fext | Funf_ext.
(** include/qugar/domain_function.hpp 33 *)
Inductive fsign := Sneg | Spos | Sund.
(** impl_unfitted_domain.cpp 59-64 *)
Inductive tmpstatus := Tcut | Tfull | Tempty | Tfull_unf.

Definition cstatus_eqb (a b : cstatus) : bool :=
  match a, b with Ccut, Ccut | Cfull, Cfull | Cempty, Cempty | Cunknown, Cunknown => true | _, _ => false end.
Definition is_Ffull (s : fstatus) : bool := match s with Ffull => true | _ => false end.

(** UnfittedBinarySpacePart (binary_part.cpp 33-43): a node has a subgrid (range), a status and either two
    children or none.  Inner nodes always have status unknown ([branch] asserts it, [set_status] asserts a leaf),
    so only leaves carry a status here. *)
Inductive tree := Leaf (r : range) (st : cstatus) | Branch (r : range) (l rr : tree).
Definition tree_range (t : tree) : range := match t with Leaf r _ => r | Branch r _ _ => r end.

(** binary_part.cpp 50-60: set_status (leaf and unknown hold for a fresh node). *)
Definition set_status (t : tree) (st : cstatus) : outcome tree :=
  match t with
  | Leaf r Cunknown =>
      match st with
      | Ccut => assert_ (sub_is_unique r) (Ret (Leaf r st))
      | _ => Ret (Leaf r st)
      end
  | _ => Abort
  end.
(** binary_part.cpp 63-67: get_status asserts that the node HAS both children. *)
Definition get_status (t : tree) : outcome cstatus :=
  match t with Leaf _ _ => Abort | Branch _ _ _ => Ret Cunknown end.
(** binary_part.cpp 91-101: branch. *)
Definition branch (t : tree) : outcome tree :=
  match t with
  | Leaf r Cunknown =>
      assert_ (negb (sub_is_unique r)) (
      p <- sub_split r ;; Ret (Branch r (Leaf (fst p) Cunknown) (Leaf (snd p) Cunknown)))
  | _ => Abort
  end.
(** binary_part.cpp 103-107: is_in_tree. *)
Definition is_in_tree (g : grid) (t : tree) (cell_id : Z) : outcome bool :=
  in_range_flat (tree_range t) cell_id (num_cells_dir g).
(** binary_part.cpp 109-122: find_leaf; returns the status of the leaf found. *)
Fixpoint find_leaf (g : grid) (t : tree) (cell_id : Z) : outcome cstatus :=
  here <- is_in_tree g t cell_id ;;
  assert_ here (
  match t with
  | Leaf _ st => Ret st
  | Branch _ l rr => b <- is_in_tree g l cell_id ;; if b : bool then find_leaf g l cell_id else find_leaf g rr cell_id
  end).
(** binary_part.cpp 125-138, 238-246: leaves with a given status, children in order. *)
Fixpoint leaves (st : cstatus) (t : tree) : list range :=
  match t with
  | Leaf r s => if cstatus_eqb s st then [r] else []
  | Branch _ l rr => leaves st l ++ leaves st rr
  end.

(** std::ranges::sort on integers. *)
Fixpoint zinsert (x : Z) (l : list Z) : list Z :=
  match l with [] => [x] | y :: l' => if x <=? y then x :: y :: l' else y :: zinsert x l' end.
Fixpoint zsort (l : list Z) : list Z := match l with [] => [] | x :: l' => zinsert x (zsort l') end.

(** The loop 179-181 over one leaf: iteration ends after size() steps (C03), which is used as fuel. *)
Definition leaf_ids (g : grid) (r : range) : outcome (list Z) :=
  ts <- iterate (Z.to_nat (range_size r)) r ;; mapM (fun t => to_flat t (num_cells_dir g)) ts.
Fixpoint concatM {A B} (f : A -> outcome (list B)) (l : list A) : outcome (list B) :=
  match l with [] => Ret [] | a :: l' => x <- f a ;; y <- concatM f l' ;; Ret (x ++ y) end.
(** binary_part.cpp 168-187: get_cell_ids(status). *)
Definition tree_cell_ids (g : grid) (t : tree) (st : cstatus) : outcome (list Z) :=
  ids <- concatM (leaf_ids g) (leaves st t) ;; Ret (zsort ids).
(** binary_part.cpp 189-211: get_cell_ids(status, targets). *)
Fixpoint filterM {A} (f : A -> outcome bool) (l : list A) : outcome (list A) :=
  match l with
  | [] => Ret []
  | a :: l' => b <- f a ;; r <- filterM f l' ;; Ret (if b : bool then a :: r else r)
  end.
Definition tree_is_cell (g : grid) (t : tree) (st : cstatus) (id : Z) : outcome bool :=
  s <- find_leaf g t id ;; Ret (cstatus_eqb s st).            (* binary_part.cpp 230-236: is_cell *)
Definition tree_cell_ids_target (g : grid) (t : tree) (st : cstatus) (targets : list Z) : outcome (list Z) :=
  ids <- filterM (fun id => b <- is_in_tree g t id ;; assert_ b (tree_is_cell g t st id)) targets ;; Ret (zsort ids).
(** binary_part.cpp 140-154, 214-221: get_num_cells. *)
Fixpoint tree_num_cells (t : tree) (st : cstatus) : Z :=
  match t with
  | Leaf r s => if cstatus_eqb s st then range_size r else 0
  | Branch _ l rr => tree_num_cells l st + tree_num_cells rr st
  end.
(** binary_part.cpp 223-228: get_num_leaves. *)
Fixpoint tree_num_leaves (t : tree) (st : cstatus) : Z :=
  match t with
  | Leaf r s => if cstatus_eqb s st then 1 else 0
  | Branch _ l rr => tree_num_leaves l st + tree_num_leaves rr st
  end.

(** ** Construction (impl_unfitted_domain.cpp) *)
(** facets_status_ : unordered_map from cell id to its facets' statuses; [emplace] keeps an existing entry. *)
Definition fmap := list (Z * list fstatus).
Definition fm_contains (m : fmap) (k : Z) : bool := existsb (fun e => fst e =? k) m.
Fixpoint fm_find (m : fmap) (k : Z) : option (list fstatus) :=
  match m with [] => None | e :: m' => if fst e =? k then Some (snd e) else fm_find m' k end.
Definition fm_emplace (k : Z) (v : list fstatus) (m : fmap) : fmap := if fm_contains m k then m else m ++ [(k, v)].

(** State of the construction: the map, the number of sign tests so far, and the list of cells that were
    classified individually (the last two are ghost: they record calls to the oracles). *)
Record cstate := mk_cstate { cs_fm : fmap; cs_signs : nat; cs_classified : list Z }.

(** include/qugar/numbers.hpp 56: machine epsilon of double, 2^-52. *)
Definition eps : R := (/ 2 ^ 52)%R.

Section Build.
Context (g : grid).
(** Oracles: the sign test (may answer differently at every call: first argument = number of the call),
    the classification of a cell box and of one facet of a (single cell) subgrid. *)
Context (sign : nat -> bbox -> fsign) (ccell : bbox -> tmpstatus) (cfacet : range -> nat -> tmpstatus -> fstatus).
Context (targets : option (list Z)).

(** impl_unfitted_domain.cpp 77-109: intersect. *)
Fixpoint anyM {A} (f : A -> outcome bool) (l : list A) : outcome bool :=
  match l with [] => Ret false | a :: l' => b <- f a ;; if b : bool then Ret true else anyM f l' end.
Definition intersect (r : range) : outcome bool :=
  match targets with
  | None => Ret true
  | Some l => anyM (fun id => in_range_flat r id (num_cells_dir g)) l
  end.
(** impl_unfitted_domain.cpp 121-133: insert_cells. *)
Definition insert_cells (t : tree) (s : fsign) : outcome tree :=
  assert_ (match targets with None => true | Some _ => false end)
    (set_status t (match s with Spos => Cempty | _ => Cfull end)).
(** impl_unfitted_domain.cpp 472-483: transform_cell_status. *)
Definition transform_status (s : tmpstatus) : cstatus :=
  match s with Tcut => Ccut | Tfull | Tfull_unf => Cfull | Tempty => Cempty end.
(** impl_unfitted_domain.cpp 485-513: classify_undetermined_sign_cell. *)
Definition n_facets : nat := 2 * length (breaks g).
Definition classify_undetermined (t : tree) (s : cstate) : outcome (tree * cstate) :=
  let r := tree_range t in
  assert_ (sub_is_unique r) (
  dom <- sub_domain g r ;;
  id <- sub_single_cell g r ;;
  let cell := ccell dom in
  let s1 := mk_cstate (cs_fm s) (cs_signs s) (cs_classified s ++ [id]) in
  match cell with
  | Tcut | Tfull_unf =>
      let facets := map (fun f => cfacet r f cell) (seq 0 n_facets) in
      let all_full := forallb is_Ffull facets in
      if (match cell with Tfull_unf => true | _ => false end) && all_full then
        t' <- set_status t (transform_status Tfull) ;; Ret (t', s1)
      else
        t' <- set_status t (transform_status cell) ;;
        Ret (t', mk_cstate (fm_emplace id facets (cs_fm s1)) (cs_signs s1) (cs_classified s1))
  | _ => t' <- set_status t (transform_status cell) ;; Ret (t', s1)
  end).
(** impl_unfitted_domain.cpp 443-469: create_decomposition.  [t] is a fresh leaf; the result is the updated node. *)
Fixpoint create_decomposition (fuel : nat) (t : tree) (s : cstate) : outcome (tree * cstate) :=
  match fuel with
  | O => OutOfFuel
  | S fuel' =>
      let r := tree_range t in
      hit <- intersect r ;;
      if negb hit then Ret (t, s) else
      dom <- sub_domain g r ;;
      ext <- box_extend dom (eps * 1000) ;;
      let sg := sign (cs_signs s) ext in
      let s1 := mk_cstate (cs_fm s) (S (cs_signs s)) (cs_classified s) in
      match sg with
      | Sund =>
          if sub_is_unique r then classify_undetermined t s1
          else
            t' <- branch t ;;
            match t' with
            | Branch r' l rr =>
                a <- create_decomposition fuel' l s1 ;;
                b <- create_decomposition fuel' rr (snd a) ;;
                Ret (Branch r' (fst a) (fst b), snd b)
            | Leaf _ _ => Abort
            end
      | _ => t' <- insert_cells t sg ;; Ret (t', s1)
      end
  end.
(** impl_unfitted_domain.cpp 415-439: the constructors (before init_full_cells_with_unf_bdry).  The number of
    cells is enough fuel, because every branching makes the ranges smaller. *)
Definition build : outcome (tree * cstate) :=
  r <- full_sub g ;;
  create_decomposition (Z.to_nat (range_size r)) (Leaf r Cunknown) (mk_cstate [] 0 []).
End Build.

(** ** UnfittedDomain and its queries (unfitted_domain.cpp) *)
Record domain := mk_domain { d_grid : grid; d_tree : tree; d_fm : fmap; d_full_unf : list Z }.

(** unfitted_domain.cpp 60-73 *)
Definition get_num_cells (D : domain) (st : cstatus) : Z := tree_num_cells (d_tree D) st.
(** unfitted_domain.cpp 82-95 *)
Definition get_cells (D : domain) (st : cstatus) : outcome (list Z) := tree_cell_ids (d_grid D) (d_tree D) st.
(** unfitted_domain.cpp 98-117 *)
Definition get_cells_target (D : domain) (st : cstatus) (targets : list Z) : outcome (list Z) :=
  tree_cell_ids_target (d_grid D) (d_tree D) st targets.
(** unfitted_domain.cpp 354-357, 364-367 *)
Definition is_full_cell (D : domain) (id : Z) : outcome bool := tree_is_cell (d_grid D) (d_tree D) Cfull id.
Definition is_empty_cell (D : domain) (id : Z) : outcome bool := tree_is_cell (d_grid D) (d_tree D) Cempty id.
(** unfitted_domain.cpp 369-372 ([&&] short-circuits). *)
Definition is_cut_cell (D : domain) (id : Z) : outcome bool :=
  if fm_contains (d_fm D) id then tree_is_cell (d_grid D) (d_tree D) Ccut id else Ret false.
(** unfitted_domain.cpp 359-362; std::ranges::binary_search on a sorted vector = membership. *)
Definition mem_z (l : list Z) (x : Z) : bool := existsb (Z.eqb x) l.
Definition is_full_with_unf_bdry_cell (D : domain) (id : Z) : bool :=
  fm_contains (d_fm D) id && mem_z (d_full_unf D) id.
(** unfitted_domain.cpp 423-426 *)
Definition is_cell_with_unf_bdry (D : domain) (id : Z) : outcome bool :=
  b <- is_cut_cell D id ;; Ret (b || is_full_with_unf_bdry_cell D id).

(** unfitted_domain.cpp 455-516: predicates on facet statuses. *)
Definition st_is_full (s : fstatus) : bool := match s with Ffull => true | _ => false end.
Definition st_is_empty (s : fstatus) : bool := match s with Fempty | Ffull_ext | Fext => true | _ => false end.
Definition st_is_cut (s : fstatus) : bool :=
  match s with Fcut | Fcut_unf | Fcut_ext | Fcut_unf_ext => true | _ => false end.
Definition st_is_full_unf (s : fstatus) : bool := match s with Ffull_unf => true | _ => false end.
Definition st_has_unf (s : fstatus) : bool :=
  match s with Fcut_unf | Fcut_unf_ext | Ffull_unf | Funf | Funf_ext => true | _ => false end.
Definition st_has_ext (s : fstatus) : bool :=
  match s with Fcut_ext | Fcut_unf_ext | Ffull_ext | Fext | Funf_ext => true | _ => false end.

Definition nf (D : domain) : nat := 2 * length (breaks (d_grid D)).
(** The common shape of the facet queries (unfitted_domain.cpp 375-453). *)
Definition facet_query (D : domain) (p : fstatus -> bool) (fallback : outcome bool) (id : Z) (facet : Z) : outcome bool :=
  assert_ ((0 <=? facet) && (facet <? Z.of_nat (nf D))) (
  match fm_find (d_fm D) id with
  | Some facets => s <- at_ facets facet ;; Ret (p s)
  | None => fallback
  end).
(** unfitted_domain.cpp 375-384 *)
Definition is_full_facet (D : domain) (id facet : Z) := facet_query D st_is_full (is_full_cell D id) id facet.
(** unfitted_domain.cpp 387-396 *)
Definition is_empty_facet (D : domain) (id facet : Z) := facet_query D st_is_empty (is_empty_cell D id) id facet.
(** unfitted_domain.cpp 399-408 *)
Definition is_cut_facet (D : domain) (id facet : Z) := facet_query D st_is_cut (Ret false) id facet.
(** unfitted_domain.cpp 410-421 *)
Definition is_full_unfitted_facet (D : domain) (id facet : Z) := facet_query D st_is_full_unf (Ret false) id facet.
(** unfitted_domain.cpp 428-439 *)
Definition has_unfitted_boundary (D : domain) (id facet : Z) := facet_query D st_has_unf (Ret false) id facet.
(** unfitted_domain.cpp 441-453 *)
Definition has_external_boundary (D : domain) (id facet : Z) := facet_query D st_has_ext (Ret false) id facet.
(** unfitted_domain.cpp 48-53 *)
Definition is_exterior_facet (D : domain) (id facet : Z) : outcome bool := on_boundary (d_grid D) id facet.

(** Loops over the map (unfitted_domain.cpp 140-147, 160-168, 195-202, 216-223, 238-245). *)
Definition map_facets (D : domain) (p : fstatus -> bool) : outcome (list (Z * Z)) :=
  concatM (fun e => fs <- filterM (fun f => s <- at_ (snd e) (Z.of_nat f) ;; Ret (p s)) (seq 0 (nf D)) ;;
                    Ret (map (fun f => (fst e, Z.of_nat f)) fs)) (d_fm D).
Definition all_facets_of (D : domain) (id : Z) : list (Z * Z) := map (fun f => (id, Z.of_nat f)) (seq 0 (nf D)).
(** unfitted_domain.cpp 119-148 *)
Definition get_empty_facets (D : domain) : outcome (list (Z * Z)) :=
  cs <- get_cells D Cempty ;;
  m <- map_facets D st_is_empty ;;
  Ret (flat_map (all_facets_of D) cs ++ m).
(** unfitted_domain.cpp 150-183 *)
Definition get_full_facets (D : domain) : outcome (list (Z * Z)) :=
  m <- map_facets D st_is_full ;;
  cs <- get_cells D Cfull ;;
  Ret (m ++ flat_map (fun id => if fm_contains (d_fm D) id then [] else all_facets_of D id) cs).
(** unfitted_domain.cpp 185-203, 205-224, 227-246 *)
Definition get_cut_facets (D : domain) := map_facets D st_is_cut.
Definition get_full_unfitted_facets (D : domain) := map_facets D st_is_full_unf.
Definition get_unfitted_facets (D : domain) := map_facets D st_has_unf.
(** unfitted_domain.cpp 248-275: get_facets_target, for the five overloads 277-351. *)
Definition get_facets_target (query : Z -> Z -> outcome bool) (cells facets : list Z) : outcome (list (Z * Z)) :=
  assert_ (Nat.eqb (length cells) (length facets))
    (filterM (fun p => query (fst p) (snd p)) (combine cells facets)).
(** unfitted_domain.cpp 75-80 *)
Definition has_facets_with_unf_bdry (D : domain) : bool := existsb (fun e => existsb st_has_unf (snd e)) (d_fm D).

(** unfitted_domain.cpp 518-543: init_full_cells_with_unf_bdry; the size_t subtraction cannot wrap when every
    cut cell has an entry (proved), so Z is used. The vector is empty before the call. *)
Definition init_full_unf (g : grid) (t : tree) (m : fmap) : outcome (list Z) :=
  if (Z.of_nat (length m) - tree_num_cells t Ccut =? 0) then Ret [] else
  cut <- tree_cell_ids g t Ccut ;;
  Ret (zsort (filter (fun k => negb (mem_z cut k)) (map fst m))).

(** The whole constructor (impl_unfitted_domain.cpp 415-439).  [order] is the iteration order of the
    unordered_map: any function that permutes its entries. *)
Definition build_domain (g : grid) sign ccell cfacet targets (order : fmap -> fmap) : outcome (domain * cstate) :=
  ts <- build g sign ccell cfacet targets ;;
  let m := order (cs_fm (snd ts)) in
  fu <- init_full_unf g (fst ts) m ;;
  Ret (mk_domain g (fst ts) m fu, snd ts).
