(** Model of cpp/qugar/impl_reparam_general.cpp: the reparameterization of {phi < 0}, of {phi = 0} and of a facet in a box by dimension
    reduction (class ImplicitGeneralReparam<dim, range, R, S, T>).  Doubles are real numbers.  Objects are represented as follows: [dim] is a
    parameter; the references reparam_ to the objects of higher dimension form a list (nearest first), so T (last object) is the empty list;
    the members ref_intervals_ of those objects are a parallel list; the calls made on the mesh and on the map cells_indices_map_ are emitted as
    a list of events, in order, replayed by [run_events] (nothing reads the mesh in between).  ref_intervals_points_, dead after being written, is left out.
    The thread_local buffers are cleared before each use and belong to one template instance each: local values here. *)
From Verif Require Export M_Base M_Real M_BBox M_Tolerance M_Point M_TensorNat M_Roots M_Mesh M_Classify M_Orient.
Close Scope Z_scope.
Close Scope nat_scope.
Open Scope R_scope.

(** algoim::PsiCode<range>: a side (0 lower, otherwise upper) in every direction and a sign. *)
Record psi_code := mk_psi { ps_side : list nat; ps_sign : Z }.
(** What is called and not modelled: the level set function, its evaluation in interval arithmetic on a box restricted by a PsiCode in the directions that are not free
    (value: alpha and uniformSign(); gradient component: alpha, maxDeviation(), uniformSign()), algoim::detail::determineSigns<S> and rootFind, std::sort,
    algoim's modifiedChebyshevNode, the content of a default-constructed PsiCode and of a default-constructed (uninitialised) vector. *)
Record oracles := mk_oracles {
  o_phi : list R -> R;
  o_value : list bool -> bbox -> psi_code -> R * bool;
  o_grad : list bool -> bbox -> psi_code -> nat -> R * R * bool;
  o_signs : bool -> bool -> Z -> Z * Z;
  o_root_find : list R -> nat -> R -> R -> bool -> list R;
  o_sort : list (R * Z) -> list (R * Z);
  o_cheb : nat -> nat -> R;
  o_psi : psi_code;
  o_point : list R }.
(** impl_reparam_general.cpp 80-97: the data members; l_dim is the template argument dim, l_S the template argument S. *)
Record obj := mk_obj { l_dim : nat; l_S : bool; l_free : list bool; l_psi : list psi_code; l_count : nat; l_box : bbox; l_dir : nat }.
(** impl_utils.hpp 108-120: RootsIntervals with its point and the activity of the intervals. *)
Record intervals := mk_iv { iv_ri : roots_intervals; iv_point : list R; iv_active : list bool }.
(** std::unordered_map<TensorIndexTP<range>, ...>: find, emplace (which keeps an existing entry). *)
Definition tid_eqb (a b : list nat) : bool := if list_eq_dec Nat.eq_dec a b then true else false.
Fixpoint find_tid {A} (m : list (list nat * A)) (t : list nat) : option A :=
  match m with [] => None | (u, a) :: m' => if tid_eqb u t then Some a else find_tid m' t end.
Definition emplace {A} (m : list (list nat * A)) (t : list nat) (a : A) : list (list nat * A) :=
  match find_tid m t with Some _ => m | None => (t, a) :: m end.
Notation refmap := (list (list nat * intervals)).

(** HyperRectangle::min(d), max(d), extent(d), midpoint(d), side(s)(d). *)
Definition lo (b : bbox) (d : nat) : R := nth d (bmin b) 0.
Definition hi (b : bbox) (d : nat) : R := nth d (bmax b) 0.
Definition extent (b : bbox) (d : nat) : R := hi b d - lo b d.
Definition midpoint (b : bbox) (d : nat) : R := / 2 * (lo b d + hi b d).
Definition side_of (b : bbox) (s d : nat) : R := if (s =? 0)%nat then lo b d else hi b d.
(** vector access psi_(i): out of the array is undefined. *)
Definition psi_at (psi : list psi_code) (i : nat) : outcome psi_code := match nth_error psi i with Some p => Ret p | None => UB end.
(** Sequential loop with an accumulator. *)
Fixpoint foldM {A B} (f : A -> B -> outcome A) (l : list B) (a : A) : outcome A :=
  match l with [] => Ret a | x :: l' => a' <- f a x ;; foldM f l' a' end.
Fixpoint foreach {B E} (f : B -> outcome (list E)) (l : list B) : outcome (list E) :=
  match l with [] => Ret [] | x :: l' => e <- f x ;; es <- foreach f l' ;; Ret (e ++ es) end.

(** impl_reparam_general.cpp 154-159: compute_tolerance (the default tolerance, tolerance.cpp 28-30, updated: the largest of the two). *)
Definition compute_tolerance (l : obj) : R := tol_update default_tol (default_tol * extent (l_box l) (l_dir l)).
(** impl_reparam_general.cpp 166-174: set_psi_bounds, for the restriction p. *)
Definition restrict (free : list bool) (box : bbox) (p : psi_code) (pt : list R) : list R :=
  map3 (fun d (f : bool) x => if f then x else side_of box (nth d (ps_side p) 0%nat) d) (seq 0 (length pt)) free pt.
Definition set_psi_bounds (l : obj) (p : psi_code) (pt : list R) : list R := restrict (l_free l) (l_box l) p pt.
(** impl_reparam_general.cpp 184-200: compute_roots. *)
Definition compute_roots (O : oracles) (l : obj) (pt : list R) (psi_id : nat) : outcome (list R) :=
  p <- psi_at (l_psi l) psi_id ;;
  Ret (o_root_find O (set_psi_bounds l p pt) (l_dir l) (lo (l_box l) (l_dir l)) (hi (l_box l) (l_dir l)) (1 <? l_dim l)%nat).
(** impl_reparam_general.cpp 212-228: check_active_interval; the point is passed by reference: its new value is returned too. *)
Fixpoint signs_okay (O : oracles) (l : obj) (n i : nat) (pt : list R) : outcome (bool * list R) :=
  match n with
  | 0%nat => Ret (true, pt)
  | S n' => p <- psi_at (l_psi l) i ;;
      let pt' := set_psi_bounds l p pt in
      let okay := if Rltb 0 (o_phi O pt') then (0 <=? ps_sign p)%Z else (ps_sign p <=? 0)%Z in
      if okay then signs_okay O l n' (S i) pt' else Ret (false, pt')
  end.
Definition check_active_interval (O : oracles) (l : obj) (pt : list R) (x0 x1 : R) : outcome (bool * list R) :=
  if tol_equal (compute_tolerance l) x1 x0 then Ret (false, pt)
  else signs_okay O l (l_count l) 0 (set_at pt (l_dir l) (/ 2 * (x0 + x1))).
(** impl_reparam_general.cpp 235-270: compute_all_intervals. *)
Fixpoint active_loop (O : oracles) (l : obj) (roots : list R) (pt : list R) : outcome (list bool) :=
  match roots with
  | x0 :: ((x1 :: _) as roots') =>
      b <- check_active_interval O l pt x0 x1 ;; r <- active_loop O l roots' (snd b) ;; Ret (fst b :: r)
  | _ => Ret []
  end.
Definition compute_all_intervals (O : oracles) (l : obj) (pt : list R) : outcome intervals :=
  let x0 := lo (l_box l) (l_dir l) in let x1 := hi (l_box l) (l_dir l) in
  ri0 <- add_roots ri_empty [(x0, (-1)%Z); (x1, (-1)%Z)] ;;
  ri1 <- foldM (fun ri i => roots <- compute_roots O l pt i ;; add_roots ri (map (fun r => (r, Z.of_nat i)) roots)) (seq 0 (l_count l)) ri0 ;;
  ri <- adjust_roots (o_sort O) (compute_tolerance l) x0 x1 ri1 ;;
  if l_S l then Ret (mk_iv ri pt [])
  else assert_ (1 <? length (ri_roots ri))%nat (act <- active_loop O l (ri_roots ri) pt ;; Ret (mk_iv ri pt act)).
(** impl_reparam_general.cpp 142-149: clear_ref_intervals of an object and the ones above. *)
Definition clear_refs (refs : list refmap) : list refmap := map (fun _ => []) refs.
(** impl_reparam_general.cpp 277-310: compute_ref_intervals of the first object of the list.  In the loop point and cell_tid are overwritten in the component
    dir_k_ only, at every iteration. *)
Fixpoint compute_ref_intervals (O : oracles) (lvs : list obj) (refs : list refmap) (pt : list R) (tid : list nat) : outcome (list refmap) :=
  match lvs, refs with
  | l :: up, r :: rup =>
      let rup0 := if (l_dim l =? 1)%nat then clear_refs rup else rup in
      iv <- compute_all_intervals O l pt ;;
      rup1 <- foldM (fun rs i =>
                a <- M_Mesh.at_ (iv_active iv) i ;;
                if a : bool then
                  x0 <- M_Mesh.at_ (ri_roots (iv_ri iv)) i ;; x1 <- M_Mesh.at_ (ri_roots (iv_ri iv)) (S i) ;;
                  compute_ref_intervals O up rs (set_at pt (l_dir l) (/ 2 * (x0 + x1))) (set_at tid (l_dir l) i)
                else Ret rs) (seq 0 (length (iv_active iv))) rup0 ;;
      Ret (emplace r tid iv :: rup1)
  | _, _ => Ret refs
  end.
(** impl_reparam_general.cpp 422-498: compute_similar_roots.  std::sort of the roots is [rsort]; the loop of lines 456-463 tries the tolerances tol, 10 tol, 100 tol,
    1000 tol until one of the ends is a root. *)
Fixpoint end_roots (n : nat) (tol v0 v1 : R) : bool * bool :=
  match n with
  | 0%nat => (false, false)
  | S n' => let r := (is_zero tol v0, is_zero tol v1) in
            if (fst r || snd r)%bool then r else match n' with 0%nat => r | _ => end_roots n' (tol * 10) v0 v1 end
  end.
Definition compute_similar_roots (O : oracles) (l : obj) (ref : intervals) (psi_id : nat) (pt : list R) : outcome (list R) :=
  ref_roots <- get_ref_intervals_roots (iv_ri ref) (Z.of_nat psi_id) ;;
  match ref_roots with
  | [] => Ret []
  | front :: _ =>
    roots0 <- compute_roots O l pt psi_id ;;
    let tol := compute_tolerance l in
    let x0 := lo (l_box l) (l_dir l) in let x1 := hi (l_box l) (l_dir l) in
    let roots := filter (fun r => negb (tol_equal tol r x0 || tol_equal tol r x1)) roots0 in
    let n_ref := length ref_roots in let n := length roots in
    if (n =? n_ref)%nat then Ret roots
    else if (n_ref <? n)%nat then Ret ref_roots
    else
      p <- psi_at (l_psi l) psi_id ;;
      let pt' := set_psi_bounds l p pt in
      let e := end_roots 4 tol (o_phi O (set_at pt' (l_dir l) x0)) (o_phi O (set_at pt' (l_dir l) x1)) in
      let new :=
        if xorb (fst e) (snd e) then roots ++ repeat (if fst e then x0 else x1) (n_ref - n)
        else if (fst e && snd e)%bool then
          if (n + 2 =? n_ref)%nat then roots ++ [x0; x1]
          else if (n + 1 =? n_ref)%nat then
            let sign := Rltb 0 (o_phi O (set_at (set_psi_bounds l p (iv_point ref)) (l_dir l) (/ 2 * (x0 + front)))) in
            let sorted := rsort roots in
            let xmid := match sorted with [] => x1 | r :: _ => r end in
            let new_sign := Rltb 0 (o_phi O (set_at pt' (l_dir l) (/ 2 * (x0 + xmid)))) in
            sorted ++ [if Bool.eqb sign new_sign then x1 else x0]
          else roots
        else roots in
      if (length new =? n_ref)%nat then Ret new else Ret ref_roots
  end.
(** impl_reparam_general.cpp 512-548: compute_similar_intervals. *)
Definition compute_similar_intervals (O : oracles) (l : obj) (ref : intervals) (pt : list R) : outcome intervals :=
  if (length (ri_roots (iv_ri ref)) =? 2)%nat then (if l_S l then Ret (mk_iv ri_empty pt []) else Ret ref)
  else
    let x0 := lo (l_box l) (l_dir l) in let x1 := hi (l_box l) (l_dir l) in
    ri0 <- foldM (fun ri i => roots <- compute_similar_roots O l ref i pt ;; add_roots ri (map (fun r => (r, Z.of_nat i)) roots)) (seq 0 (l_count l)) ri_empty ;;
    ri1 <- (if l_S l then Ret ri0
            else ri <- add_roots ri0 [(x0, (-1)%Z); (x1, (-1)%Z)] ;;
                 assert_ (length (ri_roots ri) =? length (ri_roots (iv_ri ref)))%nat (Ret ri)) ;;
    ri <- adjust_roots (o_sort O) (compute_tolerance l) x0 x1 ri1 ;;
    Ret (mk_iv ri pt (if l_S l then [] else iv_active ref)).
(** impl_reparam_general.cpp 559-569: compute_intervals (unordered_map::at throws for a missing key). *)
Definition compute_intervals (O : oracles) (l : obj) (r : refmap) (pt : list R) (tid : list nat) : outcome intervals :=
  match find_tid r tid with
  | None => Abort
  | Some ref => if (l_dim l =? 1)%nat then Ret ref else compute_similar_intervals O l ref pt
  end.

(** What is done on the mesh and on the map of the cells of the object T: insert_point_reparam(point, cell_tid, pt_tid); the map is cleared, or a new object T, with an
    empty map, is built; add_full_cell. *)
Inductive event := Insert (tid ptid : list nat) (pt : list R) | Clear | Full (box : bbox).

(** The last and the first direction that is not free (impl_reparam_general.cpp 617-622 and 340-352); none: remove_component(-1), assert. *)
Definition fixed_dirs (free : list bool) : list nat := filter (fun d => negb (nth d free true)) (seq 0 (length free)).
(** impl_reparam_general.cpp 589-645: process of the first object of the list, after the computation of the reference intervals.  In the loops point, cell_tid and
    pt_tid are overwritten in the component dir_k_ only (and in the fixed direction, with the same value, for a face). *)
Fixpoint process (O : oracles) (range order : nat) (lvs : list obj) (refs : list refmap) (pt : list R) (tid ptid : list nat) : outcome (list event) :=
  match lvs, refs with
  | l :: up, r :: rup =>
      iv <- compute_intervals O l r pt tid ;;
      let roots := ri_roots (iv_ri iv) in
      if l_S l then Ret (map (fun root => Insert (set_at tid (l_dir l) 0%nat) (remove_component (l_dir l) ptid) (set_at pt (l_dir l) root)) roots)
      else
        foreach (fun i =>
          a <- M_Mesh.at_ (iv_active iv) i ;;
          if a : bool then
            x0 <- M_Mesh.at_ roots i ;; x1 <- M_Mesh.at_ roots (S i) ;;
            foreach (fun j =>
              let pt' := set_at pt (l_dir l) (x0 + (x1 - x0) * node01 (o_cheb O) order j) in
              let tid' := set_at tid (l_dir l) i in
              let ptid' := set_at ptid (l_dir l) j in
              match up with
              | [] => if (l_dim l <? range)%nat then
                        match rev (fixed_dirs (l_free l)) with
                        | [] => UB
                        | fix_dir :: _ => p <- psi_at (l_psi l) 0 ;; Ret [Insert tid' (remove_component fix_dir ptid') (set_psi_bounds l p pt')]
                        end
                      else Ret [Insert tid' ptid' pt']
              | _ => process O range order up rup pt' tid' ptid'
              end) (seq 0 order)
          else Ret []) (seq 0 (length (iv_active iv)))
  | _, _ => Ret []
  end.
(** The local coordinates [sub], put one after the other in the directions where [sel] holds; the other entries are those of [def]. *)
Fixpoint scatter {A B} (f : nat -> A -> B) (d : nat) (sel : list bool) (sub : list A) (def : list B) : list B :=
  match sel, def with
  | true :: sel', b :: def' => match sub with a :: sub' => f d a :: scatter f (S d) sel' sub' def' | [] => b :: scatter f (S d) sel' [] def' end
  | false :: sel', b :: def' => b :: scatter f (S d) sel' sub def'
  | _, _ => []
  end.
(** impl_reparam_general.cpp 312-315, 571-579: interpolate_coord, generate_point_in_01 (M_Mesh.node01). *)
Definition interpolate_coord (O : oracles) (order : nat) (box : bbox) (d ind : nat) : R := lo box d + extent box d * node01 (o_cheb O) order ind.
(** impl_reparam_general.cpp 340-368: tensor_product_reparam_full. *)
Definition full_events (O : oracles) (dim range order : nat) (free : list bool) (psi : list psi_code) (box : bbox) : outcome (list event) :=
  if (dim =? range)%nat then Ret [Full box]
  else match fixed_dirs free with
       | [] => Abort
       | fix_dir :: _ =>
           p <- psi_at psi 0 ;;
           let base := set_at (o_point O) fix_dir (side_of box (nth fix_dir (ps_side p) 0%nat) fix_dir) in
           let others := map (fun d => negb (d =? fix_dir)%nat) (seq 0 range) in
           Ret (map (fun ptid => Insert (tp_const range 0) ptid (scatter (interpolate_coord O order box) 0 others ptid base)) (tp_all (tp_const dim order)))
       end.
(** impl_reparam_general.cpp 371-392: tensor_product_reparam_base. *)
Definition base_events (O : oracles) (dim range order : nat) (free : list bool) (box : bbox) (up : list obj) (refs : list refmap) : outcome (list event * list refmap) :=
  let x := map3 (fun d (f : bool) u => if f then midpoint box d else u) (seq 0 range) free (o_point O) in
  refs' <- compute_ref_intervals O up (clear_refs refs) x (tp_const range 0) ;;
  evs <- foreach (fun sub => process O range order up refs' (scatter (interpolate_coord O order box) 0 free sub (o_point O)) (tp_const range 0)
                               (scatter (fun _ i => i) 0 free sub (tp_const range 0))) (tp_all (tp_const dim order)) ;;
  Ret (evs, refs').
Definition whole (O : oracles) (dim range order : nat) (free : list bool) (psi : list psi_code) (box : bbox) (up : list obj) (refs : list refmap)
    : outcome (list event * list refmap) :=
  match up with
  | [] => evs <- full_events O dim range order free psi box ;; Ret (evs, refs)
  | _ => base_events O dim range order free box up refs
  end.
(** impl_reparam_general.cpp 709-726: the height direction (-1: None). *)
Definition height_step (O : oracles) (free : list bool) (box : bbox) (p : psi_code) (acc : R * option nat) (d : nat) : R * option nat :=
  let g := o_grad O free box p d in
  if (nth d free false && Rltb (1001 / 1000 * snd (fst g)) (Rabs (fst (fst g))))%bool then
    let quan := Rabs (fst (fst g)) * extent box d in
    if Rltb (fst acc) quan then (quan, Some d) else acc
  else acc.
Definition height_direction (O : oracles) (range : nat) (free : list bool) (box : bbox) (p : psi_code) : option nat :=
  snd (fold_left (height_step O free box p) (seq 0 range) (0, None)).
(** impl_reparam_general.cpp 730-812: the loop over the functions; None: the direction is not okay for one of them. *)
Fixpoint reduce_loop (O : oracles) (S : bool) (free : list bool) (psi : list psi_code) (box : bbox) (dir : option nat) (n i : nat) (new : list psi_code) (count : nat)
    : outcome (option (nat * list psi_code * nat)) :=
  match n with
  | 0%nat => match dir with None => Abort | Some k => Ret (Some (k, new, count)) end
  | Datatypes.S n' =>
      p <- psi_at psi i ;;
      match dir with
      | None => Ret None
      | Some k =>
          if snd (o_grad O free box p k) then
            p0 <- psi_at psi 0 ;;
            let s := o_signs O S (Rltb 0 (fst (fst (o_grad O free box p0 k)))) (ps_sign p) in
            if (count + 1 <? length new)%nat then
              reduce_loop O S free psi box dir n' (Datatypes.S i)
                (set_at (set_at new count (mk_psi (set_at (ps_side p) k 0%nat) (fst s))) (count + 1) (mk_psi (set_at (ps_side p) k 1%nat) (snd s))) (count + 2)
            else UB
          else Ret None
      end
  end.
(** impl_reparam_general.cpp 746-758: the direction of the largest free extent (-1: None). *)
Definition split_direction (range : nat) (free : list bool) (box : bbox) : option nat :=
  snd (fold_left (fun acc d => if (nth d free false && Rltb (fst acc) (extent box d))%bool then (extent box d, Some d) else acc) (seq 0 range) (0, None)).
(** impl_reparam_general.cpp 783-793: the check at the centre; it reads psi_(j) for every j < n_facets, not only j < psi_count_. *)
Fixpoint halt_okay (O : oracles) (free : list bool) (box : bbox) (psi : list psi_code) (n j : nat) (pt : list R) : outcome bool :=
  match n with
  | 0%nat => Ret true
  | S n' => p <- psi_at psi j ;;
      let pt' := restrict free box p pt in
      if (if Rleb 0 (o_phi O pt') then (0 <=? ps_sign p)%Z else (ps_sign p <=? 0)%Z) then halt_okay O free box psi n' (S j) pt' else Ret false
  end.
Definition n_facets (range : nat) : nat := 2 ^ (range - 1).
(** impl_reparam_general.cpp 72: n_max_subdivs. *)
Definition n_max_subdivs : nat := 16.
(** impl_reparam_general.cpp 651-823: the constructor, for an object of dimension [dim]; [k] is n_max_subdivs - level.  Returns the events and the reference
    intervals of the objects above. *)
Fixpoint construct (O : oracles) (range order dim : nat) {struct dim} : nat -> bool -> list obj -> list refmap -> list bool -> list psi_code -> nat -> bbox
    -> outcome (list event * list refmap) :=
  match dim with
  | 0%nat => fun _ _ _ refs _ _ _ _ => Ret ([], refs)
  | Datatypes.S dim' =>
    fix subdiv (k : nat) (S : bool) (up : list obj) (refs : list refmap) (free : list bool) (psi : list psi_code) (count : nat) (box : bbox) {struct k}
      : outcome (list event * list refmap) :=
      let start := match up with [] => [Clear] | _ => [] end in
      match dim' with
      | 0%nat =>
        (* lines 663-671 *)
        match rev (filter (fun d => nth d free false) (seq 0 range)) with
        | [] => UB
        | dir :: _ =>
          let self := mk_obj 1 S free psi count box dir in
          refs' <- compute_ref_intervals O (self :: up) ([] :: refs) (repeat 0 range) (tp_const range 0) ;;
          evs <- process O range order (self :: up) refs' (repeat 0 range) (tp_const range 0) (tp_const range 0) ;;
          Ret (start ++ evs, tl refs')
        end
      | _ =>
        pr <- prune (fun p => snd (o_value O free box p)) (fun p => fst (o_value O free box p)) ps_sign psi count ;;
        let '(ok, psi, count) := pr in
        if negb ok then Ret (start, refs)
        else if (count =? 0)%nat then
          if S then Ret (start, refs)
          else er <- whole O dim range order free psi box up refs ;; Ret (start ++ fst er, snd er)
        else
          p0 <- psi_at psi 0 ;;
          red <- reduce_loop O S free psi box (height_direction O range free box p0) count 0 (repeat (o_psi O) (n_facets range)) 0 ;;
          match red with
          | None =>
            match k with
            | Datatypes.S k' =>
              match split_direction range free box with
              | None => Abort
              | Some ind =>
                let mid := midpoint box ind in
                a <- subdiv k' S up refs free psi count (mk_box (bmin box) (set_at (bmax box) ind mid)) ;;
                b <- subdiv k' S up (snd a) free psi count (mk_box (set_at (bmin box) ind mid) (bmax box)) ;;
                Ret (start ++ fst a ++ [Clear] ++ fst b, snd b)
              end
            | 0%nat =>
              okay <- halt_okay O free box psi (n_facets range) 0 (map (midpoint box) (seq 0 range)) ;;
              if okay : bool then
                if S then assert_ (dim =? range)%nat (Ret (start, refs))
                else er <- whole O dim range order free psi box up refs ;; Ret (start ++ fst er, snd er)
              else Ret (start, refs)
            end
          | Some (dir, new_psi, new_count) =>
            let self := mk_obj dim S free psi count box dir in
            er <- construct O range order dim' n_max_subdivs false (self :: up) ([] :: refs) (set_at free dir false) new_psi new_count box ;;
            Ret (start ++ fst er, tl (snd er))
          end
      end
  end.

(** impl_reparam_general.cpp 317-337 (insert_point_reparam), 128-138 (clear), 346: one event on the mesh and the map of its cells; [mdim] is the dimension of the mesh. *)
Definition run_event (cheb : nat -> nat -> R) (mdim : nat) (st : mesh * list (list nat * nat)) (e : event) : outcome (mesh * list (list nat * nat)) :=
  match e with
  | Clear => Ret (fst st, [])
  | Full box => m <- add_full_cell cheb mdim (fst st) box false ;; Ret (m, snd st)
  | Insert tid ptid pt =>
      let '(m, map, cell) := match find_tid (snd st) tid with
                             | Some c => (fst st, snd st, c)
                             | None => let a := allocate_cells mdim (fst st) 1 in (fst a, emplace (snd st) tid (snd a), snd a)
                             end in
      m' <- insert_cell_point mdim m pt cell (tp_flat (tp_const (length ptid) (m_order m)) ptid) ;; Ret (m', map)
  end.
Definition run_events (cheb : nat -> nat -> R) (mdim : nat) (m : mesh) (evs : list event) : outcome mesh :=
  st <- foldM (run_event cheb mdim) evs (m, []) ;; Ret (fst st).

(** impl_reparam_general.cpp 849-864: reparameterize up to the construction of impl; S: only the level set. *)
Definition reparam_cells (O : oracles) (range : nat) (S : bool) (m : mesh) (domain : bbox) : outcome mesh :=
  let psi := set_at (repeat (o_psi O) (n_facets range)) 0 (mk_psi (tp_const range 0) (-1)) in
  er <- construct O range (m_order m) range n_max_subdivs S [] [] (repeat true range) psi 1 domain ;;
  run_events (o_cheb O) (if S then range - 1 else range) m (fst er).
(** impl_reparam_general.cpp 887-905: reparameterize_facet up to the construction of impl. *)
Definition reparam_facet_cells (O : oracles) (range : nat) (facet : Z) (m : mesh) (domain : bbox) : outcome mesh :=
  dir <- facet_const_dir (Z.of_nat range) facet ;;
  side <- facet_side (Z.of_nat range) facet ;;
  let d := Z.to_nat dir in
  let psi := set_at (repeat (o_psi O) (n_facets range)) 0 (mk_psi (set_at (tp_const range 0) d (Z.to_nat side)) (-1)) in
  er <- construct O range (m_order m) (range - 1) n_max_subdivs false [] [] (set_at (repeat true range) d false) psi 1 domain ;;
  run_events (o_cheb O) (range - 1) m (fst er).
