(** Model of cpp/qugar/impl_reparam_bezier.cpp: the reparameterization of the region where a Bezier polynomial is negative, or of its zero level set, in a box
    (class ImplicitPolyReparam<dim, range, S>).  Doubles are real numbers; polynomials are defined on the unit box, with the directions in the opposite order (Algoim's).
    [lev] is the template argument S.  The object of dimension dim and its parents form a list, lowest first; the members ref_intervals_ are a parallel list; the calls made
    on the mesh and on cells_indices_map_ are emitted as events, in order, replayed by M_General.run_events.  The thread_local buffers are cleared before each use and belong
    to one template instance each: local values here.  base_other_ is built and never used: only the failures of its construction are kept. *)
From Verif Require Export M_Base M_Real M_BBox M_Tolerance M_Point M_TensorNat M_Roots M_Mesh M_Classify M_Orient M_General M_Reparam.
Close Scope Z_scope.
Close Scope nat_scope.
Open Scope R_scope.

(** What is called and not modelled (Algoim, std::sort): for a polynomial and its mask, lineIntersectsMask, the roots in [0,1] of the restriction to a line
    (collapseAlongAxis, bernsteinUnitIntervalRealRoots), pointWithinMask, evalBernsteinPoly, whether nonzeroMask(p, true) is empty; for a set of polynomials of a dimension, the
    direction of the best score (score_estimate and lines 157-165; none: the assertion of line 158 fails), has_disc and eliminate_axis; modifiedChebyshevNode. *)
Record bz_oracles (P : Type) := mk_bz {
  z_line : P -> list R -> nat -> bool;
  z_roots : P -> list R -> nat -> list R;
  z_mask : P -> list R -> bool;
  z_eval : P -> list R -> R;
  z_empty : P -> bool;
  z_choose : nat -> list P -> option nat;
  z_disc : list P -> nat -> bool;
  z_elim : list P -> nat -> list P;
  z_sort : list (R * Z) -> list (R * Z);
  z_cheb : nat -> nat -> R }.
Arguments z_line {P}. Arguments z_roots {P}. Arguments z_mask {P}. Arguments z_eval {P}. Arguments z_empty {P}.
Arguments z_choose {P}. Arguments z_disc {P}. Arguments z_elim {P}. Arguments z_sort {P}. Arguments z_cheb {P}.

(** algoim's add_component(v, k, x), for points and tensor indices. *)
Definition ins_at {A} (v : list A) (k : nat) (x : A) : list A := firstn k v ++ x :: skipn k v.
(** impl_reparam_bezier.cpp 87-109: the members phi_ and dir_k_ of an object of dimension v_dim, and v_base, the member dir_k_ of its base_. *)
Record blevel (P : Type) := mk_bl { v_dim : nat; v_phi : list P; v_dir : nat; v_base : nat }.
Arguments mk_bl {P}. Arguments v_dim {P}. Arguments v_phi {P}. Arguments v_dir {P}. Arguments v_base {P}.

Section Bezier.
Context {P : Type}.
Variable Z : bz_oracles P.

(** impl_reparam_bezier.cpp 139-195: build.  Returns dir_k_, the dimension of the object with no polynomial at the bottom of the recursion (0: there is none, the recursion ends
    in dimension one) and the other objects, lowest first. *)
Fixpoint bz_build (outer : bool) (dim : nat) (phi : list P) : outcome (nat * nat * list (blevel P)) :=
  match phi, dim with
  | [], _ => Ret (dim, dim, [])
  | _, 0%nat => Ret (0%nat, 0%nat, [])
  | _, 1%nat => Ret (0%nat, 0%nat, [mk_bl 1 phi 0 0])
  | _, S dim' =>
      match z_choose Z dim phi with
      | None => Abort
      | Some k =>
          b <- bz_build false dim' (z_elim Z phi k) ;;
          _ <- (if (outer && z_disc Z phi k)%bool
                then foreach (fun i => _ <- bz_build false dim' (z_elim Z phi i) ;; Ret (@nil unit)) (filter (fun i => negb (i =? k)%nat) (seq 0 dim))
                else Ret []) ;;
          Ret (k, snd (fst b), snd b ++ [mk_bl dim phi k (fst (fst b))])
      end
  end.

(** impl_reparam_bezier.cpp 216-251: compute_roots. *)
Definition bz_roots (l : blevel P) (p : P) (pt : list R) : list R :=
  if z_line Z p pt (v_dir l) then filter (fun r => z_mask Z p (ins_at pt (v_dir l) r)) (z_roots Z p pt (v_dir l)) else [].
(** impl_reparam_bezier.cpp 258-267: check_point_inside. *)
Definition point_inside (l : blevel P) (x : list R) : bool := forallb (fun p => negb (Rltb 0 (z_eval Z p x))) (v_phi l).
(** The polynomials with their ids. *)
Definition indexed (l : blevel P) : list (nat * P) := combine (seq 0 (length (v_phi l))) (v_phi l).
(** impl_reparam_bezier.cpp 274-310: compute_all_intervals; an interval is active if its ends differ. *)
Fixpoint wide (roots : list R) : list bool :=
  match roots with
  | x0 :: ((x1 :: _) as roots') => negb (tol_equal default_tol x0 x1) :: wide roots'
  | _ => []
  end.
Definition all_intervals (l : blevel P) (pt : list R) : outcome intervals :=
  ri0 <- add_roots ri_empty [(0, (-1)%Z); (1, (-1)%Z)] ;;
  ri1 <- foldM (fun ri ip => add_roots ri (map (fun r => (r, Z.of_nat (fst ip))) (bz_roots l (snd ip) pt))) (indexed l) ri0 ;;
  ri <- adjust_roots (z_sort Z) default_tol 0 1 ri1 ;;
  assert_ (1 <? length (ri_roots ri))%nat (Ret (mk_iv ri pt (wide (ri_roots ri)))).
(** impl_reparam_bezier.cpp 317-338: check_all_ref_intervals_inactive of the first object of the list (unordered_map::at throws for a missing key). *)
Fixpoint all_inactive (lvs : list (blevel P)) (refs : list refmap) (tid : list nat) : outcome bool :=
  match lvs, refs with
  | l :: up, r :: rup =>
      match find_tid r tid with
      | None => Abort
      | Some iv =>
          foldM (fun (acc : bool) i =>
            if acc then
              a <- M_Mesh.at_ (iv_active iv) i ;;
              if a : bool then match up with [] => Ret false | _ => all_inactive up rup (ins_at tid (v_dir l) i) end else Ret true
            else Ret false) (seq 0 (length (iv_active iv))) true
      end
  | _, _ => Ret true
  end.
(** impl_reparam_bezier.cpp 374-380: an interval of the level set ends at a change of activity. *)
Fixpoint changes (act : list bool) : list bool :=
  match act with
  | a :: ((b :: _) as act') => negb (Bool.eqb a b) :: changes act'
  | _ => map (fun _ => false) act
  end.
(** impl_reparam_bezier.cpp 345-383: compute_ref_intervals of the first object of the list. *)
Fixpoint ref_intervals (lev : bool) (lvs : list (blevel P)) (refs : list refmap) (pt : list R) (tid : list nat) : outcome (list refmap) :=
  match lvs, refs with
  | l :: up, r :: rup =>
      let rup0 := if (v_dim l =? 1)%nat then clear_refs rup else rup in
      iv <- all_intervals l pt ;;
      st <- foldM (fun (st : list bool * list refmap) i =>
              a <- M_Mesh.at_ (fst st) i ;;
              if a : bool then
                x0 <- M_Mesh.at_ (ri_roots (iv_ri iv)) i ;; x1 <- M_Mesh.at_ (ri_roots (iv_ri iv)) (S i) ;;
                let x := ins_at pt (v_dir l) (/ 2 * (x0 + x1)) in
                match up with
                | [] => Ret (set_at (fst st) i (point_inside l x), snd st)
                | _ => rs <- ref_intervals lev up (snd st) x (ins_at tid (v_dir l) i) ;;
                       b <- all_inactive up rs (ins_at tid (v_dir l) i) ;;
                       Ret (set_at (fst st) i (negb b), rs)
                end
              else Ret st) (seq 0 (length (iv_active iv))) (iv_active iv, rup0) ;;
      let act := match up with [] => if lev then changes (fst st) else fst st | _ => fst st end in
      Ret (emplace r tid (mk_iv (iv_ri iv) pt act) :: snd st)
  | _, _ => Ret refs
  end.

(** impl_reparam_bezier.cpp 471-488: the values tried by the first backup strategy (numbers::near_eps is 10 eps). *)
Definition backup_ts : list R :=
  let t0 := ln (10 * eps) in let t1 := ln (1 / 1000) in let dt := (t1 - t0) / 5 in
  map (fun j => exp (t0 + INR j * dt)) (seq 0 6) ++ [5 / 1000; 1 / 100; 5 / 100; 1 / 10].
(** The loops of lines 492-501 and 505-512: the first list of the wanted length, or the last one. *)
Fixpoint try_roots (n : nat) (f : R -> list R) (ts : list R) (last : list R) : list R :=
  match ts with
  | [] => last
  | t :: ts' => let r := f t in if (length r =? n)%nat then r else try_roots n f ts' r
  end.
(** impl_reparam_bezier.cpp 438-468: the roots of one polynomial away from the ends, completed with ends; [roots_i] are the reference roots. *)
Definition complete_roots (l : blevel P) (ref : intervals) (p : P) (roots_i : list R) (pt : list R) : list R :=
  let new := filter (fun r => negb (tol_equal default_tol r 0 || tol_equal default_tol r 1)) (bz_roots l p pt) in
  let n_i := length roots_i in let n := length new in
  if (n <? n_i)%nat then
    let root_0 := tol_equal default_tol (Rabs (z_eval Z p (ins_at pt (v_dir l) 0))) 0 in
    let root_1 := tol_equal default_tol (Rabs (z_eval Z p (ins_at pt (v_dir l) 1))) 0 in
    if xorb root_0 root_1 then new ++ repeat (if root_0 then 0 else 1) (n_i - n)
    else if (root_0 && root_1)%bool then
      if (n + 2 =? n_i)%nat then new ++ [0; 1]
      else if (n + 1 =? n_i)%nat then
        let sign := Rltb 0 (z_eval Z p (ins_at (iv_point ref) (v_dir l) (/ 2 * (0 + hd 0 roots_i)))) in
        let sorted := rsort new in
        let xmid := match sorted with [] => 1 | r :: _ => r end in
        let new_sign := Rltb 0 (z_eval Z p (ins_at pt (v_dir l) (/ 2 * (0 + xmid)))) in
        sorted ++ [if Bool.eqb sign new_sign then 1 else 0]
      else new
    else new
  else new.
(** impl_reparam_bezier.cpp 417-525: one iteration of the loop over the polynomials of compute_similar_intervals.  The direction of line 494 may be out of the point. *)
Definition similar_roots (l : blevel P) (ref : intervals) (i : nat) (p : P) (pt : list R) : outcome (list R) :=
  assert_ (length (ri_roots (iv_ri ref)) <=? length (ri_func_ids (iv_ri ref)))%nat (
  let roots_i := map fst (filter (fun e => (snd e =? Z.of_nat i)%Z) (combine (ri_roots (iv_ri ref)) (ri_func_ids (iv_ri ref)))) in
  match roots_i with
  | [] => Ret []
  | _ =>
    let n_i := length roots_i in
    let new := complete_roots l ref p roots_i pt in
    if (length new =? n_i)%nat then Ret new
    else
      let dir := Nat.max (v_base l) (v_dim l - 2) in
      if (dir <? v_dim l - 1)%nat then
        let old := iv_point ref in
        let r1 := try_roots n_i (fun t => bz_roots l p (set_at pt dir ((1 - t) * nth dir pt 0 + t * nth dir old 0))) backup_ts new in
        let r2 := if (length r1 =? n_i)%nat then r1
                  else try_roots n_i (fun t => bz_roots l p (map2 (fun x y => (1 - t) * x + t * y) pt old)) backup_ts r1 in
        Ret (if (length r2 =? n_i)%nat then r2 else roots_i)
      else UB
  end).
(** impl_reparam_bezier.cpp 397-535: compute_similar_intervals. *)
Definition similar_intervals (l : blevel P) (ref : intervals) (pt : list R) : outcome intervals :=
  if (length (ri_roots (iv_ri ref)) =? 2)%nat then Ret ref
  else
    ri0 <- foldM (fun ri ip => roots <- similar_roots l ref (fst ip) (snd ip) pt ;; add_roots ri (map (fun r => (r, Z.of_nat (fst ip))) roots)) (indexed l) ri_empty ;;
    ri1 <- add_roots ri0 [(0, (-1)%Z); (1, (-1)%Z)] ;;
    assert_ (length (ri_roots ri1) =? length (ri_roots (iv_ri ref)))%nat (
    ri <- adjust_roots (z_sort Z) default_tol 0 1 ri1 ;;
    Ret (mk_iv ri pt (iv_active ref))).
(** impl_reparam_bezier.cpp 565-575: compute_intervals. *)
Definition intervals_at (l : blevel P) (r : refmap) (pt : list R) (tid : list nat) : outcome intervals :=
  match find_tid r tid with
  | None => Abort
  | Some ref => if (v_dim l =? 1)%nat then Ret ref else similar_intervals l ref pt
  end.
(** impl_reparam_bezier.cpp 583-623: process of the first object of the list; lines 537-554 (insert_point_reparam): the point is inserted with its directions reversed. *)
Fixpoint bz_process (lev : bool) (order : nat) (lvs : list (blevel P)) (refs : list refmap) (pt : list R) (tid ptid : list nat) : outcome (list event) :=
  match lvs, refs with
  | l :: up, r :: rup =>
      iv <- intervals_at l r pt tid ;;
      let roots := ri_roots (iv_ri iv) in
      foreach (fun i =>
        a <- M_Mesh.at_ (iv_active iv) i ;;
        if a : bool then
          x0 <- M_Mesh.at_ roots i ;; x1 <- M_Mesh.at_ roots (S i) ;;
          let tid' := ins_at tid (v_dir l) i in
          if (match up with [] => lev | _ => false end) then Ret [Insert tid' ptid (rev (ins_at pt (v_dir l) x1))]
          else
            foreach (fun j =>
              let pt' := ins_at pt (v_dir l) (x0 + (x1 - x0) * node01 (z_cheb Z) order j) in
              let ptid' := ins_at ptid (v_dir l) j in
              match up with
              | [] => Ret [Insert tid' ptid' (rev pt')]
              | _ => bz_process lev order up rup pt' tid' ptid'
              end) (seq 0 order)
        else Ret []) (seq 0 (length (iv_active iv)))
  | _, _ => Ret []
  end.
(** bbox.cpp 34: BoundBox<range>(), the unit box. *)
Definition box01 (range : nat) : bbox := mk_box (repeat 0 range) (repeat 1 range).
(** impl_reparam_bezier.cpp 646-691: reparam, and reparam_tensor_product for the object with no polynomial, of dimension [bot]. *)
Definition reparam_events (lev : bool) (range order bot : nat) (lvs : list (blevel P)) : outcome (list event) :=
  let refs := map (fun _ => []) lvs in
  match lvs with
  | [] => Ret (if lev then [] else [Full (box01 range)])
  | _ =>
    if (bot =? 0)%nat then
      refs' <- ref_intervals lev lvs refs [] [] ;; bz_process lev order lvs refs' [] [] []
    else
      refs' <- ref_intervals lev lvs refs (repeat (/ 2) bot) (tp_const bot 0) ;;
      foreach (fun ptid => bz_process lev order lvs refs' (map (node01 (z_cheb Z) order) ptid) (tp_const bot 0) ptid) (tp_all (tp_const bot order))
  end.
(** impl_reparam_bezier.cpp 722-746: create: the polynomials kept; a polynomial that is positive everywhere leaves none. *)
Fixpoint bz_kept (range : nat) (polys : list P) (phi : list P) : list P :=
  match polys with
  | [] => phi
  | p :: ps => if z_empty Z p then (if Rltb 0 (z_eval Z p (repeat (/ 2) range)) then [] else bz_kept range ps phi) else bz_kept range ps (phi ++ [p])
  end.
Definition bz_events (lev : bool) (range order : nat) (polys : list P) : outcome (list event) :=
  b <- bz_build true range (bz_kept range polys []) ;; reparam_events lev range order (snd (fst b)) (snd b).
(** impl_reparam_bezier.cpp 701-712: orient_cells; [phi] and [grad] are the polynomial and its gradient evaluated as an implicit function. *)
Definition bz_orient (phi : list R -> R) (grad : list R -> list R) (fresh : nat -> nat -> list R) (range : nat) (lev : bool) (m : mesh) (ids : list nat) : outcome mesh :=
  if lev then orient_levelset (z_cheb Z) fresh (range - 1) m [(phi, grad)] ids else orient_cells_positively (z_cheb Z) fresh range m ids.
(** impl_reparam_bezier.cpp 755-787 (reparameterize) and 808-815 (reparam_Bezier): one polynomial (reserve_cells changes nothing). *)
Definition reparam_bezier (phi : list R -> R) (grad : list R -> list R) (fresh : nat -> nat -> list R) (range : nat) (lev : bool) (p : P) (m : mesh) (domain : bbox) : outcome mesh :=
  n0 <- M_Mesh.num_cells (mesh_dim range lev) m ;;
  evs <- bz_events lev range (m_order m) [p] ;;
  m1 <- run_events (z_cheb Z) (mesh_dim range lev) m evs ;;
  n1 <- M_Mesh.num_cells (mesh_dim range lev) m1 ;;
  let ids := seq n0 (n1 - n0) in
  m2 <- bz_orient phi grad fresh range lev m1 ids ;;
  m3 <- wirebasket_phi phi range (mesh_dim range lev) m2 ids (box01 range) reparam_tol ;;
  scale_points m3 (seq (length (m_points m)) (length (m_points m1) - length (m_points m))) (box01 range) domain.
End Bezier.

(** impl_reparam.cpp 48-105: create_reparameterization for the given cells of a domain with a Bezier function [p]; [rescale p box] is the polynomial after rescale_domain (its
    coefficients are computed by Algoim's deCasteljau), [value] and [grad] its evaluation and gradient in the unit box. *)
Definition reparam_cut_bezier {P} (Z : bz_oracles P) (value : P -> list R -> R) (grad : P -> list R -> list R) fresh (range : nat) (lev : bool) (rescale : P -> bbox -> P) (p : P)
    (D : domain) (cut : list BinNums.Z) (m : mesh) : outcome mesh :=
  foldM (fun m id => dom <- get_cell_domain (d_grid D) id ;;
    reparam_bezier Z (value (rescale p dom)) (grad (rescale p dom)) fresh range lev (rescale p dom) m dom) cut m.
Definition create_reparameterization_bezier {P} (Z : bz_oracles P) value grad fresh (sort : list (list R) -> nat -> list nat -> list nat) esort (range : nat) (lev : bool) rescale (p : P)
    (D : domain) (cells : list BinNums.Z) (order : nat) (merge : bool) : outcome mesh :=
  assert_ (1 <? order)%nat (
  let sorted := zsort cells in
  cut <- get_cells_target D Ccut sorted ;;
  m0 <- new_mesh order ;;
  m1 <- reparam_cut_bezier Z value grad fresh range lev rescale p D cut m0 ;;
  m2 <- (if lev then Ret m1 else full <- get_cells_target D Cfull sorted ;;
         doms <- M_Mesh.mapM (get_cell_domain (d_grid D)) full ;; add_full_cells (z_cheb Z) range m1 doms true) ;;
  if merge then merge_coincident_points (sort (m_points m2)) esort range m2 (10000 * eps) else Ret m2).
