(** Model of RootsIntervals (cpp/qugar/impl_utils.cpp) and of prune and get_ref_intervals_roots (cpp/qugar/impl_reparam_general.cpp). *)
From Verif Require Export M_Tolerance M_Point.
From Coq Require Import ZArith.
Close Scope Z_scope.
Open Scope R_scope.

(** impl_utils.hpp 108-120: the three parallel vectors (point and active_intervals are not used by these functions). *)
Record roots_intervals := mk_ri { ri_roots : list R; ri_func_ids : list Z; ri_roots_ids : list (R * Z) }.
(** impl_utils.cpp 101-108: clear. *)
Definition ri_empty : roots_intervals := mk_ri [] [] [].
(** impl_utils.cpp 111-117: add_root. *)
Definition add_root (ri : roots_intervals) (root : R) (func_id : Z) : outcome roots_intervals :=
  assert_ (-1 <=? func_id)%Z (Ret (mk_ri (ri_roots ri ++ [root]) (ri_func_ids ri ++ [func_id]) (ri_roots_ids ri ++ [(root, func_id)]))).
(** Successive additions. *)
Fixpoint add_roots (ri : roots_intervals) (l : list (R * Z)) : outcome roots_intervals :=
  match l with [] => Ret ri | (r, k) :: l' => ri' <- add_root ri r k ;; add_roots ri' l' end.
(** The comparison given to std::sort. *)
Definition root_less (a b : R * Z) : bool := Rltb (fst a) (fst b).
(** impl_utils.cpp 129-141: sort_roots.  [sort] is std::sort.  [at] checks the bounds. *)
Definition sort_roots (sort : list (R * Z) -> list (R * Z)) (ri : roots_intervals) : outcome roots_intervals :=
  let s := sort (ri_roots_ids ri) in
  let n := length (ri_roots ri) in
  assert_ (n <=? length s)%nat (
  assert_ (n <=? length (ri_func_ids ri))%nat (
  Ret (mk_ri (map fst (firstn n s)) (map snd (firstn n s) ++ skipn n (ri_func_ids ri)) s))).
(** impl_utils.cpp 167-193: one step of the loop; [prev] is at(roots_old, i - 1), absent for i = 0.  Returns the entry to append, if any, and
    the two flags. *)
Definition adjust_step (tol x0 x1 : R) (prev : option R) (root : R) (func_id : Z) (has : bool * bool) : option (R * Z) * (bool * bool) :=
  if tol_equal tol root x0 then
    (if (func_id =? -1)%Z then (None, (true, snd has)) else (Some (x0, func_id), has))
  else if tol_equal tol root x1 then
    (if (func_id =? -1)%Z then (None, (fst has, true)) else (Some (x1, func_id), has))
  else match prev with
       | Some p => if tol_equal tol root p then (Some (p, func_id), has) else (Some (root, func_id), has)
       | None => (Some (root, func_id), has)
       end.
Fixpoint adjust_loop (tol x0 x1 : R) (prev : option R) (old : list (R * Z)) (has : bool * bool) : list (R * Z) * (bool * bool) :=
  match old with
  | [] => ([], has)
  | (r, k) :: old' =>
      let s := adjust_step tol x0 x1 prev r k has in
      let t := adjust_loop tol x0 x1 (Some r) old' (snd s) in
      ((match fst s with Some e => [e] | None => [] end) ++ fst t, snd t)
  end.
(** impl_utils.cpp 143-206: adjust_roots.  The three vectors receive the same entries: (x0, -1) is put first and erased if no end was seen. *)
Definition adjust_roots (sort : list (R * Z) -> list (R * Z)) (tol x0 x1 : R) (ri : roots_intervals) : outcome roots_intervals :=
  match ri_roots ri with
  | [] => Ret ri
  | _ =>
    ri' <- sort_roots sort ri ;;
    assert_ (length (ri_roots ri') <=? length (ri_func_ids ri'))%nat (
    let r := adjust_loop tol x0 x1 None (combine (ri_roots ri') (ri_func_ids ri')) (false, false) in
    let l := (if fst (snd r) then [(x0, (-1)%Z)] else []) ++ fst r ++ (if snd (snd r) then [(x1, (-1)%Z)] else []) in
    Ret (mk_ri (map fst l) (map snd l) l))
  end.

(** impl_reparam_general.cpp 398-410: get_ref_intervals_roots; it reads at position psi_id, not i. *)
Definition get_ref_intervals_roots (ri : roots_intervals) (psi_id : Z) : outcome (list R) :=
  mapM (fun _ => if (0 <=? psi_id)%Z then match nth_error (ri_roots ri) (Z.to_nat psi_id) with Some x => Ret x | None => Abort end else Abort)
    (filter (fun k => (k =? psi_id)%Z) (firstn (length (ri_roots ri)) (ri_func_ids ri))).

(** impl_reparam_general.cpp 103-125: prune, on the array psi_ and its count.  A restriction is any type; [uniform p] and [alpha p] describe the result of
    evaluating phi_ on the interval restricted by p (algoim), [sign p] is the required sign.  An index out of the array would be undefined. *)
Definition consistent {A} (alpha : A -> R) (sign : A -> Z) (p : A) : bool :=
  ((Rleb 0 (alpha p) && (0 <=? sign p)%Z) || (Rleb (alpha p) 0 && (sign p <=? 0)%Z))%bool.
Fixpoint prune_loop {A} (uniform : A -> bool) (alpha : A -> R) (sign : A -> Z) (fuel : nat) (psi : list A) (count i : nat) : outcome (bool * list A * nat) :=
  if (i <? count)%nat then
    match fuel with
    | O => OutOfFuel
    | S fuel' =>
      match nth_error psi i with
      | None => UB
      | Some p =>
        if uniform p then
          if consistent alpha sign p then
            match nth_error psi (count - 1) with
            | None => UB
            | Some q => prune_loop uniform alpha sign fuel' (set_at (set_at psi i q) (count - 1) p) (count - 1) i
            end
          else Ret (false, psi, count)
        else prune_loop uniform alpha sign fuel' psi count (S i)
      end
    end
  else Ret (true, psi, count).
Definition prune {A} (uniform : A -> bool) (alpha : A -> R) (sign : A -> Z) (psi : list A) (count : nat) : outcome (bool * list A * nat) :=
  prune_loop uniform alpha sign count psi count 0.
