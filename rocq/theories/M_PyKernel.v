(** python/qugar/dolfinx/codegeneration.py, fe_table.py and _shim/qugar_basix_shim.cpp: the generated C kernel that
    tabulates the elements at the quadrature points of a cut entity, and the shim it calls.
    The generated code is a list of commands ([cmd]) with a C-like semantics ([exec]): pointers into the scratch vector
    of the thread carry the generation of the allocation, and reading or writing through a pointer of an older
    generation or outside of the vector is undefined behaviour. Simplifications: every size and offset of the generated
    code is a sum of products [c * n_pts] and is represented by its constant factors (no int overflow); numbers are
    reals; one entry of the element tensor is modelled; out-of-memory does not occur; one thread. *)
From Coq Require Import Reals.
From Verif Require Import M_PyBase M_PyFacets M_PyQuadUtils M_PyPack.
Local Open Scope nat_scope.

(** codegeneration.py 317-327: the parameters of basix.create_element. *)
Notation key := (list Z) (only parsing).
Definition key_eqb (a b : key) : bool := if list_eq_dec Z.eq_dec a b then true else false.

(** basix.ufl elements: _BasixElement (its parameters and reference value size), _BlockedElement (parameters of the
    scalar element, block size, reference value size), _MixedElement. *)
Inductive element := EBasix (k : key) (v : nat) | EBlocked (k : key) (bs v : nat) | EMixed (subs : list element).
Fixpoint rvs (e : element) : nat :=
  match e with EBasix _ v => v | EBlocked _ _ v => v | EMixed subs => list_sum (map rvs subs) end.
(** codegeneration.py 277-296: _resolve_mixed_component. *)
Fixpoint resolve (e : element) (c : nat) : outcome (element * nat) :=
  match e with
  | EMixed subs =>
      (fix go (l : list element) (acc : nat) : outcome (element * nat) :=
         match l with
         | [] => Abort
         | s :: l' => if c <? acc + rvs s then resolve s (c - acc) else go l' (acc + rvs s)
         end) subs 0
  | _ => Ret (e, c)
  end.

(** fe_table.py 31-134: a table; [t_flat] says that its type is "fixed", "piecewise", "zeros" or "ones", [t_qpts] is the
    number of points of the static rule, [t_static] the values of the static 4-D array. *)
Record table := { t_id : nat; t_elem : element; t_comp : nat; t_derivs : list nat; t_gdim : nat; t_funcs : nat; t_perms : nat;
                  t_qpts : nat; t_flat : bool; t_static : nat -> nat -> nat -> nat -> R }.
(** fe_table.py 195-220: is_constant_for_pts. *)
Definition is_const (t : table) : bool := (1 <? t_qpts t) && t_flat t.

(** basix.index: position of a derivative in a tabulation. *)
Definition basix_index (d : list nat) : nat :=
  match d with
  | [p] => p
  | [p; q] => (p + q + 1) * (p + q) / 2 + q
  | [p; q; r] => (p + q + r) * (p + q + r + 1) * (p + q + r + 2) / 6 + (q + r) * (q + r + 1) / 2 + r
  | _ => 0
  end.
(** basix FiniteElement.tabulate: the derivatives of total order up to [nd], in the order of the tabulation. *)
Definition multi (g nd : nat) : list (list nat) :=
  match g with
  | 1 => map (fun p => [p]) (seq 0 (S nd))
  | 2 => flat_map (fun n => map (fun q => [n - q; q]) (seq 0 (S n))) (seq 0 (S nd))
  | 3 => flat_map (fun n => flat_map (fun m => map (fun r => [n - m; m - r; r]) (seq 0 (S m))) (seq 0 (S n))) (seq 0 (S nd))
  | _ => []
  end.
(** math.comb. *)
Fixpoint comb (n k : nat) : nat :=
  match k, n with
  | 0, _ => 1
  | S _, 0 => 0
  | S k', S n' => comb n' k' + comb n' k
  end.

(** codegeneration.py 298-340: _table_codegen_info. *)
Record info := { i_key : key; i_gdim : nat; i_vs : nat; i_ndofs : nat; i_didx : nat; i_vaxis : nat; i_maxnd : nat }.
Definition table_info (t : table) : outcome info :=
  r <- resolve (t_elem t) (t_comp t) ;;
  let derivs := firstn (t_gdim t) (t_derivs t ++ repeat 0 (t_gdim t)) in
  let mk k vs vaxis := Ret {| i_key := k; i_gdim := t_gdim t; i_vs := vs; i_ndofs := t_funcs t; i_didx := basix_index derivs; i_vaxis := vaxis; i_maxnd := list_sum derivs |} in
  match r with
  | (EBasix k v, c) => mk k v c
  | (EBlocked k bs v, c) => if 1 <? bs then mk k 1 0 else mk k v c
  | (EMixed _, _) => Abort
  end.

(** C variables of the kernel. The quadrature is named by its position, a group of tables by [gi]; the [bool] is the side. *)
Inductive var :=
| VScratch (q : nat) | VHandle (q g : nat) | VBlock (q g : nat) (side1 : bool) | VBuf (t : nat) (side : option bool) | VTab (t : nat) (side : option bool).
Lemma var_eq_dec : forall a b : var, {a = b} + {a <> b}.
Proof. repeat decide equality. Defined.
(** Arrays of points of a quadrature. *)
Inductive pts_var := PCell | PSide1 | PFacet.
(** Commands of the generated prologue. Sizes and offsets are sums of [c * n_pts], given by the factors [c]. *)
Inductive cmd :=
| CScratch (v : var) (terms : list nat)                        (* T* v = qugar_get_scratch((long)(terms)); *)
| CRegister (h : var) (k : key)                                (* const int h = qugar_register_element(k); if (h < 0) return; *)
| CPtr (v base : var) (terms : list nat)                       (* T* v = base + (terms); *)
| CTabulate (h : var) (nd : nat) (p : pts_var) (gdim : nat) (blk : var) (size : nat)  (* if (qugar_tabulate(...) != 0) return; *)
| CRepack (dst src : var) (funcs didx stride vs vaxis : nat).  (* the two nested loops of _repack_into *)

Section Codegen.
  (** The integral: interior facets, mixed dimensions, dimension of the cells. *)
  Context (interior mixed : bool) (tdim : nat).

  Definition two_sided (t : table) : bool := interior && (1 <? t_perms t).
  (** 499-502: groups.setdefault(params, []).append(...): groups in order of first appearance. *)
  Fixpoint add_item (k : key) (x : table * info) (gs : list (key * list (table * info))) : list (key * list (table * info)) :=
    match gs with
    | [] => [(k, [x])]
    | (k', l) :: gs' => if key_eqb k' k then (k', l ++ [x]) :: gs' else (k', l) :: add_item k x gs'
    end.
  Definition make_groups (l : list (table * info)) : list (key * list (table * info)) :=
    fold_left (fun gs x => add_item (i_key (snd x)) x gs) l [].

  (** 504-536: first pass. *)
  Record gmeta := { g_i : nat; g_key : key; g_items : list (table * info); g_gdim : nat; g_ndofs : nat; g_vs : nat; g_maxnd : nat; g_any : bool; g_blk : nat }.
  Definition group_meta (gi : nat) (g : key * list (table * info)) : outcome gmeta :=
    match snd g with
    | [] => Abort
    | (_, i0) :: _ =>
        let maxnd := list_max (map (fun x => i_maxnd (snd x)) (snd g)) in
        let nderiv := comb (maxnd + i_gdim i0) (i_gdim i0) in
        Ret {| g_i := gi; g_key := fst g; g_items := snd g; g_gdim := i_gdim i0; g_ndofs := i_ndofs i0; g_vs := i_vs i0; g_maxnd := maxnd;
               g_any := interior && existsb (fun x => 1 <? t_perms (fst x)) (snd g); g_blk := nderiv * i_ndofs i0 * i_vs i0 |}
    end.
  Fixpoint metas (gi : nat) (gs : list (key * list (table * info))) : outcome (list gmeta) :=
    match gs with [] => Ret [] | g :: gs' => m <- group_meta gi g ;; ms <- metas (S gi) gs' ;; Ret (m :: ms) end.
  Definition item_terms (x : table * info) : list nat :=
    if 1 <? i_vs (snd x) then t_funcs (fst x) :: (if two_sided (fst x) then [t_funcs (fst x)] else []) else [].
  Definition group_terms (m : gmeta) : list nat :=
    g_blk m :: (if g_any m then [g_blk m] else []) ++ flat_map item_terms (g_items m).

  (** 583-658: the code of one table; [offs] are the offsets consumed before it. *)
  Definition gen_item (q : nat) (m : gmeta) (offs : list nat) (x : table * info) : list cmd * list nat :=
    let t := fst x in
    let blk0 := VBlock q (g_i m) false in let blk1 := VBlock q (g_i m) true in
    let funcs := t_funcs t in
    let stride := g_ndofs m * g_vs m in
    if g_vs m =? 1 then
      let off := [i_didx (snd x) * funcs] in
      (if two_sided t then [CPtr (VTab (t_id t) (Some false)) blk0 off; CPtr (VTab (t_id t) (Some true)) blk1 off]
       else [CPtr (VTab (t_id t) None) blk0 off], offs)
    else
      let repack dst src := CRepack dst src funcs (i_didx (snd x)) stride (g_vs m) (i_vaxis (snd x)) in
      if two_sided t then
        let buf0 := VBuf (t_id t) (Some false) in let buf1 := VBuf (t_id t) (Some true) in
        ([CPtr buf0 (VScratch q) offs; CPtr buf1 (VScratch q) (offs ++ [funcs]); repack buf0 blk0; repack buf1 blk1;
          CPtr (VTab (t_id t) (Some false)) buf0 []; CPtr (VTab (t_id t) (Some true)) buf1 []], offs ++ [funcs; funcs])
      else
        let buf := VBuf (t_id t) None in
        ([CPtr buf (VScratch q) offs; repack buf blk0; CPtr (VTab (t_id t) None) buf []], offs ++ [funcs]).
  Fixpoint gen_items (q : nat) (m : gmeta) (offs : list nat) (l : list (table * info)) : list cmd * list nat :=
    match l with
    | [] => ([], offs)
    | x :: l' => let r := gen_item q m offs x in let r' := gen_items q m (snd r) l' in (fst r ++ fst r', snd r')
    end.
  (** 546-581: the code of a group. *)
  Definition gen_group (q : nat) (offs : list nat) (m : gmeta) : list cmd * list nat :=
    let h := VHandle q (g_i m) in
    let blk0 := VBlock q (g_i m) false in let blk1 := VBlock q (g_i m) true in
    let pv := if mixed && negb (g_gdim m =? tdim) then PFacet else PCell in
    let head := [CRegister h (g_key m); CPtr blk0 (VScratch q) offs; CTabulate h (g_maxnd m) pv (g_gdim m) blk0 (g_blk m)] in
    let offs1 := offs ++ [g_blk m] in
    let side1 := if g_any m then [CPtr blk1 (VScratch q) offs1; CTabulate h (g_maxnd m) PSide1 (g_gdim m) blk1 (g_blk m)] else [] in
    let offs2 := if g_any m then offs1 ++ [g_blk m] else offs1 in
    let r := gen_items q m offs2 (g_items m) in
    (head ++ side1 ++ fst r, snd r).
  Fixpoint gen_groups (q : nat) (offs : list nat) (ms : list gmeta) : list cmd :=
    match ms with [] => [] | m :: ms' => let r := gen_group q offs m in fst r ++ gen_groups q (snd r) ms' end.
  (** 433-660: the code of one quadrature (the loader itself is M_PyPack.load_points; the static tables need no code). *)
  Definition gen_quad (q : nat) (tables : list table) : outcome (list cmd) :=
    let varying := filter (fun t => negb (is_const t)) tables in
    infos <- pmap (fun t => i <- table_info t ;; Ret (t, i)) varying ;;
    ms <- metas 0 (make_groups infos) ;;
    let terms := flat_map group_terms ms in
    Ret ((match terms with [] => [] | _ => [CScratch (VScratch q) terms] end) ++ gen_groups q [] ms).
  (** 407-660: _create_custom_data_callers: the code of all the quadratures, one after the other, before the first loop (726-728). *)
  Fixpoint gen_all (q : nat) (qs : list (list table)) : outcome (list (nat * list cmd)) :=
    match qs with [] => Ret [] | ts :: qs' => c <- gen_quad q ts ;; cs <- gen_all (S q) qs' ;; Ret ((q, c) :: cs) end.

  (** fe_table.py 398-461: create_new_access_code. Subscripts: literals, variables of the loops (variable 0 is iq), sums. *)
  Inductive cidx := INum (n : nat) | IVar (v : nat) | IAdd (a b : cidx).
  Inductive pidx := PNum (n : nat) | PPerm (k : nat).    (* quadrature_permutation[k] *)
  Inductive eidx := ENum (n : nat) | ELocal (k : nat).   (* entity_local_index[k] *)
  Record access := { a_tab : table; a_perm : pidx; a_entity : eidx; a_iq : cidx; a_dof : cidx }.
  (** The rewritten access: side (for tables of two buffers), terms [c * index] of the subscript; the text of the index follows the factor
      without parentheses, so that the factor multiplies the first summand only. *)
  Record access1 := { b_tab : table; b_side : option nat; b_terms : list (nat * cidx) }.
  Definition new_access (a : access) : outcome access1 :=
    let t := a_tab a in
    assert_ (negb (is_const t))
      (side <- (match a_perm a with
                | PNum 0 => Ret None
                | p => if interior then assert_ (1 <? t_perms t) (match p with PPerm k => Ret (Some k) | PNum _ => Abort end) else Ret None
                end) ;;
       let terms := (match a_iq a with INum 0 => [] | i => [(t_funcs t, i)] end) ++ (match a_dof a with INum 0 => [] | i => [(1, i)] end) in
       Ret {| b_tab := t; b_side := side; b_terms := terms |}).
End Codegen.

(** Values of subscripts. *)
Fixpoint ieval (rho : nat -> nat) (i : cidx) : nat := match i with INum n => n | IVar v => rho v | IAdd a b => ieval rho a + ieval rho b end.
(** [c * text of i]: the product binds tighter than the sum. *)
Fixpoint imul (rho : nat -> nat) (c : nat) (i : cidx) : nat := match i with IAdd a b => imul rho c a + ieval rho b | _ => c * ieval rho i end.

Section Shim.
  (** basix: which parameters are accepted, dimensions of the elements, basis functions (derivatives, point, dof, component). *)
  Context (valid : key -> bool) (etdim edofs evs : key -> nat) (phi : key -> list nat -> vec -> nat -> nat -> R).
  (** Growth of std::vector: the new capacity, from the old one and the size asked. *)
  Context (grow : nat -> nat -> nat).

  (** qugar_basix_shim.cpp 29-46, 116-128: registry and index (one per real type), scratch vector of the thread. *)
  Record shim := { s_reg : list key; s_idx : list (key * nat); s_gen : nat; s_cap : nat; s_buf : list R }.
  Definition shim0 : shim := {| s_reg := []; s_idx := []; s_gen := 0; s_cap := 0; s_buf := [] |}.
  Fixpoint lookup (k : key) (l : list (key * nat)) : option nat :=
    match l with [] => None | (k', h) :: l' => if key_eqb k' k then Some h else lookup k l' end.
  (** 48-69: register_impl. *)
  Definition register (s : shim) (k : key) : shim * Z :=
    match lookup k (s_idx s) with
    | Some h => (s, Z.of_nat h)
    | None =>
        if valid k then
          let r := s_reg s ++ [k] in
          ({| s_reg := r; s_idx := (k, length r - 1) :: s_idx s; s_gen := s_gen s; s_cap := s_cap s; s_buf := s_buf s |}, Z.of_nat (length r - 1))
        else (s, (-1)%Z)
    end.
  (** 116-128: get_scratch_impl. *)
  Definition get_scratch (s : shim) (n : nat) : shim :=
    if length (s_buf s) <? n then
      let d := s_buf s ++ repeat 0%R (n - length (s_buf s)) in
      if n <=? s_cap s then {| s_reg := s_reg s; s_idx := s_idx s; s_gen := s_gen s; s_cap := s_cap s; s_buf := d |}
      else {| s_reg := s_reg s; s_idx := s_idx s; s_gen := S (s_gen s); s_cap := grow (s_cap s) n; s_buf := d |}
    else s.
  (** 184-190: qugar_shim_reset. *)
  Definition shim_reset (s : shim) : shim := {| s_reg := []; s_idx := []; s_gen := s_gen s; s_cap := s_cap s; s_buf := s_buf s |}.

  (** Memory of the scratch vector. *)
  Definition with_buf (s : shim) (b : list R) : shim := {| s_reg := s_reg s; s_idx := s_idx s; s_gen := s_gen s; s_cap := s_cap s; s_buf := b |}.
  Definition load1 (s : shim) (gen off : nat) : outcome R :=
    if gen =? s_gen s then match nth_error (s_buf s) off with Some x => Ret x | None => UB end else UB.
  Definition store (s : shim) (gen off : nat) (vals : list R) : outcome shim :=
    if (gen =? s_gen s) && (off + length vals <=? length (s_buf s))
    then Ret (with_buf s (firstn off (s_buf s) ++ vals ++ skipn (off + length vals) (s_buf s))) else UB.

  (** The points behind a pointer, [n] rows of [g] numbers. *)
  Definition rows (g n : nat) (flat : list R) : list vec := map (fun i => firstn g (skipn (i * g) flat)) (seq 0 n).
  (** basix tabulate: an array (derivative, point, dof, component), row major. *)
  Definition tabulate (k : key) (nd : nat) (pts : list vec) : list R :=
    flat_map (fun d => flat_map (fun x => flat_map (fun i => map (fun c => phi k d x i c) (seq 0 (evs k))) (seq 0 (edofs k))) pts) (multi (etdim k) nd).
  (** 87-111: tabulate_impl: the error code and the new memory; basix throws when the points do not have the dimension of the cell. *)
  Definition tabulate_impl (s : shim) (h : Z) (nd : nat) (flat : list R) (n g : nat) (gen off cap : nat) : outcome (shim * Z) :=
    if ((h <? 0) || (Z.of_nat (length (s_reg s)) <=? h))%Z then Ret (s, (-3)%Z)
    else match nth_error (s_reg s) (Z.to_nat h) with
         | None => UB
         | Some k =>
             let need := length (multi (etdim k) nd) * n * edofs k * evs k in
             if cap <? need then Ret (s, (-4)%Z)
             else if negb (g =? etdim k) then Ret (s, (-1)%Z)
             else if length flat <? n * g then UB
             else s' <- store s gen off (tabulate k nd (rows g n flat)) ;; Ret (s', 0%Z)
         end.

  (** Values of the C variables: pointers into the scratch vector, handles. *)
  Inductive value := Ptr (gen off : nat) | Int (z : Z).
  Definition env := var -> option value.
  Definition set_var (e : env) (v : var) (x : value) : env := fun w => if var_eq_dec w v then Some x else e w.
  Definition get_ptr (e : env) (v : var) : outcome (nat * nat) := match e v with Some (Ptr g o) => Ret (g, o) | _ => UB end.
  Definition get_int (e : env) (v : var) : outcome Z := match e v with Some (Int z) => Ret z | _ => UB end.
  Record cstate := { c_env : env; c_shim : shim }.
  Definition terms_val (n : nat) (l : list nat) : nat := list_sum (map (fun c => c * n) l).

  (** for (iq < n) for (kd < funcs) dst[iq * funcs + kd] = src[didx * n * stride + iq * stride + kd * vs + vaxis]; *)
  Fixpoint repack_loop (s : shim) (g1 o1 g2 o2 n funcs didx stride vs vaxis : nat) (l : list (nat * nat)) : outcome shim :=
    match l with
    | [] => Ret s
    | (iq, kd) :: l' =>
        x <- load1 s g2 (o2 + (didx * n * stride + iq * stride + kd * vs + vaxis)) ;;
        s' <- store s g1 (o1 + (iq * funcs + kd)) [x] ;;
        repack_loop s' g1 o1 g2 o2 n funcs didx stride vs vaxis l'
    end.
  Definition iq_kd (n funcs : nat) : list (nat * nat) := list_prod (seq 0 n) (seq 0 funcs).

  (** One command, for a quadrature with data [l]; [inl] is a [return;] of the kernel. The number of points is that of the weights. *)
  Definition pts_of (l : loaded) (p : pts_var) : list R := match p with PCell => l_pts l | PSide1 => l_pts1 l | PFacet => l_fpts l end.
  Definition step (l : loaded) (st : cstate) (c : cmd) : outcome (cstate + cstate) :=
    let n := length (l_w l) in
    let go e s := Ret (inr {| c_env := e; c_shim := s |}) in
    match c with
    | CScratch v terms =>
        let s := get_scratch (c_shim st) (terms_val n terms) in
        go (set_var (c_env st) v (Ptr (s_gen s) 0)) s
    | CRegister h k =>
        let r := register (c_shim st) k in
        if (snd r <? 0)%Z then Ret (inl {| c_env := c_env st; c_shim := fst r |}) else go (set_var (c_env st) h (Int (snd r))) (fst r)
    | CPtr v base terms =>
        p <- get_ptr (c_env st) base ;;
        go (set_var (c_env st) v (Ptr (fst p) (snd p + terms_val n terms))) (c_shim st)
    | CTabulate h nd p g blk size =>
        z <- get_int (c_env st) h ;;
        b <- get_ptr (c_env st) blk ;;
        r <- tabulate_impl (c_shim st) z nd (pts_of l p) n g (fst b) (snd b) (size * n) ;;
        if (snd r =? 0)%Z then go (c_env st) (fst r) else Ret (inl {| c_env := c_env st; c_shim := fst r |})
    | CRepack dst src funcs didx stride vs vaxis =>
        d <- get_ptr (c_env st) dst ;;
        b <- get_ptr (c_env st) src ;;
        s <- repack_loop (c_shim st) (fst d) (snd d) (fst b) (snd b) n funcs didx stride vs vaxis (iq_kd n funcs) ;;
        go (c_env st) s
    end.
  Fixpoint exec (l : loaded) (st : cstate) (cs : list cmd) : outcome (cstate + cstate) :=
    match cs with
    | [] => Ret (inr st)
    | c :: cs' => r <- step l st c ;; match r with inl st' => Ret (inl st') | inr st' => exec l st' cs' end
    end.
  Fixpoint exec_all (ls : list loaded) (st : cstate) (cs : list (nat * list cmd)) : outcome (cstate + cstate) :=
    match cs with
    | [] => Ret (inr st)
    | (q, c) :: cs' =>
        match nth_error ls q with
        | None => UB
        | Some l => r <- exec l st c ;; match r with inl st' => Ret (inl st') | inr st' => exec_all ls st' cs' end
        end
    end.

  (** The value of an access in the custom kernel: the static array for constant tables (codegeneration.py 447-450, _kernel_body.py 383-384),
      otherwise the rewritten access. [perms] and [ents] are the arrays quadrature_permutation and entity_local_index (by number). *)
  Definition read_access (interior : bool) (st : cstate) (perms ents : nat -> nat) (rho : nat -> nat) (a : access) : outcome R :=
    let t := a_tab a in
    if is_const t then
      Ret (t_static t (match a_perm a with PNum n => n | PPerm k => perms k end) (match a_entity a with ENum n => n | ELocal k => ents k end) (ieval rho (a_iq a)) (ieval rho (a_dof a)))
    else
      b <- new_access interior a ;;
      match b_terms b with
      | [] => Abort
      | terms =>
          let v := match b_side b with None => VTab (t_id t) None | Some k => VTab (t_id t) (Some (negb (k =? 0))) end in
          p <- get_ptr (c_env st) v ;;
          load1 (c_shim st) (fst p) (snd p + list_sum (map (fun x => imul rho (fst x) (snd x)) terms))
      end.
  (** A loop of the kernel (_kernel_body.py 70-92): its quadrature, the accesses of its body, and what the body adds to the entry of the element
      tensor given the weight, the normal and the values of the accesses. [rho] gives the variables of the inner loops. *)
  Record loop := { k_quad : nat; k_acc : list access; k_body : R -> list R -> list R -> R }.
  Definition with_iq (rho : nat -> nat) (iq : nat) : nat -> nat := fun v => if v =? 0 then iq else rho v.
  Fixpoint run_points (interior : bool) (tdim : nat) (st : cstate) (perms ents : nat -> nat) (rho : nat -> nat) (l : loaded) (k : loop) (iqs : list nat) (A : R) : outcome R :=
    match iqs with
    | [] => Ret A
    | iq :: iqs' =>
        vals <- pmap (read_access interior st perms ents (with_iq rho iq)) (k_acc k) ;;
        run_points interior tdim st perms ents rho l k iqs' (A + k_body k (nth iq (l_w l) 0%R) (firstn tdim (skipn (tdim * iq) (l_nrm l))) vals)%R
    end.
  Fixpoint run_loops (interior : bool) (tdim : nat) (st : cstate) (perms ents : nat -> nat) (rho : nat -> nat) (ls : list loaded) (ks : list loop) (A : R) : outcome R :=
    match ks with
    | [] => Ret A
    | k :: ks' =>
        match nth_error ls (k_quad k) with
        | None => UB
        | Some l => A' <- run_points interior tdim st perms ents rho l k (seq 0 (length (l_w l))) A ;; run_loops interior tdim st perms ents rho ls ks' A'
        end
    end.
  (** codegeneration.py 676-730: the custom kernel: the prologue of every quadrature, then the loops. *)
  Definition custom_kernel (interior mixed : bool) (tdim : nat) (qs : list (list table)) (ks : list loop) (perms ents : nat -> nat) (rho : nat -> nat)
      (ls : list loaded) (s : shim) (A : R) : outcome R :=
    cs <- gen_all interior mixed tdim 0 qs ;;
    r <- exec_all ls {| c_env := fun _ => None; c_shim := s |} cs ;;
    match r with inl _ => Ret A | inr st => run_loops interior tdim st perms ents rho ls ks A end.
End Shim.

(** quadrature_data.py 33-117: the data of the rule of an integral: its name (a digest of the points and weights of the static rule), the degree
    asked by the user, whether it is an unfitted boundary. *)
Record quad_rule := { u_name : nat; u_degree : nat; u_unf : bool }.
(** quadrature_data.py 119-148, extract_quadrature_data: quads_data[quad_data.name] = quad_data, for every integral; a Python dictionary keeps
    the position of the first insertion of a key and the value of the last. *)
Fixpoint dict_set (d : list (nat * quad_rule)) (x : quad_rule) : list (nat * quad_rule) :=
  match d with
  | [] => [(u_name x, x)]
  | (n, y) :: d' => if n =? u_name x then (n, x) :: d' else (n, y) :: dict_set d' x
  end.
Definition extract_quads (itgs : list quad_rule) : list (nat * quad_rule) := fold_left dict_set itgs [].
Fixpoint dict_get (d : list (nat * quad_rule)) (n : nat) : option quad_rule :=
  match d with [] => None | (m, x) :: d' => if m =? n then Some x else dict_get d' n end.
(** boundary.py 118-121, 189-203: the rule of a measure ds_bdry_unf: its points and weights are the same whatever the degree, and so is its name. *)
Definition bdry_rule (bdry_name degree : nat) : quad_rule := {| u_name := bdry_name; u_degree := degree; u_unf := true |}.
