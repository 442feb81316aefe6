(** python/qugar/dolfinx/custom_coefficients.py: the coefficients of a custom integral, and (codegeneration.py) the
    generated C functions that read them.
    The memory of a coefficients array is the list of its real slots ([_dtype] units: the array seen through
    [view(self._dtype).ravel()]); a slot holds a number or (part of) an offset. Numbers are reals: the number of points
    written in a header is exact (in float32 this needs fewer than 2^24 points). Sizes are unbounded. *)
From Coq Require Import Reals.
From Verif Require Import M_PyBase M_PyFacets M_PyQuadUtils.
Local Open Scope nat_scope.

(** Memory slots: a number, (the first slot of) a ptrdiff_t, the second slot of a ptrdiff_t. *)
Inductive slot := Num (x : R) | Off (z : Z) | OffTail.
(** Type of the coefficients. *)
Inductive ctype := F32 | F64 | C64 | C128.
Definition coeff_itemsize (c : ctype) : nat := match c with F32 => 4 | F64 => 8 | C64 => 8 | C128 => 16 end.
(** Item size of the type of the geometry (IntegralData.dtype). *)
Definition real_itemsize (c : ctype) : nat := match c with F32 | C64 => 4 | F64 | C128 => 8 end.
Definition offset_itemsize : nat := 8.
(** custom_coefficients.py 236-263: _get_n_extra_cols. *)
Definition n_extra_cols (c : ctype) : nat := (offset_itemsize + (coeff_itemsize c - 1)) / coeff_itemsize c.
(** 265-269: _real_per_complex_ratio. *)
Definition ratio (c : ctype) : nat := coeff_itemsize c / real_itemsize c.
(** 423-449: the slots of one offset seen as coefficients: a view of the integer, padded with zeros for complex128. *)
Definition encode_offset (c : ctype) (z : Z) : list slot :=
  match c with F64 => [Off z] | F32 | C64 => [Off z; OffTail] | C128 => [Off z; Num 0%R] end.

(** numpy [mem[a : a + n] = vals]: the slice is clipped; one value is broadcast; any other mismatch raises. *)
Definition put_slice {A} (mem : list A) (a n : nat) (vals : list A) : outcome (list A) :=
  let l := Nat.min (a + n) (length mem) - Nat.min a (length mem) in
  if length vals =? l then Ret (firstn a mem ++ vals ++ skipn (a + l) mem)
  else match vals with [v] => Ret (firstn a mem ++ repeat v l ++ skipn (a + l) mem) | _ => Abort end.
(** numpy [vals[a : a + n]]. *)
Definition get_slice {A} (vals : list A) (a n : nat) : list A := firstn n (skipn a vals).
(** numpy [mem[i] = v], [i >= 0]. *)
Definition put1 {A} (mem : list A) (i : nat) (v : A) : outcome (list A) :=
  if i <? length mem then Ret (firstn i mem ++ v :: skipn (S i) mem) else Abort.
(** numpy [mem[idx] = vals] with index array. *)
Fixpoint put_at {A} (mem : list A) (idx : list nat) (vals : list A) : outcome (list A) :=
  match idx, vals with
  | [], [] => Ret mem
  | i :: idx', v :: vals' => m <- put1 mem i v ;; put_at m idx' vals'
  | _, _ => Abort
  end.
(** numpy [new[: len(rows), c0 : c0 + w] = rows] of an array with [ncols] slots per row, from row [i] on. *)
Fixpoint put_rows (ncols c0 i : nat) (rows : list (list slot)) (mem : list slot) : outcome (list slot) :=
  match rows with
  | [] => Ret mem
  | r :: rows' => assert_ ((i + 1) * ncols <=? length mem) (m <- put_slice mem (i * ncols + c0) (length r) r ;; put_rows ncols c0 (S i) rows' m)
  end.

(** 38-61: _find_common_rows. *)
Definition find_common_rows (A B : list facet) : list nat :=
  match A, B with
  | [], _ | _, [] => []
  | _, _ => filter (fun i => mem_f (nth i A (0, 0)) B) (seq 0 (length A))
  end.
(** numpy intersect1d(A, B, assume_unique=True, return_indices=True)[1]: the arrays are concatenated and (stably) sorted,
    an entry equal to its successor is common. [argsort] is np.argsort(kind="mergesort"). *)
Fixpoint successors_equal (aux : list nat) (idx : list nat) : list nat :=
  match idx with
  | i :: ((j :: _) as idx') => if nth i aux 0 =? nth j aux 0 then i :: successors_equal aux idx' else successors_equal aux idx'
  | _ => []
  end.
Definition intersect1d_ids (argsort : list nat -> list nat) (A B : list nat) : list nat :=
  successors_equal (A ++ B) (argsort (A ++ B)).

(** The integration entities: form._cpp_object.domains (76-90 of the class documentation). *)
Inductive idomain := Cells (l : list nat) | Ext (l : list facet) | Int (l : list (facet * facet)).
Definition shape0 (d : idomain) : nat := match d with Cells l => length l | Ext l => length l | Int l => length l end.
Definition is_interior (d : idomain) : bool := match d with Int _ => true | _ => false end.
(** 613-627: _get_single_facets. *)
Definition single_facets (d : idomain) : list facet := match d with Cells _ => [] | Ext l => l | Int l => map fst l end.

(** QuadratureData: the position of the integrand and the flag of unfitted boundaries. *)
Record qdata := { qd_id : nat; qd_unf : bool }.
(** quad/custom_quad.py: arrays of a custom quadrature (points and normals by rows). *)
Record cquad := { q_npts : list nat; q_points : list vec; q_weights : list R; q_normals : list vec }.
(** np.repeat. *)
Fixpoint np_repeat {A} (l : list A) (n : list nat) : outcome (list A) :=
  match l, n with
  | [], [] => Ret []
  | x :: l', k :: n' => r <- np_repeat l' n' ;; Ret (repeat x k ++ r)
  | _, _ => Abort
  end.

Section Pack.
  (** What the packer asks from outside: the unfitted domain (cut and empty cells and facets, quadratures), the mesh. *)
  Context (argsort : list nat -> list nat).
  Context (cut_cells empty_cells : list nat) (cut_facets empty_facets : bool -> list facet).
  Context (create_cells : qdata -> list nat -> cquad) (create_facets : qdata -> list facet -> bool -> cquad).
  Context (ctyp : celltype) (all_perms : list (list nat)) (junk : nat -> vec).
  (** The integral: type of the coefficients, mixed dimensions, integrands, domain. *)
  Context (ct : ctype) (mixed : bool) (qds : list qdata) (dom : idomain).

  (** 629-660: _get_empty_entities_ids; 662-696: _get_custom_entities_ids. *)
  Definition entities_ids (cells : list nat) (facets : bool -> list facet) : list nat :=
    match dom with
    | Cells l => intersect1d_ids argsort l cells
    | _ => find_common_rows (single_facets dom) (facets (negb (is_interior dom)))
    end.
  Definition custom_ids : list nat := entities_ids cut_cells cut_facets.
  Definition empty_ids : list nat := entities_ids empty_cells empty_facets.

  (** 574-611: _map_facet_quadrature. *)
  Definition map_facet_quadrature (needs : bool) (q : cquad) (fs : list facet) : outcome (list vec) :=
    cells_rep <- np_repeat (map fst fs) (q_npts q) ;;
    facets_rep <- np_repeat (map snd fs) (q_npts q) ;;
    pts <- (if needs then permute_facet_points ctyp all_perms (q_points q) cells_rep facets_rep else Ret (q_points q)) ;;
    map_facets_points ctyp junk pts facets_rep.

  (** The arrays packed for one integrand: points, points of the second side, facet points, weights, normals. *)
  Record pquad := { p_unf : bool; p_npts : list nat; p_pts : list vec; p_pts1 : list vec; p_fpts : list vec; p_w : list R; p_nrm : list vec }.
  (** 512-572, 698-731: _create_quadrature_cell, _create_quadrature_facet, _create_quadratures. A mixed-dimensional integral over cells has no facet points (KeyError
      at 357), a facet quadrature has no normals (AttributeError at 771). *)
  Definition create_quadrature (qd : qdata) : outcome pquad :=
    match dom with
    | Cells l =>
        cs <- take_ids l custom_ids ;;
        let q := create_cells qd cs in
        assert_ (negb mixed) (Ret {| p_unf := qd_unf qd; p_npts := q_npts q; p_pts := q_points q; p_pts1 := []; p_fpts := []; p_w := q_weights q; p_nrm := q_normals q |})
    | _ =>
        fs <- take_ids (single_facets dom) custom_ids ;;
        let q := create_facets qd fs (negb (is_interior dom)) in
        let needs := is_interior dom || mixed in
        p0 <- map_facet_quadrature needs q fs ;;
        p1 <- match dom with
              | Int l => fs1 <- take_ids (map snd l) custom_ids ;; map_facet_quadrature needs q fs1
              | _ => Ret []
              end ;;
        assert_ (negb (qd_unf qd)) (Ret {| p_unf := qd_unf qd; p_npts := q_npts q; p_pts := p0; p_pts1 := p1; p_fpts := q_points q; p_w := q_weights q; p_nrm := q_normals q |})
    end.
  Definition create_quadratures : outcome (list pquad) := pmap create_quadrature qds.

  Context (gdim fdim : nat).
  (** 350-359: n_vals_per_pt; [gdim], [fdim] are the numbers of columns of the arrays of points. *)
  Definition n_vals_per_pt (q : pquad) : nat :=
    gdim + 1 + (if is_interior dom then gdim else 0) + (if mixed then fdim else 0) + (if p_unf q then gdim else 0).
  (** 310-368: _compute_n_vals_per_custom_entity. *)
  Fixpoint n_vals_per_entity (n : nat) (qs : list pquad) (acc : list nat) : outcome (list nat) :=
    match qs with
    | [] => Ret acc
    | q :: qs' => assert_ (length (p_npts q) =? n)
        (n_vals_per_entity n qs' (map (fun x => fst x + snd x * n_vals_per_pt q + 1) (combine acc (p_npts q))))
    end.
  Definition sum (l : list nat) : nat := fold_right Nat.add 0 l.

  (** Number of rows of the entities. *)
  Definition n_rows : nat := if is_interior dom then 2 * shape0 dom else shape0 dom.
  (** Slots per row; [cstride] is old_coeffs.shape[1]. *)
  Definition ncols (cstride : nat) : nat := (cstride + n_extra_cols ct) * ratio ct.
  (** 271-308: _allocate_new_coeffs (the ceiling is computed exactly). *)
  Definition allocate (cstride : nat) (nvals : list nat) : list slot :=
    let n := ncols cstride in
    let extra := (sum nvals + (n - 1)) / n in
    repeat (Num 0%R) ((n_rows + extra) * n).

  (** 400: np.concatenate(([0], np.cumsum(l[:-1]))), for a non-empty l; [a] is the sum of the previous values. *)
  Fixpoint starts (a : nat) (l : list nat) : list nat := match l with [] => [] | x :: l' => a :: starts (a + x) l' end.
  (** 370-450: _compute_offsets: the absolute offsets and the memory with the relative ones. *)
  Definition offsets_of (cstride : nat) (nvals : list nat) : list nat :=
    starts (n_rows * ncols cstride) nvals.
  Definition rel_offsets (cstride : nat) (offs : list nat) : outcome (list Z) :=
    let first_col := map (fun i => i * ncols cstride) (seq 0 n_rows) in
    let first_col := if is_interior dom then map (fun i => 2 * i * ncols cstride) (seq 0 (shape0 dom)) else first_col in
    st <- take_ids first_col custom_ids ;;
    Ret (map (fun x => Z.of_nat (fst x) - Z.of_nat (snd x))%Z (combine offs st)).
  Definition all_rel_offsets (rel : list Z) : outcome (list Z) :=
    let all := repeat (-1)%Z n_rows in
    all <- put_at all (if is_interior dom then map (fun i => 2 * i) custom_ids else custom_ids) rel ;;
    put_at all empty_ids (map (fun _ => 0%Z) empty_ids).
  Definition compute_offsets (cstride : nat) (nvals : list nat) (mem : list slot) : outcome (list nat * list slot) :=
    let offs := offsets_of cstride nvals in
    assert_ (length offs =? length custom_ids)
      (rel <- rel_offsets cstride offs ;;
       all <- all_rel_offsets rel ;;
       mem <- put_rows (ncols cstride) (cstride * ratio ct) 0 (map (encode_offset ct) all) mem ;;
       Ret (offs, mem)).

  (** 733-775: _compute_new_vals: the arrays of one integrand, in the order they are packed. *)
  Definition new_vals (q : pquad) : list (list R) :=
    [concat (p_pts q)]
    ++ (if is_interior dom then [concat (p_pts1 q)] else [])
    ++ (if mixed then [concat (p_fpts q)] else [])
    ++ [p_w q]
    ++ (if p_unf q then [concat (p_nrm q)] else []).

  (** 497-510: the loop over the arrays of an entity: [c] is c_off0, [vo] are the vals_offsets. *)
  Fixpoint copy_arrays (npts : nat) (nv vo : list nat) (arrs : list (list R)) (mem : list slot) (c : nat) : outcome (list slot * list nat * nat) :=
    match arrs, nv, vo with
    | a :: arrs', n :: nv', v :: vo' =>
        m <- put_slice mem c (npts * n) (map Num (get_slice a v (npts * n))) ;;
        r <- copy_arrays npts nv' vo' arrs' m (c + npts * n) ;;
        Ret (fst (fst r), (v + npts * n) :: snd (fst r), snd r)
    | _, _, _ => Ret (mem, [], c)
    end.
  (** 494-510: the loop over the entities; returns the new offsets. *)
  Fixpoint copy_entities (npts : list nat) (nv vo : list nat) (arrs : list (list R)) (offs : list nat) (mem : list slot) : outcome (list slot * list nat) :=
    match npts, offs with
    | n :: npts', o :: offs' =>
        r <- copy_arrays n nv vo arrs mem o ;;
        r' <- copy_entities npts' nv (snd (fst r)) arrs offs' (fst (fst r)) ;;
        Ret (fst r', snd r :: snd r')
    | _, _ => Ret (mem, [])
    end.
  (** 452-510: _copy_vals. *)
  Fixpoint copy_vals (qs : list pquad) (offs : list nat) (mem : list slot) : outcome (list slot) :=
    match qs with
    | [] => Ret mem
    | q :: qs' =>
        mem <- put_at mem offs (map (fun n => Num (INR n)) (p_npts q)) ;;
        let offs := map (fun o => o + 1) offs in
        let arrs := new_vals q in
        let tot := sum (p_npts q) in
        let nv := map (fun a => if 0 <? tot then length a / tot else length a) arrs in
        r <- copy_entities (p_npts q) nv (map (fun _ => 0) arrs) arrs offs mem ;;
        copy_vals qs' (snd r) (fst r)
    end.

  (** 777-805: _compute_new_coeffs; [old] are the rows of old_coeffs (as real slots). *)
  Definition pack (cstride : nat) (old : list (list R)) : outcome (list slot) :=
    qs <- create_quadratures ;;
    nvals <- n_vals_per_entity (length custom_ids) qs (map (fun _ => 0) custom_ids) ;;
    let mem := allocate cstride nvals in
    mem <- put_rows (ncols cstride) 0 0 (map (map Num) old) mem ;;
    r <- compute_offsets cstride nvals mem ;;
    copy_vals qs (fst r) (snd r).

  (** 958-996: update_coefficients, for one integral. *)
  Definition update (cstride : nat) (rows : list (list R)) (mem : list slot) : outcome (list slot) :=
    put_rows (ncols cstride) 0 0 (map (map Num) rows) mem.

  (** Reading numbers from memory: any other content, or a position past the end, is undefined behaviour. *)
  Fixpoint rd (mem : list slot) (p n : nat) : outcome (list R) :=
    match n with
    | 0 => Ret []
    | S n' => match nth_error mem p with Some (Num x) => r <- rd mem (S p) n' ;; Ret (x :: r) | _ => UB end
    end.
  (** What the loader of an integrand gives to the kernel: the numbers behind the pointers. *)
  Record loaded := { l_pts : list R; l_pts1 : list R; l_fpts : list R; l_w : list R; l_nrm : list R }.
  (** codegeneration.py 342-405: the functions load_points_..._Q...: [(int) **w_custom] points, then the arrays one after the other.
      The number of points returned is the length of the weights. *)
  Definition load_points (mem : list slot) (p : nat) (unf : bool) : outcome (loaded * nat) :=
    h <- rd mem p 1 ;;
    let n := Z.to_nat (Int_part (hd 0%R h)) in
    let p := p + 1 in
    pts <- rd mem p (gdim * n) ;; let p := p + gdim * n in
    pts1 <- (if is_interior dom then rd mem p (gdim * n) else Ret []) ;; let p := if is_interior dom then p + gdim * n else p in
    fpts <- (if mixed then rd mem p (fdim * n) else Ret []) ;; let p := if mixed then p + fdim * n else p in
    w <- rd mem p n ;; let p := p + n in
    nrm <- (if unf then rd mem p (gdim * n) else Ret []) ;; let p := if unf then p + gdim * n else p in
    Ret ({| l_pts := pts; l_pts1 := pts1; l_fpts := fpts; l_w := w; l_nrm := nrm |}, p).
  (** codegeneration.py 407-470: the loaders of all the integrands are called one after the other. *)
  Fixpoint load_all (mem : list slot) (p : nat) (qds : list qdata) : outcome (list loaded) :=
    match qds with
    | [] => Ret []
    | q :: qds' => r <- load_points mem p (qd_unf q) ;; rs <- load_all mem (snd r) qds' ;; Ret (fst r :: rs)
    end.
  (** codegeneration.py 716-772: the function that replaces the kernel. [base] is the slot of w[0], [coff] the coeffs_offset. *)
  Inductive kernel_run := RunCustom (l : list loaded) | RunOriginal | RunNothing.
  Definition read_offset (mem : list slot) (p : nat) : outcome Z :=
    match nth_error mem p with
    | Some (Off z) =>
        if real_itemsize ct =? 8 then Ret z
        else match nth_error mem (p + 1) with Some OffTail => Ret z | _ => UB end
    | _ => UB
    end.
  Definition wrapper (mem : list slot) (base coff : nat) : outcome kernel_run :=
    z <- read_offset mem (base + coff * ratio ct) ;;
    if (0 <? z)%Z then (l <- load_all mem (Z.to_nat (Z.of_nat base + z)) qds ;; Ret (RunCustom l))
    else if (z <? 0)%Z then Ret RunOriginal
    else Ret RunNothing.
End Pack.

(** codegeneration.py 124-144: _compute_coeffs_offset; [offs] are the coefficient_offsets of FFCx, [dims] the space dimensions. *)
Definition coeffs_offset (offs dims : list nat) : nat :=
  match offs with [] => 0 | _ => last offs 0 + last dims 0 end.
(** FFCx (ir/representation.py): coefficient_offsets: the coefficients one after the other, of width 2 in integrals over interior facets. *)
Definition ffcx_offsets (interior : bool) (dims : list nat) : list nat :=
  starts 0 (map (fun d => (if interior then 2 else 1) * d) dims).
