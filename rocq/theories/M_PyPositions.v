(** python/qugar/dolfinx/integral_data.py, custom_coefficients.py: which data belong to which kernel; python/qugar/dolfinx/_dolfinx_patches.py.
    Integral types are numbers in the order of ufcx (0 cell, 1 exterior_facet, 2 interior_facet, 3 vertex, 4 ridge); kernel names are numbers. *)
From Verif Require Import M_PyBase.
Local Open Scope nat_scope.

(** FFCx' representation of a form: names and subdomain ids of its integrals, per type (two parallel lists). *)
Record form_ir := { f_names : list (list nat); f_ids : list (list Z) }.
Record itg_data := { i_name : nat; i_ids : list Z; i_type : nat }.
(** integral_data.py 55-61: the ids of the integrals of one type that have the name; [names[i]] raises past the end. *)
Fixpoint ids_named (name : nat) (names : list nat) (ids : list Z) : outcome (list Z) :=
  match ids with
  | [] => Ret []
  | id :: ids' => match names with
                  | [] => Abort
                  | n :: names' => rest <- ids_named name names' ids' ;; Ret (if n =? name then id :: rest else rest)
                  end
  end.
Fixpoint first_ids (name : nat) (l : list (list nat * list Z)) : outcome (list Z) :=
  match l with
  | [] => Ret []
  | (names, ids) :: l' => r <- ids_named name names ids ;; if 0 <? length r then Ret r else first_ids name l'
  end.
(** integral_data.py 32-62: _get_integral_subdomain_ids, the loops over forms and types in one list. *)
Definition get_integral_subdomain_ids (forms : list form_ir) (name : nat) : outcome (list Z) :=
  first_ids name (flat_map (fun f => combine (f_names f) (f_ids f)) forms).
(** integral_data.py 142-197: the name, ids and type of extract_integral_data. *)
Definition extract_integral_data (forms : list form_ir) (name type : nat) : outcome itg_data :=
  ids <- get_integral_subdomain_ids forms name ;;
  assert_ (0 <? length ids) (Ret {| i_name := name; i_ids := ids; i_type := type |}).

(** The arrays of the compiled form: form_integral_offsets and form_integral_ids. *)
Record ufcx_form := { u_offsets : list nat; u_ids : list Z }.
(** custom_coefficients.py 928-931: the first data of the type with the id. *)
Fixpoint find_data (l : list itg_data) (type : nat) (sid : Z) : option itg_data :=
  match l with [] => None | d :: l' => if (i_type d =? type) && existsb (Z.eqb sid) (i_ids d) then Some d else find_data l' type sid end.
(** custom_coefficients.py 904-933: _build_position_to_data, as the list of its entries (a later entry replaces an earlier one with the same key:
    keys do not repeat here). *)
Definition build_type (u : ufcx_form) (data : list itg_data) (type : nat) : outcome (list (nat * nat * itg_data)) :=
  a <- pat (u_offsets u) type ;; b <- pat (u_offsets u) (S type) ;;
  r <- pmap (fun pj => sid <- pat (u_ids u) (snd pj) ;; Ret (match find_data data type sid with Some d => [(type, fst pj, d)] | None => [] end))
            (combine (seq 0 (b - a)) (seq a (b - a))) ;;
  Ret (concat r).
Definition build_position_to_data (u : ufcx_form) (data : list itg_data) : outcome (list (nat * nat * itg_data)) :=
  assert_ (6 <=? length (u_offsets u))
    (c <- build_type u data 0 ;; e <- build_type u data 1 ;; i <- build_type u data 2 ;; Ret (c ++ e ++ i)).
(** custom_coefficients.py 872-902: _get_itg_data. *)
Fixpoint lookup (l : list (nat * nat * itg_data)) (type pos : nat) : outcome itg_data :=
  match l with [] => Abort | (t, p, d) :: l' => if (t =? type) && (p =? pos) then Ret d else lookup l' type pos end.
Definition get_itg_data (u : ufcx_form) (data : list itg_data) (type pos : nat) : outcome itg_data :=
  assert_ (type <? 3) (m <- build_position_to_data u data ;; lookup m type pos).

(** _dolfinx_patches.py 31-80. The two bodies of assemble_scalar: what they hand to C++ for given constants and coefficients ([None]: not given). *)
Inductive body := Original | Patched.
Section Patch.
  Context {T : Type} (pack_constants pack_coefficients : T).
  (** DOLFINx 0.10.0, assemble.py 163, as quoted in the file (47-49); 68-71 for the patch. Returns (constants, coefficients); constants are packed alike. *)
  Definition call (b : body) (constants coeffs : option T) : T * T :=
    let constants := match constants with None => pack_constants | Some c => c end in
    match b with
    | Original => (constants, match coeffs with None => pack_coefficients | Some _ => constants end)
    | Patched => (constants, match coeffs with None => pack_coefficients | Some c => c end)
    end.
  (** The attributes assemble_scalar of dolfinx.fem.assemble and dolfinx.fem, and the names bound by the user ("from dolfinx.fem import assemble_scalar"). *)
  Record modules := { m_assemble : body; m_fem : body; m_bound : list (nat * body) }.
  Inductive import := ImportQugar | BindFem (name : nat) | BindAssemble (name : nat).
  (** 58-80: version gate, the function already patched, the two assignments. [v010]: the version starts with "0.10.". *)
  Definition apply_patches (v010 : bool) (s : modules) : modules :=
    if negb v010 then s else match m_assemble s with Patched => s | Original => {| m_assemble := Patched; m_fem := Patched; m_bound := m_bound s |} end.
  (** __init__.py 21-26 and Python's import statements ("from ... import" binds the present value). *)
  Definition step (v010 : bool) (s : modules) (i : import) : modules :=
    match i with
    | ImportQugar => apply_patches v010 s
    | BindFem n => {| m_assemble := m_assemble s; m_fem := m_fem s; m_bound := (n, m_fem s) :: m_bound s |}
    | BindAssemble n => {| m_assemble := m_assemble s; m_fem := m_fem s; m_bound := (n, m_assemble s) :: m_bound s |}
    end.
  Fixpoint bound (l : list (nat * body)) (n : nat) : option body := match l with [] => None | (k, b) :: l' => if k =? n then Some b else bound l' n end.
End Patch.
Definition fresh_modules : modules := {| m_assemble := Original; m_fem := Original; m_bound := [] |}.
