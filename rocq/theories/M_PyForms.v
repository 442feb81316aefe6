(** python/qugar/utils.py, dolfinx/jit.py, dolfinx/forms.py, dolfinx/petsc.py: versions, environment of the linker, forms. *)
From Verif Require Import M_PyBase.
Local Open Scope Z_scope.

(** ** Versions *)
(** utils.py 55-69: _extract_version. A version string is given by the values of its parts between dots ([None]: not a number, int() raises). *)
Definition extract_version (s : list (option Z)) : outcome (Z * Z * Z) :=
  vals <- pmap (fun p => match p with Some v => Ret v | None => Abort end) s ;;
  match vals with [a; b; c] => Ret (a, b, c) | _ => Abort end.
(** utils.py 72-91: _compare_version_lt. *)
Definition compare_version_lt (lhs rhs : list (option Z)) : outcome bool :=
  l <- extract_version lhs ;; r <- extract_version rhs ;;
  let '(l0, l1, l2) := l in let '(r0, r1, r2) := r in
  Ret (if negb (l0 =? r0) then l0 <? r0 else if negb (l1 =? r1) then l1 <? r1 else l2 <? r2).
(** utils.py 94-113: _compare_version_le. *)
Definition compare_version_le (lhs rhs : list (option Z)) : outcome bool :=
  l <- extract_version lhs ;; r <- extract_version rhs ;;
  let '(l0, l1, l2) := l in let '(r0, r1, r2) := r in
  Ret (if r0 <? l0 then false else if r1 <? l1 then false else l2 <=? r2).
(** utils.py 116-128: check_version_in_range ([and] is lazy). *)
Definition check_version_in_range (version lower upper : list (option Z)) : outcome bool :=
  b <- compare_version_le lower version ;;
  if b then compare_version_lt version upper else Ret false.
(** utils.py 18-52: the ranges of DOLFINx, Basix and FFCx, and of UFL. *)
Definition fenics_range : list (option Z) * list (option Z) := ([Some 0; Some 10; Some 0], [Some 0; Some 11; Some 0]).
Definition ufl_range : list (option Z) * list (option Z) := ([Some 2025; Some 2; Some 0], [Some 2025; Some 3; Some 0]).

(** ** Environment of the linker *)
Section Linker.
  Context {token : Type} (tok_eqb : token -> token -> bool).
  (** jit.py 81: list(dict.fromkeys(tokens)): the first occurrence of every token, in order. *)
  Fixpoint fromkeys (seen : list token) (l : list token) : list token :=
    match l with [] => [] | x :: l' => if existsb (tok_eqb x) seen then fromkeys seen l' else x :: fromkeys (x :: seen) l' end.
  (** jit.py 67-89: _deduped_ldshared around [body]; [env] is the variable LDSHARED, [raw] the tokens of sysconfig's LDSHARED. The [finally]
      clause runs whatever the body does. The result: what the body saw and returned, and the variable afterwards. *)
  Definition deduped_ldshared {A} (raw : list token) (env : option (list token)) (body : option (list token) -> outcome A) : outcome A * option (list token) :=
    let saved := env in
    let env1 := match raw with [] => env | _ => Some (fromkeys [] raw) end in
    (body env1, match saved with None => None | Some s => Some s end).
End Linker.

(** ** Forms *)
(** Subdomain ids of an integral: "everywhere", an integer, a tuple of integers. *)
Inductive sid := Everywhere | Id (n : Z) | Ids (l : list Z).
(** Subdomain data: a MeshTags object (by identity), or a subdomain id (forms.py 171 passes it in the place of the data). *)
Inductive sdata := Tags (k : nat) | Misplaced (s : sid).
Inductive itype := Cell | Exterior | Interior.
Definition itype_eqb (a b : itype) : bool := match a, b with Cell, Cell | Exterior, Exterior | Interior, Interior => true | _, _ => false end.
(** A UFL integral: its integrand (by name), type, subdomain id and data, and whether its metadata have the mark "ext_facet_everywhere". *)
Record integral := { g_fun : nat; g_type : itype; g_sid : sid; g_data : option sdata; g_mark : bool }.
(** Integrals are objects that forms share: a heap of integrals; a form is the list of (the positions of) its integrals, in the order of form.integrals(). *)
Notation heap := (list integral) (only parsing).
Definition get_itg (h : heap) (r : nat) : integral :=
  nth r h {| g_fun := 0; g_type := Cell; g_sid := Everywhere; g_data := None; g_mark := false |}.
Definition set_itg (h : heap) (r : nat) (x : integral) : heap := firstn r h ++ x :: skipn (S r) h.
Definition is_everywhere (s : sid) : bool := match s with Everywhere => true | Id n => n =? -1 | Ids _ => false end.
(** forms.py 151-157: _get_max_subdomain_id (plus one): integers only. *)
Definition new_id (h : heap) (form : list nat) : Z :=
  1 + fold_left (fun m r => let g := get_itg h r in
    match g_type g, g_sid g with Exterior, Id n => Z.max m n | _, _ => m end) form (-1).
(** forms.py 159-177: the loop over the integrals; an integral that is modified is replaced by a new object in [old_integrals]. *)
Fixpoint modify (form : list nat) (h : heap) (todo : list nat) : heap * list nat :=
  match todo with
  | [] => (h, [])
  | r :: todo' =>
      let g := get_itg h r in
      if itype_eqb (g_type g) Exterior && is_everywhere (g_sid g) then
        let copy := {| g_fun := g_fun g; g_type := g_type g; g_sid := g_sid g; g_data := Some (Misplaced (g_sid g)); g_mark := g_mark g |} in
        let mod_ := {| g_fun := g_fun g; g_type := g_type g; g_sid := Id (new_id h form); g_data := None; g_mark := true |} in
        let h1 := set_itg h r mod_ ++ [copy] in
        let res := modify form h1 todo' in
        (fst res, length h :: snd res)
      else let res := modify form h todo' in (fst res, r :: snd res)
  end.
(** UFL's Form.subdomain_data: the data of the integrals of a type, in order (computed when it is asked for the first time). *)
Definition data_of (h : heap) (form : list nat) (t : itype) : list (option sdata) :=
  map g_data (filter (fun g => itype_eqb (g_type g) t) (map (get_itg h) form)).
Definition sid_eq_dec (a b : sid) : {a = b} + {a <> b}.
Proof. repeat decide equality. Defined.
Definition sdata_eq_dec (a b : sdata) : {a = b} + {a <> b}.
Proof. repeat decide equality. Defined.
(** forms.py 259-261: all([d is data[0] for d in data if d is not None]). *)
Definition same_data (l : list (option sdata)) : bool :=
  match l with
  | [] => true
  | d0 :: _ => forallb (fun d => match d, d0 with None, _ => true | Some x, Some y => if sdata_eq_dec x y then true else false | Some _, None => false end) l
  end.
Fixpoint insert (x : Z) (l : list Z) : list Z := match l with [] => [x] | y :: l' => if x <=? y then x :: l else y :: insert x l' end.
Definition zsort (l : list Z) : list Z := fold_right insert [] l.
(** forms.py 297-310, 318-322: the ids of an integral with data. *)
Definition ids_of (s : sid) : list Z := match s with Everywhere => [] | Id n => [n] | Ids l => l end.
Definition listed_ids (h : heap) (form : list nat) (t : itype) : list Z :=
  zsort (flat_map (fun g => if itype_eqb (g_type g) t then match g_data g with Some _ => ids_of (g_sid g) | None => [] end else []) (map (get_itg h) form)).
(** forms.py 311-316. *)
Definition everywhere_ids (h : heap) (form : list nat) : list Z :=
  flat_map (fun g => match g_data g, g_type g, g_sid g with None, Exterior, Id n => if g_mark g then [n] else [] | _, _, _ => [] end) (map (get_itg h) form).

Section Compile.
  (** Entities with a tag, all the facets of the unfitted domain for exterior integrals; whether the compilation of FFCx succeeds. *)
  Context {entity : Type} (tagged : nat -> itype -> Z -> list entity) (all_facets : list entity) (ffcx : list integral -> bool).
  (** dolfinx.fem.forms.get_integration_domains. *)
  Definition get_integration_domains (t : itype) (d : option sdata) (ids : list Z) : outcome (list (Z * list entity)) :=
    match d with
    | None => Ret []
    | Some (Tags k) => Ret (map (fun i => (i, tagged k t i)) ids)
    | Some (Misplaced _) => Abort
    end.
  Definition domains_of (h : heap) (form : list nat) (t : itype) : outcome (list (Z * list entity)) :=
    match data_of h form t with
    | [] => Ret []
    | d0 :: _ => get_integration_domains t d0 (listed_ids h form t)
    end.
  (** What DOLFINx receives: the integrals as FFCx compiled them, and for every type the entities of the ids. *)
  Record compiled := { o_itgs : list integral; o_dom : itype -> list (Z * list entity) }.
  (** forms.py 238-354, _form: the heap and the form after the call, and the result. *)
  Definition form_ (h : heap) (form : list nat) : (heap * list nat) * outcome compiled :=
    let md := modify form h form in
    let h1 := fst md in
    let r :=
      assert_ (same_data (data_of h1 form Cell) && same_data (data_of h1 form Exterior) && same_data (data_of h1 form Interior))
        (assert_ (ffcx (map (get_itg h1) form))
          (c <- domains_of h1 form Cell ;; e <- domains_of h1 form Exterior ;; i <- domains_of h1 form Interior ;;
           let ext := e ++ map (fun n => (n, all_facets)) (everywhere_ids h1 form) in
           Ret {| o_itgs := map (get_itg h1) form; o_dom := fun t => match t with Cell => c | Exterior => ext | Interior => i end |})) in
    ((h1, match r with Ret _ => snd md | _ => form end), r).

  (** forms.py 356-384: form_custom on a form or on nested lists of forms; an empty form gives None. *)
  Inductive fobj := FForm (refs : list nat) | FList (l : list fobj).
  Inductive fres := RForm (c : compiled) | RNone | RList (l : list fres).
  (** 356-361: _flatten_list: what an element of the list contributes. *)
  Fixpoint flatten1 (x : fres) : list fres :=
    match x with
    | RList l => (fix go (l : list fres) : list fres := match l with [] => [] | y :: l' => flatten1 y ++ go l' end) l
    | _ => []
    end.
  Definition flatten_list (l : list fres) : list fres := flat_map flatten1 l.
  (** 363-384: _create_form. *)
  Fixpoint create_form (h : heap) (o : fobj) : heap * outcome fres :=
    match o with
    | FForm [] => (h, Ret RNone)
    | FForm refs => let r := form_ h refs in (fst (fst r), c <- snd r ;; Ret (RForm c))
    | FList l =>
        let r := (fix go (h : heap) (l : list fobj) : heap * outcome (list fres) :=
          match l with
          | [] => (h, Ret [])
          | x :: l' => let a := create_form h x in
                       match snd a with
                       | Ret y => let b := go (fst a) l' in (fst b, ys <- snd b ;; Ret (y :: ys))
                       | _ => (fst a, Abort)
                       end
          end) h l in
        (fst r, ys <- snd r ;; Ret (RList (flatten_list ys)))
    end.
End Compile.

(** ** Coefficients of problems *)
Section Petsc.
  (** A form's pack_coefficients and update_coefficients (C135, C136) for the current values of its coefficients. *)
  Context {form coeffs values : Type} (pack : form -> values -> coeffs) (update : form -> coeffs -> values -> outcome coeffs).
  (** A form or a list of forms, and its coefficients. *)
  Inductive forms := One (f : form) | Many (l : list form).
  Inductive packed := OneC (c : coeffs) | ManyC (l : list coeffs).
  (** petsc.py 50-77: _pack_coefficients (lists of lists of forms are not modelled). *)
  Definition pack_coefficients (fs : forms) (v : values) : packed :=
    match fs with One f => OneC (pack f v) | Many l => ManyC (map (fun f => pack f v) l) end.
  (** petsc.py 80-111: _update_coefficients: every form of a list is given all the old coefficients; update_coefficients raises when these are a list
      instead of a dictionary. *)
  Definition update_coefficients (fs : forms) (old : packed) (v : values) : outcome packed :=
    match fs, old with
    | One f, OneC c => c' <- update f c v ;; Ret (OneC c')
    | One f, ManyC _ => Abort
    | Many l, OneC c => cs <- pmap (fun f => update f c v) l ;; Ret (ManyC cs)
    | Many [], ManyC _ => Ret (ManyC [])
    | Many (_ :: _), ManyC _ => Abort
    end.
  (** petsc.py 337-361: _get_b_coeffs, _get_A_coeffs: the stored coefficients and those for the assembly. *)
  Definition get_coeffs (fs : forms) (stored : option packed) (v : values) : outcome packed :=
    match stored with None => Ret (pack_coefficients fs v) | Some c => update_coefficients fs c v end.
  (** NonlinearProblem: the assemblies of the residual (363-384, it needs both) and of the Jacobian (386-396). *)
  Record problem := { b_coeffs : option packed; A_coeffs : option packed }.
  Inductive call := CallF (v : values) | CallJ (v : values).
  Definition do_call (L a : forms) (p : problem) (c : call) : outcome (problem * list packed) :=
    match c with
    | CallF v => b <- get_coeffs L (b_coeffs p) v ;; A <- get_coeffs a (A_coeffs p) v ;; Ret ({| b_coeffs := Some b; A_coeffs := Some A |}, [b; A])
    | CallJ v => A <- get_coeffs a (A_coeffs p) v ;; Ret ({| b_coeffs := b_coeffs p; A_coeffs := Some A |}, [A])
    end.
  Fixpoint do_calls (L a : forms) (p : problem) (cs : list call) : outcome (list (list packed)) :=
    match cs with [] => Ret [] | c :: cs' => r <- do_call L a p c ;; rs <- do_calls L a (fst r) cs' ;; Ret (snd r :: rs) end.
End Petsc.
