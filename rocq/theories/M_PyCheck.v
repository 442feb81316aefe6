(** python/qugar/dolfinx/codegeneration.py: the checks of an integral before its kernel is modified. Texts are lists of ASCII characters. *)
From Coq Require Import Ascii String.
From Verif Require Import M_PyBase.
Local Open Scope nat_scope.
Notation chars := (list ascii).

(** re's \w and str.isnumeric, on ASCII characters. *)
Definition code (c : ascii) : nat := nat_of_ascii c.
Definition is_digit (c : ascii) : bool := (48 <=? code c) && (code c <=? 57).
Definition is_word (c : ascii) : bool := is_digit c || ((65 <=? code c) && (code c <=? 90)) || ((97 <=? code c) && (code c <=? 122)) || (code c =? 95).
(** int(s) of digits. *)
Definition int_of (s : chars) : nat := fold_left (fun n c => 10 * n + (code c - 48)) s 0.
Fixpoint strip (p t : chars) : option chars :=
  match p, t with
  | [], _ => Some t
  | a :: p', b :: t' => if Ascii.eqb a b then strip p' t' else None
  | _ :: _, [] => None
  end.
Fixpoint span (t : chars) : chars * chars :=
  match t with [] => ([], []) | c :: t' => if is_word c then (c :: fst (span t'), snd (span t')) else ([], t) end.
(** codegeneration.py 211-217: _collected_indices of the pattern "[name]\[(\w+)\]": the places where it matches, from left to right. (Simplified: the
    search goes on at the next character and not after the match: no match starts inside another.) *)
Fixpoint collected (name : chars) (t : chars) : outcome (list nat) :=
  match t with
  | [] => Ret []
  | _ :: t' =>
      match strip (name ++ ["["%char]) t with
      | Some r => match span r with
                  | ((_ :: _) as w, "]"%char :: _) => assert_ (forallb is_digit w) (rest <- collected name t' ;; Ret (int_of w :: rest))
                  | _ => collected name t'
                  end
      | None => collected name t'
      end
  end.

Inductive entity := Ecell | Efacet | Eother.
Inductive itype := Icell | Iexterior | Iinterior | Iother.
Inductive dtype := F32 | F64 | C64 | C128 | Dother.
(** What is read of the representation and of the body (pre_text and body of the loops). *)
Record integral := { k_entity : entity; k_type : itype; k_mixed : bool; k_tensor : list bool; k_loops : list (chars * chars); k_coeffs : dtype; k_dtype : dtype }.
(** 206-209. *)
Definition body_text (i : integral) : chars := (match k_loops i with [] => [] | (pre, _) :: _ => pre end) ++ concat (map snd (k_loops i)).
(** 219-223. *)
Definition target_indices (t : itype) : list nat := match t with Icell => [] | Iexterior => [0] | Iinterior => [0; 1] | Iother => [] end.
(** Equality of sets. *)
Definition same_set (a b : list nat) : bool := forallb (fun x => existsb (Nat.eqb x) b) a && forallb (fun x => existsb (Nat.eqb x) a) b.
Definition entity_local_index : chars := list_ascii_of_string "entity_local_index".
Definition quadrature_permutation : chars := list_ascii_of_string "quadrature_permutation".
Definition dtype_eqb (a b : dtype) : bool := match a, b with F32, F32 | F64, F64 | C64, C64 | C128, C128 | Dother, Dother => true | _, _ => false end.
(** 146-243: _check_FFCx_input. *)
Definition check_FFCx_input (i : integral) : outcome unit :=
  assert_ (match k_entity i with Eother => false | _ => true end)
  (assert_ (match k_type i with Iother => false | _ => true end)
  (assert_ (if k_mixed i then match k_type i with Iexterior => true | _ => false end else true)
  (assert_ (forallb negb (k_tensor i))
  (idx <- collected entity_local_index (body_text i) ;;
   assert_ (same_set idx (target_indices (k_type i)))
  (idx <- collected quadrature_permutation (body_text i) ;;
   assert_ (negb (0 <? length idx) || same_set idx (target_indices (k_type i)))
   (match k_coeffs i with
    | F32 | C64 => assert_ (dtype_eqb (k_dtype i) F32) (Ret tt)
    | F64 | C128 => assert_ (dtype_eqb (k_dtype i) F64) (Ret tt)
    | Dother => Abort
    end)))))).
