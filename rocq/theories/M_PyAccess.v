(** python/qugar/dolfinx/fe_table.py: the text of the access to a loaded table, from the texts of the subscripts of FFCx's access. *)
From Coq Require Import List Arith Ascii String DecimalString.
From Verif Require Import M_Base M_PyText.
Import ListNotations.
Local Open Scope list_scope. Local Open Scope nat_scope.

(** int(s) for a non-empty text of ASCII digits (s.isdecimal()), None for other texts. *)
Definition decimal (s : text) : option nat :=
  match s with [] => None | _ => option_map Nat.of_uint (NilEmpty.uint_of_string (string_of_list_ascii s)) end.
(** 422: the regular expression quadrature_permutation\[(\d+)\]; item 23 is the group. *)
Definition perm_access : list item := lit "quadrature_permutation[" ++ [Plus digit] ++ lit "]".
(** 426-432, 438-440: transform_index, and whether its result differs from 0 (texts in parentheses are no numbers). *)
Definition not_zero (index : text) : bool :=
  match decimal (filter (fun x => negb (is " " x)) index) with Some n => negb (n =? 0) | None => true end.
(** str.join. *)
Fixpoint join (sep : text) (l : list text) : text := match l with [] => [] | [s] => s | s :: l' => s ++ sep ++ join sep l' end.
(** 392-454: create_new_access_code; [index0], [index2], [index3] are the texts of the first, third and fourth subscripts (the second is not read). *)
Definition create_new_access_code (constant : bool) (perms funcs : nat) (name index0 index2 index3 : text) (has_permutations : bool) : outcome text :=
  assert_ (negb constant)
  (perm <- (if has_permutations && negb (if list_eq_dec ascii_dec index0 (txt "0") then true else false) then
              assert_ (1 <? perms)
              (match rsearch perm_access index0 with
               | Some (_, l, _) => match decimal (concat (firstn 1 (skipn 23 l))) with Some n => Ret (Some n) | None => Abort end
               | None => Abort
               end)
            else Ret None) ;;
   let terms := (if not_zero index2 then [dec funcs ++ txt " * " ++ index2] else []) ++ (if not_zero index3 then [index3] else []) in
   Ret (name ++ (match perm with Some n => txt "[" ++ dec n ++ txt "]" | None => [] end) ++ txt "[" ++ join (txt " + ") terms ++ txt "]")).
