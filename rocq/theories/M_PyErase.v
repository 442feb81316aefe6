(** python/qugar/dolfinx/_kernel_body.py: the static declarations taken out of the kernels of custom cells. *)
From Coq Require Import List Arith Ascii String.
From Verif Require Import M_Base M_PyText.
Import ListNotations.
Local Open Scope list_scope. Local Open Scope nat_scope.

(** 355: the mark of the weights. *)
Definition rules_mark : list item := lit "// Quadrature rules".
(** 360: the declaration of a table, static\s+const\s+\w+\s+FE[^;]*;\s*\n. *)
Definition static_table : list item :=
  lit "static" ++ [Plus space] ++ lit "const" ++ [Plus space; Plus word; Plus space] ++ lit "FE" ++ [Star (not_ (is ";"))] ++ lit ";" ++ [Star space] ++ [One (is nl)].
(** 359-361: the text after the last match of re.finditer (each is sought after the previous one). *)
Fixpoint after_last (fuel : nat) (p : list item) (s : text) : option text :=
  match fuel with
  | 0 => None
  | S fuel => match rsearch p s with None => None | Some (_, _, b) => match after_last fuel p b with Some r => Some r | None => Some b end end
  end.
(** 344-365: erase_static_declarations. *)
Definition erase_static_declarations (k : kernel) : kernel :=
  match loops k with
  | [] => k
  | l :: ls =>
      match rsearch rules_mark (pre_text l) with
      | None => k
      | Some (a, _, _) =>
          match after_last (S (List.length (pre_text l))) static_table (pre_text l) with
          | None => k
          | Some r => with_loops k (mk_loop (quad_name l) (a ++ r) (header l) (body l) :: ls)
          end
      end
  end.
