(** Specification of the treatment of kernel texts. *)
From Coq Require Import List Ascii String Arith DecimalString.
From Verif Require Import M_PyText.
Import ListNotations.
Local Open Scope char_scope. Local Open Scope nat_scope. Local Open Scope list_scope.

(** Characters. *)
Definition blank (x : ascii) : Prop := x = " "%char \/ 9 <= nat_of_ascii x <= 13 \/ 28 <= nat_of_ascii x <= 31.
Definition figure (x : ascii) : Prop := 48 <= nat_of_ascii x <= 57.
Definition name_char (x : ascii) : Prop := figure x \/ 65 <= nat_of_ascii x <= 90 \/ 97 <= nat_of_ascii x <= 122 \/ x = "_"%char.
Definition op_char (x : ascii) : Prop := In x (txt "*+-/%(") \/ blank x.
Definition numeral (n : nat) : text := txt (NilEmpty.string_of_uint (Nat.to_uint n)).
Notation blanks := (Forall blank).

(** Texts with paired brackets. *)
Inductive balanced (o c : ascii) : text -> Prop :=
  | b_nil : balanced o c []
  | b_char x s : x <> o -> x <> c -> balanced o c s -> balanced o c (x :: s)
  | b_pair s t : balanced o c s -> balanced o c t -> balanced o c (o :: s ++ c :: t).
(** The header of a loop over points: for (int iq = 0; iq < 9; ++iq), with any blanks. *)
Definition header_text (m : text) : Prop := exists w1 w2 w3 w4 w5 w6 w7 w8 w9 d w10 w11 w12,
  Forall blanks [w1; w2; w3; w4; w5; w6; w7; w8; w9; w10; w11; w12] /\ w3 <> [] /\ d <> [] /\ Forall figure d /\
  m = txt "for" ++ w1 ++ txt "(" ++ w2 ++ txt "int" ++ w3 ++ txt "iq" ++ w4 ++ txt "=" ++ w5 ++ txt "0" ++ w6 ++ txt ";" ++ w7 ++ txt "iq" ++ w8 ++ txt "<" ++ w9 ++ d ++ w10 ++ txt ";" ++ w11 ++ txt "++iq" ++ w12 ++ txt ")".
(** The signature of a kernel: void tabulate_tensor_integral_NAME(arguments). *)
Definition signature_text (name m : text) : Prop := exists w1 w2 args, blanks w1 /\ blanks w2 /\ name <> [] /\ Forall name_char name /\ Forall (fun x => name_char x \/ blank x \/ In x (txt "|,*")) args /\
  m = (txt "void" ++ w1 ++ txt "tabulate_tensor_integral_") ++ name ++ w2 ++ txt "(" ++ args ++ txt ")".
(** [s] has no part with the property. *)
Definition without (P : text -> Prop) (s : text) : Prop := forall u m v, s = u ++ m ++ v -> ~ P m.
(** The quadrature of a loop: the three characters of the first _QNNN followed by one of [|_e, otherwise those of the first weights_NNN. *)
Definition three (q : text) : Prop := List.length q = 3 /\ Forall name_char q.
Definition tagged (q m : text) : Prop := three q /\ exists x, In x (txt "[|_e") /\ m = txt "_Q" ++ q ++ [x].
Definition weighted (q m : text) : Prop := three q /\ m = txt "weights_" ++ q.
Definition first (P : text -> text -> Prop) (q s : text) : Prop := exists u m v, s = u ++ m ++ v /\ P q m /\
  forall u' v' q' m', s = u' ++ m' ++ v' -> P q' m' -> List.length u <= List.length u'.
Definition loop_quadrature (q b : text) : Prop := first tagged q b \/ without (fun m => exists q, tagged q m) b /\ first weighted q b.
(** A well-parsed loop: the text before it has no loop, its header is a loop header up to the bracket, its body has paired brackets and the quadrature of the loop. *)
Definition good_loop (l : loop) : Prop :=
  without header_text (pre_text l) /\ (exists m w, header l = m ++ w ++ ["{"] /\ header_text m /\ blanks w)
  /\ balanced "{" "}" (body l) /\ loop_quadrature (quad_name l) (body l).
(** [t] is [s] with every reference c[n] after an operator replaced by [sigma n], if it has a replacement, at once. *)
Inductive replaced (sigma : nat -> option text) : text -> text -> Prop :=
  | r_nil : replaced sigma [] []
  | r_ref x n r s t : op_char x -> sigma n = Some r -> replaced sigma s t -> replaced sigma (x :: txt "c[" ++ numeral n ++ txt "]" ++ s) (x :: r ++ t)
  | r_skip x s t : (forall n u, s = txt "c[" ++ numeral n ++ txt "]" ++ u -> op_char x -> sigma n = None) -> replaced sigma s t -> replaced sigma (x :: s) (x :: t).
(** The component i of the normal at the point iq, in dimension d. *)
Definition component (d : nat) (q : text) (i : nat) : text :=
  match i with 0 => txt "normals_" ++ q ++ txt "[" ++ numeral d ++ txt " * iq]" | _ => txt "normals_" ++ q ++ txt "[" ++ numeral d ++ txt " * iq + " ++ numeral i ++ txt "]" end.
(** The component i of the normal for the constants off + i, with off the first offset that reaches n. *)
Definition normal_at (tdim : nat) (q : text) (offsets : list nat) (n : nat) : option text :=
  match find (fun off => (off <=? n) && (n <? off + tdim))%bool offsets with Some off => Some (component tdim q (n - off)) | None => None end.
