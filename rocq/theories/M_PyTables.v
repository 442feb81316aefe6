(** python/qugar/dolfinx/fe_table.py and integral_data.py: the order of the tables and of the quadratures of an integral. *)
From Coq Require Import ZArith.
From Verif Require Import M_PyBase.
Open Scope nat_scope.

(** A table: the number FFCx has given to its element (it may change from one session to the next), and what does not change: the element, the
    integer made of the hash of its text, the quadrature, the dimension of the element and the rest of the table. *)
Record content := mk_content { element : nat; quad : nat; element_dim : nat; rest : nat }.
Record table := mk_table { fe_id : nat; what : content }.

(** A dictionary with its order of insertion: an existing key keeps its place. *)
Fixpoint dict_set {V} (d : list (nat * V)) (k : nat) (v : V) : list (nat * V) :=
  match d with [] => [(k, v)] | (k', v') :: d' => if k =? k' then (k, v) :: d' else (k', v') :: dict_set d' k v end.
Fixpoint dict_get {V} (d : list (nat * V)) (k : nat) : option V := match d with [] => None | (k', v) :: d' => if k =? k' then Some v else dict_get d' k end.
(** list.index: raises when there is none. *)
Fixpoint list_index (l : list nat) (x : nat) : outcome nat := match l with [] => Abort | y :: l' => if x =? y then Ret 0 else k <- list_index l' x ;; Ret (S k) end.
(** list.sort(key): stable. *)
Fixpoint insert_by {T} (key : T -> nat) (t : T) (l : list T) : list T := match l with [] => [t] | u :: l' => if key t <=? key u then t :: l else u :: insert_by key t l' end.
Definition sort_by {T} (key : T -> nat) (l : list T) : list T := fold_right (insert_by key) [] l.
(** fe_table.py 453-483: _sort_FE_tables; [hash] is the integer of the hash of the text of an element, np.argsort a parameter (any order of equal
    values). *)
Definition sort_FE_tables (hash : nat -> Z) (argsort : list Z -> list nat) (tables : list table) : outcome (list table) :=
  let ids_to_hashes := fold_left (fun d t => dict_set d (fe_id t) (hash (element (what t)))) tables [] in
  let sorted_to_id := argsort (map snd ids_to_hashes) in
  id_to_sorted <- pmap (fun i => k <- list_index sorted_to_id i ;; Ret (nth i (map fst ids_to_hashes) 0, k)) (seq 0 (length ids_to_hashes)) ;;
  Ret (sort_by (fun t => match dict_get id_to_sorted (fe_id t) with Some k => k | None => 0 end) tables).
(** integral_data.py 178-188: the tables of every quadrature, in the order of the first table of each; whether the dimension of some element is
    another one than that of the integral. *)
Definition group (tables : list table) : list (nat * list table) :=
  fold_left (fun d t => let q := quad (what t) in dict_set d q ((match dict_get d q with Some l => l | None => [] end) ++ [t])) tables [].
Definition is_mixed_dim (tdim : nat) (tables : list table) : bool := fold_left (fun b t => if element_dim (what t) =? tdim then b else true) tables false.
(** integral_data.py 136-140: the type of the first table; raises without tables. *)
Definition first_table (groups : list (nat * list table)) : outcome table :=
  match groups with [] => Abort | (_, []) :: _ => Abort | (_, t :: _) :: _ => Ret t end.
