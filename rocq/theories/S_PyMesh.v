(** Specification of the renumberings of a mesh. *)
From Coq Require Import List ZArith Permutation Sorting.Sorted Relations.
From Verif Require Import M_PyMesh.
Import ListNotations.
Local Open Scope Z_scope.

(** [argsort] returns the positions of the entries in increasing order (of equal entries, in any order). *)
Definition sorts (argsort : list Z -> list nat) : Prop :=
  forall l, Permutation (argsort l) (seq 0 (length l)) /\ StronglySorted Z.le (map (fun i => nth i l 0) (argsort l)).
(** [r] is a position of v in [l], or -1 when there is none. *)
Definition position (l : list Z) (v r : Z) : Prop :=
  (In v l -> 0 <= r < Z.of_nat (length l) /\ nth (Z.to_nat r) l 0 = v) /\ (~ In v l -> r = -1).
(** A Mesh on a process: DOLFINx was given [n] cells, those of the original ones that are active; the cells of this process are some of them. *)
Definition cells_of_process (m : mesh) (n_cells : nat) : Prop :=
  NoDup (original_cell_index m)
  /\ match active_cells m with
     | Some a => NoDup a /\ (forall c, In c a -> 0 <= c < Z.of_nat n_cells) /\ (forall i, In i (original_cell_index m) -> 0 <= i < Z.of_nat (length a))
     | None => forall i, In i (original_cell_index m) -> 0 <= i < Z.of_nat n_cells
     end.
(** The original id of the cell at position i of the process. *)
Definition original_of (m : mesh) (i c : Z) : Prop :=
  0 <= i < Z.of_nat (length (original_cell_index m))
  /\ match active_cells m with
     | Some a => nth (Z.to_nat (nth (Z.to_nat i) (original_cell_index m) 0)) a (-1) = c
     | None => nth (Z.to_nat i) (original_cell_index m) 0 = c
     end.
(** Nodes: [n] original nodes; those of the process are some of the (merged) nodes. *)
Definition nodes_of_process (m : mesh) (n : nat) : Prop :=
  NoDup (input_global_indices m)
  /\ match merged_nodes_map m with
     | [] => forall i, In i (input_global_indices m) -> 0 <= i < Z.of_nat n
     | M => length M = n /\ (forall x, In x M -> 0 <= x) /\ (forall i, In i (input_global_indices m) -> In i M)
     end.
(** The new node of the original node c. *)
Definition new_node (m : mesh) (c : Z) : Z := match merged_nodes_map m with [] => c | M => nth (Z.to_nat c) M (-1) end.

Local Close Scope Z_scope.
(** Coincidence of nodes: the same, or a pair. *)
Definition coincident (pairs : list (nat * nat)) (i j : nat) : Prop := i = j \/ In (i, j) pairs \/ In (j, i) pairs.
(** Connected by a chain of coincident nodes. *)
Definition chained (pairs : list (nat * nat)) : nat -> nat -> Prop := clos_refl_trans nat (coincident pairs).
