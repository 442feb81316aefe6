(** Specification of the distribution of a mesh over processes. *)
From Coq Require Import List ZArith Permutation.
From Verif Require Import M_PyMesh S_PyMesh.
Import ListNotations.
Local Open Scope Z_scope.

(** What DOLFINx does with the rows given to it ([n] of them, by the process 0): process r holds the cells of the positions [fst (nth r parts)],
    of which it owns the first [snd (nth r parts)]; every row is owned by exactly one process. *)
Definition distribution (n : nat) (parts : list (list Z * nat)) : Prop :=
  (forall cells owned, In (cells, owned) parts -> NoDup cells /\ (owned <= length cells)%nat /\ forall i, In i cells -> 0 <= i < Z.of_nat n)
  /\ Permutation (concat (map (fun p => firstn (snd p) (fst p)) parts)) (map Z.of_nat (seq 0 n)).
(** With the meshes of the processes: the owned local cell i of the process r is the original cell c. *)
Definition owner (meshes : list mesh) (parts : list (list Z * nat)) (c : Z) (r : nat) (i : Z) : Prop :=
  exists m cells owned, nth_error meshes r = Some m /\ nth_error parts r = Some (cells, owned) /\ 0 <= i < Z.of_nat owned /\ original_of m i c.
(** Arguments of create_unfitted_impl_Cartesian_mesh: dimension 2 or 3, a positive number of cells in every direction (one for all, or one per
    direction), corners of the requested type (or both of the same type, when none is requested), xmin below xmax. [lo], [hi]: the corners, with
    the default values. *)
From Coq Require Import Reals.
From Verif Require Import M_PyUnfMesh.
Definition number_in (dim : nat) (a : cells_arg) (d : nat) (k : Z) : Prop := match a with CellsInt n => k = n | CellsList l => nth_error l d = Some k end.
Definition arguments_ok (dim : nat) (a : cells_arg) (xmin xmax : option corner) (dtype : option rtype) (lo hi : list R) (t : rtype) : Prop :=
  (dim = 2 \/ dim = 3)%nat
  /\ (forall l, a = CellsList l -> length l = dim)
  /\ (forall d, (d < dim)%nat -> exists k, number_in dim a d k /\ 1 <= k)
  /\ (forall t', dtype = Some t' -> t = t') /\ (forall c, xmin = Some c -> fst c = t /\ snd c = lo) /\ (forall c, xmax = Some c -> fst c = t /\ snd c = hi)
  /\ (dtype = None -> xmin = None -> xmax = None -> t = F64)
  /\ (xmin = None -> lo = repeat 0%R dim) /\ (xmax = None -> hi = repeat 1%R dim)
  /\ length lo = dim /\ length hi = dim /\ forall d, (d < dim)%nat -> (nth d lo 0 < nth d hi 0)%R.
