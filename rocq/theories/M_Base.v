(** Common conventions of the model: outcomes of a C++ call and a few list functions. *)
From Coq Require Export List ZArith Bool Lia.
Export ListNotations.

(** Outcome of a call in the debug build: normal return, failing [assert], undefined behaviour
    (signed overflow, out-of-range access, iterator before begin), or exhaustion of the fuel of a
    loop (excluded by the theorems). *)
Inductive outcome (A : Type) : Type :=
| Ret (a : A)
| Abort
| UB
| OutOfFuel.
Arguments Ret {A} a.
Arguments Abort {A}.
Arguments UB {A}.
Arguments OutOfFuel {A}.

Definition bind {A B} (m : outcome A) (f : A -> outcome B) : outcome B :=
  match m with Ret a => f a | Abort => Abort | UB => UB | OutOfFuel => OutOfFuel end.
Notation "x <- m ;; f" := (bind m (fun x => f)) (at level 61, m at next level, right associativity).

(** [assert(b); k] *)
Definition assert_ {A} (b : bool) (k : outcome A) : outcome A := if b then k else Abort.

(** Signed machine integers: the result of an operation, or UB on overflow. *)
Definition INT_MAX : Z := (2 ^ 31 - 1)%Z.
Definition INT_MIN : Z := (- 2 ^ 31)%Z.
Definition INT64_MAX : Z := (2 ^ 63 - 1)%Z.
Definition INT64_MIN : Z := (- 2 ^ 63)%Z.
Definition i32 (x : Z) : outcome Z := if (INT_MIN <=? x)%Z && (x <=? INT_MAX)%Z then Ret x else UB.
Definition i64 (x : Z) : outcome Z := if (INT64_MIN <=? x)%Z && (x <=? INT64_MAX)%Z then Ret x else UB.

(** [static_cast<int>] of an int64 (modular, implementation-defined before C++20, modular since). *)
Definition cast_int (x : Z) : Z := ((x + 2 ^ 31) mod 2 ^ 32 - 2 ^ 31)%Z.
