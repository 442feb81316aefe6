(** Specification vocabulary for boxes and points over R. *)
From Verif Require Export M_Real.
Open Scope R_scope.

(** [p] lies in the closed / open box with corners [lo], [hi]; [enlarged e] widens the closed box by [e]. *)
Definition in_closed (lo hi p : list R) : Prop :=
  length lo = length p /\ length hi = length p /\
  forall d, (d < length p)%nat -> nth d lo 0 <= nth d p 0 <= nth d hi 0.
Definition in_open (lo hi p : list R) : Prop :=
  length lo = length p /\ length hi = length p /\
  forall d, (d < length p)%nat -> nth d lo 0 < nth d p 0 < nth d hi 0.
Definition in_enlarged (e : R) (lo hi p : list R) : Prop :=
  length lo = length p /\ length hi = length p /\
  forall d, (d < length p)%nat -> nth d lo 0 - e <= nth d p 0 <= nth d hi 0 + e.
(** Positive extent in every direction. *)
Definition positive_box (lo hi : list R) : Prop :=
  length lo = length hi /\ forall d, (d < length lo)%nat -> nth d lo 0 < nth d hi 0.
(** Box [lo,hi] contained in box [lo',hi']. *)
Definition box_within (lo hi lo' hi' : list R) : Prop :=
  length lo = length lo' /\ length hi = length hi' /\
  forall d, (d < length lo)%nat -> nth d lo' 0 <= nth d lo 0 /\ nth d hi 0 <= nth d hi' 0.
