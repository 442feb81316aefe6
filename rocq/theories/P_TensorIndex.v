(** Properties C01-C07: tensor indices and index ranges. *)
From Verif Require Import M_Base M_TensorIndex S_TensorIndex L_TensorIndex.
From Coq Require Import Sorting.Sorted.
Open Scope Z_scope.

(** C01 *)
Theorem C01_flat_tensor_bijection : forall size, Forall (fun s => 0 < s) size -> cells size <= INT_MAX ->
  (forall f, 0 <= f < cells size -> exists t, to_tensor f size = Ret t /\ valid_index size t /\ to_flat t size = Ret f) /\
  (forall t, valid_index size t ->
     to_flat t size = Ret (lex size t) /\ 0 <= lex size t < cells size /\ to_tensor (lex size t) size = Ret t).
Proof. exact C01_lemma. Qed.
Print Assumptions C01_flat_tensor_bijection.

Example C01_nonvacuous : Forall (fun s => 0 < s) [3;4;5] /\ cells [3;4;5] <= INT_MAX /\ valid_index [3;4;5] [2;1;3] /\
  lex [3;4;5] [2;1;3] = 41 /\ to_tensor 41 [3;4;5] = Ret [2;1;3].
Proof. repeat split; try (repeat constructor; lia); vm_compute; congruence. Qed.

(** C02: false. [to_flat] works for 2^32 cells, [to_tensor] overflows its [int] product. *)
Theorem C02_flat_roundtrip_64bit_refuted : exists size t f,
  Forall (fun s => 0 < s) size /\ cells size <= INT64_MAX /\ valid_index size t /\
  to_flat t size = Ret f /\ to_tensor f size = UB.
Proof.
  exists [65536; 65536], [7; 9], 589831. repeat split; try (repeat constructor; lia); vm_compute; congruence.
Qed.
Print Assumptions C02_flat_roundtrip_64bit_refuted.

(** C03 *)
Theorem C03_iteration_enumerates_range : forall r fuel, lower r <> [] -> Forall2 Z.lt (lower r) (upper r) ->
  (Z.to_nat (range_size r) <= fuel)%nat ->
  exists l, iterate fuel r = Ret l /\
    (forall t, In t l <-> in_box (lower r) (upper r) t) /\
    StronglySorted lex_lt l /\ Z.of_nat (length l) = range_size r.
Proof. exact C03_lemma. Qed.
Print Assumptions C03_iteration_enumerates_range.

Example C03_nonvacuous : let r := mk_range [1;2] [3;4] in
  lower r <> [] /\ Forall2 Z.lt (lower r) (upper r) /\ iterate 4 r = Ret [[1;2];[2;2];[1;3];[2;3]].
Proof. cbn. repeat split; try (repeat constructor; lia). congruence. Qed.

(** C04: false when the range is empty in some directions only; the exact condition is [lower = upper]. *)
Theorem C04_empty_range_iteration_refuted : exists r l,
  Forall2 Z.le (lower r) (upper r) /\ range_size r = 0 /\ iterate 10 r = Ret l /\ l <> [] /\
  Forall (fun t => ~ in_box (lower r) (upper r) t) l.
Proof.
  exists (mk_range [0;0] [0;2]), [[0;0];[0;1]].
  repeat split; try (repeat constructor; lia); try congruence.
  constructor; [|constructor; [|constructor]]; intros (_ & _ & H); specialize (H O); simpl in H; lia.
Qed.
Print Assumptions C04_empty_range_iteration_refuted.

Theorem C04_empty_range_iteration_partial : forall r fuel, Forall2 Z.le (lower r) (upper r) ->
  (iterate fuel r = Ret [] <-> lower r = upper r).
Proof. exact C04_lemma. Qed.
Print Assumptions C04_empty_range_iteration_partial.

Example C04_nonvacuous : let r := mk_range [1;2] [1;2] in Forall2 Z.le (lower r) (upper r) /\ lower r = upper r.
Proof. cbn. repeat split; repeat constructor; lia. Qed.

(** C05: proved when the bounds are non-negative and [lower + upper] does not overflow [int]. *)
Theorem C05_split_partitions_partial : forall r, Forall2 Z.lt (lower r) (upper r) -> Forall (fun x => 0 <= x) (lower r) ->
  (forall d, (d < length (lower r))%nat -> nth d (lower r) 0 + nth d (upper r) 0 <= INT_MAX) ->
  1 < range_size r ->
  exists a b, split_range r = Ret (a, b) /\
    Forall2 Z.lt (lower a) (upper a) /\ Forall2 Z.lt (lower b) (upper b) /\
    (forall t, in_box (lower r) (upper r) t <-> in_box (lower a) (upper a) t \/ in_box (lower b) (upper b) t) /\
    (forall t, ~ (in_box (lower a) (upper a) t /\ in_box (lower b) (upper b) t)) /\
    range_size a + range_size b = range_size r /\
    0 < range_size a < range_size r /\ 0 < range_size b < range_size r /\
    exists d, (d < length (lower r))%nat /\
      (forall k, (k < length (lower r))%nat -> nth k (upper r) 0 - nth k (lower r) 0 <= nth d (upper r) 0 - nth d (lower r) 0) /\
      (forall k, (k < length (lower r))%nat -> k <> d ->
          nth k (lower a) 0 = nth k (lower r) 0 /\ nth k (upper a) 0 = nth k (upper r) 0 /\
          nth k (lower b) 0 = nth k (lower r) 0 /\ nth k (upper b) 0 = nth k (upper r) 0) /\
      0 <= (nth d (upper b) 0 - nth d (lower b) 0) - (nth d (upper a) 0 - nth d (lower a) 0) <= 1.
Proof. exact C05_lemma. Qed.
Print Assumptions C05_split_partitions_partial.

Example C05_nonvacuous : let r := mk_range [1;2] [4;9] in
  Forall2 Z.lt (lower r) (upper r) /\ 1 < range_size r /\
  split_range r = Ret (mk_range [1;2] [4;5], mk_range [1;5] [4;9]).
Proof. cbn. repeat split; repeat constructor; lia. Qed.

(** C05 is false without the overflow precondition. *)
Theorem C05_split_partitions_refuted : exists r, Forall2 Z.lt (lower r) (upper r) /\
  Forall (fun x => 0 <= x <= INT_MAX) (lower r) /\ Forall (fun x => 0 <= x <= INT_MAX) (upper r) /\
  range_size r = 2 /\ split_range r = UB.
Proof.
  exists (mk_range [2^30] [2^30+2]). unfold INT_MAX; cbn. repeat split; repeat constructor; lia.
Qed.
Print Assumptions C05_split_partitions_refuted.

(** C06: a strict partial order (and exactly which one), not the documented one. *)
Theorem C06_operator_lt_partial : forall a b c, length a = length b -> length b = length c ->
  tid_lt a a = false /\ (tid_lt a b = true -> tid_lt b a = false) /\
  (tid_lt a b = true -> tid_lt b c = true -> tid_lt a c = true) /\
  (tid_lt a b = true <-> a <> [] /\ nth 0 a 0 < nth 0 b 0 /\ forall d, (0 < d < length a)%nat -> nth d a 0 <= nth d b 0).
Proof. exact C06_lemma. Qed.
Print Assumptions C06_operator_lt_partial.

Example C06_nonvacuous : tid_lt [1;2] [2;2] = true /\ tid_lt [2;2] [3;5] = true.
Proof. split; reflexivity. Qed.

(** Incomparability is not transitive, and [0,0] < [0,1] in the documented order is not reported. *)
Theorem C06_operator_lt_refuted :
  (exists a b c, length a = length b /\ length b = length c /\
     tid_lt a b = false /\ tid_lt b a = false /\ tid_lt b c = false /\ tid_lt c b = false /\
     tid_lt a c = true) /\
  (exists a b, lex_lt a b /\ tid_lt a b = false).
Proof.
  split.
  - exists [0;0], [0;1], [1;0]. repeat split; reflexivity.
  - exists [0;0], [0;1]. split; [|reflexivity]. exists 1%nat. cbn. repeat split; try lia.
Qed.
Print Assumptions C06_operator_lt_refuted.

(** C07 *)
Theorem C07_flat_membership : forall r total f, Forall (fun s => 0 < s) total -> cells total <= INT_MAX ->
  length (lower r) = length total -> length (upper r) = length total -> 0 <= f ->
  exists b, in_range_flat r f total = Ret b /\
    (b = true <-> exists t, valid_index total t /\ lex total t = f /\ in_box (lower r) (upper r) t).
Proof. exact C07_lemma. Qed.
Print Assumptions C07_flat_membership.

Example C07_nonvacuous : in_range_flat (mk_range [1;1] [3;2]) 5 [4;3] = Ret true /\
  in_range_flat (mk_range [1;1] [3;2]) 4 [4;3] = Ret false /\ in_range_flat (mk_range [1;1] [3;2]) 99 [4;3] = Ret false.
Proof. repeat split; reflexivity. Qed.
