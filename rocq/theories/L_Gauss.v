(** Verified computations on the tables: fixed-point arithmetic with error bounds. *)
From Coq Require Import ZArith List Lia Bool.
From Verif Require Import M_GaussData M_TanhSinhData L_GaussHints.
Import ListNotations.
Local Open Scope Z_scope.

Notation node := ((Z * Z) * (Z * Z))%type.
Definition rule_lits (lits : list (Z * Z)) (n : nat) : list (Z * Z) := firstn (2 * n) (skipn ((n - 1) * n) lits).
Fixpoint pairs_up (l : list (Z * Z)) : list node := match l with a :: b :: l' => (a, b) :: pairs_up l' | _ => [] end.
Definition unit_ : Z := 18446744073709551616.
Definition slack : Z := 32768.
(** 10^e. *)
Definition p10 (e : Z) : Z := nth (Z.to_nat e) pow10 0.
Definition exp_ok (e : Z) : bool := (0 <=? e) && (e <=? 70).
Definition node_ok (q : node) : bool :=
  let '((mx, ex), (mw, ew)) := q in exp_ok ex && exp_ok ew && (0 <? mx) && (mx <? p10 ex) && (0 <? mw) && (mw <=? p10 ew).
Definition lit_lt (a b : Z * Z) : bool := if snd a =? snd b then fst a <? fst b else fst a * p10 (snd b) <? fst b * p10 (snd a).
Fixpoint incr_ok (l : list node) : bool :=
  match l with a :: ((b :: _) as l') => lit_lt (fst a) (fst b) && incr_ok l' | _ => true end.
(** The two points are symmetric with respect to 1/2 and have the same weight up to 10^-33. *)
Definition sym_ok (q q' : node) : bool :=
  let '((mx, ex), (mw, ew)) := q in let '((mx', ex'), (mw', ew')) := q' in
  (33 <=? ex') && (ex' <=? ex) && (Z.abs (mx + mx' * p10 (ex - ex') - p10 ex) <=? p10 (ex - 33)) && (ew =? ew') && (33 <=? ew) && (Z.abs (mw - mw') <=? p10 (ew - 33)).
Definition mid_ok (q : node) : bool := 2 * fst (fst q) =? p10 (snd (fst q)).
Definition hint_ok (q : node) (h : Z * Z) : bool :=
  let '((mx, ex), (mw, ew)) := q in
  (0 <=? fst h) && (fst h <=? unit_) && (0 <=? snd h) && (snd h <=? unit_) &&
  (Z.abs ((p10 ex - 2 * mx) * unit_ - fst h * p10 ex) <=? p10 ex) && (Z.abs (mw * unit_ - snd h * p10 ew) <=? p10 ew).
Definition fmul (a b : Z) : Z := Z.shiftr (a * b) 64.
Fixpoint moments_ok (fuel : nat) (k : Z) (mid : Z) (ss ps : list Z) : bool :=
  match fuel with
  | O => true
  | S f => (Z.abs (k * (2 * fold_right Z.add 0 ps + mid) - unit_) <=? k * slack) && moments_ok f (k + 2) 0 ss (map (fun ps => fmul (fst ps) (snd ps)) (combine ps ss))
  end.
Definition all2 {A B} (f : A -> B -> bool) (l : list A) (m : list B) : bool := forallb (fun ab => f (fst ab) (snd ab)) (combine l m).
Definition half (n : nat) (l : list node) : list node := firstn (Nat.div2 n) l.
Definition middle (n : nat) (l : list node) : list node := firstn (n - 2 * Nat.div2 n) (skipn (Nat.div2 n) l).
(** Points increasing in (0,1), positive weights, symmetry. *)
Definition shape_ok (n : nat) (l : list node) : bool :=
  (length l =? n)%nat && forallb node_ok l && incr_ok l && all2 sym_ok (half n l) (half n (rev l)) && forallb mid_ok (middle n l).
Definition gauss_ok (n : nat) (l : list node) (h : list (Z * Z)) : bool :=
  let hs := firstn (Nat.div2 n) h in let hm := skipn (Nat.div2 n) h in
  shape_ok n l && (length h =? length (half n l) + length (middle n l))%nat && all2 hint_ok (half n l) hs && all2 hint_ok (middle n l) hm &&
  moments_ok n 1 (fold_right Z.add 0 (map snd hm)) (map (fun h => fmul (fst h) (fst h)) hs) (map snd hs).
Definition all_rules (lits : list (Z * Z)) (f : nat -> list node -> bool) : bool := forallb (fun n => f n (pairs_up (rule_lits lits n))) (seq 1 100).
Lemma gauss_checked : all_rules gauss_literals (fun n l => gauss_ok n l (nth (n - 1) gauss_hints [])) = true.
Proof. vm_cast_no_check (eq_refl true). Qed.
Lemma tanh_sinh_checked : all_rules tanh_sinh_literals shape_ok = true.
Proof. vm_cast_no_check (eq_refl true). Qed.
(** The weights add up to 1 up to 10^-30. *)
Definition wsum_ok (_ : nat) (l : list node) : bool := Z.abs (fold_right Z.add 0 (map (fun q : node => fst (snd q) * p10 (70 - snd (snd q))) l) - p10 70) <=? p10 40.
Lemma tanh_sinh_weights : all_rules tanh_sinh_literals wsum_ok = true.
Proof. vm_cast_no_check (eq_refl true). Qed.
Lemma p10_ok e : 0 <= e <= 70 -> p10 e = 10 ^ e.
Proof.
  intros H. unfold p10. assert (T : forallb (fun k => nth k pow10 0 =? 10 ^ Z.of_nat k) (seq 0 71) = true) by (vm_compute; reflexivity).
  rewrite forallb_forall in T. specialize (T (Z.to_nat e)). rewrite Z2Nat.id in T by lia. apply Z.eqb_eq, T. apply in_seq. lia.
Qed.
