From Verif Require Import M_Real M_TensorIndex.
From Coq Require Import Lra.
Open Scope R_scope.

Lemma Rltb_spec x y : reflect (x < y) (Rltb x y).
Proof. unfold Rltb. destruct (Rlt_dec x y); constructor; auto. Qed.
Lemma Rleb_spec x y : reflect (x <= y) (Rleb x y).
Proof. unfold Rleb. destruct (Rle_dec x y); constructor; auto. Qed.
Lemma Reqb_spec x y : reflect (x = y) (Reqb x y).
Proof. unfold Reqb. destruct (Req_EM_T x y); constructor; auto. Qed.
Lemma Rltb_true x y : Rltb x y = true <-> x < y.
Proof. destruct (Rltb_spec x y); split; intros; auto; discriminate. Qed.
Lemma Rltb_false x y : Rltb x y = false <-> y <= x.
Proof. destruct (Rltb_spec x y); split; intros; auto; try discriminate; lra. Qed.
Lemma Rleb_true x y : Rleb x y = true <-> x <= y.
Proof. destruct (Rleb_spec x y); split; intros; auto; discriminate. Qed.
Lemma Rleb_false x y : Rleb x y = false <-> y < x.
Proof. destruct (Rleb_spec x y); split; intros; auto; try discriminate; lra. Qed.
Lemma Reqb_true x y : Reqb x y = true <-> x = y.
Proof. destruct (Reqb_spec x y); split; intros; auto; discriminate. Qed.
Lemma Reqb_false x y : Reqb x y = false <-> x <> y.
Proof. destruct (Reqb_spec x y); split; intros; auto; try discriminate; contradiction. Qed.

Lemma at_ok {A} (l : list A) (i : Z) d : (0 <= i < Z.of_nat (length l))%Z -> at_ l i = Ret (nth (Z.to_nat i) l d).
Proof.
  intros H. unfold at_. destruct (Z.ltb_spec i 0); [lia|].
  rewrite (nth_error_nth' l d) by lia. reflexivity.
Qed.

Lemma assert_true {A} b (k : outcome A) : b = true -> assert_ b k = k.
Proof. now intros ->. Qed.

Lemma map2_length {A B C} (f : A -> B -> C) l : forall m, length l = length m -> length (map2 f l m) = length l.
Proof. induction l as [|a l IH]; intros [|b m]; simpl; intros; try lia; auto. Qed.
Lemma map2_nth {A B C} (f : A -> B -> C) da db dc l : forall m d, length l = length m -> (d < length l)%nat ->
  nth d (map2 f l m) dc = f (nth d l da) (nth d m db).
Proof. induction l as [|a l IH]; intros [|b m] [|d]; simpl; intros; try lia; auto. apply IH; lia. Qed.

Lemma map2M_ok {A B C} (f : A -> B -> outcome C) (g : A -> B -> C) da db l : forall m,
  length l = length m ->
  (forall d, (d < length l)%nat -> f (nth d l da) (nth d m db) = Ret (g (nth d l da) (nth d m db))) ->
  map2M f l m = Ret (map2 g l m).
Proof.
  induction l as [|a l IH]; intros [|b m] Hl H; simpl in *; try lia; auto.
  rewrite (H O) by lia. cbn [bind]. rewrite IH; [reflexivity|lia|]. intros d Hd. apply (H (S d)); lia.
Qed.

(** When each entry succeeds with some value satisfying [P], the loop succeeds. *)
Lemma map2M_ex {A B C} (f : A -> B -> outcome C) da db dc (P : nat -> C -> Prop) l : forall m,
  length l = length m ->
  (forall d, (d < length l)%nat -> exists c, f (nth d l da) (nth d m db) = Ret c /\ P d c) ->
  exists r, map2M f l m = Ret r /\ length r = length l /\ forall d, (d < length l)%nat -> P d (nth d r dc).
Proof.
  revert P. induction l as [|a l IH]; intros P [|b m] Hl H; simpl in *; try lia.
  - exists []. repeat split; auto. intros; lia.
  - destruct (H O) as (c & Hc & HP); [lia|]. rewrite Hc. cbn [bind].
    destruct (IH (fun d => P (S d)) m) as (r & Hr & Hlen & HPr); [lia| |].
    { intros d Hd. apply (H (S d)); lia. }
    rewrite Hr. cbn [bind]. exists (c :: r). split; [auto|]. split; [simpl; lia|].
    intros [|d] Hd; simpl; auto. apply HPr; lia.
Qed.

Lemma mapM_ok {A B} (f : A -> outcome B) (g : A -> B) l : (forall a, In a l -> f a = Ret (g a)) -> mapM f l = Ret (map g l).
Proof.
  induction l as [|a l IH]; intros H; simpl; auto. rewrite H by (left; auto). cbn [bind].
  rewrite IH; auto. intros; apply H; right; auto.
Qed.

Lemma list_eq_nth {A} d (l m : list A) : length l = length m -> (forall i, (i < length l)%nat -> nth i l d = nth i m d) -> l = m.
Proof. intros. apply (nth_ext _ _ d d); auto. Qed.
