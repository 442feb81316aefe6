From Verif Require Import M_Quad S_Quad L_Real L_Domain L_DomainQ L_DomainT.
From Coq Require Import Lra.
Open Scope R_scope.

(** ** C32 *)
Lemma pos_ok (n pt : Z) : (1 <= n <= n_max)%Z -> (0 <= pt < n)%Z ->
  abscissa_pos n pt = Ret ((n - 1) * n + pt * 2)%Z /\ weight_pos n pt = Ret ((n - 1) * n + 1 + pt * 2)%Z.
Proof. intros Hn Hp. unfold abscissa_pos, weight_pos. rewrite !assert_true by lia. auto. Qed.

Lemma C32_lemma : forall n pt, (1 <= n <= n_max)%Z -> (0 <= pt < n)%Z ->
  exists a w, abscissa_pos n pt = Ret a /\ weight_pos n pt = Ret w /\ (0 <= a < n_entries)%Z /\ (0 <= w < n_entries)%Z /\ a <> w /\
  forall n' pt' a' w', (1 <= n' <= n_max)%Z -> (0 <= pt' < n')%Z -> abscissa_pos n' pt' = Ret a' -> weight_pos n' pt' = Ret w' ->
    a <> w' /\ (a = a' \/ w = w' -> n = n' /\ pt = pt').
Proof.
  intros n pt Hn Hp. destruct (pos_ok n pt Hn Hp) as [Ha Hw]. do 2 eexists. split; [exact Ha|]. split; [exact Hw|].
  unfold n_entries, n_max in *. split; [nia|]. split; [nia|]. split; [lia|].
  intros n' pt' a' w' Hn' Hp' Ha' Hw'. destruct (pos_ok n' pt' Hn' Hp') as [Ha2 Hw2].
  rewrite Ha2 in Ha'. rewrite Hw2 in Hw'. injection Ha' as <-. injection Hw' as <-.
  assert (n < n' -> (n - 1) * n + 2 * n <= (n' - 1) * n')%Z by nia.
  assert (n' < n -> (n' - 1) * n' + 2 * n' <= (n - 1) * n)%Z by nia.
  destruct (Z.lt_trichotomy n n') as [L|[E|L]]; [lia| |lia]. subst n'.
  set (o := ((n - 1) * n)%Z) in *. clearbody o. split; [|intros; lia].
  intros E. assert (((o + pt * 2) mod 2 = (o + 1 + pt' * 2) mod 2))%Z as E2 by now rewrite E.
  lia.
Qed.
Lemma C32_onto_lemma : forall i, (0 <= i < n_entries)%Z -> exists n pt, (1 <= n <= n_max)%Z /\ (0 <= pt < n)%Z /\
  (abscissa_pos n pt = Ret i \/ weight_pos n pt = Ret i).
Proof.
  intros i Hi. unfold n_entries, n_max in *.
  assert (exists n, (1 <= n <= 100)%Z /\ ((n - 1) * n <= i < n * (n + 1))%Z) as (n & Hn & Hni).
  { assert (forall m : nat, (i < Z.of_nat m * (Z.of_nat m + 1))%Z -> exists n, (1 <= n <= Z.of_nat m)%Z /\ ((n - 1) * n <= i < n * (n + 1))%Z) as H.
    { induction m as [|m IH]; intros Hm; [simpl in Hm; lia|].
      destruct (Z.lt_ge_cases i (Z.of_nat m * (Z.of_nat m + 1))) as [L|L].
      - destruct (IH L) as (n & H1 & H2). exists n. split; [lia|exact H2].
      - exists (Z.of_nat (S m)). rewrite Nat2Z.inj_succ in *. unfold Z.succ in *. split; [lia|]. split; [|exact Hm].
        replace (Z.of_nat m + 1 - 1)%Z with (Z.of_nat m) by ring. exact L. }
    destruct (H 100%nat) as (n & H1 & H2); [exact (proj2 Hi)|]. exists n. auto. }
  exists n, ((i - (n - 1) * n) / 2)%Z.
  assert (0 <= (i - (n - 1) * n) / 2 < n)%Z as Hp by (split; [apply Z.div_pos; lia|apply Z.div_lt_upper_bound; nia]).
  split; [unfold n_max; lia|]. split; [exact Hp|].
  destruct (pos_ok n ((i - (n - 1) * n) / 2)%Z Hn Hp) as [-> ->].
  set (o := ((n - 1) * n)%Z) in *. pose proof (Z.div_mod (i - o) 2 ltac:(lia)) as Hd. pose proof (Z.mod_pos_bound (i - o) 2 ltac:(lia)) as Hm.
  destruct (Z.eq_dec ((i - o) mod 2) 0); [left|right]; f_equal; lia.
Qed.

(** ** C33 *)
Section TP.
Context (table : list R) (Htab : Z.of_nat (length table) = n_entries).

Lemma get_ok n i : (1 <= n)%nat -> (Z.of_nat n <= n_max)%Z -> (i < n)%nat ->
  get_abscissa table (Z.of_nat n) (Z.of_nat i) = Ret (x1d table n i) /\ get_weight table (Z.of_nat n) (Z.of_nat i) = Ret (w1d table n i).
Proof.
  intros H1 H2 Hi. unfold get_abscissa, get_weight. destruct (pos_ok (Z.of_nat n) (Z.of_nat i)) as [-> ->]; [unfold n_max in *; lia|lia|].
  cbn [bind]. unfold n_entries, n_max in *.
  assert (n <= 100)%nat by lia. assert ((n - 1) * n + 2 * i + 1 < 100 * 101)%nat by nia.
  rewrite !(at_ok table _ 0) by nia. unfold x1d, w1d. split; f_equal; f_equal; nia.
Qed.

Lemma concatM_zseq {B} (f : Z -> outcome (list B)) (g : nat -> list B) n : (forall i, (i < n)%nat -> f (Z.of_nat i) = Ret (g i)) ->
  concatM f (zseq (Z.of_nat n)) = Ret (flat_map g (seq 0 n)).
Proof.
  intros H. unfold zseq. rewrite Nat2Z.id. assert (forall l, (forall i, In i l -> (i < n)%nat) -> concatM f (map Z.of_nat l) = Ret (flat_map g l)) as Hl.
  { induction l as [|i l IH]; intros Hin; simpl; auto. rewrite H by (apply Hin; left; auto). cbn [bind]. rewrite IH by (intros; apply Hin; right; auto). reflexivity. }
  apply Hl. intros i Hin. apply in_seq in Hin. lia.
Qed.
Lemma mapM_zseq {B} (f : Z -> outcome B) (g : nat -> B) n : (forall i, (i < n)%nat -> f (Z.of_nat i) = Ret (g i)) ->
  mapM f (zseq (Z.of_nat n)) = Ret (map g (seq 0 n)).
Proof.
  intros H. unfold zseq. rewrite Nat2Z.id. assert (forall l, (forall i, In i l -> (i < n)%nat) -> mapM f (map Z.of_nat l) = Ret (map g l)) as Hl.
  { induction l as [|i l IH]; intros Hin; simpl; auto. rewrite H by (apply Hin; left; auto). cbn [bind]. rewrite IH by (intros; apply Hin; right; auto). reflexivity. }
  apply Hl. intros i Hin. apply in_seq in Hin. lia.
Qed.

Definition px (dom : bbox) (d n i : nat) : R := bmn dom d + x1d table n i * blen dom d.
Definition pw (dom : bbox) (d n i : nat) : R := w1d table n i * blen dom d.

Lemma tp1_ok n0 dom : (1 <= n0)%nat -> (Z.of_nat n0 <= n_max)%Z ->
  tp1 table (Z.of_nat n0) dom = Ret (map (fun i => ([px dom 0 n0 i], pw dom 0 n0 i)) (seq 0 n0)).
Proof.
  intros H1 H2. unfold tp1. apply mapM_zseq. intros i Hi. destruct (get_ok n0 i H1 H2 Hi) as [-> ->]. reflexivity.
Qed.
Lemma tp2_ok n0 n1 dom : (1 <= n0)%nat -> (Z.of_nat n0 <= n_max)%Z -> (1 <= n1)%nat -> (Z.of_nat n1 <= n_max)%Z ->
  tp2 table (Z.of_nat n0) (Z.of_nat n1) dom =
  Ret (flat_map (fun j => map (fun i => ([px dom 0 n0 i; px dom 1 n1 j], pw dom 0 n0 i * pw dom 1 n1 j)) (seq 0 n0)) (seq 0 n1)).
Proof.
  intros H1 H2 H3 H4. unfold tp2. apply concatM_zseq. intros j Hj. destruct (get_ok n1 j H3 H4 Hj) as [-> ->]. cbn [bind].
  apply mapM_zseq. intros i Hi. destruct (get_ok n0 i H1 H2 Hi) as [-> ->]. reflexivity.
Qed.
Definition px3 (dom : bbox) (d n i : nat) : R := x1d table n i * blen dom d.
Definition pw3 (dom : bbox) (d n i : nat) : R := bmn dom d + w1d table n i * blen dom d.
Lemma tp3_ok n0 n1 n2 dom : (1 <= n0)%nat -> (Z.of_nat n0 <= n_max)%Z -> (1 <= n1)%nat -> (Z.of_nat n1 <= n_max)%Z -> (1 <= n2)%nat -> (Z.of_nat n2 <= n_max)%Z ->
  tp3 table (Z.of_nat n0) (Z.of_nat n1) (Z.of_nat n2) dom =
  Ret (flat_map (fun k => flat_map (fun j => map (fun i => ([px3 dom 0 n0 i; px3 dom 1 n1 j; px3 dom 2 n2 k], pw3 dom 0 n0 i * pw3 dom 1 n1 j * pw3 dom 2 n2 k)) (seq 0 n0)) (seq 0 n1)) (seq 0 n2)).
Proof.
  intros H1 H2 H3 H4 H5 H6. unfold tp3. apply concatM_zseq. intros k Hk. destruct (get_ok n2 k H5 H6 Hk) as [-> ->]. cbn [bind].
  apply concatM_zseq. intros j Hj. destruct (get_ok n1 j H3 H4 Hj) as [-> ->]. cbn [bind].
  apply mapM_zseq. intros i Hi. destruct (get_ok n0 i H1 H2 Hi) as [-> ->]. reflexivity.
Qed.

Lemma integ_app q q' F : integ (q ++ q') F = integ q F + integ q' F.
Proof. unfold integ. induction q as [|nw q IH]; simpl; [lra|]. rewrite IH. lra. Qed.
Lemma integ_scale q F c : integ q (fun p => c * F p) = c * integ q F.
Proof. unfold integ. induction q as [|nw q IH]; simpl; [lra|]. rewrite IH. lra. Qed.
Lemma integ_ext q F G : (forall nw, In nw q -> F (fst nw) = G (fst nw)) -> integ q F = integ q G.
Proof. unfold integ. induction q as [|nw q IH]; intros H; simpl; auto. rewrite IH by (intros; apply H; right; auto). rewrite (H nw) by (left; auto). auto. Qed.

Lemma sum_factor (l : list nat) (g : nat -> R) (c : R) : fold_right (fun i a => g i * c + a) 0 l = fold_right (fun i a => g i + a) 0 l * c.
Proof. induction l as [|i l IH]; simpl; [lra|]. rewrite IH. lra. Qed.
Lemma fold_right_ext {A} (f g : A -> R -> R) l a : (forall x b, In x l -> f x b = g x b) -> fold_right f a l = fold_right g a l.
Proof. induction l as [|x l IH]; simpl; intros H; auto. rewrite IH; auto. Qed.
Lemma integ_map {A} (g : A -> list R * R) l F : integ (map g l) F = fold_right (fun x a => snd (g x) * F (fst (g x)) + a) 0 l.
Proof. unfold integ. induction l; simpl; auto. rewrite IHl. auto. Qed.
Lemma integ_flat {A} (g : A -> rule) l F : integ (flat_map g l) F = fold_right (fun x a => integ (g x) F + a) 0 l.
Proof. induction l; simpl; auto. rewrite integ_app, IHl. auto. Qed.

Lemma integ1_alt dom d n f : integ1 table n (nth d (bmin dom) 0) (nth d (bmax dom) 0) f =
  fold_right (fun i a => pw dom d n i * f (px dom d n i) + a) 0 (seq 0 n).
Proof. reflexivity. Qed.

Lemma tp2_integ dom n0 n1 f g :
  integ (flat_map (fun j => map (fun i => ([px dom 0 n0 i; px dom 1 n1 j], pw dom 0 n0 i * pw dom 1 n1 j)) (seq 0 n0)) (seq 0 n1)) (fun p => f (nth 0 p 0) * g (nth 1 p 0)) =
  integ1 table n0 (nth 0 (bmin dom) 0) (nth 0 (bmax dom) 0) f * integ1 table n1 (nth 1 (bmin dom) 0) (nth 1 (bmax dom) 0) g.
Proof.
  rewrite integ_flat, !integ1_alt. rewrite Rmult_comm, <- sum_factor. apply fold_right_ext. intros j a _. f_equal.
  rewrite integ_map. cbn [fst snd nth]. rewrite (Rmult_comm (pw dom 1 n1 j * _)), <- sum_factor. apply fold_right_ext. intros i b _. f_equal. ring.
Qed.
Lemma tp3_integ dom n0 n1 n2 f g h :
  integ (flat_map (fun k => flat_map (fun j => map (fun i => ([px dom 0 n0 i; px dom 1 n1 j; px dom 2 n2 k], pw dom 0 n0 i * pw dom 1 n1 j * pw dom 2 n2 k)) (seq 0 n0)) (seq 0 n1)) (seq 0 n2))
     (fun p => f (nth 0 p 0) * g (nth 1 p 0) * h (nth 2 p 0)) =
  integ1 table n0 (nth 0 (bmin dom) 0) (nth 0 (bmax dom) 0) f * integ1 table n1 (nth 1 (bmin dom) 0) (nth 1 (bmax dom) 0) g *
  integ1 table n2 (nth 2 (bmin dom) 0) (nth 2 (bmax dom) 0) h.
Proof.
  rewrite integ_flat, !integ1_alt. rewrite (Rmult_comm (_ * _)), <- sum_factor. apply fold_right_ext. intros k a _. f_equal.
  rewrite integ_flat. rewrite (Rmult_comm (pw dom 2 n2 k * _)). rewrite (Rmult_comm (fold_right _ _ (seq 0 n0))), Rmult_assoc, <- sum_factor. apply fold_right_ext. intros j b _. f_equal.
  rewrite integ_map. cbn [fst snd nth].
  rewrite <- (Rmult_assoc (pw dom 1 n1 j * _)), (Rmult_comm (pw dom 1 n1 j * _) (fold_right _ _ _)), Rmult_assoc, <- sum_factor.
  apply fold_right_ext. intros i c _. f_equal. ring.
Qed.

Lemma flat_const_length {A B} (g : A -> list B) l k : (forall a, length (g a) = k) -> length (flat_map g l) = (length l * k)%nat.
Proof. intros H. induction l; simpl; auto. rewrite app_length, H, IHl. auto. Qed.
Lemma flat_nth {B} (g : nat -> list B) k d n : (forall a, length (g a) = k) -> forall j i, (j < n)%nat -> (i < k)%nat ->
  nth (j * k + i) (flat_map g (seq 0 n)) d = nth i (g j) d.
Proof.
  intros H. assert (forall s j i, (j < n)%nat -> (i < k)%nat -> nth (j * k + i) (flat_map g (seq s n)) d = nth i (g (s + j)%nat) d) as Hs.
  { induction n as [|n IH]; intros s j i Hj Hi; [lia|]. cbn [seq flat_map]. destruct j as [|j].
    - rewrite app_nth1 by (rewrite H; simpl; lia). rewrite Nat.add_0_r. reflexivity.
    - rewrite app_nth2 by (rewrite H; nia). rewrite H. replace (S j * k + i - k)%nat with (j * k + i)%nat by nia.
      rewrite IH by lia. f_equal. f_equal. lia. }
  intros j i Hj Hi. rewrite Hs; auto.
Qed.
Lemma nth_map_seq {B} (g : nat -> B) n i d : (i < n)%nat -> nth i (map g (seq 0 n)) d = g i.
Proof. intros Hi. rewrite (nth_indep _ d (g O)) by now rewrite map_length, seq_length. rewrite map_nth, seq_nth by auto. reflexivity. Qed.
End TP.

Definition dpt : list R * R := ([], 0).

Lemma C33_1d_lemma : forall table dom n0, Z.of_nat (length table) = n_entries -> (1 <= n0)%nat -> (Z.of_nat n0 <= n_max)%Z ->
  exists q, create_tp table [Z.of_nat n0] dom = Ret q /\ length q = n0 /\
  (forall i, (i < n0)%nat -> nth i q dpt = ([nth 0 (bmin dom) 0 + x1d table n0 i * (nth 0 (bmax dom) 0 - nth 0 (bmin dom) 0)], w1d table n0 i * (nth 0 (bmax dom) 0 - nth 0 (bmin dom) 0))) /\
  (forall f, integ q (fun p => f (nth 0 p 0)) = integ1 table n0 (nth 0 (bmin dom) 0) (nth 0 (bmax dom) 0) f).
Proof.
  intros table dom n0 Ht H1 H2. unfold create_tp. rewrite assert_true by (cbn; lia). rewrite (tp1_ok table Ht) by auto. cbn [bind].
  set (q := map _ _). assert (length q = n0) as Hl by (unfold q; now rewrite map_length, seq_length).
  rewrite assert_true by (destruct q; simpl in *; [lia|auto]).
  exists q. split; auto. split; auto. split.
  - intros i Hi. unfold q. rewrite nth_map_seq by auto. reflexivity.
  - intros f. unfold q. rewrite integ_map, integ1_alt. reflexivity.
Qed.

Lemma C33_2d_lemma : forall table dom n0 n1, Z.of_nat (length table) = n_entries -> (1 <= n0)%nat -> (Z.of_nat n0 <= n_max)%Z -> (1 <= n1)%nat -> (Z.of_nat n1 <= n_max)%Z ->
  exists q, create_tp table [Z.of_nat n0; Z.of_nat n1] dom = Ret q /\ length q = (n1 * n0)%nat /\
  (forall i j, (i < n0)%nat -> (j < n1)%nat -> nth (j * n0 + i) q dpt =
     ([nth 0 (bmin dom) 0 + x1d table n0 i * (nth 0 (bmax dom) 0 - nth 0 (bmin dom) 0); nth 1 (bmin dom) 0 + x1d table n1 j * (nth 1 (bmax dom) 0 - nth 1 (bmin dom) 0)],
      w1d table n0 i * (nth 0 (bmax dom) 0 - nth 0 (bmin dom) 0) * (w1d table n1 j * (nth 1 (bmax dom) 0 - nth 1 (bmin dom) 0)))) /\
  (forall f g, integ q (fun p => f (nth 0 p 0) * g (nth 1 p 0)) =
     integ1 table n0 (nth 0 (bmin dom) 0) (nth 0 (bmax dom) 0) f * integ1 table n1 (nth 1 (bmin dom) 0) (nth 1 (bmax dom) 0) g).
Proof.
  intros table dom n0 n1 Ht H1 H2 H3 H4. unfold create_tp. rewrite assert_true by (cbn; lia). rewrite (tp2_ok table Ht) by auto. cbn [bind].
  set (q := flat_map _ _). assert (length q = n1 * n0)%nat as Hl.
  { unfold q. rewrite (flat_const_length _ _ n0) by (intros; now rewrite map_length, seq_length). now rewrite seq_length. }
  rewrite assert_true by (destruct q; simpl in *; [nia|auto]).
  exists q. split; auto. split; auto. split.
  - intros i j Hi Hj. unfold q. rewrite flat_nth by (auto; intros; now rewrite map_length, seq_length). rewrite nth_map_seq by auto. reflexivity.
  - intros f g. apply tp2_integ.
Qed.

Lemma C33_3d_lemma : forall table dom n0 n1 n2, Z.of_nat (length table) = n_entries -> (1 <= n0)%nat -> (Z.of_nat n0 <= n_max)%Z -> (1 <= n1)%nat -> (Z.of_nat n1 <= n_max)%Z ->
  (1 <= n2)%nat -> (Z.of_nat n2 <= n_max)%Z -> bmin dom = [0; 0; 0] ->
  exists q, create_tp table [Z.of_nat n0; Z.of_nat n1; Z.of_nat n2] dom = Ret q /\ length q = (n2 * (n1 * n0))%nat /\
  (forall i j k, (i < n0)%nat -> (j < n1)%nat -> (k < n2)%nat -> nth (k * (n1 * n0) + (j * n0 + i)) q dpt =
     ([x1d table n0 i * nth 0 (bmax dom) 0; x1d table n1 j * nth 1 (bmax dom) 0; x1d table n2 k * nth 2 (bmax dom) 0],
      w1d table n0 i * nth 0 (bmax dom) 0 * (w1d table n1 j * nth 1 (bmax dom) 0) * (w1d table n2 k * nth 2 (bmax dom) 0))) /\
  (forall f g h, integ q (fun p => f (nth 0 p 0) * g (nth 1 p 0) * h (nth 2 p 0)) =
     integ1 table n0 0 (nth 0 (bmax dom) 0) f * integ1 table n1 0 (nth 1 (bmax dom) 0) g * integ1 table n2 0 (nth 2 (bmax dom) 0) h).
Proof.
  intros table dom n0 n1 n2 Ht H1 H2 H3 H4 H5 H6 Hmin. unfold create_tp. rewrite assert_true by (cbn; lia). rewrite (tp3_ok table Ht) by auto. cbn [bind].
  set (q := flat_map _ _).
  assert (forall d n i, px3 table dom d n i = px table dom d n i) as Ex.
  { intros. unfold px, px3, bmn. rewrite Hmin. destruct d as [|[|[|[|d]]]]; cbn; lra. }
  assert (forall d n i, pw3 table dom d n i = pw table dom d n i) as Ew.
  { intros. unfold pw, pw3, bmn. rewrite Hmin. destruct d as [|[|[|[|d]]]]; cbn; lra. }
  assert (forall k, length (flat_map (fun j => map (fun i => ([px3 table dom 0 n0 i; px3 table dom 1 n1 j; px3 table dom 2 n2 k], pw3 table dom 0 n0 i * pw3 table dom 1 n1 j * pw3 table dom 2 n2 k)) (seq 0 n0)) (seq 0 n1)) = (n1 * n0)%nat) as Hk.
  { intros k. rewrite (flat_const_length _ _ n0) by (intros; now rewrite map_length, seq_length). now rewrite seq_length. }
  assert (length q = n2 * (n1 * n0))%nat as Hl.
  { unfold q. rewrite (flat_const_length _ _ (n1 * n0)) by exact Hk. now rewrite seq_length. }
  rewrite assert_true by (destruct q; cbn [length] in *; [nia|auto]).
  exists q. split; auto. split; auto. split.
  - intros i j k Hi Hj Hkk. unfold q. rewrite flat_nth by (auto; nia).
    rewrite flat_nth by (auto; intros; now rewrite map_length, seq_length). rewrite nth_map_seq by auto.
    unfold px3, pw3, bmn, blen. rewrite Hmin. cbn [nth]. rewrite !Rminus_0_r, !Rplus_0_l. reflexivity.
  - intros f g h. replace q with (flat_map (fun k => flat_map (fun j => map (fun i => ([px table dom 0 n0 i; px table dom 1 n1 j; px table dom 2 n2 k], pw table dom 0 n0 i * pw table dom 1 n1 j * pw table dom 2 n2 k)) (seq 0 n0)) (seq 0 n1)) (seq 0 n2)).
    + rewrite tp3_integ. rewrite Hmin. reflexivity.
    + unfold q. apply flat_map_ext. intros k. apply flat_map_ext. intros j. apply map_ext. intros i. now rewrite !Ex, !Ew.
Qed.

(** The refutation: with the first entries of the Gauss table (0.5 and 1), the one-point rule on [1,2]^3. *)
Lemma C33_refuted_lemma : forall table, Z.of_nat (length table) = n_entries -> nth 0 table 0 = / 2 -> nth 1 table 0 = 1 ->
  exists dom q, positive_box (bmin dom) (bmax dom) /\ create_tp table [1; 1; 1]%Z dom = Ret q /\
    (exists p w, In (p, w) q /\ ~ in_closed (bmin dom) (bmax dom) p) /\ box_volume dom = 1 /\ integ q (fun _ => 1) = 8.
Proof.
  intros table Ht H0 H1. exists (mk_box [1; 1; 1] [2; 2; 2]).
  pose proof (tp3_ok table Ht 1 1 1 (mk_box [1; 1; 1] [2; 2; 2]) ltac:(lia) ltac:(unfold n_max; lia) ltac:(lia) ltac:(unfold n_max; lia) ltac:(lia) ltac:(unfold n_max; lia)) as H3.
  change (Z.of_nat 1) with 1%Z in H3. cbn [seq flat_map map app] in H3.
  unfold create_tp. rewrite assert_true by reflexivity. rewrite H3. cbn [bind]. rewrite assert_true by reflexivity.
  unfold px3, pw3, blen, bmn, x1d, w1d. cbn [bmin bmax nth Nat.sub Nat.mul Nat.add]. rewrite H0, H1.
  eexists. split.
  { split; [reflexivity|]. intros [|[|[|d]]]; simpl; intros; try lra; lia. }
  split; [reflexivity|]. split.
  { do 2 eexists. split; [left; reflexivity|]. intros (_ & _ & H). specialize (H O). simpl in H. assert (0 < 3)%nat as X by lia. specialize (H X). lra. }
  split; [cbn; lra|]. unfold integ. cbn. lra.
Qed.
