(** Lemmas for the packing of custom coefficients: memory. *)
From Coq Require Import List ZArith Reals Lia Arith Sorting.Sorted Permutation.
From Verif Require Import M_PyBase M_PyFacets M_PyQuadUtils M_PyPack S_PyQuadUtils S_PyPack L_PyNodes L_PyQuadUtils.
Import ListNotations.
Local Open Scope nat_scope.

(** [l] lies in memory from position [p] on. *)
Definition seg {A} (mem : list A) (p : nat) (l : list A) : Prop := forall k x, nth_error l k = Some x -> nth_error mem (p + k) = Some x.
Lemma seg_nil {A} (mem : list A) p : seg mem p [].
Proof. intros [|k] x H; discriminate. Qed.
Lemma seg_app {A} (mem : list A) p a b : seg mem p (a ++ b) <-> seg mem p a /\ seg mem (p + length a) b.
Proof.
  split.
  - intros H. split; intros k x E.
    + apply H. rewrite nth_error_app1; [exact E|]. apply nth_error_Some. congruence.
    + rewrite <- Nat.add_assoc. apply H. rewrite nth_error_app2 by lia. rewrite Nat.add_comm, Nat.add_sub. exact E.
  - intros [H1 H2] k x E. destruct (lt_dec k (length a)) as [l|l].
    + apply H1. rewrite nth_error_app1 in E by exact l. exact E.
    + rewrite nth_error_app2 in E by lia. specialize (H2 _ _ E). rewrite <- H2. f_equal. lia.
Qed.
Lemma seg_cons {A} (mem : list A) p x l : seg mem p (x :: l) <-> nth_error mem p = Some x /\ seg mem (p + 1) l.
Proof.
  change (x :: l) with ([x] ++ l). rewrite seg_app. cbn [length]. split; intros [H1 H2]; split; try exact H2.
  - specialize (H1 0 x eq_refl). rewrite Nat.add_0_r in H1. exact H1.
  - intros [|k] y E; [|destruct k; discriminate]. injection E as <-. rewrite Nat.add_0_r. exact H1.
Qed.
Lemma seg_agree {A} (mem mem' : list A) p l : (forall k, p <= k < p + length l -> nth_error mem' k = nth_error mem k) -> seg mem p l -> seg mem' p l.
Proof. intros H S k x E. rewrite H; [apply S; exact E|]. assert (k < length l) by (apply nth_error_Some; congruence). lia. Qed.

Lemma firstn_nth_error {A} (l : list A) : forall n k, k < n -> nth_error (firstn n l) k = nth_error l k.
Proof. induction l as [|x l IH]; intros [|n] k H; try lia; [destruct k; reflexivity|]. destruct k as [|k]; [reflexivity|]. cbn. apply IH. lia. Qed.
Lemma skipn_nth_error {A} (l : list A) : forall n k, nth_error (skipn n l) k = nth_error l (n + k).
Proof. induction l as [|x l IH]; intros [|n] k; try reflexivity; [destruct k; reflexivity|]. cbn. apply IH. Qed.
Lemma splice_nth {A} (mem vals : list A) a k : a + length vals <= length mem ->
  nth_error (firstn a mem ++ vals ++ skipn (a + length vals) mem) k = if (a <=? k) && (k <? a + length vals) then nth_error vals (k - a) else nth_error mem k.
Proof.
  intros H. assert (L : length (firstn a mem) = a) by (rewrite firstn_length; lia).
  destruct (Nat.leb_spec a k) as [l|l]; cbn [andb].
  - rewrite nth_error_app2 by lia. rewrite L. destruct (Nat.ltb_spec k (a + length vals)) as [m|m].
    + apply nth_error_app1. lia.
    + rewrite nth_error_app2 by lia. rewrite skipn_nth_error. f_equal. lia.
  - rewrite nth_error_app1 by lia. apply firstn_nth_error. exact l.
Qed.
Lemma splice_len {A} (mem vals : list A) a : a + length vals <= length mem -> length (firstn a mem ++ vals ++ skipn (a + length vals) mem) = length mem.
Proof. intros H. rewrite !app_length, firstn_length, skipn_length. lia. Qed.

(** [mem'] is [mem] with [vals] written at [a]. *)
Definition wrote {A} (mem mem' : list A) (a : nat) (vals : list A) : Prop :=
  length mem' = length mem /\ seg mem' a vals /\ forall k, k < a \/ a + length vals <= k -> nth_error mem' k = nth_error mem k.
Lemma splice_wrote {A} (mem vals : list A) a : a + length vals <= length mem -> wrote mem (firstn a mem ++ vals ++ skipn (a + length vals) mem) a vals.
Proof.
  intros H. split; [apply splice_len; exact H|]. split.
  - intros k x E. rewrite splice_nth by exact H. assert (k < length vals) by (apply nth_error_Some; congruence).
    destruct (Nat.leb_spec a (a + k)); [|lia]. destruct (Nat.ltb_spec (a + k) (a + length vals)); [|lia]. cbn [andb]. rewrite Nat.add_comm, Nat.add_sub. exact E.
  - intros k D. rewrite splice_nth by exact H. destruct (Nat.leb_spec a k); [|reflexivity]. destruct (Nat.ltb_spec k (a + length vals)); [lia|reflexivity].
Qed.
Lemma put_slice_ok {A} (mem vals : list A) a n : n = length vals -> a + n <= length mem -> exists mem', put_slice mem a n vals = Ret mem' /\ wrote mem mem' a vals.
Proof.
  intros -> H. unfold put_slice. rewrite !Nat.min_l by lia. replace (a + length vals - a) with (length vals) by lia. rewrite Nat.eqb_refl.
  eexists. split; [reflexivity|]. apply splice_wrote. exact H.
Qed.
Lemma put1_ok {A} (mem : list A) i v : i < length mem -> exists mem', put1 mem i v = Ret mem' /\ wrote mem mem' i [v].
Proof.
  intros H. unfold put1. destruct (Nat.ltb_spec i (length mem)); [|lia]. eexists. split; [reflexivity|].
  replace (S i) with (i + length [v]) by (cbn; lia). apply (splice_wrote mem [v] i). cbn. lia.
Qed.

(** Several disjoint writes, at increasing positions from [b] on, below [top]. *)
Fixpoint chain {A} (b : nat) (offs : list nat) (news : list (list A)) (top : nat) : Prop :=
  match offs, news with
  | [], [] => b <= top
  | o :: offs', n :: news' => b <= o /\ chain (o + length n) offs' news' top
  | _, _ => False
  end.
Lemma chain_le {A} : forall offs b (news : list (list A)) top, chain b offs news top -> b <= top.
Proof. induction offs as [|o offs IH]; intros b [|n news] top H; cbn in H; try contradiction; [exact H|]. destruct H as [H1 H2]. apply IH in H2. lia. Qed.
Lemma chain_len {A} : forall offs b (news : list (list A)) top, chain b offs news top -> length news = length offs.
Proof. induction offs as [|o offs IH]; intros b [|n news] top H; cbn in H; try contradiction; [reflexivity|]. cbn. f_equal. exact (IH _ _ _ (proj2 H)). Qed.
Lemma chain_weak {A} : forall offs b b' (news : list (list A)) top, b' <= b -> chain b offs news top -> chain b' offs news top.
Proof. intros [|o offs] b b' [|n news] top L H; cbn in *; try contradiction; [lia|]. destruct H. split; [lia|assumption]. Qed.
Lemma chain_ge {A} : forall offs b (news : list (list A)) top j, chain b offs news top -> j < length offs -> b <= nth j offs 0 /\ nth j offs 0 + length (nth j news []) <= top.
Proof.
  induction offs as [|o offs IH]; intros b [|n news] top [|j] H L; cbn in *; try contradiction; try lia.
  - destruct H as [H1 H2]. split; [exact H1|]. apply chain_le in H2. exact H2.
  - destruct H as [H1 H2]. destruct (IH _ _ _ j H2 ltac:(lia)). lia.
Qed.
(** [mem'] is [mem] with every [news_j] written at [offs_j]. *)
Definition writes {A} (mem mem' : list A) (offs : list nat) (news : list (list A)) : Prop :=
  length mem' = length mem
  /\ (forall j, j < length offs -> seg mem' (nth j offs 0) (nth j news []))
  /\ (forall k, (forall j, j < length offs -> k < nth j offs 0 \/ nth j offs 0 + length (nth j news []) <= k) -> nth_error mem' k = nth_error mem k).
Lemma writes_nil {A} (mem : list A) : writes mem mem [] [].
Proof. split; [reflexivity|]. split; [intros j H; cbn in H; lia|reflexivity]. Qed.
Lemma writes_cons {A} (mem m mem' : list A) o n offs news top : chain (o + length n) offs news top ->
  wrote mem m o n -> writes m mem' offs news -> writes mem mem' (o :: offs) (n :: news).
Proof.
  intros C [L1 [S1 F1]] [L2 [S2 F2]]. split; [congruence|]. split.
  - intros [|j] H; cbn in *.
    + apply (seg_agree m); [|exact S1]. intros k Hk. apply F2. intros j Hj. left. destruct (chain_ge _ _ _ _ j C Hj). lia.
    + apply S2. lia.
  - intros k H. rewrite F2.
    + apply F1. exact (H 0 ltac:(cbn; lia)).
    + intros j Hj. exact (H (S j) ltac:(cbn; lia)).
Qed.
Lemma put_at_chain {A} : forall offs b (vals : list A) (mem : list A), chain b offs (map (fun v => [v]) vals) (length mem) ->
  exists mem', put_at mem offs vals = Ret mem' /\ writes mem mem' offs (map (fun v => [v]) vals).
Proof.
  induction offs as [|o offs IH]; intros b [|v vals] mem C; cbn [map chain] in C; try contradiction.
  - exists mem. split; [reflexivity|apply writes_nil].
  - destruct C as [C1 C2]. assert (Lo : o < length mem) by (apply chain_le in C2; cbn in C2; lia).
    destruct (put1_ok mem o v Lo) as [m [E W]]. cbn [put_at]. rewrite E. cbn [bind].
    assert (C3 : chain (o + 1) offs (map (fun v => [v]) vals) (length m)) by (rewrite (proj1 W); exact C2).
    destruct (IH _ vals m C3) as [mem' [E' W']]. exists mem'. split; [exact E'|]. exact (writes_cons _ _ _ o [v] _ _ _ C3 W W').
Qed.
(** Writes at arbitrary different positions. *)
Lemma put_at_nodup {A} : forall idx (vals : list A) (l : list A), NoDup idx -> length vals = length idx -> (forall i, In i idx -> i < length l) ->
  exists l', put_at l idx vals = Ret l' /\ length l' = length l
    /\ (forall j d, j < length idx -> nth_error l' (nth j idx 0) = Some (nth j vals d))
    /\ (forall i, ~ In i idx -> nth_error l' i = nth_error l i).
Proof.
  induction idx as [|i idx IH]; intros [|v vals] l N L H; try discriminate.
  - exists l. split; [reflexivity|]. split; [reflexivity|]. split; [intros j d Hj; cbn in Hj; lia|reflexivity].
  - inversion N as [|? ? N1 N2]; subst. cbn [put_at].
    destruct (put1_ok l i v (H i (or_introl eq_refl))) as [m [E [W1 [W2 W3]]]]. rewrite E. cbn [bind].
    destruct (IH vals m N2 ltac:(cbn in L; lia)) as [l' [E' [A1 [A2 A3]]]]. { intros x I. rewrite W1. apply H. right. exact I. }
    exists l'. split; [exact E'|]. split; [congruence|]. split.
    + intros [|j] d Hj; cbn [nth].
      * rewrite A3 by exact N1. specialize (W2 0 v eq_refl). rewrite Nat.add_0_r in W2. exact W2.
      * apply A2. cbn in Hj. lia.
    + intros x Nx. rewrite A3 by (intros I; apply Nx; right; exact I). apply W3. cbn.
      assert (x <> i) by (intros ->; apply Nx; left; reflexivity). lia.
Qed.
(** Rows. *)
Lemma put_rows_ok nc c0 w : c0 + w <= nc -> forall rows i mem, (forall r, In r rows -> length r = w) -> (i + length rows) * nc <= length mem ->
  exists mem', put_rows nc c0 i rows mem = Ret mem' /\ length mem' = length mem
    /\ (forall j, j < length rows -> seg mem' ((i + j) * nc + c0) (nth j rows []))
    /\ (forall k, (forall j, j < length rows -> k < (i + j) * nc + c0 \/ (i + j) * nc + c0 + w <= k) -> nth_error mem' k = nth_error mem k).
Proof.
  intros Hw. induction rows as [|r rows IH]; intros i mem H L.
  - exists mem. split; [reflexivity|]. split; [reflexivity|]. split; [intros j Hj; cbn in Hj; lia|reflexivity].
  - cbn [put_rows length] in *. unfold assert_.
    assert (Li : (i + 1) * nc <= length mem) by (assert ((i + 1) * nc <= (i + S (length rows)) * nc) by (apply Nat.mul_le_mono_r; lia); lia).
    destruct (Nat.leb_spec ((i + 1) * nc) (length mem)); [|lia].
    assert (Lr : length r = w) by (apply H; left; reflexivity).
    destruct (put_slice_ok mem r (i * nc + c0) (length r) eq_refl ltac:(lia)) as [m [E [W1 [W2 W3]]]]. rewrite E. cbn [bind].
    destruct (IH (S i) m) as [mem' [E' [A1 [A2 A3]]]]. { intros x I. apply H. right. exact I. } { rewrite W1. replace (S i + length rows) with (i + S (length rows)) by lia. exact L. }
    exists mem'. split; [exact E'|]. split; [congruence|]. split.
    + intros [|j] Hj; cbn [nth].
      * rewrite Nat.add_0_r. apply (seg_agree m); [|exact W2]. intros k Hk. apply A3. intros j Hj'. left.
        assert ((i + 1) * nc <= (S i + j) * nc) by (apply Nat.mul_le_mono_r; lia). lia.
      * replace (i + S j) with (S i + j) by lia. apply A2. lia.
    + intros k Hk. rewrite A3.
      * apply W3. specialize (Hk 0 ltac:(lia)). rewrite Nat.add_0_r in Hk. rewrite Lr. exact Hk.
      * intros j Hj. specialize (Hk (S j) ltac:(lia)). replace (i + S j) with (S i + j) in Hk by lia. exact Hk.
Qed.

(** Reading back. *)
Lemma rd_seg : forall l mem p, seg mem p (map Num l) -> rd mem p (length l) = Ret l.
Proof.
  induction l as [|x l IH]; intros mem p H; [reflexivity|]. cbn [map] in H. rewrite seg_cons in H. destruct H as [H1 H2].
  cbn [rd length]. rewrite H1. rewrite Nat.add_1_r in H2. rewrite (IH mem (S p) H2). reflexivity.
Qed.
