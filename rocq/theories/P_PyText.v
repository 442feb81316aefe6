(** C160: the text of the kernel is taken apart without loss. C161: the texts written for custom cells. *)
From Coq Require Import ZArith List Lia Bool Arith Ascii String DecimalString DecimalNat.
From Verif Require Import M_Base M_PyText S_PyText.
Import ListNotations.
Local Open Scope char_scope. Local Open Scope nat_scope. Local Open Scope list_scope.

(** The same notions with the model's patterns and classes. *)
(** [p] matches nowhere in [s]. *)
Definition nowhere (p : list item) (s : text) : Prop := forall u v, s = u ++ v -> rmatch p v = None.
(** [m] is one of the texts that the items describe. *)
Inductive accepts : list item -> text -> Prop :=
  | a_nil : accepts [] []
  | a_one c x p s : c x = true -> accepts p s -> accepts (One c :: p) (x :: s)
  | a_star c r p s : Forall (fun x => c x = true) r -> accepts p s -> accepts (Star c :: p) (r ++ s)
  | a_plus c r p s : r <> [] -> Forall (fun x => c x = true) r -> accepts p s -> accepts (Plus c :: p) (r ++ s).
(** A well-parsed loop: the text before it has no loop, its header is a loop header up to the bracket, its body has paired brackets and no loop over points. *)
Definition good_loop0 (l : loop) : Prop :=
  nowhere loop_header (pre_text l) /\ (exists m w, header l = m ++ w ++ ["{"] /\ accepts loop_header m /\ Forall (fun x => space x = true) w)
  /\ balanced "{" "}" (body l) /\ quad_of (body l) = Some (quad_name l).
(** [t] is [s] with every reference c[n] after an operator replaced0 by [sigma n], if it has a replacement, at once. *)
Inductive replaced0 (sigma : nat -> option text) : text -> text -> Prop :=
  | r0_nil : replaced0 sigma [] []
  | r0_ref x n r s t : operator x = true -> sigma n = Some r -> replaced0 sigma s t -> replaced0 sigma (x :: txt "c[" ++ dec n ++ txt "]" ++ s) (x :: r ++ t)
  | r0_skip x s t : (forall n u, x :: s = x :: txt "c[" ++ dec n ++ txt "]" ++ u -> operator x = true -> sigma n = None) -> replaced0 sigma s t -> replaced0 sigma (x :: s) (x :: t).
(** The component i of the normal for the constants off + i, with off the first offset that reaches n. *)
Definition normal_at0 (tdim : nat) (q : text) (offsets : list nat) (n : nat) : option text :=
  match find (fun off => (off <=? n) && (n <? off + tdim))%bool offsets with Some off => Some (normal_text tdim q (n - off)) | None => None end.

(** Regular expressions. *)
Definition rejects (x : ascii) (i : item) : Prop := match i with One c | Star c | Plus c => c x = false end.
Lemma span_le c s : span_len c s <= List.length s.
Proof. induction s as [|x s IH]; cbn; [lia|]. destruct (c x); lia. Qed.
Lemma span_app c u x v : c x = false -> span_len c (u ++ x :: v) = span_len c u.
Proof. intros H. induction u as [|y u IH]; cbn; [rewrite H; reflexivity|]. destruct (c y); congruence. Qed.
Lemma span_all c s k : k <= span_len c s -> Forall (fun x => c x = true) (firstn k s).
Proof. revert k. induction s as [|x s IH]; intros [|k] H; cbn in *; try constructor; destruct (c x) eqn:E; try lia; auto. apply IH. lia. Qed.
Lemma longest_ext {A} low (f g : nat -> option A) k : (forall i, i <= k -> f i = g i) -> longest low f k = longest low g k.
Proof.
  induction k as [|k IH]; intros H; cbn [longest]; [rewrite (H 0) by lia; reflexivity|]. rewrite (H (S k)) by lia. destruct (g (S k)); [reflexivity|]. destruct (S k <=? low); [reflexivity|]. apply IH. intros. apply H. lia.
Qed.
Lemma longest_some {A} low (f : nat -> option A) k a : longest low f k = Some a -> exists i, i <= k /\ (low <= i \/ k <= low /\ i = k) /\ f i = Some a.
Proof.
  induction k as [|k IH]; cbn [longest]; intros H.
  - destruct (f 0) eqn:E; [|discriminate]. exists 0. split; [lia|]. split; [lia|congruence].
  - destruct (f (S k)) eqn:E.
    + exists (S k). split; [lia|]. split; [lia|congruence].
    + destruct (Nat.leb_spec (S k) low); [discriminate|]. destruct (IH H) as (i & A1 & A2 & A3). exists i. split; [lia|]. split; [lia|exact A3].
Qed.
(** A match does not cross a character that no item accepts. *)
Lemma rmatch_cut p x v : Forall (rejects x) p -> forall u, rmatch p (u ++ x :: v) = rmatch p u.
Proof.
  induction 1 as [|i p Hi Hp IH]; intros u; [reflexivity|]. destruct i as [c|c|c]; cbn [rmatch rejects] in *.
  - destruct u as [|y u]; cbn; [rewrite Hi; reflexivity|]. rewrite IH. reflexivity.
  - rewrite span_app by exact Hi. apply longest_ext. intros k Hk. pose proof (span_le c u). rewrite skipn_app, firstn_app. replace (k - List.length u) with 0 by lia. cbn [skipn firstn]. rewrite app_nil_r, IH. reflexivity.
  - rewrite span_app by exact Hi. destruct (_ =? 0); [reflexivity|]. apply longest_ext. intros k Hk. pose proof (span_le c u). rewrite skipn_app, firstn_app. replace (k - List.length u) with 0 by lia. cbn [skipn firstn]. rewrite app_nil_r, IH. reflexivity.
Qed.
(** What is matched is a prefix of the text, described by the items. *)
Lemma rmatch_accepts p : forall s l, rmatch p s = Some l -> List.length l = List.length p /\ accepts p (concat l) /\ exists v, s = concat l ++ v.
Proof.
  induction p as [|i p IH]; intros s l H; cbn in H.
  - injection H as <-. split; [reflexivity|]. split; [constructor|]. exists s. reflexivity.
  - destruct i as [c|c|c].
    + destruct s as [|x s]; [discriminate|]. destruct (c x) eqn:E; [|discriminate]. destruct (rmatch p s) as [l'|] eqn:M; [|discriminate]. injection H as <-.
      destruct (IH _ _ M) as (L & A & v & V). split; [cbn; congruence|]. split; [cbn; constructor; assumption|]. exists v. cbn. congruence.
    + apply longest_some in H as (k & K & _ & H). destruct (rmatch p (skipn k s)) as [l'|] eqn:M; [|discriminate]. injection H as <-.
      destruct (IH _ _ M) as (L & A & v & V). split; [cbn; congruence|]. split; [cbn; constructor; [apply span_all, K|exact A]|]. exists v. cbn. rewrite <- app_assoc, <- V. symmetry. apply firstn_skipn.
    + destruct (Nat.eqb_spec (span_len c s) 0) as [Z|Z]; [discriminate|]. apply longest_some in H as (k & K & K1 & H). destruct (rmatch p (skipn k s)) as [l'|] eqn:M; [|discriminate]. injection H as <-.
      destruct (IH _ _ M) as (L & A & v & V). split; [cbn; congruence|]. split.
      * cbn. constructor; [|apply span_all, K|exact A]. destruct s; [cbn in Z; lia|]. destruct k; [lia|]. discriminate.
      * exists v. cbn. rewrite <- app_assoc, <- V. symmetry. apply firstn_skipn.
Qed.
Lemma skipn_concat {A} (l v : list A) : skipn (List.length l) (l ++ v) = v.
Proof. rewrite skipn_app, skipn_all, Nat.sub_diag. reflexivity. Qed.
Lemma skipn_prefix {A} (l v s : list A) : s = l ++ v -> skipn (List.length l) s = v.
Proof. intros ->. apply skipn_concat. Qed.
Lemma rsearch_some p s a l b : rsearch p s = Some (a, l, b) -> s = a ++ concat l ++ b /\ rmatch p (concat l ++ b) = Some l /\ (forall u v, a = u ++ v -> v <> [] -> rmatch p (v ++ concat l ++ b) = None).
Proof.
  revert a l b. induction s as [|x s IH]; intros a l b H; cbn [rsearch] in H.
  - destruct (rmatch p []) as [l'|] eqn:M; [|discriminate]. injection H as <- <- <-. destruct (rmatch_accepts _ _ _ M) as (_ & _ & v & V). rewrite (skipn_prefix _ _ _ V). cbn [app].
    split; [exact V|]. rewrite <- V. split; [exact M|]. intros u w E N. symmetry in E. apply app_eq_nil in E. tauto.
  - destruct (rmatch p (x :: s)) as [l'|] eqn:M.
    + injection H as <- <- <-. destruct (rmatch_accepts _ _ _ M) as (_ & _ & v & V). rewrite (skipn_prefix _ _ _ V). cbn [app].
      split; [exact V|]. rewrite <- V. split; [exact M|]. intros u w E N. symmetry in E. apply app_eq_nil in E. tauto.
    + destruct (rsearch p s) as [[[a' l'] b']|] eqn:E; [|discriminate]. injection H as <- <- <-. destruct (IH _ _ _ eq_refl) as (A & B & C). split; [cbn; congruence|]. split; [exact B|].
      intros u v Ev N. destruct u as [|y u]; cbn in Ev.
      * rewrite <- Ev. cbn. rewrite <- A. exact M.
      * injection Ev as -> Ev. eapply C; eassumption.
Qed.
Lemma rsearch_none p s : rsearch p s = None <-> nowhere p s.
Proof.
  unfold nowhere. induction s as [|x s IH]; cbn [rsearch].
  - split; [|intros H; rewrite (H [] [] eq_refl); reflexivity]. intros H u v E. symmetry in E. apply app_eq_nil in E as (_ & ->). destruct (rmatch p []); [discriminate|reflexivity].
  - split.
    + intros H u v E. destruct (rmatch p (x :: s)) eqn:M; [discriminate|]. destruct u as [|y u]; cbn in E; [congruence|]. injection E as -> E. eapply (proj1 IH); [|exact E]. destruct (rsearch p s) as [[[? ?] ?]|]; [discriminate|reflexivity].
    + intros H. rewrite (H [] (x :: s) eq_refl). rewrite (proj2 IH); [reflexivity|]. intros u v E. apply (H (x :: u) v). cbn. congruence.
Qed.
Lemma rsearch_cut p x u v : p <> [] -> Forall (rejects x) p -> nowhere p u -> (rmatch p [] = None) ->
  rsearch p (u ++ x :: v) = match rsearch p v with Some (a, l, b) => Some (u ++ x :: a, l, b) | None => None end.
Proof.
  intros Hp Hx N N0. induction u as [|y u IH].
  - pose proof (rmatch_cut p x v Hx []) as C. cbn [app] in C. cbn [app rsearch]. rewrite C, N0. destruct (rsearch p v) as [[[? ?] ?]|]; reflexivity.
  - cbn [app rsearch]. change (y :: u ++ x :: v) with ((y :: u) ++ x :: v). rewrite (rmatch_cut p x v Hx (y :: u)), (N [] (y :: u) eq_refl). rewrite IH.
    + destruct (rsearch p v) as [[[? ?] ?]|]; reflexivity.
    + intros a b E. apply (N (y :: a) b). cbn. congruence.
Qed.

Lemma longest_ok {A} low (f : nat -> option A) k i : i <= k -> low <= i -> f i <> None -> longest low f k <> None.
Proof.
  induction k as [|k IH]; intros Hi Hl F; cbn [longest].
  - replace i with 0 in F by lia. destruct (f 0); [discriminate|exact F].
  - destruct (f (S k)) eqn:E; [discriminate|]. destruct (Nat.eq_dec i (S k)) as [->|]; [congruence|]. destruct (Nat.leb_spec (S k) low); [lia|]. apply IH; [lia|exact Hl|exact F].
Qed.
Lemma span_ge c r s : Forall (fun x => c x = true) r -> List.length r <= span_len c (r ++ s).
Proof. induction 1 as [|x r H _ IH]; cbn; [lia|]. rewrite H. lia. Qed.
Lemma rmatch_complete p m : accepts p m -> forall w, rmatch p (m ++ w) <> None.
Proof.
  induction 1 as [|c x p s H A IH|c r p s H A IH|c r p s N H A IH]; intros w; cbn [rmatch].
  - discriminate.
  - cbn [app]. rewrite H. specialize (IH w). destruct (rmatch p (s ++ w)); [discriminate|congruence].
  - rewrite <- app_assoc. apply (longest_ok _ _ _ (List.length r)); [apply span_ge, H|lia|]. rewrite skipn_concat. specialize (IH w). destruct (rmatch p (s ++ w)); [discriminate|congruence].
  - rewrite <- app_assoc. pose proof (span_ge c r (s ++ w) H). assert (L : 1 <= List.length r) by (destruct r; [congruence|cbn; lia]).
    destruct (Nat.eqb_spec (span_len c (r ++ s ++ w)) 0); [lia|]. apply (longest_ok _ _ _ (List.length r)); [assumption|exact L|]. rewrite skipn_concat. specialize (IH w). destruct (rmatch p (s ++ w)); [discriminate|congruence].
Qed.
Lemma rmatch_prefix p v w : rmatch p (v ++ w) = None -> rmatch p v = None.
Proof.
  intros H. destruct (rmatch p v) as [l|] eqn:E; [|reflexivity]. destruct (rmatch_accepts _ _ _ E) as (_ & A & u & U). exfalso. rewrite U, <- app_assoc in H. exact (rmatch_complete _ _ A _ H).
Qed.
Lemma rsearch_before p s a l b : rmatch p [] = None -> rsearch p s = Some (a, l, b) -> nowhere p a.
Proof.
  intros N0 H u v E. destruct (rsearch_some _ _ _ _ _ H) as (_ & _ & C). destruct v as [|y v]; [exact N0|]. apply (rmatch_prefix p (y :: v) (concat l ++ b)), (C u (y :: v) E). discriminate.
Qed.

(** Brackets. *)
Section Brackets.
Variables o c : ascii.
Hypothesis oc : o <> c.
Inductive levels : nat -> text -> Prop :=
  | l_0 m : balanced o c m -> levels 0 m
  | l_S k b m : balanced o c b -> levels k m -> levels (S k) (b ++ c :: m).
Lemma levels_char k x m : x <> o -> x <> c -> levels k m -> levels k (x :: m).
Proof. intros H1 H2 L. destruct L as [m B|k b m B L]; [constructor; constructor; assumption|]. change (x :: b ++ c :: m) with ((x :: b) ++ c :: m). constructor; [constructor; assumption|exact L]. Qed.
Lemma levels_pair k b m : balanced o c b -> levels k m -> levels k (o :: b ++ c :: m).
Proof.
  intros B L. destruct L as [m M|k b' m M L]; [constructor; constructor; assumption|].
  replace (o :: b ++ c :: b' ++ c :: m) with ((o :: b ++ c :: b') ++ c :: m) by (cbn; rewrite <- app_assoc; reflexivity). constructor; [constructor; assumption|exact L].
Qed.
Lemma pairing_sound s : forall i start n a b, pairing o c s i start n = Some (a, b) ->
  ((0 < n)%Z -> exists m r, s = m ++ c :: r /\ levels (Z.to_nat (n - 1)) m /\ a = start /\ b = i + List.length m + 1) /\
  ((n <= 0)%Z -> exists u m r, s = u ++ o :: m ++ c :: r /\ balanced o c m /\ a = i + List.length u /\ b = a + List.length m + 2).
Proof.
  induction s as [|x s IH]; intros i start n a b H; cbn [pairing] in H; [discriminate|].
  destruct (Ascii.eqb_spec x o) as [->|No]; [|destruct (Ascii.eqb_spec x c) as [->|Nc]].
  - destruct (IH _ _ _ _ _ H) as (P & N). split; intros Hn.
    + destruct (P ltac:(lia)) as (m & r & -> & L & -> & ->). replace (Z.to_nat (n + 1 - 1)) with (S (Z.to_nat (n - 1))) in L by lia. inversion L as [|k bb m' B L' E1 E2]; subst.
      destruct (Z.eqb_spec n 0); [lia|]. exists (o :: bb ++ c :: m'), r. split; [cbn; reflexivity|]. split; [apply levels_pair; assumption|]. split; [reflexivity|]. cbn. lia.
    + destruct (Z.eqb_spec n 0) as [->|Z0].
      * destruct (P ltac:(lia)) as (m & r & -> & L & -> & ->). cbn in L. inversion L as [m' B E1|]; subst. exists [], m, r. cbn. repeat split; try lia; assumption.
      * destruct (N ltac:(lia)) as (u & m & r & -> & B & -> & ->). exists (o :: u), m, r. cbn. repeat split; try lia; assumption.
  - destruct (Z.eqb_spec (n - 1) 0) as [E|E].
    + injection H as <- <-. split; [|lia]. intros _. exists [], s. rewrite E. cbn. split; [reflexivity|]. split; [constructor; constructor|]. split; [reflexivity|lia].
    + destruct (IH _ _ _ _ _ H) as (P & N). split; intros Hn.
      * destruct (P ltac:(lia)) as (m & r & -> & L & -> & ->). exists (c :: m), r. split; [reflexivity|]. split; [|split; [reflexivity|cbn; lia]].
        replace (Z.to_nat (n - 1)) with (S (Z.to_nat (n - 1 - 1))) by lia. apply (l_S _ [] m); [constructor|exact L].
      * destruct (N ltac:(lia)) as (u & m & r & -> & B & -> & ->). exists (c :: u), m, r. cbn. repeat split; try lia; assumption.
  - destruct (IH _ _ _ _ _ H) as (P & N). split; intros Hn.
    + destruct (P Hn) as (m & r & -> & L & -> & ->). exists (x :: m), r. split; [reflexivity|]. split; [apply levels_char; assumption|]. split; [reflexivity|cbn; lia].
    + destruct (N Hn) as (u & m & r & -> & B & -> & ->). exists (x :: u), m, r. cbn. repeat split; try lia; assumption.
Qed.
Lemma pairing_through m : balanced o c m -> forall t i start n, (0 < n)%Z -> pairing o c (m ++ t) i start n = pairing o c t (i + List.length m) start n.
Proof.
  induction 1 as [|x s H1 H2 B IH|s t B1 IH1 B2 IH2]; intros w i start n Hn.
  - cbn. rewrite Nat.add_0_r. reflexivity.
  - cbn [app pairing]. destruct (Ascii.eqb_spec x o); [congruence|]. destruct (Ascii.eqb_spec x c); [congruence|]. rewrite IH by exact Hn. f_equal. cbn. lia.
  - cbn [app pairing]. rewrite Ascii.eqb_refl. destruct (Z.eqb_spec n 0); [lia|]. rewrite <- app_assoc. cbn [app]. rewrite IH1 by lia. cbn [pairing].
    destruct (Ascii.eqb_spec c o); [congruence|]. rewrite Ascii.eqb_refl. destruct (Z.eqb_spec (n + 1 - 1) 0); [lia|]. replace (n + 1 - 1)%Z with n by lia. rewrite IH2 by exact Hn. f_equal. cbn [List.length]. rewrite app_length. cbn. lia.
Qed.
End Brackets.
(** get_pairing_brackets: the pair it gives encloses balanced text; the first pair of a text is found. *)
Theorem C160_brackets : forall o c code, o <> c ->
  (forall a b, get_pairing_brackets code o c = Ret (a, b) -> exists u m r, code = u ++ o :: m ++ c :: r /\ balanced o c m /\ a = List.length u /\ b = a + List.length m + 2)
  /\ (forall u m r, code = u ++ o :: m ++ c :: r -> Forall (fun x => x <> o /\ x <> c) u -> balanced o c m ->
        get_pairing_brackets code o c = Ret (List.length u, List.length u + List.length m + 2)).
Proof.
  intros o c code oc. unfold get_pairing_brackets. split.
  - intros a b H. destruct (pairing o c code 0 0 0) as [[a' b']|] eqn:E; [|discriminate]. injection H as -> ->. destruct (proj2 (pairing_sound o c code _ _ _ _ _ E) ltac:(lia)) as (u & m & r & H). exists u, m, r. exact H.
  - intros u m r -> Hu B. enough (K : forall i start, pairing o c (u ++ o :: m ++ c :: r) i start 0 = Some (i + List.length u, i + List.length u + List.length m + 2)) by (rewrite K; reflexivity).
    induction Hu as [|x u (H1 & H2) _ IH]; intros i start.
    + cbn [app pairing]. rewrite Ascii.eqb_refl. cbn [Z.eqb Z.add]. rewrite (pairing_through o c oc m B) by lia. cbn [pairing]. destruct (Ascii.eqb_spec c o); [congruence|]. rewrite Ascii.eqb_refl.
      cbn. f_equal. f_equal; lia.
    + cbn [app pairing]. destruct (Ascii.eqb_spec x o); [congruence|]. destruct (Ascii.eqb_spec x c); [congruence|]. rewrite IH. cbn [List.length]. f_equal. f_equal; lia.
Qed.

(** The loops. *)
Lemma header_rejects x : x = "{"%char \/ x = "}"%char -> Forall (rejects x) loop_header.
Proof. intros [-> | ->]; repeat (constructor; [reflexivity|]); constructor. Qed.
Lemma nowhere_spaces w : Forall (fun x => space x = true) w -> nowhere loop_header w.
Proof.
  intros H u v ->. apply Forall_app in H as (_ & H). unfold loop_header. cbn [lit txt map app rmatch]. destruct v as [|x v]; [reflexivity|]. inversion H as [|? ? Hx _]; subst.
  destruct (is "f" x) eqn:E; [|reflexivity]. unfold is in E. apply Ascii.eqb_eq in E. subst x. discriminate.
Qed.
Lemma forallb_space w : forallb space w = true <-> Forall (fun x => space x = true) w.
Proof. rewrite forallb_forall, Forall_forall. reflexivity. Qed.
Lemma rsearch_nil_header : rmatch loop_header [] = None. Proof. reflexivity. Qed.
Lemma skipn_more {A} n m (s r l : list A) : skipn n s = l ++ r -> m = n + List.length l -> n <= List.length s -> skipn m s = r.
Proof.
  intros H -> L. assert (E : s = (firstn n s ++ l) ++ r) by (rewrite <- app_assoc, <- H; symmetry; apply firstn_skipn).
  replace (n + List.length l) with (List.length (firstn n s ++ l)) by (rewrite app_length, firstn_length_le by exact L; reflexivity). exact (skipn_prefix _ _ _ E).
Qed.
Lemma firstn_exact {A} n (l r : list A) : n = List.length l -> firstn n (l ++ r) = l.
Proof. intros ->. rewrite firstn_app, Nat.sub_diag, firstn_all. apply app_nil_r. Qed.
Lemma accepts_nonempty m : accepts loop_header m -> m <> [].
Proof. intros A ->. inversion A. Qed.
Lemma skipn_le_len {A} n (s l r : list A) : skipn n s = l ++ r -> n <= List.length s -> n + List.length l <= List.length s.
Proof. intros H L. pose proof (skipn_length n s) as K. rewrite H, app_length in K. lia. Qed.
Lemma split_ok fuel inside : forall pos ind z ls e, split_loops fuel inside pos ind = Ret (ls, e) -> ind <= List.length inside -> ind = pos + List.length z ->
  rsearch loop_header (skipn pos inside) = match rsearch loop_header (skipn ind inside) with Some (a, l, b) => Some (z ++ a, l, b) | None => None end ->
  Forall (fun l => nowhere loop_header (body l)) ls ->
  skipn ind inside = concat (map render_loop ls) ++ skipn e inside /\ Forall good_loop0 ls /\ nowhere loop_header (skipn e inside) /\ e <= List.length inside.
Proof.
  induction fuel as [|fuel IH]; intros pos ind z ls e H Hind Hz Hs Hb; cbn [split_loops] in H; [discriminate|]. rewrite Hs in H.
  destruct (rsearch loop_header (skipn ind inside)) as [[[a h] after]|] eqn:E.
  - destruct (rsearch_some _ _ _ _ _ E) as (Ei & Em & _). pose proof (rsearch_before _ _ _ _ _ rsearch_nil_header E) as Na. destruct (rmatch_accepts _ _ _ Em) as (_ & Ac & _).
    destruct (get_pairing_brackets after "{" "}") as [[bo bc]| | |] eqn:Eb; try discriminate. cbn [bind] in H.
    destruct (proj1 (C160_brackets "{" "}" after ltac:(discriminate)) bo bc Eb) as (u & m & r & Ea & Bal & Ebo & Ebc).
    assert (Fu : firstn bo after = u) by (rewrite Ea; apply firstn_exact, Ebo). rewrite Fu in H. destruct (forallb space u) eqn:Sp; [|discriminate]. cbn [negb] in H. apply forallb_space in Sp.
    assert (Fm : firstn (bc - 1 - (bo + 1)) (skipn (bo + 1) after) = m).
    {
      replace (bo + 1) with (List.length (u ++ ["{"%char])) by (rewrite app_length; cbn; lia). rewrite (skipn_prefix (u ++ ["{"%char]) (m ++ "}"%char :: r) after) by (rewrite Ea, <- app_assoc; reflexivity).
      apply firstn_exact. rewrite app_length. cbn. lia. }
    rewrite Fm in H. destruct (quad_of m) as [q|] eqn:Q; [|discriminate].
    destruct (split_loops fuel inside _ _) as [[ls' e']| | |] eqn:Er; try discriminate. cbn [bind fst snd] in H. injection H as <- <-.
    rewrite app_length in Er. rewrite !app_length in Hb |- *. rewrite Hz in Hind, Ei, E |- *. rewrite Hz in Hb.
    assert (L1 : pos + (List.length z + List.length a) = (pos + List.length z) + List.length a) by lia. rewrite L1 in Er, Hb |- *.
    set (st := pos + List.length z + List.length a) in *.
    pose proof (skipn_le_len _ _ _ _ Ei Hind) as Lst. fold st in Lst.
    assert (Sst : skipn st inside = concat h ++ after) by (apply (skipn_more _ _ _ _ _ Ei); [reflexivity|exact Hind]).
    set (en := st + List.length (concat h)) in *. assert (Sen : skipn en inside = after) by (apply (skipn_more _ _ _ _ _ Sst); [reflexivity|exact Lst]).
    pose proof (skipn_le_len _ _ _ _ Sst Lst) as Len. fold en in Len.
    assert (Ea' : after = (u ++ "{"%char :: m ++ ["}"%char]) ++ r) by (rewrite Ea, <- app_assoc; cbn; rewrite <- app_assoc; reflexivity).
    assert (Lz : List.length (u ++ "{"%char :: m ++ ["}"%char]) = bc) by (rewrite app_length; cbn; rewrite app_length; cbn; lia).
    assert (Sind : skipn (en + bc) inside = r). { apply (skipn_more en _ _ _ (u ++ "{"%char :: m ++ ["}"%char])); [rewrite Sen; exact Ea'|rewrite Lz; reflexivity|exact Len]. }
    pose proof (skipn_le_len en inside (u ++ "{"%char :: m ++ ["}"%char]) r ltac:(rewrite Sen; exact Ea') Len) as Lind. rewrite Lz in Lind.
    pose proof (Forall_inv Hb) as Hb1. pose proof (Forall_inv_tail Hb) as Hb2. cbn [body] in Hb1.
    destruct (IH _ _ (u ++ "{"%char :: m ++ ["}"%char]) _ _ Er Lind ltac:(rewrite Lz; reflexivity)) as (R1 & R2 & R3 & R4).
    + rewrite Sind, Sen. rewrite Ea. rewrite rsearch_cut; [|discriminate|apply header_rejects; auto|apply nowhere_spaces, Sp|reflexivity].
      rewrite rsearch_cut; [|discriminate|apply header_rejects; auto|exact Hb1|reflexivity].
      destruct (rsearch loop_header r) as [[[? ?] ?]|]; [|reflexivity]. rewrite <- app_assoc. cbn. rewrite <- app_assoc. reflexivity.
    + exact Hb2.
    + assert (Hh : firstn (en + bo + 1 - st) (skipn st inside) = concat h ++ u ++ ["{"%char]).
      { rewrite Sst, Ea. replace (concat h ++ u ++ "{"%char :: m ++ "}"%char :: r) with ((concat h ++ u ++ ["{"%char]) ++ m ++ "}"%char :: r) by (rewrite <- !app_assoc; reflexivity).
        apply firstn_exact. rewrite !app_length. cbn. unfold en. lia. }
      assert (Hp : firstn (st - (pos + List.length z)) (skipn (pos + List.length z) inside) = a) by (rewrite Ei; apply firstn_exact; unfold st; lia).
      split; [|split; [|split; [exact R3|exact R4]]].
      * cbn [map concat]. unfold render_loop at 1. cbn [pre_text header body]. rewrite Hh, Hp, Ei, Ea. rewrite Sind in R1. rewrite R1. rewrite <- !app_assoc. reflexivity.
      * constructor; [|exact R2]. unfold good_loop0. cbn [pre_text header body quad_name]. rewrite Hh, Hp. split; [exact Na|]. split; [|split; [exact Bal|exact Q]].
        exists (concat h), u. split; [reflexivity|]. split; [exact Ac|exact Sp].
  - injection H as <- <-. cbn [map concat app]. split; [reflexivity|]. split; [constructor|]. split; [apply rsearch_none, E|exact Hind].
Qed.
Lemma get_brackets_kinds code : get_pairing_brackets code "{" "}" <> OutOfFuel /\ get_pairing_brackets code "{" "}" <> UB.
Proof. unfold get_pairing_brackets. destruct (pairing _ _ _ _ _ _) as [[? ?]|]; split; discriminate. Qed.
Lemma split_kinds fuel inside : forall pos ind, pos <= List.length inside -> List.length inside - pos < fuel -> split_loops fuel inside pos ind <> OutOfFuel /\ split_loops fuel inside pos ind <> UB.
Proof.
  induction fuel as [|fuel IH]; intros pos ind Hp Hf; [lia|]. cbn [split_loops]. destruct (rsearch loop_header (skipn pos inside)) as [[[a h] after]|] eqn:E; [|split; discriminate].
  destruct (rsearch_some _ _ _ _ _ E) as (Ei & Em & _). destruct (rmatch_accepts _ _ _ Em) as (_ & Ac & _). pose proof (accepts_nonempty _ Ac) as Ne.
  pose proof (skipn_le_len pos inside (a ++ concat h) after ltac:(rewrite Ei, <- app_assoc; reflexivity) Hp) as L. rewrite app_length in L.
  destruct (get_brackets_kinds after) as (K1 & K2). destruct (get_pairing_brackets after "{" "}") as [[bo bc]| | |]; cbn [bind]; try (split; congruence).
  destruct (negb _); [split; discriminate|]. destruct (quad_of _); [|split; discriminate].
  destruct (IH (pos + List.length a + List.length (concat h)) (pos + List.length a + List.length (concat h) + bc)) as (I1 & I2); [lia|destruct (concat h); [congruence|cbn [List.length] in *; lia]|].
  destruct (split_loops fuel inside _ _) as [[? ?]| | |]; split; cbn [bind]; congruence.
Qed.
Lemma find_char_some a s i : find_char a s = Some i -> exists u v, s = u ++ a :: v /\ i = List.length u /\ ~ In a u.
Proof.
  revert i. induction s as [|x s IH]; intros i H; cbn in H; [discriminate|]. destruct (Ascii.eqb_spec x a) as [->|N].
  - injection H as <-. exists [], s. split; [reflexivity|]. split; [reflexivity|]. intros [].
  - destruct (find_char a s) as [j|]; [|discriminate]. injection H as <-. destruct (IH j eq_refl) as (u & v & -> & -> & Hu). exists (x :: u), v. split; [reflexivity|]. split; [reflexivity|]. intros [E|E]; [congruence|tauto].
Qed.
Lemma starts_true p s : starts p s = true <-> exists v, s = p ++ v.
Proof.
  revert s. induction p as [|a p IH]; intros s; cbn; [split; [intros _; exists s; reflexivity|reflexivity]|].
  destruct s as [|x s]; [split; [discriminate|intros (v & E); discriminate]|]. rewrite andb_true_iff, IH, Ascii.eqb_eq. split.
  - intros (-> & v & ->). exists v. reflexivity.
  - intros (v & E). injection E as -> ->. split; [reflexivity|exists v; reflexivity].
Qed.
Lemma rfind1_some a s i : rfind [a] s = Some i -> exists u v, s = u ++ a :: v /\ i = List.length u /\ ~ In a v.
Proof.
  revert i. induction s as [|x s IH]; intros i H; cbn [rfind] in H; [discriminate|]. destruct (rfind [a] s) as [j|] eqn:R.
  - injection H as <-. destruct (IH j eq_refl) as (u & v & -> & -> & N). exists (x :: u), v. split; [reflexivity|]. split; [reflexivity|exact N].
  - destruct (starts [a] (x :: s)) eqn:E; [|discriminate]. injection H as <-. apply starts_true in E as (v & E). injection E as -> ->. exists [], v. split; [reflexivity|]. split; [reflexivity|].
    clear IH. induction v as [|y v IHv]; [intros []|]. cbn [rfind] in R. destruct (rfind [a] v) eqn:Rv; [discriminate|]. cbn in R. destruct (Ascii.eqb_spec a y) as [->|N]; [discriminate|]. intros [->|I]; [congruence|]. exact (IHv eq_refl I).
Qed.
Lemma rmatch_items p : forall s l, rmatch p s = Some l -> Forall2 (fun i m => accepts [i] m) p l.
Proof.
  induction p as [|i p IH]; intros s l H; cbn in H; [injection H as <-; constructor|]. destruct i as [c|c|c].
  - destruct s as [|x s]; [discriminate|]. destruct (c x) eqn:E; [|discriminate]. destruct (rmatch p s) as [l'|] eqn:M; [|discriminate]. injection H as <-. constructor; [|apply (IH _ _ M)]. constructor; [exact E|constructor].
  - apply longest_some in H as (k & K & _ & H). destruct (rmatch p (skipn k s)) as [l'|] eqn:M; [|discriminate]. injection H as <-. constructor; [|apply (IH _ _ M)].
    rewrite <- (app_nil_r (firstn k s)). constructor; [apply span_all, K|constructor].
  - destruct (Nat.eqb_spec (span_len c s) 0) as [Z|Z]; [discriminate|]. apply longest_some in H as (k & K & K1 & H). destruct (rmatch p (skipn k s)) as [l'|] eqn:M; [|discriminate]. injection H as <-. constructor; [|apply (IH _ _ M)].
    rewrite <- (app_nil_r (firstn k s)). constructor; [|apply span_all, K|constructor]. destruct s; [cbn in Z; lia|]. destruct k; [lia|]. discriminate.
Qed.
Lemma items_accepts p l : Forall2 (fun i m => accepts [i] m) p l -> accepts p (concat l).
Proof.
  induction 1 as [|i m p l H _ IH]; cbn; [constructor|]. inversion H as [|c x p' s Hx A|c r p' s Hr A|c r p' s N Hr A]; subst; inversion A; subst; rewrite ?app_nil_r; constructor; assumption.
Qed.
Lemma f2_firstn {A B} (R : A -> B -> Prop) n : forall l m, Forall2 R l m -> Forall2 R (firstn n l) (firstn n m).
Proof. induction n as [|n IH]; intros l m H; [constructor|]. destruct H; cbn; constructor; auto. Qed.
Lemma accepts_lit s p m : accepts (map (fun a => One (is a)) s ++ p) m -> exists m', m = s ++ m' /\ accepts p m'.
Proof.
  revert m. induction s as [|a s IH]; intros m H; cbn in H; [exists m; split; [reflexivity|exact H]|]. inversion H as [|c x p' s' Hx A| |]; subst. apply Ascii.eqb_eq in Hx as ->. destruct (IH _ A) as (m' & -> & A'). exists m'. split; [reflexivity|exact A'].
Qed.
Lemma f2_at {A B} (R : A -> B -> Prop) l m n x y : Forall2 R l m -> nth_error l n = Some x -> nth_error m n = Some y -> R x y.
Proof. intros H. revert n. induction H as [|a b l m H _ IH]; intros [|n] Hx Hy; cbn in *; try discriminate; [congruence|]. eapply IH; eassumption. Qed.
Lemma accepts_star c p m : accepts (Star c :: p) m -> exists r s, m = r ++ s /\ Forall (fun x => c x = true) r /\ accepts p s.
Proof. intros H. inversion H as [| |c' r p' s Hr A|]; subst. exists r, s. auto. Qed.
Definition sig_start (a : text) : Prop := exists w, a = txt "void" ++ w ++ txt "tabulate_tensor_integral_" /\ Forall (fun x => space x = true) w.
Lemma sig_parts sg s : rmatch func_sig s = Some sg -> exists a b, concat sg = a ++ concat (firstn 1 (skipn 30 sg)) ++ b /\ sig_start a /\ concat (firstn 1 (skipn 30 sg)) <> [] /\ Forall (fun x => word x = true) (concat (firstn 1 (skipn 30 sg))).
Proof.
  intros E2. destruct (rmatch_accepts _ _ _ E2) as (E3 & E4 & _). pose proof (rmatch_items _ _ _ E2) as E5.
  pose proof (firstn_skipn 30 sg) as S0. assert (L : List.length sg = List.length func_sig) by exact E3. cbn in L.
    destruct (skipn 30 sg) as [|nm rest] eqn:Sk.
    { exfalso. pose proof (skipn_length 30 sg) as K. rewrite Sk in K. cbn in L, K. lia. }
    cbn [firstn concat]. rewrite app_nil_r. exists (concat (firstn 30 sg)), (concat rest). split; [rewrite <- S0 at 1; rewrite concat_app; reflexivity|].
    pose proof (items_accepts _ _ (f2_firstn _ 30 _ _ E5)) as A. split.
    + change (firstn 30 func_sig) with (map (fun a => One (is a)) (txt "void") ++ Star space :: map (fun a => One (is a)) (txt "tabulate_tensor_integral_") ++ []) in A.
      apply accepts_lit in A as (m1 & Em1 & A). apply accepts_star in A as (r & m3 & Em3 & Hr & A'). apply accepts_lit in A' as (m2 & Em2 & A''). assert (m2 = []) as -> by (inversion A''; reflexivity). rewrite app_nil_r in Em2. exists r. split; [rewrite Em1, Em3, Em2; reflexivity|exact Hr].
    + assert (K : nth_error sg 30 = Some nm). { rewrite <- S0. rewrite nth_error_app2 by (rewrite firstn_length; lia). pose proof (skipn_length 30 sg) as K. rewrite Sk in K. cbn in K. rewrite firstn_length_le by lia. reflexivity. }
      pose proof (f2_at _ _ _ _ _ _ E5 (eq_refl : nth_error func_sig 30 = Some (Plus word)) K) as N. inversion N as [| | |c r p' s' Nr Hr A']; subst. inversion A'; subst. rewrite app_nil_r. split; [exact Nr|exact Hr].
Qed.
(** The text is taken apart without loss: the function's text can be put together again, with at most the text between its signature and its first bracket left out; the loops are
    those over the points, each with its quadrature. *)
Lemma parse0 : forall code k, from_ffcx code = Ret k -> Forall (fun l => nowhere loop_header (body l)) (loops k) ->
  (exists gap, code = before_func k ++ signature k ++ gap ++ render_body k ++ after_func k /\ ~ In "{"%char gap)
  /\ nowhere func_sig (before_func k) /\ accepts func_sig (signature k)
  /\ (exists a b, signature k = a ++ integral_name k ++ b /\ sig_start a /\ integral_name k <> [] /\ Forall (fun x => word x = true) (integral_name k))
  /\ Forall good_loop0 (loops k)
  /\ (exists rest tail, post_text k = rest ++ "}"%char :: tail /\ nowhere loop_header rest /\ ~ In "}"%char tail).
Proof.
  intros code k H Hb. unfold from_ffcx in H. destruct (rsearch func_sig code) as [[[before sg] sub]|] eqn:E; [|discriminate].
  destruct (find_char "{" sub) as [ob|] eqn:Ef; [|discriminate]. destruct (rfind ["}"%char; nl] sub) as [j|] eqn:Er; [|discriminate]. cbv zeta in H.
  destruct (rsearch coeffs_type (concat sg)) as [[[? w] ?]|]; [|discriminate]. destruct (dtype_ok _); [|discriminate]. cbn [negb] in H.
  set (impl := firstn (j + 3 - ob) (skipn ob sub)) in *. destruct (starts ["{"%char; nl] impl) eqn:Es; [|discriminate]. cbn [negb] in H.
  apply starts_true in Es as (inside & Es). assert (Ei : skipn 2 impl = inside) by (rewrite Es; reflexivity). rewrite Ei in H.
  destruct (rfind ["}"%char] inside) as [cp|] eqn:Ec; [|discriminate]. destruct (split_loops _ _ _ _) as [[ls e]| | |] eqn:Esp; try discriminate. cbn [bind fst snd] in H.
  match type of H with Ret ?r = Ret k => assert (k = r) as -> by congruence end. cbn [loops before_func after_func signature integral_name post_text] in *.
  destruct (rsearch_some _ _ _ _ _ E) as (E1 & E2 & _). destruct (rmatch_accepts _ _ _ E2) as (E3 & E4 & _). pose proof (rmatch_items _ _ _ E2) as E5.
  destruct (find_char_some _ _ _ Ef) as (gap & v & Eg & Lo & Ng). destruct (rfind1_some _ _ _ Ec) as (u' & tail & Et & Lc & Nt).
  assert (Fi : firstn cp inside = u') by (rewrite Et; apply firstn_exact, Lc). assert (Si : skipn cp inside = "}"%char :: tail) by (rewrite Lc; apply skipn_prefix, Et).
  rewrite Fi in *. rewrite Si.
  destruct (split_ok _ _ 0 0 [] ls e Esp ltac:(lia) eq_refl) as (R1 & R2 & R3 & R4).
  { cbn [skipn]. destruct (rsearch loop_header u') as [[[? ?] ?]|]; reflexivity. }
  { exact Hb. }
  cbn [skipn] in R1.
  assert (Hob : ob < j + 3). { destruct (Nat.ltb_spec ob (j + 3)) as [|L]; [assumption|]. unfold impl in Es. replace (j + 3 - ob) with 0 in Es by lia. discriminate. }
  split; [|split; [|split; [exact E4|split; [|split; [exact R2|]]]]].
  - exists gap. split; [|exact Ng]. rewrite E1 at 1. f_equal. f_equal. unfold render_body. cbn [loops post_text].
    transitivity (gap ++ impl ++ skipn (j + 3) sub).
    + rewrite Eg at 1. f_equal. unfold impl. rewrite <- (firstn_skipn (j + 3 - ob) ("{"%char :: v)). assert (K : skipn ob sub = "{"%char :: v) by (rewrite Lo; apply skipn_prefix, Eg). f_equal; [rewrite K; reflexivity|].
      rewrite <- K. rewrite Lo. clear - Eg Lo Hob. rewrite Eg. rewrite Lo in Hob. rewrite skipn_concat. rewrite (skipn_app (j + 3) gap). rewrite (skipn_all2 gap) by lia. reflexivity.
    + f_equal. rewrite Es, Et. rewrite R1 at 1. rewrite <- !app_assoc. reflexivity.
  - exact (rsearch_before func_sig _ _ _ _ eq_refl E).
  - exact (sig_parts _ _ E2).
  - exists (skipn e u'), tail. split; [reflexivity|]. split; assumption.
Qed.

(** Every text is accepted or rejected with an exception: parsing ends and reads nothing out of bounds. *)
Theorem C160_total : forall code, from_ffcx code <> OutOfFuel /\ from_ffcx code <> UB.
Proof.
  intros code. unfold from_ffcx. destruct (rsearch func_sig code) as [[[before sg] sub]|]; [|split; discriminate]. destruct (find_char _ _); [|split; discriminate]. destruct (rfind _ sub); [|split; discriminate]. cbv zeta.
  destruct (rsearch coeffs_type _) as [[[? w] ?]|]; [|split; discriminate]. destruct (negb _); [split; discriminate|]. destruct (negb _); [split; discriminate|]. destruct (rfind _ _) as [cp|]; [|split; discriminate].
  match goal with |- context [split_loops (S ?n) ?i 0 0] => destruct (split_kinds (S n) i 0 0) as (A & B); [lia|lia|]; destruct (split_loops (S n) i 0 0) as [[? ?]| | |] end; cbn [bind]; split; congruence.
Qed.

(** Renaming. *)
Lemma replace1_at old new a b : old <> [] -> (forall u v, a = u ++ v -> v <> [] -> starts old (v ++ old ++ b) = false) -> replace1 old new (a ++ old ++ b) = a ++ new ++ b.
Proof.
  intros No. induction a as [|x a IH]; intros H.
  - cbn [app]. destruct old as [|y old]; [congruence|]. cbn [app replace1]. assert (E : starts (y :: old) (y :: old ++ b) = true) by (apply starts_true; exists b; reflexivity). rewrite E.
    f_equal. exact (skipn_prefix (y :: old) b _ eq_refl).
  - pose proof (H [] (x :: a) eq_refl ltac:(discriminate)) as K. cbn [app] in K. cbn [app replace1]. rewrite K. f_equal. apply IH. intros u v E N. apply (H (x :: u) v); [cbn; congruence|exact N].
Qed.
Lemma starts_nth p s i d : starts p s = true -> i < List.length p -> nth i p d = nth i s d.
Proof. intros H L. apply starts_true in H as (v & ->). symmetry. apply app_nth1, L. Qed.
Definition separated (v : text) : Prop := exists i, i < 29 /\ i < List.length v /\ (nth i v "a"%char = "_"%char \/ space (nth i v "a"%char) = true).
Lemma suffixes a : sig_start a -> forall u v, a = u ++ v -> v <> [] -> separated v.
Proof.
  intros (w & -> & Hw) u v E Nv. assert (D : (exists u1, txt "tabulate_tensor_integral_" = u1 ++ v) \/ (exists w1 w2, w = w1 ++ w2 /\ w2 <> [] /\ v = w2 ++ txt "tabulate_tensor_integral_")
    \/ (exists v1 v2, txt "void" = v1 ++ v2 /\ v2 <> [] /\ v = v2 ++ w ++ txt "tabulate_tensor_integral_")).
  { apply app_eq_app in E as (l & [(E1 & E2)|(E1 & E2)]).
    - destruct l as [|y l]; [cbn in E2|].
      + rewrite E2. destruct w as [|z w]; [left; exists []; reflexivity|]. right. left. exists [], (z :: w). split; [reflexivity|]. split; [discriminate|reflexivity].
      + right. right. exists u, (y :: l). split; [exact E1|]. split; [discriminate|exact E2].
    - apply app_eq_app in E2 as (l' & [(F1 & F2)|(F1 & F2)]).
      + destruct l' as [|y l']; [left; exists []; exact (eq_sym F2)|]. right. left. exists l, (y :: l'). split; [exact F1|]. split; [discriminate|exact F2].
      + left. exists l'. exact F2. }
  destruct D as [(u1 & D)|[(w1 & w2 & -> & N2 & ->)|(v1 & v2 & D & N2 & ->)]].
  - exists (List.length v - 1). assert (L : List.length u1 + List.length v = 25) by (rewrite <- app_length, <- D; reflexivity). destruct v as [|y v]; [congruence|]. cbn [List.length] in *. split; [lia|]. split; [lia|]. left.
    assert (K : nth 24 (txt "tabulate_tensor_integral_") "a"%char = "_"%char) by reflexivity. rewrite D in K. rewrite app_nth2 in K by lia. rewrite <- K. f_equal. lia.
  - exists 0. destruct w2 as [|z w2]; [congruence|]. cbn. split; [lia|]. split; [lia|]. right. apply Forall_app in Hw as (_ & Hw). apply (Forall_inv Hw).
  - assert (L : List.length v1 + List.length v2 = 4) by (rewrite <- app_length, <- D; reflexivity). destruct w as [|z w].
    + exists (List.length v2 + 24). rewrite app_length. cbn [app List.length txt]. split; [destruct v1 as [|? [|? [|? [|? ?]]]]; cbn in *; lia || idtac|]. split; [cbn; lia|]. left. rewrite app_nth2 by lia. replace (List.length v2 + 24 - List.length v2) with 24 by lia. reflexivity.
    + exists (List.length v2). rewrite app_length. split; [lia|]. split; [cbn; lia|]. right. rewrite app_nth2 by lia. rewrite Nat.sub_diag. exact (Forall_inv Hw).
Qed.

Lemma word_plain x : word x = true -> space x = false.
Proof.
  intros H. destruct (space x) eqn:E; [exfalso|reflexivity]. destruct x as [[] [] [] [] [] [] [] []]; cbv in H, E; discriminate.
Qed.
Lemma separated_differs v name t : separated v -> 29 <= List.length name -> ~ In "_"%char (firstn 29 name) -> Forall (fun x => word x = true) name -> starts name (v ++ t) = false.
Proof.
  intros (i & L & Lv & D) Ln N W. destruct (starts name (v ++ t)) eqn:E; [exfalso|reflexivity].
  pose proof (starts_nth name (v ++ t) i "a"%char E ltac:(lia)) as K. rewrite app_nth1 in K by exact Lv.
  assert (I : In (nth i name "a"%char) name) by (apply nth_In; lia). pose proof (proj1 (Forall_forall _ _) W _ I) as Wi.
  destruct D as [D|D].
  - apply N. rewrite <- D, <- K. rewrite <- (firstn_skipn 29 name) at 1. rewrite app_nth1 by (rewrite firstn_length; lia). apply nth_In. rewrite firstn_length. lia.
  - rewrite <- K in D. apply word_plain in Wi. congruence.
Qed.
(** Renaming: with names as FFCx gives them (a hash of more than 28 characters first), the suffix is put after the name of the function in its signature, and nowhere else. *)
Lemma rename0 : forall code k suffix, from_ffcx code = Ret k -> suffix <> [] -> 29 <= List.length (integral_name k) -> ~ In "_"%char (firstn 29 (integral_name k)) ->
  exists a b, signature k = a ++ integral_name k ++ b /\ sig_start a /\ render k suffix = a ++ (integral_name k ++ suffix) ++ b ++ render_body k ++ [nl; nl].
Proof.
  intros code k suffix H Ns L N. assert (P : exists a b, signature k = a ++ integral_name k ++ b /\ sig_start a /\ integral_name k <> [] /\ Forall (fun x => word x = true) (integral_name k)).
  { unfold from_ffcx in H. destruct (rsearch func_sig code) as [[[before sg] sub]|] eqn:E; [|discriminate]. destruct (find_char "{" sub) as [ob|]; [|discriminate]. destruct (rfind ["}"%char; nl] sub) as [j|]; [|discriminate]. cbv zeta in H.
    destruct (rsearch coeffs_type (concat sg)) as [[[? w] ?]|]; [|discriminate]. destruct (dtype_ok _); [|discriminate]. cbn [negb] in H. destruct (starts ["{"%char; nl] _); [|discriminate]. cbn [negb] in H.
    destruct (rfind ["}"%char] _) as [cp|]; [|discriminate]. destruct (split_loops _ _ _ _) as [[ls e]| | |]; try discriminate. cbn [bind fst snd] in H.
    match type of H with Ret ?r = Ret k => assert (k = r) as -> by congruence end. cbn [signature integral_name]. destruct (rsearch_some _ _ _ _ _ E) as (_ & E2 & _). exact (sig_parts _ _ E2). }
  destruct P as (a & b & Es & Ha & Nn & W). exists a, b. split; [exact Es|]. split; [exact Ha|]. unfold render. destruct suffix as [|x suffix]; [congruence|]. rewrite Es at 1.
  rewrite replace1_at; [rewrite <- !app_assoc; reflexivity|exact Nn|]. intros u v E Nv. apply separated_differs; [|exact L|exact N|exact W]. exact (suffixes a Ha u v E Nv).
Qed.

(** The normals. *)
Lemma dec_digits n : Forall (fun x => digit x = true) (dec n).
Proof. unfold dec. induction (Nat.to_uint n); cbn; constructor; auto. Qed.
Lemma dec_inj n m : dec n = dec m -> n = m.
Proof.
  unfold dec. intros H. assert (E : NilEmpty.string_of_uint (Nat.to_uint n) = NilEmpty.string_of_uint (Nat.to_uint m)) by (rewrite <- (string_of_list_ascii_of_string (NilEmpty.string_of_uint (Nat.to_uint n))), H; apply string_of_list_ascii_of_string).
  pose proof (NilEmpty.usu (Nat.to_uint n)) as U1. rewrite E, NilEmpty.usu in U1. injection U1 as U1. rewrite <- (Unsigned.of_to n), <- (Unsigned.of_to m), U1. reflexivity.
Qed.
Lemma digit_plain x : digit x = true -> operator x = false.
Proof. intros H. destruct x as [[] [] [] [] [] [] [] []]; cbv in H; discriminate || reflexivity. Qed.
Lemma word_op x : word x = true -> operator x = false.
Proof. intros H. destruct x as [[] [] [] [] [] [] [] []]; cbv in H; discriminate || reflexivity. Qed.
Lemma dec_split n m s t : dec n ++ "]"%char :: s = dec m ++ "]"%char :: t -> n = m /\ s = t.
Proof.
  intros H. enough (K : dec n = dec m /\ s = t) by (destruct K as (K & ->); split; [apply dec_inj, K|reflexivity]).
  pose proof (dec_digits n) as A. pose proof (dec_digits m) as B. revert B H. generalize (dec m). induction A as [|x u Hx A IH]; intros v B H; destruct B as [|y v Hy B]; cbn in H.
  - split; congruence.
  - injection H as <- H. discriminate.
  - injection H as -> H. discriminate.
  - injection H as -> H. destruct (IH v B H) as (-> & ->). split; reflexivity.
Qed.
Notation cref n := (txt "c[" ++ dec n ++ txt "]").
Lemma ref_split n m s t : cref n ++ s = cref m ++ t -> n = m /\ s = t.
Proof. intros H. injection H as H. rewrite <- !app_assoc in H. apply dec_split, H. Qed.
Lemma cref_eq n s : txt "c[" ++ dec n ++ txt "]" ++ s = cref n ++ s.
Proof. rewrite <- !app_assoc. reflexivity. Qed.
Lemma replaced_inv sigma x s t : replaced0 sigma (x :: s) t ->
  (exists n r s' t', operator x = true /\ sigma n = Some r /\ s = cref n ++ s' /\ t = x :: r ++ t' /\ replaced0 sigma s' t') \/
  (exists t', t = x :: t' /\ (forall n u, s = cref n ++ u -> operator x = true -> sigma n = None) /\ replaced0 sigma s t').
Proof.
  intros H. remember (x :: s) as xs eqn:E. destruct H as [|y n r s' t' Ho Hs H|y s' t' Hn H]; [discriminate| |].
  - injection E as -> E. left. exists n, r, s', t'. split; [exact Ho|]. split; [exact Hs|]. split; [|split; [reflexivity|exact H]]. rewrite <- cref_eq. symmetry. exact E.
  - injection E as -> ->. right. exists t'. split; [reflexivity|]. split; [|exact H]. intros n u -> Op. apply (Hn n u); [rewrite cref_eq; reflexivity|exact Op].
Qed.
Lemma replaced_ref sigma x n r s t : operator x = true -> sigma n = Some r -> replaced0 sigma s t -> replaced0 sigma (x :: cref n ++ s) (x :: r ++ t).
Proof. intros. rewrite <- cref_eq. apply r0_ref; assumption. Qed.
Lemma replaced_skip sigma x s t : (forall n u, s = cref n ++ u -> operator x = true -> sigma n = None) -> replaced0 sigma s t -> replaced0 sigma (x :: s) (x :: t).
Proof. intros H R. apply r0_skip; [|exact R]. intros n u E Op. injection E as E. apply (H n u); [rewrite <- cref_eq; exact E|exact Op]. Qed.
(** What [replaced0] says determines the text. *)
Lemma replaced_fun sigma : forall s t t', replaced0 sigma s t -> replaced0 sigma s t' -> t = t'.
Proof.
  intros s t t' H. revert t'. induction H as [|x n r s t Ho Hs H IH|x s t Hn H IH]; intros t' H'.
  - inversion H'. reflexivity.
  - rewrite cref_eq in H'. apply replaced_inv in H' as [(n' & r' & s' & t1 & Ho' & Hs' & E & -> & H1)|(t1 & -> & Hn' & H1)].
    + apply ref_split in E as (-> & ->). rewrite Hs in Hs'. injection Hs' as <-. f_equal. f_equal. apply IH, H1.
    + rewrite (Hn' n s eq_refl Ho) in Hs. discriminate.
  - apply replaced_inv in H' as [(n' & r' & s' & t1 & Ho' & Hs' & E & -> & H1)|(t1 & -> & Hn' & H1)].
    + subst s. rewrite (Hn n' s' ltac:(rewrite cref_eq; reflexivity) Ho') in Hs'. discriminate.
    + f_equal. apply IH, H1.
Qed.
Lemma replaced_ext sigma tau s t : (forall n, sigma n = tau n) -> replaced0 sigma s t -> replaced0 tau s t.
Proof.
  intros E H. induction H as [|x n r s t Ho Hs H IH|x s t Hn H IH]; [constructor| |].
  - apply r0_ref; [exact Ho|congruence|exact IH].
  - apply r0_skip; [|exact IH]. intros n u Eq Op. rewrite <- E. apply (Hn n u Eq Op).
Qed.
Lemma replaced_none s : replaced0 (fun _ => None) s s.
Proof. induction s; constructor; auto. Qed.
(** Characters that are not operators are copied. *)
Lemma replaced_plain sigma l s t : Forall (fun x => operator x = false) l -> replaced0 sigma s t -> (exists s', s = l ++ s') <-> (exists t', t = l ++ t').
Proof.
  intros Hl. revert s t. induction Hl as [|x l Hx Hl IH]; intros s t R; [split; intros _; eexists; reflexivity|]. split.
  - intros (s' & ->). cbn [app] in R. apply replaced_inv in R as [(n' & r' & s1 & t1 & Ho' & Hs' & E & -> & H1)|(t1 & -> & Hn' & H1)]; [congruence|]. destruct (proj1 (IH _ _ H1)) as (t' & ->); [exists s'; reflexivity|]. exists t'. reflexivity.
  - intros (t' & ->). destruct s as [|y s]; [inversion R|]. cbn [app] in R. apply replaced_inv in R as [(n' & r' & s1 & t1 & Ho' & Hs' & E & E2 & H1)|(t1 & E2 & Hn' & H1)]; injection E2 as <- E2; [congruence|]. subst t1.
    destruct (proj2 (IH _ _ H1)) as (s' & ->); [exists t'; reflexivity|]. exists s'. reflexivity.
Qed.
Lemma replaced_drop sigma l s t : Forall (fun x => operator x = false) l -> replaced0 sigma (l ++ s) (l ++ t) -> replaced0 sigma s t.
Proof.
  induction 1 as [|x l Hx Hl IH]; intros R; [exact R|]. cbn [app] in R. apply replaced_inv in R as [(n' & r' & s1 & t1 & Ho' & Hs' & E & E2 & H1)|(t1 & E2 & Hn' & H1)]; injection E2 as E2; [congruence|]. subst t1. apply IH, H1.
Qed.
Lemma replaced_copy sigma l s t : Forall (fun x => operator x = false) l -> replaced0 sigma s t -> replaced0 sigma (l ++ s) (l ++ t).
Proof. induction 1 as [|x l Hx Hl IH]; intros R; [exact R|]. cbn [app]. apply replaced_skip; [intros; congruence|apply IH, R]. Qed.
Lemma ref_plain n : Forall (fun x => operator x = false) (cref n).
Proof. apply Forall_app. split; [repeat constructor|]. apply Forall_app. split; [|repeat constructor]. eapply Forall_impl; [|apply dec_digits]. apply digit_plain. Qed.
(** Texts in which nothing is replaced0, also after what precedes and before what follows them. *)
Fixpoint quiet (r : text) : Prop :=
  match r with [] => True | x :: r' => match r' with [] => operator x = false | y :: _ => (operator x = true -> y <> "c"%char) /\ quiet r' end end.
Definition inert (r : text) : Prop := quiet r /\ match r with x :: _ => x <> "c"%char | [] => False end.
Lemma quiet_through tau r : quiet r -> forall t u, replaced0 tau (r ++ t) u -> exists u', u = r ++ u' /\ replaced0 tau t u'.
Proof.
  induction r as [|x r IH]; intros Q t u R; [exists u; split; [reflexivity|exact R]|]. cbn [app] in R.
  assert (Qr : quiet r) by (destruct r; [exact I|apply Q]).
  apply replaced_inv in R as [(n' & r' & s1 & t1 & Ho' & Hs' & E & -> & H1)|(t1 & -> & Hn' & H1)].
  - exfalso. destruct r as [|y r]; [cbn in Q; congruence|]. cbn [app] in E. injection E as E _. destruct Q as (Q & _). apply (Q Ho'). congruence.
  - destruct (IH Qr t t1 H1) as (u' & -> & R'). exists u'. split; [reflexivity|exact R'].
Qed.
Lemma replaced_then sigma tau s t : (forall n r, sigma n = Some r -> inert r) -> replaced0 sigma s t -> forall u, replaced0 tau t u ->
  replaced0 (fun n => match sigma n with Some r => Some r | None => tau n end) s u.
Proof.
  intros I. induction 1 as [|x n r s t Ho Hs H IH|x s t Hn H IH]; intros u R.
  - inversion R. constructor.
  - destruct (I n r Hs) as (Q & F). assert (Q' : quiet (x :: r)) by (destruct r; [destruct F|]; split; [intros _; exact F|exact Q]).
    destruct (quiet_through tau (x :: r) Q' t u R) as (u' & -> & R'). cbn [app]. apply r0_ref; [exact Ho|rewrite Hs; reflexivity|apply IH, R'].
  - assert (Hn0 : forall n u, s = cref n ++ u -> operator x = true -> sigma n = None) by (intros n v -> Op; apply (Hn n v); [rewrite cref_eq; reflexivity|exact Op]).
    apply replaced_inv in R as [(n' & r' & s1 & t1 & Ho' & Hs' & E & -> & H1)|(t1 & -> & Hn' & H1)].
    + destruct (proj2 (replaced_plain _ _ _ _ (ref_plain n') H)) as (s' & ->); [exists s1; exact E|]. subst t. pose proof (Hn0 n' s' eq_refl Ho') as Sn.
      apply replaced_ref; [exact Ho'|rewrite Sn; exact Hs'|]. pose proof (IH _ (replaced_copy _ _ _ _ (ref_plain n') H1)) as K. exact (replaced_drop _ _ _ _ (ref_plain n') K).
    + apply replaced_skip; [|apply IH, H1]. intros n v E Op. rewrite (Hn0 n v E Op).
      destruct (proj1 (replaced_plain _ _ _ _ (ref_plain n) H)) as (t' & E'); [exists v; exact E|]. exact (Hn' n t' E' Op).
Qed.
(** One call of re.sub. *)
Definition only (n : nat) (r : text) : nat -> option text := fun m => if n =? m then Some r else None.
Lemma accepts_one c p m : accepts (One c :: p) m -> exists x s, m = x :: s /\ c x = true /\ accepts p s.
Proof. intros H. inversion H as [|c' x p' s Hx A| |]; subst. exists x, s. auto. Qed.
Lemma ref_accepts n m : accepts (constant_ref n) m <-> exists x, operator x = true /\ m = x :: cref n.
Proof.
  unfold constant_ref, lit. split.
  - intros H. apply accepts_one in H as (x & s & -> & Hx & A). exists x. split; [exact Hx|]. f_equal. apply accepts_lit in A as (m1 & -> & A). f_equal. apply accepts_lit in A as (m2 & -> & A). f_equal.
    change (map (fun a => One (is a)) (txt "]")) with (map (fun a => One (is a)) (txt "]") ++ []) in A. apply accepts_lit in A as (m3 & -> & A). inversion A. apply app_nil_r.
  - intros (x & Ho & ->). constructor; [exact Ho|]. cbn [app txt map]. repeat (constructor; [reflexivity|]). pose proof (dec_digits n) as D. clear Ho. induction (dec n) as [|y l IH]; cbn; (constructor; [apply Ascii.eqb_refl|]); [constructor|]. apply IH. exact (Forall_inv_tail D).
Qed.
Lemma rsub_one n r fuel : forall s, List.length s < fuel -> replaced0 (only n r) s (rsub fuel (constant_ref n) (fun l => concat (firstn 1 l) ++ r) s).
Proof.
  assert (Skip : forall x s, rmatch (constant_ref n) (x :: s) = None -> forall m u, x :: s = x :: txt "c[" ++ dec m ++ txt "]" ++ u -> operator x = true -> only n r m = None).
  { intros x s M m u E Op. unfold only. destruct (Nat.eqb_spec n m) as [->|]; [|reflexivity]. exfalso. injection E as ->.
    assert (A : accepts (constant_ref m) (x :: cref m)) by (apply ref_accepts; exists x; split; [exact Op|reflexivity]). apply (rmatch_complete _ _ A u). rewrite <- M. f_equal. cbn. rewrite <- app_assoc. reflexivity. }
  induction fuel as [|fuel IH]; intros s L; [lia|]. cbn [rsub]. destruct (rsearch (constant_ref n) s) as [[[a l] b]|] eqn:E.
  - destruct (rsearch_some _ _ _ _ _ E) as (Es & M & N). destruct (rmatch_accepts _ _ _ M) as (_ & A & _). apply ref_accepts in A as (x & Op & Ec). pose proof (rmatch_items _ _ _ M) as It.
    assert (F1 : concat (firstn 1 l) = [x]).
    { destruct l as [|m l]; [inversion It|]. inversion It as [|? ? ? ? I1 _]; subst. inversion I1 as [|c y p s' Hy A' | |]; subst. inversion A'; subst. cbn in Ec |- *. congruence. }
    rewrite F1. rewrite Ec in Es, N.
    assert (Lb : List.length b < fuel). { apply (f_equal (@List.length _)) in Es. rewrite !app_length in Es. cbn [List.length] in Es. rewrite Es in L. lia. }
    rewrite Es. clear Es E L. induction a as [|y a IHa].
    + cbn [app]. rewrite <- !app_assoc. cbn [app]. change (replaced0 (only n r) (x :: txt "c[" ++ dec n ++ txt "]" ++ b) (x :: r ++ rsub fuel (constant_ref n) (fun l => concat (firstn 1 l) ++ r) b)).
      apply r0_ref; [exact Op|unfold only; rewrite Nat.eqb_refl; reflexivity|apply IH, Lb].
    + cbn [app]. apply r0_skip; [apply Skip; apply (N [] (y :: a) eq_refl); discriminate|]. apply IHa. intros u v Ev Nv. apply (N (y :: u) v); [cbn; congruence|exact Nv].
  - apply rsearch_none in E. clear IH L. induction s as [|x s IH]; [constructor|]. apply r0_skip; [apply Skip, (E [] (x :: s)); reflexivity|]. apply IH. intros u v Ev. apply (E (x :: u) v). cbn. congruence.
Qed.
Lemma quiet_app l t : Forall (fun x => operator x = false) l -> t <> [] -> quiet t -> quiet (l ++ t).
Proof.
  intros Hl Nt Q. induction Hl as [|x l Hx Hl IH]; [exact Q|]. cbn [app]. destruct (l ++ t) as [|y w] eqn:E; [destruct l; [cbn in E; congruence|discriminate]|]. split; [congruence|exact IH].
Qed.
Lemma normal_inert tdim q i : Forall (fun x => word x = true) q -> inert (normal_text tdim q i).
Proof.
  intros W. unfold normal_text. split; [|discriminate].
  assert (Dp : forall n, Forall (fun x => operator x = false) (dec n)) by (intros n; eapply Forall_impl; [apply digit_plain|apply dec_digits]).
  apply quiet_app; [repeat (constructor; [reflexivity|]); constructor|destruct q; discriminate|]. apply quiet_app; [eapply Forall_impl; [apply word_op|exact W]|discriminate|].
  apply quiet_app; [repeat (constructor; [reflexivity|]); constructor|destruct (dec tdim); discriminate|]. apply quiet_app; [apply Dp|discriminate|].
  cbn [app list_ascii_of_string]. destruct (0 <? i).
  - cbn [app list_ascii_of_string]. rewrite <- ?app_assoc. cbn [app].
    assert (Qd : quiet (dec i ++ ["]"%char])) by (apply quiet_app; [apply Dp|discriminate|reflexivity]).
    assert (Hd : match dec i ++ ["]"%char] with y :: _ => y <> "c"%char | [] => False end) by (pose proof (dec_digits i) as D; destruct (dec i) as [|y d]; [discriminate|]; cbn; intros ->; apply Forall_inv in D; discriminate).
    destruct (dec i ++ ["]"%char]) as [|y d]; [destruct Hd|]. repeat (split; [intros _; discriminate|]). split; [intros _; exact Hd|exact Qd].
  - cbn. repeat (split; [intros _; discriminate|]). reflexivity.
Qed.
Lemma fold_flat {A B C} (f : C -> A -> B -> C) (g : A -> list B) (l : list A) : forall c, fold_left (fun c a => fold_left (fun c b => f c a b) (g a) c) l c = fold_left (fun c p => f c (fst p) (snd p)) (flat_map (fun a => map (fun b => (a, b)) (g a)) l) c.
Proof.
  induction l as [|a l IH]; intros c; [reflexivity|]. cbn [flat_map fold_left]. rewrite fold_left_app, IH. f_equal.
  generalize c. induction (g a) as [|b bs IHb]; intros c'; [reflexivity|]. cbn [map fold_left fst snd]. apply IHb.
Qed.
Definition at_pairs (tdim : nat) (q : text) (l : list (nat * nat)) (n : nat) : option text :=
  match find (fun p => fst p + snd p =? n) l with Some p => Some (normal_text tdim q (snd p)) | None => None end.
Lemma at_pairs_normal tdim q offsets n : at_pairs tdim q (flat_map (fun off => map (fun i => (off, i)) (seq 0 tdim)) offsets) n = normal_at0 tdim q offsets n.
Proof.
  unfold at_pairs, normal_at0.
  assert (One : forall off d k, find (fun p => fst p + snd p =? n) (map (fun i => (off, i)) (seq k d)) = if (off + k <=? n) && (n <? off + k + d) then Some (off, n - off) else None).
  { intros off. induction d as [|d IH]; intros k; cbn [seq map find].
    - destruct (Nat.leb_spec (off + k) n), (Nat.ltb_spec n (off + k + 0)); cbn; try reflexivity; lia.
    - cbn [fst snd]. rewrite IH. destruct (Nat.eqb_spec (off + k) n) as [E|N].
      + destruct (Nat.leb_spec (off + k) n), (Nat.ltb_spec n (off + k + S d)); cbn; try lia. f_equal. f_equal. lia.
      + destruct (Nat.leb_spec (off + k) n), (Nat.ltb_spec n (off + k + S d)), (Nat.leb_spec (off + S k) n), (Nat.ltb_spec n (off + S k + d)); cbn; try reflexivity; lia. }
  induction offsets as [|off offsets IH]; [reflexivity|]. cbn [flat_map find]. 
  assert (FA : forall (l m : list (nat * nat)) f, find f (l ++ m) = match find f l with Some p => Some p | None => find f m end).
  { intros l m f. induction l as [|p l IHl]; [reflexivity|]. cbn. destruct (f p); [reflexivity|exact IHl]. }
  rewrite FA, One. rewrite Nat.add_0_r. destruct ((off <=? n) && (n <? off + tdim)); [reflexivity|exact IH].
Qed.
Lemma substitute_ok tdim q offsets block : Forall (fun x => word x = true) q -> replaced0 (normal_at0 tdim q offsets) block (substitute_in tdim q offsets block).
Proof.
  intros W. unfold substitute_in.
  rewrite (fold_flat (fun block off i => rsub (S (List.length block)) (constant_ref (off + i)) (fun l => concat (firstn 1 l) ++ normal_text tdim q i) block) (fun _ => seq 0 tdim)).
  eapply replaced_ext; [apply at_pairs_normal|]. generalize (flat_map (fun off => map (fun i => (off, i)) (seq 0 tdim)) offsets) as L.
  enough (K : forall L M s t, replaced0 (at_pairs tdim q M) s t ->
    replaced0 (at_pairs tdim q (M ++ L)) s (fold_left (fun c p => rsub (S (List.length c)) (constant_ref (fst p + snd p)) (fun l => concat (firstn 1 l) ++ normal_text tdim q (snd p)) c) L t)).
  { intros L. apply (K L [] block block). eapply replaced_ext; [|apply replaced_none]. reflexivity. }
  induction L as [|p L IH]; intros M s t R; [rewrite app_nil_r; exact R|]. cbn [fold_left]. replace (M ++ p :: L) with ((M ++ [p]) ++ L) by (rewrite <- app_assoc; reflexivity). apply IH.
  eapply replaced_ext; [|apply (replaced_then (at_pairs tdim q M) (only (fst p + snd p) (normal_text tdim q (snd p))) s t); [|exact R|apply rsub_one; lia]].
  - intros n. unfold at_pairs, only. clear. induction M as [|x M IH]; [cbn; destruct (_ =? n); reflexivity|]. cbn [app find]. destruct (fst x + snd x =? n); [reflexivity|exact IH].
  - intros n r. unfold at_pairs. destruct (find _ M) as [x|]; [|discriminate]. intros E. injection E as <-. apply normal_inert, W.
Qed.
Lemma loop_paren : loop_header = removelast loop_header ++ [One (is ")"%char)] /\ Forall (rejects ")"%char) (removelast loop_header).
Proof. split; [reflexivity|]. repeat (constructor; [reflexivity|]); constructor. Qed.
Lemma accepts_split p q m : accepts (p ++ q) m -> exists u v, m = u ++ v /\ accepts p u /\ accepts q v.
Proof.
  revert m. induction p as [|i p IH]; intros m H; [exists [], m; split; [reflexivity|]; split; [constructor|exact H]|]. cbn in H.
  inversion H as [|c x p' s Hx A|c r p' s Hr A|c r p' s N Hr A]; subst; destruct (IH _ A) as (u & v & -> & A1 & A2).
  - exists (x :: u), v. split; [reflexivity|]. split; [constructor; assumption|exact A2].
  - exists (r ++ u), v. split; [rewrite app_assoc; reflexivity|]. split; [constructor; assumption|exact A2].
  - exists (r ++ u), v. split; [rewrite app_assoc; reflexivity|]. split; [constructor; assumption|exact A2].
Qed.
Lemma accepts_free p x m : Forall (rejects x) p -> accepts p m -> ~ In x m.
Proof.
  intros Hp A. induction A as [|c y p s Hy A IH|c r p s Hr A IH|c r p s N Hr A IH]; [intros []| | |]; pose proof (Forall_inv Hp) as H1; pose proof (IH (Forall_inv_tail Hp)) as H2; cbn [rejects] in H1.
  - intros [->|I]; [congruence|tauto].
  - intros I. apply in_app_iff in I as [I|I]; [|tauto]. apply (proj1 (Forall_forall _ _) Hr) in I. congruence.
  - intros I. apply in_app_iff in I as [I|I]; [|tauto]. apply (proj1 (Forall_forall _ _) Hr) in I. congruence.
Qed.
Lemma split_at {A} (x : A) u v u' v' : ~ In x u -> ~ In x u' -> u ++ x :: v = u' ++ x :: v' -> u = u' /\ v = v'.
Proof.
  revert u'. induction u as [|y u IH]; intros [|y' u'] N N' E; cbn in E.
  - injection E as E. auto.
  - injection E as <- E. exfalso. apply N'. left. reflexivity.
  - injection E as -> E. exfalso. apply N. left. reflexivity.
  - injection E as <- E. destruct (IH u') as (-> & ->); auto; intros I; [apply N|apply N']; right; exact I.
Qed.
Definition shaped (l : loop) : Prop := (exists m w, header l = m ++ w ++ ["{"%char] /\ accepts loop_header m /\ Forall (fun x => space x = true) w) /\ Forall (fun x => word x = true) (quad_name l).
(** The headers: each loop runs over its number of points at run time; nothing else of its text changes. *)
Lemma bounds0 : forall k, Forall shaped (loops k) ->
  Forall2 (fun l l' => quad_name l' = quad_name l /\ pre_text l' = pre_text l /\ body l' = body l
    /\ exists m w, accepts loop_header m /\ header l = m ++ w ++ ["{"%char] /\ header l' = txt "for (int iq = 0; iq < n_pts_Q" ++ quad_name l ++ txt "; ++iq)" ++ w ++ ["{"%char])
    (loops k) (loops (dynamic_loop_bounds k))
  /\ before_func (dynamic_loop_bounds k) = before_func k /\ after_func (dynamic_loop_bounds k) = after_func k /\ signature (dynamic_loop_bounds k) = signature k
  /\ integral_name (dynamic_loop_bounds k) = integral_name k /\ post_text (dynamic_loop_bounds k) = post_text k.
Proof.
  intros k G. split; [|repeat split]. unfold dynamic_loop_bounds, with_loops. cbn [loops].
  induction G as [|l ls ((m & w & Eh & A & _) & _) _ IH]; cbn [map]; constructor; [|exact IH]. cbn [quad_name pre_text body header]. split; [reflexivity|]. split; [reflexivity|]. split; [reflexivity|].
  exists m, w. split; [exact A|]. split; [exact Eh|]. rewrite Eh. unfold sub1.
  assert (E : rsearch loop_header (m ++ w ++ ["{"%char]) = match rmatch loop_header (m ++ w ++ ["{"%char]) with Some l => Some ([], l, skipn (List.length (concat l)) (m ++ w ++ ["{"%char])) | None => None end).
  { pose proof (rmatch_complete _ _ A (w ++ ["{"%char])) as N. destruct (m ++ w ++ ["{"%char]) as [|x s]; cbn [rsearch]; destruct (rmatch loop_header _); try reflexivity; congruence. }
  rewrite E. pose proof (rmatch_complete _ _ A (w ++ ["{"%char])) as N. destruct (rmatch loop_header (m ++ w ++ ["{"%char])) as [r|] eqn:M; [|congruence].
  destruct (rmatch_accepts _ _ _ M) as (_ & A' & v & V). destruct loop_paren as (Lp & Lr). rewrite Lp in A, A'. apply accepts_split in A as (m1 & m2 & -> & A1 & A2). apply accepts_split in A' as (r1 & r2 & Er & B1 & B2).
  apply accepts_one in A2 as (x & t & -> & Hx & A2). inversion A2; subst. apply Ascii.eqb_eq in Hx. subst x. apply accepts_one in B2 as (x & t & -> & Hx & B2). inversion B2; subst. apply Ascii.eqb_eq in Hx. subst x.
  rewrite Er in V |- *. rewrite <- !app_assoc in V. cbn [app] in V.
  apply split_at in V as (-> & ->); [|exact (accepts_free _ _ _ Lr A1)|exact (accepts_free _ _ _ Lr B1)].
  rewrite skipn_concat. cbn [app]. unfold runtime_header. rewrite <- !app_assoc. reflexivity.
Qed.
Lemma quad_words b q : quad_of b = Some q -> Forall (fun x => word x = true) q /\ List.length q = 3.
Proof.
  unfold quad_of. destruct (rsearch name_in_body b) as [[[a l] c]|] eqn:E.
  - intros H. destruct (rsearch_some _ _ _ _ _ E) as (_ & M & _). apply rmatch_items in M. injection H as <-. unfold name_in_body in M. cbn [lit list_ascii_of_string map app] in M.
    repeat match goal with H : Forall2 _ (_ :: _) _ |- _ => inversion H; clear H; subst end. cbn [skipn firstn concat].
    repeat match goal with H : accepts [One _] _ |- _ => apply accepts_one in H as (? & ? & -> & ? & H); inversion H; clear H; subst end. cbn. split; [|reflexivity]. repeat constructor; assumption.
  - destruct (rsearch name_via_weights b) as [[[a l] c]|] eqn:E2; [|discriminate]. intros H. destruct (rsearch_some _ _ _ _ _ E2) as (_ & M & _). apply rmatch_items in M. injection H as <-. unfold name_via_weights in M. cbn [lit list_ascii_of_string map app] in M.
    repeat match goal with H : Forall2 _ (_ :: _) _ |- _ => inversion H; clear H; subst end. match goal with H : Forall2 _ [] _ |- _ => inversion H; subst end. cbn [skipn firstn concat].
    repeat match goal with H : accepts [One _] _ |- _ => apply accepts_one in H as (? & ? & -> & ? & H); inversion H; clear H; subst end. cbn. split; [|reflexivity]. repeat constructor; assumption.
Qed.
(** The normals: in the loops on the unfitted boundary, the references to the constants that stand for the normals, and only those, become the components of the normals at the point;
    the text is determined by this; the other loops and parts are kept. *)
Lemma normals0 : forall (unf : text -> bool) tdim offsets k, Forall (fun l => Forall (fun x => word x = true) (quad_name l)) (loops k) ->
  Forall2 (fun l l' => quad_name l' = quad_name l /\ pre_text l' = pre_text l /\ header l' = header l
    /\ if unf (quad_name l) then forall t, replaced0 (normal_at0 tdim (quad_name l) offsets) (body l) t <-> t = body l' else body l' = body l)
    (loops k) (loops (substitute_normals unf tdim offsets k))
  /\ before_func (substitute_normals unf tdim offsets k) = before_func k /\ after_func (substitute_normals unf tdim offsets k) = after_func k
  /\ signature (substitute_normals unf tdim offsets k) = signature k /\ integral_name (substitute_normals unf tdim offsets k) = integral_name k /\ post_text (substitute_normals unf tdim offsets k) = post_text k.
Proof.
  intros unf tdim offsets k G. split; [|repeat split]. unfold substitute_normals, with_loops. cbn [loops].
  induction G as [|l ls Q _ IH]; cbn [map]; constructor; [|exact IH]. destruct (unf (quad_name l)); cbn [quad_name pre_text header body]; (split; [reflexivity|]; split; [reflexivity|]; split; [reflexivity|]); [|reflexivity].
  pose proof (substitute_ok tdim (quad_name l) offsets (body l) Q) as R. intros t. split; [intros R'; exact (replaced_fun _ _ _ _ R' R)|intros ->; exact R].
Qed.
(** The variant for the other cells: the text before the first loop goes into every loop, and the loops on the unfitted boundary end at once. *)
Theorem C161_original : forall (unf : text -> bool) k l ls, loops k = l :: ls ->
  let k' := break_unfitted unf (inline_pre_loop k) in
  (exists l' ls', loops k' = l' :: ls' /\ pre_text l' = [] /\ Forall2 (fun m m' => pre_text m' = pre_text m) ls ls')
  /\ Forall2 (fun m m' => quad_name m' = quad_name m /\ header m' = header m /\ body m' = (if unf (quad_name m) then txt "break;" ++ [nl] else []) ++ pre_text l ++ body m) (l :: ls) (loops k')
  /\ before_func k' = before_func k /\ after_func k' = after_func k /\ signature k' = signature k /\ integral_name k' = integral_name k /\ post_text k' = post_text k.
Proof.
  intros unf k l ls E k'. unfold k', break_unfitted, inline_pre_loop. rewrite E. cbn [with_loops loops before_func after_func signature integral_name post_text map quad_name pre_text header body].
  split; [|split; [|repeat split]].
  - eexists. eexists. split; [reflexivity|]. split; [destruct (unf _); reflexivity|]. clear. induction ls as [|m ls IH]; cbn [map]; constructor; [|exact IH]. destruct (unf _); reflexivity.
  - constructor.
    + destruct (unf _); cbn [quad_name header body]; rewrite <- ?app_assoc; auto.
    + clear. induction ls as [|m ls IH]; cbn [map]; constructor; [|exact IH]. destruct (unf _); cbn [quad_name header body]; rewrite <- ?app_assoc; auto.
Qed.

Lemma forall2_refl_in {A} (R : A -> A -> Prop) l : (forall x, In x l -> R x x) -> Forall2 R l l.
Proof. induction l as [|x l IH]; intros H; constructor; [apply H; left; reflexivity|]. apply IH. intros y Hy. apply H. right. exact Hy. Qed.
(** The variant for cut cells (without the parts erased and the accesses rewritten): the loops run over the points of the cell, the text before the first loop goes into every loop, and in the loops
    on the unfitted boundary the constants of the normals, also in that text, become the components of the normals. *)
Lemma custom0 : forall (unf : text -> bool) tdim offsets k l ls, loops k = l :: ls -> Forall shaped (loops k) ->
  let k' := substitute_normals unf tdim offsets (inline_pre_loop (dynamic_loop_bounds k)) in
  Forall2 (fun m m' => quad_name m' = quad_name m
    /\ (exists c w, accepts loop_header c /\ header m = c ++ w ++ ["{"%char] /\ header m' = txt "for (int iq = 0; iq < n_pts_Q" ++ quad_name m ++ txt "; ++iq)" ++ w ++ ["{"%char])
    /\ if unf (quad_name m) then forall t, replaced0 (normal_at0 tdim (quad_name m) offsets) (pre_text l ++ body m) t <-> t = body m' else body m' = pre_text l ++ body m)
    (loops k) (loops k')
  /\ (exists l' ls', loops k' = l' :: ls' /\ pre_text l' = [] /\ Forall2 (fun m m' => pre_text m' = pre_text m) ls ls')
  /\ before_func k' = before_func k /\ after_func k' = after_func k /\ signature k' = signature k /\ integral_name k' = integral_name k /\ post_text k' = post_text k.
Proof.
  intros unf tdim offsets k l ls El G k'. destruct (bounds0 k G) as (B & B1 & B2 & B3 & B4 & B5).
  set (k1 := dynamic_loop_bounds k) in *. assert (E1 : exists l1 ls1, loops k1 = l1 :: ls1) by (rewrite El in B; inversion B; eauto). destruct E1 as (l1 & ls1 & E1).
  assert (Pl : pre_text l1 = pre_text l /\ Forall2 (fun m m' => pre_text m' = pre_text m) ls ls1).
  { rewrite El, E1 in B. inversion B as [|? ? ? ? H1 H2]; subst. split; [apply H1|]. clear - H2. induction H2 as [|? ? ? ? H _ IH]; constructor; [apply H|exact IH]. }
  destruct Pl as (Pl & Pls).
  pose proof (C161_original (fun _ => false) k1 l1 ls1 E1) as O. cbv zeta in O. destruct O as ((l2 & ls2 & O1 & O2 & O3) & O4 & O5 & O6 & O7 & O8 & O9). cbv beta iota in O4.
  assert (Id : break_unfitted (fun _ => false) (inline_pre_loop k1) = inline_pre_loop k1).
  { unfold break_unfitted, with_loops. cbv beta iota. rewrite map_id. destruct (inline_pre_loop k1). reflexivity. }
  rewrite Id in *. set (k2 := inline_pre_loop k1) in *.
  assert (W : Forall (fun l => Forall (fun x => word x = true) (quad_name l)) (loops k2)).
  { rewrite <- E1 in O4. assert (W1 : Forall (fun l => Forall (fun x => word x = true) (quad_name l)) (loops k1)).
    - clear - B G. revert G. induction B as [|m m' ? ? H _ IH]; intros G; constructor; [|apply IH; exact (Forall_inv_tail G)]. destruct H as (-> & _). apply (Forall_inv G).
    - clear - O4 W1. revert W1. induction O4 as [|m m' ? ? H _ IH]; intros G; constructor; [|apply IH; exact (Forall_inv_tail G)]. destruct H as (-> & _). exact (Forall_inv G). }
  destruct (normals0 unf tdim offsets k2 W) as (N & N1 & N2 & N3 & N4 & N5). fold k' in N, N1, N2, N3, N4, N5.
  split; [|split; [|repeat split; congruence]].
  - rewrite <- E1 in O4. clear - B O4 N Pl. revert N. generalize (loops k'). rewrite Pl in O4. revert O4. generalize (loops k2).
    induction B as [|m m1 ? ? (Q1 & _ & Y1 & H1) _ IH]; intros L2 O4 L3 N; inversion O4 as [|? m2 ? ? (Q2 & H2 & Y2)]; subst; inversion N as [|? m3 ? ? (Q3 & _ & H3 & Y3)]; subst; constructor; [|eapply IH; eassumption].
    split; [congruence|]. split.
    + destruct H1 as (c & w & A & X1 & X2). exists c, w. split; [exact A|]. split; [exact X1|]. congruence.
    + assert (Yb : body m2 = pre_text l ++ body m) by (rewrite Y2; cbn [app]; congruence). rewrite <- Yb. replace (quad_name m) with (quad_name m2) by congruence. exact Y3.
  - clearbody k'. rewrite O1 in N. inversion N as [|? l3 ? ls3 Y1 Y2 E3 E4]. exists l3, ls3. split; [reflexivity|]. split; [destruct Y1 as (_ & -> & _); exact O2|].
    clear - Pls O3 Y2. revert ls2 ls3 O3 Y2. induction Pls as [|m m1 ? ? P _ IH]; intros ls2 ls3 O3 Y2; inversion O3; subst; inversion Y2 as [|? ? ? ? Y3 Y4]; subst; constructor; [|eapply IH; eassumption]. destruct Y3 as (_ & -> & _). congruence.
Qed.


(** The patterns describe the texts of the specification. *)
Ltac chars x := destruct x as [[] [] [] [] [] [] [] []].
Lemma space_blank x : space x = true <-> blank x.
Proof. unfold space, blank, is. rewrite !orb_true_iff, !andb_true_iff, Ascii.eqb_eq, !Nat.leb_le. split; [intros [[<-|H]|H]; tauto|intros [->|[H|H]]; tauto]. Qed.
Lemma digit_figure x : digit x = true <-> figure x.
Proof. unfold digit, between, figure. rewrite andb_true_iff, !Nat.leb_le. reflexivity. Qed.
Lemma word_name x : word x = true <-> name_char x.
Proof. unfold word, name_char, between, is. rewrite !orb_true_iff, digit_figure, !andb_true_iff, !Nat.leb_le, Ascii.eqb_eq. change (nat_of_ascii "a") with 97. change (nat_of_ascii "z") with 122. change (nat_of_ascii "A") with 65. change (nat_of_ascii "Z") with 90.
  split; [intros [[[H|H]|H]|<-]; tauto|intros [H|[H|[H|<-]]]; tauto]. Qed.
Lemma among_in l x : among l x = true <-> In x (txt l).
Proof. unfold among. rewrite existsb_exists. split; [intros (y & H & E); apply Ascii.eqb_eq in E; subst; exact H|intros H; exists x; split; [exact H|apply Ascii.eqb_refl]]. Qed.
Lemma operator_op x : operator x = true <-> op_char x.
Proof. unfold operator, op_char. rewrite orb_true_iff, among_in, space_blank. reflexivity. Qed.
Lemma forall_iff {A} (P Q : A -> Prop) l : (forall x, P x <-> Q x) -> Forall P l <-> Forall Q l.
Proof. intros H. rewrite !Forall_forall. split; intros K x I; apply H, K, I. Qed.
Lemma acc_lit s p m : accepts (map (fun a => One (is a)) s ++ p) m <-> exists m', m = s ++ m' /\ accepts p m'.
Proof.
  split; [apply accepts_lit|]. intros (m' & -> & A). induction s as [|a s IH]; [exact A|]. cbn. constructor; [apply Ascii.eqb_refl|exact IH].
Qed.
Lemma acc_star c p m : accepts (Star c :: p) m <-> exists r s, m = r ++ s /\ Forall (fun x => c x = true) r /\ accepts p s.
Proof. split; [apply accepts_star|]. intros (r & s & -> & H & A). constructor; assumption. Qed.
Lemma acc_plus c p m : accepts (Plus c :: p) m <-> exists r s, m = r ++ s /\ r <> [] /\ Forall (fun x => c x = true) r /\ accepts p s.
Proof. split; [intros H; inversion H; subst; eauto 8|]. intros (r & s & -> & N & H & A). constructor; assumption. Qed.
Lemma acc_one c p m : accepts (One c :: p) m <-> exists x s, m = x :: s /\ c x = true /\ accepts p s.
Proof. split; [apply accepts_one|]. intros (x & s & -> & H & A). constructor; assumption. Qed.
Lemma acc_nil m : accepts [] m <-> m = [].
Proof. split; [intros H; inversion H; reflexivity|intros ->; constructor]. Qed.
Lemma star_blank p m : accepts (Star space :: p) m <-> exists r s, m = r ++ s /\ blanks r /\ accepts p s.
Proof. rewrite acc_star. split; intros (r & s & E & H & A); exists r, s; (split; [exact E|]; split; [|exact A]); revert H; apply forall_iff; intros; rewrite space_blank; reflexivity. Qed.
Lemma plus_blank p m : accepts (Plus space :: p) m <-> exists r s, m = r ++ s /\ r <> [] /\ blanks r /\ accepts p s.
Proof. rewrite acc_plus. split; intros (r & s & E & N & H & A); exists r, s; (split; [exact E|]; split; [exact N|]; split; [|exact A]); revert H; apply forall_iff; intros; rewrite space_blank; reflexivity. Qed.
Lemma plus_digit p m : accepts (Plus digit :: p) m <-> exists r s, m = r ++ s /\ r <> [] /\ Forall figure r /\ accepts p s.
Proof. rewrite acc_plus. split; intros (r & s & E & N & H & A); exists r, s; (split; [exact E|]; split; [exact N|]; split; [|exact A]); revert H; apply forall_iff; intros; rewrite digit_figure; reflexivity. Qed.
Lemma lit_app s p : lit s ++ p = map (fun a => One (is a)) (txt s) ++ p. Proof. reflexivity. Qed.
Ltac peel := repeat match goal with
  | H : accepts (lit _ ++ _) _ |- _ => rewrite lit_app in H; apply acc_lit in H as (? & -> & H)
  | H : accepts (([_; _; _] ++ _)%list) _ |- _ => cbn [app] in H | H : accepts (([_; _] ++ _)%list) _ |- _ => cbn [app] in H | H : accepts (([_] ++ _)%list) _ |- _ => cbn [app] in H
  | H : accepts (Star space :: _) _ |- _ => apply star_blank in H as (? & ? & -> & ? & H)
  | H : accepts (Plus space :: _) _ |- _ => apply plus_blank in H as (? & ? & -> & ? & ? & H)
  | H : accepts (Plus digit :: _) _ |- _ => apply plus_digit in H as (? & ? & -> & ? & ? & H)
  | H : accepts [] _ |- _ => apply acc_nil in H as ->
  end.
Ltac build := repeat match goal with
  | |- accepts (lit _ ++ _) _ => rewrite lit_app; apply acc_lit; eexists; split; [reflexivity|]
  | |- accepts (([_; _; _] ++ _)%list) _ => cbn [app] | |- accepts (([_; _] ++ _)%list) _ => cbn [app] | |- accepts (([_] ++ _)%list) _ => cbn [app]
  | |- accepts (Star space :: _) _ => apply star_blank; eexists; eexists; split; [reflexivity|]; split; [assumption|]
  | |- accepts (Plus space :: _) _ => apply plus_blank; eexists; eexists; split; [reflexivity|]; split; [assumption|]; split; [assumption|]
  | |- accepts (Plus digit :: _) _ => apply plus_digit; eexists; eexists; split; [reflexivity|]; split; [assumption|]; split; [assumption|]
  | |- accepts [] _ => apply acc_nil; reflexivity
  end.
Lemma header_spec m : accepts loop_header m <-> header_text m.
Proof.
  rewrite <- (app_nil_r loop_header). unfold loop_header. rewrite <- !app_assoc. split.
  - intros H. peel. unfold header_text. rewrite ?app_nil_r. eexists _, _, _, _, _, _, _, _, _, _, _, _, _.
    split; [|split; [|split; [|split; [|reflexivity]]]]; [repeat (constructor; [eassumption|]); constructor|assumption..].
  - intros (w1 & w2 & w3 & w4 & w5 & w6 & w7 & w8 & w9 & d & w10 & w11 & w12 & B & N3 & Nd & Fd & ->).
    repeat match goal with B : Forall _ (_ :: _) |- _ => pose proof (Forall_inv B); apply Forall_inv_tail in B end. rewrite <- (app_nil_r (txt ")")). build.
Qed.
Lemma star_words p m : accepts (Plus word :: p) m <-> exists r s, m = r ++ s /\ r <> [] /\ Forall name_char r /\ accepts p s.
Proof. rewrite acc_plus. split; intros (r & s & E & N & H & A); exists r, s; (split; [exact E|]; split; [exact N|]; split; [|exact A]); revert H; apply forall_iff; intros; rewrite word_name; reflexivity. Qed.
Lemma one_word p m : accepts (One word :: p) m <-> exists x s, m = x :: s /\ name_char x /\ accepts p s.
Proof. rewrite acc_one. split; intros (x & s & E & H & A); exists x, s; (split; [exact E|]; split; [|exact A]); apply word_name, H. Qed.
Lemma tagged_spec m : accepts name_in_body m <-> exists q, tagged q m.
Proof.
  unfold name_in_body. rewrite lit_app, acc_lit. split.
  - intros (m' & -> & A). apply one_word in A as (a & s & -> & Ha & A). apply one_word in A as (b & s' & -> & Hb & A). apply one_word in A as (c & s & -> & Hc & A). apply acc_one in A as (x & s' & -> & Hx & A). apply acc_nil in A as ->.
    exists [a; b; c]. split; [split; [reflexivity|repeat (constructor; [assumption|]); constructor]|]. exists x. split; [apply among_in, Hx|reflexivity].
  - intros (q & (L & W) & x & Hx & ->). exists (q ++ [x]). split; [reflexivity|]. destruct q as [|a [|b [|c [|? ?]]]]; try discriminate L.
    cbn [app]. apply one_word. eexists _, _. split; [reflexivity|]. split; [apply (Forall_inv W)|]. apply Forall_inv_tail in W. apply one_word. eexists _, _. split; [reflexivity|]. split; [apply (Forall_inv W)|]. apply Forall_inv_tail in W.
    apply one_word. eexists _, _. split; [reflexivity|]. split; [apply (Forall_inv W)|]. apply acc_one. eexists _, _. split; [reflexivity|]. split; [apply among_in, Hx|]. constructor.
Qed.
Lemma weighted_spec m : accepts name_via_weights m <-> exists q, weighted q m.
Proof.
  unfold name_via_weights. rewrite lit_app, acc_lit. split.
  - intros (m' & -> & A). apply one_word in A as (a & s & -> & Ha & A). apply one_word in A as (b & s' & -> & Hb & A). apply one_word in A as (c & s & -> & Hc & A). apply acc_nil in A as ->.
    exists [a; b; c]. split; [split; [reflexivity|repeat (constructor; [assumption|]); constructor]|]. reflexivity.
  - intros (q & (L & W) & ->). exists q. split; [reflexivity|]. destruct q as [|a [|b [|c [|? ?]]]]; try discriminate L.
    apply one_word. eexists _, _. split; [reflexivity|]. split; [apply (Forall_inv W)|]. apply Forall_inv_tail in W. apply one_word. eexists _, _. split; [reflexivity|]. split; [apply (Forall_inv W)|]. apply Forall_inv_tail in W.
    apply one_word. eexists _, _. split; [reflexivity|]. split; [apply (Forall_inv W)|]. constructor.
Qed.
Lemma nowhere_without p P s : (forall m, accepts p m <-> P m) -> nowhere p s <-> without P s.
Proof.
  intros E. unfold nowhere, without. split.
  - intros N u m v -> Pm. apply E in Pm. exact (rmatch_complete _ _ Pm v (N u (m ++ v) eq_refl)).
  - intros N u v ->. destruct (rmatch p v) as [l|] eqn:M; [|reflexivity]. destruct (rmatch_accepts _ _ _ M) as (_ & A & w & ->). exfalso. apply E in A. exact (N u _ w eq_refl A).
Qed.
Lemma rsearch_first p (P : text -> text -> Prop) s a l b q : (forall m, accepts p m <-> exists q, P q m) -> rsearch p s = Some (a, l, b) -> P q (concat l) -> first P q s.
Proof.
  intros E R Pq. destruct (rsearch_some _ _ _ _ _ R) as (Es & _ & C). exists a, (concat l), b. split; [exact Es|]. split; [exact Pq|]. intros u' v' q' m' Es' Pm.
  destruct (le_lt_dec (List.length a) (List.length u')) as [|L]; [assumption|exfalso]. assert (A : accepts p m') by (apply E; exists q'; exact Pm).
  assert (K : exists w, a = u' ++ w /\ w <> [] /\ m' ++ v' = w ++ concat l ++ b).
  { rewrite Es in Es'. apply app_eq_app in Es' as (w & [(E1 & E2)|(E1 & E2)]); [exists w; split; [exact E1|]; split; [intros ->; rewrite E1, app_nil_r in L; lia|exact E2]|].
    exfalso. rewrite E1, app_length in L. lia. }
  destruct K as (w & E1 & Nw & E2). pose proof (C u' w E1 Nw) as N. rewrite <- E2 in N. exact (rmatch_complete _ _ A v' N).
Qed.
Lemma quad_spec b q : quad_of b = Some q -> loop_quadrature q b.
Proof.
  unfold quad_of, loop_quadrature. destruct (rsearch name_in_body b) as [[[a l] c]|] eqn:E.
  - intros H. left. injection H as <-. apply (rsearch_first _ _ _ _ _ _ _ tagged_spec E). destruct (rsearch_some _ _ _ _ _ E) as (_ & M & _). apply rmatch_items in M. unfold name_in_body in M. cbn [lit list_ascii_of_string map app] in M.
    repeat match goal with H : Forall2 _ (_ :: _) _ |- _ => inversion H; clear H; subst end. match goal with H : Forall2 _ [] _ |- _ => inversion H; subst end. cbn [skipn firstn concat].
    repeat match goal with H : accepts [One _] _ |- _ => apply accepts_one in H as (? & ? & -> & ? & H); inversion H; clear H; subst end.
    repeat match goal with H : is _ _ = true |- _ => apply Ascii.eqb_eq in H; subst end. cbn [app]. split; [split; [reflexivity|repeat (constructor; [apply word_name; assumption|]); constructor]|]. eexists. split; [apply among_in; eassumption|]. reflexivity.
  - destruct (rsearch name_via_weights b) as [[[a l] c]|] eqn:E2; [|discriminate]. intros H. right. split; [apply (nowhere_without _ _ _ tagged_spec), rsearch_none, E|]. injection H as <-. apply (rsearch_first _ _ _ _ _ _ _ weighted_spec E2).
    destruct (rsearch_some _ _ _ _ _ E2) as (_ & M & _). apply rmatch_items in M. unfold name_via_weights in M. cbn [lit list_ascii_of_string map app] in M.
    repeat match goal with H : Forall2 _ (_ :: _) _ |- _ => inversion H; clear H; subst end. match goal with H : Forall2 _ [] _ |- _ => inversion H; subst end. cbn [skipn firstn concat].
    repeat match goal with H : accepts [One _] _ |- _ => apply accepts_one in H as (? & ? & -> & ? & H); inversion H; clear H; subst end.
    repeat match goal with H : is _ _ = true |- _ => apply Ascii.eqb_eq in H; subst end. cbn [app]. split; [split; [reflexivity|repeat (constructor; [apply word_name; assumption|]); constructor]|]. reflexivity.
Qed.
Lemma forall_space w : Forall (fun x => space x = true) w <-> blanks w.
Proof. apply forall_iff. intros. apply space_blank. Qed.
Lemma good_spec l : good_loop0 l -> good_loop l.
Proof.
  intros (A & (m & w & E & H & W) & B & Q). split; [apply (nowhere_without _ _ _ header_spec), A|]. split; [exists m, w; split; [exact E|]; split; [apply header_spec, H|apply forall_space, W]|]. split; [exact B|apply quad_spec, Q].
Qed.
Lemma f2_len {A B} (R : A -> B -> Prop) l m : Forall2 R l m -> List.length l = List.length m.
Proof. induction 1; cbn; congruence. Qed.
Lemma f2_skipn {A B} (R : A -> B -> Prop) n : forall l m, Forall2 R l m -> Forall2 R (skipn n l) (skipn n m).
Proof. induction n as [|n IH]; intros l m H; [exact H|]. destruct H; cbn; [constructor|auto]. Qed.
Lemma skip_of_split {A} n (l : list A) x : nth_error l n = Some x -> l = firstn n l ++ x :: skipn (S n) l.
Proof. revert n. induction l as [|y l IH]; intros [|n] H; cbn in *; try discriminate; [congruence|]. f_equal. apply IH, H. Qed.
Lemma sig_full sg s : rmatch func_sig s = Some sg -> signature_text (concat (firstn 1 (skipn 30 sg))) (concat sg).
Proof.
  intros E2. destruct (rmatch_accepts _ _ _ E2) as (L & _ & _). pose proof (rmatch_items _ _ _ E2) as E5.
  assert (K : exists nm, nth_error sg 30 = Some nm). { destruct (nth_error sg 30) eqn:E; [eauto|]. apply nth_error_None in E. rewrite L in E. cbn in E. lia. }
  destruct K as (nm & K). pose proof (skip_of_split _ _ _ K) as Sp. assert (Sk : skipn 30 sg = nm :: skipn 31 sg).
  { rewrite Sp at 1. rewrite skipn_app, firstn_length, L. cbn [List.length func_sig lit txt map app Nat.min Nat.sub]. rewrite skipn_all2 by (rewrite firstn_length, L; cbn; lia). reflexivity. }
  rewrite Sk. cbn [firstn concat]. rewrite app_nil_r.
  assert (A1 : accepts (firstn 30 func_sig) (concat (firstn 30 sg))) by apply items_accepts, f2_firstn, E5.
  assert (A2 : accepts [Plus word] nm) by exact (f2_at _ _ _ _ _ _ E5 (eq_refl : nth_error func_sig 30 = Some (Plus word)) K).
  assert (A3 : accepts (skipn 31 func_sig) (concat (skipn 31 sg))).
  { apply items_accepts, f2_skipn, E5. }
  change (firstn 30 func_sig) with (map (fun a => One (is a)) (txt "void") ++ Star space :: map (fun a => One (is a)) (txt "tabulate_tensor_integral_") ++ []) in A1.
  apply acc_lit in A1 as (m1 & E1 & A1). apply star_blank in A1 as (w1 & m2 & Em2 & B1 & A1). apply acc_lit in A1 as (m3 & Em3 & A1). apply acc_nil in A1. subst m3 m2 m1. rewrite app_nil_r in E1.
  apply star_words in A2 as (nm' & r & En & Nn & Wn & A2). apply acc_nil in A2. subst r. rewrite app_nil_r in En. subst nm'.
  change (skipn 31 func_sig) with (Star space :: map (fun a => One (is a)) (txt "(") ++ Star (fun x => word x || space x || among "|,*" x) :: map (fun a => One (is a)) (txt ")") ++ []) in A3.
  apply star_blank in A3 as (w2 & m4 & E4 & B2 & A3). apply acc_lit in A3 as (m5 & E5' & A3). apply acc_star in A3 as (args & m6 & E6 & Ba & A3). apply acc_lit in A3 as (m7 & E7 & A3). apply acc_nil in A3. subst m7 m6 m5 m4. rewrite app_nil_r in E4.
  exists w1, w2, args. split; [exact B1|]. split; [exact B2|]. split; [exact Nn|]. split; [exact Wn|]. split.
  - revert Ba. apply forall_iff. intros x. rewrite !orb_true_iff, word_name, space_blank, among_in. tauto.
  - rewrite Sp at 1. rewrite concat_app. cbn [concat]. rewrite E1, E4. reflexivity.
Qed.
Lemma signature_spec m : (exists name, signature_text name m) -> accepts func_sig m.
Proof.
  intros (name & w1 & w2 & args & B1 & B2 & Nn & Wn & Ba & ->). unfold func_sig. rewrite <- (app_nil_r (txt ")")), <- (app_nil_r (lit ")")), <- !app_assoc.
  rewrite lit_app. apply acc_lit. eexists. split; [reflexivity|]. cbn [app]. apply star_blank. eexists _, _. split; [reflexivity|]. split; [exact B1|]. rewrite lit_app. apply acc_lit. eexists. split; [reflexivity|].
  cbn [app]. apply star_words. eexists _, _. split; [reflexivity|]. split; [exact Nn|]. split; [exact Wn|]. apply star_blank. eexists _, _. split; [reflexivity|]. split; [exact B2|].
  rewrite lit_app. apply acc_lit. eexists. split; [reflexivity|]. cbn [app]. apply acc_star. eexists _, _. split; [reflexivity|]. split; [|rewrite lit_app; apply acc_lit; eexists; split; [reflexivity|constructor]].
  revert Ba. apply forall_iff. intros x. rewrite !orb_true_iff, word_name, space_blank, among_in. tauto.
Qed.
(** The text is taken apart without loss: the function's text can be put together again, with at most the text between its signature and its first bracket left out; the loops are
    those over the points, each with its quadrature. *)
Theorem C160_parse : forall code k, from_ffcx code = Ret k -> Forall (fun l => without header_text (body l)) (loops k) ->
  (exists gap, code = before_func k ++ signature k ++ gap ++ render_body k ++ after_func k /\ ~ In "{"%char gap)
  /\ without (fun m => exists name, signature_text name m) (before_func k) /\ signature_text (integral_name k) (signature k)
  /\ Forall good_loop (loops k)
  /\ (exists rest tail, post_text k = rest ++ "}"%char :: tail /\ without header_text rest /\ ~ In "}"%char tail).
Proof.
  intros code k H B. destruct (parse0 code k H) as (A1 & A2 & _ & _ & A5 & rest & tail & A6 & A7 & A8).
  { eapply Forall_impl; [|exact B]. intros l Hl. apply (nowhere_without _ _ _ header_spec), Hl. }
  split; [exact A1|]. split; [|split; [|split]].
  - intros u m v E S. apply signature_spec in S. apply (rmatch_complete _ _ S v). apply (A2 u). exact E.
  - unfold from_ffcx in H. destruct (rsearch func_sig code) as [[[before sg] sub]|] eqn:E; [|discriminate]. destruct (find_char "{" sub) as [ob|]; [|discriminate]. destruct (rfind ["}"%char; nl] sub) as [j|]; [|discriminate]. cbv zeta in H.
    destruct (rsearch coeffs_type (concat sg)) as [[[? w] ?]|]; [|discriminate]. destruct (dtype_ok _); [|discriminate]. cbn [negb] in H. destruct (starts ["{"%char; nl] _); [|discriminate]. cbn [negb] in H.
    destruct (rfind ["}"%char] _) as [cp|]; [|discriminate]. destruct (split_loops _ _ _ _) as [[ls e]| | |]; try discriminate. cbn [bind fst snd] in H.
    match type of H with Ret ?r = Ret k => assert (k = r) as -> by congruence end. cbn [signature integral_name]. destruct (rsearch_some _ _ _ _ _ E) as (_ & E2 & _). exact (sig_full _ _ E2).
  - eapply Forall_impl; [|exact A5]. apply good_spec.
  - exists rest, tail. split; [exact A6|]. split; [apply (nowhere_without _ _ _ header_spec), A7|exact A8].
Qed.
(** Renaming: with names as FFCx gives them (a hash of more than 28 characters first), the suffix is put after the name of the function in its signature, and nowhere else. *)
Theorem C160_rename : forall code k suffix, from_ffcx code = Ret k -> suffix <> [] -> 29 <= List.length (integral_name k) -> ~ In "_"%char (firstn 29 (integral_name k)) ->
  exists w b, blanks w /\ signature k = (txt "void" ++ w ++ txt "tabulate_tensor_integral_") ++ integral_name k ++ b
    /\ render k suffix = (txt "void" ++ w ++ txt "tabulate_tensor_integral_") ++ (integral_name k ++ suffix) ++ b ++ render_body k ++ [nl; nl].
Proof.
  intros code k suffix H N L U. destruct (rename0 code k suffix H N L U) as (a & b & A & (w & -> & W) & B). exists w, b. split; [apply forall_space, W|]. split; [exact A|exact B].
Qed.
Lemma good_shaped l : good_loop l -> shaped l.
Proof.
  intros (_ & (m & w & E & H & W) & _ & Q). split; [exists m, w; split; [exact E|]; split; [apply header_spec, H|apply forall_space, W]|].
  assert (T : three (quad_name l)) by (destruct Q as [(u & x & v & _ & (T & _) & _)|(_ & u & x & v & _ & (T & _) & _)]; exact T).
  destruct T as (_ & T). revert T. apply forall_iff. intros x. split; apply word_name.
Qed.
(** The headers: each loop runs over its number of points at run time; nothing else changes. *)
Theorem C161_bounds : forall k, Forall good_loop (loops k) ->
  Forall2 (fun l l' => quad_name l' = quad_name l /\ pre_text l' = pre_text l /\ body l' = body l
    /\ exists m w, header_text m /\ header l = m ++ w ++ ["{"%char] /\ header l' = txt "for (int iq = 0; iq < n_pts_Q" ++ quad_name l ++ txt "; ++iq)" ++ w ++ ["{"%char])
    (loops k) (loops (dynamic_loop_bounds k))
  /\ before_func (dynamic_loop_bounds k) = before_func k /\ after_func (dynamic_loop_bounds k) = after_func k /\ signature (dynamic_loop_bounds k) = signature k
  /\ integral_name (dynamic_loop_bounds k) = integral_name k /\ post_text (dynamic_loop_bounds k) = post_text k.
Proof.
  intros k G. destruct (bounds0 k) as (A & B). { eapply Forall_impl; [|exact G]. apply good_shaped. }
  split; [|exact B]. clear - A. induction A as [|m m' ? ? (H1 & H2 & H3 & c & w & H4 & H5) _ IH]; constructor; [|exact IH]. split; [exact H1|]. split; [exact H2|]. split; [exact H3|]. exists c, w. split; [apply header_spec, H4|exact H5].
Qed.
Lemma component_text tdim q i : normal_text tdim q i = component tdim q i.
Proof.
  unfold normal_text, component. change (numeral tdim) with (dec tdim). destruct i as [|i]; cbn [Nat.ltb Nat.leb]; [reflexivity|]. change (numeral (S i)) with (dec (S i)). rewrite <- !app_assoc. reflexivity.
Qed.
Lemma replaced_spec sigma tau s t : (forall n, sigma n = tau n) -> replaced0 sigma s t <-> replaced tau s t.
Proof.
  intros E. split; intros H.
  - induction H as [|x n r s t Ho Hs H IH|x s t Hn H IH]; [constructor| |].
    + apply (r_ref tau x n r s t); [apply operator_op, Ho|rewrite <- E; exact Hs|exact IH].
    + apply r_skip; [|exact IH]. intros n u -> Op. rewrite <- E. apply (Hn n u eq_refl), operator_op, Op.
  - induction H as [|x n r s t Ho Hs H IH|x s t Hn H IH]; [constructor| |].
    + apply (r0_ref sigma x n r s t); [apply operator_op, Ho|rewrite E; exact Hs|exact IH].
    + apply r0_skip; [|exact IH]. intros n u Eq Op. injection Eq as Eq. rewrite E. apply (Hn n u Eq), operator_op, Op.
Qed.
Lemma normal_spec tdim q offsets n : normal_at0 tdim q offsets n = normal_at tdim q offsets n.
Proof. unfold normal_at0, normal_at. destruct (find _ offsets); [|reflexivity]. rewrite component_text. reflexivity. Qed.
(** What [replaced] says determines the text. *)
Theorem C161_determined : forall sigma s t t', replaced sigma s t -> replaced sigma s t' -> t = t'.
Proof. intros sigma s t t' H H'. apply (replaced_fun sigma s); apply (replaced_spec sigma sigma); auto. Qed.
(** The normals: in the loops on the unfitted boundary, the references to the constants that stand for the normals, and only those, become the components of the normals at the point;
    the other loops and parts are kept. *)
Theorem C161_normals : forall (unf : text -> bool) tdim offsets k, Forall (fun l => Forall name_char (quad_name l)) (loops k) ->
  Forall2 (fun l l' => quad_name l' = quad_name l /\ pre_text l' = pre_text l /\ header l' = header l
    /\ if unf (quad_name l) then replaced (normal_at tdim (quad_name l) offsets) (body l) (body l') else body l' = body l)
    (loops k) (loops (substitute_normals unf tdim offsets k))
  /\ before_func (substitute_normals unf tdim offsets k) = before_func k /\ after_func (substitute_normals unf tdim offsets k) = after_func k
  /\ signature (substitute_normals unf tdim offsets k) = signature k /\ integral_name (substitute_normals unf tdim offsets k) = integral_name k /\ post_text (substitute_normals unf tdim offsets k) = post_text k.
Proof.
  intros unf tdim offsets k W. destruct (normals0 unf tdim offsets k) as (A & B).
  { eapply Forall_impl; [|exact W]. intros l. apply forall_iff. intros x. split; apply word_name. }
  split; [|exact B]. clear B W. induction A as [|l l' ? ? (H1 & H2 & H3 & H4) _ IH]; constructor; [|exact IH]. split; [exact H1|]. split; [exact H2|]. split; [exact H3|].
  destruct (unf (quad_name l)); [|exact H4]. apply (replaced_spec (normal_at0 tdim (quad_name l) offsets)); [apply normal_spec|]. apply H4. reflexivity.
Qed.
(** The variant for cut cells (without the parts erased and the accesses rewritten): the loops run over the points of the cell, the text before the first loop goes into every loop, and in the loops
    on the unfitted boundary the constants of the normals, also in that text, become the components of the normals. *)
Theorem C161_custom : forall (unf : text -> bool) tdim offsets k l ls, loops k = l :: ls -> Forall good_loop (loops k) ->
  let k' := substitute_normals unf tdim offsets (inline_pre_loop (dynamic_loop_bounds k)) in
  Forall2 (fun m m' => quad_name m' = quad_name m
    /\ (exists c w, header_text c /\ header m = c ++ w ++ ["{"%char] /\ header m' = txt "for (int iq = 0; iq < n_pts_Q" ++ quad_name m ++ txt "; ++iq)" ++ w ++ ["{"%char])
    /\ if unf (quad_name m) then replaced (normal_at tdim (quad_name m) offsets) (pre_text l ++ body m) (body m') else body m' = pre_text l ++ body m)
    (loops k) (loops k')
  /\ (exists l' ls', loops k' = l' :: ls' /\ pre_text l' = [] /\ Forall2 (fun m m' => pre_text m' = pre_text m) ls ls')
  /\ before_func k' = before_func k /\ after_func k' = after_func k /\ signature k' = signature k /\ integral_name k' = integral_name k /\ post_text k' = post_text k.
Proof.
  intros unf tdim offsets k l ls El G k'. destruct (custom0 unf tdim offsets k l ls El) as (A & B & C).
  { eapply Forall_impl; [|exact G]. apply good_shaped. }
  split; [|split; [exact B|exact C]]. fold k' in A. clear - A. induction A as [|m m' ? ? (H1 & (c & w & H2 & H3) & H4) _ IH]; constructor; [|exact IH]. split; [exact H1|]. split; [exists c, w; split; [apply header_spec, H2|exact H3]|].
  destruct (unf (quad_name m)); [|exact H4]. apply (replaced_spec (normal_at0 tdim (quad_name m) offsets)); [apply normal_spec|]. apply H4. reflexivity.
Qed.


(** Example: a kernel with one loop over the interior and one over the unfitted boundary. *)
Definition ex_code : text := txt "void tabulate_tensor_integral_0123456789abcdef0123456789abcdef01234567_quadrilateral(double* restrict A,
                                    const double* restrict w,
                                    const double* restrict c)
{
// Quadrature rules
double J = w[0];
for (int iq = 0; iq < 9; ++iq)
{
  for (int i = 0; i < 4; ++i)
  {
    A[i] += weights_421[iq] * FE1_C0_Q421[0][0][iq][i] * c[1];
  }
}
for (int iq = 0; iq < 3; ++iq)
{
  A[0] += FE1_C0_Q8a3[0][0][iq][0] * (c[1] + J * c[2]) * c[10];
}
}

int other;
".
Definition ex_unf : text -> bool := fun q => if list_eq_dec ascii_dec q (txt "8a3") then true else false.
Example ex_parse : exists k, from_ffcx ex_code = Ret k /\ Forall (fun l => without header_text (body l)) (loops k) /\ map quad_name (loops k) = [txt "421"; txt "8a3"] /\ 29 <= List.length (integral_name k)
  /\ ~ In "_"%char (firstn 29 (integral_name k))
  /\ map body (loops (substitute_normals ex_unf 2 [1] k)) =
     [txt "
  for (int i = 0; i < 4; ++i)
  {
    A[i] += weights_421[iq] * FE1_C0_Q421[0][0][iq][i] * c[1];
  }
"; txt "
  A[0] += FE1_C0_Q8a3[0][0][iq][0] * (normals_8a3[2 * iq] + J * normals_8a3[2 * iq + 1]) * c[10];
"].
Proof.
  assert (E : match from_ffcx ex_code with Ret k => forallb (fun l => match rsearch loop_header (body l) with None => true | _ => false end) (loops k) = true /\ map quad_name (loops k) = [txt "421"; txt "8a3"] /\ (29 <=? List.length (integral_name k)) = true
    /\ existsb (Ascii.eqb "_") (firstn 29 (integral_name k)) = false
    /\ map body (loops (substitute_normals ex_unf 2 [1] k)) =
     [txt "
  for (int i = 0; i < 4; ++i)
  {
    A[i] += weights_421[iq] * FE1_C0_Q421[0][0][iq][i] * c[1];
  }
"; txt "
  A[0] += FE1_C0_Q8a3[0][0][iq][0] * (normals_8a3[2 * iq] + J * normals_8a3[2 * iq + 1]) * c[10];
"] | _ => False end) by (vm_compute; repeat split).
  destruct (from_ffcx ex_code) as [k| | |]; [|destruct E..]. destruct E as (E1 & E2 & E3 & E4 & E5). exists k. split; [reflexivity|]. split; [|split; [exact E2|split; [apply Nat.leb_le, E3|split; [|exact E5]]]].
  - rewrite forallb_forall in E1. apply Forall_forall. intros l Hl. apply (nowhere_without _ _ _ header_spec), rsearch_none. specialize (E1 l Hl). destruct (rsearch _ _); [discriminate|reflexivity].
  - intros I. assert (T : existsb (Ascii.eqb "_") (firstn 29 (integral_name k)) = true) by (apply existsb_exists; exists "_"%char; split; [exact I|reflexivity]). congruence.
Qed.
Print Assumptions C160_brackets.
Print Assumptions parse0.
Print Assumptions C160_total.
Print Assumptions C160_rename.
Print Assumptions bounds0.
Print Assumptions normals0.
Print Assumptions C161_original.
Print Assumptions custom0.
