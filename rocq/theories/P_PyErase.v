(** C180: what is taken out of the kernels of custom cells. *)
From Coq Require Import List Lia Bool Arith Ascii String.
From Verif Require Import M_Base M_PyText M_PyErase P_PyText.
Import ListNotations.
Local Open Scope list_scope. Local Open Scope nat_scope.

(** The specification: the declaration of a table, "static const type FE...;", with white space and an end of line. *)
Definition blank (s : text) : Prop := Forall (fun x => space x = true) s.
Definition is_table (d : text) : Prop := exists s1 s2 ty s3 b w,
  d = txt "static" ++ s1 ++ txt "const" ++ s2 ++ ty ++ s3 ++ txt "FE" ++ b ++ txt ";" ++ w ++ ["010"%char]
  /\ blank s1 /\ s1 <> [] /\ blank s2 /\ s2 <> [] /\ blank s3 /\ s3 <> [] /\ ty <> [] /\ Forall (fun x => word x = true) ty /\ ~ In ";"%char b /\ blank w.
(** [r] is what follows the last of them in [t]: none ends later. *)
Definition after_tables (t r : text) : Prop := (exists u d, t = u ++ d ++ r /\ is_table d) /\ forall u d v, t = u ++ d ++ v -> is_table d -> List.length r <= List.length v.
Definition no_table (t : text) : Prop := forall u d v, t = u ++ d ++ v -> ~ is_table d.
(** [a] is what precedes the first [m] in [t]. *)
Definition before_first (m t a : text) : Prop := (exists b, t = a ++ m ++ b) /\ forall u v, t = u ++ m ++ v -> List.length a <= List.length u.

Lemma accepts_lits s p d : accepts (lit s ++ p) d <-> exists d', d = txt s ++ d' /\ accepts p d'.
Proof.
  unfold lit. induction (txt s) as [|a l IH] in d |- *; cbn [map app].
  - split; [intros H; exists d; auto|intros (d' & -> & H); exact H].
  - split.
    + intros H. inversion H as [|c x p' s' Hc Ha| |]; subst. apply IH in Ha as (d' & -> & A). exists d'. split; [|exact A]. unfold is in Hc. apply Ascii.eqb_eq in Hc. subst. reflexivity.
    + intros (d' & -> & A). cbn [app]. constructor; [apply Ascii.eqb_refl|]. apply IH. exists d'. auto.
Qed.
Lemma accepts_plus1 c p d : accepts (Plus c :: p) d <-> exists r d', d = r ++ d' /\ r <> [] /\ Forall (fun x => c x = true) r /\ accepts p d'.
Proof. split; [intros H; inversion H; subst; eauto 10|intros (r & d' & -> & N & F & A); constructor; assumption]. Qed.
Lemma accepts_star1 c p d : accepts (Star c :: p) d <-> exists r d', d = r ++ d' /\ Forall (fun x => c x = true) r /\ accepts p d'.
Proof. split; [intros H; inversion H; subst; eauto 10|intros (r & d' & -> & F & A); constructor; assumption]. Qed.
Lemma accepts_one1 c d : accepts [One c] d <-> exists x, d = [x] /\ c x = true.
Proof. split; [intros H; inversion H as [|? x ? ? Hc Ha| |]; subst; inversion Ha; subst; eauto|intros (x & -> & H); repeat constructor; exact H]. Qed.
Lemma table_spec d : accepts static_table d <-> is_table d.
Proof.
  unfold static_table, is_table. split.
  - intros H. apply accepts_lits in H as (d1 & -> & H). apply accepts_plus1 in H as (s1 & d2 & -> & N1 & B1 & H). apply accepts_lits in H as (d3 & -> & H).
    apply accepts_plus1 in H as (s2 & d4 & -> & N2 & B2 & H). apply accepts_plus1 in H as (ty & d5 & -> & N3 & B3 & H). apply accepts_plus1 in H as (s3 & d6 & -> & N4 & B4 & H).
    apply accepts_lits in H as (d7 & -> & H). apply accepts_star1 in H as (b & d8 & -> & B5 & H). apply accepts_lits in H as (d9 & -> & H).
    apply accepts_star1 in H as (w & d10 & -> & B6 & H). apply accepts_one1 in H as (x & -> & Hx). unfold is in Hx. apply Ascii.eqb_eq in Hx. subst x.
    exists s1, s2, ty, s3, b, w. split; [reflexivity|]. repeat split; try assumption.
    intros X. rewrite Forall_forall in B5. specialize (B5 _ X). discriminate.
  - intros (s1 & s2 & ty & s3 & b & w & -> & B1 & N1 & B2 & N2 & B4 & N4 & N3 & B3 & B5 & B6).
    apply accepts_lits. eexists. split; [reflexivity|]. apply accepts_plus1. exists s1. eexists. split; [reflexivity|]. split; [exact N1|]. split; [exact B1|].
    apply accepts_lits. eexists. split; [reflexivity|]. apply accepts_plus1. exists s2. eexists. split; [reflexivity|]. split; [exact N2|]. split; [exact B2|].
    apply accepts_plus1. exists ty. eexists. split; [reflexivity|]. split; [exact N3|]. split; [exact B3|]. apply accepts_plus1. exists s3. eexists. split; [reflexivity|]. split; [exact N4|]. split; [exact B4|].
    apply accepts_lits. eexists. split; [reflexivity|]. apply accepts_star1. exists b. eexists. split; [reflexivity|]. split.
    + apply Forall_forall. intros x Hx. unfold not_, is. destruct (Ascii.eqb_spec ";" x) as [<-|]; [contradiction|reflexivity].
    + apply accepts_lits. eexists. split; [reflexivity|]. apply accepts_star1. exists w. eexists. split; [reflexivity|]. split; [exact B6|]. apply accepts_one1. exists nl. split; reflexivity.
Qed.

(** The last items of a match. *)
Lemma rmatch_app p q : forall s l, rmatch (p ++ q) s = Some l -> exists l1 l2, l = l1 ++ l2 /\ rmatch q (skipn (List.length (concat l1)) s) = Some l2 /\ accepts p (concat l1) /\ s = concat l1 ++ skipn (List.length (concat l1)) s.
Proof.
  induction p as [|i p IH]; intros s l H; cbn [app] in H.
  - exists [], l. cbn. repeat split; [exact H|constructor].
  - destruct i as [c|c|c]; cbn [rmatch] in H.
    + destruct s as [|x s]; [discriminate|]. destruct (c x) eqn:Ec; [|discriminate]. destruct (rmatch (p ++ q) s) as [l'|] eqn:E; [|discriminate]. injection H as <-.
      destruct (IH _ _ E) as (l1 & l2 & -> & A & B & C). exists ([x] :: l1), l2. cbn. split; [reflexivity|]. split; [exact A|]. split; [constructor; assumption|f_equal; exact C].
    + apply longest_some in H as (k & K & _ & H). destruct (rmatch (p ++ q) (skipn k s)) as [l'|] eqn:E; [|discriminate]. injection H as <-.
      destruct (IH _ _ E) as (l1 & l2 & -> & A & B & C). exists (firstn k s :: l1), l2. cbn [app concat]. pose proof (span_le c s).
      assert (X : skipn (List.length (firstn k s ++ concat l1)) s = skipn (List.length (concat l1)) (skipn k s)).
      { apply skipn_prefix. rewrite <- app_assoc, <- C. symmetry. apply firstn_skipn. }
      rewrite X. split; [reflexivity|]. split; [exact A|]. split; [constructor; [apply span_all; lia|exact B]|]. rewrite <- app_assoc, <- C. symmetry. apply firstn_skipn.
    + destruct (span_len c s =? 0) eqn:E0; [discriminate|]. apply Nat.eqb_neq in E0. apply longest_some in H as (k & K & K1 & H). destruct (rmatch (p ++ q) (skipn k s)) as [l'|] eqn:E; [|discriminate]. injection H as <-.
      destruct (IH _ _ E) as (l1 & l2 & -> & A & B & C). exists (firstn k s :: l1), l2. cbn [app concat]. pose proof (span_le c s).
      assert (X : skipn (List.length (firstn k s ++ concat l1)) s = skipn (List.length (concat l1)) (skipn k s)).
      { apply skipn_prefix. rewrite <- app_assoc, <- C. symmetry. apply firstn_skipn. }
      rewrite X. split; [reflexivity|]. split; [exact A|]. split; [constructor; [|apply span_all; lia|exact B]|rewrite <- app_assoc, <- C; symmetry; apply firstn_skipn].
      intros X0. apply (f_equal (@List.length ascii)) in X0. rewrite firstn_length_le in X0 by lia. cbn in X0. lia.
Qed.
Lemma longest_top {A} low (f : nat -> option A) k a : longest low f k = Some a -> exists i, i <= k /\ f i = Some a /\ forall j, i < j -> j <= k -> f j = None.
Proof.
  induction k as [|k IH]; cbn [longest]; intros H.
  - destruct (f 0) eqn:E; [|discriminate]. exists 0. split; [lia|]. split; [congruence|]. intros; lia.
  - destruct (f (S k)) eqn:E.
    + exists (S k). split; [lia|]. split; [congruence|]. intros; lia.
    + destruct (S k <=? low); [discriminate|]. destruct (IH H) as (i & I1 & I2 & I3). exists i. split; [lia|]. split; [exact I2|]. intros j J1 J2. destruct (Nat.eq_dec j (S k)) as [->|]; [exact E|apply I3; lia].
Qed.
(** White space up to the last end of line. *)
Lemma greedy s l w v : rmatch [Star space; One (is nl)] s = Some l -> s = w ++ nl :: v -> blank w -> List.length w + 1 <= List.length (concat l).
Proof.
  intros H E B. cbn [rmatch] in H. apply longest_top in H as (i & I1 & I2 & I3). pose proof (span_le space s) as L.
  assert (W : S (List.length w) <= span_len space s).
  { rewrite E. replace (w ++ nl :: v) with ((w ++ [nl]) ++ v) by (rewrite <- app_assoc; reflexivity). etransitivity; [|apply span_ge; apply Forall_app; split; [exact B|repeat constructor]].
    rewrite app_length. cbn. lia. }
  destruct (Nat.lt_ge_cases i (List.length w)) as [C|C].
  - exfalso. specialize (I3 (List.length w) C ltac:(lia)). rewrite E, skipn_concat in I3. discriminate I3.
  - destruct (skipn i s) as [|x s'] eqn:Ek; [discriminate|]. destruct (is nl x); [|discriminate]. injection I2 as <-. cbn [concat app]. rewrite app_length, firstn_length_le by lia. cbn. lia.
Qed.
Definition head : list item := lit "static" ++ [Plus space] ++ lit "const" ++ [Plus space; Plus word; Plus space] ++ lit "FE" ++ [Star (not_ (is ";"))] ++ lit ";".
Lemma head_spec m : accepts head m -> exists b, m = b ++ [";"%char] /\ ~ In ";"%char b.
Proof.
  intros H. unfold head in H. apply accepts_lits in H as (d1 & -> & H). apply accepts_plus1 in H as (s1 & d2 & -> & N1 & B1 & H). apply accepts_lits in H as (d3 & -> & H).
  apply accepts_plus1 in H as (s2 & d4 & -> & N2 & B2 & H). apply accepts_plus1 in H as (ty & d5 & -> & N3 & B3 & H). apply accepts_plus1 in H as (s3 & d6 & -> & N4 & B4 & H).
  apply accepts_lits in H as (d7 & -> & H). apply accepts_star1 in H as (b & d8 & -> & B5 & H). rewrite <- (app_nil_r (lit ";")) in H. apply accepts_lits in H as (d9 & -> & H). inversion H; subst.
  exists (txt "static" ++ s1 ++ txt "const" ++ s2 ++ ty ++ s3 ++ txt "FE" ++ b). split; [rewrite <- !app_assoc; reflexivity|].
  assert (Q : forall (c : cls) r, c ";"%char = false -> Forall (fun x => c x = true) r -> ~ In ";"%char r) by (intros c r Hc F X; rewrite Forall_forall in F; specialize (F _ X); congruence).
  intros X. repeat (apply in_app_or in X as [X|X]); try (cbn in X; repeat (destruct X as [X|X]; [discriminate|]); contradiction).
  - exact (Q space s1 eq_refl B1 X).
  - exact (Q space s2 eq_refl B2 X).
  - exact (Q word ty eq_refl B3 X).
  - exact (Q space s3 eq_refl B4 X).
  - exact (Q (not_ (is ";")) b eq_refl B5 X).
Qed.
Lemma table_split d : is_table d -> exists b w, d = b ++ ";"%char :: w ++ [nl] /\ ~ In ";"%char b /\ blank w /\ exists d', d = "s"%char :: d'.
Proof.
  intros H. pose proof H as (? & ? & ? & ? & ? & ? & E & _). apply table_spec in H.
  assert (K : static_table = head ++ [Star space; One (is nl)]) by reflexivity. rewrite K in H.
  assert (G : forall p q m, accepts (p ++ q) m -> exists m1 m2, m = m1 ++ m2 /\ accepts p m1 /\ accepts q m2).
  { induction p as [|i p IH]; intros q m A; cbn [app] in A; [exists [], m; repeat split; [constructor|exact A]|].
    inversion A; subst; match goal with X : accepts (p ++ q) _ |- _ => destruct (IH _ _ X) as (m1 & m2 & -> & P1 & P2) end.
    - exists (x5 :: m1), m2. repeat split; [constructor; assumption|assumption].
    - exists (r ++ m1), m2. rewrite <- app_assoc. repeat split; [constructor; assumption|assumption].
    - exists (r ++ m1), m2. rewrite <- app_assoc. repeat split; [constructor; assumption|assumption]. }
  apply G in H as (m1 & m2 & Em & H1 & H2). apply head_spec in H1 as (b & -> & Nb). apply accepts_star1 in H2 as (w & m3 & -> & Bw & H3). apply accepts_one1 in H3 as (c & -> & Hc). unfold is in Hc. apply Ascii.eqb_eq in Hc. subst c.
  exists b, w. split; [rewrite Em, <- app_assoc; reflexivity|]. split; [exact Nb|]. split; [exact Bw|]. rewrite E. eexists. reflexivity.
Qed.
Lemma first_semi (b b' : text) r r' : b ++ ";"%char :: r = b' ++ ";"%char :: r' -> ~ In ";"%char b -> ~ In ";"%char b' -> b = b' /\ r = r'.
Proof.
  revert b'. induction b as [|x b IH]; intros [|y b'] E N N'; cbn in E.
  - injection E as ->. auto.
  - injection E as <- _. cbn in N'. tauto.
  - injection E as -> _. cbn in N. tauto.
  - injection E as -> E. destruct (IH b' E) as (-> & ->); [cbn in N; tauto|cbn in N'; tauto|auto].
Qed.
Lemma app_cases (a b c d : text) : a ++ b = c ++ d -> (exists e, a = c ++ e /\ d = e ++ b) \/ (exists e, e <> [] /\ c = a ++ e /\ b = e ++ d).
Proof.
  revert c. induction a as [|x a IH]; intros [|y c] E; cbn in E.
  - left. exists []. auto.
  - right. exists (y :: c). split; [discriminate|auto].
  - left. exists (x :: a). auto.
  - injection E as -> E. destruct (IH _ E) as [(e & -> & ->)|(e & N & -> & ->)]; [left|right]; exists e; auto.
Qed.
(** A declaration that starts in the match does not end after it. *)
Lemma inside l b : rmatch static_table (concat l ++ b) = Some l -> forall u d v, concat l ++ b = u ++ d ++ v -> is_table d -> List.length u < List.length (concat l) -> List.length b <= List.length v.
Proof.
  intros M u d v E D Lu. change static_table with (head ++ [Star space; One (is nl)]) in M. apply rmatch_app in M as (l1 & l2 & -> & M & A & S). rewrite concat_app in *.
  rewrite <- app_assoc, skipn_concat in M. rewrite <- app_assoc in E. clear S. apply head_spec in A as (h & Eh & Nh). rewrite Eh in *. clear Eh.
  destruct (rmatch_accepts _ _ _ M) as (_ & A2 & _). apply accepts_star1 in A2 as (w2 & m3 & E2 & B2 & A2). apply accepts_one1 in A2 as (c & -> & Hc). unfold is in Hc. apply Ascii.eqb_eq in Hc. subst c.
  destruct (table_split d D) as (b1 & w1 & Ed & N1 & B1 & d' & Es).
  assert (Cu : exists e, h = u ++ e).
  { destruct (app_cases (h ++ [";"%char]) (concat l2 ++ b) u (d ++ v) E) as [(e & E1 & E3)|(e & Ne & E1 & E3)].
    - destruct e as [|x e] using rev_ind.
      + rewrite app_nil_r in E1. exfalso. cbn [app] in E3. rewrite Es, E2 in E3. destruct w2 as [|y w2]; cbn in E3; injection E3 as E3 _; [discriminate|]. subst y. inversion B2 as [|? ? X _]. discriminate.
      + rewrite app_assoc in E1. apply app_inj_tail in E1 as (-> & _). exists e. reflexivity.
    - exfalso. rewrite E2 in E3. rewrite !app_length in Lu. rewrite E1, E2, !app_length in Lu. cbn in Lu.
      rewrite <- app_assoc in E3. destruct (app_cases w2 _ e _ E3) as [(f & -> & F)|(f & Nf & -> & F)].
      + rewrite Es in F. destruct f as [|y f]; cbn in F; injection F as F _; [discriminate|]. subst y. apply Forall_app in B2 as (_ & B2). inversion B2 as [|? ? X _]. discriminate.
      + destruct f as [|y f]; [congruence|]. rewrite app_length in Lu. cbn in Lu. lia. }
  destruct Cu as (e & ->). rewrite <- !app_assoc in E. apply app_inv_head in E. rewrite Ed in E. cbn [app] in E. rewrite <- app_assoc in E. cbn [app] in E.
  apply first_semi in E as (_ & E); [|intros X; apply Nh; apply in_or_app; auto|exact N1].
  rewrite <- app_assoc in E. cbn [app] in E. pose proof (greedy _ _ w1 v M E B1) as G. apply (f_equal (@List.length ascii)) in E. rewrite !app_length in E. cbn in E. lia.
Qed.
Lemma nowhere_table s : nowhere static_table s <-> no_table s.
Proof.
  split.
  - intros N u d v E D. apply table_spec in D. exact (rmatch_complete _ _ D v (N u (d ++ v) E)).
  - intros N u v E. destruct (rmatch static_table v) as [l|] eqn:M; [|reflexivity]. destruct (rmatch_accepts _ _ _ M) as (_ & A & w & ->). exfalso. exact (N u (concat l) w E (proj1 (table_spec _) A)).
Qed.
Lemma after_last_spec fuel : forall s, List.length s < fuel -> match after_last fuel static_table s with Some r => after_tables s r | None => no_table s end.
Proof.
  induction fuel as [|fuel IH]; intros s L; [lia|]. cbn [after_last]. destruct (rsearch static_table s) as [((a, l), b)|] eqn:R; [|apply nowhere_table, rsearch_none; exact R].
  destruct (rsearch_some _ _ _ _ _ R) as (E & M & F). destruct (rmatch_accepts _ _ _ M) as (_ & A & _). apply table_spec in A.
  assert (Pos : List.length (concat l) <> 0) by (destruct (table_split _ A) as (? & ? & _ & _ & _ & d' & ->); discriminate).
  assert (Lb : List.length b < fuel) by (rewrite E, !app_length in L; lia). specialize (IH b Lb).
  (* Where the declarations are. *)
  assert (W : forall u d v, s = u ++ d ++ v -> is_table d -> List.length b <= List.length v \/ exists u', b = u' ++ d ++ v).
  { intros u d v Es D. rewrite E in Es. destruct (app_cases _ _ _ _ Es) as [(e & -> & Ee)|(e & Ne & -> & Ee)].
    - destruct e as [|x e].
      + cbn [app] in Ee. left. apply (inside l b M [] d v); [symmetry; exact Ee|exact D|cbn; lia].
      + exfalso. specialize (F u (x :: e) eq_refl ltac:(discriminate)). rewrite <- Ee in F. apply table_spec in D. exact (rmatch_complete _ _ D v F).
    - destruct (Nat.lt_ge_cases (List.length e) (List.length (concat l))) as [C|C]; [left; exact (inside l b M e d v Ee D C)|right].
      destruct (app_cases _ _ _ _ Ee) as [(f & Ef & Eb)|(f & Nf & -> & Eb)].
      + rewrite Ef, app_length in C. destruct f; [|cbn in C; lia]. exists []. symmetry. exact Eb.
      + exists f. exact Eb. }
  destruct (after_last fuel static_table b) as [r|].
  - destruct IH as ((u & d & Eb & D) & IH). split.
    + exists (a ++ concat l ++ u), d. split; [rewrite E, Eb, <- !app_assoc; reflexivity|exact D].
    + intros u' d' v' Es D'. destruct (W u' d' v' Es D') as [X|(u0 & X)]; [rewrite Eb, !app_length in X; lia|exact (IH _ _ _ X D')].
  - split; [exists a, (concat l); auto|]. intros u' d' v' Es D'. destruct (W u' d' v' Es D') as [X|(u0 & X)]; [exact X|destruct (IH _ _ _ X D')].
Qed.
Lemma mark_spec m : accepts rules_mark m <-> m = txt "// Quadrature rules".
Proof.
  unfold rules_mark. rewrite <- (app_nil_r (lit _)). rewrite accepts_lits. split; [intros (d & -> & H); inversion H; apply app_nil_r|intros ->; exists []; split; [rewrite app_nil_r; reflexivity|constructor]].
Qed.
Lemma before_spec s : match rsearch rules_mark s with Some (a, _, _) => before_first (txt "// Quadrature rules") s a | None => forall u v, s <> u ++ txt "// Quadrature rules" ++ v end.
Proof.
  destruct (rsearch rules_mark s) as [((a, l), b)|] eqn:R.
  - destruct (rsearch_some _ _ _ _ _ R) as (E & M & F). destruct (rmatch_accepts _ _ _ M) as (_ & A & _). apply mark_spec in A. rewrite A in *. split; [exists b; exact E|].
    intros u v Es. destruct (Nat.le_gt_cases (List.length a) (List.length u)) as [C|C]; [exact C|exfalso]. rewrite E in Es. destruct (app_cases _ _ _ _ Es) as [(e & -> & Ee)|(e & Ne & -> & Ee)]; [|rewrite app_length in C; lia].
    assert (Ne : e <> []) by (intros ->; rewrite app_nil_r in C; lia). specialize (F u e eq_refl Ne). rewrite <- Ee in F. exact (rmatch_complete _ _ (proj2 (mark_spec _) eq_refl) v F).
  - apply rsearch_none in R. intros u v E. exact (rmatch_complete _ _ (proj2 (mark_spec _) eq_refl) v (R u _ E)).
Qed.
Lemma after_unique t r r' : after_tables t r -> after_tables t r' -> r = r'.
Proof.
  intros ((u & d & E & D) & H) ((u' & d' & E' & D') & H'). pose proof (H _ _ _ E' D') as A. pose proof (H' _ _ _ E D) as B. rewrite E in E'. rewrite !app_assoc in E'.
  assert (L : List.length (u ++ d) = List.length (u' ++ d')) by (apply (f_equal (@List.length ascii)) in E'; rewrite (app_length (u ++ d)), (app_length (u' ++ d')) in E'; lia).
  apply (f_equal (skipn (List.length (u ++ d)))) in E'. rewrite skipn_concat, L, skipn_concat in E'. exact E'.
Qed.
Lemma before_unique m t a a' : before_first m t a -> before_first m t a' -> a = a'.
Proof.
  intros ((b & E) & H) ((b' & E') & H'). pose proof (H _ _ E') as A. pose proof (H' _ _ E) as B. rewrite E in E'. apply (f_equal (firstn (List.length a))) in E'. rewrite firstn_exact in E' by reflexivity.
  rewrite E'. apply firstn_exact. lia.
Qed.

(** C180: with loops, a mark and a table, the text before the first loop is what precedes the first mark followed by what comes after the last table; nothing
    else of the kernel changes, and nothing at all otherwise. *)
Theorem C180_erased : forall k,
  let k' := erase_static_declarations k in
  (before_func k', after_func k', signature k', integral_name k', post_text k') = (before_func k, after_func k, signature k, integral_name k, post_text k)
  /\ match loops k with
     | [] => k' = k
     | l :: ls =>
         (forall a r, before_first (txt "// Quadrature rules") (pre_text l) a -> after_tables (pre_text l) r ->
            exists l', loops k' = l' :: ls /\ pre_text l' = a ++ r /\ (quad_name l', header l', body l') = (quad_name l, header l, body l))
         /\ ((forall u v, pre_text l <> u ++ txt "// Quadrature rules" ++ v) -> k' = k)
         /\ (no_table (pre_text l) -> k' = k)
     end.
Proof.
  intros k. cbv zeta. unfold erase_static_declarations. destruct (loops k) as [|l ls] eqn:El; [split; reflexivity|].
  pose proof (before_spec (pre_text l)) as HB. destruct (rsearch rules_mark (pre_text l)) as [((a, m), b)|].
  - pose proof (after_last_spec _ (pre_text l) (Nat.lt_succ_diag_r _)) as HA. destruct (after_last _ static_table (pre_text l)) as [r|].
    + split; [reflexivity|]. split; [|split].
      * intros a' r' Ha Hr. rewrite (before_unique _ _ _ _ Ha HB), (after_unique _ _ _ Hr HA). eexists. split; [reflexivity|]. split; reflexivity.
      * intros N. destruct HB as ((b' & E) & _). destruct (N _ _ E).
      * intros N. destruct HA as ((u & d & E & D) & _). destruct (N _ _ _ E D).
    + split; [reflexivity|]. split; [|split; reflexivity]. intros a' r' _ ((u & d & E & D) & _). destruct (HA _ _ _ E D).
  - split; [reflexivity|]. split; [|split; reflexivity]. intros a' r' ((b & E) & _) _. destruct (HB _ _ E).
Qed.
Print Assumptions C180_erased.
(** When the mark comes before the tables (as FFCx writes them), only a part of the text is taken out and no table is declared after the mark. *)
Theorem C180_no_table_left : forall k l ls a r, loops k = l :: ls -> before_first (txt "// Quadrature rules") (pre_text l) a -> after_tables (pre_text l) r -> no_table a ->
  (exists m, pre_text l = a ++ m ++ r) /\ no_table r.
Proof.
  intros k l ls a r _ ((b & E) & _) ((u & d & E2 & D) & H) N. split.
  - rewrite E in E2. rewrite (app_assoc u d r) in E2. destruct (app_cases _ _ _ _ E2) as [(e & -> & Ee)|(e & Ne & E3 & Ee)].
    + destruct e as [|x e]; [exists []; rewrite app_nil_r, E; cbn [app] in *; rewrite Ee, app_nil_r; reflexivity|]. exfalso.
      exact (N u d (x :: e) (eq_sym (app_assoc _ _ _)) D).
    + exists e. rewrite E, Ee. reflexivity.
  - intros u' d' v' E' D'. assert (X : pre_text l = (u ++ d ++ u') ++ d' ++ v') by (rewrite E2, E', <- !app_assoc; reflexivity).
    pose proof (H _ _ _ X D') as L. destruct (table_split _ D') as (? & ? & _ & _ & _ & d2 & Ed). apply (f_equal (@List.length ascii)) in E'. rewrite Ed, !app_length in E'. cbn in E'. lia.
Qed.
Print Assumptions C180_no_table_left.
(** The text of FFCx's kernels: the weights and the table go away, what follows stays. *)
Definition pre_case : text := txt "double J0 = 1.0;" ++ [nl] ++ txt "// Quadrature rules" ++ [nl] ++ txt "static const double weights_083[1] = {0.5};" ++ [nl]
  ++ txt "static const double FE0_C0_Q083[1][1][1][2] = {{{{0.5, 0.5}}}};" ++ [nl] ++ txt "static  const float FE1_Q083[1] = {1.0}; " ++ [nl; nl] ++ txt "static const double facet[1] = {1};" ++ [nl].
Definition loop_case : loop := mk_loop (txt "083") pre_case (txt "for (int iq = 0; iq < 1; ++iq)" ++ [nl] ++ txt "{") (txt "A[0] += FE0_C0_Q083[0][0][iq][0];").
Definition kernel_case : kernel := mk_kernel [] [] (txt "void f()") (txt "f") [loop_case; loop_case] (txt "}").
Example C180_case : let k := erase_static_declarations kernel_case in
  map pre_text (loops k) = [txt "double J0 = 1.0;" ++ [nl] ++ txt "static const double facet[1] = {1};" ++ [nl]; pre_case]
  /\ before_first (txt "// Quadrature rules") pre_case (txt "double J0 = 1.0;" ++ [nl]) /\ after_tables pre_case (txt "static const double facet[1] = {1};" ++ [nl])
  /\ no_table (txt "double J0 = 1.0;" ++ [nl]).
Proof.
  cbv zeta. split; [vm_compute; reflexivity|]. split; [|split].
  - pose proof (before_spec pre_case) as H. vm_compute in H. exact H.
  - pose proof (after_last_spec _ pre_case (Nat.lt_succ_diag_r _)) as H. set (o := after_last _ _ _) in H.
    assert (E : o = Some (txt "static const double facet[1] = {1};" ++ [nl])) by (vm_compute; reflexivity). rewrite E in H. exact H.
  - apply nowhere_table, rsearch_none. vm_compute. reflexivity.
Qed.
