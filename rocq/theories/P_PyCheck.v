(** C179: which integrals are accepted. *)
From Coq Require Import Ascii String.
From Verif Require Import M_PyBase M_PyCheck.
Local Open Scope nat_scope.

(** The specification: the text has [name[w]] at some place, [w] a word. *)
Definition accesses (name t w : chars) : Prop := w <> [] /\ Forall (fun c => is_word c = true) w /\ exists a b, t = a ++ name ++ "["%char :: w ++ "]"%char :: b.
Definition numeral (w : chars) : Prop := Forall (fun c => is_digit c = true) w.

Lemma strip_spec p t r : strip p t = Some r <-> t = p ++ r.
Proof.
  revert t. induction p as [|a p IH]; intros t; cbn [strip app]; [split; congruence|]. destruct t as [|b t]; [split; discriminate|].
  destruct (Ascii.eqb_spec a b) as [->|H].
  - rewrite IH. split; [intros ->; reflexivity|]. intros E. injection E as ->. reflexivity.
  - split; [discriminate|]. intros E. injection E as E _. congruence.
Qed.
Lemma span_spec t : t = fst (span t) ++ snd (span t) /\ Forall (fun c => is_word c = true) (fst (span t)) /\ (forall c l, snd (span t) = c :: l -> is_word c = false).
Proof.
  induction t as [|c t IH]; cbn [span]; [repeat split; [constructor|discriminate]|]. destruct (is_word c) eqn:E; cbn [fst snd].
  - destruct IH as (A & B & C). split; [cbn; f_equal; exact A|]. split; [constructor; assumption|exact C].
  - split; [reflexivity|]. split; [constructor|]. intros c' l H. injection H as <- _. exact E.
Qed.
Lemma span_word w b : Forall (fun c => is_word c = true) w -> span (w ++ "]"%char :: b) = (w, "]"%char :: b).
Proof. induction 1 as [|c w Hc Hw IH]; [reflexivity|]. cbn [app span]. rewrite Hc, IH. reflexivity. Qed.
(** One step of the search. *)
Definition here (name t w : chars) : Prop := w <> [] /\ Forall (fun c => is_word c = true) w /\ exists b, t = name ++ "["%char :: w ++ "]"%char :: b.
Lemma accesses_cons name c t w : name <> [] -> (accesses name (c :: t) w <-> here name (c :: t) w \/ accesses name t w).
Proof.
  intros Hn. split.
  - intros (A & B & a & b & E). destruct a as [|x a]; [left; split; [exact A|split; [exact B|exists b; exact E]]|].
    cbn [app] in E. injection E as _ E. right. split; [exact A|]. split; [exact B|]. exists a, b. exact E.
  - intros [(A & B & b & E)|(A & B & a & b & E)]; (split; [exact A|split; [exact B|]]); [exists [], b; exact E|exists (c :: a), b; rewrite E; reflexivity].
Qed.
Lemma accesses_nil name w : name <> [] -> ~ accesses name [] w.
Proof. intros Hn (_ & _ & a & b & E). destruct a; [destruct name; [congruence|discriminate]|discriminate]. Qed.
Lemma here_unique name t w w' : here name t w -> here name t w' -> w = w'.
Proof.
  intros (_ & F & b & ->) (_ & F' & b' & E). apply app_inv_head in E. injection E as E.
  pose proof (span_word w b F) as S. rewrite E, (span_word w' b' F') in S. congruence.
Qed.
Lemma here_dec name t : match strip (name ++ ["["%char]) t with
  | Some r => match span r with (x :: w, c :: _) => (c = "]"%char -> here name t (x :: w)) /\ (c <> "]"%char -> forall w', ~ here name t w') | _ => forall w', ~ here name t w' end
  | None => forall w', ~ here name t w' end.
Proof.
  assert (K : forall w', here name t w' -> exists b, strip (name ++ ["["%char]) t = Some (w' ++ "]"%char :: b) /\ span (w' ++ "]"%char :: b) = (w', "]"%char :: b)).
  { intros w' (_ & F & b & E). exists b. split; [apply strip_spec; rewrite E, <- app_assoc; reflexivity|apply span_word; exact F]. }
  destruct (strip (name ++ ["["%char]) t) as [r|] eqn:Er; [|intros w' H; destruct (K w' H) as (b & E & _); discriminate].
  destruct (span_spec r) as (S1 & S2 & S3). destruct (span r) as [w s] eqn:Es. cbn [fst snd] in *. destruct w as [|x w].
  - intros w' H. destruct (K w' H) as (b & E & E2). injection E as ->. rewrite E2 in Es. injection Es as -> _. destruct H as (H & _). congruence.
  - destruct s as [|c s].
    + intros w' H. destruct (K w' H) as (b & E & E2). injection E as ->. rewrite E2 in Es. discriminate.
    + split.
      * intros ->. split; [discriminate|]. split; [exact S2|]. exists s. apply strip_spec in Er. rewrite Er, S1, <- !app_assoc. reflexivity.
      * intros Hc w' H. destruct (K w' H) as (b & E & E2). injection E as ->. rewrite E2 in Es. injection Es as _ <- _. congruence.
Qed.
Lemma collected_step name c t : collected name (c :: t) =
  match strip (name ++ ["["%char]) (c :: t) with
  | Some r => match span r with
              | (x :: w, c' :: _) => if Ascii.eqb c' "]"%char then assert_ (forallb is_digit (x :: w)) (rest <- collected name t ;; Ret (int_of (x :: w) :: rest)) else collected name t
              | _ => collected name t
              end
  | None => collected name t
  end.
Proof.
  cbn [collected]. destruct (strip (name ++ ["["%char]) (c :: t)) as [r|]; [|reflexivity]. destruct (span r) as [[|x w] [|c' s]]; try reflexivity.
  destruct c' as [[|] [|] [|] [|] [|] [|] [|] [|]]; reflexivity.
Qed.
Lemma collected_ok name t : name <> [] ->
  ((forall w, accesses name t w -> numeral w) -> exists l, collected name t = Ret l /\ forall k, In k l <-> exists w, accesses name t w /\ int_of w = k) /\
  ((exists w, accesses name t w /\ ~ numeral w) -> collected name t = Abort).
Proof.
  intros Hn. induction t as [|c t (IH1 & IH2)].
  { split; [|intros (w & H & _); destruct (accesses_nil name w Hn H)]. intros _. exists []. split; [reflexivity|]. intros k. split; [contradiction|]. intros (w & H & _). destruct (accesses_nil name w Hn H). }
  rewrite collected_step. pose proof (here_dec name (c :: t)) as H.
  assert (None_here : (forall w', ~ here name (c :: t) w') ->
    ((forall w, accesses name (c :: t) w -> numeral w) -> exists l, collected name t = Ret l /\ forall k, In k l <-> exists w, accesses name (c :: t) w /\ int_of w = k) /\
    ((exists w, accesses name (c :: t) w /\ ~ numeral w) -> collected name t = Abort)).
  { intros N. assert (Q : forall w, accesses name (c :: t) w <-> accesses name t w).
    { intros w. rewrite accesses_cons by exact Hn. split; [intros [X|X]; [destruct (N w X)|exact X]|auto]. }
    split.
    - intros A. destruct IH1 as (l & E & L); [intros w X; apply A, Q, X|]. exists l. split; [exact E|]. intros k. rewrite L. split; intros (w & X & Y); exists w; (split; [apply Q; exact X|exact Y]).
    - intros (w & X & Y). apply IH2. exists w. split; [apply Q; exact X|exact Y]. }
  destruct (strip (name ++ ["["%char]) (c :: t)) as [r|]; [|exact (None_here H)].
  destruct (span r) as [[|x w] [|c' s]]; try exact (None_here H). destruct H as (H1 & H2).
  destruct (Ascii.eqb_spec c' "]"%char) as [Ec|Ec]; [|exact (None_here (H2 Ec))]. specialize (H1 Ec). clear H2 None_here.
  assert (Q : forall w', accesses name (c :: t) w' <-> w' = x :: w \/ accesses name t w').
  { intros w'. rewrite accesses_cons by exact Hn. split; [intros [X|X]; [left; exact (here_unique _ _ _ _ X H1)|right; exact X]|]. intros [->|X]; [left; exact H1|right; exact X]. }
  destruct (forallb is_digit (x :: w)) eqn:Ed; cbn [assert_].
  - assert (Nw : numeral (x :: w)) by (apply Forall_forall; apply forallb_forall; exact Ed). split.
    + intros A. destruct IH1 as (l & E & L); [intros w' X; apply A, Q; right; exact X|]. rewrite E. cbn [bind]. exists (int_of (x :: w) :: l). split; [reflexivity|].
      intros k. cbn [In]. rewrite L. split.
      * intros [<-|(w' & X & Y)]; [exists (x :: w)|exists w']; (split; [apply Q; auto|auto]).
      * intros (w' & X & Y). apply Q in X. destruct X as [->|X]; [left; exact Y|right; exists w'; auto].
    + intros (w' & X & Y). apply Q in X. destruct X as [->|X]; [contradiction|]. rewrite IH2 by (exists w'; auto). reflexivity.
  - split; [|reflexivity]. intros A. exfalso. specialize (A (x :: w) (proj2 (Q _) (or_introl eq_refl))).
    apply not_true_iff_false in Ed. apply Ed. apply forallb_forall. apply Forall_forall. exact A.
Qed.
Lemma same_set_spec a b : same_set a b = true <-> forall x, In x a <-> In x b.
Proof.
  unfold same_set. rewrite andb_true_iff, !forallb_forall. split.
  - intros (A & B) x. split; intros H; [apply A in H|apply B in H]; apply existsb_exists in H as (y & Hy & E); apply Nat.eqb_eq in E; subst; exact Hy.
  - intros H. split; intros x Hx; apply existsb_exists; exists x; (split; [apply H; exact Hx|apply Nat.eqb_refl]).
Qed.

(** Decimal numerals. *)
Definition digits : chars := list_ascii_of_string "0123456789".
Fixpoint value (w : chars) : nat := match w with [] => 0 | c :: w' => (code c - code "0") * 10 ^ length w' + value w' end.
Lemma int_of_value w : int_of w = value w.
Proof.
  unfold int_of. assert (H : forall n, fold_left (fun n c => 10 * n + (code c - 48)) w n = n * 10 ^ length w + value w); [|rewrite H; lia].
  induction w as [|c w IH]; intros n; cbn [fold_left value length]; [cbn; lia|]. rewrite IH. change (code "0") with 48. rewrite Nat.pow_succ_r'. lia.
Qed.
Lemma numeral_digits w : numeral w <-> Forall (fun c => In c digits) w.
Proof.
  unfold numeral. rewrite !Forall_forall. split; intros H c Hc; specialize (H c Hc).
  - destruct c as [[|] [|] [|] [|] [|] [|] [|] [|]]; vm_compute in H; try discriminate H; cbn; tauto.
  - cbn in H. repeat (destruct H as [<-|H]; [reflexivity|]). contradiction.
Qed.
(** The characters of words. *)
Definition word_characters : chars := list_ascii_of_string "abcdefghijklmnopqrstuvwxyzABCDEFGHIJKLMNOPQRSTUVWXYZ0123456789_".
Definition looks_up (name t w : chars) : Prop := w <> [] /\ Forall (fun c => In c word_characters) w /\ exists a b, t = a ++ name ++ "["%char :: w ++ "]"%char :: b.
Lemma word_chars c : In c word_characters <-> is_word c = true.
Proof.
  split; intros H.
  - assert (F : forallb is_word word_characters = true) by (vm_compute; reflexivity). rewrite forallb_forall in F. exact (F c H).
  - assert (F : existsb (Ascii.eqb c) word_characters = true) by (revert H; destruct c as [[|] [|] [|] [|] [|] [|] [|] [|]]; vm_compute; congruence).
    apply existsb_exists in F as (x & X & E). apply Ascii.eqb_eq in E. subst. exact X.
Qed.
Lemma looks_accesses name t w : looks_up name t w <-> accesses name t w.
Proof. unfold looks_up, accesses. rewrite !Forall_forall. split; intros (A & B & C); (split; [exact A|split; [|exact C]]); intros c Hc; apply word_chars, B, Hc. Qed.
(** The entries of an array that the text accesses. *)
Definition entry (name t : chars) (k : nat) : Prop := exists w, looks_up name t w /\ value w = k.
Definition only_numerals (name t : chars) : Prop := forall w, looks_up name t w -> Forall (fun c => In c digits) w.
Lemma entry_int name t k : entry name t k <-> exists w, accesses name t w /\ int_of w = k.
Proof. unfold entry. split; intros (w & H & E); exists w; rewrite int_of_value, ?looks_accesses in *; auto. Qed.
Lemma only_int name t : only_numerals name t <-> forall w, accesses name t w -> numeral w.
Proof. unfold only_numerals. split; intros H w A; apply numeral_digits, H, looks_accesses, A. Qed.
(** Entries of the arrays of an integral of that type: none for cells, one per side for facets. *)
Definition sides (t : itype) (k : nat) : Prop := match t with Iexterior => k = 0 | Iinterior => k = 0 \/ k = 1 | _ => False end.
Definition real_of (c : dtype) : option dtype := match c with F32 | C64 => Some F32 | F64 | C128 => Some F64 | Dother => None end.

Lemma collected_cases name t : name <> [] -> (only_numerals name t /\ exists l, collected name t = Ret l /\ forall k, In k l <-> entry name t k) \/ (~ only_numerals name t /\ collected name t = Abort).
Proof.
  intros Hn. destruct (collected_ok name t Hn) as (A & B). rewrite only_int. setoid_rewrite entry_int.
  destruct (collected name t) as [l| | |] eqn:E.
  - left. assert (O : forall w, accesses name t w -> numeral w).
    { intros w Hw. destruct (forallb is_digit w) eqn:Ed; [apply Forall_forall; apply forallb_forall; exact Ed|]. exfalso.
      assert (X : ~ numeral w) by (intros N; apply not_true_iff_false in Ed; apply Ed; apply forallb_forall; apply Forall_forall; exact N).
      discriminate (B (ex_intro _ w (conj Hw X))). }
    split; [exact O|]. destruct (A O) as (l' & E' & L). injection E' as <-. exists l. split; [reflexivity|exact L].
  - right. split; [|reflexivity]. intros O. destruct (A O) as (l' & E' & _). discriminate.
  - exfalso. clear -E. revert E. induction t as [|c t IH]; [discriminate|]. rewrite collected_step. destruct (strip _ _); [|exact IH]. destruct (span l) as [[|x w] [|c' s]]; try exact IH.
    destruct (Ascii.eqb c' _); [|exact IH]. unfold assert_. destruct (forallb _ _); [|discriminate]. destruct (collected name t); cbn [bind]; try discriminate. intros _. apply IH. reflexivity.
  - exfalso. clear -E. revert E. induction t as [|c t IH]; [discriminate|]. rewrite collected_step. destruct (strip _ _); [|exact IH]. destruct (span l) as [[|x w] [|c' s]]; try exact IH.
    destruct (Ascii.eqb c' _); [|exact IH]. unfold assert_. destruct (forallb _ _); [|discriminate]. destruct (collected name t); cbn [bind]; try discriminate. intros _. apply IH. reflexivity.
Qed.
(** What the kernel is read for: the text before its first loop and the bodies of all its loops. *)
Definition whole (i : integral) : chars := hd [] (map fst (k_loops i)) ++ flat_map snd (k_loops i).
Lemma whole_spec i : body_text i = whole i.
Proof. unfold body_text, whole. rewrite flat_map_concat_map. destruct (k_loops i) as [|(pre, b) l]; reflexivity. Qed.
Lemma sides_spec t k : t <> Iother -> (In k (target_indices t) <-> sides t k).
Proof. intros Ht. destruct t; cbn; try congruence; split; intros H; try contradiction; lia. Qed.

(** C179: an integral is accepted if and only if it is over cells, exterior or interior facets, mixes dimensions only over exterior facets, has no
    sum-factorization, works with the real type of its coefficients, and its kernel looks up the local facet of all its sides and nothing else, and the
    permutation of all its sides and nothing else, if at all. *)
Theorem C179_accepted : forall i, check_FFCx_input i = Ret tt <->
  k_entity i <> Eother /\ k_type i <> Iother /\ (k_mixed i = true -> k_type i = Iexterior) /\ ~ In true (k_tensor i)
  /\ only_numerals entity_local_index (whole i) /\ only_numerals quadrature_permutation (whole i)
  /\ (forall k, entry entity_local_index (whole i) k <-> sides (k_type i) k)
  /\ ((forall k, ~ entry quadrature_permutation (whole i) k) \/ forall k, entry quadrature_permutation (whole i) k <-> sides (k_type i) k)
  /\ real_of (k_coeffs i) = Some (k_dtype i).
Proof.
  intros i. rewrite <- whole_spec. unfold check_FFCx_input.
  destruct (k_entity i) eqn:Ee; cbn [assert_]; [| |split; [discriminate|intros (H & _); congruence]];
  (destruct (k_type i) eqn:Et; cbn [assert_]; [..|split; [discriminate|intros (_ & H & _); congruence]]);
  (destruct (k_mixed i) eqn:Em; cbn [assert_]; try (split; [discriminate|intros (_ & _ & H & _); specialize (H eq_refl); congruence]));
  (destruct (forallb negb (k_tensor i)) eqn:Ef; cbn [assert_];
    [|split; [discriminate|intros (_ & _ & _ & H & _); exfalso; apply not_true_iff_false in Ef; apply Ef; apply forallb_forall; intros [|] X; [contradiction|reflexivity]]]);
  (assert (Hf : ~ In true (k_tensor i)) by (intros X; rewrite forallb_forall in Ef; specialize (Ef true X); discriminate));
  (destruct (collected_cases entity_local_index (body_text i)) as [(O1 & l1 & E1 & L1)|(O1 & E1)]; [discriminate| |rewrite E1; split; [discriminate|intros (_ & _ & _ & _ & H & _); contradiction]]);
  rewrite E1; cbn [bind];
  (destruct (collected_cases quadrature_permutation (body_text i)) as [(O2 & l2 & E2 & L2)|(O2 & E2)]; [discriminate| |
     rewrite E2; split; [unfold assert_; destruct (same_set _ _); discriminate|intros (_ & _ & _ & _ & _ & H & _); contradiction]]);
  rewrite E2; cbn [bind];
  lazymatch type of Et with _ = ?t => 
  (destruct (same_set l1 (target_indices t)) eqn:S1; cbn [assert_];
    [|split; [discriminate|intros (_ & _ & _ & _ & _ & _ & H & _); exfalso; apply not_true_iff_false in S1; apply S1; apply same_set_spec; intros x; rewrite L1, (sides_spec t) by discriminate; apply H]]);
  (assert (HS1 : forall k, entry entity_local_index (body_text i) k <-> sides t k) by
    (intros k; rewrite <- L1, <- (sides_spec t) by discriminate; revert k; apply same_set_spec; exact S1));
  (destruct (negb (0 <? length l2) || same_set l2 (target_indices t)) eqn:S2; cbn [assert_];
    [|split; [discriminate|intros (_ & _ & _ & _ & _ & _ & _ & H & _); exfalso; apply not_true_iff_false in S2; apply S2; apply orb_true_iff; destruct H as [H|H];
       [left; destruct l2 as [|x l2]; [reflexivity|exfalso; apply (H x); apply L2; left; reflexivity]
       |right; apply same_set_spec; intros x; rewrite L2, (sides_spec t) by discriminate; apply H]]]);
  (assert (HS2 : (forall k, ~ entry quadrature_permutation (body_text i) k) \/ forall k, entry quadrature_permutation (body_text i) k <-> sides t k) by
    (apply orb_true_iff in S2; destruct S2 as [S2|S2];
       [left; intros k X; apply L2 in X; destruct l2; [contradiction|discriminate]
       |right; intros k; rewrite <- L2, <- (sides_spec t) by discriminate; revert k; apply same_set_spec; exact S2]))
  end;
  (split; [intros H; repeat split; auto; try discriminate; try (apply HS1); try (intros; reflexivity)|intros (_ & _ & _ & _ & _ & _ & _ & _ & H)];
   destruct (k_coeffs i), (k_dtype i); cbn in *; congruence).
Qed.
Print Assumptions C179_accepted.
(** So an integral over interior facets whose integrand takes one side only (as f('+')*dS) is not accepted, although its kernel looks up nothing but
    local facets of its sides: the message blames the implementation. *)
Definition one_side : integral :=
  {| k_entity := Efacet; k_type := Iinterior; k_mixed := false; k_tensor := [false];
     k_loops := [(list_ascii_of_string "double J0_c0 = 0.0; ",
                  list_ascii_of_string "w0 += w[ic] * FE0_C0_Qabc[quadrature_permutation[0]][entity_local_index[0]][iq][ic];")];
     k_coeffs := F64; k_dtype := F64 |}.
Theorem C179_one_side_refuted : exists i, k_type i = Iinterior /\ k_entity i = Efacet /\ k_mixed i = false /\ k_tensor i = [false] /\ real_of (k_coeffs i) = Some (k_dtype i)
  /\ only_numerals entity_local_index (whole i) /\ only_numerals quadrature_permutation (whole i)
  /\ (forall k, entry entity_local_index (whole i) k -> sides Iinterior k) /\ (forall k, entry quadrature_permutation (whole i) k -> sides Iinterior k)
  /\ check_FFCx_input i = Abort.
Proof.
  exists one_side. rewrite <- whole_spec. do 5 (split; [reflexivity|]).
  destruct (collected_cases entity_local_index (body_text one_side)) as [(O1 & l1 & E1 & L1)|(_ & E1)]; [discriminate| |vm_compute in E1; discriminate].
  destruct (collected_cases quadrature_permutation (body_text one_side)) as [(O2 & l2 & E2 & L2)|(_ & E2)]; [discriminate| |vm_compute in E2; discriminate].
  vm_compute in E1, E2. injection E1 as <-. injection E2 as <-.
  split; [exact O1|]. split; [exact O2|]. split; [|split; [|vm_compute; reflexivity]].
  - intros k H. apply L1 in H. destruct H as [<-|[]]. left. reflexivity.
  - intros k H. apply L2 in H. destruct H as [<-|[]]. left. reflexivity.
Qed.
Print Assumptions C179_one_side_refuted.
(** Both sides are accepted; a second array with a variable as index is not. *)
Definition with_body (i : integral) (s : string) : integral :=
  {| k_entity := k_entity i; k_type := k_type i; k_mixed := k_mixed i; k_tensor := k_tensor i; k_loops := [([], list_ascii_of_string s)]; k_coeffs := C128; k_dtype := F64 |}.
Example C179_case : check_FFCx_input (with_body one_side "A[i] += FE0[quadrature_permutation[0]][entity_local_index[0]][iq][ic] * FE0[quadrature_permutation[1]][entity_local_index[1]][iq][ic];") = Ret tt
  /\ check_FFCx_input (with_body one_side "FE0[0][entity_local_index[0]][iq][ic] * FE0[0][entity_local_index[1]][iq][ic];") = Ret tt
  /\ check_FFCx_input (with_body one_side "FE0[0][entity_local_index[0]][iq][ic] * FE0[0][entity_local_index[j]][iq][ic];") = Abort
  /\ check_FFCx_input (with_body one_side "FE0[quadrature_permutation[0]][entity_local_index[0]][iq][ic] * FE0[0][entity_local_index[1]][iq][ic];") = Abort.
Proof. repeat split; vm_compute; reflexivity. Qed.
