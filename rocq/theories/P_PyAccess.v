(** C181: the text of an access. *)
From Coq Require Import List Lia Bool Arith Ascii String DecimalString DecimalNat.
From Verif Require Import M_PyKernel M_Base M_PyText M_PyAccess P_PyText.
Import ListNotations.
Local Open Scope list_scope. Local Open Scope nat_scope.

(** The texts of subscripts: numbers in decimal, names of variables, sums; those of arrays of the kernel. *)
Fixpoint shows (var : nat -> text) (i : cidx) : text := match i with INum n => dec n | IVar v => var v | IAdd a b => shows var a ++ txt " + " ++ shows var b end.
Definition shows_perm (p : pidx) : text := match p with PNum n => dec n | PPerm k => txt "quadrature_permutation[" ++ dec k ++ txt "]" end.
(** A name has some character that is neither a digit nor a space. *)
Definition is_name (s : text) : Prop := exists x, In x s /\ digit x = false /\ x <> " "%char.
(** The text of a term [c * i]; a factor 1 may be left out. *)
Definition shows_term (var : nat -> text) (t : nat * cidx) (s : text) : Prop := s = dec (fst t) ++ txt " * " ++ shows var (snd t) \/ fst t = 1 /\ s = shows var (snd t).
(** The text of a sum of terms. *)
Inductive shows_sum (var : nat -> text) : list (nat * cidx) -> text -> Prop :=
  | ss_nil : shows_sum var [] []
  | ss_one t s : shows_term var t s -> shows_sum var [t] s
  | ss_more t s l u : l <> [] -> shows_term var t s -> shows_sum var l u -> shows_sum var (t :: l) (s ++ txt " + " ++ u).

Lemma decimal_dec n : decimal (dec n) = Some n.
Proof.
  unfold decimal. assert (N : dec n <> []).
  { intros H. assert (X : string_of_list_ascii (dec n) = EmptyString) by (rewrite H; reflexivity). unfold dec in X. rewrite string_of_list_ascii_of_string in X.
    pose proof (NilEmpty.usu (Nat.to_uint n)) as U. rewrite X in U. cbn in U. injection U as U. pose proof (Unsigned.of_to n) as O. rewrite <- U in O. cbn in O. subst n. discriminate U. }
  destruct (dec n) as [|x d] eqn:E; [congruence|]. rewrite <- E. unfold dec. rewrite string_of_list_ascii_of_string, NilEmpty.usu. cbn. rewrite Unsigned.of_to. reflexivity.
Qed.
Lemma uint_char x d : digit x = false -> uint_of_char x d = None.
Proof. destruct d as [d|]; [|reflexivity]. destruct x as [[|] [|] [|] [|] [|] [|] [|] [|]]; try reflexivity; discriminate. Qed.
Lemma decimal_none s x : In x s -> digit x = false -> decimal s = None.
Proof.
  intros H D. unfold decimal. destruct s as [|y s]; [contradiction|]. cut (NilEmpty.uint_of_string (string_of_list_ascii (y :: s)) = None); [intros ->; reflexivity|].
  revert H. generalize (y :: s) as l. induction l as [|z l IH]; intros H; [contradiction|]. cbn [string_of_list_ascii NilEmpty.uint_of_string]. destruct H as [->|H]; [apply uint_char; exact D|rewrite (IH H); reflexivity].
Qed.
Lemma digit_not_space x : digit x = true -> negb (is " " x) = true.
Proof. destruct x as [[|] [|] [|] [|] [|] [|] [|] [|]]; intros H; try reflexivity; discriminate H. Qed.
Lemma filter_dec n : filter (fun x => negb (is " " x)) (dec n) = dec n.
Proof. pose proof (dec_digits n) as D. induction D as [|x l H D IH]; [reflexivity|]. cbn [filter]. rewrite (digit_not_space x H), IH. reflexivity. Qed.
Lemma not_zero_num n : not_zero (dec n) = negb (n =? 0).
Proof. unfold not_zero. rewrite filter_dec, decimal_dec. reflexivity. Qed.
Lemma not_zero_other s x : In x s -> digit x = false -> x <> " "%char -> not_zero s = true.
Proof.
  intros H D N. unfold not_zero. rewrite (decimal_none _ x); [reflexivity| |exact D]. apply filter_In. split; [exact H|]. unfold is. destruct (Ascii.eqb_spec " " x); [congruence|reflexivity].
Qed.
Lemma not_zero_shows var i : (forall v, is_name (var v)) -> not_zero (shows var i) = match i with INum 0 => false | _ => true end.
Proof.
  intros V. destruct i as [n|v|a b]; cbn [shows].
  - rewrite not_zero_num. destruct n; reflexivity.
  - destruct (V v) as (x & H & D & N). exact (not_zero_other _ x H D N).
  - apply (not_zero_other _ "+"%char); [|reflexivity|discriminate]. apply in_or_app. right. apply in_or_app. left. cbn. tauto.
Qed.
Lemma rmatch_lits s p r : rmatch (lit s ++ p) (txt s ++ r) = option_map (fun l => map (fun a => [a]) (txt s) ++ l) (rmatch p r).
Proof.
  unfold lit. induction (txt s) as [|a l IH]; cbn [map app rmatch]; [destruct (rmatch p r); reflexivity|]. unfold is at 1. rewrite Ascii.eqb_refl, IH. destruct (rmatch p r); reflexivity.
Qed.
Lemma perm_match k : rmatch perm_access (shows_perm (PPerm k)) = Some (map (fun a => [a]) (txt "quadrature_permutation[") ++ [dec k; ["]"%char]]).
Proof.
  cbn [shows_perm]. unfold perm_access. rewrite rmatch_lits. cut (rmatch ([Plus digit] ++ lit "]") (dec k ++ txt "]") = Some [dec k; ["]"%char]]); [intros ->; reflexivity|].
  cbn [app]. assert (L : span_len digit (dec k ++ ["]"%char]) = List.length (dec k)).
  { rewrite span_app by reflexivity. pose proof (dec_digits k) as D. induction D as [|x l H D IH]; [reflexivity|]. cbn. rewrite H. f_equal. exact IH. }
  change (txt "]") with ["]"%char]. cbn [rmatch]. rewrite L. destruct (List.length (dec k)) as [|n] eqn:E.
  { pose proof (decimal_dec k) as X. destruct (dec k); discriminate. }
  rewrite <- E. change (Nat.eqb (List.length (dec k)) 0) with (Nat.eqb (List.length (dec k)) 0). replace (List.length (dec k) =? 0) with false by (rewrite E; reflexivity).
  assert (F : forall f : nat -> option (list text), f (List.length (dec k)) <> None -> longest 1 f (List.length (dec k)) = f (List.length (dec k))) by (intros f Hf; destruct (List.length (dec k)); cbn [longest]; destruct (f _); congruence).
  rewrite F; rewrite skipn_concat, firstn_exact by reflexivity; [reflexivity|discriminate].
Qed.
Lemma search_start p s l : rmatch p s = Some l -> exists b, rsearch p s = Some ([], l, b).
Proof. intros H. destruct s; cbn [rsearch]; rewrite H; eauto. Qed.
Lemma search_dec n : rsearch perm_access (dec n) = None.
Proof.
  apply rsearch_none. intros u v E. pose proof (dec_digits n) as D. rewrite E in D. apply Forall_app in D as (_ & D). unfold perm_access. cbn [lit txt map app rmatch]. destruct v as [|x v]; [reflexivity|].
  apply Forall_inv in D. destruct (is "q" x) eqn:Q; [|reflexivity]. unfold is in Q. apply Ascii.eqb_eq in Q. subst x. discriminate D.
Qed.
Lemma text_zero n : (if list_eq_dec ascii_dec (dec n) (txt "0") then true else false) = (n =? 0).
Proof. destruct (list_eq_dec ascii_dec (dec n) (txt "0")) as [E|E]; [change (txt "0") with (dec 0) in E; apply dec_inj in E; subst; reflexivity|]. destruct n; [exfalso; apply E; reflexivity|reflexivity]. Qed.

(** C181: on the texts of an access the rewriting gives a text if and only if it gives an access, and then the text of that access: the name, the side of the
    facet if any, and the sum of the terms. *)
Theorem C181_text : forall interior a name var, (forall v, is_name (var v)) ->
  match new_access interior a, create_new_access_code (is_const (a_tab a)) (t_perms (a_tab a)) (t_funcs (a_tab a)) name (shows_perm (a_perm a)) (shows var (a_iq a)) (shows var (a_dof a)) interior with
  | Ret r, Ret s => exists u, shows_sum var (b_terms r) u /\ s = name ++ (match b_side r with Some k => txt "[" ++ dec k ++ txt "]" | None => [] end) ++ txt "[" ++ u ++ txt "]"
  | Abort, Abort => True
  | _, _ => False
  end.
Proof.
  intros interior a name var V. unfold new_access, create_new_access_code. destruct (is_const (a_tab a)); cbn [negb assert_]; [exact I|].
  set (P := if interior && negb _ then _ else Ret None).
  assert (HP : P = match a_perm a with PNum 0 => Ret None
                   | p => if interior then assert_ (1 <? t_perms (a_tab a)) (match p with PPerm k => Ret (Some k) | PNum _ => Abort end) else Ret None end).
  { subst P. destruct (a_perm a) as [n|k].
    - cbn [shows_perm]. rewrite text_zero. destruct n as [|n]; cbn [Nat.eqb negb]; [rewrite andb_false_r; reflexivity|]. rewrite andb_true_r, search_dec. reflexivity.
    - destruct (list_eq_dec ascii_dec (shows_perm (PPerm k)) (txt "0")) as [E|_]; [discriminate E|]. cbn [negb]. rewrite andb_true_r. destruct (search_start _ _ _ (perm_match k)) as (b & ->).
      cbn [map txt list_ascii_of_string app skipn firstn concat]. rewrite app_nil_r, decimal_dec. reflexivity. }
  rewrite HP. clear HP P. rewrite !(not_zero_shows var) by exact V.
  destruct (match a_perm a with PNum 0 => Ret None | _ => _ end) as [side| | |] eqn:ES; cbn [bind]; try exact I.
  - cbn [b_terms b_side]. exists (join (txt " + ") ((if match a_iq a with INum 0 => false | _ => true end then [dec (t_funcs (a_tab a)) ++ txt " * " ++ shows var (a_iq a)] else []) ++
      (if match a_dof a with INum 0 => false | _ => true end then [shows var (a_dof a)] else []))). split; [|reflexivity].
    assert (T1 : forall i, shows_term var (t_funcs (a_tab a), i) (dec (t_funcs (a_tab a)) ++ txt " * " ++ shows var i)) by (intros i; left; reflexivity).
    assert (T2 : forall i, shows_term var (1, i) (shows var i)) by (intros i; right; auto).
    assert (S2 : forall i j, shows_sum var [(t_funcs (a_tab a), i); (1, j)] ((dec (t_funcs (a_tab a)) ++ txt " * " ++ shows var i) ++ txt " + " ++ shows var j)).
    { intros i j. apply ss_more; [discriminate|apply T1|apply ss_one, T2]. }
    destruct (a_iq a) as [[|n]|v|x y]; destruct (a_dof a) as [[|m]|w|z t]; cbn [app join];
      first [apply ss_nil | apply S2 | apply ss_one, T1 | apply ss_one, T2].
  - destruct (a_perm a) as [[|n]|k], interior; unfold assert_ in ES; try discriminate; destruct (1 <? _); discriminate.
  - destruct (a_perm a) as [[|n]|k], interior; unfold assert_ in ES; try discriminate; destruct (1 <? _); discriminate.
Qed.
Print Assumptions C181_text.
(** But the text may be no access of C: with both subscripts 0, as FFCx writes the first coefficient of the geometry with a rule of one point, nothing is
    left between the brackets. *)
Definition access_case (t : table) : access := {| a_tab := t; a_perm := PNum 0; a_entity := ENum 0; a_iq := INum 0; a_dof := INum 0 |}.
Theorem C181_subscript_refuted : forall a, is_const (a_tab a) = false -> a_perm a = PNum 0 -> a_iq a = INum 0 -> a_dof a = INum 0 -> forall interior name var,
  create_new_access_code (is_const (a_tab a)) (t_perms (a_tab a)) (t_funcs (a_tab a)) name (shows_perm (a_perm a)) (shows var (a_iq a)) (shows var (a_dof a)) interior = Ret (name ++ txt "[]").
Proof. intros a Hc Hp Hi Hd interior name var. rewrite Hc, Hp, Hi, Hd. unfold create_new_access_code. cbn. destruct interior; reflexivity. Qed.
Print Assumptions C181_subscript_refuted.
(** Otherwise there is a subscript. *)
Theorem C181_subscript_partial : forall interior a r var u, new_access interior a = Ret r -> (a_iq a <> INum 0 \/ a_dof a <> INum 0) -> (forall v, is_name (var v)) -> shows_sum var (b_terms r) u -> u <> [].
Proof.
  intros interior a r var u H N V S. assert (T : b_terms r <> []).
  { unfold new_access in H. destruct (is_const _); [discriminate|]. cbn [negb assert_] in H. destruct (match a_perm a with PNum 0 => _ | _ => _ end); try discriminate. cbn [bind] in H. injection H as <-. cbn [b_terms].
    destruct (a_iq a) as [[|]| |]; try discriminate. destruct (a_dof a) as [[|]| |]; try discriminate. destruct N; congruence. }
  assert (Sh : forall i, shows var i <> []).
  { intros [n|v|x y]; cbn [shows].
    - intros E. pose proof (decimal_dec n) as D. rewrite E in D. discriminate.
    - destruct (V v) as (c & Hc & _). intros E. rewrite E in Hc. contradiction.
    - intros E. apply app_eq_nil in E as (_ & E). discriminate. }
  assert (St : forall t s, shows_term var t s -> s <> []).
  { intros t s [->|(_ & ->)]; [|apply Sh]. intros E. apply app_eq_nil in E as (_ & E). discriminate. }
  destruct S as [|t s Ht|t s l u Hl Ht _]; [congruence|exact (St _ _ Ht)|]. intros E. apply app_eq_nil in E as (E & _). exact (St _ _ Ht E).
Qed.
Print Assumptions C181_subscript_partial.
Example C181_case :
  create_new_access_code false 2 6 (txt "FE0_Q083") (txt "quadrature_permutation[1]") (txt "iq") (txt "ic + 3") true = Ret (txt "FE0_Q083[1][6 * iq + ic + 3]")
  /\ create_new_access_code false 2 6 (txt "FE0_Q083") (txt "0") (txt "0") (txt "0") true = Ret (txt "FE0_Q083[]")
  /\ create_new_access_code false 1 6 (txt "FE0_Q083") (txt "quadrature_permutation[1]") (txt "iq") (txt "ic") true = Abort
  /\ is_name (txt "iq")
  /\ (forall t, t_qpts t = 1 -> is_const (a_tab (access_case t)) = false).
Proof.
  do 3 (split; [vm_compute; reflexivity|]). split; [exists "i"%char; cbn; repeat split; [tauto|discriminate]|]. intros t H. unfold is_const. cbn [a_tab access_case]. rewrite H. reflexivity.
Qed.
