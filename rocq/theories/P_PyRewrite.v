(** C182: all the accesses of a text are rewritten and nothing else. *)
From Coq Require Import List Lia Bool Arith Ascii String.
From Verif Require Import M_Base M_PyText M_PyAccess M_PyRewrite.
Import ListNotations.
Local Open Scope list_scope. Local Open Scope nat_scope.

(** The specification. Subscripts: an entry of an array, word[digits], or a text without brackets that does not start with white space. *)
Definition all (c : cls) (s : text) : Prop := Forall (fun x => c x = true) s.
Inductive subscript : text -> Prop :=
  | sub_entry w d : w <> [] -> all word w -> d <> [] -> all digit d -> subscript (w ++ txt "[" ++ d ++ txt "]")
  | sub_plain g : ~ In "["%char g -> ~ In "]"%char g -> (forall x g', g = x :: g' -> space x = false) -> subscript g.
(** An access: its table, its subscripts and the white space after each bracket. *)
Record acc := { a_name : text; a_sub : text * text * text * text; a_sp : text * text * text * text }.
Definition in_brackets (i sp : text) : text := txt "[" ++ i ++ txt "]" ++ sp.
Definition acc_text (a : acc) : text :=
  let '(i0, i1, i2, i3) := a_sub a in let '(s0, s1, s2, s3) := a_sp a in
  txt "FE" ++ a_name a ++ in_brackets i0 s0 ++ in_brackets i1 s1 ++ in_brackets i2 s2 ++ in_brackets i3 s3.
Definition good_acc (a : acc) : Prop :=
  let '(i0, i1, i2, i3) := a_sub a in let '(s0, s1, s2, s3) := a_sp a in
  a_name a <> [] /\ all word (a_name a) /\ subscript i0 /\ subscript i1 /\ subscript i2 /\ subscript i3 /\ all space s0 /\ all space s1 /\ all space s2 /\ all space s3.
(** Text between accesses: without FE, and not starting with white space (it would belong to the access). *)
Definition no_FE (p : text) : Prop := forall u v, p <> u ++ txt "FE" ++ v.
Definition no_space (p : text) : Prop := forall x p', p = x :: p' -> space x = false.
(** What becomes of an access. *)
Definition new_text (tables : text -> option table_info) (has_perms : bool) (a : acc) : outcome text :=
  match tables (txt "FE" ++ a_name a) with
  | Some t => if ti_const t then Ret (acc_text a)
              else let '(i0, _, i2, i3) := a_sub a in create_new_access_code false (ti_perms t) (ti_funcs t) (ti_name t) i0 i2 i3 has_perms
  | None => Ret (acc_text a)
  end.
Fixpoint written (l : list (acc * text)) : text := match l with [] => [] | (a, p) :: l' => acc_text a ++ p ++ written l' end.
Fixpoint rewritten (new : acc -> outcome text) (l : list (acc * text)) : outcome text :=
  match l with [] => Ret [] | (a, p) :: l' => t <- new a ;; r <- rewritten new l' ;; Ret (t ++ p ++ r) end.

Lemma run_app c u v : all c u -> (forall x v', v = x :: v' -> c x = false) -> run c (u ++ v) = (u, v).
Proof.
  intros H V. induction H as [|x u Hx H IH]; cbn [app run].
  - destruct v as [|y v]; [reflexivity|]. cbn [run]. rewrite (V y v eq_refl). reflexivity.
  - rewrite Hx, IH. reflexivity.
Qed.
Lemma run_spec c s : exists u v, run c s = (u, v) /\ s = u ++ v /\ all c u /\ (forall x v', v = x :: v' -> c x = false).
Proof.
  induction s as [|x s (u & v & E & -> & A & B)]; cbn [run]; [exists [], []; repeat split; [constructor|discriminate]|]. destruct (c x) eqn:C.
  - rewrite E. exists (x :: u), v. repeat split; [constructor; assumption|exact B].
  - exists [], (x :: u ++ v). repeat split; [constructor|]. intros y v' H. injection H as <- _. exact C.
Qed.
Lemma bracket_ok i sp r : subscript i -> all space sp -> no_space r -> (forall x r', r = x :: r' -> True) -> bracket (in_brackets i sp ++ r) = Some (i, r).
Proof.
  intros Hi Hs Hr _. unfold in_brackets. rewrite <- !app_assoc. cbn [txt list_ascii_of_string app bracket]. rewrite Ascii.eqb_refl.
  destruct Hi as [w d Nw Aw Nd Ad|g G1 G2 G3].
  - assert (Sw : run space ((w ++ txt "[" ++ d ++ txt "]") ++ "]"%char :: sp ++ r) = ([], (w ++ txt "[" ++ d ++ txt "]") ++ "]"%char :: sp ++ r)).
    { apply (run_app space []); [constructor|]. intros x v' E. destruct w as [|y w]; [congruence|]. cbn in E. injection E as <- _. inversion Aw as [|? ? H _]; subst.
      destruct y as [[|] [|] [|] [|] [|] [|] [|] [|]]; try reflexivity; discriminate H. }
    cbv zeta. rewrite Sw. cbn [snd]. clear Sw. unfold form1. rewrite <- !app_assoc. cbn [txt list_ascii_of_string app].
    rewrite (run_app word w) by (try exact Aw; intros x v' E; injection E as <- _; reflexivity). destruct w as [|w0 w]; [congruence|]. rewrite Ascii.eqb_refl.
    rewrite (run_app digit d) by (try exact Ad; intros x v' E; injection E as <- _; reflexivity). destruct d as [|d0 d]; [congruence|]. rewrite Ascii.eqb_refl.
    cbn [run snd]. change (space "]"%char) with false. cbn [snd]. rewrite Ascii.eqb_refl, (run_app space sp r Hs Hr). reflexivity.
  - assert (Sg : run space (g ++ "]"%char :: sp ++ r) = ([], g ++ "]"%char :: sp ++ r)).
    { apply (run_app space []); [constructor|]. intros x v' E. destruct g as [|y g]; cbn in E; injection E as <- _; [reflexivity|]. exact (G3 _ _ eq_refl). }
    cbv zeta. rewrite Sg. cbn [snd]. clear Sg.
    assert (F1 : form1 (g ++ "]"%char :: sp ++ r) = None).
    { unfold form1. destruct (run_spec word (g ++ "]"%char :: sp ++ r)) as (u & v & E & Eq & A & B). rewrite E. destruct u as [|u0 u]; [reflexivity|]. destruct v as [|x v]; [reflexivity|].
      destruct (Ascii.eqb_spec x "[") as [->|]; [|reflexivity]. exfalso. revert Eq A G1 G2. clear. generalize (u0 :: u) as w. induction g as [|y g IH]; intros w Eq A G1 G2.
      - destruct w as [|w0 w]; cbn in Eq; injection Eq as Eq _; [discriminate|]. subst w0. inversion A as [|? ? H _]. discriminate H.
      - destruct w as [|w0 w]; cbn in Eq; injection Eq as Eq1 Eq2; [subst y; apply G1; left; reflexivity|]. inversion A as [|? ? _ A']; subst. apply (IH w Eq2 A'); intros X; [apply G1|apply G2]; right; exact X. }
    rewrite F1. unfold form2. rewrite (run_app _ g ("]"%char :: sp ++ r)).
    + rewrite (run_app space sp r Hs Hr). reflexivity.
    + apply Forall_forall. intros x Hx. unfold not_, is. destruct (Ascii.eqb_spec "]" x) as [<-|]; [contradiction|reflexivity].
    + intros x v' E. injection E as <- _. reflexivity.
Qed.
Lemma brackets_no_space i sp r : no_space (in_brackets i sp ++ r).
Proof. intros x p' E. unfold in_brackets in E. cbn in E. injection E as <- _. reflexivity. Qed.
Lemma fe_ok a r : good_acc a -> no_space r -> fe_access (acc_text a ++ r) = Some (a_name a, a_sub a, r).
Proof.
  unfold good_acc, acc_text. destruct (a_sub a) as [[[i0 i1] i2] i3], (a_sp a) as [[[s0 s1] s2] s3]. intros (N & A & S0 & S1 & S2 & S3 & B0 & B1 & B2 & B3) Hr.
  rewrite <- !app_assoc. unfold fe_access. cbn [txt list_ascii_of_string app starts skipn]. rewrite !Ascii.eqb_refl. cbn [andb].
  rewrite (run_app _ (a_name a)).
  - destruct (a_name a) as [|n0 n]; [congruence|].
    pose proof (run_app space [] (in_brackets i0 s0 ++ in_brackets i1 s1 ++ in_brackets i2 s2 ++ in_brackets i3 s3 ++ r) (Forall_nil _) (brackets_no_space _ _ _)) as R0. cbn [app] in R0. rewrite R0. clear R0. cbn [snd].
    rewrite (bracket_ok i0 s0) by (auto using brackets_no_space). rewrite (bracket_ok i1 s1) by (auto using brackets_no_space).
    rewrite (bracket_ok i2 s2) by (auto using brackets_no_space). rewrite (bracket_ok i3 s3) by auto. reflexivity.
  - eapply Forall_impl; [|exact A]. intros x ->. reflexivity.
  - intros x v' E. unfold in_brackets in E. cbn in E. injection E as <- _. reflexivity.
Qed.
Lemma acc_start a : exists t, acc_text a = "F"%char :: "E"%char :: t.
Proof. unfold acc_text. destruct (a_sub a) as [[[? ?] ?] ?], (a_sp a) as [[[? ?] ?] ?]. eexists. reflexivity. Qed.
Lemma starts_FE s : starts (txt "FE") s = true -> exists t, s = "F"%char :: "E"%char :: t.
Proof.
  intros H. destruct s as [|x s]; [discriminate|]. cbn [txt list_ascii_of_string starts] in H. apply andb_true_iff in H as (H1 & H2). apply Ascii.eqb_eq in H1. subst x.
  destruct s as [|y s]; [discriminate|]. apply andb_true_iff in H2 as (H2 & _). apply Ascii.eqb_eq in H2. subst y. eauto.
Qed.
(** Text without FE is copied. *)
Lemma transform_plain tables hp p : no_FE p -> forall w, (w = [] \/ exists t, w = "F"%char :: t) -> forall fuel,
  transform (List.length p + fuel) tables hp (p ++ w) = (r <- transform fuel tables hp w ;; Ret (p ++ r)).
Proof.
  intros N w W fuel. induction p as [|x p IH].
  - cbn [List.length Nat.add app]. destruct (transform fuel tables hp w); reflexivity.
  - cbn [List.length Nat.add app transform].
    assert (F : fe_access (x :: p ++ w) = None).
    { unfold fe_access. destruct (starts (txt "FE") (x :: p ++ w)) eqn:E; [exfalso|reflexivity]. apply starts_FE in E as (t & E). injection E as -> E. destruct p as [|y p].
      - cbn in E. destruct W as [->|(t' & ->)]; discriminate.
      - injection E as -> E. exact (N [] p eq_refl). }
    rewrite F, IH by (intros u v E; apply (N (x :: u) v); rewrite E; reflexivity). destruct (transform fuel tables hp w); reflexivity.
Qed.
Lemma written_start l : written l = [] \/ exists t, written l = "F"%char :: t.
Proof. destruct l as [|(a, p) l]; [left; reflexivity|right]. cbn [written]. destruct (acc_start a) as (t & ->). eexists. reflexivity. Qed.

(** C182: in a text of accesses and of texts without FE between them, every access to a table that varies over the points is replaced by its new text, at
    once; the accesses to other tables and the texts between are kept. The rewriting fails if and only if that of some access does. *)
Theorem C182_rewritten : forall tables has_perms p l, no_FE p -> Forall (fun ap => good_acc (fst ap) /\ no_FE (snd ap) /\ no_space (snd ap ++ txt "F")) l ->
  forall fuel, List.length (p ++ written l) < fuel ->
  transform fuel tables has_perms (p ++ written l) = (r <- rewritten (new_text tables has_perms) l ;; Ret (p ++ r)).
Proof.
  intros tables hp p l Np Hl. revert p Np. induction Hl as [|(a, q) l (Ha & Nq & Sq) Hl IH]; intros p Np fuel L.
  - cbn [written rewritten] in *. rewrite app_nil_r in L |- *. rewrite <- (app_nil_r p) at 1. replace fuel with (List.length p + (fuel - List.length p)) by lia. rewrite transform_plain by auto.
    destruct (fuel - List.length p) eqn:E; [lia|]. reflexivity.
  - cbn [fst snd written rewritten] in *. replace fuel with (List.length p + (fuel - List.length p)) by (rewrite app_length in L; lia).
    rewrite transform_plain; [|exact Np|right; destruct (acc_start a) as (t & ->); eexists; reflexivity].
    rewrite !app_length in L. destruct (fuel - List.length p) as [|f] eqn:Ef; [lia|]. cbn [transform].
    assert (Sr : no_space (q ++ written l)).
    { intros x r' E. destruct q as [|y q]; [|cbn in E; injection E as <- _; exact (Sq y _ eq_refl)]. cbn in E. destruct (written_start l) as [W|(t & W)]; rewrite W in E; [discriminate|]. injection E as <- _. reflexivity. }
    rewrite (fe_ok a _ Ha Sr). destruct (a_sub a) as [[[i0 i1] i2] i3] eqn:Es.
    rewrite app_length, Nat.add_sub, firstn_app, Nat.sub_diag, firstn_all, app_nil_r.
    specialize (IH q Nq f). rewrite app_length in IH. destruct (acc_start a) as (t & Et). assert (La : 2 <= List.length (acc_text a)) by (rewrite Et; cbn; lia).
    rewrite IH by lia. unfold new_text. rewrite Es. destruct (tables (txt "FE" ++ a_name a)) as [ti|]; [destruct (ti_const ti)|].
    + cbn [bind]. destruct (rewritten _ l); cbn [bind]; reflexivity.
    + destruct (create_new_access_code _ _ _ _ _ _ _ _); cbn [bind]; try reflexivity. destruct (rewritten _ l); cbn [bind]; reflexivity.
    + cbn [bind]. destruct (rewritten _ l); cbn [bind]; reflexivity.
Qed.
Print Assumptions C182_rewritten.
(** In a kernel the text before the first loop and all bodies are rewritten so; names, headers, the texts before the other loops and the rest stay. *)
Definition reads_as (tables : text -> option table_info) (has_perms : bool) (s s' : text) : Prop :=
  forall p l, no_FE p -> Forall (fun ap => good_acc (fst ap) /\ no_FE (snd ap) /\ no_space (snd ap ++ txt "F")) l -> s = p ++ written l ->
    exists r, rewritten (new_text tables has_perms) l = Ret r /\ s' = p ++ r.
Lemma transformed_reads tables hp s s' : transformed tables hp s = Ret s' -> reads_as tables hp s s'.
Proof.
  intros H p l Np Hl ->. unfold transformed in H. rewrite C182_rewritten in H by (auto; lia). destruct (rewritten _ l) as [r| | |]; try discriminate. injection H as <-. exists r. auto.
Qed.
Lemma rewrite_bodies_spec tables hp ls r : rewrite_bodies tables hp ls = Ret r ->
  Forall2 (fun l l' => (quad_name l', pre_text l', header l') = (quad_name l, pre_text l, header l) /\ reads_as tables hp (body l) (body l')) ls r.
Proof.
  revert r. induction ls as [|l ls IH]; intros r H; cbn [rewrite_bodies] in H; [injection H as <-; constructor|].
  destruct (transformed tables hp (body l)) as [b| | |] eqn:E; try discriminate. cbn [bind] in H. destruct (rewrite_bodies tables hp ls) as [r'| | |]; try discriminate. injection H as <-.
  constructor; [|apply IH; reflexivity]. cbn. split; [reflexivity|]. apply transformed_reads. exact E.
Qed.
Theorem C182_kernel : forall tables has_perms k k', rewrite_table_accesses tables has_perms k = Ret k' ->
  (before_func k', after_func k', signature k', integral_name k', post_text k') = (before_func k, after_func k, signature k, integral_name k, post_text k)
  /\ match loops k, loops k' with
     | [], [] => True
     | l :: ls, l' :: ls' =>
         (quad_name l', header l') = (quad_name l, header l) /\ reads_as tables has_perms (pre_text l) (pre_text l') /\ reads_as tables has_perms (body l) (body l')
         /\ Forall2 (fun l l' => (quad_name l', pre_text l', header l') = (quad_name l, pre_text l, header l) /\ reads_as tables has_perms (body l) (body l')) ls ls'
     | _, _ => False
     end.
Proof.
  intros tables hp k k' H. unfold rewrite_table_accesses in H. destruct (loops k) as [|l ls] eqn:El; [injection H as <-; split; [reflexivity|rewrite El; exact I]|].
  destruct (transformed tables hp (pre_text l)) as [p| | |] eqn:Ep; try discriminate. cbn [bind] in H. destruct (rewrite_bodies _ _ _) as [r| | |] eqn:Er; try discriminate. injection H as <-.
  split; [reflexivity|]. apply rewrite_bodies_spec in Er. inversion Er as [|? l' ? ls' (A & B) C]; subst. cbn [with_loops loops]. cbn in A, B. injection A as A1 A2 A3.
  split; [congruence|]. split; [rewrite A2; apply transformed_reads; exact Ep|]. split; [exact B|exact C].
Qed.
Print Assumptions C182_kernel.
Definition tables_case (n : text) : option table_info :=
  if list_eq_dec ascii_dec n (txt "FE0_Q083") then Some {| ti_const := false; ti_perms := 1; ti_funcs := 4; ti_name := txt "FE0_Q083" |}
  else if list_eq_dec ascii_dec n (txt "FE1_Q083") then Some {| ti_const := true; ti_perms := 1; ti_funcs := 4; ti_name := txt "FE1_Q083" |} else None.
Definition acc_case (n : string) (i2 : string) (sp : string) : acc := {| a_name := txt n; a_sub := (txt "0", txt "entity_local_index[0]", txt i2, txt "ic"); a_sp := ([], [], [], txt sp) |}.
Example C182_case : transform 1000 tables_case false (txt "A += " ++ written [(acc_case "0_Q083" "iq" " ", txt "* w[FEx] "); (acc_case "1_Q083" "0" "", txt ";")]) = Ret (txt "A += FE0_Q083[4 * iq + ic]* w[FEx] FE1_Q083[0][entity_local_index[0]][0][ic];")
  /\ good_acc (acc_case "0_Q083" "iq" " ") /\ no_FE (txt "A += ") /\ no_space (txt "* w" ++ txt "F").
Proof.
  split; [vm_compute; reflexivity|]. split; [|split].
  - assert (E : subscript (txt "entity_local_index" ++ txt "[" ++ txt "0" ++ txt "]")) by (apply sub_entry; try discriminate; repeat constructor).
    assert (P : forall t, forallb (fun x => negb (space x) && negb (Ascii.eqb "[" x) && negb (Ascii.eqb "]" x)) t = true -> subscript t).
    { intros t H. rewrite forallb_forall in H. apply sub_plain; [intros X; specialize (H _ X); discriminate|intros X; specialize (H _ X); discriminate|].
      intros x g' ->. specialize (H x (or_introl eq_refl)). destruct (space x); [discriminate|reflexivity]. }
    unfold good_acc. cbn [acc_case a_sub a_sp a_name]. split; [discriminate|]. split; [repeat constructor|]. split; [apply P; reflexivity|]. split; [exact E|]. split; [apply P; reflexivity|]. split; [apply P; reflexivity|].
    repeat split; repeat constructor.
  - intros u v E. assert (H : In "F"%char (txt "A += ")) by (rewrite E; apply in_or_app; right; left; reflexivity). cbn in H. intuition discriminate.
  - intros x p' E. injection E as <- _. reflexivity.
Qed.
