(** Lemmas for the general reparameterization: the points inserted by process. *)
From Coq Require Import Reals List Lia Lra Permutation Arith ZArith.
From Verif Require Import M_General S_General S_Mesh S_Roots L_Real L_BBox L_Point L_Mesh L_Roots L_General L_General2.
Import ListNotations.
Local Close Scope Z_scope. Local Close Scope nat_scope. Local Open Scope R_scope.

Lemma foreach_ok {B E} (f : B -> outcome (list E)) (P : B -> list E -> Prop) : forall l, (forall x, In x l -> exists e, f x = Ret e /\ P x e) ->
  exists es, foreach f l = Ret (concat es) /\ Forall2 P l es.
Proof.
  induction l as [|x l IH]; intros H; [exists []; split; [reflexivity|constructor]|]. destruct (H x) as (e & E1 & He); [left; reflexivity|]. destruct IH as (es & E2 & Hs); [intros; apply H; right; assumption|].
  exists (e :: es). cbn [foreach]. rewrite E1. cbn [bind]. rewrite E2. cbn [bind concat]. split; [reflexivity|constructor; assumption].
Qed.

(** What is reparameterized: the volume, the level set, or the facet with coordinate v in direction c. *)
Inductive kind := Vol | Lev | Fac (c : nat) (v : R).

Section Process.
Variables (O : oracles) (range order : nat) (dom : bbox) (K : kind).
Hypothesis HO : sound O range.
Hypothesis Hord : (2 <= order)%nat.
Hypothesis HK : forall c v, K = Fac c v -> lo dom c <= v <= hi dom c.

Definition box_in (b : bbox) : Prop := forall d, (d < range)%nat -> lo dom d <= lo b d /\ hi b d <= hi dom d.
Definition wf_last (l : obj) : Prop :=
  match K with
  | Vol => l_S l = false /\ (range <= l_dim l)%nat
  | Lev => l_S l = true
  | Fac c v => l_S l = false /\ (l_dim l < range)%nat /\ fixed_dirs (l_free l) = [c] /\ exists p, psi_at (l_psi l) 0 = Ret p /\ side_of (l_box l) (nth c (ps_side p) 0%nat) c = v
  end.
Fixpoint wf_stack (lvs : list obj) : Prop :=
  match lvs with
  | [] => True
  | l :: up => wf_obj range l /\ box_in (l_box l) /\ (match up with [] => wf_last l | _ => l_S l = false end) /\ ~ In (l_dir l) (map l_dir up) /\ wf_stack up
  end.
Definition cells_of (refs : refmap) (l : obj) (tid : list nat) (above : list nat -> list (list nat)) : list (list nat) :=
  match find_tid refs tid with
  | None => []
  | Some ref => if l_S l then (if (length (ri_roots (iv_ri ref)) =? 2)%nat then [] else [set_at tid (l_dir l) 0%nat])
                else flat_map (fun i => if nth i (iv_active ref) false then above (set_at tid (l_dir l) i) else []) (seq 0 (length (iv_active ref)))
  end.
Fixpoint cells (lvs : list obj) (refs : list refmap) (tid : list nat) : list (list nat) :=
  match lvs, refs with
  | l :: up, r :: rup => cells_of r l tid (fun t => match up with [] => [t] | _ => cells up rup t end)
  | _, _ => []
  end.
Definition proj (p : list nat) : list nat := match K with Fac c _ => remove_component c p | _ => p end.
Fixpoint ptset (lvs : list obj) (ptid : list nat) : list (list nat) :=
  match lvs with
  | [] => []
  | l :: up => if l_S l then [remove_component (l_dir l) ptid]
               else flat_map (fun j => match up with [] => [proj (set_at ptid (l_dir l) j)] | _ => ptset up (set_at ptid (l_dir l) j) end) (seq 0 order)
  end.
Definition final (x : list R) : Prop := length x = range /\ (forall d, (d < range)%nat -> lo dom d <= nth d x 0 <= hi dom d) /\ forall c v, K = Fac c v -> nth c x 0 = v.
Definition complete (evs : list event) (cs ps : list (list nat)) : Prop :=
  Forall (fun e => exists t p x, e = Insert t p x /\ In t cs /\ In p ps /\ final x) evs /\
  (forall t p, In t cs -> In p ps -> exists x, In (Insert t p x) evs) /\ (K <> Lev -> length evs = length cs * length ps)%nat.

Lemma complete_nil ps : complete [] [] ps.
Proof. split; [constructor|]. split; [intros t p []|reflexivity]. Qed.
Lemma complete_pts {J} (g : J -> list (list nat)) cs : forall js es, Forall2 (fun j e => complete e cs (g j)) js es -> complete (concat es) cs (flat_map g js).
Proof.
  induction 1 as [|j e js es (H1 & H2 & H3) _ (I1 & I2 & I3)]; cbn [concat flat_map].
  - split; [constructor|]. split; [intros t p _ []|intros _; cbn; lia].
  - split; [|split].
    + apply Forall_app. split; [eapply Forall_impl; [|exact H1]|eapply Forall_impl; [|exact I1]]; intros ev (t & p & x & E & Ht & Hp & Hf); exists t, p, x; (split; [exact E|split; [exact Ht|split; [apply in_or_app; auto|exact Hf]]]).
    + intros t p Ht Hp. apply in_app_or in Hp as [Hp|Hp]; [destruct (H2 t p Ht Hp) as [x Hx]|destruct (I2 t p Ht Hp) as [x Hx]]; exists x; apply in_or_app; auto.
    + intros HL. rewrite !app_length, H3, I3 by exact HL. lia.
Qed.
Lemma complete_cells {J} (g : J -> list (list nat)) ps : forall js es, Forall2 (fun j e => complete e (g j) ps) js es -> complete (concat es) (flat_map g js) ps.
Proof.
  induction 1 as [|j e js es (H1 & H2 & H3) _ (I1 & I2 & I3)]; cbn [concat flat_map].
  - split; [constructor|]. split; [intros t p []|intros _; reflexivity].
  - split; [|split].
    + apply Forall_app. split; [eapply Forall_impl; [|exact H1]|eapply Forall_impl; [|exact I1]]; intros ev (t & p & x & E & Ht & Hp & Hf); exists t, p, x; (split; [exact E|split; [apply in_or_app; auto|split; [exact Hp|exact Hf]]]).
    + intros t p Ht Hp. apply in_app_or in Ht as [Ht|Ht]; [destruct (H2 t p Ht Hp) as [x Hx]|destruct (I2 t p Ht Hp) as [x Hx]]; exists x; apply in_or_app; auto.
    + intros HL. rewrite !app_length, H3, I3 by exact HL. lia.
Qed.
Lemma node_in j : (j < order)%nat -> 0 <= node01 (o_cheb O) order j <= 1.
Proof.
  intros Hj. unfold node01. destruct (use_chebyshev order); [apply (s_cheb O range HO); exact Hj|]. assert (1 <= INR (order - 1)) by (apply (le_INR 1); lia). assert (INR j <= INR (order - 1)) by (apply le_INR; lia). pose proof (pos_INR j).
  split; [apply Rmult_le_pos; [lra|left; apply Rinv_0_lt_compat; lra]|]. apply (Rmult_le_reg_r (INR (order - 1))); [lra|]. unfold Rdiv. rewrite Rmult_assoc, Rinv_l by lra. lra.
Qed.
Definition fixed_coord (d : nat) : Prop := exists v, K = Fac d v.
Definition prepared (lvs : list obj) (pt : list R) : Prop :=
  length pt = range /\ forall d, (d < range)%nat -> In d (map l_dir lvs) \/ fixed_coord d \/ lo dom d <= nth d pt 0 <= hi dom d.
Lemma prepared_set l up pt x : wf_obj range l -> box_in (l_box l) -> inside l x -> prepared (l :: up) pt -> prepared up (set_at pt (l_dir l) x).
Proof.
  intros W B [Hx0 Hx1] [Hl Hp]. split; [rewrite set_at_length; exact Hl|]. intros d Hd. rewrite set_at_nth. destruct (Nat.eqb_spec (l_dir l) d) as [<-|Ne].
  - right. right. destruct (Nat.ltb_spec (l_dir l) (length pt)); [|lia]. specialize (B _ Hd). unfold X0, X1 in *. lra.
  - destruct (Hp d Hd) as [[Hd'|Hd']|Hd']; [contradiction|left; exact Hd'|right; exact Hd'].
Qed.
Lemma between l x0 x1 t : inside l x0 -> inside l x1 -> 0 <= t <= 1 -> inside l (x0 + (x1 - x0) * t).
Proof. unfold inside. intros [A1 A2] [B1 B2] [T0 T1]. assert (E : x0 + (x1 - x0) * t = x0 * (1 - t) + x1 * t) by ring. rewrite E. split; nra. Qed.
Lemma prepared_final pt : prepared [] pt -> (forall c v, K <> Fac c v) -> final pt.
Proof. intros [Hl Hp] HN. split; [exact Hl|]. split; [|intros c v E; destruct (HN c v E)]. intros d Hd. destruct (Hp d Hd) as [[]|[[v E]|H]]; [destruct (HN d v E)|exact H]. Qed.
Lemma restrict_nth free b p pt d : length free = length pt -> (d < length pt)%nat -> nth d (restrict free b p pt) 0 = if nth d free true then nth d pt 0 else side_of b (nth d (ps_side p) 0%nat) d.
Proof. intros H Hd. unfold restrict. rewrite (map3_nth _ 0%nat true 0 0) by (rewrite ?seq_length; lia). rewrite seq_nth by lia. reflexivity. Qed.
Lemma restrict_length free b p pt : length free = length pt -> length (restrict free b p pt) = length pt.
Proof. intros H. unfold restrict. rewrite map3_length; rewrite ?seq_length; lia. Qed.
Lemma fixed_dirs_in free d : In d (fixed_dirs free) <-> (d < length free)%nat /\ nth d free true = false.
Proof. unfold fixed_dirs. rewrite filter_In, in_seq, negb_true_iff. split; intros [H1 H2]; split; try lia; assumption. Qed.
Lemma face_final l c v p pt : K = Fac c v -> wf_obj range l -> fixed_dirs (l_free l) = [c] -> side_of (l_box l) (nth c (ps_side p) 0%nat) c = v -> prepared [] pt -> final (set_psi_bounds l p pt).
Proof.
  intros EK W Hf Hv [Hl Hp]. unfold set_psi_bounds. pose proof (wf_free _ _ W) as Lf. assert (Hc : nth c (restrict (l_free l) (l_box l) p pt) 0 = v /\ (c < range)%nat).
  { assert (In c (fixed_dirs (l_free l))) as Hin by (rewrite Hf; left; reflexivity). apply fixed_dirs_in in Hin as [H1 H2]. rewrite restrict_nth by lia. rewrite H2. split; [exact Hv|lia]. }
  destruct Hc as [Hc Hcr]. split; [rewrite restrict_length; lia|]. split.
  - intros d Hd. destruct (Nat.eq_dec d c) as [->|Ne]; [rewrite Hc; apply (HK c v EK)|]. rewrite restrict_nth by lia. destruct (nth d (l_free l) true) eqn:E.
    + destruct (Hp d Hd) as [[]|[[w Ew]|H]]; [congruence|exact H].
    + assert (In d (fixed_dirs (l_free l))) as Hin by (apply fixed_dirs_in; split; [lia|exact E]). rewrite Hf in Hin. destruct Hin as [->|[]]. contradiction.
  - intros c' v' E. rewrite EK in E. injection E as <- <-. exact Hc.
Qed.

Lemma process_ok : forall lvs refs pt tid ptid, lvs <> [] -> wf_stack lvs -> closed lvs refs -> hasref refs tid -> prepared lvs pt ->
  exists evs, process O range order lvs refs pt tid ptid = Ret evs /\ complete evs (cells lvs refs tid) (ptset lvs ptid).
Proof.
  induction lvs as [|l up IH]; intros refs pt tid ptid Hne W C Hr Hp; [congruence|]. destruct refs as [|r rup]; [destruct C|]. destruct W as (Wl & Bl & Wu & Hdir & Ws). destruct C as [Cr Cu]. cbn [hasref] in Hr.
  destruct (find_tid r tid) as [ref|] eqn:Er; [|congruence]. destruct (Cr tid ref Er) as [Cg Ch]. destruct (intervals_ok O range HO l r tid ref pt Wl Er Cg) as (iv & Ei & Fi & Li).
  cbn [process cells ptset]. unfold cells_of. rewrite Er, Ei. cbn [bind]. destruct (l_S l) eqn:ES.
  - eexists. split; [reflexivity|]. assert (EK : K = Lev). { destruct up; [|discriminate]. unfold wf_last in Wu. clear HK. destruct K; [destruct Wu; congruence|reflexivity|destruct Wu; congruence]. }
    assert (Hup : up = []) by (destruct up; [reflexivity|discriminate]). subst up.
    assert (Hn : (2 <= length (ri_roots (iv_ri ref)))%nat). { destruct Cg as [(mid & -> & _) _]. cbn [ent ri_roots]. rewrite map_length, full_len. lia. }
    destruct (Nat.eqb_spec (length (ri_roots (iv_ri ref))) 2) as [E2|E2].
    + rewrite E2 in Li. destruct (ri_roots (iv_ri iv)); [|discriminate]. cbn [map]. apply complete_nil.
    + split; [|split; [|congruence]].
      * rewrite Forall_forall. intros e He. apply in_map_iff in He as (root & <- & Hroot). rewrite Forall_forall in Fi. specialize (Fi _ Hroot). eexists _, _, _. split; [reflexivity|]. split; [left; reflexivity|]. split; [left; reflexivity|].
        apply prepared_final; [apply prepared_set; assumption|intros c v; congruence].
      * intros t p [<- | []] [<- | []]. destruct (ri_roots (iv_ri iv)) as [|root roots]; [cbn in Li; lia|]. exists (set_at pt (l_dir l) root). left. reflexivity.
  - destruct Li as [Lr La]. rewrite La.
    assert (Hlen : forall i, (i < length (iv_active ref))%nat -> (S i < length (ri_roots (iv_ri iv)))%nat) by (intros i Hi; destruct Cg as [_ G]; rewrite G, ES in Hi; lia).
    match goal with |- exists evs, foreach ?f ?ll = _ /\ _ =>
      destruct (foreach_ok f (fun i e => complete e (if nth i (iv_active ref) false then (fun t => match up with [] => [t] | _ => cells up rup t end) (set_at tid (l_dir l) i) else [])
         (flat_map (fun j => match up with [] => [proj (set_at ptid (l_dir l) j)] | _ => ptset up (set_at ptid (l_dir l) j) end) (seq 0 order))) ll) as (es & Ee & Hes) end;
    [|exists (concat es); split; [exact Ee|apply complete_cells; exact Hes]].
    intros i Hi. apply in_seq in Hi. rewrite (L_Mesh.at_ok (iv_active ref) i false) by lia. cbn [bind]. destruct (nth i (iv_active ref) false) eqn:Ea; [|exists []; split; [reflexivity|apply complete_nil]].
    assert (Han : nth_error (iv_active ref) i = Some true) by (destruct (nth_error (iv_active ref) i) eqn:E; [apply nth_error_nth with (d := false) in E; congruence|apply nth_error_None in E; lia]).
    specialize (Hlen i ltac:(lia)). rewrite (L_Mesh.at_ok _ i 0) by lia. cbn [bind]. rewrite (L_Mesh.at_ok _ (S i) 0) by lia. cbn [bind].
    set (x0 := nth i (ri_roots (iv_ri iv)) 0). set (x1 := nth (S i) (ri_roots (iv_ri iv)) 0).
    assert (I0 : inside l x0) by (rewrite Forall_forall in Fi; apply Fi, nth_In; lia). assert (I1 : inside l x1) by (rewrite Forall_forall in Fi; apply Fi, nth_In; lia).
    match goal with |- exists e, foreach ?f ?s = _ /\ _ =>
      destruct (foreach_ok f (fun j e => complete e (match up with [] => [set_at tid (l_dir l) i] | _ => cells up rup (set_at tid (l_dir l) i) end)
         (match up with [] => [proj (set_at ptid (l_dir l) j)] | _ => ptset up (set_at ptid (l_dir l) j) end)) s) as (fs & Ef & Hfs) end;
    [|exists (concat fs); split; [exact Ef|apply complete_pts; exact Hfs]].
    intros j Hj. apply in_seq in Hj. set (pt' := set_at pt (l_dir l) (x0 + (x1 - x0) * node01 (o_cheb O) order j)).
    assert (Hp' : prepared up pt') by (apply prepared_set; [exact Wl|exact Bl| |exact Hp]; apply between; [exact I0|exact I1|apply node_in; lia]).
    destruct up as [|u up].
    + unfold wf_last in Wu. assert (One : forall p x, final x -> complete [Insert (set_at tid (l_dir l) i) p x] [set_at tid (l_dir l) i] [p]).
      { intros p x Hx. split; [constructor; [|constructor]; eexists _, _, _; split; [reflexivity|split; [left; reflexivity|split; [left; reflexivity|exact Hx]]]|]. split; [|intros _; reflexivity].
        intros t q [<- | []] [<- | []]. exists x. left. reflexivity. }
      assert (HC : K = Vol \/ K = Lev \/ exists c v, K = Fac c v) by (clear; destruct K; eauto 6). destruct HC as [EK|[EK|(c & v & EK)]]; rewrite EK in Wu.
      * destruct Wu as [_ Hd]. destruct (Nat.ltb_spec (l_dim l) range); [lia|]. eexists. split; [reflexivity|]. unfold proj. rewrite EK. apply One. apply prepared_final; [exact Hp'|intros; congruence].
      * congruence.
      * destruct Wu as (_ & Hd & Hf & p & Ep & Hv). destruct (Nat.ltb_spec (l_dim l) range); [|lia]. rewrite Hf. cbn [rev app]. rewrite Ep. cbn [bind]. eexists. split; [reflexivity|]. unfold proj. rewrite EK.
        apply One. eapply face_final; eassumption.
    + apply IH; [discriminate|exact Ws|exact Cu|apply Ch; exact Han|exact Hp'].
Qed.

(** The cells are different. *)
Lemma cells_keep : forall lvs refs tid t d, In t (cells lvs refs tid) -> length t = length tid /\ (~ In d (map l_dir lvs) -> nth d t 0%nat = nth d tid 0%nat).
Proof.
  induction lvs as [|l up IH]; intros [|r rup] tid t d H; cbn [cells] in H; try contradiction. unfold cells_of in H. destruct (find_tid r tid) as [ref|]; [|contradiction].
  assert (S1 : forall i, length (set_at tid (l_dir l) i) = length tid /\ (l_dir l <> d -> nth d (set_at tid (l_dir l) i) 0%nat = nth d tid 0%nat)).
  { intros i. split; [apply set_at_length|]. intros N. rewrite set_at_nth. destruct (Nat.eqb_spec (l_dir l) d); [contradiction|reflexivity]. }
  destruct (l_S l).
  - destruct (_ =? _)%nat; [contradiction|]. destruct H as [<- | []]. destruct (S1 0%nat) as [A B]. split; [exact A|]. intros N. apply B. intros E. apply N. left. exact E.
  - apply in_flat_map in H as (i & Hi & H). destruct (nth i (iv_active ref) false); [|contradiction]. destruct (S1 i) as [A B]. destruct up as [|u up].
    + destruct H as [<- | []]. split; [exact A|]. intros N. apply B. intros E. apply N. left. exact E.
    + destruct (IH rup _ t d H) as [C D]. split; [congruence|]. intros N. rewrite D by (intros E; apply N; right; exact E). apply B. intros E. apply N. left. exact E.
Qed.
Lemma nodup_flat {A B} (f : A -> list B) (g : B -> A) : forall l, NoDup l -> (forall a, In a l -> NoDup (f a)) -> (forall a b, In a l -> In b (f a) -> g b = a) -> NoDup (flat_map f l).
Proof.
  induction l as [|a l IH]; intros N H G; [constructor|]. cbn [flat_map]. inversion N as [|? ? Na Nl]; subst.
  assert (IH' : NoDup (flat_map f l)) by (apply IH; [exact Nl|intros; apply H; right; assumption|intros; apply G; [right; assumption|assumption]]).
  assert (Hd : forall b, In b (f a) -> ~ In b (flat_map f l)).
  { intros b Hb Hb'. apply in_flat_map in Hb' as (a' & Ha' & Hb'). assert (E := G a b (or_introl eq_refl) Hb). assert (E' := G a' b (or_intror Ha') Hb'). apply Na. rewrite <- E, E'. exact Ha'. }
  assert (Nf := H a (or_introl eq_refl)). clear - IH' Hd Nf. induction (f a) as [|b bs IHb]; [exact IH'|]. inversion Nf; subst. cbn [app]. constructor; [|apply IHb; [intros; apply Hd; right; assumption|assumption]].
  intros Hin. apply in_app_or in Hin as [Hin|Hin]; [contradiction|]. apply (Hd b); [left; reflexivity|exact Hin].
Qed.
Lemma cells_nodup : forall lvs refs tid, wf_stack lvs -> length tid = range -> NoDup (cells lvs refs tid).
Proof.
  induction lvs as [|l up IH]; intros [|r rup] tid W Ht; cbn [cells]; try constructor. destruct W as (Wl & _ & _ & Hdir & Ws). unfold cells_of. destruct (find_tid r tid) as [ref|]; [|constructor].
  destruct (l_S l); [destruct (_ =? _)%nat; repeat constructor; intros []|].
  apply (nodup_flat _ (fun t => nth (l_dir l) t 0%nat)); [apply seq_NoDup| |].
  - intros i _. destruct (nth i (iv_active ref) false); [|constructor]. destruct up; [repeat constructor; intros []|]. apply IH; [exact Ws|rewrite set_at_length; exact Ht].
  - intros i t _ H. destruct (nth i (iv_active ref) false); [|contradiction].
    assert (E : nth (l_dir l) (set_at tid (l_dir l) i) 0%nat = i) by (rewrite set_at_nth, Nat.eqb_refl; destruct (Nat.ltb_spec (l_dir l) (length tid)); [reflexivity|pose proof (wf_dir _ _ Wl); lia]).
    destruct up as [|u up]; [destruct H as [<- | []]; exact E|]. destruct (cells_keep _ _ _ t (l_dir l) H) as [_ D]. rewrite D by exact Hdir. exact E.
Qed.
End Process.
