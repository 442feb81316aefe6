(** Lemmas for the general reparameterization: every point of every cell is inserted. *)
From Coq Require Import Reals List Lia Lra Permutation Arith ZArith.
From Verif Require Import M_General S_General S_Mesh S_Roots L_Real L_BBox L_Point L_TensorNat L_Mesh L_Mesh2 L_Mesh5 L_Roots L_General L_General2 L_General3 L_General4.
Import ListNotations.
Local Close Scope Z_scope. Local Close Scope R_scope. Local Open Scope nat_scope.

(** ** scatter *)
Definition trues (sel : list bool) : nat := count_occ Bool.bool_dec sel true.
Lemma scatter_length {A B} (f : nat -> A -> B) : forall sel d sub def, length sel = length def -> length (scatter f d sel sub def) = length def.
Proof. induction sel as [|[] sel IH]; intros d sub [|b def] H; cbn in *; try discriminate; try reflexivity; [destruct sub; cbn; rewrite IH by lia; reflexivity|rewrite IH by lia; reflexivity]. Qed.
Lemma scatter_nth {A B} (f : nat -> A -> B) db : forall sel d sub def e, length sel = length def -> length sub = trues sel ->
  e < length def -> if nth e sel false then exists a, In a sub /\ nth e (scatter f d sel sub def) db = f (d + e) a else nth e (scatter f d sel sub def) db = nth e def db.
Proof.
  induction sel as [|s sel IH]; intros d sub [|b def] e H Hs He; cbn [length] in *; try discriminate; try lia. unfold trues in *. destruct s; cbn [count_occ] in Hs; destruct (Bool.bool_dec _ true) as [Eb|Eb] in Hs; try congruence.
  - destruct sub as [|a sub]; [discriminate|]. cbn [length] in Hs. destruct e as [|e]; cbn [scatter nth].
    + exists a. rewrite Nat.add_0_r. split; [left; reflexivity|reflexivity].
    + specialize (IH (S d) sub def e ltac:(lia) ltac:(lia) ltac:(lia)). destruct (nth e sel false); [|exact IH]. destruct IH as (a' & Ha & E). exists a'. split; [right; exact Ha|]. rewrite E. f_equal. lia.
  - destruct e as [|e]; cbn [scatter nth]; [reflexivity|]. specialize (IH (S d) sub def e ltac:(lia) ltac:(lia) ltac:(lia)). destruct (nth e sel false); [|exact IH]. destruct IH as (a' & Ha & E). exists a'. split; [exact Ha|]. rewrite E. f_equal. lia.
Qed.
Fixpoint gather (sel : list bool) (q : list nat) : list nat :=
  match sel, q with true :: sel', x :: q' => x :: gather sel' q' | false :: sel', _ :: q' => gather sel' q' | _, _ => [] end.
Lemma gather_length : forall sel q, length sel = length q -> length (gather sel q) = trues sel.
Proof. unfold trues. induction sel as [|[] sel IH]; intros [|x q] H; cbn in *; try discriminate; try reflexivity; rewrite ?IH by lia; reflexivity. Qed.
Lemma gather_in : forall sel q x, In x (gather sel q) -> exists e, e < length q /\ nth e sel false = true /\ x = nth e q 0.
Proof.
  induction sel as [|[] sel IH]; intros [|y q] x H; cbn in H; try contradiction.
  - destruct H as [<-|H]; [exists 0; cbn; repeat split; lia|]. destruct (IH _ _ H) as (e & E1 & E2 & E3). exists (S e). cbn. repeat split; [lia|assumption|assumption].
  - destruct (IH _ _ H) as (e & E1 & E2 & E3). exists (S e). cbn. repeat split; [lia|assumption|assumption].
Qed.
Lemma scatter_gather : forall sel d q def e, length sel = length q -> length def = length q -> e < length q ->
  nth e (scatter (fun (_ i : nat) => i) d sel (gather sel q) def) 0 = if nth e sel false then nth e q 0 else nth e def 0.
Proof.
  induction sel as [|[] sel IH]; intros d [|x q] [|b def] e H1 H2 H3; cbn [length] in *; try discriminate; try lia; cbn [gather scatter]; destruct e as [|e]; cbn [nth]; try reflexivity; apply IH; lia.
Qed.

(** ** remove_component *)
Lemma remove_len {A} : forall (l : list A) k, k < length l -> length (remove_component k l) = length l - 1.
Proof. induction l as [|x l IH]; intros [|k] H; cbn in *; try lia. rewrite IH by lia. destruct l; cbn in *; lia. Qed.
Lemma remove_elem : forall (l : list nat) k x, In x (remove_component k l) -> exists d, d <> k /\ d < length l /\ x = nth d l 0.
Proof.
  induction l as [|y l IH]; intros [|k] x H; cbn in H; try contradiction.
  - apply (In_nth _ _ 0) in H as (d & Hd & <-). exists (S d). cbn. repeat split; lia.
  - destruct H as [<-|H]; [exists 0; cbn; repeat split; lia|]. destruct (IH k x H) as (d & D1 & D2 & D3). exists (S d). cbn. repeat split; [lia|lia|exact D3].
Qed.
Fixpoint ins0 (k : nat) (l : list nat) : list nat := match k, l with 0, _ => 0 :: l | S k', x :: l' => x :: ins0 k' l' | S _, [] => [0] end.
Lemma ins0_length : forall k l, length (ins0 k l) = S (length l).
Proof. induction k as [|k IH]; intros [|x l]; cbn; try reflexivity. rewrite IH. reflexivity. Qed.
Lemma ins0_remove : forall k l, k <= length l -> remove_component k (ins0 k l) = l.
Proof. induction k as [|k IH]; intros [|x l] H; cbn in *; try reflexivity; try lia. rewrite IH by lia. reflexivity. Qed.
Lemma ins0_in : forall k l x, In x (ins0 k l) -> x = 0 \/ In x l.
Proof. induction k as [|k IH]; intros [|y l] x H; cbn in *; [intuition|intuition|intuition|]. destruct H as [H|H]; [auto|]. destruct (IH l x H); auto. Qed.

Section Leaf.
Variables (O : oracles) (range order : nat) (dom : bbox) (K : kind).
Hypothesis HO : sound O range.
Hypothesis Hord : 2 <= order.
Hypothesis HK : forall c v, K = Fac c v -> (lo dom c <= v <= hi dom c)%R.

Definition mdim : nat := match K with Vol => range | _ => range - 1 end.
Fixpoint vars (lvs : list obj) : list nat := match lvs with [] => [] | l :: up => if l_S l then [] else l_dir l :: vars up end.
Fixpoint outp (lvs : list obj) (q : list nat) : list nat :=
  match lvs with
  | [] => q
  | l :: up => if l_S l then remove_component (l_dir l) q else match up with [] => proj K q | _ => outp up q end
  end.
Lemma ptset_in : forall lvs ptid p, lvs <> [] -> wf_stack range dom K lvs -> length ptid = range ->
  (In p (ptset order K lvs ptid) <-> exists q, length q = range /\ (forall d, In d (vars lvs) -> nth d q 0 < order) /\ (forall d, d < range -> ~ In d (vars lvs) -> nth d q 0 = nth d ptid 0) /\ p = outp lvs q).
Proof.
  induction lvs as [|l up IH]; intros ptid p Hne W Hl; [congruence|]. destruct W as (Wl & _ & Wu & Hdir & Ws). cbn [ptset vars outp]. pose proof (wf_dir _ _ Wl) as Hd. destruct (l_S l) eqn:ES.
  - split.
    + intros [<-|[]]. exists ptid. repeat split; [exact Hl|intros d []].
    + intros (q & L & _ & Q & ->). left. f_equal. apply (nth_ext _ _ 0 0); [congruence|]. intros d Hdd. symmetry. apply Q; [lia|intros []].
  - rewrite in_flat_map. split.
    + intros (j & Hj & H). apply in_seq in Hj. set (pt' := set_at ptid (l_dir l) j) in *.
      assert (Hpt : nth (l_dir l) pt' 0 = j) by (unfold pt'; rewrite set_at_nth, Nat.eqb_refl; destruct (Nat.ltb_spec (l_dir l) (length ptid)); [reflexivity|lia]).
      assert (Hoth : forall d, d <> l_dir l -> nth d pt' 0 = nth d ptid 0) by (intros d Nd; unfold pt'; rewrite set_at_nth; destruct (Nat.eqb_spec (l_dir l) d); [congruence|reflexivity]).
      assert (Lp : length pt' = range) by (unfold pt'; rewrite set_at_length; exact Hl).
      destruct up as [|u up].
      * destruct H as [<-|[]]. exists pt'. split; [exact Lp|]. split; [intros d [<-|[]]; rewrite Hpt; lia|]. split; [|reflexivity]. intros d _ Nd. apply Hoth. intros ->. apply Nd. left. reflexivity.
      * apply IH in H; [|discriminate|exact Ws|exact Lp]. destruct H as (q & Lq & Q1 & Q2 & ->).
        assert (Qd : nth (l_dir l) q 0 = j). { rewrite Q2; [exact Hpt|exact Hd|]. intros Hin. apply Hdir. clear - Hin. revert Hin. generalize (u :: up). intros ls. induction ls as [|a ls IHl]; cbn; [auto|]. destruct (l_S a); [intros []|]. intros [E|E]; auto. }
        exists q. split; [exact Lq|]. split; [intros d [<-|Hin]; [rewrite Qd; lia|apply Q1; exact Hin]|]. split; [|reflexivity]. intros d Hd' Nd. rewrite Q2; [apply Hoth; intros ->; apply Nd; left; reflexivity|exact Hd'|intros Hin; apply Nd; right; exact Hin].
    + intros (q & Lq & Q1 & Q2 & ->). exists (nth (l_dir l) q 0). split; [apply in_seq; split; [lia|apply Q1; left; reflexivity]|]. set (pt' := set_at ptid (l_dir l) (nth (l_dir l) q 0)).
      assert (Hpt : forall d, d < range -> (d = l_dir l \/ ~ In d (l_dir l :: vars up)) -> nth d q 0 = nth d pt' 0).
      { intros d Hd' H. unfold pt'. rewrite set_at_nth. destruct (Nat.eqb_spec (l_dir l) d) as [<-|Nd]; [destruct (Nat.ltb_spec (l_dir l) (length ptid)); [reflexivity|lia]|]. destruct H as [H|H]; [congruence|apply Q2; assumption]. }
      assert (Lp : length pt' = range) by (unfold pt'; rewrite set_at_length; exact Hl).
      destruct up as [|u up].
      * left. f_equal. apply (nth_ext _ _ 0 0); [congruence|]. intros d Hd'. symmetry. apply Hpt; [lia|]. destruct (Nat.eq_dec d (l_dir l)) as [->|Nd]; [left; reflexivity|right; intros [E|[]]; congruence].
      * apply IH; [discriminate|exact Ws|exact Lp|]. exists q. split; [exact Lq|]. split; [intros d Hin; apply Q1; right; exact Hin|]. split; [|reflexivity]. intros d Hd' Nd. apply Hpt; [exact Hd'|]. destruct (Nat.eq_dec d (l_dir l)) as [->|Nd']; [left; reflexivity|]. right. intros [E|E]; [congruence|contradiction].
Qed.
(** The direction of a point that is not an index: that of the facet or the one where the roots are. *)
Fixpoint special (lvs : list obj) : option nat :=
  match lvs with [] => None | l :: up => if l_S l then Some (l_dir l) else match up with [] => match K with Fac c _ => Some c | _ => None end | _ => special up end end.
Definition cover (lvs : list obj) (sel : list bool) : Prop :=
  (forall d, d < range -> special lvs = Some d \/ In d (vars lvs) \/ nth d sel false = true) /\ (forall d, special lvs = Some d -> d < range /\ nth d sel false = false /\ ~ In d (vars lvs)).
Lemma vars_dirs : forall lvs d, In d (vars lvs) -> In d (map l_dir lvs).
Proof. induction lvs as [|l up IH]; intros d H; cbn in *; [exact H|]. destruct (l_S l); [contradiction|]. destruct H; auto. Qed.
Lemma outp_special : forall lvs q, lvs <> [] -> wf_stack range dom K lvs -> match special lvs with Some s => outp lvs q = remove_component s q /\ mdim = range - 1 | None => outp lvs q = q /\ mdim = range end.
Proof.
  induction lvs as [|l up IH]; intros q Hne W; [congruence|]. destruct W as (Wl & _ & Wu & Hdir & Ws). cbn [special outp]. destruct (l_S l) eqn:ES.
  - assert (up = []) by (destruct up; [reflexivity|discriminate]). subst up. split; [reflexivity|]. unfold wf_last in Wu. unfold mdim. destruct K; try reflexivity. destruct Wu. congruence.
  - destruct up as [|u up]; [|apply IH; [discriminate|exact Ws]]. unfold wf_last in Wu. unfold proj, mdim. destruct K; try (split; reflexivity). congruence.
Qed.
Lemma trues_len sub sel n : trues sel = n -> In sub (tp_all (tp_const n order)) -> length sub = trues sel /\ forall a, In a sub -> a < order.
Proof.
  intros E H. apply is_index_all in H as [L F]. split; [congruence|]. rewrite Forall_forall in F. exact F.
Qed.
Lemma cover_index lvs sel n p : lvs <> [] -> wf_stack range dom K lvs -> length sel = range -> trues sel = n -> cover lvs sel ->
  In p (flat_map (fun sub => ptset order K lvs (scatter (fun _ i => i) 0 sel sub (tp_const range 0))) (tp_all (tp_const n order))) <-> is_index mdim order p.
Proof.
  intros Hne W Hs Ht [C1 C2]. rewrite in_flat_map. assert (Lz : length (tp_const range 0) = range) by (unfold tp_const; apply repeat_length).
  assert (Hout := fun q => outp_special lvs q Hne W). split.
  - intros (sub & Hsub & H). destruct (trues_len _ _ _ Ht Hsub) as [T1 T2]. apply ptset_in in H; [|exact Hne|exact W|rewrite scatter_length; rewrite Lz; auto]. destruct H as (q & Lq & Q1 & Q2 & ->).
    assert (Q : forall d, d < range -> special lvs = Some d \/ nth d q 0 < order).
    { intros d Hd. destruct (C1 d Hd) as [S1|[S1|S1]]; [left; exact S1|right; apply Q1; exact S1|]. right. destruct (in_dec Nat.eq_dec d (vars lvs)) as [Hin|Hn]; [apply Q1; exact Hin|]. rewrite Q2 by assumption.
      pose proof (scatter_nth (fun (_ i : nat) => i) 0 sel 0 sub (tp_const range 0) d ltac:(lia) T1 ltac:(lia)) as X. rewrite S1 in X. destruct X as (a & Ha & ->). apply T2. exact Ha. }
    specialize (Hout q). destruct (special lvs) as [s|] eqn:Es; destruct Hout as [-> ->].
    + destruct (C2 s eq_refl) as (Hsr & _). split; [rewrite remove_len; lia|]. rewrite Forall_forall. intros x Hx. apply remove_elem in Hx as (d & D1 & D2 & ->). destruct (Q d ltac:(lia)) as [E|E]; [congruence|exact E].
    + split; [exact Lq|]. rewrite Forall_forall. intros x Hx. apply (In_nth _ _ 0) in Hx as (d & D1 & <-). destruct (Q d ltac:(lia)) as [E|E]; [congruence|exact E].
  - intros [Lp Fp]. rewrite Forall_forall in Fp.
    assert (Hq : exists q, length q = range /\ (forall x, In x q -> x < order) /\ (forall s, special lvs = Some s -> nth s q 0 = 0) /\ outp lvs q = p).
    { destruct (special lvs) as [s|] eqn:Es.
      - destruct (C2 s eq_refl) as (Hsr & _). exists (ins0 s p). destruct (Hout (ins0 s p)) as [-> Em]. rewrite Em in Lp. split; [rewrite ins0_length; lia|]. split; [intros x Hx; destruct (ins0_in _ _ _ Hx) as [->|Hx']; [lia|auto]|].
        split; [|apply ins0_remove; lia]. intros s' [= <-]. clear - Lp Hsr. assert (s <= length p) by lia. clear Hsr Lp. revert p H. induction s as [|s IH]; intros [|x p] H; cbn in *; try lia; auto. apply IH. lia.
      - exists p. destruct (Hout p) as [-> Em]. split; [congruence|]. split; [exact Fp|]. split; [intros; discriminate|reflexivity]. }
    destruct Hq as (q & Lq & Q1 & Q2 & <-). exists (gather sel q). split.
    + apply is_index_all. split; [rewrite gather_length by lia; exact Ht|]. rewrite Forall_forall. intros x Hx. apply gather_in in Hx as (e & E1 & E2 & ->). apply Q1, nth_In. exact E1.
    + apply ptset_in; [exact Hne|exact W|rewrite scatter_length; rewrite Lz; auto|]. exists q. split; [exact Lq|]. split; [|split; [|reflexivity]].
      * intros d Hd. assert (d < range). { apply vars_dirs in Hd. clear - Hd W. induction lvs as [|l up IH]; [contradiction|]. destruct W as (Wl & _ & _ & _ & Ws). destruct Hd as [<-|Hd]; [apply (wf_dir _ _ Wl)|apply IH; assumption]. } apply Q1, nth_In. lia.
      * intros d Hd Nd. rewrite scatter_gather by lia. destruct (nth d sel false) eqn:E; [reflexivity|]. unfold tp_const. rewrite nth_repeat. destruct (C1 d Hd) as [S1|[S1|S1]]; [apply Q2; exact S1|contradiction|congruence].
Qed.
Lemma ptset_length : forall lvs ptid, Forall (fun l => l_S l = false) lvs -> lvs <> [] -> length (ptset order K lvs ptid) = order ^ length lvs.
Proof.
  induction lvs as [|l up IH]; intros ptid F Hne; [congruence|]. inversion F as [|? ? El Fu]; subst. cbn [ptset length]. rewrite El.
  assert (G : forall js, length (flat_map (fun j => match up with [] => [proj K (set_at ptid (l_dir l) j)] | _ => ptset order K up (set_at ptid (l_dir l) j) end) js) = length js * order ^ length up).
  { induction js as [|j js IHj]; cbn [flat_map length]; [reflexivity|]. rewrite app_length, IHj. destruct up; [reflexivity|]. rewrite IH by (assumption || discriminate). lia. }
  rewrite G, seq_length. cbn [Nat.pow]. reflexivity.
Qed.
Lemma stack_noS lvs : K <> Lev -> wf_stack range dom K lvs -> Forall (fun l => l_S l = false) lvs.
Proof.
  intros HL. induction lvs as [|l up IH]; intros W; constructor; [|apply IH; apply W]. destruct W as (_ & _ & Wu & _). destruct up; [|exact Wu]. unfold wf_last in Wu. destruct K; try apply Wu. congruence.
Qed.
Lemma flat_map_len {A B} (f : A -> list B) n : forall l, (forall x, In x l -> length (f x) = n) -> length (flat_map f l) = length l * n.
Proof. induction l as [|x l IH]; intros H; cbn; [reflexivity|]. rewrite app_length, H by (left; reflexivity). rewrite IH by (intros; apply H; right; assumption). reflexivity. Qed.

Lemma leaf_adds lvs refs sel n (pts : list nat -> list R) : lvs <> [] -> wf_stack range dom K lvs -> closed lvs refs -> hasref refs (tp_const range 0) -> length sel = range -> trues sel = n -> cover lvs sel ->
  (K <> Lev -> n + length lvs = mdim) -> (forall sub, In sub (tp_all (tp_const n order)) -> prepared range dom K lvs (pts sub)) ->
  exists evs, foreach (fun sub => process O range order lvs refs (pts sub) (tp_const range 0) (scatter (fun _ i => i) 0 sel sub (tp_const range 0))) (tp_all (tp_const n order)) = Ret evs /\
    adds (o_cheb O) mdim order (final range dom K) (K <> Lev) evs.
Proof.
  intros Hne W C Hr Hs Ht Cv Hn Hp.
  match goal with |- exists evs, foreach ?f ?ll = _ /\ _ => destruct (foreach_ok f (fun sub e => complete range dom K e (cells lvs refs (tp_const range 0)) (ptset order K lvs (scatter (fun _ i => i) 0 sel sub (tp_const range 0)))) ll) as (es & E & F) end.
  { intros sub Hsub. apply (process_ok O range order dom K HO Hord HK); auto. }
  exists (concat es). split; [exact E|]. apply (complete_pts range order dom K Hord) in F. destruct F as (F1 & F2 & F3).
  intros m k Ho Hc. pose proof (run_complete (o_cheb O) mdim m k) as RC. rewrite Ho in RC. destruct (RC Hord Hc (final range dom K) (concat es) (cells lvs refs (tp_const range 0))) as (m' & mp & np & ni & R1 & R2 & R3 & R4).
  - apply (cells_nodup range order dom K Hord); [exact W|unfold tp_const; apply repeat_length].
  - eapply Forall_impl; [|exact F1]. intros e (t & p & x & -> & Ht' & Hp' & Hf). exists t, p, x. split; [reflexivity|]. split; [exact Ht'|]. split; [|exact Hf]. apply (cover_index lvs sel n p Hne W Hs Ht Cv); exact Hp'.
  - intros t p Ht' Hp'. apply F2; [exact Ht'|]. apply (cover_index lvs sel n p Hne W Hs Ht Cv); exact Hp'.
  - exists m', mp, np, ni. split; [exact R1|]. split; [exact R2|]. intros HL. rewrite R4, R3, F3 by exact HL. f_equal. symmetry. erewrite flat_map_len by (intros; apply ptset_length; [apply stack_noS; assumption|exact Hne]).
    rewrite tp_all_length, tp_size_const, <- Nat.pow_add_r, Hn by exact HL. reflexivity.
Qed.
End Leaf.
