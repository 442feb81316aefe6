(** C128: get_all_facets. C129: create_facet_tags. C130: create_cell_meshtags. C131: get_num_Gauss_points. *)
From Coq Require Import List Arith Bool Lia ZArith Permutation Sorting.Sorted.
From Verif Require Import M_Domain S_Domain L_Domain L_DomainQ L_DomainT P_Domain.
From Verif Require Import M_PyBase M_PyNodes M_PyFacets M_PyMesh M_PyUnf S_PyTp S_PyTpMesh S_PyMesh S_PyFacets S_PyUnf L_PyNodes L_PyFacets L_PyMesh P_PyMesh P_PyFacets P_PyTpMesh P_PyTpMesh2 L_PyUnf L_PyUnf2 L_PyUnf3 P_PyUnf.
From Verif Require L_General4.
Import ListNotations.
Local Open Scope Z_scope.

(** C128: get_all_facets for exterior integrals: the exterior facets and those with a piece of the unfitted boundary, each once; for interior
    integrals: the other ones (increasing, each once). *)
Definition on_boundary (g : grid) (p : process) (m : mesh) (D : domain) (x : nat * nat) : Prop :=
  mesh_facet p Exterior x \/ (mesh_facet p AllFacets x /\ on_facet g m (has_unfitted_boundary D) x).
Lemma three_lists argsort g p m D n_local : sorts argsort -> domain_on g D m n_local -> facets_on g p m -> range_begin p = 0%nat -> forall e d s, inv argsort p m D d s -> (e = true \/ d = false) ->
  exists c s1, get_which argsort p m D WCut e s = Ret (c, s1) /\ NoDup c /\ (forall x, In x c <-> wanted g p m D WCut e x) /\ inv argsort p m D d s1.
Proof.
  intros Ha HD HP R0 e d s I Hd. destruct (get_simple argsort g p m D n_local Ha HD HP R0 WCut e d s ltac:(destruct e; reflexivity) I) as (c & s1 & E & I1 & F). exists c, s1. split; auto.
  destruct F as [F|(F1 & F2)]; [|exfalso; destruct Hd as [Hd|Hd]; subst; discriminate]. destruct (fresh_ok argsort g p m D n_local Ha HD HP R0 WCut e) as (c' & E' & N & J). assert (c = c') by congruence. subst c'. split; [exact N|]. split; [|exact I1]. intros x. rewrite J. destruct e; reflexivity.
Qed.
Lemma three_lists' argsort g p m D n_local : sorts argsort -> domain_on g D m n_local -> facets_on g p m -> range_begin p = 0%nat -> forall w e d s, inv argsort p m D d s -> is_ei w e = false -> is_ci w e = false ->
  exists c s1, get_which argsort p m D w e s = Ret (c, s1) /\ NoDup c /\ (forall x, In x c <-> wanted g p m D w e x) /\ inv argsort p m D d s1.
Proof.
  intros Ha HD HP R0 w e d s I H1 H2. destruct (get_simple argsort g p m D n_local Ha HD HP R0 w e d s H1 I) as (c & s1 & E & I1 & F). exists c, s1. split; auto.
  destruct F as [F|(F1 & F2)]; [|congruence]. destruct (fresh_ok argsort g p m D n_local Ha HD HP R0 w e) as (c' & E' & N & J). assert (c = c') by congruence. subst c'. split; [exact N|]. split; [|exact I1]. intros x. rewrite J. destruct w, e; try discriminate; reflexivity.
Qed.
Lemma wanted_mesh g p m D w x : wanted g p m D w true x -> mesh_facet p AllFacets x.
Proof. destruct w; cbn; intros H; [destruct H as [(H & _)|(H & _)]|destruct H as [(H & _)|(H & _)]|destruct H as (H & _)]; auto; destruct H as (f & ? & ? & _); exists f; auto. Qed.
Lemma all_split p x : mesh_facet p AllFacets x -> mesh_facet p Exterior x \/ mesh_facet p Interior x.
Proof. intros (f & A & B & _). destruct (in_dec Nat.eq_dec f (exterior p)); [left|right]; exists f; auto. Qed.
Theorem C128_all_facets : forall argsort g p m D n_local, sorts argsort -> domain_on g D m n_local -> facets_on g p m -> range_begin p = 0%nat ->
  (exists l s, get_all_facets argsort p m D true no_caches = Ret (l, s) /\ NoDup l /\ forall x, In x l <-> on_boundary g p m D x)
  /\ (exists l s, get_all_facets argsort p m D false no_caches = Ret (l, s) /\ lists_facets (fun x => mesh_facet p AllFacets x /\ ~ on_boundary g p m D x) l).
Proof.
  intros argsort g p m D n_local Ha HD HP R0. destruct (C126_exterior_lists argsort g p m D n_local Ha HD HP R0) as (_ & XE & XI).
  destruct (three_lists' argsort g p m D n_local Ha HD HP R0 WCut true false no_caches (inv_none _ _ _ _) eq_refl eq_refl) as (c & s1 & E1 & N1 & J1 & I1).
  destruct (three_lists' argsort g p m D n_local Ha HD HP R0 WFull true false s1 I1 eq_refl eq_refl) as (f & s2 & E2 & N2 & J2 & I2).
  destruct (three_lists' argsort g p m D n_local Ha HD HP R0 WEmpty true false s2 I2 eq_refl eq_refl) as (e & s3 & E3 & N3 & J3 & I3).
  unfold get_all_facets. rewrite E1. cbn [bind fst snd]. rewrite E2. cbn [bind fst snd]. rewrite E3. cbn [bind fst snd]. cbv zeta. unfold mf_concatenate.
  assert (U : forall w w' x, wanted g p m D w true x -> wanted g p m D w' true x -> w = w').
  { intros w w' x H H'. destruct (all_split p x (wanted_mesh _ _ _ _ _ _ H)) as [Hx|Hx]; [destruct (XE x Hx) as (w0 & _ & Q); rewrite (Q w H), (Q w' H'); auto|apply (XI x Hx); auto]. }
  assert (IN : forall x, In x ((c ++ f) ++ e) <-> on_boundary g p m D x).
  { intros x. rewrite !in_app_iff, J1, J2, J3. transitivity (exists w, wanted g p m D w true x); [split; [intros [[H|H]|H]; eauto|intros ([] & H); auto]|]. split.
    - intros (w & H). destruct (all_split p x (wanted_mesh _ _ _ _ _ _ H)) as [Hx|Hx]; [left; auto|]. right. split; [eapply wanted_mesh; eauto|]. apply (XI x Hx). eauto.
    - intros [Hx|(Ax & Ux)]; [destruct (XE x Hx) as (w & H & _); eauto|]. destruct (all_split p x Ax) as [Hx|Hx]; [destruct (XE x Hx) as (w & H & _); eauto|]. apply (XI x Hx). auto. }
  split.
  - do 2 eexists. split; [reflexivity|]. split; auto. apply L_General4.nodup_append; [apply L_General4.nodup_append; [auto|auto|]|auto|].
    + intros x A B. apply J1 in A. apply J2 in B. specialize (U _ _ _ A B). discriminate U.
    + intros x A B. apply J3 in B. apply in_app_iff in A. destruct A as [A|A]; [apply J1 in A|apply J2 in A]; specialize (U _ _ _ A B); discriminate U.
  - destruct (created g p m HP AllFacets (or_intror R0)) as (all & EA & NA & IA). rewrite EA. cbn [bind]. do 2 eexists. split; [reflexivity|]. destruct (C115_set_operations all ((c ++ f) ++ e)) as (_ & _ & _ & (SS & ID) & _). split; auto. intros x. rewrite ID, IA, IN. reflexivity.
Qed.
Print Assumptions C128_all_facets.

(** C129: create_facet_tags: each facet of a class with a tag, and no other, under that tag. Refuted: the empty facets are given the tag of the cut
    ones (None when there is none). *)
Theorem C129_empty_refuted : forall argsort g p m D n_local, sorts argsort -> domain_on g D m n_local -> facets_on g p m -> range_begin p = 0%nat ->
  forall cut_tag full_tag t, cut_tag <> Some t -> full_tag <> Some t ->
  exists d s l, create_facet_tags argsort p m D cut_tag full_tag (Some t) true no_caches = Ret (map (fun e => (fst e, as_array (snd e))) d, s)
    /\ (forall l', ~ In (Some t, l') d) /\ In (cut_tag, l) d /\ forall x, wanted g p m D WEmpty true x -> In x l.
Proof.
  intros argsort g p m D n_local Ha HD HP R0 cut_tag full_tag t NC NF. unfold create_facet_tags.
  assert (TE : forall a b, tag_eqb a b = true <-> a = b). { intros [a|] [b|]; cbn; split; try congruence. - intros H. apply Z.eqb_eq in H. congruence. - intros H. injection H as ->. apply Z.eqb_refl. }
  assert (AK : forall d fs tag t' l', In (t', l') (add_facets d fs tag) -> t' = tag \/ exists l0, In (t', l0) d).
  { induction d as [|(a & b) d IH]; intros fs tag t' l' I; cbn in I; [destruct I as [I|[]]; injection I as -> ->; auto|]. destruct (tag_eqb a tag) eqn:T; cbn in I; destruct I as [I|I].
    - injection I as -> <-. left. apply TE. auto. - right. exists l'. cbn. auto. - injection I as -> ->. right. exists l'. cbn. auto. - destruct (IH _ _ _ _ I) as [H|(l0 & H)]; auto. right. exists l0. cbn. auto. }
  assert (AI : forall d fs tag, exists l, In (tag, l) (add_facets d fs tag) /\ forall x, In x fs -> In x l).
  { induction d as [|(a & b) d IH]; intros fs tag; cbn; [exists fs; cbn; auto|]. destruct (tag_eqb a tag) eqn:T.
    - apply TE in T. subst a. eexists. split; [left; reflexivity|]. intros x Hx. destruct fs; [destruct Hx|]. cbn [is_nil]. unfold mf_concatenate. apply in_or_app. auto.
    - destruct (IH fs tag) as (l & I & H). exists l. cbn. auto. }
  assert (R1 : exists d1 s1, match cut_tag with Some _ => r <- get_which argsort p m D WCut true no_caches ;; Ret (add_facets [] (fst r) cut_tag, snd r) | None => Ret ([], no_caches) end = Ret (d1, s1) /\ inv argsort p m D false s1 /\ forall l', ~ In (Some t, l') d1).
  { destruct cut_tag as [ct|]; [|do 2 eexists; split; [reflexivity|]; split; [apply inv_none|auto]].
    destruct (three_lists' argsort g p m D n_local Ha HD HP R0 WCut true false no_caches (inv_none _ _ _ _) eq_refl eq_refl) as (c & s1 & E1 & N1 & J1 & I1). rewrite E1. cbn [bind fst snd]. do 2 eexists. split; [reflexivity|]. split; auto. intros l' I. apply AK in I. destruct I as [I|(? & [])]. congruence. }
  destruct R1 as (d1 & s1 & -> & I1 & X1). cbn [bind fst snd].
  assert (R2 : exists d2 s2, match full_tag with Some _ => r <- get_which argsort p m D WFull true s1 ;; Ret (add_facets d1 (fst r) full_tag, snd r) | None => Ret (d1, s1) end = Ret (d2, s2) /\ inv argsort p m D false s2 /\ forall l', ~ In (Some t, l') d2).
  { destruct full_tag as [ft|]; [|do 2 eexists; split; [reflexivity|]; split; auto].
    destruct (three_lists' argsort g p m D n_local Ha HD HP R0 WFull true false s1 I1 eq_refl eq_refl) as (c & s2 & E2 & N2 & J2 & I2). rewrite E2. cbn [bind fst snd]. do 2 eexists. split; [reflexivity|]. split; auto. intros l' I. apply AK in I. destruct I as [I|(l0 & I)]; [congruence|]. eapply X1; eauto. }
  destruct R2 as (d2 & s2 & -> & I2 & X2). cbn [bind fst snd].
  destruct (three_lists' argsort g p m D n_local Ha HD HP R0 WEmpty true false s2 I2 eq_refl eq_refl) as (e & s3 & E3 & N3 & J3 & I3). rewrite E3. cbn [bind fst snd].
  destruct (AI d2 e cut_tag) as (l & Il & Hl). do 2 eexists. exists l. split; [reflexivity|]. split; [|split; auto].
  - intros l' I. apply AK in I. destruct I as [I|(l0 & I)]; [congruence|]. eapply X2; eauto.
  - intros x Hx. apply Hl, J3. auto.
Qed.
(** Proved: without a tag for the empty facets. *)
Theorem C129_facet_tags_partial : forall argsort g p m D n_local, sorts argsort -> domain_on g D m n_local -> facets_on g p m -> range_begin p = 0%nat ->
  forall cut_tag full_tag ext_integral,
  exists d s, create_facet_tags argsort p m D cut_tag full_tag None ext_integral no_caches = Ret (map (fun e => (Some (fst e), as_array (snd e))) d, s)
    /\ NoDup (map fst d) /\ (forall t l, In (t, l) d -> NoDup l)
    /\ (forall t, (exists l, In (t, l) d) <-> cut_tag = Some t \/ full_tag = Some t)
    /\ forall t x, (exists l, In (t, l) d /\ In x l) <-> (cut_tag = Some t /\ wanted g p m D WCut ext_integral x) \/ (full_tag = Some t /\ wanted g p m D WFull ext_integral x).
Proof.
  intros argsort g p m D n_local Ha HD HP R0 cut_tag full_tag e. unfold create_facet_tags.
  destruct (three_lists argsort g p m D n_local Ha HD HP R0 e false no_caches (inv_none _ _ _ _) (or_intror eq_refl)) as (c & s1 & E1 & N1 & J1 & I1).
  destruct (three_lists' argsort g p m D n_local Ha HD HP R0 WFull e false no_caches (inv_none _ _ _ _)) as (f & s0 & E0 & N0 & J0 & I0); [destruct e; reflexivity|destruct e; reflexivity|].
  destruct (three_lists' argsort g p m D n_local Ha HD HP R0 WFull e false s1 I1) as (f' & s2 & E2 & N2 & J2 & I2); [destruct e; reflexivity|destruct e; reflexivity|].
  assert (DJ : forall x, wanted g p m D WCut e x -> wanted g p m D WFull e x -> False).
  { intros x A B. destruct e.
    - destruct (C126_exterior_lists argsort g p m D n_local Ha HD HP R0) as (_ & XE & XI). destruct (all_split p x (wanted_mesh _ _ _ _ _ _ A)) as [Hx|Hx]; [destruct (XE x Hx) as (w0 & _ & Q); pose proof (Q _ A); pose proof (Q _ B); congruence|]. pose proof (proj2 (XI x Hx) _ _ A B). discriminate.
    - assert (Hx : mesh_facet p Interior x) by (apply A). destruct (C126_interior_documented argsort g p m D n_local Ha HD HP x Hx) as (w0 & _ & Q). pose proof (Q _ A). pose proof (Q _ B). congruence. }
  destruct cut_tag as [ct|], full_tag as [ft|].
  - rewrite E1. cbn [bind fst snd add_facets]. rewrite E2. cbn [bind fst snd add_facets tag_eqb]. destruct (Z.eqb_spec ct ft) as [->|NE].
    + cbn [map fst snd]. set (l := if is_nil f' then c else mf_concatenate c f'). exists [(ft, l)], s2. split; [reflexivity|].
      assert (Il : forall x, In x l <-> In x c \/ In x f'). { intros x. unfold l. destruct f' as [|y f'']; cbn [is_nil]; [cbn; tauto|]. unfold mf_concatenate. apply in_app_iff. }
      split; [repeat constructor; auto|]. split.
      { intros t l' [I|[]]. injection I as <- <-. unfold l. destruct (is_nil f') eqn:X; auto. unfold mf_concatenate. apply L_General4.nodup_append; auto. intros x A B. apply J1 in A. apply J2 in B. eauto. }
      split. { intros t. split; [intros (l' & [I|[]]); injection I as -> _; auto|]. intros H. exists l. left. destruct H; congruence. }
      intros t x. rewrite <- J1, <- J2. split.
      * intros (l' & [I|[]] & Ix). injection I as <- <-. apply Il in Ix. destruct Ix; [left|right]; auto.
      * intros H. exists l. split; [left; destruct H as [(H & _)|(H & _)]; congruence|]. apply Il. tauto.
    + cbn [map fst snd]. exists [(ct, c); (ft, f')], s2. split; [reflexivity|]. split; [constructor; [cbn; intuition congruence|repeat constructor; auto]|]. split; [intros t l' [I|[I|[]]]; injection I as <- <-; auto|].
      split. { intros t. split; [intros (l' & [I|[I|[]]]); injection I as -> _; auto|]. intros [H|H]; [exists c|exists f']; cbn; injection H as ->; auto. }
      intros t x. rewrite <- J1, <- J2. split; [intros (l' & [I|[I|[]]] & Ix); injection I as <- <-; auto|]. intros [(H & Ix)|(H & Ix)]; injection H as ->; [exists c|exists f']; cbn; auto.
  - rewrite E1. cbn [bind fst snd add_facets]. cbn [map fst snd]. exists [(ct, c)], s1. split; [reflexivity|]. split; [repeat constructor; auto|]. split; [intros t l' [I|[]]; injection I as <- <-; auto|].
    split. { intros t. split; [intros (l' & [I|[]]); injection I as -> _; auto|]. intros [H|H]; [|discriminate]. exists c; cbn; injection H as ->; auto. }
    intros t x. rewrite <- J1. split; [intros (l' & [I|[]] & Ix); injection I as <- <-; auto|]. intros [(H & Ix)|(H & Ix)]; [|discriminate]. injection H as ->. exists c. cbn. auto.
  - cbn [bind fst snd]. rewrite E0. cbn [bind fst snd add_facets]. cbn [map fst snd]. exists [(ft, f)], s0. split; [reflexivity|]. split; [repeat constructor; auto|]. split; [intros t l' [I|[]]; injection I as <- <-; auto|].
    split. { intros t. split; [intros (l' & [I|[]]); injection I as -> _; auto|]. intros [H|H]; [discriminate|]. exists f; cbn; injection H as ->; auto. }
    intros t x. rewrite <- J0. split; [intros (l' & [I|[]] & Ix); injection I as <- <-; auto|]. intros [(H & Ix)|(H & Ix)]; [discriminate|]. injection H as ->. exists f. cbn. auto.
  - cbn [bind fst snd map]. exists [], no_caches. split; [reflexivity|]. split; [constructor|]. split; [intros t l []|]. split; [intros t; split; [intros (l & [])|intros [H|H]; discriminate]|]. intros t x. split; [intros (l & [] & _)|intros [(H & _)|(H & _)]; discriminate].
Qed.
Print Assumptions C129_empty_refuted.
Print Assumptions C129_facet_tags_partial.

Lemma map_nth_all (l : list Z) : map (fun i => nth i l 0) (seq 0 (length l)) = l.
Proof. induction l as [|x l IH]; [reflexivity|]. cbn [length seq map nth]. rewrite <- seq_shift, map_map. cbn [nth]. congruence. Qed.
(** C130: create_cell_meshtags hands over, in increasing order, each cell of a class with a tag, and no other, with that tag. The lists of cells are
    as in C124. *)
Theorem C130_cell_meshtags : forall argsort cut full empty cut_tag full_tag empty_tag, sorts argsort ->
  NoDup (cut ++ full ++ empty) ->
  exists cells values, create_cell_meshtags argsort cut full empty cut_tag full_tag empty_tag = Ret (cells, values)
    /\ StronglySorted Z.lt cells /\ length values = length cells
    /\ forall c t, In (c, t) (combine cells values) <-> (In c cut /\ cut_tag = Some t) \/ (In c full /\ full_tag = Some t) \/ (In c empty /\ empty_tag = Some t).
Proof.
  intros argsort cut full empty ctag ftag etag Ha ND. unfold create_cell_meshtags.
  set (sel := fun (l : list Z) (t : option Z) => match t with Some _ => l | None => [] end).
  set (val := fun (l : list Z) (t : option Z) => match t with Some v => map (fun _ : Z => v) l | None => [] end).
  assert (EF : fold_left (fun (acc : list Z * list Z) (g : list Z * option Z) => match snd g with Some tag => (fst acc ++ fst g, snd acc ++ map (fun _ => tag) (fst g)) | None => acc end) [(cut, ctag); (full, ftag); (empty, etag)] ([], [])
    = (sel cut ctag ++ sel full ftag ++ sel empty etag, val cut ctag ++ val full ftag ++ val empty etag)).
  { unfold sel, val. destruct ctag, ftag, etag; cbn [fold_left fst snd app]; rewrite ?app_nil_r, <- ?app_assoc; reflexivity. }
  cbv zeta. rewrite EF. cbn [fst snd]. set (A := sel cut ctag ++ sel full ftag ++ sel empty etag). set (B := val cut ctag ++ val full ftag ++ val empty etag).
  assert (LS : forall l t, length (val l t) = length (sel l t)) by (intros l [t|]; cbn; auto; apply map_length).
  assert (LAB : length B = length A) by (unfold A, B; rewrite !app_length, !LS; reflexivity).
  destruct (Ha A) as (PA & SA). assert (BA : forall i, In i (argsort A) -> (i < length A)%nat). { intros i Hi. apply (Permutation_in _ PA) in Hi. apply in_seq in Hi. lia. }
  rewrite (take_ids_ok A 0) by auto. cbn [bind]. rewrite (take_ids_ok B 0) by (intros i Hi; rewrite LAB; auto). cbn [bind]. do 2 eexists. split; [reflexivity|].
  assert (NA : NoDup A).
  { unfold A. assert (Sub : forall l t, incl (sel l t) l) by (intros l [t|] x; cbn; [auto|intros []]). assert (NS : forall l t, NoDup l -> NoDup (sel l t)) by (intros l [t|] N; cbn; [auto|constructor]).
    assert (AP : forall l l' : list Z, NoDup (l ++ l') -> NoDup l /\ NoDup l' /\ forall x, In x l -> In x l' -> False).
    { induction l as [|x l IH]; intros l' N; cbn in N; [split; [constructor|split; auto]|]. inversion N as [|? ? N1 N2]; subst. destruct (IH _ N2) as (P & Q & R). rewrite in_app_iff in N1. split; [constructor; tauto|]. split; auto. intros y [<-|Hy] H; [tauto|eauto]. }
    destruct (AP _ _ ND) as (Nc & Nfe & D1). destruct (AP _ _ Nfe) as (Nf & Ne & D2).
    apply L_General4.nodup_append; [auto| |].
    - apply L_General4.nodup_append; auto. intros x X Y. eapply D2; [eapply Sub; eauto|eapply Sub; eauto].
    - intros x X Y. eapply D1; [eapply Sub; eauto|]. apply in_app_iff in Y. apply in_app_iff. destruct Y as [Y|Y]; apply Sub in Y; auto. }
  split; [|split; [rewrite !map_length; auto|]].
  - apply ss_le_lt; auto. apply (Permutation_NoDup (l := A)); auto. apply Permutation_sym. apply Permutation_trans with (map (fun i => nth i A 0) (seq 0 (length A))); [apply Permutation_map; auto|].
    rewrite map_nth_all. apply Permutation_refl.
  - intros c t. rewrite combine_map. transitivity (In (c, t) (combine A B)).
    + rewrite in_map_iff. split.
      * intros (i & E & Hi). injection E as <- <-. rewrite <- combine_nth by auto. apply nth_In. rewrite combine_length, LAB. specialize (BA i Hi). lia.
      * intros I. destruct (In_nth _ _ (0, 0) I) as (i & Bi & E). rewrite combine_nth in E by auto. exists i. split; auto. rewrite combine_length, LAB in Bi. apply (Permutation_in _ (Permutation_sym PA)). apply in_seq. lia.
    + unfold A, B. assert (CA : forall (a a' b b' : list Z), length b = length a -> combine (a ++ a') (b ++ b') = combine a b ++ combine a' b').
      { induction a as [|x a IH]; intros a' [|y b] b' L; cbn in *; try lia; auto. f_equal. apply IH. lia. }
      rewrite !CA, !in_app_iff by apply LS.
      assert (CV : forall l t', In (c, t) (combine (sel l t') (val l t')) <-> In c l /\ t' = Some t).
      { intros l [t'|]; cbn; [|split; [intros []|intros (_ & H); discriminate]]. induction l as [|x l IH]; cbn; [tauto|]. rewrite IH. split.
        - intros [H|(H & E)]; [injection H as -> ->; auto|auto]. - intros ([->|H] & E); [left; congruence|auto]. }
      rewrite !CV. tauto.
Qed.
Print Assumptions C130_cell_meshtags.
Example C130_case : create_cell_meshtags isort [1; 4] [3] [0; 2] (Some 10) None (Some 30) = Ret ([0; 1; 2; 4], [30; 10; 30; 10]).
Proof. reflexivity. Qed.

(** C131: get_num_Gauss_points: the smallest number of points, at least one, whose Gauss-Legendre rule (exact for degrees up to 2n-1) has the wanted
    degree; it raises for negative degrees. *)
Theorem C131_gauss_points : forall degree,
  (0 <= degree -> exists n, get_num_Gauss_points degree = Ret n /\ 1 <= n /\ degree <= 2 * n - 1 /\ forall k, 1 <= k -> degree <= 2 * k - 1 -> n <= k)
  /\ (degree < 0 -> get_num_Gauss_points degree = Abort).
Proof.
  intros d. unfold get_num_Gauss_points, assert_. split; intros H.
  - replace (0 <=? d) with true by (symmetry; apply Z.leb_le; auto). eexists. split; [reflexivity|]. pose proof (Z.div_mod (- (d + 1)) 2 ltac:(lia)). pose proof (Z.mod_pos_bound (- (d + 1)) 2 ltac:(lia)). split; [lia|]. split; [lia|]. intros k K1 K2. lia.
  - replace (0 <=? d) with false by (symmetry; apply Z.leb_gt; auto). reflexivity.
Qed.
Print Assumptions C131_gauss_points.
Example C131_case : get_num_Gauss_points 0 = Ret 1 /\ get_num_Gauss_points 4 = Ret 3 /\ get_num_Gauss_points 5 = Ret 3.
Proof. repeat split. Qed.
