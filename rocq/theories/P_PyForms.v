(** C150: versions. C151: form_custom on lists. C152: regions of integration. C153: form_custom and the forms. C154: coefficients of a nonlinear
    problem. C155: environment of the linker. *)
From Verif Require Import M_PyBase M_PyForms S_PyForms L_PyForms.
Local Open Scope Z_scope.

(** C150: for a range [X.Y.0, X.(Y+1).0), as all those shipped are, the check of a version X.Y.Z is the lexicographic one. *)
Theorem C150_shipped_ranges_partial : forall X Y v0 v1 v2, 0 <= v2 ->
  exists b, check_version_in_range (vstr (v0, v1, v2)) (vstr (X, Y, 0)) (vstr (X, Y + 1, 0)) = Ret b
    /\ (b = true <-> vle (X, Y, 0) (v0, v1, v2) /\ vlt (v0, v1, v2) (X, Y + 1, 0)).
Proof.
  intros X Y v0 v1 v2 H. unfold check_version_in_range, compare_version_le, compare_version_lt, vstr. cbn [extract_version pmap bind].
  destruct (v0 <? X) eqn:E0; [|destruct (v1 <? Y) eqn:E1; [|destruct (0 <=? v2) eqn:E2]].
  - exists false. split; [reflexivity|]. apply Z.ltb_lt in E0. unfold vle, vlt. split; [discriminate|]. intros ([A|A] & B); [lia|]. injection A; lia.
  - exists false. split; [reflexivity|]. apply Z.ltb_ge in E0. apply Z.ltb_lt in E1. unfold vle, vlt. split; [discriminate|]. intros ([A|A] & B); [lia|]. injection A; lia.
  - eexists. split; [reflexivity|]. apply Z.ltb_ge in E0, E1. unfold vle, vlt. destruct (Z.eqb_spec v0 X); cbv beta iota delta [negb].
    + destruct (Z.eqb_spec v1 (Y + 1)); cbv beta iota delta [negb].
      * rewrite Z.ltb_lt. split; [lia|]. intros ([A|A] & B); lia.
      * rewrite Z.ltb_lt. split; [|intros ([A|A] & B); lia]. intros B. split; [|lia]. destruct (Z.eq_dec v2 0); [right|left; lia]. repeat f_equal; lia.
    + split; [discriminate|]. intros ([A|A] & B); [lia|]. injection A; lia.
  - apply Z.leb_gt in E2. lia.
Qed.
Example C150_shipped : fenics_range = (vstr (0, 10, 0), vstr (0, 10 + 1, 0)) /\ ufl_range = (vstr (2025, 2, 0), vstr (2025, 2 + 1, 0)).
Proof. split; reflexivity. Qed.
(** Any range: a version that is accepted is in the range. *)
Theorem C150_accepted_partial : forall version lower upper, check_version_in_range (vstr version) (vstr lower) (vstr upper) = Ret true ->
  vle lower version /\ vlt version upper.
Proof.
  intros ((v0, v1), v2) ((l0, l1), l2) ((u0, u1), u2). unfold check_version_in_range, compare_version_le, compare_version_lt, vstr. cbn [extract_version pmap bind].
  destruct (v0 <? l0) eqn:E0; [discriminate|]. destruct (v1 <? l1) eqn:E1; [discriminate|]. destruct (l2 <=? v2) eqn:E2; [|discriminate]. apply Z.ltb_ge in E0, E1. apply Z.leb_le in E2. intros H. injection H as H.
  unfold vle, vlt. split.
  - destruct (Z.eq_dec l0 v0); [|left; lia]. destruct (Z.eq_dec l1 v1); [|left; lia]. destruct (Z.eq_dec l2 v2); [right; congruence|left; lia].
  - destruct (Z.eqb_spec v0 u0); cbn [negb] in H; [|left; apply Z.ltb_lt; auto]. right. split; auto. destruct (Z.eqb_spec v1 u1); cbn [negb] in H; [|left; apply Z.ltb_lt; auto]. right. split; auto. apply Z.ltb_lt; auto.
Qed.
(** Refuted for other ranges: 1.0.0 is not accepted in [0.10.0, 2.0.0). *)
Theorem C150_range_refuted : exists version lower upper, vle lower version /\ vlt version upper /\ check_version_in_range (vstr version) (vstr lower) (vstr upper) = Ret false.
Proof. exists (1, 0, 0), (0, 10, 0), (2, 0, 0). unfold vle, vlt. split; [left; lia|]. split; [lia|reflexivity]. Qed.
(** Refuted for versions with a suffix: with DOLFINx 0.10.0.post1 (or 0.11.0.dev0) the check raises, instead of saying that the version does (or
    does not) do; only ImportError is caught, so that qugar cannot be imported. *)
Theorem C150_suffix_refuted : forall a b c lower upper, check_version_in_range [Some a; Some b; Some c; None] (vstr lower) upper = Abort.
Proof. intros a b c ((l0, l1), l2) upper. reflexivity. Qed.

Lemma asked_ev g : asked_data g <> None -> ev g = false.
Proof. unfold asked_data, ev. destruct (_ && _); congruence. Qed.
Section Forms.
  Context {entity : Type} (tagged : nat -> itype -> Z -> list entity) (all_facets : list entity) (ffcx : list integral -> bool).
  Notation create := (create_form tagged all_facets ffcx).
  (** C151 (refuted): form_custom on a list of forms, possibly nested, gives the empty list whatever the forms. *)
  Fixpoint flatten1_nil (x : @fres entity) : flatten1 x = [].
  Proof.
    destruct x as [c| |l]; [reflexivity|reflexivity|]. cbn [flatten1]. induction l as [|y l IH]; [reflexivity|]. rewrite (flatten1_nil y). cbn [app]. exact IH.
  Qed.
  Theorem C151_lists_refuted : forall h l h' r, create h (FList l) = (h', Ret r) -> r = RList [].
  Proof.
    intros h l h' r. cbn [create_form]. match goal with |- (fst ?x, _) = _ -> _ => destruct x as (h1, o) end. cbn [fst snd]. destruct o as [ys| | |]; cbn [bind]; intros H; try discriminate. injection H as _ <-.
    f_equal. unfold flatten_list. induction ys as [|y ys IH]; [reflexivity|]. cbn [flat_map]. rewrite flatten1_nil. exact IH.
  Qed.
  (** A single form is compiled; an empty one gives None. *)
  Theorem C151_single_form_partial : forall h refs, create h (FForm refs) =
    match refs with [] => (h, Ret RNone) | _ => (fst (fst (form_ tagged all_facets ffcx h refs)), c <- snd (form_ tagged all_facets ffcx h refs) ;; Ret (RForm c)) end.
  Proof. intros h [|r refs]; reflexivity. Qed.

  Notation form_of h form := (map (get_itg h) form).
  Lemma filter_data h form t : data_of h form t = map g_data (filter (fun g => itype_eqb (g_type g) t) (form_of h form)).
  Proof. reflexivity. Qed.
  (** C152: when the ids in tuples of exterior integrals are not above those of the exterior integrals with a single id, every integral is integrated over exactly the entities that were asked for, those without
      ids over all the facets of the unfitted boundary, whichever list DOLFINx takes for an id. *)
  Theorem C152_regions_partial : forall k h form,
    NoDup form -> (forall r, In r form -> (r < length h)%nat) -> good_data k (form_of h form) ->
    (forall g l n, In g (form_of h form) -> g_type g = Exterior -> g_sid g = Ids l -> In n l ->
       exists g' m, In g' (form_of h form) /\ g_type g' = Exterior /\ g_sid g' = Id m /\ n <= m) ->
    ffcx (form_of (fst (modify form h form)) form) = true ->
    exists c, snd (form_ tagged all_facets ffcx h form) = Ret c
      /\ length (o_itgs c) = length form
      /\ forall j choice, (j < length form)%nat -> picks c choice ->
           let g := get_itg h (nth j form 0%nat) in
           let g' := nth j (o_itgs c) g in
           g_fun g' = g_fun g /\ g_type g' = g_type g
           /\ (g_type g = Exterior \/ is_everywhere (g_sid g) = false -> forall e, integrated c choice g' e <-> requested tagged all_facets g e).
  Proof.
    intros k h form ND B (D1 & D2 & D3) NT HF. unfold form_. destruct (modify_ok form form h ND (incl_refl _) B) as (_ & Same & (ids & Ids_ & Inj) & _ & _).
    set (h1 := fst (modify form h form)) in *.
    assert (G1 : forall r, In r form -> ev (get_itg h r) = false -> get_itg h1 r = get_itg h r) by (intros r Hr E; apply Same; auto).
    assert (G2 : forall r, In r form -> ev (get_itg h r) = true -> get_itg h1 r = {| g_fun := g_fun (get_itg h r); g_type := g_type (get_itg h r); g_sid := Id (ids r); g_data := None; g_mark := true |}) by (intros r Hr E; apply Ids_; auto).
    assert (Ty : forall r, In r form -> g_type (get_itg h1 r) = g_type (get_itg h r)).
    { intros r Hr. destruct (ev (get_itg h r)) eqn:E; [rewrite (G2 r Hr E)|rewrite (G1 r Hr E)]; reflexivity. }
    assert (Da : forall r, In r form -> g_data (get_itg h1 r) = asked_data (get_itg h r)).
    { intros r Hr. unfold asked_data. fold (ev (get_itg h r)). destruct (ev (get_itg h r)) eqn:E; [rewrite (G2 r Hr E)|rewrite (G1 r Hr E)]; reflexivity. }
    assert (Asked : forall g, In g (form_of h form) -> asked_data g = None \/ asked_data g = Some (Tags (k (g_type g)))).
    { intros g Hg. unfold asked_data. destruct (itype_eqb _ _ && _); auto. }
    assert (DO : forall t, data_of h1 form t = map asked_data (filter (fun g => itype_eqb (g_type g) t) (form_of h form))).
    { intros t. unfold data_of. assert (Hin : forall r, In r form -> In r form) by auto. revert Hin. generalize form at 1 3 4. intros l Hl. induction l as [|r l IH]; [reflexivity|].
      cbn [map filter]. rewrite (Ty r) by (apply Hl; cbn; auto). destruct (itype_eqb _ t); [cbn [map]; rewrite (Da r) by (apply Hl; cbn; auto); f_equal|]; apply IH; intros; apply Hl; cbn; auto. }
    assert (OK : forall t, same_data (data_of h1 form t) = true).
    { intros t. rewrite DO. specialize (D3 t). assert (A : forall g, In g (filter (fun g => itype_eqb (g_type g) t) (form_of h form)) -> asked_data g = None \/ asked_data g = Some (Tags (k t))).
      { intros g Hg. apply filter_In in Hg. destruct Hg as (Hg & Tg). apply itype_eqb_ok in Tg. rewrite <- Tg. auto. }
      destruct (filter _ _) as [|g0 l]; [reflexivity|]. unfold same_data. cbn [map]. change (asked_data g0 :: map asked_data l) with (map asked_data (g0 :: l)).
      apply forallb_forall. intros d Hd. apply in_map_iff in Hd. destruct Hd as (g & <- & Hg). destruct (asked_data g) as [x|] eqn:Ex; [|reflexivity].
      destruct (A g Hg) as [Z1|Z1]; [congruence|]. destruct (asked_data g0) as [y|] eqn:Ey.
      - destruct (A g0 ltac:(cbn; auto)) as [Z2|Z2]; [congruence|]. destruct (sdata_eq_dec x y); congruence.
      - destruct Hg as [<-|Hg]; [congruence|]. rewrite (D3 eq_refl g Hg) in Ex. discriminate. }
    assert (DD : forall t, exists l, domains_of tagged h1 form t = Ret l
        /\ forall n ents, In (n, ents) l <-> ents = tagged (k t) t n /\ exists r, In r form /\ g_type (get_itg h r) = t /\ asked_data (get_itg h r) <> None /\ In n (ids_of (g_sid (get_itg h r)))).
    { intros t. unfold domains_of.
      assert (LI : forall n, In n (listed_ids h1 form t) <-> exists r, In r form /\ g_type (get_itg h r) = t /\ asked_data (get_itg h r) <> None /\ In n (ids_of (g_sid (get_itg h r)))).
      { intros n. unfold listed_ids. rewrite zsort_in, in_flat_map. split.
        - intros (g & Hg & Hn). apply in_map_iff in Hg. destruct Hg as (r & <- & Hr). rewrite (Ty r Hr), (Da r Hr) in Hn. destruct (itype_eqb (g_type (get_itg h r)) t) eqn:Et; [|destruct Hn]. apply itype_eqb_ok in Et.
          destruct (asked_data (get_itg h r)) as [x|] eqn:Ea; [|destruct Hn]. exists r. split; auto. split; auto. split; [congruence|].
          assert (E : ev (get_itg h r) = false) by (apply asked_ev; rewrite Ea; discriminate). rewrite (G1 r Hr E) in Hn. auto.
        - intros (r & Hr & Et & Ha & Hn). exists (get_itg h1 r). split; [apply in_map_iff; eauto|]. rewrite (Ty r Hr), (Da r Hr). replace (itype_eqb (g_type (get_itg h r)) t) with true by (symmetry; apply itype_eqb_ok; auto).
          destruct (asked_data (get_itg h r)) as [x|] eqn:Ea; [|congruence]. assert (E : ev (get_itg h r) = false) by (apply asked_ev; rewrite Ea; discriminate). rewrite (G1 r Hr E). auto. }
      assert (A : forall g, In g (filter (fun g => itype_eqb (g_type g) t) (form_of h form)) -> asked_data g = None \/ asked_data g = Some (Tags (k t))).
      { intros g Hg. apply filter_In in Hg. destruct Hg as (Hg & Tg). apply itype_eqb_ok in Tg. rewrite <- Tg. auto. }
      assert (InF : forall r, In r form -> g_type (get_itg h r) = t -> In (get_itg h r) (filter (fun g => itype_eqb (g_type g) t) (form_of h form))).
      { intros r Hr Et. apply filter_In. split; [apply in_map; auto|apply itype_eqb_ok; auto]. }
      rewrite DO. specialize (D3 t). destruct (filter (fun g => itype_eqb (g_type g) t) (form_of h form)) as [|g0 l].
      - exists []. split; [reflexivity|]. intros n ents. split; [intros []|]. intros (_ & r & Hr & Et & _). destruct (InF r Hr Et).
      - cbn [map]. destruct (A g0 ltac:(cbn; auto)) as [Z0|Z0]; rewrite Z0; cbn [get_integration_domains].
        + exists []. split; [reflexivity|]. intros n ents. split; [intros []|]. intros (_ & r & Hr & Et & Ha & _). exfalso. apply Ha. destruct (InF r Hr Et) as [Q|Q]; [congruence|auto].
        + eexists. split; [reflexivity|]. intros n ents. rewrite in_map_iff. split.
          * intros (i & Q & Hi). injection Q as -> <-. split; [reflexivity|]. apply LI; auto.
          * intros (-> & Hn). exists n. split; [reflexivity|]. apply LI; auto. }
    destruct (DD Cell) as (dc & Ec & Hc). destruct (DD Exterior) as (de & Ee & He). destruct (DD Interior) as (di & Ei & Hi).
    cbn [fst snd]. rewrite (OK Cell), (OK Exterior), (OK Interior). cbn [andb assert_]. rewrite HF. cbn [assert_]. rewrite Ec, Ee, Ei. cbn [bind].
    eexists. split; [reflexivity|]. cbn [o_itgs o_dom]. split; [apply map_length|]. intros j choice Hj PK. cbn zeta.
    assert (Hr : In (nth j form 0%nat) form) by (apply nth_In; auto). set (r := nth j form 0%nat) in *.
    assert (Eg : nth j (form_of h1 form) (get_itg h r) = get_itg h1 r) by (rewrite (nth_indep _ _ (get_itg h1 0%nat)) by (rewrite map_length; auto); apply map_nth). rewrite Eg.
    assert (EVid : forall n, In n (everywhere_ids h1 form) <-> exists r, In r form /\ ev (get_itg h r) = true /\ ids r = n).
    { intros n. unfold everywhere_ids. rewrite in_flat_map. split.
      - intros (g & Hg & Hn). apply in_map_iff in Hg. destruct Hg as (r' & <- & Hr'). destruct (ev (get_itg h r')) eqn:E.
        + rewrite (G2 r' Hr' E) in Hn. cbn [g_data g_type g_sid g_mark] in Hn. exists r'. split; auto. split; auto. unfold ev in E. apply andb_true_iff in E. destruct E as (E & _). apply itype_eqb_ok in E. rewrite E in Hn. destruct Hn as [<-|[]]; auto.
        + exfalso. rewrite (G1 r' Hr' E) in Hn. destruct (g_data (get_itg h r')) eqn:Ed; [destruct Hn|]. destruct (g_type (get_itg h r')) eqn:Et; try (destruct Hn; fail). destruct (g_sid (get_itg h r')) eqn:Es; try (destruct Hn; fail).
          unfold ev in E. rewrite Et in E. cbn [itype_eqb andb] in E. assert (EV : is_everywhere (g_sid (get_itg h r')) = false) by (first [exact E | rewrite Es; exact E]). destruct (D2 (get_itg h r') (in_map _ _ _ Hr') EV) as [Q|(_ & Q & _)]; [congruence|]. rewrite Q in Hn. destruct Hn.
      - intros (r' & Hr' & E & <-). exists (get_itg h1 r'). split; [apply in_map; auto|]. rewrite (G2 r' Hr' E). cbn [g_data g_type g_sid g_mark]. unfold ev in E. apply andb_true_iff in E. destruct E as (E & _). apply itype_eqb_ok in E. rewrite E. cbn; auto. }
    assert (Fresh : forall r1 r2 n, In r1 form -> ev (get_itg h r1) = true -> In r2 form -> g_type (get_itg h r2) = Exterior -> ev (get_itg h r2) = false -> In n (ids_of (g_sid (get_itg h r2))) -> n < ids r1).
    { intros r1 r2 n H1 E1 H2 T2 E2 Hn. destruct (Ids_ r1 H1 E1) as (_ & Q). destruct (g_sid (get_itg h r2)) as [|m|l] eqn:Es; cbn in Hn; [destruct Hn| |].
      - destruct Hn as [->|[]]. pose proof (new_id_gt h form r2 n H2 T2 Es). lia.
      - destruct (NT _ l n (in_map _ _ _ H2) T2 Es Hn) as (g' & m & Ig & Tg & Sg & Le). apply in_map_iff in Ig. destruct Ig as (r3 & <- & H3). pose proof (new_id_gt h form r3 m H3 Tg Sg). lia. }
    set (cc := {| o_itgs := form_of h1 form; o_dom := _ |}) in *.
    destruct (ev (get_itg h r)) eqn:E.
    - rewrite (G2 r Hr E). cbn [g_fun g_type]. split; [reflexivity|]. split; [reflexivity|]. intros _ e. pose proof E as E'. unfold ev in E'. apply andb_true_iff in E'. destruct E' as (Te & Ev). apply itype_eqb_ok in Te.
      unfold integrated, requested. rewrite Ev. cbn [g_type g_sid ids_of]. rewrite Te.
      assert (Only : forall ents, In (ids r, ents) (o_dom cc Exterior) <-> ents = all_facets).
      { intros ents. cbn [cc o_dom]. rewrite in_app_iff, in_map_iff. split.
        - intros [H|(n & Q & Hn)]; [|congruence]. exfalso. apply He in H. destruct H as (_ & r2 & H2 & T2 & Ha & Hn). assert (E2 : ev (get_itg h r2) = false) by (apply asked_ev; auto).
          pose proof (Fresh r r2 (ids r) Hr E H2 T2 E2 Hn). lia.
        - intros ->. right. exists (ids r). split; [reflexivity|]. apply EVid. eauto. }
      assert (PE : choice Exterior (ids r) = all_facets) by (apply Only, PK; exists all_facets; apply Only; reflexivity).
      split.
      + intros (n & [<-|[]] & _ & He'). rewrite PE in He'. auto.
      + intros (_ & Hin). exists (ids r). split; [cbn; auto|]. split; [exists all_facets; apply Only; auto|]. rewrite PE. auto.
    - rewrite (G1 r Hr E). split; [reflexivity|]. split; [reflexivity|]. intros HT e.
      assert (Ev : is_everywhere (g_sid (get_itg h r)) = false) by (destruct HT as [HT|HT]; auto; unfold ev in E; rewrite HT in E; cbn in E; auto).
      destruct (D2 (get_itg h r) (in_map _ _ _ Hr) Ev) as [Ha|(Ha & _ & Hall)].
      2:{ unfold integrated, requested. rewrite Ev. split; [|intros (k' & n & Q & _); congruence]. intros (n & Hn & (ents & Hl) & _). exfalso.
        assert (NL : forall r2, In r2 form -> g_type (get_itg h r2) = g_type (get_itg h r) -> asked_data (get_itg h r2) <> None -> In n (ids_of (g_sid (get_itg h r2))) -> False).
        { intros r2 H2 T2 A2 N2. apply A2, Hall; auto. apply in_map; auto. }
        cbn [cc o_dom] in Hl. destruct (g_type (get_itg h r)) eqn:Et.
        - apply Hc in Hl. destruct Hl as (_ & r2 & H2 & T2 & A2 & N2). eapply NL; eauto.
        - apply in_app_iff in Hl. destruct Hl as [Hl|Hl].
          + apply He in Hl. destruct Hl as (_ & r2 & H2 & T2 & A2 & N2). eapply NL; eauto.
          + apply in_map_iff in Hl. destruct Hl as (n' & Q & Hn'). injection Q as -> <-. apply EVid in Hn'. destruct Hn' as (r1 & H1 & E1 & Q1). pose proof (Fresh r1 r n H1 E1 Hr Et E Hn). lia.
        - apply Hi in Hl. destruct Hl as (_ & r2 & H2 & T2 & A2 & N2). eapply NL; eauto. }
      assert (Has : asked_data (get_itg h r) <> None) by (unfold asked_data; fold (ev (get_itg h r)); rewrite E; congruence).
      unfold integrated, requested. rewrite Ev. set (t := g_type (get_itg h r)) in *.
      assert (Only : forall n, In n (ids_of (g_sid (get_itg h r))) -> forall ents, In (n, ents) (o_dom cc t) <-> ents = tagged (k t) t n).
      { intros n Hn ents. cbn [cc o_dom]. destruct t eqn:Et.
        - rewrite Hc. split; [intros (Q & _); auto|]. intros ->. split; [reflexivity|]. exists r. auto.
        - rewrite in_app_iff, He, in_map_iff. split.
          + intros [(Q & _)|(n' & Q & Hn')]; auto. injection Q as <- <-. apply EVid in Hn'. destruct Hn' as (r1 & H1 & E1 & <-). exfalso. pose proof (Fresh r1 r (ids r1) H1 E1 Hr Et E Hn). lia.
          + intros ->. left. split; [reflexivity|]. exists r. auto.
        - rewrite Hi. split; [intros (Q & _); auto|]. intros ->. split; [reflexivity|]. exists r. auto. }
      assert (PE : forall n, In n (ids_of (g_sid (get_itg h r))) -> choice t n = tagged (k t) t n) by (intros n Hn; apply (Only n Hn), PK; exists (tagged (k t) t n); apply Only; auto).
      split.
      + intros (n & Hn & _ & He'). exists (k t), n. rewrite PE in He' by auto. auto.
      + intros (k' & n & Q & Hn & He'). rewrite Ha in Q. injection Q as <-. exists n. split; auto. split; [exists (tagged (k t) t n); apply Only; auto|]. rewrite PE by auto. auto.
  Qed.
  (** Refuted with a tuple: f*ds(1) + g*ds + h*ds((2, 3)), with the same tags, in the order of UFL. The integral of g gets the id 2, and whichever
      facets DOLFINx takes for it, g is integrated over the facets of tag 2 only or h over all the facets. *)
  Definition tuple_form : heap :=
    [{| g_fun := 0; g_type := Exterior; g_sid := Id 1; g_data := Some (Tags 5); g_mark := false |};
     {| g_fun := 1; g_type := Exterior; g_sid := Everywhere; g_data := Some (Tags 5); g_mark := false |};
     {| g_fun := 2; g_type := Exterior; g_sid := Ids [2; 3]; g_data := Some (Tags 5); g_mark := false |}].
  Theorem C152_tuple_refuted : (forall l, ffcx l = true) -> forall e, In e all_facets -> ~ In e (tagged 5 Exterior 2) -> ~ In e (tagged 5 Exterior 3) ->
    exists c, snd (form_ tagged all_facets ffcx tuple_form [0; 1; 2]%nat) = Ret c
      /\ forall choice, picks c choice -> exists j, (j < 3)%nat /\
           ~ (integrated c choice (nth j (o_itgs c) (get_itg tuple_form j)) e <-> requested tagged all_facets (get_itg tuple_form j) e).
  Proof.
    intros HF e He H2 H3. unfold form_. rewrite HF. eexists. split; [reflexivity|]. intros choice PK.
    assert (P2 := PK Exterior 2 ltac:(eexists; cbn; eauto)). assert (P3 := PK Exterior 3 ltac:(eexists; cbn; eauto)). cbn in P2, P3.
    assert (Q : choice Exterior 2 = tagged 5 Exterior 2 \/ choice Exterior 2 = all_facets) by (destruct P2 as [P|[P|[P|[P|[]]]]]; injection P; intros; auto; lia).
    destruct Q as [Q|Q].
    - exists 1%nat. split; [lia|]. intros (_ & A). destruct A as (n & Hn & _ & Hin); [cbn; auto|]. cbn in Hn. destruct Hn as [<-|[]]. cbn [nth o_itgs get_itg tuple_form map g_type modify fst itype_eqb is_everywhere andb] in Hin. change (In e (choice Exterior 2)) in Hin. rewrite Q in Hin. auto.
    - exists 2%nat. split; [lia|]. intros (A & _). destruct A as (k & n & Ek & Hn & Hin).
      + exists 2. split; [cbn; auto|]. split; [eexists; cbn; eauto|]. change (In e (choice Exterior 2)). rewrite Q. auto.
      + cbn in Ek, Hn, Hin. injection Ek as <-. destruct Hn as [<-|[<-|[]]]; auto.
  Qed.
  (** Refuted: g*ds + h*ds((2, 3)) with tags raises, since the data of the first integral were forgotten; DOLFINx's form accepts it. *)
  Theorem C152_raises_refuted : snd (form_ tagged all_facets ffcx (tl tuple_form) [0; 1]%nat) = Abort.
  Proof. reflexivity. Qed.

  (** C153: after a successful call the form has the same integrals as before, but that the subdomain data of the exterior integrals without ids are
      replaced (by their subdomain id); objects that are not in the form do not change. *)
  Theorem C153_form_after_partial : forall h form c, NoDup form -> (forall r, In r form -> (r < length h)%nat) -> snd (form_ tagged all_facets ffcx h form) = Ret c ->
    let h' := fst (fst (form_ tagged all_facets ffcx h form)) in
    form_of h' (snd (fst (form_ tagged all_facets ffcx h form))) =
      map (fun r => let g := get_itg h r in
             {| g_fun := g_fun g; g_type := g_type g; g_sid := g_sid g; g_mark := g_mark g;
                g_data := if itype_eqb (g_type g) Exterior && is_everywhere (g_sid g) then Some (Misplaced (g_sid g)) else g_data g |}) form
    /\ forall r, (r < length h)%nat -> ~ In r form -> get_itg h' r = get_itg h r.
  Proof.
    intros h form c ND B R. destruct (modify_ok form form h ND (incl_refl _) B) as (_ & Same & _ & Old & _). 
    assert (F1 : fst (fst (form_ tagged all_facets ffcx h form)) = fst (modify form h form)) by reflexivity.
    assert (F2 : snd (fst (form_ tagged all_facets ffcx h form)) = match snd (form_ tagged all_facets ffcx h form) with Ret _ => snd (modify form h form) | _ => form end) by reflexivity.
    rewrite F2, F1, R. clear F1 F2. cbv zeta. split.
    - rewrite Old. apply map_ext. intros r. unfold restored, ev. destruct (_ && _); [reflexivity|]. destruct (get_itg h r); reflexivity.
    - intros r Hr N. apply Same; auto.
  Qed.
  (** Refuted: after form_custom(f*ds) the data of the integral are not those of before; compiled again by DOLFINx (get_integration_domains), the form raises. *)
  Definition plain_ds : heap := [{| g_fun := 0; g_type := Exterior; g_sid := Everywhere; g_data := Some (Tags 5); g_mark := false |}].
  Theorem C153_data_refuted : (forall l, ffcx l = true) ->
    let r := form_ tagged all_facets ffcx plain_ds [0]%nat in
    (exists c, snd r = Ret c) /\ g_data (get_itg (fst (fst r)) (hd 0%nat (snd (fst r)))) <> g_data (get_itg plain_ds 0)
    /\ domains_of tagged plain_ds [0]%nat Exterior = Ret [] /\ domains_of tagged (fst (fst r)) (snd (fst r)) Exterior = Abort.
  Proof. intros HF. unfold form_. rewrite HF. cbn. split; [eexists; reflexivity|]. split; [discriminate|]. split; reflexivity. Qed.
  (** Refuted: a call that raises leaves the form changed: the integral without ids stays an integral over the facets of tag 0. *)
  Theorem C153_raising_refuted : let r := form_ tagged all_facets ffcx (tl tuple_form) [0; 1]%nat in
    snd r = Abort /\ g_sid (get_itg (tl tuple_form) 0) = Everywhere /\ g_sid (get_itg (fst (fst r)) (hd 0%nat (snd (fst r)))) = Id 0.
  Proof. repeat split. Qed.
  (** Refuted: forms share their integrals: with a = f*ds and L = a + h*ds(0) built before, form_custom(a) changes L: f gets the id 0, and then
      form_custom(L) has two lists of facets for the id 0; f is integrated over the facets of tag 0 only, or h over all of them. *)
  Definition shared : heap :=
    [{| g_fun := 1; g_type := Exterior; g_sid := Everywhere; g_data := Some (Tags 5); g_mark := false |};
     {| g_fun := 2; g_type := Exterior; g_sid := Id 0; g_data := Some (Tags 5); g_mark := false |}].
  Theorem C153_other_forms_refuted : (forall l, ffcx l = true) -> forall e, In e all_facets -> ~ In e (tagged 5 Exterior 0) ->
    let h1 := fst (fst (form_ tagged all_facets ffcx shared [0]%nat)) in
    exists c, snd (form_ tagged all_facets ffcx h1 [1; 0]%nat) = Ret c
      /\ forall choice, picks c choice -> exists j, (j < 2)%nat /\
           ~ (integrated c choice (nth j (o_itgs c) (get_itg shared 0)) e <-> requested tagged all_facets (get_itg shared (1 - j)) e).
  Proof.
    intros HF e He H0 h1. unfold form_. rewrite HF. eexists. split; [reflexivity|]. intros choice PK.
    assert (P0 := PK Exterior 0 ltac:(eexists; cbn; eauto)). cbn in P0.
    assert (Q : choice Exterior 0 = tagged 5 Exterior 0 \/ choice Exterior 0 = all_facets) by (destruct P0 as [P|[P|[]]]; injection P; intros; auto).
    destruct Q as [Q|Q].
    - exists 1%nat. split; [lia|]. intros (_ & A). destruct A as (n & Hn & _ & Hin); [cbn; auto|]. cbn in Hn. destruct Hn as [<-|[]]. change (In e (choice Exterior 0)) in Hin. rewrite Q in Hin. auto.
    - exists 0%nat. split; [lia|]. intros (A & _). destruct A as (k & n & Ek & Hn & Hin).
      + exists 0. split; [cbn; auto|]. split; [eexists; cbn; eauto|]. change (In e (choice Exterior 0)). rewrite Q. auto.
      + cbn in Ek, Hn, Hin. injection Ek as <-. destruct Hn as [<-|[]]; auto.
  Qed.
End Forms.
(** f*ds(1) + h*ds((0, 1)) + g*ds satisfies the hypotheses of C152. *)
Example C152_case : let h := [{| g_fun := 0; g_type := Exterior; g_sid := Id 1; g_data := Some (Tags 5); g_mark := false |};
     {| g_fun := 1; g_type := Exterior; g_sid := Everywhere; g_data := Some (Tags 5); g_mark := false |};
     {| g_fun := 2; g_type := Exterior; g_sid := Ids [0; 1]; g_data := Some (Tags 5); g_mark := false |}] in
  good_data (fun _ => 5%nat) (map (get_itg h) [0; 1; 2]%nat)
  /\ forall g l n, In g (map (get_itg h) [0; 1; 2]%nat) -> g_type g = Exterior -> g_sid g = Ids l -> In n l ->
       exists g' m, In g' (map (get_itg h) [0; 1; 2]%nat) /\ g_type g' = Exterior /\ g_sid g' = Id m /\ n <= m.
Proof.
  split.
  - split; [|split].
    + intros g [<-|[<-|[<-|[]]]]; cbn; auto.
    + intros g [<-|[<-|[<-|[]]]]; cbn; auto; discriminate.
    + intros [| |]; cbn; auto. discriminate.
  - intros g l n [<-|[<-|[<-|[]]]] _; cbn; intros E Hn; try discriminate. injection E as <-. eexists. exists 1. split; [left; reflexivity|]. split; [reflexivity|]. split; [reflexivity|]. destruct Hn as [<-|[<-|[]]]; lia.
Qed.
Print Assumptions C150_shipped_ranges_partial.
Print Assumptions C150_accepted_partial.
Print Assumptions C150_range_refuted.
Print Assumptions C150_suffix_refuted.
Print Assumptions C151_lists_refuted.
Print Assumptions C151_single_form_partial.
Print Assumptions C152_regions_partial.
Print Assumptions C152_tuple_refuted.
Print Assumptions C152_raises_refuted.
Print Assumptions C153_form_after_partial.
Print Assumptions C153_data_refuted.
Print Assumptions C153_raising_refuted.
Print Assumptions C153_other_forms_refuted.

(** ** C154 *)
(** For a single residual form and a single Jacobian form, whatever the order of the calls and the changes of the coefficients, every assembly is
    done with the coefficients packed for the current values. *)
Definition values_of {V} (c : @call V) : V := match c with CallF v => v | CallJ v => v end.
Definition expected {F C V} (pack : F -> V -> C) (L a : F) (c : call) : list packed :=
  match c with CallF v => [OneC (pack L v); OneC (pack a v)] | CallJ v => [OneC (pack a v)] end.
Theorem C154_single_forms_partial : forall (F C V : Type) (pack : F -> V -> C) update L a,
  (forall f v v', update f (pack f v) v' = Ret (pack f v')) ->
  forall cs, do_calls pack update (One L) (One a) {| b_coeffs := None; A_coeffs := None |} cs = Ret (map (expected pack L a) cs).
Proof.
  intros F C V pack update L a U cs.
  assert (M : forall cs p, (b_coeffs p = None \/ exists v, b_coeffs p = Some (OneC (pack L v))) -> (A_coeffs p = None \/ exists v, A_coeffs p = Some (OneC (pack a v))) ->
    do_calls pack update (One L) (One a) p cs = Ret (map (expected pack L a) cs)).
  { clear cs. induction cs as [|c cs IH]; intros p HB HA; [reflexivity|]. cbn [do_calls map].
    assert (GB : forall v, get_coeffs pack update (One L) (b_coeffs p) v = Ret (OneC (pack L v))) by (intros v; destruct HB as [->|(v0 & ->)]; cbn [get_coeffs pack_coefficients update_coefficients]; [reflexivity|rewrite U; reflexivity]).
    assert (GA : forall v, get_coeffs pack update (One a) (A_coeffs p) v = Ret (OneC (pack a v))) by (intros v; destruct HA as [->|(v0 & ->)]; cbn [get_coeffs pack_coefficients update_coefficients]; [reflexivity|rewrite U; reflexivity]).
    destruct c as [v|v]; cbn [do_call expected]; rewrite ?GB, ?GA; cbn [bind fst snd]; rewrite IH; cbn; eauto. }
  apply M; auto.
Qed.
(** Refuted for lists of forms: the second assembly raises. *)
Theorem C154_lists_refuted : forall (F C V : Type) (pack : F -> V -> C) update L Ls a v v',
  do_calls pack update (Many (L :: Ls)) a {| b_coeffs := None; A_coeffs := None |} [CallF v; CallF v'] = Abort.
Proof. intros. cbn. reflexivity. Qed.
Print Assumptions C154_single_forms_partial.
Print Assumptions C154_lists_refuted.
(** ** C155 *)
(** The variable LDSHARED is restored whatever the compilation does; meanwhile it has the tokens of sysconfig, each of them once, in the order of their
    first occurrences. *)
Section Ldshared.
  Context {token : Type} (tok_eqb : token -> token -> bool) (Heq : forall a b, tok_eqb a b = true <-> a = b).
  Lemma fromkeys_ok : forall l seen, NoDup (fromkeys tok_eqb seen l) /\ (forall x, In x (fromkeys tok_eqb seen l) <-> In x l /\ ~ In x seen).
  Proof.
    assert (EX : forall x l, existsb (tok_eqb x) l = true <-> In x l).
    { intros x l. rewrite existsb_exists. split; [intros (y & Hy & E); apply Heq in E; congruence|intros H; exists x; split; auto; apply Heq; auto]. }
    induction l as [|x l IH]; intros seen; cbn [fromkeys]; [split; [constructor|intros y; cbn; tauto]|]. destruct (existsb (tok_eqb x) seen) eqn:E.
    - destruct (IH seen) as (N & I). split; auto. intros y. rewrite I. apply EX in E. cbn. split; [tauto|]. intros ([<-|H] & Q); tauto.
    - destruct (IH (x :: seen)) as (N & I). assert (~ In x seen) by (rewrite <- EX, E; discriminate). split.
      + constructor; auto. rewrite I. cbn. tauto.
      + intros y. cbn [In]. rewrite I. cbn [In]. split; [intros [<-|(A & B)]; tauto|]. intros ([<-|A] & B); [auto|]. destruct (tok_eqb x y) eqn:Q; [left; apply Heq; auto|]. right. split; auto. intros [<-|]; [|tauto]. assert (tok_eqb x x = true) by (apply Heq; auto). congruence.
  Qed.
  Theorem C155_linker_variable_partial : forall (A : Type) raw env (body : option (list token) -> outcome A),
    snd (deduped_ldshared tok_eqb raw env body) = env
    /\ fst (deduped_ldshared tok_eqb raw env body) = body (match raw with [] => env | _ => Some (fromkeys tok_eqb [] raw) end)
    /\ NoDup (fromkeys tok_eqb [] raw) /\ (forall x, In x (fromkeys tok_eqb [] raw) <-> In x raw)
    /\ (forall l1 x l2, raw = l1 ++ x :: l2 -> ~ In x l1 -> exists l3, fromkeys tok_eqb [] raw = fromkeys tok_eqb [] l1 ++ x :: l3).
  Proof.
    intros A raw env body. destruct (fromkeys_ok raw []) as (N & I). split; [destruct env; reflexivity|]. split; [reflexivity|]. split; auto. split.
    - intros x. rewrite I. cbn. tauto.
    - intros l1 x l2 -> Nx. clear N I. assert (M : forall l seen, ~ In x l -> ~ In x seen -> exists l3, fromkeys tok_eqb seen (l ++ x :: l2) = fromkeys tok_eqb seen l ++ x :: l3).
      { induction l as [|y l IH]; intros seen H1 H2; cbn [app fromkeys].
        - destruct (existsb (tok_eqb x) seen) eqn:E; [|eauto]. exfalso. apply existsb_exists in E. destruct E as (z & Hz & E). apply Heq in E. congruence.
        - destruct (existsb (tok_eqb y) seen); [apply IH; auto; intros H; apply H1; cbn; auto|]. destruct (IH (y :: seen)) as (l3 & E); [intros H; apply H1; cbn; auto|intros [<-|H]; [apply H1; cbn; auto|auto]|]. rewrite E. exists l3. reflexivity. }
      apply M; auto.
  Qed.
End Ldshared.
(** Refuted for options in two tokens: of [cc -arch arm64 -arch x86_64] (tokens 0 1 2 1 3) it leaves [cc -arch arm64 x86_64]. *)
Theorem C155_two_token_options_refuted : fst (deduped_ldshared Nat.eqb [0; 1; 2; 1; 3]%nat None (fun e => Ret e)) = Ret (Some [0; 1; 2; 3]%nat).
Proof. reflexivity. Qed.
Print Assumptions C155_linker_variable_partial.
Print Assumptions C155_two_token_options_refuted.
