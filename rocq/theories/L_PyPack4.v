(** Lemmas for the packing of custom coefficients: entities, quadratures. *)
From Coq Require Import List ZArith Reals Lia Arith Sorting.Sorted Permutation.
From Verif Require Import M_PyBase M_PyFacets M_PyQuadUtils M_PyPack S_PyQuadUtils S_PyPack L_PyNodes L_PyFacets L_PyQuadUtils L_PyPack L_PyPack2 L_PyPack3.
Import ListNotations.
Local Open Scope nat_scope.

(** intersect1d. *)
Definition before (aux : list nat) (i j : nat) : Prop := nth i aux 0 < nth j aux 0 \/ nth i aux 0 = nth j aux 0 /\ i < j.
Lemma se_incl aux : forall idx i, In i (successors_equal aux idx) -> In i idx.
Proof.
  induction idx as [|a idx IH]; intros i H; [contradiction|]. cbn [successors_equal] in H. destruct idx as [|b idx]; [contradiction|].
  destruct (nth a aux 0 =? nth b aux 0); [destruct H as [->|H]; [left; reflexivity|]|]; right; apply IH; exact H.
Qed.
Lemma se_nodup aux : forall idx, NoDup idx -> NoDup (successors_equal aux idx).
Proof.
  induction idx as [|a idx IH]; intros N; [constructor|]. inversion N as [|? ? N1 N2]; subst. cbn [successors_equal]. destruct idx as [|b idx]; [constructor|].
  destruct (nth a aux 0 =? nth b aux 0); [constructor; [|apply IH; exact N2]|apply IH; exact N2].
  intros H. apply se_incl in H. contradiction.
Qed.
Lemma se_in aux : forall idx, StronglySorted (before aux) idx -> forall i, In i (successors_equal aux idx) <-> In i idx /\ exists j, In j idx /\ nth i aux 0 = nth j aux 0 /\ i < j.
Proof.
  induction idx as [|a idx IH]; intros S i; [split; [contradiction|intros [H _]; exact H]|].
  inversion S as [|? ? S1 S2]; subst. specialize (IH S1). rewrite Forall_forall in S2.
  cbn [successors_equal]. destruct idx as [|b idx].
  - split; [contradiction|]. intros [[<-|[]] [j [[<-|[]] [_ H]]]]. lia.
  - assert (T : forall x, In x (b :: idx) -> before aux a x) by exact S2.
    assert (Sb : forall x, In x idx -> before aux b x). { inversion S1 as [|? ? _ Q]; subst. rewrite Forall_forall in Q. exact Q. }
    split.
    + intros H. assert (C : (i = a /\ nth a aux 0 = nth b aux 0) \/ In i (successors_equal aux (b :: idx))).
      { destruct (Nat.eqb_spec (nth a aux 0) (nth b aux 0)) as [e|e]; [destruct H as [<-|H]; [left; auto|right; exact H]|right; exact H]. }
      destruct C as [[-> e]|C].
      * split; [left; reflexivity|]. exists b. split; [right; left; reflexivity|]. split; [exact e|]. destruct (T b (or_introl eq_refl)) as [l|[_ l]]; lia.
      * apply IH in C. destruct C as [C1 [j [C2 C3]]]. split; [right; exact C1|]. exists j. split; [right; exact C2|exact C3].
    + intros [[<-|Hi] [j [Hj [Ej Lj]]]].
      * destruct Hj as [<-|Hj]; [lia|].
        assert (Q : nth a aux 0 = nth b aux 0).
        { destruct Hj as [<-|Hj]; [exact Ej|]. destruct (T b (or_introl eq_refl)) as [l|[l _]]; [|exact l]. destruct (Sb j Hj) as [m|[m _]]; lia. }
        destruct (Nat.eqb_spec (nth a aux 0) (nth b aux 0)); [left; reflexivity|contradiction].
      * destruct Hj as [<-|Hj]. { destruct (T i Hi) as [l|[_ l]]; lia. }
        assert (C : In i (successors_equal aux (b :: idx))) by (apply IH; split; [exact Hi|exists j; auto]).
        destruct (nth a aux 0 =? nth b aux 0); [right; exact C|exact C].
Qed.
Lemma intersect_ids_ok argsort A B : stable_argsort argsort -> NoDup A -> NoDup B ->
  NoDup (intersect1d_ids argsort A B) /\ forall i, In i (intersect1d_ids argsort A B) <-> i < length A /\ In (nth i A 0) B.
Proof.
  intros H NA NB. unfold intersect1d_ids. destruct (H (A ++ B)) as [P S].
  assert (Nd : NoDup (argsort (A ++ B))) by (apply (Permutation_NoDup (Permutation_sym P)); apply seq_NoDup).
  assert (In_idx : forall i, In i (argsort (A ++ B)) <-> i < length (A ++ B)).
  { intros i. split; intros Q.
    - apply (Permutation_in _ P) in Q. apply in_seq in Q. lia.
    - apply (Permutation_in _ (Permutation_sym P)). apply in_seq. lia. }
  split; [apply se_nodup; exact Nd|]. intros i. rewrite (se_in _ _ S). rewrite In_idx, app_length. split.
  - intros [Hi [j [Hj [E L]]]]. apply In_idx in Hj. rewrite app_length in Hj.
    destruct (lt_dec i (length A)) as [l|l].
    + split; [exact l|]. rewrite app_nth1 in E by exact l. destruct (lt_dec j (length A)) as [m|m].
      * exfalso. rewrite app_nth1 in E by exact m. apply (proj1 (NoDup_nth A 0) NA) in E; lia.
      * rewrite app_nth2 in E by lia. rewrite E. apply nth_In. lia.
    + exfalso. rewrite !app_nth2 in E by lia. apply (proj1 (NoDup_nth B 0) NB) in E; lia.
  - intros [Hi Hb]. split; [lia|]. destruct (In_nth B _ 0 Hb) as [j [Hj E]]. exists (length A + j). split; [apply In_idx; rewrite app_length; lia|].
    split; [|lia]. rewrite app_nth1 by exact Hi. rewrite app_nth2 by lia. rewrite Nat.add_comm, Nat.add_sub. symmetry. exact E.
Qed.
Lemma mem_f_in x l : mem_f x l = true <-> In x l.
Proof.
  unfold mem_f. rewrite existsb_exists. split.
  - intros [y [I E]]. unfold facet_eqb in E. apply andb_prop in E. destruct E as [E1 E2]. apply Nat.eqb_eq in E1. apply Nat.eqb_eq in E2. destruct x, y. cbn in *. subst. exact I.
  - intros I. exists x. split; [exact I|]. unfold facet_eqb. rewrite !Nat.eqb_refl. reflexivity.
Qed.
Lemma common_rows_ok A B : NoDup (find_common_rows A B) /\ forall i, In i (find_common_rows A B) <-> i < length A /\ In (nth i A (0, 0)) B.
Proof.
  unfold find_common_rows. destruct A as [|a A]; [split; [constructor|intros i; split; [contradiction|intros [H _]; cbn in H; lia]]|].
  destruct B as [|b B]; [split; [constructor|intros i; split; [contradiction|intros [_ []]]]|].
  split; [apply NoDup_filter, seq_NoDup|]. intros i. rewrite filter_In, in_seq, mem_f_in. split; intros [H1 H2]; (split; [lia|exact H2]).
Qed.
(** The ids are those of the entities in the given lists. *)
Lemma nth_error_nth_d {A} (l : list A) i d : i < length l -> nth_error l i = Some (nth i l d).
Proof. intros H. apply nth_error_nth'. exact H. Qed.
Lemma ids_ok argsort cells facets dom : stable_argsort argsort -> NoDup cells -> unique_domain dom ->
  NoDup (entities_ids argsort dom cells facets)
  /\ forall i, In i (entities_ids argsort dom cells facets) <-> exists e, entity_at dom i = Some e /\ cut_entity cells facets e.
Proof.
  intros H N U. destruct dom as [l|l|l]; cbn [entities_ids single_facets is_interior negb].
  - destruct (intersect_ids_ok argsort l cells H U N) as [N1 I1]. split; [exact N1|]. intros i. rewrite I1. cbn [entity_at]. split.
    + intros [Hi Hc]. exists (ECell (nth i l 0)). rewrite (nth_error_nth_d l i 0 Hi). split; [reflexivity|exact Hc].
    + intros [e [E C]]. destruct (nth_error l i) as [c|] eqn:Q; [|discriminate]. cbn in E. injection E as <-. split; [apply nth_error_Some; congruence|]. rewrite (nth_error_nth l i 0 Q). exact C.
  - destruct (common_rows_ok l (facets true)) as [N1 I1]. split; [exact N1|]. intros i. rewrite I1. cbn [entity_at]. split.
    + intros [Hi Hc]. exists (EFacet (nth i l (0, 0))). rewrite (nth_error_nth_d l i (0, 0) Hi). split; [reflexivity|exact Hc].
    + intros [e [E C]]. destruct (nth_error l i) as [c|] eqn:Q; [|discriminate]. cbn in E. injection E as <-. split; [apply nth_error_Some; congruence|]. rewrite (nth_error_nth l i (0, 0) Q). exact C.
  - destruct (common_rows_ok (map fst l) (facets false)) as [N1 I1]. split; [exact N1|]. intros i. rewrite I1, map_length. cbn [entity_at]. split.
    + intros [Hi Hc]. exists (EFacet2 (fst (nth i l ((0, 0), (0, 0)))) (snd (nth i l ((0, 0), (0, 0))))). rewrite (nth_error_nth_d l i ((0, 0), (0, 0)) Hi). split; [reflexivity|].
      cbn [cut_entity]. rewrite (nth_map_d fst ((0, 0), (0, 0))) in Hc by exact Hi. exact Hc.
    + intros [e [E C]]. destruct (nth_error l i) as [c|] eqn:Q; [|discriminate]. cbn in E. injection E as <-. assert (Hi : i < length l) by (apply nth_error_Some; congruence). split; [exact Hi|].
      rewrite (nth_map_d fst ((0, 0), (0, 0))) by exact Hi. rewrite (nth_error_nth l i _ Q). exact C.
Qed.
Lemma entity_lt dom i e : entity_at dom i = Some e -> i < shape0 dom.
Proof. destruct dom as [l|l|l]; cbn; (destruct (nth_error l i) eqn:Q; [|discriminate]); intros _; apply nth_error_Some; congruence. Qed.

(** Repeated keys. *)
Lemma np_repeat_ok {A B} (g : A -> B) (n : A -> nat) : forall fs, np_repeat (map g fs) (map n fs) = Ret (concat (map (fun f => repeat (g f) (n f)) fs)).
Proof. induction fs as [|f fs IH]; cbn; [reflexivity|]. rewrite IH. reflexivity. Qed.
Lemma combine_app_c {A B} : forall (a c : list A) (b d : list B), length a = length b -> combine (a ++ c) (b ++ d) = combine a b ++ combine c d.
Proof. induction a as [|x a IH]; intros c [|y b] d H; try discriminate; [reflexivity|]. cbn. f_equal. apply IH. injection H as H. exact H. Qed.
Lemma combine_repeat {A B C} (h : A -> B -> C) k : forall l, map (fun p => h (fst p) (snd p)) (combine (repeat k (length l)) l) = map (h k) l.
Proof. induction l as [|x l IH]; cbn; [reflexivity|]. f_equal. exact IH. Qed.
Lemma keyed_concat {F A B C} (h : A -> B -> C) (g : F -> A) (n : F -> nat) (P : F -> list B) : forall fs, (forall f, In f fs -> length (P f) = n f) ->
  map (fun p => h (fst p) (snd p)) (combine (concat (map (fun f => repeat (g f) (n f)) fs)) (concat (map P fs))) = concat (map (fun f => map (h (g f)) (P f)) fs).
Proof.
  induction fs as [|f fs IH]; intros H; [reflexivity|]. cbn [map concat]. rewrite combine_app_c by (rewrite repeat_length; symmetry; apply H; left; reflexivity).
  rewrite map_app, IH by (intros x I; apply H; right; exact I). f_equal. rewrite <- (H f) by (left; reflexivity). apply combine_repeat.
Qed.
Lemma keyed_in {F A B} (g : F -> A) (n : F -> nat) (P : F -> list B) : forall fs k x, (forall f, In f fs -> length (P f) = n f) ->
  In (k, x) (combine (concat (map (fun f => repeat (g f) (n f)) fs)) (concat (map P fs))) -> exists f, In f fs /\ k = g f /\ In x (P f).
Proof.
  induction fs as [|f fs IH]; intros k x H I; [contradiction|]. cbn [map concat] in I. rewrite combine_app_c in I by (rewrite repeat_length; symmetry; apply H; left; reflexivity).
  apply in_app_or in I. destruct I as [I|I].
  - exists f. split; [left; reflexivity|]. split; [apply in_combine_l in I; exact (repeat_spec _ _ _ I)|exact (in_combine_r _ _ _ _ I)].
  - destruct (IH k x) as [f' [A1 A2]]; [intros y J; apply H; right; exact J|exact I|]. exists f'. split; [right; exact A1|exact A2].
Qed.
Lemma keyed_len {F A B} (g : F -> A) (n : F -> nat) (P : F -> list B) : forall fs, (forall f, In f fs -> length (P f) = n f) ->
  length (concat (map P fs)) = length (concat (map (fun f => repeat (g f) (n f)) fs)).
Proof. induction fs as [|f fs IH]; intros H; [reflexivity|]. cbn. rewrite !app_length, repeat_length, IH by (intros y J; apply H; right; exact J). rewrite H by (left; reflexivity). reflexivity. Qed.

Section Facets.
  Variables (ctyp : celltype) (all_perms : list (list nat)) (junk : nat -> vec) (mixed : bool) (dom : idomain).
  Lemma facet_perms_ok {X} (fc : X -> facet) (n : X -> nat) : forall xs, (forall x, In x xs -> fst (fc x) < length all_perms /\ snd (fc x) < length (nth (fst (fc x)) all_perms [])) ->
    get_facet_permutations all_perms (concat (map (fun x => repeat (fst (fc x)) (n x)) xs)) (concat (map (fun x => repeat (snd (fc x)) (n x)) xs))
    = Ret (concat (map (fun x => repeat (perm_of all_perms (fc x)) (n x)) xs)).
  Proof.
    intros xs H. unfold get_facet_permutations, assert_.
    assert (L : length (concat (map (fun x => repeat (fst (fc x)) (n x)) xs)) = length (concat (map (fun x => repeat (snd (fc x)) (n x)) xs))) by (apply (keyed_len _ n); intros f _; apply repeat_length).
    rewrite L, Nat.eqb_refl.
    assert (C : combine (concat (map (fun x => repeat (fst (fc x)) (n x)) xs)) (concat (map (fun x => repeat (snd (fc x)) (n x)) xs)) = concat (map (fun x => repeat (fc x) (n x)) xs)).
    { clear. induction xs as [|x xs IH]; [reflexivity|]. cbn [map concat]. rewrite combine_app_c by (rewrite !repeat_length; reflexivity). rewrite IH. f_equal.
      induction (n x) as [|k IH']; [reflexivity|]. cbn. rewrite IH'. destruct (fc x). reflexivity. }
    rewrite C. rewrite (L_PyNodes.pmap_ret _ (perm_of all_perms)).
    - f_equal. rewrite concat_map, map_map. f_equal. apply map_ext. intros x. induction (n x) as [|k IH]; [reflexivity|]. cbn. f_equal. exact IH.
    - intros f I. apply in_concat in I. destruct I as [l [I1 I2]]. apply in_map_iff in I1. destruct I1 as [x [<- I1]]. apply repeat_spec in I2. subst f.
      destruct (H x I1) as [H1 H2]. rewrite (pat_ret all_perms _ [] H1). cbn [bind]. exact (pat_ret _ _ 0 H2).
  Qed.
  (** The rules are indexed by [x]; the facets to which their points are mapped are [fc x]. *)
  Lemma map_facet_ok {X} (needs : bool) (q : cquad) (xs : list X) (fc : X -> facet) (P : X -> list vec) :
    needs = is_interior dom || mixed -> 2 <= tdim ctyp ->
    q_npts q = map (fun x => length (P x)) xs -> q_points q = concat (map P xs) ->
    (forall x, In x xs -> valid_facet ctyp all_perms mixed dom (fc x) /\ Forall (fun y => length y = tdim ctyp - 1) (P x)) ->
    map_facet_quadrature ctyp all_perms junk needs q (map fc xs) = Ret (concat (map (fun x => map (place ctyp all_perms needs (fc x)) (P x)) xs)).
  Proof.
    intros Hn Hd H1 H2 V. unfold map_facet_quadrature. rewrite H1, H2, !map_map. set (n := fun x => length (P x)).
    rewrite (np_repeat_ok (fun x => fst (fc x)) n), (np_repeat_ok (fun x => snd (fc x)) n). cbn [bind].
    assert (Lp : forall x, In x xs -> length (P x) = n x) by reflexivity.
    assert (Hf : exists fct, facet_cell ctyp = Some fct /\ tdim fct = tdim ctyp - 1) by (destruct ctyp; cbn in *; try lia; eexists; split; reflexivity).
    destruct Hf as [fct [Hf Hft]].
    assert (Q : (if needs then permute_facet_points ctyp all_perms (concat (map P xs)) (concat (map (fun x => repeat (fst (fc x)) (n x)) xs)) (concat (map (fun x => repeat (snd (fc x)) (n x)) xs)) else Ret (concat (map P xs)))
                = Ret (concat (map (fun x => map (fun y => if needs then match facet_cell ctyp with Some f' => moved f' (perm_of all_perms (fc x)) y | None => y end else y) (P x)) xs))).
    { destruct needs.
      - unfold permute_facet_points. rewrite facet_perms_ok by (intros x I; destruct (V x I) as [[_ B] _]; destruct (B (eq_sym Hn)) as [B1 [B2 _]]; auto).
        cbn [bind]. rewrite Hf. rewrite permute_points_ok.
        + f_equal. apply (keyed_concat (moved fct) (fun x => perm_of all_perms (fc x)) n P xs Lp).
        + exists ctyp. exact Hf.
        + apply (keyed_len _ n). exact Lp.
        + intros k y I. apply (keyed_in _ n) in I; [|exact Lp]. destruct I as [x [I1 [-> I2]]]. destruct (V x I1) as [[_ B] F]. destruct (B (eq_sym Hn)) as [_ [_ [f' [E [G1 G2]]]]].
          rewrite Hf in E. injection E as <-. split; [split; assumption|]. rewrite Forall_forall in F. rewrite Hft. apply F. exact I2.
      - f_equal. f_equal. apply map_ext. intros x. symmetry. apply map_id. }
    rewrite Q. cbn [bind].
    set (P' := fun x => map (fun y => if needs then match facet_cell ctyp with Some f' => moved f' (perm_of all_perms (fc x)) y | None => y end else y) (P x)).
    assert (Lp' : forall x, In x xs -> length (P' x) = n x) by (intros x _; apply map_length).
    rewrite map_facets_points_ok.
    - f_equal. rewrite (keyed_concat (embed ctyp) (fun x => snd (fc x)) n P' xs Lp'). f_equal. apply map_ext. intros x. unfold P'. rewrite map_map. reflexivity.
    - apply (keyed_len _ n). exact Lp'.
    - intros k y I. apply (keyed_in _ n) in I; [|exact Lp']. destruct I as [x [I1 [-> I2]]]. destruct (V x I1) as [[B _] F]. split; [exact B|].
      unfold P' in I2. apply in_map_iff in I2. destruct I2 as [y' [<- I2]]. rewrite Forall_forall in F. specialize (F y' I2). rewrite Hf. destruct needs; [rewrite moved_length|]; exact F.
  Qed.
End Facets.
