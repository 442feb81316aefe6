(** C69 - C72: adjusted roots and pruning. *)
From Coq Require Import Reals List Lia Lra Permutation Sorted Arith ZArith.
From Verif Require Import M_Roots S_Mesh S_Roots L_Real L_Point.
Import ListNotations.
Local Close Scope Z_scope. Local Close Scope nat_scope. Local Open Scope R_scope.

(** ** prune *)
Lemma set_at_app {A} (a : list A) x b y n : n = length a -> set_at (a ++ x :: b) n y = a ++ y :: b.
Proof. intros ->. induction a as [|z a IH]; [reflexivity|]. cbn [app length set_at]. rewrite IH. reflexivity. Qed.
Lemma nth_error_mid {A} (a : list A) x b n : n = length a -> nth_error (a ++ x :: b) n = Some x.
Proof. intros ->. induction a; [reflexivity|exact IHa]. Qed.
Section P.
Context {A : Type} (uniform : A -> bool) (alpha : A -> R) (sign : A -> Z).
Lemma prune_loop_ok : forall fuel kept mid tail, (length mid <= fuel)%nat ->
  exists b psi' c', prune_loop uniform alpha sign fuel (kept ++ mid ++ tail) (length kept + length mid) (length kept) = Ret (b, psi', c') /\
    Permutation psi' (kept ++ mid ++ tail) /\
    (b = true <-> forall p, In p mid -> uniform p = true -> consistent alpha sign p = true) /\
    (b = true -> Permutation (firstn c' psi') (kept ++ filter (fun p => negb (uniform p)) mid) /\ c' = length (kept ++ filter (fun p => negb (uniform p)) mid)).
Proof.
  induction fuel as [|fuel IH]; intros kept mid tail Hf.
  - destruct mid as [|p mid]; [|cbn [length] in Hf; lia]. exists true, (kept ++ tail), (length kept). cbn [prune_loop length app filter]. rewrite Nat.add_0_r, Nat.ltb_irrefl.
    split; [reflexivity|]. split; [reflexivity|]. split; [split; [intros _ p []|reflexivity]|]. intros _. rewrite firstn_app, firstn_all, Nat.sub_diag, app_nil_r. cbn [firstn]. rewrite app_nil_r. split; reflexivity.
  - destruct mid as [|p mid].
    + exists true, (kept ++ tail), (length kept). cbn [prune_loop length app filter]. rewrite Nat.add_0_r, Nat.ltb_irrefl.
      split; [reflexivity|]. split; [reflexivity|]. split; [split; [intros _ p []|reflexivity]|]. intros _. rewrite firstn_app, firstn_all, Nat.sub_diag, app_nil_r. cbn [firstn]. rewrite app_nil_r. split; reflexivity.
    + cbn [length] in Hf. cbn [prune_loop]. replace (length kept <? length kept + length (p :: mid))%nat with true by (symmetry; apply Nat.ltb_lt; cbn [length]; lia).
      cbn [app]. rewrite (nth_error_mid kept p (mid ++ tail)) by reflexivity. destruct (uniform p) eqn:Eu.
      * destruct (consistent alpha sign p) eqn:Ec.
        -- destruct (rev mid) as [|q rm] eqn:Er.
           ++ assert (Em : mid = []) by (rewrite <- (rev_involutive mid), Er; reflexivity). subst mid. cbn [length app] in *.
              replace (length kept + 1 - 1)%nat with (length kept) by lia. rewrite (nth_error_mid kept p tail) by reflexivity. rewrite !set_at_app by reflexivity.
              destruct (IH kept [] (p :: tail) ltac:(cbn; lia)) as (b & psi' & c' & E & Pm & Hb & Hc). cbn [app length] in *. rewrite Nat.add_0_r in E. rewrite E.
              exists b, psi', c'. split; [reflexivity|]. split; [exact Pm|]. split.
              ** rewrite Hb. split; [intros _ r [<- | []] _; exact Ec|intros _ r []].
              ** intros Hbt. destruct (Hc Hbt) as [Pf Hl]. cbn [filter]. rewrite Eu. cbn [negb]. split; assumption.
           ++ assert (Em : mid = rev rm ++ [q]) by (rewrite <- (rev_involutive mid), Er; reflexivity). set (m := rev rm) in *. subst mid.
              rewrite app_length in Hf. cbn [length] in *. rewrite ?app_length. cbn [length].
              replace (length kept + S (length m + 1) - 1)%nat with (length (kept ++ p :: m)) by (rewrite app_length; cbn [length]; lia).
              replace (kept ++ p :: (m ++ [q]) ++ tail) with ((kept ++ p :: m) ++ q :: tail) by (rewrite <- !app_assoc; reflexivity).
              rewrite (nth_error_mid (kept ++ p :: m) q tail) by reflexivity.
              replace ((kept ++ p :: m) ++ q :: tail) with (kept ++ p :: (m ++ q :: tail)) by (rewrite <- !app_assoc; reflexivity).
              rewrite set_at_app by reflexivity. replace (kept ++ q :: m ++ q :: tail) with ((kept ++ q :: m) ++ q :: tail) by (rewrite <- !app_assoc; reflexivity).
              rewrite set_at_app by (rewrite !app_length; reflexivity).
              destruct (IH kept (q :: m) (p :: tail) ltac:(cbn [length]; lia)) as (b & psi' & c' & E & Pm & Hb & Hc).
              replace ((kept ++ q :: m) ++ p :: tail) with (kept ++ (q :: m) ++ p :: tail) by (rewrite <- !app_assoc; reflexivity).
              replace (length (kept ++ p :: m)) with (length kept + length (q :: m))%nat by (rewrite app_length; reflexivity). rewrite E.
              assert (PP : Permutation (q :: m) (m ++ [q])) by apply Permutation_cons_append.
              exists b, psi', c'. split; [reflexivity|]. split.
              ** rewrite Pm. apply Permutation_app_head. rewrite <- ?app_assoc. cbn [app]. rewrite <- !Permutation_middle. apply perm_swap.
              ** split.
                 --- rewrite Hb. split.
                     +++ intros H r Hr Hu. destruct Hr as [<- | Hr]; [exact Ec|]. apply H; [|exact Hu]. apply in_app_or in Hr as [Hr | [<- | []]]; [right; exact Hr|left; reflexivity].
                     +++ intros H r Hr Hu. apply H; [|exact Hu]. right. apply in_or_app. destruct Hr as [<- | Hr]; [right; left; reflexivity|left; exact Hr].
                 --- intros Hbt. destruct (Hc Hbt) as [Pf Hl].
                     assert (FP : Permutation (filter (fun p0 => negb (uniform p0)) (q :: m)) (filter (fun p0 => negb (uniform p0)) (p :: m ++ [q]))).
                     { cbn [filter]. rewrite Eu. cbn [negb]. rewrite filter_app. cbn [filter]. destruct (uniform q); cbn [negb]; [rewrite app_nil_r; reflexivity|apply Permutation_cons_append]. }
                     split; [rewrite Pf; apply Permutation_app_head; exact FP|]. rewrite Hl, !app_length. f_equal. apply Permutation_length. exact FP.
        -- exists false, (kept ++ p :: mid ++ tail), (length kept + S (length mid))%nat. split; [reflexivity|]. split; [reflexivity|]. split; [|discriminate].
           split; [discriminate|]. intros H. specialize (H p (or_introl eq_refl) Eu). congruence.
      * destruct (IH (kept ++ [p]) mid tail ltac:(lia)) as (b & psi' & c' & E & Pm & Hb & Hc). rewrite <- !app_assoc in *. cbn [app] in *. rewrite app_length in E. cbn [length] in *.
        replace (length kept + 1 + length mid)%nat with (length kept + S (length mid))%nat in E by lia. replace (length kept + 1)%nat with (S (length kept)) in E by lia. rewrite E.
        exists b, psi', c'. split; [reflexivity|]. split; [exact Pm|]. split.
        -- rewrite Hb. split; [intros H r [<- | Hr] Hu; [congruence|apply H; assumption]|intros H r Hr Hu; apply H; [right; exact Hr|exact Hu]].
        -- intros Hbt. destruct (Hc Hbt) as [Pf Hl]. cbn [filter]. rewrite Eu. cbn [negb]. split; [exact Pf|exact Hl].
Qed.
Lemma prune_ok psi count : (count <= length psi)%nat ->
  exists b psi' c', prune uniform alpha sign psi count = Ret (b, psi', c') /\ Permutation psi' psi /\
    (b = true <-> forall p, In p (firstn count psi) -> uniform p = true -> consistent alpha sign p = true) /\
    (b = true -> Permutation (firstn c' psi') (filter (fun p => negb (uniform p)) (firstn count psi)) /\ c' = length (filter (fun p => negb (uniform p)) (firstn count psi))).
Proof.
  intros H. unfold prune. destruct (prune_loop_ok count [] (firstn count psi) (skipn count psi)) as (b & psi' & c' & E & R); [rewrite firstn_length; lia|].
  cbn [app length] in *. rewrite firstn_skipn in *. rewrite firstn_length, Nat.min_l in E by exact H. exists b, psi', c'. split; [exact E|exact R].
Qed.
End P.

(** ** adjust_roots *)
Section Adj.
Variables (tol x0 x1 : R).
Definition nv (prev : option R) (r : R) : R :=
  if tol_equal tol r x0 then x0 else if tol_equal tol r x1 then x1 else
  match prev with Some p => if tol_equal tol r p then p else r | None => r end.
Fixpoint newl (prev : option R) (old : list (R * Z)) : list (R * Z) :=
  match old with [] => [] | (r, k) :: old' => (nv prev r, k) :: newl (Some r) old' end.
Definition nonmark (e : R * Z) : bool := negb (snd e =? -1)%Z.
Definition good (e : R * Z) : Prop := x0 <= fst e <= x1 /\ (snd e = (-1)%Z -> fst e = x0 \/ fst e = x1).
Context (Htol : 0 <= tol < x1 - x0).

Lemma tol_equal_iff a b : tol_equal tol a b = true <-> Rabs (a - b) <= tol.
Proof. unfold tol_equal. apply Rleb_true. Qed.
Lemma tol_equal_niff a b : tol_equal tol a b = false <-> tol < Rabs (a - b).
Proof. unfold tol_equal. apply Rleb_false. Qed.

Lemma loop_eq : forall old prev has, Forall good old ->
  adjust_loop tol x0 x1 prev old has = (filter nonmark (newl prev old),
    (fst has || existsb (fun e => tol_equal tol (fst e) x0 && (snd e =? -1)%Z) old, snd has || existsb (fun e => negb (tol_equal tol (fst e) x0) && tol_equal tol (fst e) x1 && (snd e =? -1)%Z) old))%bool.
Proof.
  induction old as [|[r k] old IH]; intros prev has HG; cbn [adjust_loop newl filter existsb].
  - rewrite !Bool.orb_false_r. destruct has; reflexivity.
  - inversion HG as [|? ? [Hr Hk] HG']; subst. rewrite IH by exact HG'. cbn [fst snd] in *. unfold adjust_step, nv, nonmark. cbn [snd].
    destruct (tol_equal tol r x0) eqn:E0; destruct (tol_equal tol r x1) eqn:E1; destruct (Z.eqb_spec k (-1)) as [Ek|Ek]; cbn [fst snd andb orb negb app];
      try (destruct has as [[] []]; reflexivity).
    all: try (destruct prev as [p|]; [destruct (tol_equal tol r p)|]; destruct has as [[] []]; reflexivity).
    exfalso. apply tol_equal_niff in E0. apply tol_equal_niff in E1. destruct (Hk Ek) as [-> | ->]; [rewrite Rminus_eq_0, Rabs_R0 in E0|rewrite Rminus_eq_0, Rabs_R0 in E1]; lra.
Qed.

Definition ole (prev : option R) (r : R) : Prop := match prev with Some p => p <= r | None => True end.
Fixpoint asc (prev : option R) (l : list (R * Z)) : Prop := match l with [] => True | (r, _) :: l' => ole prev r /\ asc (Some r) l' end.
Ltac eqs := repeat match goal with
  | |- context [tol_equal tol ?a ?b] => let E := fresh "E" in destruct (tol_equal tol a b) eqn:E; [apply tol_equal_iff in E|apply tol_equal_niff in E]
  end.
Ltac rab := repeat match goal with H : context [Rabs ?t] |- _ => revert H; unfold Rabs; destruct (Rcase_abs t); intros H | |- context [Rabs ?t] => unfold Rabs; destruct (Rcase_abs t) end.
Lemma nv_mono q p r : ole q p -> x0 <= p -> p <= r -> r <= x1 -> nv q p <= nv (Some p) r.
Proof. unfold nv, ole. intros. destruct q as [q|]; eqs; rab; lra. Qed.
Lemma nv_near q p : ole q p -> x0 <= p <= x1 -> (forall q', q = Some q' -> x0 <= q') -> x0 <= nv q p <= x1 /\ Rabs (p - nv q p) <= tol.
Proof. unfold nv, ole. intros H H1 H2. destruct q as [q|]; [specialize (H2 q eq_refl)|]; eqs; rab; try lra; destruct (Rcase_abs (p - p)); lra. Qed.
Lemma newl_sorted : forall old q p, ole q p -> x0 <= p -> asc (Some p) old -> Forall (fun e => fst e <= x1) old ->
  Sorted Rle (nv q p :: map fst (newl (Some p) old)).
Proof.
  induction old as [|[r k] old IH]; intros q p Hq Hp Ha Hb; cbn [newl map]; [constructor; constructor|].
  cbn [asc ole] in Ha. inversion Hb; subst. cbn [fst] in *. constructor; [apply IH; cbn [ole]; try tauto; lra|]. constructor. apply nv_mono; tauto.
Qed.
Lemma newl_sorted0 old : asc None old -> Forall (fun e => x0 <= fst e <= x1) old -> Sorted Rle (map fst (newl None old)).
Proof.
  destruct old as [|[r k] old]; intros Ha Hb; cbn [newl map]; [constructor|]. inversion Hb; subst. apply newl_sorted; cbn [ole asc fst] in *; try tauto.
  eapply Forall_impl; [|eassumption]. cbn. intros; lra.
Qed.
Lemma newl_match : forall old prev, asc prev old -> Forall (fun e => x0 <= fst e <= x1) old -> (forall q, prev = Some q -> x0 <= q) ->
  Forall2 (fun o n => snd o = snd n /\ x0 <= fst n <= x1 /\ Rabs (fst o - fst n) <= tol) old (newl prev old).
Proof.
  induction old as [|[r k] old IH]; intros prev Ha Hb Hp; cbn [newl]; [constructor|]. inversion Hb; subst. cbn [asc fst] in *. constructor.
  - cbn [fst snd]. split; [reflexivity|]. apply nv_near; tauto.
  - apply IH; try tauto. intros q E. injection E as <-. lra.
Qed.
Lemma filter_match (Q : R * Z -> R * Z -> Prop) : forall a b, Forall2 (fun o n => snd o = snd n /\ Q o n) a b -> Forall2 (fun o n => snd o = snd n /\ Q o n) (filter nonmark a) (filter nonmark b).
Proof.
  induction 1 as [|o n a b [Hs HQ] Ht IH]; cbn [filter]; [constructor|]. replace (nonmark o) with (nonmark n) by (unfold nonmark; rewrite Hs; reflexivity). destruct (nonmark n); [constructor; [split; assumption|exact IH]|exact IH].
Qed.
Lemma filter_sorted (f : R * Z -> bool) l : StronglySorted Rle (map fst l) -> StronglySorted Rle (map fst (filter f l)).
Proof.
  induction l as [|e l IH]; intros HS; cbn [filter map] in *; [constructor|]. inversion HS; subst. destruct (f e); [|apply IH; assumption].
  cbn [map]. constructor; [apply IH; assumption|]. rewrite Forall_forall in *. intros x Hx. apply in_map_iff in Hx as (y & <- & Hy). apply filter_In in Hy. apply H2. apply in_map, Hy.
Qed.
(** Gaps. *)
Lemma chain_x0 : forall pre p r post, no_chain tol (x0 :: pre ++ p :: r :: post) -> Sorted Rle (x0 :: pre ++ p :: r :: post) -> p - x0 <= tol -> r - p <= tol -> p = x0.
Proof.
  induction pre as [|a pre IH] using rev_ind; intros p r post Hn HS H1 H2.
  - symmetry. apply (Hn [] x0 p r post eq_refl H1 H2).
  - apply Sorted_StronglySorted in HS; [|intros u v w; apply Rle_trans].
    assert (x0 <= a /\ a <= p) as [Ha Hap].
    { inversion HS; subst. rewrite Forall_forall in H4. split; [apply H4; rewrite <- app_assoc; apply in_or_app; right; left; reflexivity|].
      clear - H3. rewrite <- app_assoc in H3. cbn [app] in H3. induction pre as [|z pre IHp]; cbn [app] in H3; inversion H3; subst; [|apply IHp; assumption]. rewrite Forall_forall in H2. apply H2. left. reflexivity. }
    assert (E : a = p) by (apply (Hn (x0 :: pre) a p r post); [cbn [app]; rewrite <- app_assoc; reflexivity|lra|exact H2]).
    subst a. apply (IH p p (r :: post)); [|apply StronglySorted_Sorted|exact H1|lra]; rewrite <- app_assoc in *; assumption.
Qed.
Definition apart (a b : R) : Prop := a = b \/ tol < b - a.
Lemma nv_gap pre p r post : no_chain tol (x0 :: pre ++ p :: r :: post) -> Sorted Rle (x0 :: pre ++ p :: r :: post) -> r <= x1 ->
  forall q, (pre = [] /\ q = None \/ exists pre' q', pre = pre' ++ [q'] /\ q = Some q') -> apart (nv q p) (nv (Some p) r).
Proof.
  intros Hn HS Hr q Hq. pose proof (chain_x0 pre p r post Hn HS) as Hc. pose proof HS as HS2.
  apply Sorted_StronglySorted in HS; [|intros u v w; apply Rle_trans].
  assert (Hp0 : x0 <= p) by (inversion HS; subst; rewrite Forall_forall in H2; apply H2; apply in_or_app; right; left; reflexivity).
  assert (Hpr : p <= r).
  { clear - HS. revert HS. generalize (x0 :: pre). intros l. change (x0 :: pre ++ p :: r :: post) with ((x0 :: pre) ++ p :: r :: post). intros HS.
    assert (G : forall l, StronglySorted Rle (l ++ p :: r :: post) -> p <= r).
    { clear. induction l as [|z l IH]; cbn [app]; intros HS; inversion HS; subst; [|apply IH; assumption]. rewrite Forall_forall in H2. apply H2. left. reflexivity. }
    exact (G _ HS). }
  destruct Hq as [[-> ->] | (pre' & q' & -> & ->)].
  - unfold apart, nv. eqs; rab; try lra; try (left; lra); try (right; lra).
    all: left; symmetry; try (apply Hc; lra).
  - assert (Hqp : x0 <= q' /\ q' <= p).
    { inversion HS; subst. rewrite Forall_forall in H2. split; [apply H2; rewrite <- app_assoc; apply in_or_app; right; left; reflexivity|].
      clear - H1. rewrite <- app_assoc in H1. cbn [app] in H1. induction pre' as [|z l IHp]; cbn [app] in H1; inversion H1; subst; [|apply IHp; assumption]. rewrite Forall_forall in H3. apply H3. left. reflexivity. }
    assert (Hch : p - q' <= tol -> r - p <= tol -> q' = p) by (apply (Hn (x0 :: pre') q' p r post); cbn [app]; rewrite <- app_assoc; reflexivity).
    unfold apart, nv. eqs; rab; try lra; try (left; lra); try (right; lra).
    all: left; try (apply Hch; lra); try (symmetry; apply Hc; lra).
Qed.

Fixpoint gapl (l : list R) : Prop := match l with a :: ((b :: _) as l') => apart a b /\ gapl l' | _ => True end.
Lemma newl_gap : forall old pre q p post, no_chain tol (x0 :: pre ++ p :: map fst old ++ post) -> Sorted Rle (x0 :: pre ++ p :: map fst old ++ post) -> Forall (fun e => fst e <= x1) old ->
  (pre = [] /\ q = None \/ exists pre' q', pre = pre' ++ [q'] /\ q = Some q') -> gapl (nv q p :: map fst (newl (Some p) old)).
Proof.
  induction old as [|[r k] old IH]; intros pre q p post Hn HS Hb Hq; cbn [newl map]; [exact I|]. inversion Hb; subst. cbn [map fst app] in *. split.
  - apply (nv_gap pre p r (map fst old ++ post)); assumption.
  - apply (IH (pre ++ [p]) (Some p) r post); [rewrite <- app_assoc; exact Hn|rewrite <- app_assoc; exact HS|assumption|right; exists pre, p; split; reflexivity].
Qed.
Lemma gap_pairs : forall l, Sorted Rle l -> gapl l -> forall a b, In a l -> In b l -> a = b \/ tol < Rabs (a - b).
Proof.
  induction l as [|x l IH]; intros HS HG a b Ha Hb; [destruct Ha|].
  assert (K : forall y, In y l -> x = y \/ tol < y - x).
  { destruct l as [|z l]; [intros y []|]. destruct HG as [Hxz HG]. inversion HS; subst. intros y Hy. inversion H2; subst.
    assert (z = y \/ tol < Rabs (z - y)) as [<- | Hzy] by (apply (IH H1 HG); [left; reflexivity|exact Hy]); [exact Hxz|].
    apply Sorted_StronglySorted in H1; [|intros u v w; apply Rle_trans]. inversion H1 as [|? ? _ HF]; subst. assert (z <= y) by (destruct Hy as [<- | Hy]; [lra|rewrite Forall_forall in HF; auto]).
    right. destruct Hxz as [-> | Hxz]; rab; lra. }
  inversion HS; subst. assert (HG' : gapl l) by (destruct l; [exact I|apply HG]).
  destruct Ha as [<- | Ha]; destruct Hb as [<- | Hb]; [left; reflexivity| | |apply IH; assumption].
  - destruct (K _ Hb); [left; assumption|right; rab; lra].
  - destruct (K _ Ha); [left; symmetry; assumption|right; rab; lra].
Qed.
Lemma newl_in : forall old prev r k, In (r, k) old -> exists q, In (nv q r, k) (newl prev old).
Proof.
  induction old as [|[r' k'] old IH]; intros prev r k HI; [destruct HI|]. cbn [newl]. destruct HI as [E | HI].
  - injection E as -> ->. exists prev. left. reflexivity.
  - destruct (IH (Some r') r k HI) as [q Hq]. exists q. right. exact Hq.
Qed.
Lemma nv_x0 q : nv q x0 = x0.
Proof. unfold nv. replace (tol_equal tol x0 x0) with true; [reflexivity|]. symmetry. apply tol_equal_iff. rewrite Rminus_eq_0, Rabs_R0. lra. Qed.
Lemma nv_x1 q : nv q x1 = x1.
Proof.
  unfold nv. replace (tol_equal tol x1 x0) with false by (symmetry; apply tol_equal_niff; rewrite Rabs_right; lra).
  replace (tol_equal tol x1 x1) with true; [reflexivity|]. symmetry. apply tol_equal_iff. rewrite Rminus_eq_0, Rabs_R0. lra.
Qed.
Lemma has_x0 old : Forall good old -> existsb (fun e => (tol_equal tol (fst e) x0 && (snd e =? -1)%Z)%bool) old = true <-> In (x0, (-1)%Z) old.
Proof.
  intros HG. rewrite existsb_exists. split.
  - intros ([r k] & HI & H). apply andb_prop in H as [H1 H2]. cbn [fst snd] in *. apply tol_equal_iff in H1. apply Z.eqb_eq in H2. subst k.
    rewrite Forall_forall in HG. destruct (HG _ HI) as [_ H]. cbn [fst snd] in H. destruct (H eq_refl) as [-> | ->]; [exact HI|]. rab; lra.
  - intros HI. eexists. split; [exact HI|]. cbn [fst snd]. apply andb_true_intro. split; [|reflexivity]. apply tol_equal_iff. rewrite Rminus_eq_0, Rabs_R0. lra.
Qed.
Lemma has_x1 old : Forall good old -> existsb (fun e => (negb (tol_equal tol (fst e) x0) && tol_equal tol (fst e) x1 && (snd e =? -1)%Z)%bool) old = true <-> In (x1, (-1)%Z) old.
Proof.
  intros HG. rewrite existsb_exists. split.
  - intros ([r k] & HI & H). apply andb_prop in H as [H H2]. apply andb_prop in H as [H0 H1]. cbn [fst snd] in *. apply tol_equal_iff in H1. apply Z.eqb_eq in H2. subst k.
    rewrite Forall_forall in HG. destruct (HG _ HI) as [_ H]. cbn [fst snd] in H. destruct (H eq_refl) as [-> | ->]; [|exact HI].
    rewrite (proj2 (tol_equal_iff x0 x0)) in H0 by (rewrite Rminus_eq_0, Rabs_R0; lra). discriminate.
  - intros HI. eexists. split; [exact HI|]. cbn [fst snd]. rewrite (proj2 (tol_equal_niff x1 x0)) by (rewrite Rabs_right; lra). apply andb_true_intro. split; [|reflexivity]. cbn [negb andb]. apply tol_equal_iff. rewrite Rminus_eq_0, Rabs_R0. lra.
Qed.
Lemma no_descent_asc : forall l prev, no_descent root_less l -> (forall r k l', l = (r, k) :: l' -> ole prev r) -> asc prev l.
Proof.
  induction l as [|[r k] l IH]; intros prev HN Hp; cbn [asc]; [exact I|]. split; [apply (Hp r k l eq_refl)|]. apply IH.
  - destruct l as [|[r' k'] l]; [exact I|apply HN].
  - intros r' k' l' ->. destruct HN as [HN _]. unfold root_less in HN. cbn [fst] in HN. cbn [ole]. unfold Rltb in HN. destruct (Rlt_dec r' r); [discriminate|lra].
Qed.
Lemma asc_sorted : forall l prev x, asc (Some prev) l -> x <= prev -> Sorted Rle (x :: prev :: map fst l).
Proof.
  induction l as [|[r k] l IH]; intros prev x Ha Hx; cbn [map]; [constructor; [constructor; constructor|constructor; exact Hx]|]. cbn [asc ole] in Ha. constructor; [apply IH; tauto|constructor; exact Hx].
Qed.
End Adj.

Lemma add_roots_ok : forall l ri, Forall (fun e => (-1 <= snd e)%Z) l -> add_roots ri l = Ret (mk_ri (ri_roots ri ++ map fst l) (ri_func_ids ri ++ map snd l) (ri_roots_ids ri ++ l)).
Proof.
  induction l as [|[r k] l IH]; intros ri Hl; cbn [add_roots map]; [rewrite !app_nil_r; destruct ri; reflexivity|]. inversion Hl; subst. cbn [snd] in *.
  unfold add_root. replace (-1 <=? k)%Z with true by (symmetry; apply Z.leb_le; assumption). cbn [assert_ bind]. rewrite IH by assumption. cbn [ri_roots ri_func_ids ri_roots_ids]. rewrite <- !app_assoc. reflexivity.
Qed.
Lemma combine_fst_snd (l : list (R * Z)) : combine (map fst l) (map snd l) = l.
Proof. induction l as [|[] l IH]; [reflexivity|]. cbn [map combine fst snd]. rewrite IH. reflexivity. Qed.
Lemma adjust_eq sort tol x0 x1 entries : sorts_by root_less sort -> 0 <= tol < x1 - x0 -> Forall (root_in x0 x1) entries ->
  exists s first last, s = sort entries /\ once_if_present (x0, (-1)%Z) entries first /\ once_if_present (x1, (-1)%Z) entries last /\
    let out := first ++ filter nonmark (newl tol x0 x1 None s) ++ last in
    adjust_roots sort tol x0 x1 (mk_ri (map fst entries) (map snd entries) entries) = Ret (mk_ri (map fst out) (map snd out) out).
Proof.
  intros HS Ht HG. destruct (HS entries) as [HP HN]. exists (sort entries).
  assert (HGs : Forall (good x0 x1) (sort entries)) by (eapply Permutation_Forall; [symmetry; exact HP|]; eapply Forall_impl; [|exact HG]; intros e (H1 & _ & H2); split; assumption).
  set (s := sort entries) in *.
  exists (if existsb (fun e => (tol_equal tol (fst e) x0 && (snd e =? -1)%Z)%bool) s then [(x0, (-1)%Z)] else []),
    (if existsb (fun e => (negb (tol_equal tol (fst e) x0) && tol_equal tol (fst e) x1 && (snd e =? -1)%Z)%bool) s then [(x1, (-1)%Z)] else []).
  split; [reflexivity|].
  assert (I0 : In (x0, (-1)%Z) entries <-> In (x0, (-1)%Z) s) by (split; apply Permutation_in; [symmetry|]; exact HP).
  assert (I1 : In (x1, (-1)%Z) entries <-> In (x1, (-1)%Z) s) by (split; apply Permutation_in; [symmetry|]; exact HP).
  pose proof (has_x0 tol x0 x1 Ht s HGs) as H0. pose proof (has_x1 tol x0 x1 Ht s HGs) as H1.
  split; [|split].
  - clear H1 I1. unfold once_if_present. destruct (existsb _ s); split; intros K; try reflexivity; exfalso; [apply K, I0, H0; reflexivity|apply I0, H0 in K; discriminate].
  - clear H0 I0. unfold once_if_present. destruct (existsb _ s); split; intros K; try reflexivity; exfalso; [apply K, I1, H1; reflexivity|apply I1, H1 in K; discriminate].
  - cbv zeta. unfold adjust_roots. cbn [ri_roots]. destruct (map fst entries) as [|h t] eqn:Em.
    { assert (entries = []) as Ee by (destruct entries; [reflexivity|discriminate]). assert (Es : s = []) by (apply Permutation_nil; rewrite Ee in HP; symmetry; exact HP). rewrite Es, Ee. reflexivity. }
    rewrite <- Em. unfold sort_roots. cbn [ri_roots ri_func_ids ri_roots_ids]. fold s.
    assert (EL : length s = length entries) by (apply Permutation_length; exact HP).
    rewrite !map_length, EL, Nat.leb_refl. cbn [assert_ bind ri_roots ri_func_ids]. rewrite <- EL, firstn_all, skipn_all2 by (rewrite map_length, EL; lia).
    rewrite app_nil_r, !map_length, Nat.leb_refl. cbn [assert_]. rewrite combine_fst_snd, (loop_eq tol x0 x1 Ht) by exact HGs. cbn [fst snd orb]. reflexivity.
Qed.
Lemma rz_dec : forall a b : R * Z, {a = b} + {a <> b}.
Proof. intros [a i] [b j]. destruct (Req_EM_T a b) as [-> | H]; [|right; congruence]. destruct (Z.eq_dec i j) as [-> | H]; [left; reflexivity|right; congruence]. Defined.
Lemma asc_sorted_end : forall l prev x x1, asc (Some prev) l -> x <= prev -> prev <= x1 -> Forall (fun e => fst e <= x1) l -> Sorted Rle (x :: prev :: map fst l ++ [x1]).
Proof.
  induction l as [|[r k] l IH]; intros prev x x1 Ha Hx H1 Hl; cbn [map app]; [constructor; [constructor; [constructor; constructor|constructor; exact H1]|constructor; exact Hx]|].
  inversion Hl; subst. cbn [asc ole fst] in *. constructor; [apply IH; tauto|constructor; exact Hx].
Qed.

(** A correct sorting function. *)
Fixpoint rins (e : R * Z) (l : list (R * Z)) : list (R * Z) := match l with [] => [e] | x :: l' => if root_less x e then x :: rins e l' else e :: x :: l' end.
Definition rsort_ins (l : list (R * Z)) : list (R * Z) := fold_right rins [] l.
Lemma rins_perm e l : Permutation (rins e l) (e :: l).
Proof. induction l as [|x l IH]; cbn [rins]; [reflexivity|]. destruct (root_less x e); [|reflexivity]. rewrite IH. apply perm_swap. Qed.
Lemma rins_sorted e l : no_descent root_less l -> no_descent root_less (rins e l).
Proof.
  induction l as [|x l IH]; intros HN; cbn [rins]; [exact I|]. destruct (root_less x e) eqn:E.
  - assert (HN' : no_descent root_less l) by (destruct l; [exact I|apply HN]). specialize (IH HN'). unfold root_less, Rltb in E.
    destruct l as [|y l]; cbn [rins] in *.
    + split; [|exact I]. unfold root_less, Rltb. destruct (Rlt_dec (fst x) (fst e)); [|discriminate]. destruct (Rlt_dec (fst e) (fst x)); [lra|reflexivity].
    + destruct (root_less y e); (split; [|exact IH]); [apply HN|]. unfold root_less, Rltb. destruct (Rlt_dec (fst x) (fst e)); [|discriminate]. destruct (Rlt_dec (fst e) (fst x)); [lra|reflexivity].
  - split; [exact E|exact HN].
Qed.
Lemma rsort_ins_ok : sorts_by root_less rsort_ins.
Proof.
  intros l. induction l as [|e l [IP IN]]; [split; [reflexivity|exact I]|]. unfold rsort_ins in *. cbn [fold_right]. split; [rewrite rins_perm, IP; reflexivity|apply rins_sorted; exact IN].
Qed.
Lemma mapM_const {A} (x : R) : forall l : list A, mapM (fun _ => Ret x) l = Ret (repeat x (length l)).
Proof. induction l as [|a l IH]; [reflexivity|]. cbn [mapM]. rewrite IH. reflexivity. Qed.
