(** Lemmas for custom_quad_utils.py. *)
From Coq Require Import List Reals Lia Lra Arith.
From Verif Require Import M_PyBase M_PyQuadUtils S_PyQuadUtils.
Import ListNotations.
Local Open Scope R_scope.

Lemma len0 {A} (l : list A) : length l = 0%nat -> l = [].
Proof. destruct l; [reflexivity|discriminate]. Qed.
Lemma len1 {A} (l : list A) : length l = 1%nat -> exists a, l = [a].
Proof. destruct l as [|a [|b l]]; try discriminate. exists a. reflexivity. Qed.
Lemma len2 {A} (l : list A) : length l = 2%nat -> exists a b, l = [a; b].
Proof. destruct l as [|a [|b [|d l]]]; try discriminate. exists a, b. reflexivity. Qed.

Lemma map_single_ok c f x : (f < n_facets c)%nat -> length x = (tdim c - 1)%nat -> map_single_facet_point c f x = Ret (embed c f x).
Proof.
  intros Hf Hx.
  destruct c; cbn in Hf, Hx;
    [apply len0 in Hx; subst x|apply len1 in Hx; destruct Hx as [a ->]|apply len2 in Hx; destruct Hx as [a [b ->]]
    |apply len1 in Hx; destruct Hx as [a ->]|apply len2 in Hx; destruct Hx as [a [b ->]]];
    do 6 (try destruct f as [|f]; try lia); cbn; unfold vaxpy, vsub; cbn; unfold embed, hyper_facet, insert_coord; cbn; apply f_equal; repeat (apply (f_equal2 (@cons R)); [ring|]); reflexivity.
Qed.
Lemma embed_length c f x : (f < n_facets c)%nat -> length x = (tdim c - 1)%nat -> length (embed c f x) = tdim c.
Proof.
  intros Hf Hx.
  destruct c; cbn in Hf, Hx;
    [apply len0 in Hx; subst x|apply len1 in Hx; destruct Hx as [a ->]|apply len2 in Hx; destruct Hx as [a [b ->]]
    |apply len1 in Hx; destruct Hx as [a ->]|apply len2 in Hx; destruct Hx as [a [b ->]]];
    do 6 (try destruct f as [|f]; try lia); reflexivity.
Qed.

(** The loop over the different keys assigns every row once. *)
Lemma put_where_ok {S} k (g : S -> outcome vec) (h : S -> vec) : forall keys src cur, length src = length keys -> length cur = length keys ->
  (forall s, In (k, s) (combine keys src) -> g s = Ret (h s)) ->
  put_where k g keys src cur = Ret (map (fun p => if (fst (fst p) =? k)%nat then h (snd (fst p)) else snd p) (combine (combine keys src) cur)).
Proof.
  induction keys as [|k' keys IH]; intros [|s src] [|c cur] L1 L2 H; try discriminate; [reflexivity|].
  cbn [put_where combine map fst snd].
  injection L1 as L1. injection L2 as L2.
  assert (E : (if (k' =? k)%nat then g s else Ret c) = Ret (if (k' =? k)%nat then h s else c)).
  { destruct (Nat.eqb_spec k' k) as [->|n]; [|reflexivity]. apply H. left. reflexivity. }
  rewrite E. cbn [bind].
  rewrite (IH src cur L1 L2). { reflexivity. }
  intros s' I. apply H. right. exact I.
Qed.
Definition upd_rows {S} (h : nat -> S -> vec) (us : list nat) (l : list (nat * S)) (cur : list vec) : list vec :=
  map (fun p => if in_dec Nat.eq_dec (fst (fst p)) us then h (fst (fst p)) (snd (fst p)) else snd p) (combine l cur).
Lemma upd_step {S} (h : nat -> S -> vec) k us : forall (l : list (nat * S)) cur, length cur = length l -> ~ In k us ->
  upd_rows h us l (map (fun p => if (fst (fst p) =? k)%nat then h k (snd (fst p)) else snd p) (combine l cur)) = upd_rows h (k :: us) l cur.
Proof.
  unfold upd_rows. induction l as [|[k' s] l IH]; intros [|c cur] L N; try discriminate; [reflexivity|].
  cbn [combine map fst snd]. f_equal.
  - destruct (Nat.eqb_spec k' k) as [->|n].
    + destruct (in_dec Nat.eq_dec k us); [contradiction|]. destruct (in_dec Nat.eq_dec k (k :: us)) as [_|x]; [reflexivity|]. exfalso. apply x. left. reflexivity.
    + destruct (in_dec Nat.eq_dec k' us) as [i|i]; destruct (in_dec Nat.eq_dec k' (k :: us)) as [j|j]; try reflexivity.
      * exfalso. apply j. right. exact i.
      * exfalso. destruct j as [->|j]; [apply n; reflexivity|contradiction].
  - apply IH; [injection L as L; exact L|exact N].
Qed.
Lemma nth_map_d {A B} (f : A -> B) d d' : forall l i, (i < length l)%nat -> nth i (map f l) d' = f (nth i l d).
Proof. induction l as [|x l IH]; intros [|i] H; cbn in *; try lia; [reflexivity|apply IH; lia]. Qed.
Lemma comb_len {A B} (a : list A) : forall b : list B, length b = length a -> length (combine a b) = length a.
Proof. intros b H. rewrite combine_length, H. apply Nat.min_id. Qed.
Lemma upd_none {S} (h : nat -> S -> vec) : forall (l : list (nat * S)) cur, length cur = length l -> upd_rows h [] l cur = cur.
Proof. unfold upd_rows. induction l as [|x l IH]; intros [|c cur] L; try discriminate; [reflexivity|]. cbn. f_equal. apply IH. injection L as L. exact L. Qed.
Lemma upd_all {S} (h : nat -> S -> vec) us : forall (l : list (nat * S)) cur, length cur = length l -> (forall x, In x l -> In (fst x) us) ->
  upd_rows h us l cur = map (fun x => h (fst x) (snd x)) l.
Proof.
  unfold upd_rows. induction l as [|x l IH]; intros [|c cur] L H; try discriminate; [reflexivity|]. cbn. f_equal.
  - destruct (in_dec Nat.eq_dec (fst x) us) as [_|i]; [reflexivity|]. exfalso. apply i, H. left. reflexivity.
  - apply IH; [injection L as L; exact L|]. intros y I. apply H. right. exact I.
Qed.

Lemma map_facets_loop_ok c : forall us keys (pts cur : list vec), NoDup us -> length pts = length keys -> length cur = length keys ->
  (forall k x, In (k, x) (combine keys pts) -> In k us -> (k < n_facets c)%nat /\ length x = (tdim c - 1)%nat) ->
  map_facets_loop c us keys pts cur = Ret (upd_rows (embed c) us (combine keys pts) cur).
Proof.
  induction us as [|k us IH]; intros keys pts cur N L1 L2 H.
  - cbn [map_facets_loop]. rewrite upd_none; [reflexivity|]. rewrite comb_len; assumption.
  - cbn [map_facets_loop]. inversion N as [|? ? N1 N2]; subst.
    rewrite (put_where_ok k _ (embed c k)); [|assumption|assumption|].
    2: { intros s I. destruct (H k s I (or_introl eq_refl)) as [A B]. apply map_single_ok; assumption. }
    cbn [bind]. rewrite IH; [|assumption|assumption| |].
    + rewrite upd_step; [reflexivity| |assumption]. rewrite comb_len; assumption.
    + rewrite map_length, comb_len; rewrite comb_len; try assumption; reflexivity.
    + intros k0 x I J. apply (H k0 x I). right. exact J.
Qed.
Lemma map_facets_points_ok c junk (pts : list vec) facets : length pts = length facets ->
  (forall k x, In (k, x) (combine facets pts) -> (k < n_facets c)%nat /\ length x = (tdim c - 1)%nat) ->
  map_facets_points c junk pts facets = Ret (map (fun p => embed c (fst p) (snd p)) (combine facets pts)).
Proof.
  intros L H. unfold map_facets_points, assert_. assert (E : (length facets =? length pts)%nat = true) by (apply Nat.eqb_eq; symmetry; exact L). rewrite E.
  rewrite map_facets_loop_ok; [|apply NoDup_nodup|assumption|rewrite map_length, seq_length; exact L|].
  - rewrite upd_all; [reflexivity| |].
    + rewrite map_length, seq_length, comb_len; [exact L|assumption].
    + intros [k x] I. apply nodup_In. exact (in_combine_l _ _ _ _ I).
  - intros k x I _. exact (H k x I).
Qed.

(** The operators are the symmetries. *)
Lemma apply_perm_interval p x Ps : length x = 1%nat -> (p < 2)%nat -> create_permutation_operators CInterval = Ret Ps ->
  exists P, pat Ps p = Ret P /\ apply_perm P x = moved CInterval p x.
Proof.
  intros L Hp E. injection E as <-. apply len1 in L. destruct L as [a ->].
  destruct p as [|[|p]]; [| |lia]; eexists; (split; [reflexivity|]); unfold apply_perm, moved, dot; cbn; f_equal; ring.
Qed.
Lemma apply_perm_two fc p x Ps : fc = CTriangle \/ fc = CQuadrilateral -> length x = 2%nat -> (p < 6)%nat -> create_permutation_operators fc = Ret Ps ->
  exists P, pat Ps p = Ret P /\ apply_perm P x = moved fc p x.
Proof.
  intros F L Hp E. apply len2 in L. destruct L as [a [b ->]].
  destruct F as [-> | ->]; injection E as <-; do 6 (destruct p as [|p]; [eexists; (split; [reflexivity|]); unfold apply_perm, moved, dot; cbn; unfold dot; cbn; f_equal; [ring|f_equal; ring]|]); lia.
Qed.
Lemma moved_length fc p x : length (moved fc p x) = length x.
Proof.
  unfold moved. assert (A : forall y, length (reflect y) = length y) by (intros [|a [|b [|d y]]]; reflexivity).
  assert (B : forall y, length (rotate fc y) = length y) by (intros [|a [|b [|d y]]]; destruct fc; reflexivity).
  assert (C : forall n y, length (Nat.iter n (rotate fc) y) = length y) by (induction n; intros y; cbn; [reflexivity|rewrite B; apply IHn]).
  assert (D : forall n y, length (Nat.iter n reflect y) = length y) by (induction n; intros y; cbn; [reflexivity|rewrite A; apply IHn]).
  rewrite D, C. reflexivity.
Qed.
Lemma moved_0 fc x : moved fc 0 x = x.
Proof. reflexivity. Qed.

Definition good_perm (fc : celltype) (p : nat) : Prop := (p < n_perms fc)%nat /\ (fc = CQuadrilateral -> (p < 6)%nat).
Lemma op_ok fc p x : (exists c, facet_cell c = Some fc) -> good_perm fc p -> length x = tdim fc -> exists Ps P, create_permutation_operators fc = Ret Ps /\ pat Ps p = Ret P /\ apply_perm P x = moved fc p x.
Proof.
  intros [c Hc] [H1 H2] L. assert (F : fc = CInterval \/ fc = CTriangle \/ fc = CQuadrilateral) by (destruct c; try discriminate; injection Hc as <-; auto).
  destruct F as [-> |[-> | ->]]; cbn in L, H1.
  - destruct (apply_perm_interval p x _ L H1 eq_refl) as [P [A B]]. eexists. exists P. split; [reflexivity|split; assumption].
  - destruct (apply_perm_two CTriangle p x _ (or_introl eq_refl) L H1 eq_refl) as [P [A B]]. eexists. exists P. split; [reflexivity|split; assumption].
  - destruct (apply_perm_two CQuadrilateral p x _ (or_intror eq_refl) L (H2 eq_refl) eq_refl) as [P [A B]]. eexists. exists P. split; [reflexivity|split; assumption].
Qed.
Lemma permute_loop_ok fc Ps : (exists c, facet_cell c = Some fc) -> create_permutation_operators fc = Ret Ps -> forall us perms (pts cur : list vec), NoDup us -> length pts = length perms -> length cur = length perms ->
  (forall k, In k us -> In k perms) ->
  (forall k x, In (k, x) (combine perms pts) -> good_perm fc k /\ length x = tdim fc) ->
  (forall i, (i < length perms)%nat -> nth i perms 0%nat = 0%nat -> In 0%nat us -> nth i cur [] = nth i pts []) ->
  permute_loop Ps us perms pts cur = Ret (upd_rows (moved fc) us (combine perms pts) cur).
Proof.
  intros FC CP. induction us as [|k us IH]; intros perms pts cur N L1 L2 U H Z.
  - cbn [permute_loop]. rewrite upd_none; [reflexivity|]. rewrite comb_len; assumption.
  - inversion N as [|? ? N1 N2]; subst. cbn [permute_loop]. destruct (Nat.eqb_spec k 0) as [->|n].
    + rewrite IH; [|assumption|assumption|assumption|intros k I; apply U; right; exact I|exact H|intros i Hi Ei I0; contradiction].
      f_equal. unfold upd_rows. apply (nth_ext _ _ [] []). { rewrite !map_length. reflexivity. }
      intros i Hi. rewrite map_length in Hi.
      assert (Lc : length (combine (combine perms pts) cur) = length perms) by (rewrite comb_len; rewrite comb_len; try assumption; reflexivity).
      rewrite Lc in Hi.
      set (d := ((0%nat, @nil R), @nil R)).
      rewrite !(nth_map_d _ d) by (exact (eq_ind_r (fun n => (i < n)%nat) Hi Lc)). unfold d. rewrite !combine_nth by (first [exact (eq_sym L1) | exact (eq_trans (comb_len perms pts L1) (eq_sym L2))]). cbn [fst snd].
      destruct (in_dec Nat.eq_dec (nth i perms 0%nat) us) as [a|a]; destruct (in_dec Nat.eq_dec (nth i perms 0%nat) (0%nat :: us)) as [b|b]; try reflexivity.
      * exfalso. apply b. right. exact a.
      * destruct b as [b|b]; [|contradiction]. rewrite <- b. rewrite moved_0. apply Z; [exact Hi|symmetry; exact b|left; reflexivity].
    + assert (Hk : In k perms) by (apply U; left; reflexivity).
      destruct (In_nth perms k 0%nat Hk) as [i [Hi Ei]].
      assert (Ic : In (k, nth i pts []) (combine perms pts)) by (rewrite <- Ei; rewrite <- combine_nth by congruence; apply nth_In; rewrite comb_len; assumption).
      destruct (H _ _ Ic) as [G Lx].
      destruct (op_ok fc k _ FC G Lx) as [Ps' [P [C1 [C2 _]]]]. rewrite CP in C1. injection C1 as <-.
      rewrite C2. cbn [bind].
      rewrite (put_where_ok k _ (moved fc k)); [|assumption|assumption|].
      2: { intros x I. destruct (H k x I) as [G' Lx']. destruct (op_ok fc k x FC G' Lx') as [Ps'' [P' [D1 [D2 D3]]]]. rewrite CP in D1. injection D1 as <-. rewrite C2 in D2. injection D2 as <-. rewrite D3. reflexivity. }
      cbn [bind]. rewrite IH; [|assumption|assumption| |intros k' I; apply U; right; exact I|exact H|].
      * rewrite upd_step; [reflexivity| |assumption]. rewrite comb_len; assumption.
      * rewrite map_length, comb_len; rewrite comb_len; try assumption; reflexivity.
      * intros j Hj Ej I0.
        assert (Lc : length (combine (combine perms pts) cur) = length perms) by (rewrite comb_len; rewrite comb_len; try assumption; reflexivity).
        set (d := ((0%nat, @nil R), @nil R)).
        rewrite (nth_map_d _ d) by (exact (eq_ind_r (fun n => (j < n)%nat) Hj Lc)). unfold d. rewrite !combine_nth by (first [exact (eq_sym L1) | exact (eq_trans (comb_len perms pts L1) (eq_sym L2))]). cbn [fst snd]. rewrite Ej.
        destruct (Nat.eqb_spec 0 k) as [e|_]; [exfalso; apply n; symmetry; exact e|]. apply Z; [exact Hj|exact Ej|right; exact I0].
Qed.
Lemma permute_points_ok fc (pts : list vec) perms : (exists c, facet_cell c = Some fc) -> length pts = length perms ->
  (forall k x, In (k, x) (combine perms pts) -> good_perm fc k /\ length x = tdim fc) ->
  permute_points fc pts perms = Ret (map (fun p => moved fc (fst p) (snd p)) (combine perms pts)).
Proof.
  intros FC L H. unfold permute_points, assert_. assert (E0 : (length pts =? length perms)%nat = true) by (apply Nat.eqb_eq; exact L). rewrite E0.
  assert (E : exists Ps, create_permutation_operators fc = Ret Ps).
  { destruct FC as [c Hc]. destruct c; try discriminate; injection Hc as <-; eexists; reflexivity. }
  destruct E as [Ps E]. rewrite E. cbn [bind]. rewrite (permute_loop_ok fc Ps FC E); [|apply NoDup_nodup|assumption|assumption|intros k I; apply nodup_In in I; exact I|exact H|reflexivity].
  rewrite upd_all; [reflexivity|rewrite comb_len; assumption|].
  intros [k x] I. apply nodup_In. exact (in_combine_l _ _ _ _ I).
Qed.
