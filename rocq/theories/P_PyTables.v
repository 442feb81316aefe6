(** C172: the order of the tables and of the quadratures of an integral is the same in every session. *)
From Coq Require Import List Arith Bool Lia ZArith Permutation Sorting.Sorted.
From Verif Require Import M_PyBase M_PyTables M_PyMesh S_PyMesh.
Import ListNotations. Open Scope nat_scope.

(** Dictionaries. *)
Lemma dict_get_set {V} (d : list (nat * V)) k v k' : dict_get (dict_set d k v) k' = if k' =? k then Some v else dict_get d k'.
Proof.
  induction d as [|(j, w) d IH]; cbn.
  - destruct (k' =? k); reflexivity.
  - destruct (Nat.eqb_spec k j) as [->|N]; cbn; [destruct (Nat.eqb_spec k' j); reflexivity|]. rewrite IH. destruct (Nat.eqb_spec k' j) as [->|]; [|reflexivity].
    destruct (Nat.eqb_spec j k); [congruence|reflexivity].
Qed.
Lemma dict_set_keys {V} (d : list (nat * V)) k v : map fst (dict_set d k v) = if existsb (Nat.eqb k) (map fst d) then map fst d else map fst d ++ [k].
Proof.
  induction d as [|(j, w) d IH]; cbn; [reflexivity|]. destruct (Nat.eqb_spec k j) as [->|N]; cbn; [reflexivity|]. rewrite IH. destruct (existsb (Nat.eqb k) (map fst d)); reflexivity.
Qed.
Lemma existsb_in k l : existsb (Nat.eqb k) l = true <-> In k l.
Proof. rewrite existsb_exists. split; [intros (x & H & E); apply Nat.eqb_eq in E; subst; exact H|]. intros H. exists k. rewrite Nat.eqb_refl. auto. Qed.
Lemma dict_set_nodup {V} (d : list (nat * V)) k v : NoDup (map fst d) -> NoDup (map fst (dict_set d k v)).
Proof.
  intros H. rewrite dict_set_keys. destruct (existsb (Nat.eqb k) (map fst d)) eqn:E; [exact H|]. assert (N : ~ In k (map fst d)) by (rewrite <- existsb_in; congruence).
  clear E. induction (map fst d) as [|x l IH]; cbn; [constructor; [tauto|constructor]|]. inversion H; subst. constructor; [|apply IH; auto; intros X; apply N; right; exact X].
  rewrite in_app_iff. intros [X|[X|[]]]; [contradiction|]. subst. apply N. left. reflexivity.
Qed.
Lemma dict_get_nth {V} (d : list (nat * V)) i k v : NoDup (map fst d) -> nth_error d i = Some (k, v) -> dict_get d k = Some v.
Proof.
  revert i. induction d as [|(j, w) d IH]; intros [|i] Nd H; cbn in *; try discriminate.
  - injection H as -> ->. rewrite Nat.eqb_refl. reflexivity.
  - inversion Nd; subst. destruct (Nat.eqb_spec k j) as [->|]; [|eapply IH; eauto]. exfalso. apply H2. apply nth_error_In in H. apply (in_map fst) in H. exact H.
Qed.
Lemma dict_get_in {V} (d : list (nat * V)) k v : dict_get d k = Some v -> In (k, v) d.
Proof. induction d as [|(j, w) d IH]; cbn; [discriminate|]. destruct (Nat.eqb_spec k j) as [->|]; [intros X; injection X as ->; auto|auto]. Qed.
Lemma dict_get_keys {V} (d : list (nat * V)) k : In k (map fst d) -> exists v, dict_get d k = Some v.
Proof. induction d as [|(j, w) d IH]; cbn; [tauto|]. intros [->|H]; [rewrite Nat.eqb_refl; eauto|]. destruct (k =? j); eauto. Qed.

(** The stable sort. *)
Lemma insert_perm {T} (key : T -> nat) t l : Permutation (insert_by key t l) (t :: l).
Proof. induction l as [|u l IH]; cbn; [reflexivity|]. destruct (key t <=? key u); [reflexivity|]. rewrite IH. constructor. Qed.
Lemma sort_perm {T} (key : T -> nat) l : Permutation (sort_by key l) l.
Proof. induction l as [|t l IH]; cbn; [constructor|]. rewrite insert_perm. constructor. exact IH. Qed.
Lemma sort_sorted {T} (key : T -> nat) l : StronglySorted (fun t u => key t <= key u) (sort_by key l).
Proof.
  induction l as [|t l IH]; [constructor|]. cbn [sort_by fold_right]. fold (sort_by key l). revert IH. generalize (sort_by key l). intros s.
  induction s as [|u s IH2]; intros Hs; cbn [insert_by]; [constructor; constructor|]. destruct (StronglySorted_inv Hs) as (J1 & J2).
  destruct (Nat.leb_spec (key t) (key u)) as [L|L].
  - constructor; [exact Hs|]. constructor; [exact L|]. eapply Forall_impl; [|exact J2]. cbn. intros. lia.
  - constructor; [apply IH2; auto|]. eapply Permutation_Forall; [symmetry; apply insert_perm|]. constructor; [lia|exact J2].
Qed.
(** It keeps the order of the elements of a class that all have the same key. *)
Lemma sort_stable {T} (key : T -> nat) (c : T -> bool) l : (forall t u, In t l -> In u l -> c t = true -> c u = true -> key t = key u) -> filter c (sort_by key l) = filter c l.
Proof.
  induction l as [|t l IH]; intros H; [reflexivity|]. cbn [sort_by fold_right]. fold (sort_by key l).
  assert (X : filter c (insert_by key t (sort_by key l)) = if c t then t :: filter c (sort_by key l) else filter c (sort_by key l)).
  { assert (Hs : forall u, In u (sort_by key l) -> c t = true -> c u = true -> key t = key u).
    { intros u Hu A B. apply H; auto; [left; reflexivity|right; eapply Permutation_in; [apply sort_perm|exact Hu]]. }
    clear IH H. revert Hs. generalize (sort_by key l). intros s. induction s as [|u s IHs]; intros Hs; cbn [insert_by]; [cbn; destruct (c t); reflexivity|].
    destruct (Nat.leb_spec (key t) (key u)); [cbn; destruct (c t); reflexivity|]. cbn [filter]. rewrite IHs by (intros; apply Hs; auto; right; auto).
    destruct (c t) eqn:Ct, (c u) eqn:Cu; try reflexivity. specialize (Hs u (or_introl eq_refl) eq_refl Cu). lia. }
  rewrite X. cbn [filter]. rewrite IH; [reflexivity|]. intros; apply H; auto; right; auto.
Qed.

Lemma list_index_spec l x k : NoDup l -> nth_error l k = Some x -> list_index l x = Ret k.
Proof.
  revert k. induction l as [|y l IH]; intros [|k] Nd H; cbn in *; try discriminate; [injection H as ->; rewrite Nat.eqb_refl; reflexivity|].
  inversion Nd; subst. destruct (Nat.eqb_spec x y) as [->|]; [|rewrite (IH k); auto]. exfalso. apply H2. eapply nth_error_In; eauto.
Qed.
Lemma pmap_total {A B} (f : A -> outcome B) (g : A -> B) l : (forall a, In a l -> f a = Ret (g a)) -> pmap f l = Ret (map g l).
Proof. induction l as [|a l IH]; intros H; cbn; [reflexivity|]. rewrite (H a) by (left; reflexivity). cbn. rewrite IH by (intros; apply H; right; auto). reflexivity. Qed.

Section Sort.
Context (hash : nat -> Z) (argsort : list Z -> list nat) (Ha : sorts argsort).

(** In a session, tables have the same number exactly when they have the same element. *)
Definition session (l : list table) : Prop := forall t u, In t l -> In u l -> (fe_id t = fe_id u <-> element (what t) = element (what u)).
Notation hh t := (hash (element (what t))) (only parsing).

Lemma hashes_ok l : session l -> let d := fold_left (fun d t => dict_set d (fe_id t) (hh t)) l [] in
  NoDup (map fst d) /\ (forall t, In t l -> dict_get d (fe_id t) = Some (hh t)) .
Proof.
  intros S. assert (X : forall l0 d, (forall t, In t l0 -> In t l) -> NoDup (map fst d) ->
     let d' := fold_left (fun d t => dict_set d (fe_id t) (hh t)) l0 d in NoDup (map fst d') /\ (forall t, In t l -> dict_get d (fe_id t) = Some (hh t) \/ In t l0 -> dict_get d' (fe_id t) = Some (hh t))).
  { induction l0 as [|u l0 IH]; intros d I Nd; cbn; [split; [exact Nd|]; intros t _ [X|[]]; exact X|].
    destruct (IH (dict_set d (fe_id u) (hh u)) ltac:(intros; apply I; right; auto) ltac:(apply dict_set_nodup, Nd)) as (A & B). split; [exact A|].
    intros t Ht X. apply B; [exact Ht|]. destruct X as [X|[X|X]]; [left|left|right; exact X]; rewrite dict_get_set; destruct (Nat.eqb_spec (fe_id t) (fe_id u)) as [E|N]; auto.
    - apply S in E; auto; [|apply I; left; reflexivity]. rewrite E. reflexivity.
    - subst. reflexivity.
    - subst. congruence. }
  destruct (X l [] ltac:(auto) ltac:(constructor)) as (A & B). split; [exact A|]. intros t Ht. apply B; auto.
Qed.

(** The sorted tables: the given ones, by increasing hashes of the elements; those of an element in the given order. *)
Lemma sort_tables_ok l : session l -> exists r, sort_FE_tables hash argsort l = Ret r /\ Permutation r l /\ StronglySorted (fun t u => (hh t <= hh u)%Z) r
  /\ forall e, filter (fun t => element (what t) =? e) r = filter (fun t => element (what t) =? e) l.
Proof.
  intros S. destruct (hashes_ok l S) as (Nd & Gt). unfold sort_FE_tables. set (d := fold_left _ l []) in *.
  destruct (Ha (map snd d)) as (Pa & Sa). set (p := argsort (map snd d)) in *. rewrite map_length in Pa.
  assert (Np : NoDup p) by (eapply Permutation_NoDup; [symmetry; exact Pa|apply seq_NoDup]).
  assert (Pos : forall i, i < length d -> exists k, nth_error p k = Some i).
  { intros i Hi. apply In_nth_error. eapply Permutation_in; [symmetry; exact Pa|]. apply in_seq. lia. }
  set (rk := fun i => match list_index p i with Ret k => k | _ => 0 end).
  assert (Rk : forall i, i < length d -> list_index p i = Ret (rk i) /\ nth_error p (rk i) = Some i).
  { intros i Hi. destruct (Pos i Hi) as (k & Hk). pose proof (list_index_spec p i k Np Hk) as E. unfold rk. rewrite E. auto. }
  rewrite (pmap_total _ (fun i => (nth i (map fst d) 0, rk i))) by (intros i Hi; apply in_seq in Hi; destruct (Rk i ltac:(lia)) as (-> & _); reflexivity).
  cbn [bind]. set (m := map (fun i => (nth i (map fst d) 0, rk i)) (seq 0 (length d))). set (key := fun t => match dict_get m (fe_id t) with Some k => k | None => 0 end).
  exists (sort_by key l). split; [reflexivity|]. split; [apply sort_perm|].
  assert (Nm : map fst m = map fst d).
  { unfold m. rewrite map_map. cbn. apply (nth_ext _ _ 0 0); rewrite !map_length, seq_length; [reflexivity|]. intros i Hi. rewrite (nth_indep _ 0 (nth 0 (map fst d) 0)) by (rewrite map_length, seq_length; exact Hi).
    rewrite (map_nth (fun i => nth i (map fst d) 0) (seq 0 (length d)) 0). rewrite seq_nth by exact Hi. reflexivity. }
  assert (Key : forall t, In t l -> exists i, i < length d /\ nth_error d i = Some (fe_id t, hh t) /\ key t = rk i).
  { intros t Ht. pose proof (Gt t Ht) as G. apply dict_get_in in G. apply In_nth_error in G. destruct G as (i & Ei). assert (Hi : i < length d) by (apply nth_error_Some; congruence).
    exists i. split; [exact Hi|]. split; [exact Ei|]. unfold key. rewrite (dict_get_nth m i (fe_id t) (rk i)); [reflexivity|rewrite Nm; exact Nd|].
    unfold m. rewrite nth_error_map, (nth_error_nth' _ 0) by (rewrite seq_length; exact Hi). rewrite seq_nth by exact Hi. cbn. f_equal. f_equal.
    apply (map_nth_error fst) in Ei. apply (nth_error_nth _ _ 0) in Ei. exact Ei. }
  split.
  - assert (Le : forall t u, In t l -> In u l -> key t <= key u -> (hh t <= hh u)%Z).
    { intros t u Ht Hu. destruct (Key t Ht) as (i & Hi & Ei & ->). destruct (Key u Hu) as (j & Hj & Ej & ->). destruct (Rk i Hi) as (_ & Ni). destruct (Rk j Hj) as (_ & Nj). intros Le.
      assert (Vi : nth i (map snd d) 0%Z = hh t) by (apply (map_nth_error snd) in Ei; apply (nth_error_nth _ _ 0%Z) in Ei; exact Ei).
      assert (Vj : nth j (map snd d) 0%Z = hh u) by (apply (map_nth_error snd) in Ej; apply (nth_error_nth _ _ 0%Z) in Ej; exact Ej).
      rewrite <- Vi, <- Vj. clear -Sa Ni Nj Le. revert Ni Nj Le. generalize (rk i) (rk j). revert Sa. induction p as [|x p' IH]; intros Sa a b Na Nb Le; [destruct a; discriminate|].
      inversion Sa as [|? ? S1 S2]; subst. destruct a as [|a], b as [|b]; cbn in Na, Nb; try lia.
      - injection Na as ->. injection Nb as ->. lia.
      - injection Na as ->. rewrite Forall_forall in S2. apply S2. apply (in_map (fun i => nth i (map snd d) 0%Z)). eapply nth_error_In; eauto.
      - apply (IH S1 a b); auto; lia. }
    assert (X : forall r, (forall t, In t r -> In t l) -> StronglySorted (fun t u => key t <= key u) r -> StronglySorted (fun t u => (hh t <= hh u)%Z) r).
    { induction r as [|t r IH]; intros I Sr; [constructor|]. destruct (StronglySorted_inv Sr) as (J1 & J2). constructor; [apply IH; auto; intros; apply I; right; auto|]. rewrite Forall_forall in *. intros u Hu. apply Le; [apply I; left; reflexivity|apply I; right; exact Hu|apply J2, Hu]. }
    apply X; [|apply sort_sorted]. intros t Ht. eapply Permutation_in; [apply sort_perm|exact Ht].
  - intros e. apply sort_stable. intros t u Ht Hu A B. apply Nat.eqb_eq in A. apply Nat.eqb_eq in B. assert (E : fe_id t = fe_id u) by (apply S; auto; congruence). unfold key. rewrite E. reflexivity.
Qed.
End Sort.

(** Two lists sorted by hashes with the same tables of every element are equal. *)
Lemma sorted_same (hash : nat -> Z) (a b : list content) : (forall c d, In c a -> In d b -> hash (element c) = hash (element d) -> element c = element d) ->
  StronglySorted (fun c d => (hash (element c) <= hash (element d))%Z) a -> StronglySorted (fun c d => (hash (element c) <= hash (element d))%Z) b ->
  (forall e, filter (fun c => element c =? e) a = filter (fun c => element c =? e) b) -> a = b.
Proof.
  revert b. induction a as [|x a IH]; intros b Inj Sa Sb F.
  - destruct b as [|y b]; [reflexivity|]. specialize (F (element y)). cbn in F. rewrite Nat.eqb_refl in F. discriminate.
  - destruct b as [|y b]; [specialize (F (element x)); cbn in F; rewrite Nat.eqb_refl in F; discriminate|].
    inversion Sa as [|? ? Sa1 Sa2]; subst. inversion Sb as [|? ? Sb1 Sb2]; subst. rewrite Forall_forall in Sa2, Sb2.
    assert (Fx : In x (y :: b)). { assert (X : In x (filter (fun c => element c =? element x) (y :: b))) by (rewrite <- F; cbn; rewrite Nat.eqb_refl; left; reflexivity). apply filter_In in X. apply X. }
    assert (Fy : In y (x :: a)). { assert (X : In y (filter (fun c => element c =? element y) (x :: a))) by (rewrite F; cbn; rewrite Nat.eqb_refl; left; reflexivity). apply filter_In in X. apply X. }
    assert (Le1 : (hash (element x) <= hash (element y))%Z) by (destruct Fy as [->|Fy]; [lia|apply Sa2, Fy]).
    assert (Le2 : (hash (element y) <= hash (element x))%Z) by (destruct Fx as [->|Fx]; [lia|apply Sb2, Fx]).
    assert (Ee : element x = element y) by (apply Inj; [left; reflexivity|left; reflexivity|lia]).
    assert (Exy : x = y). { specialize (F (element x)). cbn in F. rewrite Nat.eqb_refl, <- Ee, Nat.eqb_refl in F. congruence. }
    subst y. f_equal. apply IH; auto; [intros c d Hc Hd; apply Inj; right; auto|]. intros e. specialize (F e). cbn in F. destruct (element x =? e); congruence.
Qed.

(** Grouping by quadratures. *)
Lemma group_ok l : NoDup (map fst (group l)) /\ (forall q, In q (map fst (group l)) <-> exists t, In t l /\ quad (what t) = q)
  /\ (forall q ts, In (q, ts) (group l) -> ts = filter (fun t => quad (what t) =? q) l).
Proof.
  assert (X : NoDup (map fst (group l)) /\ forall q, dict_get (group l) q = match filter (fun t => quad (what t) =? q) l with [] => None | ts => Some ts end).
  { unfold group. induction l as [|t l IH] using rev_ind; [split; [constructor|reflexivity]|]. rewrite fold_left_app. cbn [fold_left]. set (g := fold_left _ l []) in *. destruct IH as (IH1 & IH2).
    split; [apply dict_set_nodup, IH1|]. intros q. rewrite dict_get_set, filter_app. cbn [filter].
    destruct (Nat.eqb_spec q (quad (what t))) as [->|N].
    - rewrite Nat.eqb_refl, IH2. destruct (filter (fun t0 => quad (what t0) =? quad (what t)) l) as [|t1 ts]; reflexivity.
    - destruct (Nat.eqb_spec (quad (what t)) q); [congruence|]. rewrite app_nil_r. apply IH2. }
  destruct X as (A & B). split; [exact A|]. split.
  - intros q. split.
    + intros H. apply dict_get_keys in H. destruct H as (v & Hv). rewrite B in Hv. destruct (filter _ l) as [|t ts] eqn:E; [discriminate|].
      assert (I : In t (t :: ts)) by (left; reflexivity). rewrite <- E in I. apply filter_In in I. destruct I as (I1 & I2). apply Nat.eqb_eq in I2. exists t. auto.
    + intros (t & Ht & <-). assert (G : dict_get (group l) (quad (what t)) <> None).
      { rewrite B. assert (I : In t (filter (fun t0 => quad (what t0) =? quad (what t)) l)) by (apply filter_In; rewrite Nat.eqb_refl; auto). destruct (filter _ l); [destruct I|discriminate]. }
      destruct (dict_get (group l) (quad (what t))) as [v|] eqn:E; [|congruence]. apply dict_get_in in E. apply (in_map fst) in E. exact E.
  - intros q ts H. apply In_nth_error in H. destruct H as (i & Hi). apply dict_get_nth in Hi; [|exact A]. rewrite B in Hi. destruct (filter _ l); congruence.
Qed.
(** Only what does not change matters. *)
Lemma group_what l1 l2 : map what l1 = map what l2 -> map (fun g => (fst g, map what (snd g))) (group l1) = map (fun g => (fst g, map what (snd g))) (group l2).
Proof.
  assert (X : forall l (d : list (nat * list table)), map (fun g => (fst g, map what (snd g))) (fold_left (fun d t => let q := quad (what t) in dict_set d q ((match dict_get d q with Some l => l | None => [] end) ++ [t])) l d)
     = fold_left (fun d c => dict_set d (quad c) ((match dict_get d (quad c) with Some l => l | None => [] end) ++ [c])) (map what l) (map (fun g => (fst g, map what (snd g))) d)).
  { assert (St : forall (d : list (nat * list table)) q v, map (fun g => (fst g, map what (snd g))) (dict_set d q v) = dict_set (map (fun g => (fst g, map what (snd g))) d) q (map what v)).
    { induction d as [|(j, w) d IH]; intros q v; cbn; [reflexivity|]. destruct (q =? j); cbn; [reflexivity|]. rewrite IH. reflexivity. }
    assert (Gt : forall (d : list (nat * list table)) q, match dict_get (map (fun g => (fst g, map what (snd g))) d) q with Some l => l | None => [] end = map what (match dict_get d q with Some l => l | None => [] end)).
    { induction d as [|(j, w) d IH]; intros q; cbn; [reflexivity|]. destruct (q =? j); [reflexivity|apply IH]. }
    induction l as [|t l IH]; intros d; cbn [fold_left map]; [reflexivity|]. rewrite IH, St, Gt, map_app. reflexivity. }
  intros E. unfold group. rewrite !X, E. reflexivity.
Qed.

(** C172: the order in which an integral has its tables and quadratures, in which its kernel reads the custom data and in which they are packed. In
    every session: nothing is lost, the tables of an element are kept in order, those of a quadrature are together, and two sessions that number the
    elements differently (the kernel comes from the cache of another session) have the same tables and quadratures in the same order. The hashes
    of the elements are distinct. *)
Theorem C172_sessions : forall hash argsort l1 l2, sorts argsort -> session l1 -> session l2 ->
  (forall t u, In t l1 -> In u l2 -> hash (element (what t)) = hash (element (what u)) -> element (what t) = element (what u)) ->
  (forall e, filter (fun c => element c =? e) (map what l1) = filter (fun c => element c =? e) (map what l2)) ->
  exists r1 r2, sort_FE_tables hash argsort l1 = Ret r1 /\ sort_FE_tables hash argsort l2 = Ret r2 /\ Permutation r1 l1
   /\ map what r1 = map what r2 /\ map (fun g => (fst g, map what (snd g))) (group r1) = map (fun g => (fst g, map what (snd g))) (group r2)
   /\ NoDup (map fst (group r1)) /\ (forall q, In q (map fst (group r1)) <-> exists t, In t l1 /\ quad (what t) = q)
   /\ (forall q ts, In (q, ts) (group r1) -> ts = filter (fun t => quad (what t) =? q) r1).
Proof.
  intros hash argsort l1 l2 Ha S1 S2 Inj F. destruct (sort_tables_ok hash argsort Ha l1 S1) as (r1 & E1 & P1 & O1 & F1). destruct (sort_tables_ok hash argsort Ha l2 S2) as (r2 & E2 & P2 & O2 & F2).
  exists r1, r2. split; [exact E1|]. split; [exact E2|]. split; [exact P1|].
  assert (Fm : forall e l, filter (fun c => element c =? e) (map what l) = map what (filter (fun t => element (what t) =? e) l)).
  { intros e. induction l as [|t l IH]; cbn; [reflexivity|]. rewrite IH. destruct (element (what t) =? e); reflexivity. }
  assert (Sm : forall r, StronglySorted (fun t u => (hash (element (what t)) <= hash (element (what u)))%Z) r -> StronglySorted (fun c d => (hash (element c) <= hash (element d))%Z) (map what r)).
  { induction r as [|t r IH]; intros Sr; cbn; [constructor|]. destruct (StronglySorted_inv Sr) as (J1 & J2). constructor; [auto|]. apply Forall_map. exact J2. }
  assert (E : map what r1 = map what r2).
  { apply (sorted_same hash); [|apply Sm, O1|apply Sm, O2|intros e; rewrite !Fm, F1, F2, <- !Fm; apply F].
    intros c d Hc Hd. apply in_map_iff in Hc. apply in_map_iff in Hd. destruct Hc as (t & <- & Ht). destruct Hd as (u & <- & Hu). apply Inj; [eapply Permutation_in; [exact P1|exact Ht]|eapply Permutation_in; [exact P2|exact Hu]]. }
  split; [exact E|]. split; [apply group_what, E|]. destruct (group_ok r1) as (G1 & G2 & G3). split; [exact G1|]. split; [|exact G3].
  intros q. rewrite G2. split; intros (t & Ht & Q); exists t; (split; [|exact Q]); eapply Permutation_in; [exact P1|exact Ht|symmetry; exact P1|exact Ht].
Qed.
(** The dimension of some element is not that of the integral; the type is that of the first table, and raises without tables. *)
Theorem C172_flags : forall tdim l, (is_mixed_dim tdim l = true <-> exists t, In t l /\ element_dim (what t) <> tdim)
  /\ (l = [] -> first_table (group l) = Abort) /\ (l <> [] -> exists t, In t l /\ first_table (group l) = Ret t).
Proof.
  intros tdim l. split; [|split].
  - unfold is_mixed_dim. assert (X : forall l b, fold_left (fun b t => if element_dim (what t) =? tdim then b else true) l b = true <-> b = true \/ exists t, In t l /\ element_dim (what t) <> tdim).
    { induction l0 as [|t l0 IH]; intros b; cbn; [split; [auto|intros [H|(t & [] & _)]; exact H]|]. rewrite IH. destruct (Nat.eqb_spec (element_dim (what t)) tdim) as [E|N].
      - split; [intros [H|(u & H & Q)]; eauto|]. intros [H|(u & [->|H] & Q)]; eauto; contradiction.
      - split; [intros _; right; exists t; auto|auto]. }
    rewrite X. split; [intros [H|H]; [discriminate|exact H]|auto].
  - intros ->. reflexivity.
  - intros N. destruct (group_ok l) as (A & B & C). destruct l as [|t0 l]; [congruence|]. assert (K : In (quad (what t0)) (map fst (group (t0 :: l)))) by (apply B; exists t0; split; [left|]; reflexivity).
    destruct (group (t0 :: l)) as [|(q, ts) g] eqn:E; [destruct K|]. assert (Ets : ts = filter (fun t => quad (what t) =? q) (t0 :: l)) by (apply C; left; reflexivity).
    destruct (B q) as (B1 & _). destruct (B1 ltac:(left; reflexivity)) as (t & Ht & Q). assert (I : In t ts) by (rewrite Ets; apply filter_In; split; [exact Ht|apply Nat.eqb_eq, Q]).
    destruct ts as [|u ts]; [destruct I|]. exists u. split; [|reflexivity]. assert (Iu : In u (u :: ts)) by (left; reflexivity). rewrite Ets in Iu. apply filter_In in Iu. apply Iu.
Qed.
Print Assumptions C172_sessions.
Print Assumptions C172_flags.
(** Two elements with tables for two quadratures, numbered 3 and 7 in one session and 2 and 1 in the other, where the tables come in another order. *)
Definition ex_tables (i j : nat) (first : bool) : list table :=
  let a := [mk_table i (mk_content 0 5 2 0); mk_table i (mk_content 0 6 2 1)] in let b := [mk_table j (mk_content 1 6 2 2)] in if first then a ++ b else b ++ a.
Example C172_case : session (ex_tables 3 7 true) /\ session (ex_tables 2 1 false)
  /\ (forall e, filter (fun c => element c =? e) (map what (ex_tables 3 7 true)) = filter (fun c => element c =? e) (map what (ex_tables 2 1 false)))
  /\ sort_FE_tables (fun e => if (e =? 0)%nat then 9 else 4)%Z (fun _ => [1; 0]) (ex_tables 3 7 true) = Ret [mk_table 7 (mk_content 1 6 2 2); mk_table 3 (mk_content 0 5 2 0); mk_table 3 (mk_content 0 6 2 1)].
Proof.
  assert (S : forall i j b, i <> j -> session (ex_tables i j b)).
  { intros i j [|] N t u Ht Hu; cbn in Ht, Hu; repeat (destruct Ht as [<-|Ht]; [|]); try destruct Ht; repeat (destruct Hu as [<-|Hu]; [|]); try destruct Hu; cbn; split; intros; congruence. }
  split; [apply S; lia|]. split; [apply S; lia|]. split; [|reflexivity]. intros [|[|e]]; reflexivity.
Qed.
