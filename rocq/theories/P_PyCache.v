(** C170: the library that tabulates elements is built once. C171: the cache of compiled forms. *)
From Coq Require Import List Arith Bool Lia.
From Verif Require Import M_PyCache.
Import ListNotations.

Lemma upd_same {A} (f : nat -> A) n a : upd f n a n = a. Proof. unfold upd. rewrite Nat.eqb_refl. reflexivity. Qed.
Lemma upd_other {A} (f : nat -> A) n a m : m <> n -> upd f n a m = f m. Proof. intros H. unfold upd. apply Nat.eqb_neq in H. rewrite H. reflexivity. Qed.
Lemma upd_cases {A} (f : nat -> A) n a m : (m = n /\ upd f n a m = a) \/ (m <> n /\ upd f n a m = f m).
Proof. destruct (Nat.eq_dec m n) as [->|H]; [left; rewrite upd_same|right; rewrite upd_other]; auto. Qed.

Lemma run_app src proc es es' s : run src proc (es ++ es') s = match run src proc es s with Some s1 => run src proc es' s1 | None => None end.
Proof. revert s. induction es as [|e es IH]; intros s; [reflexivity|]. cbn. destruct (fire src proc e s); [apply IH|reflexivity]. Qed.
(** Reasoning by events. *)
Lemma run_inv (I : state -> Prop) src proc : (forall e s s', I s -> fire src proc e s = Some s' -> I s') -> forall es s s', I s -> run src proc es s = Some s' -> I s'.
Proof.
  intros H es. induction es as [|e es IH]; intros s s' Hs E; cbn in E; [injection E as <-; exact Hs|].
  destruct (fire src proc e s) as [s1|] eqn:F; [|discriminate]. eapply IH; [|exact E]. eapply H; eauto.
Qed.

Definition in_file (p : pc) : Prop := p = Check2 \/ p = Compiling.
Definition in_thread (p : pc) : Prop := p = WantFile \/ in_file p.
(** The locks are held by the calls that have acquired them; the library is being written while a call compiles. *)
Definition good (proc : nat -> nat) (s : state) : Prop :=
  (forall t, in_file (pcs s t) <-> file_lock s = Some t) /\ (forall t, in_thread (pcs s t) <-> thread_lock s (proc t) = Some t) /\ (forall p t, thread_lock s p = Some t -> proc t = p)
  /\ (forall t, pcs s t = Compiling -> exists f, lib s = Some f /\ complete f = false).

Ltac pcs_case u t := let H := fresh "U" in destruct (Nat.eq_dec u t) as [H|H]; [subst u; rewrite ?upd_same|rewrite ?(upd_other _ t _ u H)].

Lemma good_start proc l now : good proc (start l now).
Proof.
  unfold good, start, in_thread, in_file; cbn. split; [|split; [|split]]; [intros t; split; [intros [H|H]; discriminate|discriminate]|intros t; split; [intros [H|[H|H]]; discriminate|discriminate]|discriminate|discriminate].
Qed.
Ltac no_pc := intros X; unfold in_thread, in_file in X; repeat (destruct X as [X|X]); discriminate.
Lemma good_fire src proc e s s' : good proc s -> fire src proc e s = Some s' -> good proc s'.
Proof.
  intros (F & T & P & W) E. destruct e as [t c| |p]; cbn in E.
  - unfold task_step in E. destruct (pcs s t) as [ | | | | |l b| | ] eqn:Et; try discriminate.
    + assert (E' : exists q, ~ in_thread q /\ s' = goto s t q).
      { destruct (fresh src (lib s)); injection E as <-; eexists; (split; [|reflexivity]); no_pc. }
      destruct E' as (q & Nq & ->). clear E. unfold good, goto; cbn.
      assert (Nt : ~ in_thread (pcs s t)) by (rewrite Et; no_pc).
      split; [|split; [|split]].
      * intros u. pcs_case u t; [|apply F]. split; [intros X; destruct Nq; right; exact X|]. intros X. destruct Nt. right. apply F, X.
      * intros u. pcs_case u t; [|apply T]. split; [tauto|]. intros X. destruct Nt. apply T, X.
      * exact P.
      * intros u. pcs_case u t; [|apply W]. intros ->. destruct Nq. right. right. reflexivity.
    + destruct (thread_lock s (proc t)) as [h|] eqn:El; [discriminate|]. injection E as <-. unfold good, goto; cbn.
      split; [|split; [|split]].
      * intros u. pcs_case u t; [|apply F]. split; [no_pc|]. intros X. apply F in X. rewrite Et in X. exfalso. revert X. no_pc.
      * intros u. pcs_case u t; [split; [auto|]; intros _; left; reflexivity|]. destruct (Nat.eq_dec (proc u) (proc t)) as [Ep|Np].
        { rewrite Ep, upd_same. split; [|congruence]. intros X. apply T in X. rewrite Ep in X. congruence. }
        { rewrite upd_other by auto. apply T. }
      * intros q u. destruct (upd_cases (thread_lock s) (proc t) (Some t) q) as [[-> ->]|[Nq ->]]; [congruence|apply P].
      * intros u. pcs_case u t; [discriminate|apply W].
    + destruct (file_lock s) as [h|] eqn:El; [discriminate|]. injection E as <-. unfold good, goto; cbn.
      split; [|split; [|split]].
      * intros u. pcs_case u t; [split; [auto|]; intros _; left; reflexivity|]. split; [|congruence]. intros X. apply F in X. congruence.
      * intros u. pcs_case u t; [|apply T]. split; [|intros _; right; left; reflexivity]. intros _. apply T. rewrite Et. left. reflexivity.
      * exact P.
      * intros u. pcs_case u t; [discriminate|apply W].
    + assert (Ft : file_lock s = Some t) by (apply F; rewrite Et; left; reflexivity). assert (Tt : thread_lock s (proc t) = Some t) by (apply T; rewrite Et; right; left; reflexivity).
      destruct (fresh src (lib s)); injection E as <-.
      * unfold good, leave; cbn. split; [|split; [|split]].
        { intros u. pcs_case u t; [split; [no_pc|discriminate]|]. split; [|discriminate]. intros X. apply F in X. congruence. }
        { intros u. pcs_case u t; [split; [no_pc|discriminate]|]. destruct (Nat.eq_dec (proc u) (proc t)) as [Ep|Np]; [|rewrite upd_other by auto; apply T].
          rewrite Ep, upd_same. split; [|discriminate]. intros X. apply T in X. rewrite Ep in X. congruence. }
        { intros q u. destruct (upd_cases (thread_lock s) (proc t) None q) as [[-> ->]|[Nq ->]]; [discriminate|apply P]. }
        { intros u. pcs_case u t; [discriminate|apply W]. }
      * unfold good, goto, write; cbn. split; [|split; [|split]].
        { intros u. pcs_case u t; [|apply F]. split; [intros _; exact Ft|intros _; right; reflexivity]. }
        { intros u. pcs_case u t; [|apply T]. split; [intros _; exact Tt|intros _; right; right; reflexivity]. }
        { exact P. }
        { intros u _. eexists. split; reflexivity. }
    + assert (Ft : file_lock s = Some t) by (apply F; rewrite Et; right; reflexivity). assert (Tt : thread_lock s (proc t) = Some t) by (apply T; rewrite Et; right; right; reflexivity).
      assert (Lv : forall s1 q, lib s1 = lib s1 -> clock s1 = clock s1 -> thread_lock s1 = thread_lock s -> file_lock s1 = file_lock s -> pcs s1 = pcs s -> ~ in_thread q -> good proc (leave proc s1 t q)).
      { intros s1 q _ _ E3 E4 E5 Nq. unfold good, leave; cbn. rewrite E3, E5. split; [|split; [|split]].
        { intros u. pcs_case u t; [split; [intros X; destruct Nq; right; exact X|discriminate]|]. split; [|discriminate]. intros X. apply F in X. congruence. }
        { intros u. pcs_case u t; [split; [tauto|discriminate]|]. destruct (Nat.eq_dec (proc u) (proc t)) as [Ep|Np]; [|rewrite upd_other by auto; apply T].
          rewrite Ep, upd_same. split; [|discriminate]. intros X. apply T in X. rewrite Ep in X. congruence. }
        { intros q' u. destruct (upd_cases (thread_lock s) (proc t) None q') as [[-> ->]|[Nq' ->]]; [discriminate|apply P]. }
        { intros u. pcs_case u t; [intros ->; destruct Nq; right; right; reflexivity|]. intros X. assert (Y : in_file (pcs s u)) by (right; exact X). apply F in Y. congruence. } }
      destruct c; injection E as <-.
      * unfold good, write; cbn. split; [exact F|]. split; [exact T|]. split; [exact P|]. intros u _. eexists. split; reflexivity.
      * apply Lv; auto. no_pc.
      * apply Lv; auto. no_pc.
  - injection E as <-. split; [exact F|]. split; [exact T|]. split; [exact P|exact W].
  - injection E as <-. unfold good, kill; cbn.
    assert (K : forall u, ~ in_thread (if proc u =? p then match pcs s u with Returned l b => Returned l b | Raised => Raised | _ => Dead end else pcs s u) \/ (proc u <> p /\ (proc u =? p) = false)).
    { intros u. destruct (proc u =? p) eqn:Ep; [left; destruct (pcs s u); no_pc|right]. apply Nat.eqb_neq in Ep. auto. }
    split; [|split; [|split]].
    + intros u. destruct (K u) as [K1|(K1 & K2)].
      * split; [intros X; destruct K1; right; exact X|]. intros X. exfalso. apply K1. destruct (file_lock s) as [h|] eqn:Eh; [|discriminate]. destruct (proc h =? p) eqn:Ep; [discriminate|]. injection X as ->. rewrite Ep. right. apply F. reflexivity.
      * rewrite K2. rewrite F. destruct (file_lock s) as [h|]; [|tauto]. destruct (proc h =? p) eqn:Ep; [|tauto]. split; [|discriminate]. intros X. injection X as ->. congruence.
    + intros u. destruct (K u) as [K1|(K1 & K2)].
      * split; [tauto|]. intros X. exfalso. apply K1. destruct (upd_cases (thread_lock s) p None (proc u)) as [[_ Y]|[Nq Y]]; rewrite Y in X; [discriminate|]. apply Nat.eqb_neq in Nq. rewrite Nq. apply T, X.
      * rewrite K2, upd_other by auto. apply T.
    + intros q u. destruct (upd_cases (thread_lock s) p None q) as [[-> ->]|[Nq ->]]; [discriminate|apply P].
    + intros u. destruct (proc u =? p); [destruct (pcs s u); discriminate|apply W].
Qed.

(** Complete and newer than the sources. *)
Definition usable (src : nat) (l : option libfile) : Prop := exists f, l = Some f /\ complete f = true /\ src <= mtime f.
(** The library that is recent and incomplete. *)
Definition broken (src : nat) (l : option libfile) : Prop := exists f, l = Some f /\ complete f = false /\ src <= mtime f.
Lemma usable_fresh src l : usable src l -> fresh src l = true. Proof. intros (f & -> & _ & H). cbn. apply Nat.leb_le, H. Qed.
Lemma broken_fresh src l : broken src l -> fresh src l = true. Proof. intros (f & -> & _ & H). cbn. apply Nat.leb_le, H. Qed.
(** A recent library that nobody compiles is never written again. *)
Lemma stays src proc es s s' : good proc s -> fresh src (lib s) = true -> (forall t, pcs s t <> Compiling) -> run src proc es s = Some s' ->
  lib s' = lib s /\ (forall t, pcs s' t <> Compiling) /\ forall t l b, pcs s' t = Returned l b -> pcs s t = Returned l b \/ l = lib s.
Proof.
  revert s. induction es as [|e es IH]; intros s G Fr NC E; cbn in E; [injection E as <-; auto|].
  destruct (fire src proc e s) as [s1|] eqn:E1; [|discriminate]. pose proof (good_fire _ _ _ _ _ G E1) as G1.
  assert (A : lib s1 = lib s /\ (forall t, pcs s1 t <> Compiling) /\ forall t l b, pcs s1 t = Returned l b -> pcs s t = Returned l b \/ l = lib s).
  { clear IH E G G1. destruct e as [t c| |p]; cbn in E1.
    - unfold task_step in E1. destruct (pcs s t) as [ | | | | |l b| | ] eqn:Et; try discriminate; try (rewrite Fr in E1).
      + injection E1 as <-. cbn. split; [reflexivity|]. split; intros u; pcs_case u t; auto; try discriminate. intros l b X. injection X as <- <-. auto.
      + destruct (thread_lock s (proc t)); [discriminate|]. injection E1 as <-. cbn. split; [reflexivity|]. split; intros u; pcs_case u t; auto; discriminate.
      + destruct (file_lock s); [discriminate|]. injection E1 as <-. cbn. split; [reflexivity|]. split; intros u; pcs_case u t; auto; discriminate.
      + injection E1 as <-. cbn. split; [reflexivity|]. split; intros u; pcs_case u t; auto; try discriminate. intros l b X. injection X as <- <-. auto.
      + destruct (NC t Et).
    - injection E1 as <-. cbn. auto.
    - injection E1 as <-. cbn. split; [reflexivity|]. split; intros u; specialize (NC u); destruct (proc u =? p); auto; destruct (pcs s u); try discriminate; try congruence; auto. }
  destruct A as (A1 & A2 & A3). destruct (IH s1 G1 ltac:(rewrite A1; exact Fr) A2 E) as (B1 & B2 & B3).
  split; [congruence|]. split; [exact B2|]. intros t l b X. destruct (B3 t l b X) as [Y|Y]; [apply A3, Y|]. right. congruence.
Qed.

(** The calls that go through the lock, without kills. *)
Definition safe (src : nat) (s : state) : Prop := src <= clock s
  /\ (forall t l, pcs s t = Returned l false -> usable src l) /\ (forall f, lib s = Some f -> complete f = false -> src <= mtime f -> exists t, pcs s t = Compiling).
Lemma safe_fire src proc e s s' : (forall p, e <> Kill p) -> good proc s -> safe src s -> fire src proc e s = Some s' -> safe src s'.
Proof.
  intros NK (F & T & P & W) (C & R & B) E. destruct e as [t c| |p]; [|injection E as <-; split; [cbn; lia|auto]|destruct (NK p); reflexivity].
  cbn in E. unfold task_step in E. destruct (pcs s t) as [ | | | | |l b| | ] eqn:Et; try discriminate.
  - assert (Bo : forall q, q <> Compiling -> forall f, lib s = Some f -> complete f = false -> src <= mtime f -> exists u, upd (pcs s) t q u = Compiling).
    { intros q _ f X Y Z. destruct (B f X Y Z) as (u & Hu). exists u. rewrite upd_other by congruence. exact Hu. }
    destruct (fresh src (lib s)) eqn:Fr; injection E as <-; (split; [exact C|]); cbn; (split; [|apply Bo; discriminate]); intros u l; pcs_case u t; try discriminate; apply R.
  - destruct (thread_lock s (proc t)); [discriminate|]. injection E as <-. split; [exact C|]. cbn. split; [intros u l; pcs_case u t; [discriminate|apply R]|].
    intros f X Y Z. destruct (B f X Y Z) as (u & Hu). exists u. rewrite upd_other by congruence. exact Hu.
  - destruct (file_lock s); [discriminate|]. injection E as <-. split; [exact C|]. cbn. split; [intros u l; pcs_case u t; [discriminate|apply R]|].
    intros f X Y Z. destruct (B f X Y Z) as (u & Hu). exists u. rewrite upd_other by congruence. exact Hu.
  - assert (Ft : file_lock s = Some t) by (apply F; rewrite Et; left; reflexivity).
    assert (NC : forall u, pcs s u <> Compiling). { intros u X. assert (Y : in_file (pcs s u)) by (right; exact X). apply F in Y. congruence. }
    destruct (fresh src (lib s)) eqn:Fr; injection E as <-; (split; [exact C|]); cbn.
    + split; [|intros f X Y Z; destruct (B f X Y Z) as (u & Hu); destruct (NC u Hu)]. intros u l. pcs_case u t; [|apply R]. intros X. injection X as <-.
      unfold fresh in Fr. destruct (lib s) as [f|]; [|discriminate]. apply Nat.leb_le in Fr. destruct (complete f) eqn:Cf; [exists f; auto|]. destruct (B f eq_refl Cf Fr) as (u & Hu). destruct (NC u Hu).
    + split; [intros u l; pcs_case u t; [discriminate|apply R]|]. intros f _ _ _. exists t. apply upd_same.
  - destruct c; injection E as <-; (split; [exact C|]); cbn.
    + split; [exact R|]. intros f _ _ _. exists t. exact Et.
    + split; [|intros f X Y; injection X as <-; discriminate]. intros u l. pcs_case u t; [|apply R]. intros X. injection X as <-. eexists. split; [reflexivity|]. split; [reflexivity|exact C].
    + split; [|discriminate]. intros u l. pcs_case u t; [discriminate|apply R].
Qed.

Definition ended (p : pc) : Prop := match p with Returned _ _ | Raised | Dead => True | _ => False end.
Definition rank (p : pc) : nat := match p with Check1 => 5 | WantThread => 4 | WantFile => 3 | Check2 => 2 | Compiling => 1 | _ => 0 end.
(** The steps of a call, without those of its compiler that only go on writing. *)
Definition counts (t : nat) (e : event) : bool := match e with Task u Writes => false | Task u _ => u =? t | _ => false end.
Lemma rank_fire src proc e s s' t : fire src proc e s = Some s' -> (if counts t e then 1 else 0) + rank (pcs s' t) <= rank (pcs s t).
Proof.
  intros E. destruct e as [u c| |p]; cbn in E.
  - assert (X : rank (pcs s' u) <= rank (pcs s u) /\ (c <> Writes -> 1 + rank (pcs s' u) <= rank (pcs s u)) /\ forall v, v <> u -> pcs s' v = pcs s v).
    { unfold task_step in E. destruct (pcs s u) eqn:Et; try discriminate.
      - destruct (fresh src (lib s)); injection E as <-; cbn; rewrite upd_same; (split; [cbn; lia|]); (split; [cbn; lia|]); intros v Hv; apply upd_other, Hv.
      - destruct (thread_lock s (proc u)); [discriminate|]. injection E as <-; cbn; rewrite upd_same; (split; [cbn; lia|]); (split; [cbn; lia|]); intros v Hv; apply upd_other, Hv.
      - destruct (file_lock s); [discriminate|]. injection E as <-; cbn; rewrite upd_same; (split; [cbn; lia|]); (split; [cbn; lia|]); intros v Hv; apply upd_other, Hv.
      - destruct (fresh src (lib s)); injection E as <-; cbn; rewrite upd_same; (split; [cbn; lia|]); (split; [cbn; lia|]); intros v Hv; apply upd_other, Hv.
      - destruct c; injection E as <-; cbn.
        + rewrite Et. split; [cbn; lia|]. split; [congruence|reflexivity].
        + rewrite upd_same. split; [cbn; lia|]. split; [cbn; lia|]. intros v Hv; apply upd_other, Hv.
        + rewrite upd_same. split; [cbn; lia|]. split; [cbn; lia|]. intros v Hv; apply upd_other, Hv. }
    destruct X as (X1 & X2 & X3). destruct (Nat.eq_dec u t) as [->|N].
    + unfold counts. destruct c; rewrite ?Nat.eqb_refl; [lia|apply X2; discriminate|apply X2; discriminate].
    + unfold counts. apply Nat.eqb_neq in N as N'. rewrite N'. rewrite X3 by auto. destruct c; lia.
  - injection E as <-. cbn. lia.
  - injection E as <-. cbn. destruct (proc t =? p); [|lia]. destruct (pcs s t); cbn; lia.
Qed.

(** C170: the library is usable when a call of ensure_built returns, whatever else runs. Right for the calls that go through the lock, when nobody
    is killed; never two compilers at a time; a usable library is never touched again; while a call has not ended, some call can go on, and a call
    takes at most five steps besides the writing of its compiler. *)
Theorem C170_shim_partial : forall src proc l0 now es s, (forall f, l0 = Some f -> complete f = true) -> src <= now -> run src proc es (start l0 now) = Some s ->
  (forall t t', pcs s t = Compiling -> pcs s t' = Compiling -> t = t')
  /\ ((forall p, ~ In (Kill p) es) -> forall t l, pcs s t = Returned l false -> exists f, l = Some f /\ complete f = true /\ src <= mtime f)
  /\ (forall f, lib s = Some f -> complete f = true -> src <= mtime f -> forall es' s', run src proc es' s = Some s' -> lib s' = Some f)
  /\ (forall t, ended (pcs s t) \/ exists t' s', fire src proc (Task t' Finishes) s = Some s')
  /\ (forall t, length (filter (counts t) es) <= 5).
Proof.
  intros src proc l0 now es s Hl Hn E.
  assert (G : good proc s) by (eapply (run_inv (good proc)); [intros; eapply good_fire; eauto|apply good_start|exact E]).
  split; [|split; [|split; [|split]]].
  - intros t t' A B. destruct G as (F & _). assert (X : in_file (pcs s t)) by (right; exact A). assert (Y : in_file (pcs s t')) by (right; exact B). apply F in X. apply F in Y. congruence.
  - intros NK t l X. assert (S : safe src s).
    { assert (I : forall es s0 s1, (forall p, ~ In (Kill p) es) -> good proc s0 -> safe src s0 -> run src proc es s0 = Some s1 -> safe src s1).
      { clear. induction es as [|e es IH]; intros s0 s1 NK G S E; cbn in E; [injection E as <-; exact S|]. destruct (fire src proc e s0) as [s2|] eqn:F; [|discriminate].
        apply (IH s2 s1); auto; [intros p X; apply (NK p); right; exact X|eapply good_fire; eauto|]. eapply safe_fire; eauto. intros p ->. apply (NK p). left. reflexivity. }
      apply (I es (start l0 now) s NK (good_start _ _ _)); [|exact E]. split; [exact Hn|]. split; [discriminate|]. intros f Xf Yf. cbn in Xf. apply Hl in Xf. congruence. }
    destruct S as (_ & R & _). exact (R t l X).
  - intros f Ef Cf Mf es' s' E'. assert (Fr : fresh src (lib s) = true) by (rewrite Ef; apply Nat.leb_le, Mf).
    rewrite <- Ef. apply (stays src proc es' s s' G Fr); [|exact E']. intros t X. destruct G as (_ & _ & _ & W). destruct (W t X) as (f' & Y & Z). congruence.
  - intros t. assert (Self : forall u, pcs s u = Check1 \/ in_file (pcs s u) -> exists t' s', fire src proc (Task t' Finishes) s = Some s').
    { intros u Hu. exists u. cbn. unfold task_step. destruct Hu as [->|[-> | ->]]; destruct (fresh src (lib s)); eexists; reflexivity. }
    assert (WF : forall u, pcs s u = WantFile -> exists t' s', fire src proc (Task t' Finishes) s = Some s').
    { intros u Hu. destruct (file_lock s) as [h|] eqn:Eh; [apply (Self h); right; apply G, Eh|]. exists u. cbn. unfold task_step. rewrite Hu, Eh. eexists; reflexivity. }
    destruct (pcs s t) as [ | | | | |l b| | ] eqn:Et; try (left; exact I); right.
    + apply (Self t); auto.
    + destruct (thread_lock s (proc t)) as [h|] eqn:Eh.
      * destruct G as (_ & T & P & _). pose proof (P _ _ Eh) as Ep. rewrite <- Ep in Eh. apply T in Eh. destruct Eh as [Eh|Eh]; [apply (WF h Eh)|apply (Self h); auto].
      * exists t. cbn. unfold task_step. rewrite Et, Eh. eexists; reflexivity.
    + apply (WF t Et).
    + apply (Self t). right. left. exact Et.
    + apply (Self t). right. right. exact Et.
  - intros t. assert (X : forall es s0 s1, run src proc es s0 = Some s1 -> length (filter (counts t) es) + rank (pcs s1 t) <= rank (pcs s0 t)).
    { clear. induction es as [|e es IH]; intros s0 s1 E; cbn in E; [injection E as <-; cbn; lia|]. destruct (fire src proc e s0) as [s2|] eqn:F; [|discriminate].
      specialize (IH _ _ E). apply (rank_fire _ _ _ _ _ t) in F. cbn. destruct (counts t e); cbn in *; lia. }
    specialize (X es _ _ E). cbn in X. lia.
Qed.
(** refuted for the others: a process that comes while another compiles takes the file that is being written, *)
Theorem C170_fast_path_refuted : forall src now, src <= now ->
  exists es s, run src (fun t => t) es (start None now) = Some s /\ (forall e, In e es -> exists t c, e = Task t c /\ c <> Fails)
    /\ pcs s 0 = Compiling /\ pcs s 1 = Returned (Some (mk_lib false now)) true.
Proof.
  intros src now H. exists [Task 0 Writes; Task 0 Writes; Task 0 Writes; Task 0 Writes; Task 1 Writes]. eexists. split.
  { cbn. apply Nat.leb_le in H. rewrite H. reflexivity. }
  split; [|split; reflexivity]. intros e He. repeat (destruct He as [<-|He]; [eexists; eexists; split; [reflexivity|discriminate]|]). destruct He.
Qed.
(** and refuted after a kill: the incomplete library is newer than the sources, so that no later call, in any process, builds it again. *)
Theorem C170_kill_refuted : forall src now, src <= now ->
  exists es s, run src (fun t => t) es (start None now) = Some s
    /\ forall es' s', run src (fun t => t) es' s = Some s' -> lib s' = Some (mk_lib false now)
         /\ forall t l b, pcs s' t = Returned l b -> l = Some (mk_lib false now).
Proof.
  intros src now H. set (es := [Task 0 Writes; Task 0 Writes; Task 0 Writes; Task 0 Writes; Kill 0]).
  destruct (run src (fun t => t) es (start None now)) as [s|] eqn:E; [|discriminate]. exists es, s. split; [exact E|]. intros es' s' E'.
  assert (G : good (fun t => t) s) by (eapply (run_inv (good (fun t => t))); [intros; eapply good_fire; eauto|apply good_start|exact E]).
  assert (El : lib s = Some (mk_lib false now)) by (cbn in E; injection E as <-; reflexivity).
  assert (Ep : forall t, pcs s t = if t =? 0 then Dead else Check1). { intros t. cbn in E. injection E as <-. cbn. unfold upd. destruct t as [|t]; reflexivity. }
  destruct (stays src (fun t => t) es' s s' G) as (A & _ & B).
  - rewrite El. apply Nat.leb_le, H.
  - intros t. rewrite Ep. destruct (t =? 0); discriminate.
  - exact E'.
  - split; [congruence|]. intros t l b X. destruct (B t l b X) as [Y|Y]; [|congruence]. rewrite Ep in Y. destruct (t =? 0); discriminate.
Qed.
Print Assumptions C170_shim_partial.
Print Assumptions C170_fast_path_refuted.
Print Assumptions C170_kill_refuted.
(** Three calls, two of them in the same process: the first one compiles, the others find the library. *)
Example C170_case : exists s, run 3 (fun t => t / 2) [Task 0 Writes; Task 1 Writes; Task 2 Writes; Task 0 Writes; Task 0 Writes; Task 0 Writes; Tick; Task 2 Writes; Task 0 Writes; Tick; Task 0 Finishes;
    Task 1 Writes; Task 2 Writes; Task 2 Writes; Task 1 Writes; Task 1 Writes; Task 3 Writes] (start None 5) = Some s
  /\ (forall t, t < 3 -> pcs s t = Returned (Some (mk_lib true 7)) false) /\ pcs s 3 = Returned (Some (mk_lib true 7)) true.
Proof.
  match goal with |- exists s, ?r = Some s /\ _ => set (x := r);
    assert (K : match x with Some s => [pcs s 0; pcs s 1; pcs s 2; pcs s 3] | None => [] end
      = [Returned (Some (mk_lib true 7)) false; Returned (Some (mk_lib true 7)) false; Returned (Some (mk_lib true 7)) false; Returned (Some (mk_lib true 7)) true]) by (vm_compute; reflexivity) end.
  clearbody x. destruct x as [s|]; [|discriminate]. injection K as K0 K1 K2 K3. exists s. split; [reflexivity|]. split; [|exact K3]. intros [|[|[|t]]] H; [exact K0|exact K1|exact K2|lia].
Qed.

(** The cache of compiled forms. *)
Definition jgood (timeout : nat) (s : jstate) : Prop :=
  (forall t, jpcs s t = JBuilding -> c_file s = true /\ ready s = false) /\ (forall t t', jpcs s t = JBuilding -> jpcs s t' = JBuilding -> t = t')
  /\ (ready s = true -> c_file s = true /\ module_ok s = true) /\ (forall t ok, jpcs s t = JReturned ok -> ok = true /\ ready s = true) /\ (forall t k, jpcs s t = JWaiting k -> k <= timeout).
Lemma jgood_fire timeout e s s' : jgood timeout s -> jfire timeout e s = Some s' -> jgood timeout s'.
Proof.
  intros (B & U & R & O & K) E. destruct e as [t b|t]; cbn in E.
  - unfold jit_step in E. destruct (jpcs s t) as [ |k| |ok| | | ] eqn:Et; try discriminate.
    + destruct (c_file s) eqn:Ec; injection E as <-; unfold jgood, jgoto; cbn; rewrite ?Ec.
      * split; [intros u; pcs_case u t; [discriminate|apply B]|]. split; [intros u v; pcs_case u t; [discriminate|]; pcs_case v t; [discriminate|apply U]|]. split; [exact R|].
        split; [intros u ok; pcs_case u t; [discriminate|apply O]|]. intros u k; pcs_case u t; [intros X; injection X as <-; lia|apply K].
      * assert (NB : forall u, jpcs s u <> JBuilding) by (intros u X; apply B in X; destruct X; congruence).
        assert (NR : ready s = false) by (destruct (ready s) eqn:Er; [destruct (R eq_refl); congruence|reflexivity]).
        split; [intros u _; auto|]. split; [intros u v; pcs_case u t; pcs_case v t; auto; intros; exfalso; eapply NB; eauto|]. split; [congruence|].
        split; [intros u ok; pcs_case u t; [discriminate|]; intros X; apply O in X; destruct X; congruence|]. intros u k; pcs_case u t; [discriminate|apply K].
    + destruct k as [|k].
      * injection E as <-; unfold jgood, jgoto; cbn.
        split; [intros u; pcs_case u t; [discriminate|apply B]|]. split; [intros u v; pcs_case u t; [discriminate|]; pcs_case v t; [discriminate|apply U]|]. split; [exact R|].
        split; [intros u ok; pcs_case u t; [discriminate|apply O]|]. intros u k; pcs_case u t; [discriminate|apply K].
      * pose proof (K _ _ Et) as Kt. destruct (ready s) eqn:Er; injection E as <-; unfold jgood, jgoto; cbn; rewrite ?Er.
        { destruct (R eq_refl) as (R1 & R2). split; [intros u; pcs_case u t; [discriminate|apply B]|]. split; [intros u v; pcs_case u t; [discriminate|]; pcs_case v t; [discriminate|apply U]|]. split; [auto|].
          split; [intros u ok; pcs_case u t; [intros X; injection X as <-; auto|apply O]|]. intros u j; pcs_case u t; [discriminate|apply K]. }
        { split; [intros u; pcs_case u t; [discriminate|apply B]|]. split; [intros u v; pcs_case u t; [discriminate|]; pcs_case v t; [discriminate|apply U]|]. split; [exact R|].
          split; [intros u ok; pcs_case u t; [discriminate|apply O]|]. intros u j; pcs_case u t; [intros X; injection X as <-; lia|apply K]. }
    + destruct (B t Et) as (Bc & Br).
      assert (NB : forall u, u <> t -> jpcs s u <> JBuilding) by (intros u N X; apply N; eapply U; eauto).
      assert (NO : forall u ok, jpcs s u <> JReturned ok) by (intros u ok X; apply O in X; destruct X; congruence).
      destruct b; [rewrite Br in E| |]; injection E as <-; unfold jgood, jgoto; cbn.
      * split; [intros u; pcs_case u t; [discriminate|]; intros X; destruct (NB u U0 X)|]. split; [intros u v; pcs_case u t; [discriminate|]; intros X; destruct (NB u U0 X)|]. split; [auto|].
        split; [intros u ok; pcs_case u t; [intros X; injection X as <-; auto|]; intros X; destruct (NO _ _ X)|]. intros u j; pcs_case u t; [discriminate|apply K].
      * split; [intros u; pcs_case u t; [discriminate|]; intros X; destruct (NB u U0 X)|]. split; [intros u v; pcs_case u t; [discriminate|]; intros X; destruct (NB u U0 X)|]. split; [congruence|].
        split; [intros u ok; pcs_case u t; [discriminate|]; intros X; destruct (NO _ _ X)|]. intros u j; pcs_case u t; [discriminate|apply K].
      * split; [intros u; pcs_case u t; [discriminate|]; intros X; destruct (NB u U0 X)|]. split; [intros u v; pcs_case u t; [discriminate|]; intros X; destruct (NB u U0 X)|]. split; [exact R|].
        split; [intros u ok; pcs_case u t; [discriminate|apply O]|]. intros u j; pcs_case u t; [discriminate|apply K].
  - assert (D : jgood timeout (jgoto s t JDead)).
    { unfold jgood, jgoto; cbn. split; [intros u; pcs_case u t; [discriminate|apply B]|]. split; [intros u v; pcs_case u t; [discriminate|]; pcs_case v t; [discriminate|apply U]|]. split; [exact R|].
      split; [intros u ok; pcs_case u t; [discriminate|apply O]|]. intros u k; pcs_case u t; [discriminate|apply K]. }
    destruct (jpcs s t) eqn:Et; injection E as <-; try exact D; (split; [exact B|]); (split; [exact U|]); (split; [exact R|]); (split; [exact O|exact K]).
Qed.
Lemma jrun_inv (I : jstate -> Prop) timeout : (forall e s s', I s -> jfire timeout e s = Some s' -> I s') -> forall es s s', I s -> jrun timeout es s = Some s' -> I s'.
Proof.
  intros H es. induction es as [|e es IH]; intros s s' Hs E; cbn in E; [injection E as <-; exact Hs|].
  destruct (jfire timeout e s) as [s1|] eqn:F; [|discriminate]. eapply IH; [|exact E]. eapply H; eauto.
Qed.
Lemma jgood_start timeout : jgood timeout jstart.
Proof. unfold jgood, jstart; cbn. split; [discriminate|]. split; [discriminate|]. split; [discriminate|]. split; discriminate. Qed.
(** Nobody dies. *)
Definition gentle (e : jevent) : Prop := match e with JKill _ | JTask _ BInterrupted => False | _ => True end.
Lemma waits_for_somebody timeout es s0 s : Forall gentle es -> jgood timeout s0 -> (c_file s0 = true -> ready s0 = true \/ exists t, jpcs s0 t = JBuilding) -> jrun timeout es s0 = Some s ->
  c_file s = true -> ready s = true \/ exists t, jpcs s t = JBuilding.
Proof.
  revert s0. induction es as [|e es IH]; intros s0 G J H E; cbn in E; [injection E as <-; exact H|]. inversion G as [|? ? G1 G2]; subst.
  destruct (jfire timeout e s0) as [s1|] eqn:F; [|discriminate]. apply (IH s1 G2); [eapply jgood_fire; eauto| |exact E]. clear E IH.
  destruct e as [t b|t]; [|destruct G1]. cbn in F. unfold jit_step in F. destruct (jpcs s0 t) as [ |k| |ok| | | ] eqn:Et; try discriminate.
  - destruct (c_file s0) eqn:Ec; injection F as <-; cbn.
    + intros _. destruct (H eq_refl) as [X|(u & X)]; [auto|right]. exists u. rewrite upd_other by congruence. exact X.
    + intros _. right. exists t. apply upd_same.
  - destruct k as [|k]; [injection F as <-; cbn|].
    + intros X. destruct (H X) as [Y|(u & Y)]; [auto|right]. exists u. rewrite upd_other by congruence. exact Y.
    + destruct (ready s0) eqn:Er; injection F as <-; cbn; rewrite ?Er; auto. intros X. destruct (H X) as [Y|(u & Y)]; [auto|right]. exists u. rewrite upd_other by congruence. exact Y.
  - destruct b; [|injection F as <-; cbn; discriminate|destruct G1]. destruct (ready s0); injection F as <-; cbn; auto.
Qed.
Definition jended (p : jpc) : Prop := match p with JReturned _ | JTimedOut | JRaised | JDead => True | _ => False end.
Definition jcounts (t : nat) (e : jevent) : bool := match e with JTask u _ => u =? t | _ => false end.
Definition jrank (timeout : nat) (p : jpc) : nat := match p with JOpen => S (S timeout) | JWaiting k => S k | JBuilding => 1 | _ => 0 end.
Lemma jrank_fire timeout e s s' t : jfire timeout e s = Some s' -> (if jcounts t e then 1 else 0) + jrank timeout (jpcs s' t) <= jrank timeout (jpcs s t).
Proof.
  intros E. destruct e as [u b|u]; cbn in E.
  - assert (X : S (jrank timeout (jpcs s' u)) <= jrank timeout (jpcs s u) /\ forall v, v <> u -> jpcs s' v = jpcs s v).
    { unfold jit_step in E. destruct (jpcs s u) as [ |k| |ok| | | ] eqn:Et; try discriminate.
      - destruct (c_file s); injection E as <-; cbn; rewrite upd_same; (split; [cbn; lia|]); intros v Hv; apply upd_other, Hv.
      - destruct k; [|destruct (ready s)]; injection E as <-; cbn; rewrite upd_same; (split; [cbn; lia|]); intros v Hv; apply upd_other, Hv.
      - destruct b; [destruct (ready s)| |]; injection E as <-; cbn; rewrite upd_same; (split; [cbn; lia|]); intros v Hv; apply upd_other, Hv. }
    destruct X as (X1 & X2). cbn. destruct (Nat.eqb_spec u t) as [->|N]; [lia|]. rewrite X2 by auto. lia.
  - assert (X : jrank timeout (jpcs s' t) <= jrank timeout (jpcs s t)).
    { destruct (jpcs s u) eqn:Eu; injection E as <-; cbn; try lia; destruct (upd_cases (jpcs s) u JDead t) as [[-> ->]|[N ->]]; cbn; lia. }
    cbn. lia.
Qed.

(** C171: calls that compile the same form at the same time, in any processes, killed or interrupted at any moment: a module is compiled by one call
    at a time, and a call that returns has a complete module; a complete module is kept and every later call returns it; a call never blocks
    and ends after at most timeout + 2 steps. When nobody dies or is interrupted, a call that waits waits for a call that compiles. *)
Theorem C171_cache_partial : forall timeout es s, jrun timeout es jstart = Some s ->
  (forall t t', jpcs s t = JBuilding -> jpcs s t' = JBuilding -> t = t')
  /\ (forall t ok, jpcs s t = JReturned ok -> ok = true)
  /\ (ready s = true -> module_ok s = true /\ (forall es' s', jrun timeout es' s = Some s' -> ready s' = true /\ module_ok s' = true)
        /\ (0 < timeout -> forall t b, jpcs s t = JOpen -> exists s1 s2, jfire timeout (JTask t b) s = Some s1 /\ jfire timeout (JTask t b) s1 = Some s2 /\ jpcs s2 t = JReturned true))
  /\ (forall t, jended (jpcs s t) \/ exists s', jfire timeout (JTask t BFinishes) s = Some s')
  /\ (forall t, length (filter (jcounts t) es) <= timeout + 2)
  /\ (Forall gentle es -> c_file s = true -> ready s = true \/ exists t, jpcs s t = JBuilding).
Proof.
  intros timeout es s E. assert (G : jgood timeout s) by (eapply (jrun_inv (jgood timeout)); [intros; eapply jgood_fire; eauto|apply jgood_start|exact E]).
  pose proof G as (B & U & R & O & K).
  split; [exact U|]. split; [intros t ok X; apply O in X; apply X|]. split; [|split; [|split]].
  - intros Hr. destruct (R Hr) as (Rc & Rm). split; [exact Rm|]. split.
    + assert (I : forall es' s1 s', jgood timeout s1 -> ready s1 = true -> jrun timeout es' s1 = Some s' -> ready s' = true).
      { clear. induction es' as [|e es' IH]; intros s1 s' G Hr E; cbn in E; [injection E as <-; exact Hr|]. destruct (jfire timeout e s1) as [s2|] eqn:F; [|discriminate].
        apply (IH s2 s'); [eapply jgood_fire; eauto| |exact E]. destruct G as (B & U & R & O & K). destruct e as [t b|t]; cbn in F.
        - unfold jit_step in F. destruct (jpcs s1 t) as [ |k| |ok| | | ] eqn:Et; try discriminate.
          + destruct (R Hr) as (Rc & _). rewrite Rc in F. injection F as <-. exact Hr.
          + rewrite Hr in F. destruct k; injection F as <-; exact Hr.
          + destruct (B t Et); congruence.
        - destruct (jpcs s1 t); injection F as <-; exact Hr. }
      intros es' s' E'. assert (Hr' : ready s' = true) by (eapply I; eauto). split; [exact Hr'|].
      assert (G' : jgood timeout s') by (eapply (jrun_inv (jgood timeout)); [intros; eapply jgood_fire; eauto|exact G|exact E']). apply G', Hr'.
    + intros Ht t b Eo. destruct timeout as [|k]; [lia|]. exists (jgoto s t (JWaiting (S k))). eexists. split; [cbn; unfold jit_step; rewrite Eo, Rc; reflexivity|].
      split; [cbn; unfold jit_step; cbn; rewrite upd_same, Hr; reflexivity|]. cbn. rewrite upd_same, Rm. reflexivity.
  - intros t. cbn. unfold jit_step. destruct (jpcs s t) as [ |[|k]| |ok| | | ]; try (left; exact I); right; try (eexists; reflexivity).
  - intros t. assert (X : forall es s0 s1, jrun timeout es s0 = Some s1 -> length (filter (jcounts t) es) + jrank timeout (jpcs s1 t) <= jrank timeout (jpcs s0 t)).
    { clear. induction es as [|e es IH]; intros s0 s1 E; cbn in E; [injection E as <-; cbn; lia|]. destruct (jfire timeout e s0) as [s2|] eqn:F; [|discriminate].
      specialize (IH _ _ E). apply (jrank_fire _ _ _ _ t) in F. cbn [filter length]. destruct (jcounts t e); cbn [length] in *; lia. }
    specialize (X es _ _ E). cbn in X. lia.
  - intros Hg Ec. exact (waits_for_somebody timeout es jstart s Hg (jgood_start _) ltac:(discriminate) E Ec).
Qed.
(** Refuted when the call that compiles is killed, or interrupted from the keyboard: the module is never compiled again and no call ever returns; *)
Theorem C171_killed_refuted : forall timeout e, e = JKill 0 \/ e = JTask 0 BInterrupted ->
  exists s, jrun timeout [JTask 0 BFinishes; e] jstart = Some s
    /\ forall es' s', jrun timeout es' s = Some s' -> ready s' = false /\ forall t, (forall ok, jpcs s' t <> JReturned ok) /\ jpcs s' t <> JBuilding.
Proof.
  intros timeout e He. set (I := fun s => c_file s = true /\ ready s = false /\ forall t, (forall ok, jpcs s t <> JReturned ok) /\ jpcs s t <> JBuilding).
  assert (S : forall e s s', I s -> jfire timeout e s = Some s' -> I s').
  { clear. intros e s s' (C & R & N) E. assert (X : forall t q, (forall ok, q <> JReturned ok) -> q <> JBuilding -> I (jgoto s t q)).
    { intros t q A B. split; [exact C|]. split; [exact R|]. intros u. cbn. pcs_case u t; [auto|apply N]. }
    destruct e as [t b|t]; cbn in E.
    - unfold jit_step in E. destruct (jpcs s t) as [ |[|k]| |ok| | | ] eqn:Et; try discriminate.
      + rewrite C in E. injection E as <-. apply X; discriminate.
      + injection E as <-. apply X; discriminate.
      + rewrite R in E. injection E as <-. apply X; discriminate.
      + destruct (N t). congruence.
    - destruct (jpcs s t); injection E as <-; try (apply X; discriminate); split; auto. }
  assert (F : exists s, jrun timeout [JTask 0 BFinishes; e] jstart = Some s /\ I s).
  { destruct He as [-> | ->]; (eexists; split; [reflexivity|]); (split; [reflexivity|]); (split; [reflexivity|]); intros u; cbn; pcs_case u 0; try (split; discriminate); rewrite upd_other by auto; split; discriminate. }
  destruct F as (s & E & Is). exists s. split; [exact E|]. intros es' s' E'. destruct (jrun_inv I timeout S es' s s' Is E') as (_ & A & B). auto.
Qed.
(** and when it fails, for the calls that wait: they time out, although nobody compiles and a new call would. *)
Theorem C171_failed_refuted : forall timeout, exists s,
  jrun timeout ([JTask 0 BFinishes; JTask 1 BFinishes; JTask 0 BFails] ++ repeat (JTask 1 BFinishes) (S timeout)) jstart = Some s
  /\ jpcs s 1 = JTimedOut /\ c_file s = false /\ ready s = false.
Proof.
  intros timeout. assert (W : forall k s, ready s = false -> jpcs s 1 = JWaiting k -> exists s', jrun timeout (repeat (JTask 1 BFinishes) (S k)) s = Some s' /\ jpcs s' 1 = JTimedOut /\ c_file s' = c_file s /\ ready s' = false).
  { induction k as [|k IH]; intros s R E; cbn [repeat jrun jfire]; unfold jit_step at 1; rewrite E.
    - eexists. split; [reflexivity|]. cbn. auto.
    - rewrite R. destruct (IH (jgoto s 1 (JWaiting k)) R eq_refl) as (s' & A & B & C & D). exists s'. split; [exact A|]. auto. }
  match goal with |- exists s, jrun timeout (?a ++ ?b) jstart = _ /\ _ => change (a ++ b) with (JTask 0 BFinishes :: JTask 1 BFinishes :: JTask 0 BFails :: b) end.
  cbn [jrun jfire]. unfold jit_step at 3. cbn [jstart jpcs c_file]. cbn -[repeat jrun].
  match goal with |- exists s, jrun _ _ ?s0 = _ /\ _ => destruct (W timeout s0 eq_refl ltac:(cbn; reflexivity)) as (s' & A & B & C & D) end.
  exists s'. split; [exact A|]. split; [exact B|]. split; [exact C|exact D].
Qed.
Print Assumptions C171_cache_partial.
Print Assumptions C171_killed_refuted.
Print Assumptions C171_failed_refuted.
(** Three calls: one compiles, one waits, one comes later. *)
Example C171_case : exists s, jrun 3 [JTask 0 BFinishes; JTask 1 BFinishes; JTask 1 BFinishes; JTask 0 BFinishes; JTask 1 BFinishes; JTask 2 BFinishes; JTask 2 BFinishes] jstart = Some s
  /\ Forall gentle [JTask 0 BFinishes; JTask 1 BFinishes; JTask 1 BFinishes; JTask 0 BFinishes; JTask 1 BFinishes; JTask 2 BFinishes; JTask 2 BFinishes] /\ forall t, t < 3 -> jpcs s t = JReturned true.
Proof. eexists. split; [reflexivity|]. split; [repeat constructor|]. intros [|[|[|t]]] H; [reflexivity|reflexivity|reflexivity|lia]. Qed.
