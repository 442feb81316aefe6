(** Lemmas for the general reparameterization: the events replayed on the mesh. *)
From Coq Require Import Reals List Lia Lra Permutation Arith ZArith.
From Verif Require Import M_General S_General S_Mesh S_Roots L_Real L_BBox L_Point L_TensorNat L_Mesh L_Mesh5 L_Roots L_General L_General2 L_General3.
Import ListNotations.
Local Close Scope Z_scope. Local Close Scope R_scope. Local Open Scope nat_scope.

Lemma find_in {A} (m : list (list nat * A)) t c : find_tid m t = Some c -> In (t, c) m.
Proof. induction m as [|[u a] m IH]; cbn; [discriminate|]. destruct (tid_eqb_spec u t) as [->|]; [intros [= <-]; left; reflexivity|intros H; right; apply IH; exact H]. Qed.
Lemma find_none {A} (m : list (list nat * A)) t : find_tid m t = None -> ~ In t (map fst m).
Proof. induction m as [|[u a] m IH]; cbn; [auto|]. destruct (tid_eqb_spec u t) as [->|Ne]; [discriminate|]. intros H [E|E]; [contradiction|apply IH; assumption]. Qed.
Lemma find_some {A} (m : list (list nat * A)) t c : NoDup (map fst m) -> In (t, c) m -> find_tid m t = Some c.
Proof.
  induction m as [|[u a] m IH]; cbn; [intros _ []|]. intros N [E|E]; [injection E as -> ->; destruct (tid_eqb_spec t t); congruence|]. inversion N; subst.
  destruct (tid_eqb_spec u t) as [->|]; [exfalso; apply H1; apply in_map_iff; exists (t, c); auto|auto].
Qed.

Section Run.
Variables (cheb : nat -> nat -> R) (mdim : nat).
Variables (m0 : mesh) (n0 : nat).
Notation order := (m_order m0).
Hypothesis Hord : 2 <= order.
Hypothesis H0 : length (m_conn m0) = n0 * order ^ mdim.

Notation N := (order ^ mdim).
(** The cell assigned to a tensor index, relative to the first new cell; the entries of the connectivity that are filled. *)
Record run_inv (evs : list event) (m : mesh) (mp : list (list nat * nat)) (pts : list (list R)) (ids : list nat) : Prop := mk_run {
  ri_order : m_order m = order; ri_wires : m_wires m = m_wires m0;
  ri_points : m_points m = m_points m0 ++ pts; ri_n : length pts = length evs;
  ri_conn : m_conn m = m_conn m0 ++ ids; ri_ids : length ids = length mp * N;
  ri_keys : NoDup (map fst mp); ri_cells : map snd mp = rev (seq n0 (length mp));
  ri_pts : Forall2 (fun e x => exists t p, e = Insert t p x) evs pts;
  ri_src : forall t, In t (map fst mp) -> exists p x, In (Insert t p x) evs;
  ri_filled : forall t p x, In (Insert t p x) evs -> exists k, In (t, n0 + k) mp /\ k < length mp /\ length (m_points m0) <= nth (k * N + position order p) ids 0 < length (m_points m0) + length pts;
  ri_inj : forall t p x t' p' x', In (Insert t p x) evs -> In (Insert t' p' x') evs -> forall k k', In (t, n0 + k) mp -> In (t', n0 + k') mp ->
    nth (k * N + position order p) ids 0 = nth (k' * N + position order p') ids 0 -> t = t' /\ p = p' }.

Lemma run_nil : run_inv [] m0 [] [] [].
Proof. constructor; cbn; rewrite ?app_nil_r; auto; try constructor; try contradiction. Qed.
Lemma cell_lt (mp : list (list nat * nat)) t k : map snd mp = rev (seq n0 (length mp)) -> In (t, n0 + k) mp -> k < length mp.
Proof. intros E H. assert (In (n0 + k) (map snd mp)) as I by (apply in_map_iff; exists (t, n0 + k); auto). rewrite E, <- in_rev, in_seq in I. lia. Qed.
Lemma cell_inj (mp : list (list nat * nat)) t t' k : map snd mp = rev (seq n0 (length mp)) -> In (t, n0 + k) mp -> In (t', n0 + k) mp -> t = t'.
Proof.
  intros E H H'. assert (Nd : NoDup (map snd mp)) by (rewrite E; apply NoDup_rev, seq_NoDup). revert H H'. clear E. induction mp as [|[u a] mp IH]; [intros []|]. cbn [map snd] in Nd. inversion Nd as [|? ? N1 N2]; subst. cbn. intros [E1|E1] [E2|E2].
  - congruence.
  - injection E1 as -> ->. exfalso. apply N1. apply in_map_iff. exists (t', n0 + k). auto.
  - injection E2 as -> ->. exfalso. apply N1. apply in_map_iff. exists (t, n0 + k). auto.
  - auto.
Qed.
Lemma key_inj {A} (mp : list (list nat * A)) t c c' : NoDup (map fst mp) -> In (t, c) mp -> In (t, c') mp -> c = c'.
Proof. intros Nd H H'. apply find_some in H; [|exact Nd]. apply find_some in H'; [|exact Nd]. congruence. Qed.
Lemma pos_split k k' a b : a < N -> b < N -> k * N + a = k' * N + b -> k = k' /\ a = b.
Proof. intros Ha Hb E. assert (k = k') by nia. subst. lia. Qed.

Lemma run_insert evs m mp pts ids t p x : run_inv evs m mp pts ids -> is_index mdim order p ->
  (forall t' p' x', In (Insert t' p' x') evs -> is_index mdim order p') ->
  exists m' mp' ids', run_event cheb mdim (m, mp) (Insert t p x) = Ret (m', mp') /\ run_inv (evs ++ [Insert t p x]) m' mp' (pts ++ [x]) ids'.
Proof.
  intros I Hp Hps. pose proof (pow_pos order mdim Hord) as HN. assert (Hpos := position_lt _ _ _ Hp).
  (* the allocation *)
  assert (A : exists m1 mp1 ids1 k, match find_tid mp t with Some c => (m, mp, c) | None => (fst (allocate_cells mdim m 1), emplace mp t (snd (allocate_cells mdim m 1)), snd (allocate_cells mdim m 1)) end = (m1, mp1, n0 + k) /\
     In (t, n0 + k) mp1 /\ m_order m1 = order /\ m_wires m1 = m_wires m0 /\ m_points m1 = m_points m0 ++ pts /\ m_conn m1 = m_conn m0 ++ ids1 /\ length ids1 = length mp1 * N /\
     NoDup (map fst mp1) /\ map snd mp1 = rev (seq n0 (length mp1)) /\ (forall t', In t' (map fst mp1) -> t' = t \/ In t' (map fst mp)) /\
     (forall e, In e mp -> In e mp1) /\ (forall i, i < length ids -> nth i ids1 0 = nth i ids 0) /\ length ids <= length ids1).
  { destruct (find_tid mp t) as [c|] eqn:E.
    - apply find_in in E. assert (In c (map snd mp)) as Ic by (apply in_map_iff; exists (t, c); auto). rewrite (ri_cells _ _ _ _ _ I), <- in_rev, in_seq in Ic.
      exists m, mp, ids, (c - n0). replace (n0 + (c - n0)) with c by lia. split; [reflexivity|]. split; [exact E|]. destruct I. repeat (split; [solve [auto]|]). lia.
    - unfold allocate_cells. cbn [fst snd]. unfold emplace. rewrite E. unfold pts_per_cell. rewrite (ri_order _ _ _ _ _ I). rewrite (ri_conn _ _ _ _ _ I), app_length, H0, (ri_ids _ _ _ _ _ I), Nat.mul_1_l.
      rewrite <- Nat.mul_add_distr_r, Nat.div_mul by lia. exists (mk_mesh order (m_points m) ((m_conn m0 ++ ids) ++ repeat 0 N) (m_wires m)), ((t, n0 + length mp) :: mp), (ids ++ repeat 0 N), (length mp).
      split; [reflexivity|]. split; [left; reflexivity|]. cbn [m_order m_wires m_points m_conn]. split; [reflexivity|]. split; [apply I|]. split; [apply I|]. split; [rewrite app_assoc; reflexivity|].
      split; [rewrite app_length, repeat_length, (ri_ids _ _ _ _ _ I); cbn [length]; lia|]. split; [constructor; [apply find_none; exact E|apply I]|].
      split; [cbn [map snd length]; rewrite seq_S, rev_app_distr; cbn [rev app]; f_equal; apply I|]. split; [cbn [map fst]; intros t' [<-|H]; auto|]. split; [intros e He; right; exact He|].
      split; [intros i Hi; apply app_nth1; rewrite (ri_ids _ _ _ _ _ I); exact Hi|rewrite app_length, (ri_ids _ _ _ _ _ I); lia]. }
  destruct A as (m1 & mp1 & ids1 & k & E1 & Ik & Eo & Ew & Ep & Ec & Li & Nk & Es & Hk & Hsub & Hids & Hlen).
  pose proof (cell_lt mp1 t k Es Ik) as Hkl.
  assert (Ht : length ids1 = length mp1 * N) by exact Li. set (pos := k * N + position order p). assert (Hpl : pos < length ids1) by (unfold pos; rewrite Li; nia).
  exists (mk_mesh order (m_points m0 ++ pts ++ [x]) (m_conn m0 ++ set_at ids1 pos (length (m_points m0) + length pts)) (m_wires m0)), mp1, (set_at ids1 pos (length (m_points m0) + length pts)).
  assert (Hset : forall i, nth i (set_at ids1 pos (length (m_points m0) + length pts)) 0 = if pos =? i then length (m_points m0) + length pts else nth i ids1 0).
  { intros i. rewrite set_at_nth. destruct (pos =? i) eqn:E; [|reflexivity]. destruct (Nat.ltb_spec pos (length ids1)); [reflexivity|lia]. }
  split.
  - unfold run_event. cbv zeta. change (fst (m, mp)) with m. change (snd (m, mp)) with mp. rewrite E1. unfold insert_cell_point, pts_per_cell. rewrite Eo, (proj1 Hp), (tp_flat_position order mdim p (proj1 Hp)), Ec, app_length, H0.
    destruct (Nat.ltb_spec ((n0 + k) * N + position order p) (n0 * N + length ids1)) as [_|B]; [|unfold pos in Hpl; nia]. cbn [assert_ bind]. rewrite Ep, Ew, app_length, <- app_assoc. do 3 f_equal.
    replace ((n0 + k) * N + position order p) with (length (m_conn m0) + pos) by (unfold pos; rewrite H0; nia).
    clear. induction (m_conn m0) as [|a l IH]; [reflexivity|]. cbn [length app Nat.add set_at]. f_equal. exact IH.
  - assert (Hfill : forall t' p' x', In (Insert t' p' x') evs -> exists k', In (t', n0 + k') mp1 /\ k' < length mp1 /\ k' * N + position order p' < length ids /\
        length (m_points m0) <= nth (k' * N + position order p') ids1 0 < length (m_points m0) + length pts).
    { intros t' p' x' H. destruct (ri_filled _ _ _ _ _ I t' p' x' H) as (k' & J1 & J2 & J3). assert (Q := position_lt _ _ _ (Hps _ _ _ H)). assert (k' * N + position order p' < length ids) by (rewrite (ri_ids _ _ _ _ _ I); nia).
      exists k'. split; [auto|]. split; [apply (cell_lt mp1 t' k' Es); auto|]. split; [assumption|]. rewrite Hids by assumption. exact J3. }
    constructor; cbn [m_order m_wires m_points m_conn]; auto.
    + rewrite !app_length, (ri_n _ _ _ _ _ I). reflexivity.
    + rewrite set_at_length. exact Li.
    + apply Forall2_app; [apply I|]. constructor; [exists t, p; reflexivity|constructor].
    + intros t' H. destruct (Hk t' H) as [->|H']; [exists p, x; apply in_or_app; right; left; reflexivity|]. destruct (ri_src _ _ _ _ _ I t' H') as (p' & x' & J). exists p', x'. apply in_or_app. auto.
    + intros t' p' x' H. rewrite app_length. cbn [length]. apply in_app_or in H as [H|[H|[]]].
      * destruct (Hfill _ _ _ H) as (k' & J1 & J2 & J3 & J4). exists k'. split; [exact J1|]. split; [exact J2|]. rewrite Hset. destruct (Nat.eqb_spec pos (k' * N + position order p')); lia.
      * injection H as <- <- <-. exists k. split; [exact Ik|]. split; [exact Hkl|]. rewrite Hset. fold pos. rewrite Nat.eqb_refl. lia.
    + intros t1 p1 x1 t2 p2 x2 K1 K2 k1 k2 J1 J2.
      assert (P1 : is_index mdim order p1) by (apply in_app_or in K1 as [K1|[K1|[]]]; [eapply Hps; exact K1|injection K1 as _ <- _; exact Hp]).
      assert (P2 : is_index mdim order p2) by (apply in_app_or in K2 as [K2|[K2|[]]]; [eapply Hps; exact K2|injection K2 as _ <- _; exact Hp]).
      pose proof (position_lt _ _ _ P1) as B1. pose proof (position_lt _ _ _ P2) as B2.
      assert (Same : forall tt kk pp, In (tt, n0 + kk) mp1 -> is_index mdim order pp -> pos = kk * N + position order pp -> tt = t /\ pp = p).
      { intros tt kk pp Q1 Q2 Q3. apply pos_split in Q3 as [<- Q3]; [|exact Hpos|apply position_lt; exact Q2]. split; [eapply cell_inj; [exact Es|exact Q1|exact Ik]|symmetry; eapply position_inj; eassumption]. }
      assert (Old : forall tt pp xx kk, In (Insert tt pp xx) (evs ++ [Insert t p x]) -> In (tt, n0 + kk) mp1 -> pos <> kk * N + position order pp -> In (Insert tt pp xx) evs /\ In (tt, n0 + kk) mp /\ kk * N + position order pp < length ids).
      { intros tt pp xx kk Q1 Q2 Q3. apply in_app_or in Q1 as [Q1|[Q1|[]]].
        - split; [exact Q1|]. destruct (ri_filled _ _ _ _ _ I _ _ _ Q1) as (kk' & R1 & R2 & _). assert (n0 + kk = n0 + kk') by (eapply key_inj; [exact Nk|exact Q2|auto]). assert (kk = kk') by lia. subst kk'. split; [exact R1|].
          rewrite (ri_ids _ _ _ _ _ I). assert (U := position_lt _ _ _ (Hps _ _ _ Q1)). nia.
        - injection Q1 as <- <- <-. exfalso. assert (n0 + kk = n0 + k) by (eapply key_inj; [exact Nk|exact Q2|exact Ik]). assert (kk = k) by lia. subst kk. apply Q3. reflexivity. }
      rewrite !Hset. destruct (Nat.eqb_spec pos (k1 * N + position order p1)) as [D1|D1], (Nat.eqb_spec pos (k2 * N + position order p2)) as [D2|D2]; intros Heq.
      * destruct (Same t1 k1 p1 J1 P1 D1), (Same t2 k2 p2 J2 P2 D2). split; congruence.
      * exfalso. destruct (Old _ _ _ _ K2 J2 D2) as (Q1 & Q2 & Q3). destruct (ri_filled _ _ _ _ _ I _ _ _ Q1) as (kk & R1 & _ & R3). assert (n0 + k2 = n0 + kk) by (eapply key_inj; [apply I|exact Q2|exact R1]). assert (k2 = kk) by lia. subst kk. rewrite Hids in Heq by exact Q3. lia.
      * exfalso. destruct (Old _ _ _ _ K1 J1 D1) as (Q1 & Q2 & Q3). destruct (ri_filled _ _ _ _ _ I _ _ _ Q1) as (kk & R1 & _ & R3). assert (n0 + k1 = n0 + kk) by (eapply key_inj; [apply I|exact Q2|exact R1]). assert (k1 = kk) by lia. subst kk. rewrite Hids in Heq by exact Q3. lia.
      * destruct (Old _ _ _ _ K1 J1 D1) as (Q1 & Q2 & Q3). destruct (Old _ _ _ _ K2 J2 D2) as (Q4 & Q5 & Q6). rewrite !Hids in Heq by assumption. exact (ri_inj _ _ _ _ _ I _ _ _ _ _ _ Q1 Q4 k1 k2 Q2 Q5 Heq).
Qed.
Lemma run_inserts : forall evs old m mp pts ids, run_inv old m mp pts ids -> Forall (fun e => exists t p x, e = Insert t p x /\ is_index mdim order p) (old ++ evs) ->
  exists m' mp' pts' ids', foldM (run_event cheb mdim) evs (m, mp) = Ret (m', mp') /\ run_inv (old ++ evs) m' mp' pts' ids'.
Proof.
  induction evs as [|e evs IH]; intros old m mp pts ids I F; [exists m, mp, pts, ids; rewrite app_nil_r; split; [reflexivity|exact I]|].
  assert (Fo : forall t' p' x', In (Insert t' p' x') old -> is_index mdim order p').
  { intros t' p' x' H. rewrite Forall_forall in F. destruct (F (Insert t' p' x')) as (t & p & x & E & Hp); [apply in_or_app; auto|]. injection E as -> -> ->. exact Hp. }
  assert (Fe : exists t p x, e = Insert t p x /\ is_index mdim order p) by (rewrite Forall_forall in F; apply F; apply in_or_app; right; left; reflexivity).
  destruct Fe as (t & p & x & -> & Hp). destruct (run_insert _ _ _ _ _ t p x I Hp Fo) as (m1 & mp1 & ids1 & E1 & I1). cbn [foldM]. rewrite E1. cbn [bind].
  replace (old ++ Insert t p x :: evs) with ((old ++ [Insert t p x]) ++ evs) in * by (rewrite <- app_assoc; reflexivity). apply (IH _ _ _ _ _ I1 F).
Qed.
(** A whole set of cells. *)
Lemma run_complete (P : list R -> Prop) evs cs : NoDup cs ->
  Forall (fun e => exists t p x, e = Insert t p x /\ In t cs /\ is_index mdim order p /\ P x) evs -> (forall t p, In t cs -> is_index mdim order p -> exists x, In (Insert t p x) evs) ->
  exists m' mp' np ni, foldM (run_event cheb mdim) evs (m0, []) = Ret (m', mp') /\ cells_added mdim P m0 m' np ni /\ length np = length evs /\ length ni = length cs * N.
Proof.
  intros Nc F Cov. pose proof (pow_pos order mdim Hord) as HN.
  destruct (run_inserts evs [] m0 [] [] [] run_nil) as (m' & mp & pts & ids & E & I); [cbn [app]; eapply Forall_impl; [|exact F]; intros e (t & p & x & -> & _ & Hp & _); exists t, p, x; auto|]. cbn [app] in I.
  exists m', mp, pts, ids. split; [exact E|]. split; [|split].
  2: apply I.
  2: { rewrite (ri_ids _ _ _ _ _ I). f_equal. rewrite <- (map_length fst mp). apply Permutation_length. apply NoDup_Permutation; [apply I|exact Nc|]. intros t. split.
       - intros H. destruct (ri_src _ _ _ _ _ I t H) as (p & x & Hin). rewrite Forall_forall in F. destruct (F _ Hin) as (t' & p' & x' & Ee & Ht & _). injection Ee as -> _ _. exact Ht.
       - intros H. destruct (position_surj mdim order 0 HN) as (p & Hp & _). destruct (Cov t p H Hp) as [x Hx]. destruct (ri_filled _ _ _ _ _ I _ _ _ Hx) as (k & K1 & _). apply in_map_iff. exists (t, n0 + k). auto. }
  assert (Fill : forall k, k < length mp -> exists t, In (t, n0 + k) mp /\ In t cs).
  { intros k Hk. assert (In (n0 + k) (map snd mp)) as J by (rewrite (ri_cells _ _ _ _ _ I), <- in_rev, in_seq; lia). apply in_map_iff in J as ([t c] & Ec & J). cbn [snd] in Ec. subst c. exists t. split; [exact J|].
    destruct (ri_src _ _ _ _ _ I t) as (p & x & Hin); [apply in_map_iff; exists (t, n0 + k); auto|]. rewrite Forall_forall in F. destruct (F _ Hin) as (t' & p' & x' & Ee & Ht & _). injection Ee as -> _ _. exact Ht. }
  assert (At : forall i, i < length ids -> exists k t p x, i = k * N + position order p /\ In (t, n0 + k) mp /\ is_index mdim order p /\ In (Insert t p x) evs).
  { intros i Hi. rewrite (ri_ids _ _ _ _ _ I) in Hi. destruct (position_surj mdim order (i mod N)) as (p & Hp & Ep); [apply Nat.mod_upper_bound; lia|]. assert (i / N < length mp) as Hk by (apply Nat.div_lt_upper_bound; lia).
    destruct (Fill _ Hk) as (t & Ht & Hc). destruct (Cov t p Hc Hp) as [x Hx]. exists (i / N), t, p, x. split; [rewrite Ep, Nat.mul_comm; apply Nat.div_mod; lia|auto]. }
  unfold cells_added. split; [apply I|]. split; [apply I|]. split; [apply I|]. split; [apply I|]. split; [exists (length mp); apply I|]. split; [|split].
  - apply (NoDup_nth ids 0). intros i j Hi Hj Heq. destruct (At i Hi) as (k & t & p & x & -> & K1 & K2 & K3). destruct (At j Hj) as (k' & t' & p' & x' & -> & K1' & K2' & K3').
    destruct (ri_inj _ _ _ _ _ I _ _ _ _ _ _ K3 K3' k k' K1 K1' Heq) as [<- <-]. assert (n0 + k = n0 + k') by (eapply key_inj; [apply I|exact K1|exact K1']). f_equal. f_equal. lia.
  - apply Forall_forall. intros v Hv. apply (In_nth _ _ 0) in Hv as (i & Hi & <-). destruct (At i Hi) as (k & t & p & x & -> & K1 & K2 & K3). destruct (ri_filled _ _ _ _ _ I _ _ _ K3) as (k' & J1 & _ & J3).
    assert (n0 + k = n0 + k') by (eapply key_inj; [apply I|exact K1|exact J1]). assert (k = k') by lia. subst k'. rewrite (ri_points _ _ _ _ _ I), app_length. exact J3.
  - pose proof (ri_pts _ _ _ _ _ I) as F2. clear - F F2. induction F2 as [|e x evs pts (t & p & ->) _ IH]; [constructor|]. inversion F as [|? ? (t' & p' & x' & Ee & _ & _ & Hx) F']; subst. injection Ee as _ _ ->. constructor; [exact Hx|apply IH; exact F'].
Qed.
End Run.

Lemma nodup_append {A} : forall a b : list A, NoDup a -> NoDup b -> (forall x, In x a -> ~ In x b) -> NoDup (a ++ b).
Proof.
  induction a as [|x a IH]; intros b Ha Hb D; [exact Hb|]. inversion Ha; subst. cbn. constructor; [|apply IH; [assumption|assumption|intros; apply D; right; assumption]].
  intros H. apply in_app_or in H as [H|H]; [contradiction|]. apply (D x); [left; reflexivity|exact H].
Qed.
(** A list of events that adds whole cells to any mesh, starting with an empty map. *)
Definition adds (cheb : nat -> nat -> R) (mdim order : nat) (P : list R -> Prop) (exact : Prop) (evs : list event) : Prop :=
  forall m n, m_order m = order -> length (m_conn m) = n * order ^ mdim ->
  exists m' mp np ni, foldM (run_event cheb mdim) evs (m, []) = Ret (m', mp) /\ cells_added mdim P m m' np ni /\ (exact -> length ni = length np).
Lemma foldM_app {A B} (f : A -> B -> outcome A) : forall a b s, foldM f (a ++ b) s = (s' <- foldM f a s ;; foldM f b s').
Proof. induction a as [|x a IH]; intros b s; cbn [app foldM bind]; [reflexivity|]. destruct (f s x); cbn [bind]; auto. Qed.
Lemma adds_nil cheb mdim order P ex : adds cheb mdim order P ex [].
Proof.
  intros m n Ho Hc. exists m, [], [], []. split; [reflexivity|]. split; [|reflexivity]. unfold cells_added. rewrite !app_nil_r. repeat (split; [solve [auto]|]). split; [exists 0; reflexivity|]. repeat split; constructor.
Qed.
Lemma cells_added_trans mdim P m m1 m2 p1 i1 p2 i2 : cells_added mdim P m m1 p1 i1 -> cells_added mdim P m1 m2 p2 i2 -> cells_added mdim P m m2 (p1 ++ p2) (i1 ++ i2).
Proof.
  intros (A1 & A2 & A3 & A4 & (n1 & A5) & A6 & A7 & A8) (B1 & B2 & B3 & B4 & (n2 & B5) & B6 & B7 & B8). unfold cells_added. split; [congruence|]. split; [rewrite B2, A2, app_assoc; reflexivity|]. split; [rewrite B3, A3, app_assoc; reflexivity|]. split; [congruence|].
  split; [exists (n1 + n2); rewrite app_length, A5, B5, A1; lia|]. assert (L1 : length (m_points m1) = length (m_points m) + length p1) by (rewrite A2, app_length; reflexivity). assert (L2 : length (m_points m2) = length (m_points m1) + length p2) by (rewrite B2, app_length; reflexivity).
  split; [|split; [|apply Forall_app; split; assumption]].
  - apply nodup_append; try assumption. rewrite Forall_forall in A7, B7. intros x X1 X2. apply A7 in X1. apply B7 in X2. lia.
  - apply Forall_app. split; [eapply Forall_impl; [|exact A7]|eapply Forall_impl; [|exact B7]]; cbn; intros; lia.
Qed.
Lemma adds_clear cheb mdim order P ex a b : adds cheb mdim order P ex a -> adds cheb mdim order P ex b -> adds cheb mdim order P ex (a ++ Clear :: b).
Proof.
  intros Ha Hb m n Ho Hc. destruct (Ha m n Ho Hc) as (m1 & mp1 & p1 & i1 & E1 & C1 & X1). pose proof C1 as (D1 & _ & D3 & _ & (k & D5) & _). rewrite D1 in Ho || idtac.
  destruct (Hb m1 (n + k)) as (m2 & mp2 & p2 & i2 & E2 & C2 & X2); [congruence|rewrite D3, app_length, Hc, D5, Ho; lia|].
  exists m2, mp2, (p1 ++ p2), (i1 ++ i2). rewrite foldM_app, E1. cbn [bind foldM run_event fst]. split; [exact E2|]. split; [eapply cells_added_trans; eassumption|]. intros Hx. rewrite !app_length, X1, X2 by exact Hx. reflexivity.
Qed.
Lemma adds_start cheb mdim order P ex start a : start = [] \/ start = [Clear] -> adds cheb mdim order P ex a -> adds cheb mdim order P ex (start ++ a).
Proof. intros [->| ->] H; [exact H|]. apply (adds_clear cheb mdim order P ex [] a); [apply adds_nil|exact H]. Qed.
