(** Lemmas for the generated kernel: groups, quadratures, accesses. *)
From Coq Require Import List ZArith Reals Lia Permutation.
From Verif Require Import M_PyBase M_PyPack M_PyKernel S_PyKernel L_PyKernel L_PyKernel2.
Import ListNotations.
Local Open Scope nat_scope.

Lemma metas_any : forall interior gs gi ms, metas interior gi gs = Ret ms -> Forall (fun m => g_any m = true -> interior = true) ms.
Proof.
  intros interior gs. induction gs as [|g gs IH]; intros gi ms E; cbn [metas] in E; [injection E as <-; constructor|].
  unfold group_meta in E. destruct (snd g) as [|[t0 i0] xs]; [discriminate|]. cbn [bind] in E.
  destruct (metas interior (S gi) gs) as [ms'| | |] eqn:E'; cbn [bind] in E; try discriminate. injection E as <-. constructor; [|eapply IH; exact E'].
  cbn [g_any]. intros H. apply Bool.andb_true_iff in H. apply H.
Qed.

Section Kernel.
  Variables (valid : list Z -> bool) (etdim edofs evs : list Z -> nat) (phi : list Z -> list nat -> list R -> nat -> nat -> R) (grow : nat -> nat -> nat).
  Variables (interior mixed : bool) (tdim : nat).
  Variables (q : nat) (l : loaded).
  Hypothesis DATA : data_ok interior mixed tdim l.
  Notation n := (length (l_w l)).
  Notation step' := (step valid etdim edofs evs phi grow l).
  Notation exec' := (exec valid etdim edofs evs phi grow l).
  Notation tok := (table_ok valid etdim edofs evs mixed tdim).
  Notation two := (two_sided interior).
  Notation meta_ok := (meta_ok valid etdim edofs evs interior mixed tdim).
  Notation item_ok := (item_ok valid etdim edofs evs mixed tdim).
  Notation block_ok := (block_ok edofs evs phi tdim q l).
  Notation good := (good edofs evs phi tdim q l).
  Notation keeps := (keeps q).
  Notation tab_ok := (tab_ok phi interior tdim l).

  Lemma gen_item_offs : forall m x offs, meta_ok m -> In x (g_items m) -> snd (gen_item interior q m offs x) = offs ++ item_terms interior x.
  Proof.
    intros m x offs MO IX. destruct MO as [FI [_ [_ [_ [MV [E1 _]]]]]]. rewrite Forall_forall in FI. destruct (FI x IX) as [[_ [j IO]] [KX _]].
    assert (VS : i_vs (snd x) = g_vs m) by (decompose [and] IO; congruence).
    unfold gen_item, item_terms. rewrite VS, MV. destruct (Nat.eqb_spec (evs (g_key m)) 1) as [V|V]; destruct (Nat.ltb_spec 1 (evs (g_key m))); try lia.
    - cbn [snd]. rewrite app_nil_r. reflexivity.
    - destruct (two (fst x)); reflexivity.
  Qed.
  Lemma gen_items_offs : forall m xs offs, meta_ok m -> incl xs (g_items m) -> snd (gen_items interior q m offs xs) = offs ++ flat_map (item_terms interior) xs.
  Proof.
    intros m xs. induction xs as [|x xs IH]; intros offs MO IX; cbn [gen_items flat_map snd]; [rewrite app_nil_r; reflexivity|].
    rewrite IH by (auto; intros y Hy; apply IX; right; exact Hy). rewrite gen_item_offs by (auto; apply IX; left; reflexivity). rewrite app_assoc. reflexivity.
  Qed.
  Lemma keeps_trans : forall a b i j st1 st2 st3, a <= b -> keeps a i st1 st2 -> keeps b j st2 st3 -> keeps a (i ++ j) st1 st3.
  Proof.
    intros a b i j st1 st2 st3 AB [M1 [E1 [B1 [R1 I1]]]] [M2 [E2 [B2 [R2 I2]]]]. split; [eapply (same_mem_trans l); eauto|]. split; [eapply same_env_trans; eauto|].
    split; [intros; rewrite B2, B1; reflexivity|]. split; congruence.
  Qed.
  Lemma good_keep : forall a b i m st st', meta_ok m -> a <= b -> keeps a i st st' -> good st a m -> good st' b m.
  Proof.
    intros a b i m st st' MO AB [M [[ES _] [B _]]] [E [B0 B1]]. split; [rewrite ES; destruct M as [G _]; rewrite G; exact E|].
    split; [|intros A; specialize (B1 A)]; eapply block_keep; eauto.
  Qed.
  Lemma items_exec : forall m xs offs st, meta_ok m -> incl xs (g_items m) -> NoDup (map (fun x => t_id (fst x)) xs) -> good st (terms_val n offs) m ->
    terms_val n (snd (gen_items interior q m offs xs)) <= length (s_buf (c_shim st)) ->
    exists st', exec' st (fst (gen_items interior q m offs xs)) = Ret (inr st') /\ keeps (terms_val n offs) (map (fun x => t_id (fst x)) xs) st st'
      /\ Forall (fun x => tab_ok st' (terms_val n (snd (gen_items interior q m offs xs))) (fst x)) xs.
  Proof.
    intros m xs. induction xs as [|x xs IH]; intros offs st MO IX ND GD LEN.
    - exists st. cbn. split; [reflexivity|]. split; [|constructor]. repeat split; auto.
    - cbn [gen_items fst snd] in *. inversion ND as [|? ? NI ND']; subst.
      assert (IX1 : In x (g_items m)) by (apply IX; left; reflexivity). assert (IX2 : incl xs (g_items m)) by (intros y Hy; apply IX; right; exact Hy).
      set (o1 := snd (gen_item interior q m offs x)) in *.
      assert (LE1 : terms_val n o1 <= length (s_buf (c_shim st))).
      { rewrite gen_items_offs in LEN by auto. rewrite terms_app in LEN. lia. }
      destruct (item_exec valid etdim edofs evs phi grow interior mixed tdim q l m x offs st MO IX1 GD LE1) as [st1 [X1 [K1 [T1 C1]]]]. fold o1 in T1, C1.
      assert (GD1 : good st1 (terms_val n o1) m) by (eapply good_keep; eauto).
      assert (L1 : length (s_buf (c_shim st1)) = length (s_buf (c_shim st))) by (destruct K1 as [[_ [L _]] _]; exact L).
      destruct (IH o1 st1 MO IX2 ND' GD1) as [st2 [X2 [K2 F2]]]; [rewrite L1; exact LEN|].
      exists st2. split; [erewrite exec_app by exact X1; exact X2|]. split.
      + exact (keeps_trans _ _ _ _ _ _ _ C1 K1 K2).
      + constructor; [|exact F2]. destruct K2 as [M2 [E2 _]]. eapply tab_ok_keep; eauto.
        rewrite gen_items_offs by auto. rewrite terms_app. lia.
  Qed.

  (** *** Tabulation of a block *)
  Lemma step_tabulate : forall m side pv cur st h,
    meta_ok m -> nth_error (s_reg (c_shim st)) h = Some (g_key m) -> c_env st (VHandle q (g_i m)) = Some (Int (Z.of_nat h)) ->
    c_env st (VBlock q (g_i m) side) = Some (Ptr (s_gen (c_shim st)) cur) -> cur + g_blk m * n <= length (s_buf (c_shim st)) ->
    n * g_gdim m <= length (pts_of l pv) -> (forall iq, iq < n -> point (g_gdim m) (pts_of l pv) iq = pt tdim l (g_gdim m) side iq) ->
    exists s, step' st (CTabulate (VHandle q (g_i m)) (g_maxnd m) pv (g_gdim m) (VBlock q (g_i m) side) (g_blk m)) = Ret (inr {| c_env := c_env st; c_shim := s |})
      /\ same_mem cur st {| c_env := c_env st; c_shim := s |} /\ s_reg s = s_reg (c_shim st) /\ s_idx s = s_idx (c_shim st)
      /\ block_ok {| c_env := c_env st; c_shim := s |} (cur + g_blk m * n) m side.
  Proof.
    intros m side pv cur st h MO RH EH EB LEN LP PTS. pose proof MO as MO'. destruct MO' as [FI [VK [MG [MN [MV [E1 [G3 [DIM [BLK ANY]]]]]]]]].
    unfold step, get_int, get_ptr. rewrite EH, EB. cbn [bind fst snd]. unfold tabulate_impl.
    assert (HL : h < length (s_reg (c_shim st))) by (apply nth_error_Some; congruence).
    destruct (Z.ltb_spec (Z.of_nat h) 0) as [Z0|Z0]; [lia|]. destruct (Z.leb_spec (Z.of_nat (length (s_reg (c_shim st)))) (Z.of_nat h)) as [Z1|Z1]; [lia|]. cbn [orb].
    rewrite Nat2Z.id, RH. rewrite <- MG.
    assert (NEED : length (multi (g_gdim m) (g_maxnd m)) * n * edofs (g_key m) * evs (g_key m) = g_blk m * n) by (rewrite BLK; nia).
    rewrite NEED. rewrite Nat.ltb_irrefl, Nat.eqb_refl. cbn [negb]. destruct (Nat.ltb_spec (length (pts_of l pv)) (n * g_gdim m)) as [X|_]; [lia|].
    set (vals := tabulate etdim edofs evs phi (g_key m) (g_maxnd m) (rows (g_gdim m) n (pts_of l pv))).
    assert (LV : length vals = g_blk m * n).
    { unfold vals. rewrite tabulate_length, rows_length, <- MG, BLK. nia. }
    destruct (store_ok (c_shim st) cur vals) as [s [ST [G [R [I [L [W K]]]]]]]; [lia|]. rewrite ST. cbn [bind fst snd]. rewrite Z.eqb_refl.
    exists s. split; [reflexivity|]. split; [|split; [exact R|split; [exact I|]]].
    - split; [exact G|]. split; [exact L|]. cbn [c_shim]. intros p Hp. apply K. left; exact Hp.
    - exists cur. cbn [c_env c_shim]. rewrite G. split; [exact EB|]. split; [lia|].
      intros d a iq i c Hd Hq Hi Hc. rewrite W.
      + unfold vals. assert (Hd' : nth_error (multi (etdim (g_key m)) (g_maxnd m)) d = Some a) by (rewrite <- MG; exact Hd).
        pose proof (tabulate_nth etdim edofs evs phi l (g_key m) (g_maxnd m) (rows (g_gdim m) n (pts_of l pv)) d a iq (point (g_gdim m) (pts_of l pv) iq) i c Hd' (rows_nth _ _ _ _ Hq) Hi Hc) as T.
        rewrite rows_length in T. rewrite T, (PTS iq Hq). reflexivity.
      + rewrite LV, BLK.
        assert (d < length (multi (g_gdim m) (g_maxnd m))) by (apply nth_error_Some; congruence).
        assert (H1 : d * n + iq < length (multi (g_gdim m) (g_maxnd m)) * n) by (apply (lt_pos l); auto).
        pose proof (lt_pos l _ _ _ _ H1 Hi) as H2. pose proof (lt_pos l _ _ _ _ H2 Hc) as H3. nia.
  Qed.
  Lemma points_ok : forall m, meta_ok m ->
    n * g_gdim m <= length (pts_of l (if mixed && negb (g_gdim m =? tdim) then PFacet else PCell))
    /\ forall iq, iq < n -> point (g_gdim m) (pts_of l (if mixed && negb (g_gdim m =? tdim) then PFacet else PCell)) iq = pt tdim l (g_gdim m) false iq.
  Proof.
    intros m [_ [_ [_ [_ [_ [_ [_ [DIM _]]]]]]]]. destruct DATA as [D0 [D1 D2]]. unfold pt. destruct (Nat.eqb_spec (g_gdim m) tdim) as [E|E].
    - rewrite Bool.andb_false_r. cbn [pts_of]. rewrite E. split; [lia|]. intros; reflexivity.
    - destruct DIM as [DIM|[MX DIM]]; [contradiction|]. rewrite MX. cbn [andb negb pts_of]. specialize (D2 MX). split; [|intros; reflexivity]. rewrite D2. replace (tdim - 1) with (g_gdim m) by lia. lia.
  Qed.
  Lemma points1_ok : forall m, meta_ok m -> interior = true -> mixed = false ->
    n * g_gdim m <= length (pts_of l PSide1) /\ forall iq, iq < n -> point (g_gdim m) (pts_of l PSide1) iq = pt tdim l (g_gdim m) true iq.
  Proof.
    intros m [_ [_ [_ [_ [_ [_ [_ [DIM _]]]]]]]] IN MX. destruct DATA as [D0 [D1 D2]]. destruct DIM as [DIM|[MX' _]]; [|congruence]. specialize (D1 IN). cbn [pts_of]. unfold pt. rewrite DIM. split; [lia|]. intros; reflexivity.
  Qed.

  (** *** A group *)
  Definition wkeeps (cur : nat) (ids : list nat) (st st' : cstate) : Prop := same_mem cur st st' /\ same_env q ids st st'.
  Lemma group_exec : forall m offs st, meta_ok m -> (g_any m = true -> interior = true /\ mixed = false) -> NoDup (map (fun x => t_id (fst x)) (g_items m)) ->
    c_env st (VScratch q) = Some (Ptr (s_gen (c_shim st)) 0) -> reg_ok valid (c_shim st) ->
    terms_val n (snd (gen_group interior mixed tdim q offs m)) <= length (s_buf (c_shim st)) ->
    snd (gen_group interior mixed tdim q offs m) = offs ++ group_terms interior m
    /\ exists st', exec' st (fst (gen_group interior mixed tdim q offs m)) = Ret (inr st') /\ wkeeps (terms_val n offs) (map (fun x => t_id (fst x)) (g_items m)) st st'
      /\ reg_ok valid (c_shim st') /\ Forall (fun x => tab_ok st' (terms_val n (snd (gen_group interior mixed tdim q offs m))) (fst x)) (g_items m).
  Proof.
    intros m offs st MO ANY ND ES RO LEN. set (cur := terms_val n offs).
    assert (OFF : snd (gen_group interior mixed tdim q offs m) = offs ++ group_terms interior m).
    { unfold gen_group, group_terms. cbn [snd]. rewrite gen_items_offs by (auto; apply incl_refl). destruct (g_any m); cbn [app]; rewrite <- ?app_assoc; reflexivity. }
    split; [exact OFF|].
    assert (LEN' : cur + g_blk m * n + (if g_any m then g_blk m * n else 0) + terms_val n (flat_map (item_terms interior) (g_items m)) <= length (s_buf (c_shim st))).
    { rewrite OFF in LEN. unfold group_terms in LEN. rewrite terms_app, terms_cons, terms_app in LEN. fold cur in LEN. destruct (g_any m); rewrite ?terms_one in LEN; [lia|]. change (terms_val n []) with 0 in LEN. lia. }
    unfold gen_group in *. cbn [fst snd] in *.
    pose proof MO as MO'. destruct MO' as [FI [VK [MG [MN [MV [E1 [G3 [DIM [BLK ANY']]]]]]]]].
    destruct (register_ok valid (c_shim st) (g_key m) RO VK) as [h [RH [RN [RO1 [RG [RB RC]]]]]].
    cbn [app].
    (* register *)
    erewrite exec_cons.
    2:{ unfold step. rewrite RH. destruct (Z.ltb_spec (Z.of_nat h) 0) as [X|_]; [lia|]. reflexivity. }
    (* block pointer *)
    erewrite exec_cons.
    2:{ apply step_ptr. cbn [c_env]. rewrite set_other by discriminate. exact ES. }
    cbn [c_env c_shim]. fold cur. rewrite Nat.add_0_l.
    match goal with |- context [exec' ?S _] => set (st1 := S) end.
    destruct (points_ok m MO) as [PL PE].
    destruct (step_tabulate m false (if mixed && negb (g_gdim m =? tdim) then PFacet else PCell) cur st1 h MO) as [s2 [S2 [M2 [R2 [I2 B2]]]]].
    { exact RN. } { unfold st1. cbn [c_env]. rewrite set_other by discriminate. apply set_same. }
    { unfold st1. cbn [c_env c_shim]. rewrite RG. apply set_same. } { unfold st1. cbn [c_shim]. rewrite RB. lia. } { exact PL. } { exact PE. }
    rewrite (exec_cons _ _ _ _ _ _ _ _ _ _ _ S2).
    match type of M2 with same_mem _ _ ?S => set (st2 := S) in * end.
    assert (G2 : s_gen (c_shim st2) = s_gen (c_shim st)) by (destruct M2 as [G _]; rewrite G; unfold st1; cbn [c_shim]; exact RG).
    assert (LB2 : length (s_buf (c_shim st2)) = length (s_buf (c_shim st))) by (destruct M2 as [_ [L _]]; rewrite L; unfold st1; cbn [c_shim]; rewrite RB; reflexivity).
    assert (W2 : wkeeps cur [] st st2).
    { split; [|split].
      - destruct M2 as [_ [_ M2]]. repeat split; [exact G2|exact LB2|]. intros p Hp. rewrite M2 by exact Hp. unfold st1. cbn [c_shim]. rewrite RB. reflexivity.
      - unfold st2, st1. cbn [c_env]. rewrite !set_other by discriminate. reflexivity.
      - intros t side _. unfold st2, st1. cbn [c_env]. rewrite !set_other by discriminate. reflexivity. }
    assert (RO2 : reg_ok valid (c_shim st2)).
    { unfold st2. cbn [c_shim]. destruct RO1 as [A [B C]]. unfold reg_ok. rewrite R2, I2. unfold st1. cbn [c_shim]. repeat split; auto; apply A. }
    assert (ES2 : c_env st2 (VScratch q) = Some (Ptr (s_gen (c_shim st2)) 0)).
    { destruct W2 as [_ [E _]]. rewrite E, G2. exact ES. }
    (* second side *)
    assert (SIDE : exists st3, exec' st2 (if g_any m then [CPtr (VBlock q (g_i m) true) (VScratch q) (offs ++ [g_blk m]); CTabulate (VHandle q (g_i m)) (g_maxnd m) PSide1 (g_gdim m) (VBlock q (g_i m) true) (g_blk m)] else []) = Ret (inr st3)
      /\ wkeeps cur [] st st3 /\ reg_ok valid (c_shim st3) /\ good st3 (terms_val n (if g_any m then (offs ++ [g_blk m]) ++ [g_blk m] else offs ++ [g_blk m])) m).
    { destruct (g_any m) eqn:GA.
      - destruct (ANY eq_refl) as [IN MX]. destruct (points1_ok m MO IN MX) as [PL1 PE1].
        erewrite exec_cons by (apply step_ptr; exact ES2). rewrite Nat.add_0_l, terms_app, terms_one. fold cur.
        match goal with |- context [exec' ?S _] => set (st3 := S) end.
        destruct (step_tabulate m true PSide1 (cur + g_blk m * n) st3 h MO) as [s4 [S4 [M4 [R4 [I4 B4]]]]].
        { unfold st3. cbn [c_shim]. unfold st2. cbn [c_shim]. rewrite R2. exact RN. }
        { unfold st3, st2, st1. cbn [c_env]. rewrite !set_other by discriminate. apply set_same. }
        { unfold st3. cbn [c_env c_shim]. apply set_same. } { unfold st3. cbn [c_shim]. rewrite LB2. lia. } { exact PL1. } { exact PE1. }
        rewrite (exec_cons _ _ _ _ _ _ _ _ _ _ _ S4). cbn [exec].
        match type of M4 with same_mem _ _ ?S => set (st4 := S) in * end.
        exists st4. split; [reflexivity|].
        assert (SM : same_mem (cur + g_blk m * n) st2 st4) by exact M4.
        split; [|split].
        + destruct W2 as [A B]. split; [eapply (same_mem_trans l); [|exact A|exact SM]; lia|]. split.
          * unfold st4, st3. cbn [c_env]. rewrite set_other by discriminate. apply B.
          * intros t side H. unfold st4, st3. cbn [c_env]. rewrite set_other by discriminate. apply B. exact H.
        + unfold st4. cbn [c_shim]. destruct RO2 as [A [B C]]. unfold reg_ok. rewrite R4, I4. unfold st3. cbn [c_shim]. repeat split; auto; apply A.
        + rewrite !terms_app, terms_one. fold cur. split; [|split].
          * unfold st4, st3. cbn [c_env c_shim]. rewrite set_other by discriminate. destruct M4 as [G4 _]. unfold st4, st3 in G4. cbn [c_shim] in G4. rewrite G4. exact ES2.
          * apply (block_keep valid etdim edofs evs phi interior mixed tdim q l st2 st4 (cur + g_blk m * n) _ m false MO SM); [|lia|exact B2].
            unfold st4, st3. cbn [c_env]. rewrite set_other by discriminate. reflexivity.
          * intros _. exact B4.
      - cbn [exec]. exists st2. split; [reflexivity|]. split; [exact W2|]. split; [exact RO2|]. rewrite terms_app, terms_one. fold cur. split; [exact ES2|]. split; [exact B2|]. intros X; rewrite GA in X; discriminate. }
    destruct SIDE as [st3 [X3 [W3 [RO3 GD3]]]].
    erewrite exec_app by exact X3.
    destruct (items_exec m (g_items m) _ st3 MO (incl_refl _) ND GD3) as [st4 [X4 [K4 F4]]].
    { destruct W3 as [[_ [L3 _]] _]. rewrite L3. exact LEN. }
    rewrite X4. exists st4. split; [reflexivity|]. destruct K4 as [M4 [E4 [_ [R4 I4]]]]. split; [|split; [|exact F4]].
    - destruct W3 as [A B]. split.
      + eapply (same_mem_trans l); [|exact A|exact M4]. unfold cur. destruct (g_any m); rewrite !terms_app; lia.
      + pose proof (same_env_trans _ _ _ _ _ _ B E4) as H. exact H.
    - destruct RO3 as [A [B C]]. unfold reg_ok. rewrite R4, I4. repeat split; auto; apply A.
  Qed.
  Lemma groups_exec : forall ms offs st, Forall meta_ok ms -> Forall (fun m => g_any m = true -> interior = true /\ mixed = false) ms ->
    NoDup (map (fun x => t_id (fst x)) (flat_map g_items ms)) ->
    c_env st (VScratch q) = Some (Ptr (s_gen (c_shim st)) 0) -> reg_ok valid (c_shim st) ->
    terms_val n offs + terms_val n (flat_map (group_terms interior) ms) <= length (s_buf (c_shim st)) ->
    exists st', exec' st (gen_groups interior mixed tdim q offs ms) = Ret (inr st') /\ wkeeps (terms_val n offs) (map (fun x => t_id (fst x)) (flat_map g_items ms)) st st'
      /\ reg_ok valid (c_shim st') /\ Forall (fun x => tab_ok st' (length (s_buf (c_shim st'))) (fst x)) (flat_map g_items ms).
  Proof.
    induction ms as [|m ms IH]; intros offs st FM FA ND ES RO LEN.
    - exists st. cbn. repeat split; auto; apply RO.
    - inversion FM as [|? ? MO FM']; subst. inversion FA as [|? ? AO FA']; subst. cbn [gen_groups flat_map] in *. rewrite map_app in ND.
      rewrite terms_app in LEN.
      assert (LG : terms_val n (snd (gen_group interior mixed tdim q offs m)) <= length (s_buf (c_shim st))).
      { unfold gen_group. cbn [snd]. rewrite gen_items_offs by (auto; apply incl_refl).
        assert (Q : (if g_any m then (offs ++ [g_blk m]) ++ [g_blk m] else offs ++ [g_blk m]) ++ flat_map (item_terms interior) (g_items m) = offs ++ group_terms interior m).
        { unfold group_terms. destruct (g_any m); cbn [app]; rewrite <- ?app_assoc; reflexivity. }
        rewrite Q, terms_app. lia. }
      assert (ND1 : NoDup (map (fun x => t_id (fst x)) (g_items m))) by (clear - ND; induction (map (fun x => t_id (fst x)) (g_items m)) as [|y ys IHy]; [constructor|]; cbn [app] in ND; inversion ND as [|? ? NI ND']; subst; constructor; [intros I; apply NI; apply in_or_app; left; exact I|apply IHy; exact ND']).
      assert (ND2 : NoDup (map (fun x => t_id (fst x)) (flat_map g_items ms))) by (clear - ND; induction (map (fun x => t_id (fst x)) (g_items m)) as [|y ys IHy]; [exact ND|]; cbn [app] in ND; inversion ND as [|? ? NI ND']; subst; apply IHy; exact ND').
      destruct (group_exec m offs st MO AO ND1 ES RO LG) as [OFF [st1 [X1 [[M1 E1] [RO1 F1]]]]].
      destruct (IH (snd (gen_group interior mixed tdim q offs m)) st1 FM' FA' ND2) as [st2 [X2 [[M2 E2] [RO2 F2]]]].
      { destruct E1 as [E _]. rewrite E. destruct M1 as [G _]. rewrite G. exact ES. } { exact RO1. }
      { rewrite OFF, terms_app. destruct M1 as [_ [L _]]. rewrite L. lia. }
      exists st2. split; [erewrite exec_app by exact X1; exact X2|].
      assert (LE : terms_val n offs <= terms_val n (snd (gen_group interior mixed tdim q offs m))) by (rewrite OFF, terms_app; lia).
      split; [|split; [exact RO2|]].
      + split; [eapply (same_mem_trans l); eauto|]. rewrite map_app. eapply same_env_trans; eauto.
      + apply Forall_app. split; [|exact F2]. apply Forall_forall. intros x Hx. rewrite Forall_forall in F1.
        eapply tab_ok_keep; [exact M2|exact E2| | |apply F1; exact Hx].
        * intros I. apply (in_map (fun x => t_id (fst x))) in Hx.
          clear - ND Hx I. induction (map (fun x => t_id (fst x)) (g_items m)) as [|y ys IHy]; [destruct Hx|]. cbn [app] in ND. inversion ND as [|? ? NI ND']; subst.
          destruct Hx as [->|Hx]; [apply NI; apply in_or_app; right; exact I|apply IHy; auto].
        * destruct M1 as [_ [L1 _]], M2 as [_ [L2 _]]. rewrite L2, L1. exact LG.
  Qed.

  (** *** A quadrature *)
  Lemma quad_exec : forall ts st, Forall tok ts -> NoDup (map t_id ts) -> (interior = true -> mixed = false) -> reg_ok valid (c_shim st) ->
    exists cs st', gen_quad interior mixed tdim q ts = Ret cs /\ exec' st cs = Ret (inr st') /\ reg_ok valid (c_shim st')
      /\ (forall t, In t ts -> is_const t = false -> tab_ok st' (length (s_buf (c_shim st'))) t)
      /\ (filter (fun t => negb (is_const t)) ts = [] -> cs = []).
  Proof.
    intros ts st FT ND NB RO. unfold gen_quad. set (vs := filter (fun t => negb (is_const t)) ts).
    assert (FV : Forall tok vs) by (apply Forall_forall; intros t Ht; apply filter_In in Ht; rewrite Forall_forall in FT; apply FT, Ht).
    destruct (infos_ok valid etdim edofs evs mixed tdim l vs FV) as [xs [EX [MX FX]]]. rewrite EX. cbn [bind].
    destruct (groups_ok valid etdim edofs evs mixed tdim xs FX) as [FG PG].
    destruct (metas_ok valid etdim edofs evs interior mixed tdim l DATA NB (make_groups xs) 0 FG) as [ms [EM [FM FI]]]. rewrite EM. cbn [bind].
    pose proof (metas_any _ _ _ _ EM) as FA.
    assert (FA' : Forall (fun m => g_any m = true -> interior = true /\ mixed = false) ms).
    { eapply Forall_impl; [|exact FA]. intros m H A. specialize (H A). auto. }
    assert (NV : NoDup (map t_id vs)).
    { unfold vs. clear - ND. induction ts as [|t ts IH]; [constructor|]. cbn [map] in ND. inversion ND as [|? ? NI ND']; subst. cbn [filter]. destruct (negb (is_const t)); [|auto].
      cbn [map]. constructor; [|auto]. intros I. apply NI. apply in_map_iff in I. destruct I as [u [E U]]. apply filter_In in U. apply in_map_iff. exists u. split; [exact E|apply U]. }
    assert (NI : NoDup (map (fun x => t_id (fst x)) (flat_map g_items ms))).
    { rewrite FI. apply (Permutation_NoDup (l := map (fun x => t_id (fst x)) xs)); [apply Permutation_map, Permutation_sym; exact PG|].
      rewrite <- map_map, MX. exact NV. }
    assert (FIN : forall st', Forall (fun x => tab_ok st' (length (s_buf (c_shim st'))) (fst x)) (flat_map g_items ms) ->
       forall t, In t ts -> is_const t = false -> tab_ok st' (length (s_buf (c_shim st'))) t).
    { intros st' F t Ht C. assert (Hv : In t vs) by (apply filter_In; rewrite C; auto). rewrite <- MX in Hv. apply in_map_iff in Hv. destruct Hv as [x [<- Hx]].
      rewrite Forall_forall in F. apply F. rewrite FI. eapply Permutation_in; [apply Permutation_sym; exact PG|exact Hx]. }
    destruct ms as [|m0 ms].
    - cbn [flat_map gen_groups app]. exists [], st. cbn [exec]. repeat split; auto; apply RO || idtac. intros t. apply FIN. constructor.
    - set (terms := flat_map (group_terms interior) (m0 :: ms)). assert (TN : terms <> []) by (unfold terms; cbn [flat_map group_terms app]; discriminate).
      destruct terms as [|c0 terms'] eqn:TE; [congruence|].
      cbn [app]. set (s1 := get_scratch grow (c_shim st) (terms_val n (c0 :: terms'))).
      destruct (scratch_ok grow (c_shim st) (terms_val n (c0 :: terms'))) as [SL [SR SI]]. fold s1 in SL, SR, SI.
      assert (RO1 : reg_ok valid s1) by (destruct RO as [A [B C]]; unfold reg_ok; rewrite SR, SI; repeat split; auto; apply A).
      destruct (groups_exec (m0 :: ms) [] {| c_env := set_var (c_env st) (VScratch q) (Ptr (s_gen s1) 0); c_shim := s1 |} FM FA' NI) as [st2 [X2 [_ [RO2 F2]]]].
      { apply set_same. } { exact RO1. } { cbn [c_shim]. fold terms. rewrite TE. exact SL. }
      exists (CScratch (VScratch q) (c0 :: terms') :: gen_groups interior mixed tdim q [] (m0 :: ms)), st2.
      split; [reflexivity|]. split; [|split; [exact RO2|split; [apply FIN; exact F2|]]].
      + erewrite exec_cons; [exact X2|]. reflexivity.
      + intros V. exfalso. rewrite V in MX. destruct xs; [|discriminate]. cbn in EM. discriminate.
  Qed.

  (** *** Accesses *)
  Lemma ieval_noiq : forall rho iq i, no_iq i -> ieval (with_iq rho iq) i = ieval rho i.
  Proof.
    intros rho iq i. induction i as [m|v|a IHa b IHb]; intros H; cbn [ieval no_iq] in *; [reflexivity| |destruct H; rewrite IHa, IHb; auto].
    unfold with_iq. destruct (Nat.eqb_spec v 0); [contradiction|reflexivity].
  Qed.
  Lemma imul_1 : forall rho i, imul rho 1 i = ieval rho i.
  Proof. intros rho i. induction i as [m|v|a IHa b IHb]; cbn [imul ieval]; try lia. Qed.
  Lemma access_ok : forall st perms ents rho iq a,
    tok (a_tab a) -> (is_const (a_tab a) = false -> tab_ok st (length (s_buf (c_shim st))) (a_tab a)) -> iq < n ->
    ffcx_access interior rho a -> 2 <= t_qpts (a_tab a) ->
    (two (a_tab a) = false -> second_side interior a = false) -> (interior = true -> mixed = false) -> static_ok phi interior tdim perms ents rho l a ->
    read_access interior st perms ents (with_iq rho iq) a = Ret (true_value phi interior tdim rho l iq a).
  Proof.
    intros st perms ents rho iq a TO TA HQ [FQ [NQ [FD FP]]] QP TS NB SO. unfold read_access. rewrite (ieval_noiq _ _ _ NQ).
    destruct (is_const (a_tab a)) eqn:C; [rewrite (SO C iq HQ); reflexivity|]. unfold true_value. specialize (TA eq_refl).
    assert (FQ' : a_iq a = IVar 0).
    { rewrite FQ. unfold is_const in C. destruct (Nat.ltb_spec 1 (t_qpts (a_tab a))); [|lia]. cbn [andb] in C. rewrite C. destruct (Nat.eqb_spec (t_qpts (a_tab a)) 1); [lia|reflexivity]. }
    unfold new_access. rewrite C, FQ'. cbn [negb assert_ app].
    assert (SUM : forall terms', (match a_dof a with INum 0 => [] | i => [(1, i)] end) = terms' ->
       list_sum (map (fun x => imul (with_iq rho iq) (fst x) (snd x)) ((t_funcs (a_tab a), IVar 0) :: terms')) = iq * t_funcs (a_tab a) + ieval rho (a_dof a)).
    { intros terms' <-. cbn [map list_sum fold_right fst snd imul ieval]. unfold with_iq at 1. cbn [Nat.eqb].
      destruct (a_dof a) as [[|m]|v|i1 i2] eqn:ED; cbn [map list_sum fold_right fst snd]; rewrite ?imul_1, <- ?ED, ?(ieval_noiq rho iq (a_dof a) NQ), ?ED; cbn [ieval]; try lia;
        rewrite <- ED in NQ; pose proof (ieval_noiq rho iq (a_dof a) NQ) as Q; rewrite ED in Q; cbn [ieval] in Q; rewrite Q; lia. }
    assert (VAL : forall v side, ptr_ok phi tdim l st (length (s_buf (c_shim st))) (a_tab a) v side ->
       (side = true -> t_gdim (a_tab a) = tdim) -> second_side interior a = side ->
       (p <- get_ptr (c_env st) v ;; load1 (c_shim st) (fst p) (snd p + (iq * t_funcs (a_tab a) + ieval rho (a_dof a))))
        = Ret match nth_error (components (t_elem (a_tab a))) (t_comp (a_tab a)) with Some (k, j) => phi k (t_derivs (a_tab a)) (where_at interior tdim l a iq) (ieval rho (a_dof a)) j | None => 0%R end).
    { intros v side [o [E [_ V]]] SG SS. unfold get_ptr. rewrite E. cbn [bind fst snd]. rewrite (load1_ok _ _ _ (V iq (ieval rho (a_dof a)) HQ FD)). f_equal. unfold tval.
      destruct (nth_error (components (t_elem (a_tab a))) (t_comp (a_tab a))) as [[k j]|]; [|reflexivity]. f_equal. unfold pt, where_at. rewrite SS.
      destruct side; [rewrite (SG eq_refl), Nat.eqb_refl; reflexivity|reflexivity]. }
    unfold tab_ok in TA. unfold two_sided in *. destruct (interior && (1 <? t_perms (a_tab a))) eqn:TW.
    - destruct TA as [T0 T1]. apply Bool.andb_true_iff in TW. destruct TW as [IN PM]. rewrite IN in *. destruct TO as [_ [_ [_ [_ DIM]]]]. assert (GT : t_gdim (a_tab a) = tdim) by (destruct DIM as [D|[D _]]; [exact D|specialize (NB eq_refl); congruence]).
      destruct FP as [FP|FP]; rewrite FP; cbn [bind]; rewrite PM; cbn [assert_ bind b_terms b_side]; rewrite (SUM _ eq_refl); cbn [Nat.eqb negb]; (apply VAL with (2 := fun _ => GT); [|unfold second_side; rewrite FP; reflexivity]); assumption.
    - rewrite FP. cbn [bind b_terms b_side]. rewrite (SUM _ eq_refl). apply (VAL _ false); [exact TA|discriminate|apply TS; reflexivity].
  Qed.
End Kernel.
