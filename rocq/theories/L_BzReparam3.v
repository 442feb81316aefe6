(** Lemmas for the Bezier reparameterization: the whole function. *)
From Coq Require Import Reals List Lia Lra Permutation Arith ZArith.
From Verif Require Import M_BzReparam S_BzReparam S_General S_Mesh S_Orient S_Roots L_Real L_BBox L_Point L_TensorNat L_Mesh L_Mesh2 L_Mesh3 L_Mesh5 L_Roots L_Orient L_Orient2 L_Orient3 L_General L_General2 L_General3 L_General4 L_General5 L_General6 L_Reparam L_Reparam2 L_Reparam3 L_BzReparam L_BzReparam2 P_Scale.
Import ListNotations.
Local Close Scope Z_scope. Local Close Scope R_scope. Local Open Scope nat_scope.

Section Whole.
Context {P : Type}.
Variable Z : bz_oracles P.
Hypothesis HZ : bz_sound Z.

Lemma chain_app range (l : blevel P) : v_dim l = S range -> v_dir l <= range -> forall lvs d, chain range d lvs -> chain (S range) d (lvs ++ [l]).
Proof.
  intros D K. induction lvs as [|a lvs IH]; intros d H; cbn [chain app] in *; [subst d; auto|]. destruct H as (A & B & C). split; [exact A|]. split; [exact B|]. apply IH. exact C.
Qed.
Lemma chain_dims range : forall (lvs : list (blevel P)) d, chain range d lvs -> Forall (fun l => d < v_dim l) lvs.
Proof. induction lvs as [|a lvs IH]; intros d H; constructor; cbn [chain] in H; destruct H as (A & B & C); [lia|]. apply IH in C. eapply Forall_impl; [|exact C]. cbn. intros. lia. Qed.
Definition bz_built (dim : nat) (phi : list P) (r : nat * nat * list (blevel P)) : Prop :=
  (phi = [] -> r = (dim, dim, [])) /\
  (phi <> [] -> 1 <= dim -> fst (fst r) < dim /\ snd (fst r) < dim /\ snd r <> [] /\ chain dim (snd (fst r)) (snd r) /\ Forall fine (tl (snd r))).
Lemma build_ok : scored Z -> forall dim outer phi, exists r, bz_build Z outer dim phi = Ret r /\ bz_built dim phi r.
Proof.
  intros HS. induction dim as [|dim IH]; intros outer phi; (destruct phi as [|p phi]; [eexists; split; [reflexivity|split; [reflexivity|intros; congruence]]|]).
  - eexists. split; [reflexivity|]. split; [discriminate|intros; lia].
  - set (ph := p :: phi). assert (Hph : ph <> []) by discriminate. destruct dim as [|dim].
    + eexists. split; [reflexivity|]. split; [discriminate|]. intros _ _. cbn [fst snd chain v_dim v_dir tl]. repeat split; try lia; try discriminate. constructor.
    + change (bz_build Z outer (S (S dim)) ph) with (match z_choose Z (S (S dim)) ph with
      | None => Abort
      | Some k =>
          b <- bz_build Z false (S dim) (z_elim Z ph k) ;;
          _ <- (if (outer && z_disc Z ph k)%bool
                then foreach (fun i => _ <- bz_build Z false (S dim) (z_elim Z ph i) ;; Ret (@nil unit)) (filter (fun i => negb (i =? k)%nat) (seq 0 (S (S dim))))
                else Ret []) ;;
          Ret (k, snd (fst b), snd b ++ [mk_bl (S (S dim)) ph k (fst (fst b))])
      end).
      destruct (z_choose Z (S (S dim)) ph) as [k|] eqn:Ek; [|exfalso; exact (HS _ _ (Nat.lt_0_succ _) Hph Ek)]. pose proof (bs_dir Z HZ _ _ _ Ek) as Hk.
      destruct (IH false (z_elim Z ph k)) as ([[k' bot] lvs] & E & B0 & B1). rewrite E. cbn [bind fst snd] in *.
      assert (F : exists u, (if (outer && z_disc Z ph k)%bool then foreach (fun i => _ <- bz_build Z false (S dim) (z_elim Z ph i) ;; Ret (@nil unit)) (filter (fun i => negb (i =? k)%nat) (seq 0 (S (S dim)))) else Ret []) = Ret u).
      { destruct (_ && _)%bool; [|eexists; reflexivity]. generalize (filter (fun i => negb (i =? k)) (seq 0 (S (S dim)))). induction l as [|i l IHl]; [eexists; reflexivity|]. cbn [foreach]. destruct (IH false (z_elim Z ph i)) as (r & Er & _). rewrite Er. cbn [bind].
        destruct IHl as [u Eu]. rewrite Eu. eexists. reflexivity. }
      destruct F as [u Eu]. rewrite Eu. cbn [bind]. eexists. split; [reflexivity|]. split; [discriminate|]. intros _ _. cbn [fst snd].
      split; [exact Hk|]. destruct (z_elim Z ph k) as [|q qs] eqn:Eq.
      * specialize (B0 eq_refl). injection B0 as -> -> ->. cbn [app chain v_dim v_dir tl]. repeat split; try lia; try discriminate. constructor.
      * destruct (B1 ltac:(discriminate) ltac:(lia)) as (K1 & K2 & K3 & K4 & K5). split; [lia|]. split; [destruct lvs; discriminate|]. split; [apply chain_app; [reflexivity|cbn [v_dir]; lia|exact K4]|].
        destruct lvs as [|a lvs]; [congruence|]. cbn [app tl]. cbn [tl] in K5. apply Forall_app. split; [exact K5|]. constructor; [|constructor]. right. cbn [v_base v_dim]. lia.
Qed.

Variables (lev : bool) (range order : nat).
Hypothesis Hord : 2 <= order.
Hypothesis Hrange : range = 2 \/ range = 3.
Notation mdim := (mesh_dim range lev).
Notation ok := (adds (z_cheb Z) mdim order (final range (box01 range) Vol) True).
(** Undefined behaviour: at a point of the base, a polynomial of the lowest object has not as many roots in the interior of the line as over the centre. *)
Definition stray (bot : nat) (lvs : list (blevel P)) : Prop :=
  0 < bot /\ match lvs with [] => False | l :: _ => exists pt i p, in_cube bot pt /\ In (i, p) (indexed l) /\ length (filter interior (bz_roots Z l p pt)) <> length (bz_roots Z l p (repeat (/ 2)%R bot)) end.
Definition O0 : oracles := mk_oracles (fun _ => 0%R) (fun _ _ _ => (0%R, false)) (fun _ _ _ _ => (0%R, 0%R, false)) (fun _ _ _ => (0%Z, 0%Z)) (fun _ _ _ _ _ => []) (z_sort Z) (z_cheb Z) (mk_psi [] 0%Z) (repeat 0%R range).
Lemma O0_sound : sound O0 range.
Proof. constructor; cbn; [intros; constructor|apply (bs_sort Z HZ)|apply (bs_cheb Z HZ)|apply repeat_length]. Qed.
Lemma in_tp_all n (ptid : list nat) : In ptid (tp_all (tp_const n order)) <-> is_index n order ptid.
Proof. symmetry. apply is_index_all. Qed.
Lemma complete_adds evs cs ps : complete range (box01 range) Vol evs cs ps -> NoDup cs -> (forall p, In p ps <-> is_index mdim order p) -> length ps = order ^ mdim -> ok evs.
Proof.
  intros (F & Cov & Len) Nc Ps Lp m n Ho Hc. pose proof (run_complete (z_cheb Z) mdim m n) as RC. rewrite Ho in RC.
  destruct (RC Hord Hc (final range (box01 range) Vol) evs cs Nc) as (m' & mp & np & ni & R1 & R2 & R3 & R4).
  - eapply Forall_impl; [|exact F]. intros e (t & p & x & -> & Ht & Hp & Hx). exists t, p, x. split; [reflexivity|]. split; [exact Ht|]. split; [apply Ps; exact Hp|exact Hx].
  - intros t p Ht Hp. apply Cov; [exact Ht|apply Ps; exact Hp].
  - exists m', mp, np, ni. split; [exact R1|]. split; [exact R2|]. intros _. rewrite R3, R4, Len, Lp by discriminate. reflexivity.
Qed.
Lemma box01_ok d : d < range -> (lo (box01 range) d = 0 /\ hi (box01 range) d = 1)%R.
Proof.
  intros Hd. unfold lo, hi, box01. cbn [bmin bmax]. rewrite nth_repeat. split; [reflexivity|]. rewrite (nth_indep _ 0%R 1%R) by (rewrite repeat_length; exact Hd). apply nth_repeat.
Qed.
Lemma nodes_cube n ptid : is_index n order ptid -> in_cube n (map (node01 (z_cheb Z) order) ptid).
Proof.
  intros [L F]. split; [rewrite map_length; exact L|]. rewrite Forall_forall in *. intros x Hx. apply in_map_iff in Hx as (j & <- & Hj). apply (node01_in Z HZ order Hord). apply F. exact Hj.
Qed.
Lemma noub_stray bot l up refs iv pt : find_tid refs (tp_const bot 0) = Some iv -> chain range bot (l :: up) -> in_cube bot pt ->
  (forall i p, In (i, p) (indexed l) -> cnt i (ri_roots_ids (iv_ri iv)) = length (bz_roots Z l p (repeat (/ 2)%R bot))) ->
  noub Z (l :: up) [refs] (tp_const bot 0) pt -> stray bot (l :: up).
Proof.
  intros Ef Hc Hp Hn (D & ref & Er & _ & i & p & Hi & Hm). destruct Hc as (Wd & _). split; [lia|]. exists pt, i, p. split; [exact Hp|]. split; [exact Hi|]. rewrite Ef in Er. injection Er as <-. rewrite <- (Hn i p Hi). exact Hm.
Qed.
Lemma reparam_events_ok bot lvs : (lvs = [] -> bot = range) -> (lvs <> [] -> bot < range /\ chain range bot lvs /\ Forall fine (tl lvs)) ->
  okub (stray bot lvs) (reparam_events Z lev range order bot lvs) ok.
Proof.
  intros H0 H1. unfold reparam_events. destruct lvs as [|l up].
  - cbn [okub]. destruct lev eqn:EL; [apply adds_nil|]. pose proof (full_adds O0 range order (box01 range) Vol O0_sound Hord Hrange (box01 range) eq_refl) as A. cbn [o_cheb O0] in A.
    assert (G : adds (z_cheb Z) range order (final range (box01 range) Vol) (Vol <> Lev) [Full (box01 range)]).
    { apply A; [apply repeat_length|apply repeat_length| |].
      - intros d Hd. destruct (box01_ok d Hd) as [-> ->]. lra.
      - intros d Hd. destruct (box01_ok d Hd) as [-> ->]. lra. }
    intros m n Ho Hc. destruct (G m n Ho Hc) as (m' & mp & np & ni & R1 & R2 & R3). exists m', mp, np, ni. split; [exact R1|]. split; [exact R2|]. intros _. apply R3. discriminate.
  - destruct (H1 ltac:(discriminate)) as (Hb & Hc & Hf). assert (Hc' := Hc). destruct Hc' as (Wd & Wk & Wu). cbn [tl] in Hf.
    assert (Hd1 : Forall (fun l => v_dim l <> 1) up). { apply chain_dims in Wu. eapply Forall_impl; [|exact Wu]. cbn. intros. lia. }
    destruct (Nat.eqb_spec bot 0) as [->|Nb].
    + destruct (ref_start Z HZ lev l up [] [] Hd1) as (iv & rup & E & C & Ep & Hn). cbv beta iota zeta. rewrite E. cbn [bind].
      eapply okub_impl; [eapply okub_weak; [exact (bprocess_ok Z HZ lev range order Hord (l :: up) 0 ([([], iv)] :: rup) [] [] [] ltac:(discriminate) Hc Hf Hd1 C ltac:(cbn; discriminate) ltac:(split; [reflexivity|constructor]))|intros (D & _); lia]|].
      intros evs Cm. eapply complete_adds; [exact Cm|eapply (bcells_nodup); eassumption| |].
      * intros p. split; [apply (bpts_index lev range order Hord (l :: up) 0 [] p ltac:(discriminate) Hc); split; [reflexivity|constructor]|]. intros Hp. destruct (bpts_surj lev range order Hord (l :: up) 0 p ltac:(discriminate) Hc Hp) as (q & Hq & Hin). destruct Hq as [Lq _]. destruct q; [exact Hin|discriminate].
      * rewrite (bpts_len lev range order Hord (l :: up) 0 [] ltac:(discriminate) Hc). f_equal. lia.
    + destruct (ref_start Z HZ lev l up (repeat (/ 2)%R bot) (tp_const bot 0) Hd1) as (iv & rup & E & C & Ep & Hn). cbv beta iota zeta. rewrite E. cbn [bind].
      set (tid0 := tp_const bot 0) in *. set (cs := bcells (l :: up) ([(tid0, iv)] :: rup) tid0).
      assert (Ef : find_tid [(tid0, iv)] tid0 = Some iv) by (cbn [find_tid]; destruct (tid_eqb_spec tid0 tid0); [reflexivity|contradiction]).
      eapply okub_impl; [apply foreach_ub with (Q := fun ptid e => complete range (box01 range) Vol e cs (bpts lev order (l :: up) ptid))|].
      * intros ptid Hp. apply in_tp_all in Hp. eapply okub_weak; [apply (bprocess_ok Z HZ lev range order Hord (l :: up) bot ([(tid0, iv)] :: rup) (map (node01 (z_cheb Z) order) ptid) tid0 ptid ltac:(discriminate) Hc Hf Hd1 C)|].
        -- cbn [hasref]. rewrite Ef. discriminate.
        -- apply nodes_cube. exact Hp.
        -- intros U. eapply (noub_stray bot l up [(tid0, iv)] iv); [exact Ef|exact Hc|apply nodes_cube; exact Hp|exact Hn|]. exact U.
      * intros evs (es & -> & Hes). eapply complete_adds; [exact (complete_pts range order (box01 range) Vol Hord _ _ _ _ Hes)|eapply (bcells_nodup); eassumption| |].
        -- intros p. rewrite in_flat_map. split.
           ++ intros (q & Hq & Hp). apply in_tp_all in Hq. exact (bpts_index lev range order Hord (l :: up) bot q p ltac:(discriminate) Hc Hq Hp).
           ++ intros Hp. destruct (bpts_surj lev range order Hord (l :: up) bot p ltac:(discriminate) Hc Hp) as (q & Hq & Hin). exists q. split; [apply in_tp_all; exact Hq|exact Hin].
        -- rewrite (flat_map_const_len _ (order ^ (mdim - bot))) by (intros q _; apply (bpts_len lev range order Hord (l :: up) bot q ltac:(discriminate) Hc)). rewrite tp_all_length, tp_size_const, <- Nat.pow_add_r. f_equal. unfold mesh_dim. destruct lev; lia.
Qed.
End Whole.

Section Rest.
Context {P : Type}.
Variable Z : bz_oracles P.
Hypothesis HZ : bz_sound Z.
Lemma foreach_ret_in {B E} (f : B -> outcome (list E)) : forall l u, foreach f l = Ret u -> forall x, In x l -> exists r, f x = Ret r.
Proof. induction l as [|a l IH]; intros u H x Hx; [destruct Hx|]. cbn [foreach] in H. destruct (f a) eqn:E1; try discriminate. cbn [bind] in H. destruct Hx as [<-|Hx]; [eauto|]. destruct (foreach f l) eqn:E2; try discriminate. eauto. Qed.
Lemma build_inv : forall dim outer phi r, bz_build Z outer dim phi = Ret r -> bz_built dim phi r.
Proof.
  induction dim as [|dim IH]; intros outer phi r; (destruct phi as [|p phi]; [intros [= <-]; split; [reflexivity|intros; congruence]|]).
  - intros [= <-]. split; [discriminate|intros; lia].
  - set (ph := p :: phi). assert (Hph : ph <> []) by discriminate. destruct dim as [|dim].
    + intros [= <-]. split; [discriminate|]. intros _ _. cbn [fst snd chain v_dim v_dir tl]. repeat split; try lia; try discriminate. constructor.
    + change (bz_build Z outer (S (S dim)) ph) with (match z_choose Z (S (S dim)) ph with
      | None => Abort
      | Some k =>
          b <- bz_build Z false (S dim) (z_elim Z ph k) ;;
          _ <- (if (outer && z_disc Z ph k)%bool
                then foreach (fun i => _ <- bz_build Z false (S dim) (z_elim Z ph i) ;; Ret (@nil unit)) (filter (fun i => negb (i =? k)%nat) (seq 0 (S (S dim))))
                else Ret []) ;;
          Ret (k, snd (fst b), snd b ++ [mk_bl (S (S dim)) ph k (fst (fst b))])
      end).
      destruct (z_choose Z (S (S dim)) ph) as [k|] eqn:Ek; [|discriminate]. pose proof (bs_dir Z HZ _ _ _ Ek) as Hk.
      destruct (bz_build Z false (S dim) (z_elim Z ph k)) as [[[k' bot] lvs]| | |] eqn:E; try discriminate. destruct (IH _ _ _ E) as [B0 B1]. cbn [bind fst snd] in *.
      match goal with |- bind ?x _ = _ -> _ => destruct x; try discriminate end. cbn [bind]. intros [= <-]. split; [discriminate|]. intros _ _. cbn [fst snd].
      split; [exact Hk|]. destruct (z_elim Z ph k) as [|q qs] eqn:Eq.
      * specialize (B0 eq_refl). injection B0 as -> -> ->. cbn [app chain v_dim v_dir tl]. repeat split; try lia; try discriminate. constructor.
      * destruct (B1 ltac:(discriminate) ltac:(lia)) as (K1 & K2 & K3 & K4 & K5). split; [lia|]. split; [destruct lvs; discriminate|]. split; [apply chain_app; [reflexivity|cbn [v_dir]; lia|exact K4]|].
        destruct lvs as [|a0 lvs]; [congruence|]. cbn [app tl]. cbn [tl] in K5. apply Forall_app. split; [exact K5|]. constructor; [|constructor]. right. cbn [v_base v_dim]. lia.
Qed.
Lemma build_events lev range order phi k bot lvs : 2 <= order -> range = 2 \/ range = 3 -> bz_build Z true range phi = Ret (k, bot, lvs) ->
  okub (stray Z bot lvs) (reparam_events Z lev range order bot lvs) (adds (z_cheb Z) (mesh_dim range lev) order (final range (box01 range) Vol) True).
Proof.
  intros Ho Hr E. destruct (build_inv _ _ _ _ E) as [B0 B1]. cbn [fst snd] in B1. apply reparam_events_ok; [exact HZ|exact Ho|exact Hr| |].
  - intros ->. destruct phi; [specialize (B0 eq_refl); congruence|]. destruct (B1 ltac:(discriminate) ltac:(lia)) as (_ & _ & N & _). congruence.
  - intros Hl. destruct phi; [specialize (B0 eq_refl); congruence|]. destruct (B1 ltac:(discriminate) ltac:(lia)) as (_ & H1 & _ & H2 & H3). auto.
Qed.
Lemma same_in_box range domain p q : in_box (box01 range) p -> length (bmin domain) = range -> length (bmax domain) = range -> (forall d, d < range -> (nth d (bmin domain) 0 <= nth d (bmax domain) 0)%R) ->
  same_position range (box01 range) domain p q -> in_box domain q.
Proof.
  intros [Lp Hp] L1 L2 Hd [Lq Hq]. cbn [box01 bmin] in Lp. rewrite repeat_length in Lp. split; [congruence|]. intros d D. rewrite Lq in D. specialize (Hq d D). specialize (Hp d ltac:(lia)). specialize (Hd d D). destruct (box01_ok range d D) as [E0 E1]. unfold lo, hi in *. rewrite E0, E1 in *.
  rewrite Rminus_0_r, Rmult_1_r, Rminus_0_r in Hq. nra.
Qed.
(** Everything after the events. *)
Lemma after_events lev range phi grad fresh m n0 domain evs : range = 2 \/ range = 3 -> vm (mesh_dim range lev) m -> rangem range m -> length (m_conn m) = n0 * m_order m ^ mesh_dim range lev ->
  length (bmin domain) = range -> length (bmax domain) = range -> (forall d, d < range -> (nth d (bmin domain) 0 <= nth d (bmax domain) 0)%R) ->
  adds (z_cheb Z) (mesh_dim range lev) (m_order m) (final range (box01 range) Vol) True evs ->
  exists m' mu m1 k np np' ni ni0 wi,
   (n0 <- M_Mesh.num_cells (mesh_dim range lev) m ;;
    m1 <- run_events (z_cheb Z) (mesh_dim range lev) m evs ;;
    n1 <- M_Mesh.num_cells (mesh_dim range lev) m1 ;;
    let ids := seq n0 (n1 - n0) in
    m2 <- bz_orient Z phi grad fresh range lev m1 ids ;;
    m3 <- wirebasket_phi phi range (mesh_dim range lev) m2 ids (box01 range) reparam_tol ;;
    scale_points m3 (seq (length (m_points m)) (length (m_points m1) - length (m_points m))) (box01 range) domain) = Ret m' /\
   run_events (z_cheb Z) (mesh_dim range lev) m evs = Ret m1 /\ cells_added (mesh_dim range lev) (in_box (box01 range)) m m1 np ni0 /\ length ni0 = k * m_order m ^ mesh_dim range lev /\
   vm (mesh_dim range lev) m' /\ rangem range m' /\ region_added (mesh_dim range lev) range (in_box (box01 range)) phi reparam_tol (box01 range) m mu n0 k np ni wi /\
   length np = k * m_order m ^ mesh_dim range lev /\
   m_order m' = m_order m /\ m_conn m' = m_conn m ++ ni /\ m_wires m' = m_wires m ++ wi /\ m_points m' = m_points m ++ np' /\
   Forall2 (same_position range (box01 range) domain) np np' /\ Forall (in_box domain) np'.
Proof.
  intros Hr V Rm Hn L1 L2 Hd Ha. set (dim := mesh_dim range lev) in *.
  destruct (Ha m n0 eq_refl Hn) as (m1 & mp & np & ni0 & E1 & CA0 & Hex).
  assert (CA : cells_added dim (in_box (box01 range)) m m1 np ni0).
  { destruct CA0 as (A & B & C & D & E & F & G & I). repeat (split; [assumption|]). eapply Forall_impl; [|exact I]. intros x (Lx & Hx & _). split; [cbn [box01 bmin]; rewrite repeat_length; exact Lx|]. intros d Hdd. apply Hx. lia. }
  clear CA0. pose proof (added_vm dim _ m m1 np ni0 V CA) as V1. assert (CA' := CA). destruct CA' as (A & B & C & D & (k & Hk) & F & G & I).
  assert (HPb : forall p, in_box (box01 range) p -> length p = range) by (intros p [Lp _]; rewrite Lp; apply repeat_length).
  assert (Ln : length (m_conn m1) = (n0 + k) * m_order m1 ^ dim) by (rewrite A, C, app_length; lia).
  assert (Hdim : dim = 1 \/ dim = 2 \/ dim = 3) by (unfold dim, mesh_dim; destruct lev; lia).
  assert (HL' : exists decide, bz_orient Z phi grad fresh range lev m1 (seq n0 k) = orient_loop dim decide 0 (seq n0 k) m1).
  { unfold bz_orient, orient_levelset, dim, mesh_dim. destruct lev; [apply orient_with_loop|apply orient_cells_loop]; apply V1. }
  destruct HL' as (decide & EL). destruct (loop_reordered dim decide m1 n0 k ltac:(lia) V1 Ln) as (m2 & E2 & Re).
  destruct (finish_ok dim range (in_box (box01 range)) phi reparam_tol (box01 range) m m1 m2 n0 np ni0 Hr Hdim V Rm (repeat_length _ _) (repeat_length _ _) Hn HPb CA Re k Hk) as (m3 & ni & wi & E3 & V3 & Rm3 & Ln3 & RA & Ep & Ec).
  assert (RA' := RA). destruct RA' as (R1 & R2 & R3 & R4 & R5 & R6 & R7 & R8 & R9).
  assert (Lp3 : length (m_points m3) = length (m_points m) + length np) by (rewrite R2, app_length; reflexivity).
  assert (Lp1 : length (m_points m1) - length (m_points m) = length np) by (rewrite B, app_length; lia).
  destruct (proj1 (C84_scale_points range m3 (seq (length (m_points m)) (length np)) (box01 range) domain Rm3 (repeat_length _ _) (repeat_length _ _) L1 L2 ltac:(intros d Hdd; destruct (box01_ok range d Hdd) as [X Y]; unfold lo, hi in *; rewrite X, Y; lra)) (seq_NoDup _ _) ltac:(apply Forall_forall; intros x Hx; apply in_seq in Hx; lia)) as (m' & E4 & S1 & S2 & S3 & S4 & S5 & S6).
  set (np' := skipn (length (m_points m)) (m_points m')).
  assert (Ep' : m_points m' = m_points m ++ np').
  { rewrite <- (firstn_skipn (length (m_points m)) (m_points m')). fold np'. f_equal. apply (nth_ext _ _ [] []); [rewrite firstn_length; lia|]. intros i Hi. rewrite firstn_length in Hi. rewrite nth_firstn_c by lia. rewrite S5 by (rewrite in_seq; lia). rewrite R2. apply app_nth1. lia. }
  assert (Ln' : length np' = length np) by (unfold np'; rewrite skipn_length; lia).
  assert (Sp : forall i, i < length np -> same_position range (box01 range) domain (nth i np []) (nth i np' [])).
  { intros i Hi. specialize (S6 (length (m_points m) + i) ltac:(apply in_seq; lia)). rewrite R2, Ep' in S6. rewrite !app_nth2 in S6 by lia. replace (length (m_points m) + i - length (m_points m)) with i in S6 by lia. exact S6. }
  assert (F2 : Forall2 (same_position range (box01 range) domain) np np').
  { clearbody np'. clear - Ln' Sp. revert np' Ln' Sp. induction np as [|x np IH]; intros [|y np'] L Sp; try discriminate; constructor; [apply (Sp 0); cbn; lia|]. apply IH; [cbn in L; lia|]. intros i Hi. apply (Sp (S i)). cbn. lia. }
  assert (Fi : Forall (in_box domain) np').
  { clearbody np'. clear - F2 R8 L1 L2 Hd. revert R8. induction F2 as [|x y np np' Hxy _ IH]; intros R8; [constructor|]. inversion R8; subst. constructor; [eapply same_in_box; try eassumption; reflexivity|auto]. }
  exists m', m3, m1, k, np, np', ni, ni0, wi.
  assert (Er : run_events (z_cheb Z) dim m evs = Ret m1) by (unfold run_events; rewrite E1; reflexivity).
  split; [|split; [exact Er|split; [exact CA|split; [exact Hk|split; [|split; [|split; [exact RA|split; [rewrite <- (Hex Logic.I); exact Hk|split; [congruence|split; [congruence|split; [congruence|split; [exact Ep'|split; assumption]]]]]]]]]]]].
  - rewrite (num_cells_ok dim m n0) by (assumption || (unfold pts_per_cell; apply pow_pos; apply V)). cbn [bind]. rewrite Er. cbn [bind].
    rewrite (num_cells_ok dim m1 (n0 + k)) by (assumption || (unfold pts_per_cell; apply pow_pos; apply V1)). cbn [bind]. replace (n0 + k - n0) with k by lia. cbv zeta. rewrite EL, E2. cbn [bind]. rewrite E3. cbn [bind]. rewrite Lp1. exact E4.
  - destruct V3 as (Vo & Vc & Vw & Vf & Vg). unfold vm, valid in *. rewrite S1, S2, S3, S4. auto.
  - unfold rangem. rewrite Ep'. apply Forall_app. split; [exact Rm|]. eapply Forall_impl; [|exact Fi]. intros x [Lx _]. congruence.
Qed.
End Rest.
