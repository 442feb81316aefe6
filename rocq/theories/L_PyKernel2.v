(** Lemmas for the generated kernel: the prologue of one quadrature fills the tables. *)
From Coq Require Import List ZArith Reals Lia Permutation.
From Verif Require Import M_PyBase M_PyPack M_PyKernel S_PyKernel L_PyKernel L_PyFacets.
Import ListNotations.
Local Open Scope nat_scope.

Lemma set_same : forall e v x, set_var e v x v = Some x.
Proof. intros e v x. unfold set_var. destruct (var_eq_dec v v); congruence. Qed.
Lemma set_other : forall e v x w, w <> v -> set_var e v x w = e w.
Proof. intros e v x w H. unfold set_var. destruct (var_eq_dec w v); congruence. Qed.
Lemma terms_app : forall n a b, terms_val n (a ++ b) = terms_val n a + terms_val n b.
Proof. intros n a b. unfold terms_val. rewrite map_app. apply list_sum_app'. Qed.
Lemma terms_one : forall n c, terms_val n [c] = c * n. Proof. intros. unfold terms_val. cbn. lia. Qed.
Lemma terms_cons : forall n c l, terms_val n (c :: l) = c * n + terms_val n l. Proof. reflexivity. Qed.

Lemma map_seq_lt : forall (B : Type) (f : nat -> B) v c y, nth_error (map f (seq 0 v)) c = Some y -> c < v.
Proof. intros B f v c y H. rewrite <- (seq_length v 0), <- (map_length f). apply nth_error_Some. congruence. Qed.

Section Kernel.
  Variables (valid : list Z -> bool) (etdim edofs evs : list Z -> nat) (phi : list Z -> list nat -> list R -> nat -> nat -> R) (grow : nat -> nat -> nat).
  Variables (interior mixed : bool) (tdim : nat).
  Variables (q : nat) (l : loaded).
  Hypothesis DATA : data_ok interior mixed tdim l.
  Hypothesis NOTBOTH : interior = true -> mixed = false.
  Let n := length (l_w l).
  Notation step' := (step valid etdim edofs evs phi grow l).
  Notation exec' := (exec valid etdim edofs evs phi grow l).
  Notation tok := (table_ok valid etdim edofs evs mixed tdim).
  Notation two := (two_sided interior).

  Definition pt (g : nat) (side : bool) (iq : nat) : list R :=
    if side then point tdim (l_pts1 l) iq else if g =? tdim then point tdim (l_pts l) iq else point g (l_fpts l) iq.

  (** *** Tables and groups *)
  Definition item_ok (x : table * info) : Prop :=
    tok (fst x) /\ exists j, nth_error (components (t_elem (fst x))) (t_comp (fst x)) = Some (i_key (snd x), j)
      /\ valid (i_key (snd x)) = true /\ i_gdim (snd x) = t_gdim (fst x) /\ etdim (i_key (snd x)) = t_gdim (fst x)
      /\ i_vs (snd x) = evs (i_key (snd x)) /\ i_vaxis (snd x) = j /\ j < evs (i_key (snd x))
      /\ i_ndofs (snd x) = t_funcs (fst x) /\ edofs (i_key (snd x)) = t_funcs (fst x)
      /\ i_didx (snd x) = basix_index (t_derivs (fst x)) /\ i_maxnd (snd x) = list_sum (t_derivs (fst x)).
  Lemma info_ok : forall t, tok t -> exists i, table_info t = Ret i /\ item_ok (t, i).
  Proof.
    intros t T. pose proof T as T0. destruct T as [EO [[k [j [E [V [D G]]]]] [GD [DL DIM]]]].
    destruct (resolve_ok evs _ _ _ _ EO E) as [e' [c' [R [LF [EO' E']]]]].
    unfold table_info. rewrite R. cbn [bind].
    assert (DD : firstn (t_gdim t) (t_derivs t ++ repeat 0 (t_gdim t)) = t_derivs t).
    { rewrite <- DL at 1. rewrite firstn_app, Nat.sub_diag, firstn_all, firstn_O, app_nil_r. reflexivity. }
    rewrite DD. destruct e' as [k0 v|k0 bs v|subs]; [| |destruct LF].
    - cbn [components] in E'. pose proof (map_seq_lt _ _ _ _ _ E') as C.
      rewrite (nth_map_seq _ (fun j0 => (k0, j0))) in E' by exact C. injection E' as -> ->.
      eexists. split; [reflexivity|]. split; [exact T0|]. exists j. cbn in EO'. destruct EO' as [EV _]. cbn. repeat split; auto; lia.
    - cbn [components] in E'. destruct EO' as [EV [B1 [V1 VB]]].
      pose proof (map_seq_lt _ _ _ _ _ E') as C.
      rewrite (nth_map_seq _ (fun _ => (k0, 0))) in E' by exact C. injection E' as -> <-.
      destruct (Nat.ltb_spec 1 bs) as [L|L].
      + eexists. split; [reflexivity|]. split; [exact T0|]. exists 0. cbn. repeat split; auto; lia.
      + assert (bs = 1) by lia. specialize (VB H). subst v. eexists. split; [reflexivity|]. split; [exact T0|]. exists 0. cbn. repeat split; auto; lia.
  Qed.
  Lemma infos_ok : forall ts, Forall tok ts ->
    exists xs, pmap (fun t => i <- table_info t ;; Ret (t, i)) ts = Ret xs /\ map fst xs = ts /\ Forall item_ok xs.
  Proof.
    induction ts as [|t ts IH]; intros F; [exists []; cbn; auto|]. inversion F as [|? ? T F']; subst. destruct (info_ok t T) as [i [E IO]]. destruct (IH F') as [xs [E2 [M FI]]].
    exists ((t, i) :: xs). cbn [pmap]. rewrite E. cbn [bind]. rewrite E2. cbn [bind]. repeat split; auto. cbn. f_equal. exact M.
  Qed.
  Definition group_ok (g : list Z * list (table * info)) : Prop := snd g <> [] /\ Forall (fun x => item_ok x /\ i_key (snd x) = fst g) (snd g).
  Lemma add_item_ok : forall k x gs, item_ok x -> i_key (snd x) = k -> Forall group_ok gs ->
    Forall group_ok (add_item k x gs) /\ Permutation (flat_map snd (add_item k x gs)) (x :: flat_map snd gs).
  Proof.
    intros k x gs IX KX F. induction F as [|[k' ys] gs [NE FG] F IH].
    - cbn. split; [constructor; [|constructor]|apply Permutation_refl]. split; [discriminate|]. constructor; [split; auto|constructor].
    - cbn [add_item]. destruct (key_eqb k' k) eqn:E.
      + apply key_eqb_eq in E. cbn [fst snd] in *. split.
        * constructor; [|exact F]. split; cbn [fst snd]; [destruct ys; discriminate|]. apply Forall_app. split; [exact FG|]. constructor; [split; congruence|constructor].
        * cbn [flat_map snd]. rewrite <- app_assoc. cbn [app]. apply Permutation_sym, Permutation_middle.
      + destruct IH as [A B]. split; [constructor; [split; auto|exact A]|]. cbn [flat_map snd]. eapply Permutation_trans; [apply Permutation_app_head; exact B|]. apply Permutation_sym, Permutation_middle.
  Qed.
  Lemma groups_ok : forall xs, Forall item_ok xs -> Forall group_ok (make_groups xs) /\ Permutation (flat_map snd (make_groups xs)) xs.
  Proof.
    intros xs F. unfold make_groups.
    assert (H : forall gs, Forall group_ok gs -> Forall group_ok (fold_left (fun gs x => add_item (i_key (snd x)) x gs) xs gs)
      /\ Permutation (flat_map snd (fold_left (fun gs x => add_item (i_key (snd x)) x gs) xs gs)) (xs ++ flat_map snd gs)).
    { induction F as [|x xs IX F IH]; intros gs FG; [split; [exact FG|apply Permutation_refl]|].
      cbn [fold_left]. destruct (add_item_ok (i_key (snd x)) x gs IX eq_refl FG) as [A B]. destruct (IH _ A) as [C D]. split; [exact C|].
      eapply Permutation_trans; [exact D|]. eapply Permutation_trans; [apply Permutation_app_head; exact B|]. cbn [app]. apply Permutation_sym, Permutation_middle. }
    destruct (H [] (Forall_nil _)) as [A B]. split; [exact A|]. cbn [flat_map] in B. rewrite app_nil_r in B. exact B.
  Qed.
  Definition meta_ok (m : gmeta) : Prop :=
    Forall (fun x => item_ok x /\ i_key (snd x) = g_key m /\ i_maxnd (snd x) <= g_maxnd m) (g_items m)
    /\ valid (g_key m) = true /\ g_gdim m = etdim (g_key m) /\ g_ndofs m = edofs (g_key m) /\ g_vs m = evs (g_key m) /\ 1 <= evs (g_key m)
    /\ 1 <= g_gdim m <= 3 /\ (g_gdim m = tdim \/ mixed = true /\ S (g_gdim m) = tdim)
    /\ g_blk m = length (multi (g_gdim m) (g_maxnd m)) * edofs (g_key m) * evs (g_key m)
    /\ (g_any m = false -> Forall (fun x => two (fst x) = false) (g_items m)).
  Lemma meta_exists : forall gi g, group_ok g -> exists m, group_meta interior gi g = Ret m /\ meta_ok m /\ g_i m = gi /\ g_items m = snd g.
  Proof.
    intros gi [k xs] [NE F]. cbn [fst snd] in *. unfold group_meta. cbn [fst snd]. destruct xs as [|[t0 i0] xs]; [congruence|].
    eexists. split; [reflexivity|]. split; [|split; reflexivity].
    inversion F as [|? ? [IO K0] F']; subst. cbn [snd] in *. destruct IO as [TO [j [E [V [GD [ET [VS [VA [JL [ND [ED [DI MX]]]]]]]]]]]]. cbn [fst snd] in *.
    destruct TO as [EO [_ [G3 [DL DIM]]]].
    unfold meta_ok. cbn [g_items g_key g_gdim g_ndofs g_vs g_maxnd g_blk g_any].
    split; [|split; [exact V|split; [congruence|split; [congruence|split; [exact VS|split; [lia|split; [lia|split; [|split]]]]]]]].
    - apply Forall_forall. intros x Hx. rewrite Forall_forall in F. destruct (F x Hx) as [A B]. split; [exact A|]. split; [exact B|].
      pose proof (proj1 (list_max_le (map (fun x => i_maxnd (snd x)) ((t0, i0) :: xs)) _) (Nat.le_refl _)) as M. rewrite Forall_forall in M.
      apply M. apply (in_map (fun x => i_maxnd (snd x))). exact Hx.
    - rewrite GD. exact DIM.
    - rewrite GD, multi_length by exact G3. congruence.
    - intros A. apply Forall_forall. intros x Hx. unfold two_sided. apply Bool.andb_false_iff in A. destruct A as [-> |A]; [reflexivity|].
      apply Bool.andb_false_iff. right. destruct (1 <? t_perms (fst x)) eqn:P; [|reflexivity]. exfalso.
      assert (existsb (fun x => 1 <? t_perms (fst x)) ((t0, i0) :: xs) = true) by (apply existsb_exists; exists x; auto). congruence.
  Qed.
  Lemma metas_ok : forall gs gi, Forall group_ok gs ->
    exists ms, metas interior gi gs = Ret ms /\ Forall meta_ok ms /\ flat_map g_items ms = flat_map snd gs.
  Proof.
    intros gs. induction gs as [|g gs IH]; intros gi F; [exists []; cbn; auto|]. inversion F as [|? ? G F']; subst.
    destruct (meta_exists gi g G) as [m [E [MO [_ IT]]]]. destruct (IH (S gi) F') as [ms [E2 [FM FI]]].
    exists (m :: ms). cbn [metas]. rewrite E. cbn [bind]. rewrite E2. cbn [bind]. repeat split; auto. cbn [flat_map]. rewrite IT, FI. reflexivity.
  Qed.

  (** *** Tabulations *)
  Lemma tabulate_length : forall k nd pts, length (tabulate etdim edofs evs phi k nd pts) = length (multi (etdim k) nd) * (length pts * (edofs k * evs k)).
  Proof.
    intros k nd pts. unfold tabulate. apply length_flat_const. intros d _. apply length_flat_const. intros x _.
    rewrite (length_flat_const _ _ _ (evs k)); [rewrite seq_length; reflexivity|]. intros i _. rewrite map_length, seq_length. reflexivity.
  Qed.
  Lemma tabulate_nth : forall k nd pts d a iq x i c, nth_error (multi (etdim k) nd) d = Some a -> nth_error pts iq = Some x -> i < edofs k -> c < evs k ->
    nth_error (tabulate etdim edofs evs phi k nd pts) (((d * length pts + iq) * edofs k + i) * evs k + c) = Some (phi k a x i c).
  Proof.
    intros k nd pts d a iq x i c D X I C.
    assert (IQ : iq < length pts) by (apply nth_error_Some; congruence).
    unfold tabulate. replace (((d * length pts + iq) * edofs k + i) * evs k + c) with (d * (length pts * (edofs k * evs k)) + (iq * (edofs k * evs k) + (i * evs k + c))) by nia.
    rewrite (nth_flat_const _ _ _ (length pts * (edofs k * evs k)) _ _ _ a); auto.
    - rewrite (nth_flat_const _ _ _ (edofs k * evs k) _ _ _ x); auto.
      + rewrite (nth_flat_const _ _ _ (evs k) _ _ _ i).
        * rewrite (nth_map_seq _ (fun c0 => phi k a x i c0)); auto.
        * intros y _. rewrite map_length, seq_length. reflexivity.
        * rewrite (nth_error_nth' _ 0) by (rewrite seq_length; lia). rewrite seq_nth by lia. reflexivity.
        * exact C.
      + intros y _. rewrite (length_flat_const _ _ _ (evs k)); [rewrite seq_length; reflexivity|]. intros ? _. rewrite map_length, seq_length. reflexivity.
      + nia.
    - intros y _. apply length_flat_const. intros z _. rewrite (length_flat_const _ _ _ (evs k)); [rewrite seq_length; reflexivity|]. intros ? _. rewrite map_length, seq_length. reflexivity.
    - assert (i * evs k + c < edofs k * evs k) by nia. nia.
  Qed.
  Lemma rows_nth : forall g m flat iq, iq < m -> nth_error (rows g m flat) iq = Some (point g flat iq).
  Proof. intros g m flat iq H. unfold rows. rewrite (nth_map_seq _ (fun i => firstn g (skipn (i * g) flat))); [reflexivity|exact H]. Qed.
  Lemma rows_length : forall g m flat, length (rows g m flat) = m.
  Proof. intros. unfold rows. rewrite map_length, seq_length. reflexivity. Qed.

  (** *** States *)
  Definition same_mem (cur : nat) (st st' : cstate) : Prop :=
    s_gen (c_shim st') = s_gen (c_shim st) /\ length (s_buf (c_shim st')) = length (s_buf (c_shim st))
    /\ forall p, p < cur -> nth_error (s_buf (c_shim st')) p = nth_error (s_buf (c_shim st)) p.
  Definition same_env (ids : list nat) (st st' : cstate) : Prop :=
    c_env st' (VScratch q) = c_env st (VScratch q) /\ forall t side, ~ In t ids -> c_env st' (VTab t side) = c_env st (VTab t side).
  Lemma same_mem_refl : forall cur st, same_mem cur st st. Proof. repeat split. Qed.
  Lemma same_mem_shim : forall cur st st', c_shim st' = c_shim st -> same_mem cur st st'. Proof. intros cur st st' E. unfold same_mem. rewrite E. repeat split. Qed.
  Lemma same_mem_trans : forall a b st1 st2 st3, a <= b -> same_mem a st1 st2 -> same_mem b st2 st3 -> same_mem a st1 st3.
  Proof. intros a b st1 st2 st3 AB [A [B C]] [D [E F]]. repeat split; try congruence. intros p Hp. rewrite F by lia. apply C. exact Hp. Qed.
  Lemma same_env_trans : forall a b st1 st2 st3, same_env a st1 st2 -> same_env b st2 st3 -> same_env (a ++ b) st1 st3.
  Proof. intros a b st1 st2 st3 [A B] [C D]. split; [congruence|]. intros t side H. rewrite D, B; auto; intros I; apply H; apply in_or_app; auto. Qed.
  (** A tabulated block of a group below [cur]. *)
  Definition block_ok (st : cstate) (cur : nat) (m : gmeta) (side : bool) : Prop :=
    exists o, c_env st (VBlock q (g_i m) side) = Some (Ptr (s_gen (c_shim st)) o) /\ o + g_blk m * n <= cur
      /\ forall d a iq i c, nth_error (multi (g_gdim m) (g_maxnd m)) d = Some a -> iq < n -> i < edofs (g_key m) -> c < evs (g_key m) ->
         nth_error (s_buf (c_shim st)) (o + (((d * n + iq) * edofs (g_key m) + i) * evs (g_key m) + c)) = Some (phi (g_key m) a (pt (g_gdim m) side iq) i c).
  (** The value of a table. *)
  Definition tval (t : table) (side : bool) (iq kd : nat) : R :=
    match nth_error (components (t_elem t)) (t_comp t) with Some (k, j) => phi k (t_derivs t) (pt (t_gdim t) side iq) kd j | None => 0%R end.
  Definition ptr_ok (st : cstate) (cur : nat) (t : table) (v : var) (side : bool) : Prop :=
    exists o, c_env st v = Some (Ptr (s_gen (c_shim st)) o) /\ o + n * t_funcs t <= cur
      /\ forall iq kd, iq < n -> kd < t_funcs t -> nth_error (s_buf (c_shim st)) (o + (iq * t_funcs t + kd)) = Some (tval t side iq kd).
  Definition tab_ok (st : cstate) (cur : nat) (t : table) : Prop :=
    if two t then ptr_ok st cur t (VTab (t_id t) (Some false)) false /\ ptr_ok st cur t (VTab (t_id t) (Some true)) true
    else ptr_ok st cur t (VTab (t_id t) None) false.
  Lemma lt_pos : forall a b f k, a < b -> k < f -> a * f + k < b * f. Proof. intros. nia. Qed.
  Lemma ptr_ok_keep : forall st st' cur cur' t v side, same_mem cur st st' -> c_env st' v = c_env st v -> cur <= cur' -> ptr_ok st cur t v side -> ptr_ok st' cur' t v side.
  Proof.
    intros st st' cur cur' t v side [G [L M]] EV LE [o [E [B V]]]. exists o. rewrite EV, G. repeat split; [exact E|lia|].
    intros iq kd Hq Hk. rewrite M; [apply V; auto|]. pose proof (lt_pos _ _ _ _ Hq Hk). lia.
  Qed.
  Lemma tab_ok_keep : forall st st' cur cur' ids t, same_mem cur st st' -> same_env ids st st' -> ~ In (t_id t) ids -> cur <= cur' -> tab_ok st cur t -> tab_ok st' cur' t.
  Proof.
    intros st st' cur cur' ids t SM [_ SE] NI LE T. unfold tab_ok in *. destruct (two t).
    - destruct T as [A B]. split; eapply ptr_ok_keep; eauto.
    - eapply ptr_ok_keep; eauto.
  Qed.
  Lemma block_keep : forall st st' cur cur' m side, meta_ok m -> same_mem cur st st' -> c_env st' (VBlock q (g_i m) side) = c_env st (VBlock q (g_i m) side) -> cur <= cur' -> block_ok st cur m side -> block_ok st' cur' m side.
  Proof.
    intros st st' cur cur' m side MO [G [L M]] EV LE [o [E [B V]]]. exists o. rewrite EV, G. repeat split; [exact E|lia|].
    intros d a iq i c Hd Hq Hi Hc. rewrite M; [apply V; auto|].
    destruct MO as [_ [_ [_ [_ [_ [_ [_ [_ [EB _]]]]]]]]].
    assert (d < length (multi (g_gdim m) (g_maxnd m))) by (apply nth_error_Some; congruence).
    assert (H1 : d * n + iq < length (multi (g_gdim m) (g_maxnd m)) * n) by (apply lt_pos; auto).
    pose proof (lt_pos _ _ _ _ H1 Hi) as H2. pose proof (lt_pos _ _ _ _ H2 Hc) as H3. rewrite EB in B. nia.
  Qed.

  (** *** Execution *)
  Lemma exec_app : forall a b st st1, exec' st a = Ret (inr st1) -> exec' st (a ++ b) = exec' st1 b.
  Proof.
    induction a as [|c a IH]; intros b st st1 E; [cbn in E; injection E as <-; reflexivity|].
    cbn [app exec] in *. destruct (step' st c) as [[st'|st']| | |]; cbn [bind] in *; try discriminate. apply IH. exact E.
  Qed.
  Lemma exec_cons : forall c cs st st1, step' st c = Ret (inr st1) -> exec' st (c :: cs) = exec' st1 cs.
  Proof. intros c cs st st1 E. cbn [exec]. rewrite E. reflexivity. Qed.
  Lemma step_ptr : forall st v base terms g o, c_env st base = Some (Ptr g o) ->
    step' st (CPtr v base terms) = Ret (inr {| c_env := set_var (c_env st) v (Ptr g (o + terms_val n terms)); c_shim := c_shim st |}).
  Proof. intros st v base terms g o E. unfold step, get_ptr. rewrite E. reflexivity. Qed.
  Lemma in_iq_kd : forall a f iq kd, In (iq, kd) (iq_kd a f) <-> iq < a /\ kd < f.
  Proof. intros a f iq kd. unfold iq_kd. rewrite in_prod_iff, !in_seq. lia. Qed.

  (** Copying one table from a block to a buffer that starts at [cur]. *)
  Lemma step_repack : forall m x side cur st dst, meta_ok m -> In x (g_items m) -> block_ok st cur m side ->
    c_env st dst = Some (Ptr (s_gen (c_shim st)) cur) -> cur + t_funcs (fst x) * n <= length (s_buf (c_shim st)) ->
    exists s, step' st (CRepack dst (VBlock q (g_i m) side) (t_funcs (fst x)) (i_didx (snd x)) (g_ndofs m * g_vs m) (g_vs m) (i_vaxis (snd x)))
        = Ret (inr {| c_env := c_env st; c_shim := s |})
      /\ same_mem cur st {| c_env := c_env st; c_shim := s |}
      /\ (forall p, cur + t_funcs (fst x) * n <= p -> nth_error (s_buf s) p = nth_error (s_buf (c_shim st)) p)
      /\ s_reg s = s_reg (c_shim st) /\ s_idx s = s_idx (c_shim st)
      /\ forall iq kd, iq < n -> kd < t_funcs (fst x) -> nth_error (s_buf s) (cur + (iq * t_funcs (fst x) + kd)) = Some (tval (fst x) side iq kd).
  Proof.
    intros m x side cur st dst MO IX [o [EB [BB BV]]] ED LN.
    destruct MO as [FI [VK [MG [MN [MV [E1 [G3 [DIM [BLK ANY]]]]]]]]].
    rewrite Forall_forall in FI. destruct (FI x IX) as [IO [KX MX]].
    destruct IO as [TO [j [EC [V [GD [ET [VS [VA [JL [ND [EDF [DI MXX]]]]]]]]]]]]. rewrite KX in *.
    destruct TO as [_ [_ [G3' [DL _]]]].
    assert (DM : nth_error (multi (g_gdim m) (g_maxnd m)) (i_didx (snd x)) = Some (t_derivs (fst x))).
    { rewrite DI. apply multi_index; [exact G3|congruence|lia]. }
    assert (DLT : i_didx (snd x) < length (multi (g_gdim m) (g_maxnd m))) by (apply nth_error_Some; congruence).
    assert (SRC : forall iq kd, i_didx (snd x) * n * (g_ndofs m * g_vs m) + iq * (g_ndofs m * g_vs m) + kd * g_vs m + i_vaxis (snd x)
        = ((i_didx (snd x) * n + iq) * edofs (g_key m) + kd) * evs (g_key m) + j).
    { intros iq kd. rewrite MN, MV, VA. nia. }
    unfold step, get_ptr. rewrite ED, EB. cbn [bind fst snd].
    destruct (repack_ok (c_shim st) cur o n (t_funcs (fst x)) (i_didx (snd x)) (g_ndofs m * g_vs m) (g_vs m) (i_vaxis (snd x)) (iq_kd n (t_funcs (fst x)))) as [s [E [G [R [I [L [F W]]]]]]].
    { intros iq kd H. apply in_iq_kd in H. destruct H as [Hq Hk]. split; [exact Hk|]. split; [pose proof (lt_pos _ _ _ _ Hq Hk); nia|].
      rewrite SRC. rewrite BLK in BB.
      assert (H1 : i_didx (snd x) * n + iq < length (multi (g_gdim m) (g_maxnd m)) * n) by (apply lt_pos; auto).
      assert (H2 : (i_didx (snd x) * n + iq) * edofs (g_key m) + kd < length (multi (g_gdim m) (g_maxnd m)) * n * edofs (g_key m)) by (apply lt_pos; [exact H1|rewrite EDF; exact Hk]).
      pose proof (lt_pos _ _ _ _ H2 JL). nia. }
    fold n. rewrite E. cbn [bind]. exists s. split; [reflexivity|]. split; [|split; [|split; [exact R|split; [exact I|]]]].
    - split; [exact G|]. split; [exact L|]. cbn [c_shim]. intros p Hp. apply F. intros iq kd H. lia.
    - intros p Hp. apply F. intros iq kd H. apply in_iq_kd in H. destruct H as [Hq Hk]. pose proof (lt_pos _ _ _ _ Hq Hk). nia.
    - intros iq kd Hq Hk. rewrite W by (apply in_iq_kd; auto). rewrite SRC. rewrite (BV _ _ iq kd j DM Hq); [|rewrite EDF; exact Hk|exact JL].
      unfold tval. rewrite EC. do 2 f_equal. unfold pt. rewrite MG, ET. reflexivity.
  Qed.
  (** A table without component axis points into its block. *)
  Lemma direct_ok : forall m x side cur st, meta_ok m -> In x (g_items m) -> g_vs m = 1 -> forall o,
    c_env st (VBlock q (g_i m) side) = Some (Ptr (s_gen (c_shim st)) o) -> block_ok st cur m side ->
    forall st' v, c_env st' v = Some (Ptr (s_gen (c_shim st)) (o + terms_val n [i_didx (snd x) * t_funcs (fst x)])) -> c_shim st' = c_shim st ->
    ptr_ok st' cur (fst x) v side.
  Proof.
    intros m x side cur st MO IX V1 o EB [o' [EB' [BB BV]]] st' v EV ES. rewrite EB in EB'. injection EB' as <-.
    destruct MO as [FI [VK [MG [MN [MV [E1 [G3 [DIM [BLK ANY]]]]]]]]].
    rewrite Forall_forall in FI. destruct (FI x IX) as [IO [KX MX]].
    destruct IO as [TO [j [EC [V [GD [ET [VS [VA [JL [ND [EDF [DI MXX]]]]]]]]]]]]. rewrite KX in *.
    destruct TO as [_ [_ [G3' [DL _]]]].
    assert (DM : nth_error (multi (g_gdim m) (g_maxnd m)) (i_didx (snd x)) = Some (t_derivs (fst x))).
    { rewrite DI. apply multi_index; [exact G3|congruence|lia]. }
    assert (DLT : i_didx (snd x) < length (multi (g_gdim m) (g_maxnd m))) by (apply nth_error_Some; congruence).
    assert (J0 : j = 0) by lia. assert (EV1 : evs (g_key m) = 1) by lia. subst j.
    exists (o + terms_val n [i_didx (snd x) * t_funcs (fst x)]). rewrite ES. split; [exact EV|]. rewrite terms_one. split.
    - rewrite BLK, EV1, EDF in BB. nia.
    - intros iq kd Hq Hk. pose proof (BV _ _ iq kd 0 DM Hq ltac:(rewrite EDF; exact Hk) ltac:(lia)) as H.
      rewrite EV1, EDF in H. replace (o + i_didx (snd x) * t_funcs (fst x) * n + (iq * t_funcs (fst x) + kd)) with (o + (((i_didx (snd x) * n + iq) * t_funcs (fst x) + kd) * 1 + 0)) by nia.
      rewrite H. unfold tval. rewrite EC. f_equal. replace (pt (g_gdim m) side iq) with (pt (t_gdim (fst x)) side iq) by (unfold pt; rewrite MG, ET; reflexivity). rewrite ?J0, ?VA in *. f_equal; lia.
  Qed.

  Definition keeps (cur : nat) (ids : list nat) (st st' : cstate) : Prop :=
    same_mem cur st st' /\ same_env ids st st' /\ (forall g side, c_env st' (VBlock q g side) = c_env st (VBlock q g side))
    /\ s_reg (c_shim st') = s_reg (c_shim st) /\ s_idx (c_shim st') = s_idx (c_shim st).
  Definition good (st : cstate) (cur : nat) (m : gmeta) : Prop :=
    c_env st (VScratch q) = Some (Ptr (s_gen (c_shim st)) 0) /\ block_ok st cur m false /\ (g_any m = true -> block_ok st cur m true).
  Lemma two_any : forall m x, meta_ok m -> In x (g_items m) -> two (fst x) = true -> g_any m = true.
  Proof.
    intros m x MO IX T. destruct (g_any m) eqn:A; [reflexivity|]. destruct MO as [_ [_ [_ [_ [_ [_ [_ [_ [_ ANY]]]]]]]]]. specialize (ANY A). rewrite Forall_forall in ANY. rewrite (ANY x IX) in T. discriminate.
  Qed.
  Lemma item_exec : forall m x offs st, meta_ok m -> In x (g_items m) -> good st (terms_val n offs) m ->
    terms_val n (snd (gen_item interior q m offs x)) <= length (s_buf (c_shim st)) ->
    exists st', exec' st (fst (gen_item interior q m offs x)) = Ret (inr st') /\ keeps (terms_val n offs) [t_id (fst x)] st st'
      /\ tab_ok st' (terms_val n (snd (gen_item interior q m offs x))) (fst x) /\ terms_val n offs <= terms_val n (snd (gen_item interior q m offs x)).
  Proof.
    intros m [t i] offs st MO IX [ES [B0 B1]] LEN. cbn [fst snd] in *.
    pose proof (two_any m (t, i) MO IX) as TA. cbn [fst] in TA.
    unfold gen_item in *. cbn [fst snd] in *. destruct (Nat.eqb_spec (g_vs m) 1) as [V1|V1].
    - destruct (two t) eqn:TW; cbn [fst snd] in *.
      + specialize (B1 (TA eq_refl)). pose proof B0 as B0'. pose proof B1 as B1'. destruct B0' as [o0 [E0 _]]. destruct B1' as [o1 [E1 _]].
        rewrite (exec_cons _ _ _ _ (step_ptr st _ _ _ _ _ E0)).
        erewrite exec_cons.
        2:{ apply step_ptr. cbn [c_env]. rewrite set_other by discriminate. exact E1. }
        cbn [exec]. eexists. split; [reflexivity|]. split; [|split; [|lia]].
        * split; [apply same_mem_shim; reflexivity|]. split; [|split; [intros; cbn [c_env]; rewrite !set_other by discriminate; reflexivity|split; reflexivity]].
          split; [cbn [c_env]; rewrite !set_other by discriminate; reflexivity|]. intros u side NI. cbn [c_env].
          rewrite !set_other; [reflexivity| |]; intros H; injection H as -> ->; apply NI; left; reflexivity.
        * unfold tab_ok. rewrite TW. split.
          -- apply (direct_ok m (t, i) false _ st MO IX V1 o0 E0 B0); [|reflexivity]. cbn [c_env fst snd]. rewrite set_other by discriminate. apply set_same.
          -- apply (direct_ok m (t, i) true _ st MO IX V1 o1 E1 B1); [|reflexivity]. cbn [c_env fst snd]. apply set_same.
      + pose proof B0 as B0'. destruct B0' as [o0 [E0 _]].
        rewrite (exec_cons _ _ _ _ (step_ptr st _ _ _ _ _ E0)).
        cbn [exec]. eexists. split; [reflexivity|]. split; [|split; [|lia]].
        * split; [apply same_mem_shim; reflexivity|]. split; [|split; [intros; cbn [c_env]; rewrite !set_other by discriminate; reflexivity|split; reflexivity]].
          split; [cbn [c_env]; rewrite !set_other by discriminate; reflexivity|]. intros u side NI. cbn [c_env].
          rewrite !set_other; [reflexivity|]; intros H; injection H as -> ->; apply NI; left; reflexivity.
        * unfold tab_ok. rewrite TW. apply (direct_ok m (t, i) false _ st MO IX V1 o0 E0 B0); [|reflexivity]. cbn [c_env fst snd]. apply set_same.
    - destruct (two t) eqn:TW; cbn [fst snd] in *; rewrite terms_app in LEN; rewrite ?terms_cons, ?terms_one in LEN.
      + specialize (B1 (TA eq_refl)). set (cur := terms_val n offs) in *. set (f := t_funcs t) in *.
        rewrite (exec_cons _ _ _ _ (step_ptr st _ _ _ _ _ ES)).
        erewrite exec_cons.
        2:{ apply step_ptr. cbn [c_env]. rewrite set_other by discriminate. exact ES. }
        cbn [c_env c_shim]. rewrite terms_app, terms_one. fold cur.
        match goal with |- context [exec' ?S _] => set (st1 := S) end.
        assert (B01 : block_ok st1 cur m false).
        { apply (block_keep st st1 cur cur m false MO); [apply same_mem_shim; reflexivity| |lia|exact B0]. unfold st1. cbn [c_env]. rewrite !set_other by discriminate. reflexivity. }
        assert (B11 : block_ok st1 cur m true).
        { apply (block_keep st st1 cur cur m true MO); [apply same_mem_shim; reflexivity| |lia|exact B1]. unfold st1. cbn [c_env]. rewrite !set_other by discriminate. reflexivity. }
        destruct (step_repack m (t, i) false cur st1 (VBuf (t_id t) (Some false)) MO IX B01) as [s2 [S2 [M2 [_ [R2 [I2 W2]]]]]].
        { unfold st1. cbn [c_env c_shim]. rewrite set_other by discriminate. rewrite set_same. reflexivity. }
        { cbn [fst]. unfold st1. cbn [c_shim]. fold f. lia. }
        cbn [fst snd] in S2, W2. fold f in S2, W2. rewrite (exec_cons _ _ _ _ S2).
        match type of M2 with same_mem _ _ ?S => set (st2 := S) in * end.
        assert (B12 : block_ok st2 (cur + f * n) m true).
        { apply (block_keep st1 st2 cur _ m true MO); [exact M2|reflexivity|lia|exact B11]. }
        destruct (step_repack m (t, i) true (cur + f * n) st2 (VBuf (t_id t) (Some true)) MO IX B12) as [s3 [S3 [M3 [_ [R3 [I3 W3]]]]]].
        { destruct M2 as [G2 _]. rewrite G2. unfold st2, st1. cbn [c_env c_shim]. rewrite set_same. reflexivity. }
        { cbn [fst]. destruct M2 as [_ [L2 _]]. rewrite L2. unfold st1. cbn [c_shim]. fold f. lia. }
        cbn [fst snd] in S3, W3. fold f in S3, W3. rewrite (exec_cons _ _ _ _ S3).
        match type of M3 with same_mem _ _ ?S => set (st3 := S) in * end.
        assert (EQ0 : c_env st3 (VBuf (t_id t) (Some false)) = Some (Ptr (s_gen (c_shim st)) cur)).
        { unfold st3, st2, st1. cbn [c_env c_shim]. rewrite set_other by discriminate. rewrite set_same. reflexivity. }
        assert (EQ1 : c_env st3 (VBuf (t_id t) (Some true)) = Some (Ptr (s_gen (c_shim st)) (cur + f * n))).
        { unfold st3, st2, st1. cbn [c_env c_shim]. rewrite set_same. reflexivity. }
        rewrite (exec_cons _ _ _ _ (step_ptr st3 _ _ _ _ _ EQ0)).
        erewrite exec_cons.
        2:{ apply step_ptr. cbn [c_env]. rewrite set_other by discriminate. exact EQ1. }
        cbn [exec c_env c_shim]. eexists. split; [reflexivity|].
        assert (G3 : s_gen s3 = s_gen (c_shim st)).
        { destruct M2 as [X2 _], M3 as [X3 _]. change (s_gen (c_shim st3) = s_gen (c_shim st)). rewrite X3, X2. reflexivity. }
        split; [|split; [|rewrite terms_app; unfold cur; lia]].
        * split; [|split; [|split; [|split]]].
          -- assert (SM : same_mem cur st st3).
             { apply (same_mem_trans cur (cur + f * n) st st2 st3); [lia| |exact M3]. exact M2. }
             exact SM.
          -- split; [unfold st3, st2, st1; cbn [c_env]; rewrite !set_other by discriminate; reflexivity|]. intros u side NI. cbn [c_env].
             rewrite (set_other _ (VTab (t_id t) (Some true))), (set_other _ (VTab (t_id t) (Some false))); [|intros H; injection H as -> ->; apply NI; left; reflexivity..].
             unfold st3, st2, st1. cbn [c_env]. rewrite !set_other by discriminate. reflexivity.
          -- intros g side. unfold st3, st2, st1. cbn [c_env]. rewrite !set_other by discriminate. reflexivity.
          -- unfold st3. cbn [c_shim]. rewrite R3. unfold st2. cbn [c_shim]. rewrite R2. reflexivity.
          -- unfold st3. cbn [c_shim]. rewrite I3. unfold st2. cbn [c_shim]. rewrite I2. reflexivity.
        * unfold tab_ok. rewrite TW. cbn [terms_val map list_sum fold_right]. rewrite !Nat.add_0_r. split.
          -- exists cur. cbn [c_env c_shim st3]. rewrite set_other by discriminate. rewrite set_same, G3. split; [reflexivity|]. rewrite terms_app. fold cur f. rewrite terms_cons. split; [lia|].
             intros iq kd Hq Hk. destruct M3 as [_ [_ M3]]. unfold st3 in M3. cbn [c_shim] in M3. rewrite M3; [apply W2; auto|]. pose proof (lt_pos _ _ _ _ Hq Hk). unfold f. nia.
          -- exists (cur + f * n). cbn [c_env c_shim st3]. rewrite set_same, G3. split; [reflexivity|]. rewrite terms_app. fold cur f. rewrite terms_cons, terms_one. split; [lia|].
             intros iq kd Hq Hk. apply W3; auto.
      + set (cur := terms_val n offs) in *. set (f := t_funcs t) in *.
        rewrite (exec_cons _ _ _ _ (step_ptr st _ _ _ _ _ ES)). cbn [c_env c_shim]. fold cur.
        match goal with |- context [exec' ?S _] => set (st1 := S) end.
        assert (B01 : block_ok st1 cur m false).
        { apply (block_keep st st1 cur cur m false MO); [apply same_mem_shim; reflexivity| |lia|exact B0]. unfold st1. cbn [c_env]. rewrite !set_other by discriminate. reflexivity. }
        destruct (step_repack m (t, i) false cur st1 (VBuf (t_id t) None) MO IX B01) as [s2 [S2 [M2 [_ [R2 [I2 W2]]]]]].
        { unfold st1. cbn [c_env c_shim]. rewrite set_same. reflexivity. }
        { cbn [fst]. unfold st1. cbn [c_shim]. fold f. lia. }
        cbn [fst snd] in S2, W2. fold f in S2, W2. rewrite (exec_cons _ _ _ _ S2).
        match type of M2 with same_mem _ _ ?S => set (st2 := S) in * end.
        assert (EQ0 : c_env st2 (VBuf (t_id t) None) = Some (Ptr (s_gen (c_shim st)) cur)).
        { unfold st2, st1. cbn [c_env c_shim]. rewrite set_same. reflexivity. }
        rewrite (exec_cons _ _ _ _ (step_ptr st2 _ _ _ _ _ EQ0)).
        cbn [exec c_env c_shim]. eexists. split; [reflexivity|].
        assert (G3 : s_gen s2 = s_gen (c_shim st)).
        { destruct M2 as [X2 _]. change (s_gen (c_shim st2) = s_gen (c_shim st)). rewrite X2. reflexivity. }
        split; [|split; [|rewrite terms_app; unfold cur; lia]].
        * split; [|split; [|split; [|split]]].
          -- exact M2.
          -- split; [unfold st2, st1; cbn [c_env]; rewrite !set_other by discriminate; reflexivity|]. intros u side NI. cbn [c_env].
             rewrite (set_other _ (VTab (t_id t) None)); [|intros H; injection H as -> ->; apply NI; left; reflexivity].
             unfold st2, st1. cbn [c_env]. rewrite !set_other by discriminate. reflexivity.
          -- intros g side. unfold st2, st1. cbn [c_env]. rewrite !set_other by discriminate. reflexivity.
          -- unfold st2. cbn [c_shim]. rewrite R2. reflexivity.
          -- unfold st2. cbn [c_shim]. rewrite I2. reflexivity.
        * unfold tab_ok. rewrite TW. cbn [terms_val map list_sum fold_right]. rewrite !Nat.add_0_r.
          exists cur. cbn [c_env c_shim st2]. rewrite set_same, G3. split; [reflexivity|]. rewrite terms_app. fold cur f. rewrite terms_one. split; [lia|].
          intros iq kd Hq Hk. apply W2; auto.
  Qed.
End Kernel.
