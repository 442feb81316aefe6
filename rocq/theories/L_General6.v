(** Lemmas for the general reparameterization: the construction. *)
From Coq Require Import Reals List Lia Lra Permutation Arith ZArith.
From Verif Require Import M_General S_General S_Mesh S_Roots L_Real L_BBox L_Point L_TensorNat L_Mesh L_Mesh2 L_Mesh5 L_Roots L_General L_General2 L_General3 L_General4 L_General5.
Import ListNotations.
Local Close Scope Z_scope. Local Close Scope R_scope. Local Open Scope nat_scope.

(** ** Directions *)
Lemma trues_filter : forall sel, trues sel = length (filter (fun d => nth d sel false) (seq 0 (length sel))).
Proof.
  intros sel. unfold trues. assert (G : forall sel k, count_occ Bool.bool_dec sel true = length (filter (fun d => nth (d - k) sel false) (seq k (length sel)))).
  { clear. induction sel as [|b sel IH]; intros k; [reflexivity|]. cbn [length seq filter count_occ]. rewrite Nat.sub_diag. cbn [nth]. rewrite (IH (S k)).
    assert (E : filter (fun d => nth (d - S k) sel false) (seq (S k) (length sel)) = filter (fun d => nth (d - k) (b :: sel) false) (seq (S k) (length sel))).
    { apply filter_ext_in. intros d Hd. apply in_seq in Hd. replace (d - k) with (S (d - S k)) by lia. reflexivity. }
    rewrite E. destruct b; destruct (Bool.bool_dec _ true); try congruence; reflexivity. }
  rewrite (G sel 0). f_equal. apply filter_ext. intros d. rewrite Nat.sub_0_r. reflexivity.
Qed.
Lemma trues_set : forall sel d, nth d sel false = true -> S (trues (set_at sel d false)) = trues sel.
Proof.
  unfold trues. induction sel as [|b sel IH]; intros [|d] H; cbn [nth] in H; try discriminate.
  - subst b. reflexivity.
  - cbn [set_at count_occ]. destruct (Bool.bool_dec b true); rewrite <- (IH d H); reflexivity.
Qed.
Lemma trues_repeat_false n : trues (repeat false n) = 0.
Proof. unfold trues. induction n; [reflexivity|]. cbn. destruct (Bool.bool_dec false true); [discriminate|exact IHn]. Qed.
Lemma trues_repeat_true n : trues (repeat true n) = n.
Proof. unfold trues. induction n; [reflexivity|]. cbn. destruct (Bool.bool_dec true true); [f_equal; exact IHn|congruence]. Qed.
Lemma trues_pos sel : 0 < trues sel -> exists d, d < length sel /\ nth d sel false = true.
Proof.
  rewrite trues_filter. destruct (filter _ _) as [|d l] eqn:E; cbn; [lia|]. intros _. assert (In d (filter (fun d => nth d sel false) (seq 0 (length sel)))) as H by (rewrite E; left; reflexivity).
  apply filter_In in H as [H1 H2]. apply in_seq in H1. exists d. split; [lia|exact H2].
Qed.
Lemma scatter_none {A B} (f : nat -> A -> B) sub : forall def d, scatter f d (repeat false (length def)) sub def = def.
Proof. induction def as [|b def IH]; intros d; [reflexivity|]. cbn. rewrite IH. reflexivity. Qed.
Lemma set_length_nth (free : list bool) k d : nth d (set_at free k false) false = if k =? d then false else nth d free false.
Proof. rewrite set_at_nth. destruct (k =? d); [destruct (_ <? _); reflexivity|reflexivity]. Qed.

(** ** Choice of a direction *)
Lemma fold_pick (f : R * option nat -> nat -> R * option nat) (P : nat -> Prop) l :
  (forall acc d, In d l -> f acc d = acc \/ (P d /\ snd (f acc d) = Some d)) -> forall acc, (forall d, snd acc = Some d -> P d) -> forall d, snd (fold_left f l acc) = Some d -> P d.
Proof.
  induction l as [|x l IH]; intros Hf acc Ha d; cbn [fold_left]; [apply Ha|]. apply IH; [intros; apply Hf; right; assumption|]. intros e He.
  destruct (Hf acc x (or_introl eq_refl)) as [E|[Hp E]]; [rewrite E in He; apply Ha; exact He|rewrite E in He; injection He as <-; exact Hp].
Qed.
Lemma height_ok O range free box p k : height_direction O range free box p = Some k -> k < range /\ nth k free false = true.
Proof.
  unfold height_direction. apply (fold_pick _ (fun k => k < range /\ nth k free false = true)); [|cbn; discriminate]. intros acc d Hd. apply in_seq in Hd. unfold height_step.
  destruct (nth d free false) eqn:E; cbn [andb]; [|left; reflexivity]. destruct (Rltb _ _); [|left; reflexivity]. destruct (Rltb _ _); [|left; reflexivity]. right. split; [split; [lia|reflexivity]|reflexivity].
Qed.
Lemma split_ok range free box : length free = range -> 0 < trues free -> (forall d, d < range -> (0 < extent box d)%R) ->
  exists k, split_direction range free box = Some k /\ k < range /\ nth k free false = true.
Proof.
  intros Hl Ht He. set (f := fun (acc : R * option nat) d => if (nth d free false && Rltb (fst acc) (extent box d))%bool then (extent box d, Some d) else acc).
  assert (P : forall k, split_direction range free box = Some k -> k < range /\ nth k free false = true).
  { intros k. unfold split_direction. apply (fold_pick _ (fun k => k < range /\ nth k free false = true)); [|cbn; discriminate]. intros acc d Hd. apply in_seq in Hd.
    destruct (nth d free false) eqn:E; cbn [andb]; [|left; reflexivity]. destruct (Rltb _ _); [|left; reflexivity]. right. split; [split; [lia|reflexivity]|reflexivity]. }
  destruct (split_direction range free box) as [k|] eqn:E; [exists k; split; [reflexivity|apply P; reflexivity]|exfalso].
  destruct (trues_pos free Ht) as (d & Hd & Hf). rewrite Hl in Hd. unfold split_direction in E. fold f in E.
  assert (G : forall l acc, (snd acc = None -> fst acc = 0%R) -> (In d l \/ snd acc <> None) -> (forall x, In x l -> x < range) -> snd (fold_left f l acc) <> None).
  { induction l as [|x l IH]; intros acc Ha Hin Hr; cbn [fold_left]; [destruct Hin as [[]|Hin]; exact Hin|]. apply IH.
    - unfold f. destruct (_ && _)%bool; [discriminate|exact Ha].
    - destruct (snd acc) as [a|] eqn:Es.
      + right. unfold f. destruct (_ && _)%bool; [discriminate|rewrite Es; discriminate].
      + destruct Hin as [[<-|Hin]|Hin]; [|left; exact Hin|congruence]. right. unfold f. rewrite Hf, (Ha eq_refl). cbn [andb]. unfold Rltb. destruct (Rlt_dec _ _) as [_|N]; [discriminate|exfalso; apply N, He; exact Hd].
    - intros y Hy. apply Hr. right. exact Hy. }
  apply (G (seq 0 range) (0%R, None)); [reflexivity|left; apply in_seq; lia|intros x Hx; apply in_seq in Hx; lia|exact E].
Qed.
Lemma reduce_ok O S free psi box k : forall n i new count, i + n <= length psi -> count + 2 * n <= length new ->
  exists r, reduce_loop O S free psi box (Some k) n i new count = Ret r /\ (forall k' new' c', r = Some (k', new', c') -> k' = k /\ length new' = length new /\ c' = count + 2 * n).
Proof.
  induction n as [|n IH]; intros i new count Hi Hc; cbn [reduce_loop].
  - eexists. split; [reflexivity|]. intros k' new' c' E. injection E as <- <- <-. repeat split; lia.
  - destruct (psi_at_ok psi i ltac:(lia)) as [p Ep]. rewrite Ep. cbn [bind]. destruct (snd (o_grad O free box p k)); [|exists None; split; [reflexivity|discriminate]].
    destruct (psi_at_ok psi 0 ltac:(lia)) as [p0 Ep0]. rewrite Ep0. cbn [bind]. destruct (Nat.ltb_spec (count + 1) (length new)); [|lia].
    match goal with |- context [reduce_loop O S free psi box (Some k) n (Datatypes.S i) ?nw (count + 2)] => destruct (IH (Datatypes.S i) nw (count + 2)) as (r & Er & Hr); [lia|rewrite !set_at_length; lia|] end.
    exists r. split; [exact Er|]. intros k' new' c' E. destruct (Hr _ _ _ E) as (A & B & C). rewrite !set_at_length in B. repeat split; [exact A|exact B|lia].
Qed.
Lemma reduce_none O S free psi box n i new count : i < length psi -> 1 <= n -> reduce_loop O S free psi box None n i new count = Ret None.
Proof. intros Hi Hn. destruct n; [lia|]. cbn [reduce_loop]. destruct (psi_at_ok psi i Hi) as [p Ep]. rewrite Ep. reflexivity. Qed.
Lemma halt_ok O free box psi : forall n j pt, j + n <= length psi -> exists b, halt_okay O free box psi n j pt = Ret b.
Proof.
  induction n as [|n IH]; intros j pt H; cbn [halt_okay]; [eexists; reflexivity|]. destruct (psi_at_ok psi j ltac:(lia)) as [p Ep]. rewrite Ep. cbn [bind]. destruct (if Rleb 0 _ then _ else _); [apply IH; lia|eexists; reflexivity].
Qed.
Lemma prune_one {A} (u : A -> bool) al sg psi count b psi' c' : count <= 1 -> prune u al sg psi count = Ret (b, psi', c') -> psi' = psi.
Proof.
  intros Hc. unfold prune. destruct count as [|[|count]]; [|  |lia]; cbn [prune_loop Nat.ltb Nat.leb].
  - intros [= _ <- _]. reflexivity.
  - destruct psi as [|p psi]; cbn [nth_error]; [discriminate|]. destruct (u p); [|intros [= _ <- _]; reflexivity]. destruct (consistent al sg p); [|intros [= _ <- _]; reflexivity].
    cbn [Nat.sub nth_error set_at]. intros [= _ <- _]. reflexivity.
Qed.

Section Construct.
Variables (O : oracles) (range order : nat) (dom : bbox) (K : kind).
Hypothesis HO : sound O range.
Hypothesis Hord : 2 <= order.
Hypothesis Hrange : range = 2 \/ range = 3.
Hypothesis HK : forall c v, K = Fac c v -> (lo dom c <= v <= hi dom c)%R.
Notation mdim := (mdim range K).
Notation good := (adds (o_cheb O) mdim order (final range dom K) (K <> Lev)).

Lemma full_adds box : K = Vol -> length (bmin box) = range -> length (bmax box) = range -> box_in range dom box -> (forall d, d < range -> (lo box d <= hi box d)%R) -> good [Full box].
Proof.
  intros EK L1 L2 Hb He m n Ho Hc. cbn [foldM run_event fst snd]. assert (Em : mdim = range) by (unfold L_General5.mdim; rewrite EK; reflexivity). rewrite Em in *. unfold add_full_cell. rewrite add_loop. rewrite tp_all_length, tp_size_const, Ho.
  assert (Hp : 0 < order ^ range) by (apply pow_pos; exact Hord).
  rewrite (num_cells_ok range _ (n + 1)); unfold pts_per_cell; cbn [m_order m_conn]; [|exact Hp|rewrite app_length, seq_length, Hc; lia]. cbn [bind snd].
  eexists _, _, _, _. split; [reflexivity|]. split; [|intros _; rewrite seq_length, map_length, tp_all_length, tp_size_const; reflexivity].
  unfold cells_added. cbn [m_order m_points m_conn m_wires]. split; [symmetry; exact Ho|]. split; [reflexivity|]. split; [reflexivity|]. split; [reflexivity|]. split; [exists 1; rewrite seq_length, Ho; lia|]. split; [apply seq_NoDup|]. split.
  - rewrite Forall_forall. intros i Hi. apply in_seq in Hi. rewrite app_length, map_length, tp_all_length, tp_size_const. lia.
  - rewrite Forall_forall. intros x Hx. apply in_map_iff in Hx as (t & <- & Ht). apply is_index_all in Ht as [Lt Ft]. split; [unfold cell_point; rewrite map3_length; rewrite ?lengths_len; lia|]. split; [|intros c v E; congruence].
    intros d Hd. rewrite cell_point_nth by lia. assert (Hn : (0 <= node01 (o_cheb O) order (nth d t 0%nat) <= 1)%R) by (apply (node_in O range order HO Hord); rewrite Forall_forall in Ft; apply Ft, nth_In; lia).
    destruct (Hb d Hd) as [B1 B2]. specialize (He d Hd). unfold lo, hi in *. split; nra.
Qed.
Definition top_ok (dim : nat) (S : bool) (free : list bool) (psi : list psi_code) (box : bbox) : Prop :=
  match K with
  | Vol => S = false /\ dim = range
  | Lev => S = true /\ dim = range
  | Fac c v => S = false /\ dim = range - 1 /\ fixed_dirs free = [c] /\ exists p, psi_at psi 0 = Ret p /\ side_of box (nth c (ps_side p) 0) c = v
  end.
Definition need (dim k : nat) : nat := match dim with 0 | 1 => 0 | _ => k + 16 * (dim - 2) end.
Record pre (dim k : nat) (S : bool) (up : list obj) (refs : list refmap) (free : list bool) (psi : list psi_code) (count : nat) (box : bbox) : Prop := mk_pre {
  p_free : length free = range; p_dim : trues free = dim;
  p_up : wf_stack range dom K up; p_updim : Forall (fun l => l_dim l <> 1) up; p_refs : length refs = length up;
  p_psi : length psi = n_facets range; p_count : count * 2 ^ (dim - 1) <= 2 ^ (range - 1); p_one : up = [] -> count <= 1;
  p_min : length (bmin box) = range; p_max : length (bmax box) = range; p_box : box_in range dom box;
  p_ext : forall d, d < range -> (2 ^ need dim k * default_tol < extent box d)%R;
  p_top : match up with [] => top_ok dim S free psi box | _ => S = false end;
  p_c1 : forall d, d < range -> nth d free false = true \/ In d (map l_dir up) \/ fixed_coord K d;
  p_c2 : forall d, nth d free false = true -> ~ In d (map l_dir up) /\ ~ fixed_coord K d;
  p_c3 : forall d, In d (map l_dir up) -> ~ fixed_coord K d;
  p_len : K <> Lev -> dim + length up = mdim }.

Lemma need_ext dim k S up refs free psi count box : pre dim k S up refs free psi count box -> forall d, d < range -> (default_tol < extent box d)%R.
Proof.
  intros P d Hd. pose proof (p_ext _ _ _ _ _ _ _ _ _ P d Hd) as H. pose proof default_tol_pos as T. assert (1 <= 2 ^ need dim k)%R by (apply pow_R1_Rle; lra). nra.
Qed.
Lemma cover_of lvs sel : lvs <> [] -> wf_stack range dom K lvs -> length sel = range -> (forall d, d < range -> nth d sel false = true \/ In d (map l_dir lvs) \/ fixed_coord K d) ->
  (forall d, nth d sel false = true -> ~ In d (map l_dir lvs) /\ ~ fixed_coord K d) -> (forall d, In d (map l_dir lvs) -> ~ fixed_coord K d) -> (forall c v, K = Fac c v -> c < range) -> cover range K lvs sel.
Proof.
  intros Hne W Hs C1 C2 C3 C4.
  assert (G : (forall d, In d (map l_dir lvs) \/ fixed_coord K d -> special K lvs = Some d \/ In d (vars lvs)) /\
    (forall d, special K lvs = Some d -> (In d (map l_dir lvs) \/ fixed_coord K d) /\ ~ In d (vars lvs))).
  { clear C1 C2 Hs. induction lvs as [|l up IH]; [congruence|]. destruct W as (Wl & _ & Wu & Hdir & Ws). cbn [special vars map]. destruct (l_S l) eqn:ES.
    - assert (up = []) by (destruct up; [reflexivity|discriminate]). subst up. unfold wf_last in Wu. assert (EK : K = Lev) by (clear - Wu ES; destruct K; try reflexivity; destruct Wu; congruence). split.
      + intros d [[<-|[]]|[v E]]; [left; reflexivity|congruence].
      + intros d [= <-]. split; [left; left; reflexivity|intros []].
    - destruct up as [|u up].
      + unfold wf_last in Wu. assert (HC : K = Vol \/ K = Lev \/ exists c v, K = Fac c v) by (clear; destruct K; eauto 6). destruct HC as [EK|[EK|(c & v & EK)]]; rewrite EK in Wu.
        * rewrite EK. split; [|discriminate]. intros d [Hd|[v E]]; [right; exact Hd|discriminate].
        * congruence.
        * rewrite EK. split.
          -- intros d [Hd|[w E]]; [right; exact Hd|left; congruence].
          -- intros d [= <-]. assert (F : fixed_coord K c) by (exists v; exact EK). split; [right; exists v; reflexivity|]. intros [E|[]]. apply (C3 c); [left; exact E|exact F].
      + destruct (IH ltac:(discriminate) Ws) as [G1 G2]; [intros d Hd; apply C3; right; exact Hd|]. split.
        * intros d [[<-|Hd]|Hd]; [right; left; reflexivity|destruct (G1 d (or_introl Hd)); [left; assumption|right; right; assumption]|destruct (G1 d (or_intror Hd)); [left; assumption|right; right; assumption]].
        * intros d Hd. destruct (G2 d Hd) as [[H|H] H']; (split; [|intros [E|E]; [|contradiction]]).
          -- left. right. exact H.
          -- subst d. contradiction.
          -- right. exact H.
          -- subst d. apply (C3 (l_dir l)); [left; reflexivity|exact H]. }
  destruct G as [G1 G2]. split.
  - intros d Hd. destruct (C1 d Hd) as [H|H]; [right; right; exact H|]. destruct (G1 d H); [left; assumption|right; left; assumption].
  - intros d Hd. destruct (G2 d Hd) as [H1 H2]. split; [|split; [|exact H2]].
    + destruct H1 as [H1|[v H1]]; [|eapply C4; exact H1]. clear - H1 W. induction lvs as [|l up IH]; [destruct H1|]. destruct W as (Wl & _ & _ & _ & Ws). destruct H1 as [<-|H1]; [apply (wf_dir _ _ Wl)|apply IH; assumption].
    + destruct (nth d sel false) eqn:E; [|reflexivity]. destruct (C2 d E) as [N1 N2]. destruct H1; contradiction.
Qed.
Hypothesis HKr : forall c v, K = Fac c v -> c < range.

Lemma whole_ok dim k up refs free psi count box : 1 <= dim -> pre dim k false up refs free psi count box ->
  exists evs refs', whole O dim range order free psi box up refs = Ret (evs, refs') /\ length refs' = length up /\ good evs.
Proof.
  intros Hdim P. pose proof (p_ext _ _ _ _ _ _ _ _ _ P) as Hext. pose proof default_tol_pos as HT.
  assert (Hle : forall d, d < range -> (lo box d <= hi box d)%R) by (intros d Hd; pose proof (need_ext _ _ _ _ _ _ _ _ _ P d Hd); unfold extent in *; lra).
  assert (Hint : forall d j, d < range -> j < order -> (lo dom d <= interpolate_coord O order box d j <= hi dom d)%R).
  { intros d j Hd Hj. unfold interpolate_coord, extent. pose proof (node_in O range order HO Hord j Hj). destruct (p_box _ _ _ _ _ _ _ _ _ P d Hd). specialize (Hle d Hd). split; nra. }
  destruct up as [|u up].
  - pose proof (p_top _ _ _ _ _ _ _ _ _ P) as T. cbn in T. unfold top_ok in T. cbn [whole]. assert (HC : K = Vol \/ K = Lev \/ exists c v, K = Fac c v) by (clear; destruct K; eauto 6). destruct HC as [EK|[EK|(c & v & EK)]]; rewrite EK in T.
    + destruct T as [_ ->]. unfold full_events. rewrite Nat.eqb_refl. cbn [bind]. eexists _, _. split; [reflexivity|]. split; [apply P|]. apply full_adds; try assumption; apply P.
    + destruct T. discriminate.
    + destruct T as (_ & Ed & Hf & p & Ep & Hv). unfold full_events. destruct (Nat.eqb_spec dim range) as [E|_]; [lia|]. rewrite Hf, Ep. cbn [bind]. eexists _, _. split; [reflexivity|]. split; [apply P|].
      intros m n Ho Hc. assert (Em : mdim = dim) by (unfold L_General5.mdim; rewrite EK; lia). rewrite Em in *. pose proof (run_complete (o_cheb O) dim m n) as RC. rewrite Ho in RC.
      set (others := map (fun d => negb (d =? c)) (seq 0 range)). assert (Hcr : c < range) by (eapply HKr; exact EK).
      assert (Lo : length others = range) by (unfold others; rewrite map_length, seq_length; reflexivity).
      assert (No : forall d, d < range -> nth d others false = negb (d =? c)) by (intros d Hd; unfold others; rewrite (nth_indep _ false (negb (0 =? c))) by (rewrite map_length, seq_length; lia); rewrite (map_nth (fun d => negb (d =? c))), seq_nth by lia; reflexivity).
      assert (To : trues others = dim). { unfold others. rewrite trues_filter, map_length, seq_length.
        assert (E : filter (fun d => nth d (map (fun d => negb (d =? c)) (seq 0 range)) false) (seq 0 range) = filter (fun d => negb (d =? c)) (seq 0 range)) by (apply filter_ext_in; intros d Hd; apply in_seq in Hd; apply No; lia).
        rewrite E, Ed. clear - Hcr Hrange. destruct Hrange as [-> | ->]; destruct c as [|[|[|c]]]; try lia; reflexivity. }
      destruct (RC Hord Hc (final range dom K) (map (fun ptid => Insert (tp_const range 0) ptid (scatter (interpolate_coord O order box) 0 others ptid (set_at (o_point O) c (side_of box (nth c (ps_side p) 0) c)))) (tp_all (tp_const dim order))) [tp_const range 0]) as (m' & mp & np & ni & R1 & R2 & R3 & R4).
      * repeat constructor. intros [].
      * rewrite Forall_forall. intros e He. apply in_map_iff in He as (t & <- & Ht). assert (Ht' := Ht). apply is_index_all in Ht'. eexists _, _, _. split; [reflexivity|]. split; [left; reflexivity|]. split; [exact Ht'|]. destruct Ht' as [Lt Ft]. rewrite Forall_forall in Ft.
        set (base := set_at (o_point O) c (side_of box (nth c (ps_side p) 0) c)). assert (Lb : length base = range) by (unfold base; rewrite set_at_length; apply (s_point O range HO)).
        assert (V : nth c (scatter (interpolate_coord O order box) 0 others t base) 0%R = v).
        { pose proof (scatter_nth (interpolate_coord O order box) 0%R others 0 t base c ltac:(lia) ltac:(lia) ltac:(lia)) as X. rewrite No, Nat.eqb_refl in X by lia. cbn in X. rewrite X. unfold base. rewrite set_at_nth, Nat.eqb_refl.
          destruct (Nat.ltb_spec c (length (o_point O))) as [_|B]; [exact Hv|rewrite (s_point O range HO) in B; lia]. }
        split; [rewrite scatter_length; lia|]. split.
        -- intros d Hd. destruct (Nat.eq_dec d c) as [->|Nd]; [rewrite V; apply (HK c v EK)|].
           pose proof (scatter_nth (interpolate_coord O order box) 0%R others 0 t base d ltac:(lia) ltac:(lia) ltac:(lia)) as X. rewrite No in X by lia. destruct (Nat.eqb_spec d c); [contradiction|]. cbn in X. destruct X as (a & Ha & ->). apply Hint; [lia|apply Ft; exact Ha].
        -- intros c' v' E'. rewrite EK in E'. injection E' as <- <-. exact V.
      * intros t q [<-|[]] Hq. eexists. apply in_map_iff. exists q. split; [reflexivity|]. apply is_index_all. exact Hq.
      * exists m', mp, np, ni. split; [exact R1|]. split; [exact R2|]. intros _. rewrite R4, R3, map_length, tp_all_length, tp_size_const. cbn [length]. lia.
  - cbn [whole]. unfold base_events. set (ups := u :: up) in *. assert (Hne : ups <> []) by discriminate. clearbody ups. clear u up.
    set (x := map3 _ _ _ _). assert (Lx : length x = range) by (pose proof (s_point O range HO); pose proof (p_free _ _ _ _ _ _ _ _ _ P); unfold x; rewrite map3_length; rewrite ?seq_length; lia).
    assert (Wu : Forall (wf_obj range) ups). { pose proof (p_up _ _ _ _ _ _ _ _ _ P) as W. clear - W. induction ups as [|l ups IH]; constructor; [apply W|apply IH; apply W]. }
    destruct (compute_ref_ok O range HO ups (clear_refs refs) x (tp_const range 0) Wu (p_updim _ _ _ _ _ _ _ _ _ P)) as (refs' & E1 & C1 & H1 & _); [apply closed_clear; symmetry; apply P|exact Lx|]. rewrite E1. cbn [bind].
    destruct (leaf_adds O range order dom K HO Hord HK ups refs' free dim (fun sub => scatter (interpolate_coord O order box) 0 free sub (o_point O)) Hne (p_up _ _ _ _ _ _ _ _ _ P) C1 H1 (p_free _ _ _ _ _ _ _ _ _ P) (p_dim _ _ _ _ _ _ _ _ _ P)) as (evs & E2 & A2).
    + apply cover_of; try assumption; apply P.
    + apply P.
    + intros sub Hsub. apply is_index_all in Hsub as [Ls Fs]. rewrite Forall_forall in Fs. pose proof (s_point O range HO) as Lp. pose proof (p_free _ _ _ _ _ _ _ _ _ P) as Lf. split; [rewrite scatter_length; lia|]. intros d Hd.
      destruct (p_c1 _ _ _ _ _ _ _ _ _ P d Hd) as [Hf|[Hf|Hf]]; [|left; exact Hf|right; left; exact Hf]. right. right.
      pose proof (scatter_nth (interpolate_coord O order box) 0%R free 0 sub (o_point O) d ltac:(lia) ltac:(rewrite (p_dim _ _ _ _ _ _ _ _ _ P); exact Ls) ltac:(lia)) as X. rewrite Hf in X. destruct X as (a & Ha & ->). apply Hint; [lia|apply Fs; exact Ha].
    + rewrite E2. cbn [bind]. eexists _, _. split; [reflexivity|]. split; [symmetry; apply closed_len; exact C1|exact A2].
Qed.
Lemma base_ok k S up refs free psi count box dir : pre 1 k S up refs free psi count box -> filter (fun d => nth d free false) (seq 0 range) = [dir] ->
  let self := mk_obj 1 S free psi count box dir in
  exists refs' evs, compute_ref_intervals O (self :: up) ([] :: refs) (repeat 0%R range) (tp_const range 0) = Ret refs' /\
    process O range order (self :: up) refs' (repeat 0%R range) (tp_const range 0) (tp_const range 0) = Ret evs /\ length (tl refs') = length up /\ good evs.
Proof.
  intros P Hf self. assert (Hdir : dir < range /\ nth dir free false = true). { assert (In dir (filter (fun d => nth d free false) (seq 0 range))) as Hin by (rewrite Hf; left; reflexivity). apply filter_In in Hin as [H1 H2]. apply in_seq in H1. split; [lia|exact H2]. }
  destruct Hdir as [Hdr Hdf]. assert (Huniq : forall d, d < range -> nth d free false = true -> d = dir). { intros d Hd Hn. assert (In d (filter (fun d => nth d free false) (seq 0 range))) as Hin by (apply filter_In; split; [apply in_seq; lia|exact Hn]). rewrite Hf in Hin. destruct Hin as [<-|[]]. reflexivity. }
  assert (Wu : Forall (wf_obj range) up). { pose proof (p_up _ _ _ _ _ _ _ _ _ P) as W. clear - W. induction up as [|l ups IH]; constructor; [apply W|apply IH; apply W]. }
  assert (HS : S = false). { pose proof (p_top _ _ _ _ _ _ _ _ _ P) as T. destruct up; [|exact T]. unfold top_ok in T. clear - T Hrange. destruct K; [apply T|destruct T; lia|apply T]. }
  assert (Ws : wf_obj range self).
  { constructor; cbn [self l_free l_box l_dir l_psi l_count l_dim l_S]; try apply P; try exact Hdr; try congruence.
    - pose proof (p_count _ _ _ _ _ _ _ _ _ P) as Hc. cbn [Nat.sub Nat.pow] in Hc. rewrite (p_psi _ _ _ _ _ _ _ _ _ P). unfold n_facets. lia.
    - apply (need_ext _ _ _ _ _ _ _ _ _ P). exact Hdr. }
  assert (Wst : wf_stack range dom K (self :: up)).
  { cbn [wf_stack]. split; [exact Ws|]. split; [apply P|]. split; [|split; [apply (p_c2 _ _ _ _ _ _ _ _ _ P); exact Hdf|apply P]]. pose proof (p_top _ _ _ _ _ _ _ _ _ P) as T. destruct up; [|exact T]. unfold wf_last, top_ok in *. cbn [self l_S l_dim l_free l_psi l_box].
    clear - T Hrange. destruct K; [destruct T; lia|apply T|destruct T as (A & B & C & D); repeat split; [exact A|lia|exact C|exact D]]. }
  destruct (compute_ref_base O range HO self up refs (repeat 0%R range) (tp_const range 0) Ws eq_refl Wu (p_updim _ _ _ _ _ _ _ _ _ P)) as (refs' & E1 & C1 & H1); [symmetry; apply P|apply repeat_length|].
  exists refs'. set (none := repeat false range).
  assert (Nn : forall d, nth d none false = false) by (intros d; unfold none; apply nth_repeat).
  destruct (leaf_adds O range order dom K HO Hord HK (self :: up) refs' none 0 (fun _ => repeat 0%R range) ltac:(discriminate) Wst C1 H1 ltac:(apply repeat_length) ltac:(apply trues_repeat_false)) as (evs & E2 & A2).
  - apply cover_of; try assumption; try discriminate.
    + apply repeat_length.
    + intros d Hd. right. destruct (p_c1 _ _ _ _ _ _ _ _ _ P d Hd) as [H|[H|H]]; [left; left; cbn; symmetry; apply Huniq; assumption|left; right; exact H|right; exact H].
    + intros d Hn. rewrite Nn in Hn. discriminate.
    + intros d [<-|Hd]; [cbn; apply (p_c2 _ _ _ _ _ _ _ _ _ P); exact Hdf|apply (p_c3 _ _ _ _ _ _ _ _ _ P); exact Hd].
  - intros HL. rewrite <- (p_len _ _ _ _ _ _ _ _ _ P HL). cbn [length]. lia.
  - intros sub _. split; [apply repeat_length|]. intros d Hd. destruct (p_c1 _ _ _ _ _ _ _ _ _ P d Hd) as [H|[H|H]]; [left; left; cbn; symmetry; apply Huniq; assumption|left; right; exact H|right; left; exact H].
  - exists evs. split; [exact E1|]. assert (Ea : tp_all (tp_const 0 order) = [[]]) by reflexivity. rewrite Ea in E2. cbn [foreach] in E2.
    assert (Esc : scatter (fun _ i : nat => i) 0 none [] (tp_const range 0) = tp_const range 0) by (unfold none; rewrite <- (repeat_length 0 range) at 1; apply scatter_none). rewrite Esc in E2.
    split; [|split; [|exact A2]].
    + destruct (process _ _ _ _ _ _ _ _) as [e| | |]; cbn [bind] in E2; try discriminate. rewrite app_nil_r in E2. exact E2.
    + pose proof (closed_len _ _ C1) as L. destruct refs'; [discriminate|]. cbn [length tl] in *. lia.
Qed.
End Construct.
