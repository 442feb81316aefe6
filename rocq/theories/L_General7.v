(** Lemmas for the general reparameterization: the recursion of the constructor. *)
From Coq Require Import Reals List Lia Lra Permutation Arith ZArith.
From Verif Require Import M_General S_General S_Mesh S_Roots L_Real L_BBox L_Point L_TensorNat L_Mesh L_Mesh2 L_Mesh5 L_Roots L_General L_General2 L_General3 L_General4 L_General5 L_General6.
Import ListNotations.
Local Close Scope Z_scope. Local Close Scope R_scope. Local Open Scope nat_scope.

Local Opaque n_max_subdivs.
Definition starts (up : list obj) : list event := match up with [] => [Clear] | _ => [] end.
Lemma construct_1 O range order k S up refs free psi count box :
  construct O range order 1 k S up refs free psi count box =
  match rev (filter (fun d => nth d free false) (seq 0 range)) with
  | [] => UB
  | dir :: _ => let self := mk_obj 1 S free psi count box dir in
      refs' <- compute_ref_intervals O (self :: up) ([] :: refs) (repeat 0%R range) (tp_const range 0) ;;
      evs <- process O range order (self :: up) refs' (repeat 0%R range) (tp_const range 0) (tp_const range 0) ;; Ret (starts up ++ evs, tl refs')
  end.
Proof. destruct k; reflexivity. Qed.
Lemma construct_S O range order d k S up refs free psi0 count0 box :
  construct O range order (Datatypes.S (Datatypes.S d)) k S up refs free psi0 count0 box =
  (pr <- prune (fun p => snd (o_value O free box p)) (fun p => fst (o_value O free box p)) ps_sign psi0 count0 ;;
   let '(ok, psi, count) := pr in
   if negb ok then Ret (starts up, refs)
   else if (count =? 0)%nat then
     if S then Ret (starts up, refs) else er <- whole O (Datatypes.S (Datatypes.S d)) range order free psi box up refs ;; Ret (starts up ++ fst er, snd er)
   else
     p0 <- psi_at psi 0 ;;
     red <- reduce_loop O S free psi box (height_direction O range free box p0) count 0 (repeat (o_psi O) (n_facets range)) 0 ;;
     match red with
     | None =>
       match k with
       | Datatypes.S k' =>
         match split_direction range free box with
         | None => Abort
         | Some ind =>
           a <- construct O range order (Datatypes.S (Datatypes.S d)) k' S up refs free psi count (mk_box (bmin box) (set_at (bmax box) ind (midpoint box ind))) ;;
           b <- construct O range order (Datatypes.S (Datatypes.S d)) k' S up (snd a) free psi count (mk_box (set_at (bmin box) ind (midpoint box ind)) (bmax box)) ;;
           Ret (starts up ++ fst a ++ [Clear] ++ fst b, snd b)
         end
       | 0%nat =>
         okay <- halt_okay O free box psi (n_facets range) 0 (map (midpoint box) (seq 0 range)) ;;
         if okay : bool then
           if S then assert_ (Datatypes.S (Datatypes.S d) =? range)%nat (Ret (starts up, refs))
           else er <- whole O (Datatypes.S (Datatypes.S d)) range order free psi box up refs ;; Ret (starts up ++ fst er, snd er)
         else Ret (starts up, refs)
       end
     | Some (dir, new_psi, new_count) =>
       er <- construct O range order (Datatypes.S d) n_max_subdivs false (mk_obj (Datatypes.S (Datatypes.S d)) S free psi count box dir :: up) ([] :: refs) (set_at free dir false) new_psi new_count box ;;
       Ret (starts up ++ fst er, tl (snd er))
     end).
Proof. destruct k; reflexivity. Qed.

Lemma filter_len {A} (f : A -> bool) l : length (filter f l) <= length l.
Proof. induction l as [|x l IH]; cbn; [lia|]. destruct (f x); cbn; lia. Qed.

Section Construct.
Variables (O : oracles) (range order : nat) (dom : bbox) (K : kind).
Hypothesis HO : sound O range.
Hypothesis Hord : 2 <= order.
Hypothesis Hrange : range = 2 \/ range = 3.
Hypothesis HK : forall c v, K = Fac c v -> (lo dom c <= v <= hi dom c)%R.
Hypothesis HKr : forall c v, K = Fac c v -> c < range.
Notation mdim := (mdim range K).
Notation good := (adds (o_cheb O) mdim order (final range dom K) (K <> Lev)).
Notation pre := (pre range dom K).

Lemma starts_ok up : starts up = [] \/ starts up = [Clear].
Proof. destruct up; auto. Qed.
Lemma pre_count d k S up refs free psi count psi' count' box : pre (Datatypes.S (Datatypes.S d)) k S up refs free psi count box -> count' <= count -> length psi' = length psi -> (up = [] -> psi' = psi) ->
  pre (Datatypes.S (Datatypes.S d)) k S up refs free psi' count' box.
Proof.
  intros P Hc Hl Hp. destruct P. constructor; try assumption; try congruence; try nia.
  - intros E. specialize (p_one E). lia.
  - destruct up; [|assumption]. rewrite Hp by reflexivity. assumption.
Qed.
Lemma half_box_nth (l : list R) ind x d : ind < length l -> nth d (set_at l ind x) 0%R = if ind =? d then x else nth d l 0%R.
Proof. intros H. rewrite set_at_nth. destruct (ind =? d); [|reflexivity]. destruct (Nat.ltb_spec ind (length l)); [reflexivity|lia]. Qed.
Lemma pre_split d k S up refs refs' free psi count box ind b : pre (Datatypes.S (Datatypes.S d)) (Datatypes.S k) S up refs free psi count box -> nth ind free false = true -> ind < range -> length refs' = length up ->
  b = mk_box (bmin box) (set_at (bmax box) ind (midpoint box ind)) \/ b = mk_box (set_at (bmin box) ind (midpoint box ind)) (bmax box) ->
  pre (Datatypes.S (Datatypes.S d)) k S up refs' free psi count b.
Proof.
  intros P Hf Hi Hr Hb. pose proof default_tol_pos as HT. pose proof (need_ext _ _ _ _ _ _ _ _ _ _ _ _ P) as HX.
  assert (Mid : (lo box ind < midpoint box ind < hi box ind)%R /\ (midpoint box ind - lo box ind = / 2 * extent box ind)%R /\ (hi box ind - midpoint box ind = / 2 * extent box ind)%R).
  { specialize (HX ind Hi). unfold midpoint, extent in *. lra. }
  assert (E : forall e, e < range -> (lo box e <= lo b e)%R /\ (hi b e <= hi box e)%R /\ (/ 2 * extent box e <= extent b e)%R).
  { intros e He. specialize (HX e He). unfold extent, lo, hi in *. destruct P. destruct Hb as [-> | ->]; cbn [bmin bmax]; rewrite half_box_nth by lia; destruct (Nat.eqb_spec ind e) as [<-|Ne]; lra. }
  assert (Sd : forall c s, fixed_coord K c -> side_of b s c = side_of box s c).
  { intros c s Hc. assert (ind <> c) by (intros <-; apply (p_c2 _ _ _ _ _ _ _ _ _ _ _ _ P) in Hf; tauto). unfold side_of, lo, hi. destruct P. destruct Hb as [-> | ->]; cbn [bmin bmax]; rewrite half_box_nth by lia; destruct (Nat.eqb_spec ind c); try contradiction; reflexivity. }
  destruct P. constructor; try assumption.
  - destruct Hb as [-> | ->]; cbn [bmin]; rewrite ?set_at_length; assumption.
  - destruct Hb as [-> | ->]; cbn [bmax]; rewrite ?set_at_length; assumption.
  - intros e He. destruct (E e He) as (E1 & E2 & _). destruct (p_box e He). lra.
  - intros e He. destruct (E e He) as (_ & _ & E3). specialize (p_ext e He). cbn [need] in p_ext |- *. rewrite Nat.add_succ_l in p_ext. cbn [pow] in p_ext. lra.
  - destruct up; [|assumption]. unfold top_ok in *. assert (HC : K = Vol \/ K = Lev \/ exists c v, K = Fac c v) by (clear; destruct K; eauto 6). destruct HC as [EK|[EK|(c & v & EK)]]; rewrite EK in *; try assumption.
    destruct p_top as (A & B & C & p & D1 & D2). split; [exact A|]. split; [exact B|]. split; [exact C|]. exists p. split; [exact D1|]. rewrite Sd; [exact D2|]. exists v. reflexivity.
Qed.
Lemma pre_reduce d k S up refs free psi count box dir new : pre (Datatypes.S (Datatypes.S d)) k S up refs free psi count box -> nth dir free false = true -> dir < range -> length new = n_facets range ->
  pre (Datatypes.S d) n_max_subdivs false (mk_obj (Datatypes.S (Datatypes.S d)) S free psi count box dir :: up) ([] :: refs) (set_at free dir false) new (2 * count) box.
Proof.
  intros P Hf Hi Hn. pose proof default_tol_pos as HT. pose proof (need_ext _ _ _ _ _ _ _ _ _ _ _ _ P) as HX. set (self := mk_obj _ _ _ _ _ _ _).
  assert (Hc2 : count <= 2 /\ count <= 2 ^ (range - 1)). { pose proof (p_count _ _ _ _ _ _ _ _ _ _ _ _ P) as Hc. replace (Datatypes.S (Datatypes.S d) - 1) with (Datatypes.S d) in Hc by lia. rewrite Nat.pow_succ_r' in Hc. pose proof (Nat.pow_nonzero 2 d ltac:(lia)) as Hq. clear - Hc Hq Hrange. set (q := 2 ^ d) in *. clearbody q. assert (H4 : 2 ^ (range - 1) <= 4) by (destruct Hrange; subst range; cbn; lia). set (r := 2 ^ (range - 1)) in *. clearbody r. assert (count * 2 <= count * (2 * q)) by (apply Nat.mul_le_mono_l; lia). lia. }
  assert (Ws : wf_obj range self). { constructor; cbn [self l_free l_box l_dir l_psi l_count l_dim l_S]; try apply P; try lia. - rewrite (p_psi _ _ _ _ _ _ _ _ _ _ _ _ P). unfold n_facets. lia. - apply HX. exact Hi. }
  destruct P. assert (Hdir := p_c2 dir Hf). constructor; try assumption; try discriminate; try (exact eq_refl); cbn [length map].
  - rewrite set_at_length. assumption.
  - pose proof (trues_set free dir Hf). lia.
  - cbn [wf_stack]. split; [exact Ws|]. split; [exact p_box|]. split; [|split; [apply Hdir|exact p_up]]. destruct up; [|assumption]. unfold wf_last, top_ok in *. cbn [self l_S l_dim l_free l_psi l_box].
    clear - p_top Hrange. destruct K; [destruct p_top; split; [assumption|lia]|apply p_top|destruct p_top as (A & B & C & D); repeat split; [exact A|lia|exact C|exact D]].
  - constructor; [cbn; lia|assumption].
  - congruence.
  - cbn [Nat.sub Nat.pow] in p_count |- *. rewrite Nat.sub_0_r. lia.
  - intros e He. apply Rle_lt_trans with (2 ^ need (Datatypes.S (Datatypes.S d)) k * default_tol)%R; [|apply p_ext; exact He]. apply Rmult_le_compat_r; [lra|]. apply Rle_pow; [lra|]. change n_max_subdivs with 16; destruct d; cbn [need]; lia.
  - intros e He. rewrite set_length_nth. destruct (Nat.eqb_spec dir e) as [<-|Ne]; [right; left; left; reflexivity|]. destruct (p_c1 e He) as [H|[H|H]]; [left; exact H|right; left; right; exact H|right; right; exact H].
  - intros e He. rewrite set_length_nth in He. destruct (Nat.eqb_spec dir e) as [E|Ne]; [discriminate|]. destruct (p_c2 e He) as [H1 H2]. split; [intros [E|E]; [cbn in E; congruence|contradiction]|exact H2].
  - intros e [<-|He]; [apply Hdir|apply p_c3; exact He].
  - intros HL. rewrite <- (p_len HL). lia.
Qed.
(** One step of the constructor after the pruning; [again] tells what is done when no height direction is found. *)
Lemma step_ok d k S up refs free psi cc box again :
  (forall up' refs' free' psi' count' box', pre (Datatypes.S d) n_max_subdivs false up' refs' free' psi' count' box' ->
     exists evs refs1, construct O range order (Datatypes.S d) n_max_subdivs false up' refs' free' psi' count' box' = Ret (evs, refs1) /\ length refs1 = length up' /\ good evs) ->
  pre (Datatypes.S (Datatypes.S d)) k S up refs free psi cc box ->
  (exists evs refs', again = Ret (evs, refs') /\ length refs' = length up /\ good evs) ->
  exists evs refs',
  (if (cc =? 0)%nat then
     if S then Ret (starts up, refs) else er <- whole O (Datatypes.S (Datatypes.S d)) range order free psi box up refs ;; Ret (starts up ++ fst er, snd er)
   else
     p0 <- psi_at psi 0 ;;
     red <- reduce_loop O S free psi box (height_direction O range free box p0) cc 0 (repeat (o_psi O) (n_facets range)) 0 ;;
     match red with
     | None => again
     | Some (dir, new_psi, new_count) =>
       er <- construct O range order (Datatypes.S d) n_max_subdivs false (mk_obj (Datatypes.S (Datatypes.S d)) S free psi cc box dir :: up) ([] :: refs) (set_at free dir false) new_psi new_count box ;;
       Ret (starts up ++ fst er, tl (snd er))
     end) = Ret (evs, refs') /\ length refs' = length up /\ good evs.
Proof.
  intros IH P Hag. pose proof (p_psi _ _ _ _ _ _ _ _ _ _ _ _ P) as Lpsi. pose proof (p_refs _ _ _ _ _ _ _ _ _ _ _ _ P) as Lr.
  assert (Hcl : 2 * cc <= n_facets range). { pose proof (p_count _ _ _ _ _ _ _ _ _ _ _ _ P) as Hc. replace (Datatypes.S (Datatypes.S d) - 1) with (Datatypes.S d) in Hc by lia. rewrite Nat.pow_succ_r' in Hc. pose proof (Nat.pow_nonzero 2 d ltac:(lia)) as Hq.
    unfold n_facets. set (r := 2 ^ (range - 1)) in *. clearbody r. set (q := 2 ^ d) in *. clearbody q. assert (cc * 2 <= cc * (2 * q)) by (apply Nat.mul_le_mono_l; lia). lia. }
  destruct (Nat.eqb_spec cc 0) as [E0|E0].
  - destruct S eqn:ES; [eexists _, _; split; [reflexivity|]; split; [exact Lr|rewrite <- (app_nil_r (starts up)); apply adds_start; [apply starts_ok|apply adds_nil]]|].
    destruct (whole_ok O range order dom K HO Hord Hrange HK HKr (Datatypes.S (Datatypes.S d)) k up refs free psi cc box ltac:(lia) P) as (evs & refs' & E & L & A). rewrite E. cbn [bind fst snd]. eexists _, _. split; [reflexivity|]. split; [exact L|apply adds_start; [apply starts_ok|exact A]].
  - destruct (psi_at_ok psi 0 ltac:(lia)) as [p0 Ep0]. rewrite Ep0. cbn [bind]. destruct (height_direction O range free box p0) as [dir|] eqn:Eh.
    + apply height_ok in Eh as [Hdr Hdf]. destruct (reduce_ok O S free psi box dir cc 0 (repeat (o_psi O) (n_facets range)) 0) as (r & Er & Hr); [lia|rewrite repeat_length; lia|]. rewrite Er. cbn [bind].
      destruct r as [[[dir' new] nc]|]; [|exact Hag]. destruct (Hr _ _ _ eq_refl) as (-> & Ln & ->). rewrite repeat_length in Ln.
      destruct (IH _ _ _ _ _ _ (pre_reduce d k S up refs free psi cc box dir new P Hdf Hdr Ln)) as (evs & refs' & E & L & A). rewrite Nat.add_0_l. rewrite E. cbn [bind fst snd]. eexists _, _. split; [reflexivity|]. split; [destruct refs'; cbn [length tl] in *; lia|apply adds_start; [apply starts_ok|exact A]].
    + rewrite reduce_none by lia. cbn [bind]. exact Hag.
Qed.
Lemma construct_ok : forall dim k S up refs free psi count box, 1 <= dim -> pre dim k S up refs free psi count box ->
  exists evs refs', construct O range order dim k S up refs free psi count box = Ret (evs, refs') /\ length refs' = length up /\ good evs.
Proof.
  induction dim as [|dim IHd]; [intros; lia|]. intros k S up refs free psi count box _. destruct dim as [|d].
  - intros P. rewrite construct_1. assert (T := trues_filter free). rewrite (p_dim _ _ _ _ _ _ _ _ _ _ _ _ P), (p_free _ _ _ _ _ _ _ _ _ _ _ _ P) in T. destruct (filter (fun d => nth d free false) (seq 0 range)) as [|dir [|? ?]] eqn:Ef; try discriminate. cbn [rev app].
    destruct (base_ok O range order dom K HO Hord Hrange HK HKr k S up refs free psi count box dir P Ef) as (refs' & evs & E1 & E2 & L & A). rewrite E1. cbn [bind]. rewrite E2. cbn [bind]. eexists _, _. split; [reflexivity|]. split; [exact L|apply adds_start; [apply starts_ok|exact A]].
  - assert (IH1 : forall up' refs' free' psi' count' box', pre (Datatypes.S d) n_max_subdivs false up' refs' free' psi' count' box' ->
     exists evs refs1, construct O range order (Datatypes.S d) n_max_subdivs false up' refs' free' psi' count' box' = Ret (evs, refs1) /\ length refs1 = length up' /\ good evs) by (intros; apply IHd; [lia|assumption]). clear IHd.
    revert S up refs free psi count box. induction k as [|k IHk]; intros S up refs free psi count box P; rewrite construct_S; pose proof (p_psi _ _ _ _ _ _ _ _ _ _ _ _ P) as Lpsi; pose proof (p_refs _ _ _ _ _ _ _ _ _ _ _ _ P) as Lr;
      (assert (Hcl : count <= length psi) by (rewrite Lpsi; pose proof (p_count _ _ _ _ _ _ _ _ _ _ _ _ P); unfold n_facets; pose proof (Nat.pow_nonzero 2 (Datatypes.S (Datatypes.S d) - 1) ltac:(lia)); nia));
      match goal with |- context [prune ?u ?a ?s psi count] => destruct (prune_ok u a s psi count Hcl) as (ok & psi' & c' & Ep & Hperm & _ & Hok); pose proof (fun H => prune_one u a s psi count ok psi' c' H Ep) as Hone end;
      rewrite Ep; cbn [bind]; (destruct ok; cbn [negb]; [|eexists _, _; split; [reflexivity|]; split; [exact Lr|rewrite <- (app_nil_r (starts up)); apply adds_start; [apply starts_ok|apply adds_nil]]]);
      destruct (Hok eq_refl) as [_ Hc']; clear Hok; (assert (Hle : c' <= count) by (rewrite Hc'; etransitivity; [apply filter_len|rewrite firstn_length; lia])); clear Hc';
      assert (P' := pre_count _ _ _ _ _ _ _ _ psi' c' _ P Hle (Permutation_length Hperm) (fun E => Hone (p_one _ _ _ _ _ _ _ _ _ _ _ _ P E)));
      rewrite <- (Permutation_length Hperm) in Lpsi; clear P Hone Hperm Ep Hle Hcl; (eapply step_ok; [exact IH1|exact P'|]).
    + destruct (halt_ok O free box psi' (n_facets range) 0 (map (midpoint box) (seq 0 range)) ltac:(lia)) as [b Eb]. rewrite Eb. cbn [bind].
      assert (Nil : exists evs refs', Ret (starts up, refs) = Ret (evs, refs') /\ length refs' = length up /\ good evs) by (eexists _, _; split; [reflexivity|]; split; [exact Lr|rewrite <- (app_nil_r (starts up)); apply adds_start; [apply starts_ok|apply adds_nil]]).
      destruct b; [|exact Nil]. destruct S eqn:ES.
      * assert (Ed : Datatypes.S (Datatypes.S d) = range). { pose proof (p_top _ _ _ _ _ _ _ _ _ _ _ _ P') as T. destruct up; [|discriminate]. unfold top_ok in T. clear - T. destruct K; destruct T; try congruence. }
        rewrite Ed, Nat.eqb_refl. cbn [assert_]. exact Nil.
      * destruct (whole_ok O range order dom K HO Hord Hrange HK HKr (Datatypes.S (Datatypes.S d)) 0 up refs free psi' c' box ltac:(lia) P') as (evs & refs' & E & L & A). rewrite E. cbn [bind fst snd]. eexists _, _. split; [reflexivity|]. split; [exact L|apply adds_start; [apply starts_ok|exact A]].
    + pose proof default_tol_pos as HT. destruct (split_ok range free box (p_free _ _ _ _ _ _ _ _ _ _ _ _ P')) as (ind & Ei & Hir & Hif); [rewrite (p_dim _ _ _ _ _ _ _ _ _ _ _ _ P'); lia|intros e He; pose proof (need_ext _ _ _ _ _ _ _ _ _ _ _ _ P' e He); lra|]. rewrite Ei.
      destruct (IHk _ _ _ _ _ _ _ (pre_split _ _ _ _ _ refs _ _ _ _ ind _ P' Hif Hir Lr (or_introl eq_refl))) as (e1 & r1 & E1 & L1 & A1). rewrite E1. cbn [bind fst snd].
      destruct (IHk _ _ _ _ _ _ _ (pre_split _ _ _ _ _ r1 _ _ _ _ ind _ P' Hif Hir L1 (or_intror eq_refl))) as (e2 & r2 & E2 & L2 & A2). rewrite E2. cbn [bind fst snd].
      eexists _, _. split; [reflexivity|]. split; [exact L2|]. apply adds_start; [apply starts_ok|]. apply adds_clear; assumption.
Qed.
End Construct.
