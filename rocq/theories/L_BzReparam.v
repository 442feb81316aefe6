(** Lemmas for the Bezier reparameterization: intervals. *)
From Coq Require Import Reals List Lia Lra Permutation Arith ZArith.
From Verif Require Import M_BzReparam S_BzReparam S_General S_Mesh S_Roots L_Real L_BBox L_Point L_Mesh L_Roots L_General L_General2 L_General3.
Import ListNotations.
Local Close Scope Z_scope. Local Close Scope nat_scope. Local Open Scope R_scope.

(** An outcome that may be undefined only if U. *)
Definition okub {A} (U : Prop) (o : outcome A) (Q : A -> Prop) : Prop := match o with Ret x => Q x | UB => U | _ => False end.
Lemma okub_bind {A B} U (o : outcome A) (f : A -> outcome B) Q R : okub U o Q -> (forall x, Q x -> okub U (f x) R) -> okub U (bind o f) R.
Proof. destruct o; cbn; auto. Qed.
Lemma okub_impl {A} U (o : outcome A) (Q R : A -> Prop) : okub U o Q -> (forall x, Q x -> R x) -> okub U o R.
Proof. destruct o; cbn; auto. Qed.
Lemma okub_weak {A} (U V : Prop) (o : outcome A) (Q : A -> Prop) : okub U o Q -> (U -> V) -> okub V o Q.
Proof. destruct o; cbn; tauto. Qed.
Lemma okub_ret {A} (U : Prop) (o : outcome A) (Q : A -> Prop) : okub U o Q -> ~ U -> exists x, o = Ret x /\ Q x.
Proof. destruct o; cbn; try tauto. eauto. Qed.
Lemma okub_of {A} (U : Prop) (o : outcome A) (Q : A -> Prop) : (exists x, o = Ret x /\ Q x) -> okub U o Q.
Proof. intros (x & -> & H). exact H. Qed.
Lemma foreach_ub {B E} U (f : B -> outcome (list E)) (Q : B -> list E -> Prop) : forall l, (forall x, In x l -> okub U (f x) (Q x)) ->
  okub U (foreach f l) (fun r => exists es, r = concat es /\ Forall2 Q l es).
Proof.
  induction l as [|x l IH]; intros H; cbn [foreach]; [exists []; split; [reflexivity|constructor]|]. eapply okub_bind; [apply H; left; reflexivity|]. intros e He.
  eapply okub_bind; [apply IH; intros; apply H; right; assumption|]. intros r (es & -> & F). exists (e :: es). split; [reflexivity|constructor; assumption].
Qed.
Lemma foldM_ub {A B} U (f : A -> B -> outcome A) (I : A -> Prop) : forall l a, I a -> (forall a x, In x l -> I a -> okub U (f a x) I) -> okub U (foldM f l a) I.
Proof.
  induction l as [|x l IH]; intros a Ha H; cbn [foldM]; [exact Ha|]. eapply okub_bind; [apply H; [left; reflexivity|exact Ha]|]. intros a' Ha'. apply IH; [exact Ha'|]. intros; apply H; [right; assumption|assumption].
Qed.
Lemma combine_fst_snd {A B} : forall l : list (A * B), combine (map fst l) (map snd l) = l.
Proof. induction l as [|[a b] l IH]; [reflexivity|]. cbn [map combine fst snd]. rewrite IH. reflexivity. Qed.
Lemma ins_at_length {A} (v : list A) k x : length (ins_at v k x) = S (length v).
Proof. unfold ins_at. rewrite app_length. cbn [length]. rewrite firstn_length, skipn_length. lia. Qed.
Lemma ins_at_In {A} (v : list A) k x y : In y (ins_at v k x) <-> y = x \/ In y v.
Proof. unfold ins_at. rewrite in_app_iff. cbn [In]. rewrite <- (firstn_skipn k v) at 3. rewrite in_app_iff. intuition congruence. Qed.
Lemma ins_at_inj {A} (a b : list A) k x y : length a = length b -> ins_at a k x = ins_at b k y -> a = b /\ x = y.
Proof.
  intros L E. unfold ins_at in E. assert (Lf : length (firstn k a) = length (firstn k b)) by (rewrite !firstn_length; lia).
  apply app_eq_app in E as (l & [[E1 E2]|[E1 E2]]).
  - assert (l = []) as -> by (apply (f_equal (@length A)) in E1; rewrite app_length in E1; destruct l; [reflexivity|cbn in E1; lia]). rewrite app_nil_r in E1. cbn [app] in E2. injection E2 as <- E2. split; [|reflexivity].
    rewrite <- (firstn_skipn k a), <- (firstn_skipn k b), E1, E2. reflexivity.
  - assert (l = []) as -> by (apply (f_equal (@length A)) in E1; rewrite app_length in E1; destruct l; [reflexivity|cbn in E1; lia]). rewrite app_nil_r in E1. cbn [app] in E2. injection E2 as -> E2. split; [|reflexivity].
    rewrite <- (firstn_skipn k a), <- (firstn_skipn k b), E1, E2. reflexivity.
Qed.
Lemma ins_at_split {A} (d : A) (v : list A) k : (k < length v)%nat -> v = ins_at (firstn k v ++ skipn (S k) v) k (nth k v d).
Proof.
  revert k. induction v as [|a v IH]; intros [|k] H; cbn [length] in H; try lia; [reflexivity|]. change (a :: v = a :: ins_at (firstn k v ++ skipn (S k) v) k (nth k v d)). f_equal. apply IH. lia.
Qed.
Lemma in_cube_add n x k r : in_cube n x -> 0 <= r <= 1 -> in_cube (S n) (ins_at x k r).
Proof. intros [L F] Hr. split; [rewrite ins_at_length; lia|]. rewrite Forall_forall in *. intros y Hy. apply ins_at_In in Hy as [->|Hy]; auto. Qed.

Section Intervals.
Context {P : Type}.
Variable Z : bz_oracles P.
Hypothesis HZ : bz_sound Z.

(** The lemmas on general objects are used for the unit interval and n polynomials. *)
Definition FO : oracles := mk_oracles (fun _ => 0) (fun _ _ _ => (0, false)) (fun _ _ _ _ => (0, 0, false)) (fun _ _ _ => (0%Z, 0%Z)) (fun _ _ _ _ _ => []) (z_sort Z) (z_cheb Z) (mk_psi [] 0%Z) [0].
Definition fo (n : nat) : obj := mk_obj 1 false [true] (repeat (mk_psi [] 0%Z) n) n (mk_box [0] [1]) 0.
Lemma FO_sound : sound FO 1.
Proof. constructor; cbn; [constructor|apply HZ|apply HZ|reflexivity]. Qed.
Lemma fo_wf n : wf_obj 1 (fo n).
Proof. constructor; cbn; try reflexivity; try lia; try congruence; [rewrite repeat_length; lia|]. unfold extent, hi, lo. cbn. pose proof default_tol_pos. lra. Qed.
Lemma fo_tol n : compute_tolerance (fo n) = default_tol.
Proof. unfold compute_tolerance, tol_update. assert (E : extent (l_box (fo n)) (l_dir (fo n)) = 1) by (unfold extent, hi, lo; cbn; lra). rewrite E, Rmult_1_r. apply Rmax_left. lra. Qed.
Notation inside01 := (fun r : R => 0 <= r <= 1).
Lemma adjustZ n mid entries : mids (fo n) mid -> Permutation entries ([(0, (-1)%Z); (1, (-1)%Z)] ++ mid) ->
  exists mid', adjust_roots (z_sort Z) default_tol 0 1 (ent entries) = Ret (ent (full_list (fo n) mid')) /\ mids (fo n) mid' /\ Permutation (map snd mid') (map snd mid).
Proof.
  intros M Hp. destruct (adjust_full FO 1 FO_sound (fo n) [(0, (-1)%Z); (1, (-1)%Z)] mid (fo_wf n) M (Permutation_refl _) entries Hp) as (mid' & E & H). exists mid'. split; [|exact H].
  rewrite fo_tol in E. exact E.
Qed.
Definition goodr (n : nat) (ri : roots_intervals) : Prop := good_ri (fo n) ri.
Definition good (l : blevel P) (iv : intervals) : Prop := goodr (length (v_phi l)) (iv_ri iv) /\ length (iv_active iv) = (length (ri_roots (iv_ri iv)) - 1)%nat.
Lemma goodr_inside n ri : goodr n ri -> Forall inside01 (ri_roots ri).
Proof. intros G. exact (good_inside 1 (fo n) ri (fo_wf n) G). Qed.
Lemma roots_inside l p pt : Forall inside01 (bz_roots Z l p pt).
Proof. unfold bz_roots. destruct (z_line Z p pt (v_dir l)); [|constructor]. pose proof (bs_roots Z HZ p pt (v_dir l)) as F. rewrite Forall_forall in *. intros r Hr. apply filter_In in Hr. apply F, Hr. Qed.

Definition tagp (f : nat * P -> list R) (l : list (nat * P)) : list (R * BinNums.Z) := flat_map (fun ip => map (fun r => (r, Z.of_nat (fst ip))) (f ip)) l.
Lemma tag_ids i rs : Forall (fun e : R * BinNums.Z => (-1 <= snd e)%Z) (map (fun r => (r, Z.of_nat i)) rs).
Proof. rewrite Forall_forall. intros e He. apply in_map_iff in He as (r & <- & _). cbn [snd]. lia. Qed.
Lemma foldM_tagp (f : nat * P -> list R) : forall l A,
  foldM (fun ri ip => add_roots ri (map (fun r => (r, Z.of_nat (fst ip))) (f ip))) l (ent A) = Ret (ent (A ++ tagp f l)).
Proof.
  induction l as [|ip l IH]; intros A; cbn [foldM]; [unfold tagp; cbn [flat_map]; rewrite app_nil_r; reflexivity|]. rewrite add_ent by apply tag_ids. cbn [bind]. rewrite IH. unfold tagp. cbn [flat_map]. rewrite app_assoc. reflexivity.
Qed.
Lemma foldM_tagp_ub U (g : nat * P -> outcome (list R)) (Q : nat * P -> list R -> Prop) : forall l, (forall ip, In ip l -> okub U (g ip) (Q ip)) -> forall A,
  okub U (foldM (fun ri ip => roots <- g ip ;; add_roots ri (map (fun r => (r, Z.of_nat (fst ip))) roots)) l (ent A))
    (fun ri => exists f, (forall ip, In ip l -> Q ip (f ip)) /\ ri = ent (A ++ tagp f l)).
Proof.
  intros l H A. set (f := fun ip => match g ip with Ret rs => rs | _ => [] end).
  assert (K : forall l' A, (forall ip, In ip l' -> In ip l) -> okub U (foldM (fun ri ip => roots <- g ip ;; add_roots ri (map (fun r => (r, Z.of_nat (fst ip))) roots)) l' (ent A)) (fun ri => (forall ip, In ip l' -> Q ip (f ip)) /\ ri = ent (A ++ tagp f l'))).
  { induction l' as [|ip l' IH]; intros B Hs; cbn [foldM]; [split; [intros ? []|unfold tagp; cbn [flat_map]; rewrite app_nil_r; reflexivity]|].
    pose proof (H ip (Hs ip (or_introl eq_refl))) as Hi. destruct (g ip) as [rs| | |] eqn:E; cbn [okub bind] in *; try tauto. rewrite add_ent by apply tag_ids. cbn [bind].
    eapply okub_impl; [apply IH; intros; apply Hs; right; assumption|]. intros ri [H1 ->]. assert (Ef : f ip = rs) by (unfold f; rewrite E; reflexivity). split.
    - intros ip' [<-|Hin]; [rewrite Ef; exact Hi|apply H1; exact Hin].
    - unfold tagp. cbn [flat_map]. rewrite Ef, app_assoc. reflexivity. }
  eapply okub_impl; [apply (K l A); auto|]. intros ri [H1 ->]. exists f. auto.
Qed.
Lemma in_indexed (l : blevel P) i p : In (i, p) (indexed l) -> (i < length (v_phi l))%nat /\ nth_error (v_phi l) i = Some p.
Proof.
  unfold indexed. intros H. assert (K : forall phi a, In (i, p) (combine (seq a (length phi)) phi) -> (a <= i)%nat /\ nth_error phi (i - a) = Some p).
  { induction phi as [|q phi IH]; intros a; cbn [length seq combine]; [intros []|]. intros [E|E]; [injection E as -> ->; rewrite Nat.sub_diag; split; [lia|reflexivity]|]. apply IH in E as [E1 E2]. split; [lia|]. replace (i - a)%nat with (S (i - S a)) by lia. exact E2. }
  apply K in H as [_ H]. rewrite Nat.sub_0_r in H. split; [|exact H]. apply nth_error_Some. congruence.
Qed.
Lemma map_fst_indexed (l : blevel P) : map fst (indexed l) = seq 0 (length (v_phi l)).
Proof. unfold indexed. generalize 0%nat. induction (v_phi l) as [|q phi IH]; intros a; cbn [length seq combine map fst]; [reflexivity|]. rewrite IH. reflexivity. Qed.
Lemma tagp_mids (l : blevel P) f : (forall ip, In ip (indexed l) -> Forall inside01 (f ip)) -> mids (fo (length (v_phi l))) (tagp f (indexed l)).
Proof.
  intros H. unfold mids. rewrite Forall_forall. intros e He. apply in_flat_map in He as ([i p] & Hi & He). apply in_map_iff in He as (r & <- & Hr). cbn [fst snd]. split.
  - specialize (H _ Hi). rewrite Forall_forall in H. exact (H r Hr).
  - apply in_indexed in Hi as [Hi _]. cbn [fo l_count]. lia.
Qed.
Lemma tagp_len f : forall l, length (tagp f l) = list_sum (map (fun ip => length (f ip)) l).
Proof. induction l as [|i l IH]; [reflexivity|]. unfold tagp in *. cbn [flat_map map]. rewrite app_length, map_length, IH. reflexivity. Qed.
Lemma tagp_cnt (l : blevel P) f i p : In (i, p) (indexed l) -> cnt i (tagp f (indexed l)) = length (f (i, p)).
Proof.
  unfold indexed. intros H. assert (K : forall phi a, In (i, p) (combine (seq a (length phi)) phi) -> cnt i (tagp f (combine (seq a (length phi)) phi)) = length (f (i, p))).
  { assert (C0 : forall phi a, (i < a)%nat -> cnt i (tagp f (combine (seq a (length phi)) phi)) = 0%nat).
    { induction phi as [|q phi IH]; intros a Ha; [reflexivity|]. cbn [length seq combine]. unfold tagp, cnt. cbn [flat_map]. rewrite map_app, filter_app, app_length. fold (tagp f (combine (seq (S a) (length phi)) phi)). fold (cnt i (tagp f (combine (seq (S a) (length phi)) phi))).
      rewrite IH by lia. rewrite map_map. cbn [snd fst]. induction (f (a, q)) as [|r rs IHr]; [reflexivity|]. cbn [map filter]. destruct (Z.eqb_spec (Z.of_nat a) (Z.of_nat i)); [lia|exact IHr]. }
    induction phi as [|q phi IH]; intros a Hin; [destruct Hin|]. cbn [length seq combine] in *. unfold tagp, cnt. cbn [flat_map]. rewrite map_app, filter_app, app_length. fold (tagp f (combine (seq (S a) (length phi)) phi)). fold (cnt i (tagp f (combine (seq (S a) (length phi)) phi))).
    rewrite map_map. cbn [snd fst]. destruct Hin as [E|Hin].
    - injection E as -> ->. rewrite C0 by lia. rewrite Nat.add_0_r. clear IH C0 H. induction (f (i, p)) as [|r rs IHr]; [reflexivity|]. cbn [map filter]. rewrite Z.eqb_refl. cbn [length]. f_equal. exact IHr.
    - assert (Ha : (a < i)%nat). { clear -Hin. apply in_combine_l in Hin. apply in_seq in Hin. lia. }
      rewrite IH by exact Hin. assert (E0 : length (filter (fun k => (k =? Z.of_nat i)%Z) (map (fun _ : R => Z.of_nat a) (f (a, q)))) = 0%nat); [|rewrite E0; reflexivity].
      induction (f (a, q)) as [|r rs IHr]; [reflexivity|]. cbn [map filter]. destruct (Z.eqb_spec (Z.of_nat a) (Z.of_nat i)); [lia|exact IHr]. }
  apply K. exact H.
Qed.

Lemma wide_len : forall roots, length (wide roots) = (length roots - 1)%nat.
Proof. induction roots as [|x0 roots IH]; [reflexivity|]. destruct roots as [|x1 roots]; [reflexivity|]. cbn [wide length] in *. lia. Qed.
Lemma changes_len : forall act, length (changes act) = length act.
Proof. induction act as [|a act IH]; [reflexivity|]. destruct act as [|b act]; [reflexivity|]. cbn [changes length] in *. lia. Qed.
(** The intervals at a point: the ends and all the roots. *)
Lemma all_intervals_ok l pt : exists iv, all_intervals Z l pt = Ret iv /\ good l iv /\ iv_point iv = pt /\ iv_active iv = wide (ri_roots (iv_ri iv)) /\
  forall i p, In (i, p) (indexed l) -> cnt i (ri_roots_ids (iv_ri iv)) = length (bz_roots Z l p pt).
Proof.
  unfold all_intervals. change ri_empty with (ent []). rewrite add_ent by (repeat constructor; cbn [snd]; lia). cbn [bind app].
  rewrite (foldM_tagp (fun ip => bz_roots Z l (snd ip) pt)). cbn [bind]. set (T := tagp _ (indexed l)).
  assert (M : mids (fo (length (v_phi l))) T) by (apply tagp_mids; intros; apply roots_inside).
  destruct (adjustZ _ T ([(0, (-1)%Z); (1, (-1)%Z)] ++ T) M (Permutation_refl _)) as (mid & E & Hm & Hp). cbn [app] in E. change ([(0, (-1)%Z); (1, (-1)%Z)] ++ T) with ((0, (-1)%Z) :: (1, (-1)%Z) :: T). rewrite E. cbn [bind].
  unfold assert_. cbn [ent ri_roots]. rewrite map_length, full_len. destruct (Nat.ltb_spec 1 (length mid + 2)); [|lia]. eexists. split; [reflexivity|]. cbn [iv_ri iv_point iv_active]. split; [split|split; [reflexivity|split; [reflexivity|]]].
  - exists mid. split; [reflexivity|exact Hm].
  - cbn [iv_active iv_ri]. rewrite wide_len. reflexivity.
  - intros i p Hi. cbn [ri_roots_ids ent]. rewrite cnt_full. rewrite (cnt_perm i mid T Hp). unfold T. rewrite (tagp_cnt l _ i p Hi). reflexivity.
Qed.

Definition interior (r : R) : bool := negb (tol_equal default_tol r 0 || tol_equal default_tol r 1).
(** Undefined behaviour at the level l: the direction is out of the point, and a polynomial has not as many roots in the interior of the line as the reference. *)
Definition mismatch (l : blevel P) (ref : intervals) (pt : list R) : Prop :=
  (v_dim l - 1 <= Nat.max (v_base l) (v_dim l - 2))%nat /\ exists i p, In (i, p) (indexed l) /\ length (filter interior (bz_roots Z l p pt)) <> cnt i (ri_roots_ids (iv_ri ref)).
Lemma complete_roots_inside l ref p rs pt : Forall inside01 (complete_roots Z l ref p rs pt).
Proof.
  unfold complete_roots. set (new := filter _ (bz_roots Z l p pt)). assert (F : Forall inside01 new) by (unfold new; pose proof (roots_inside l p pt) as F; rewrite Forall_forall in *; intros x Hx; apply filter_In in Hx; apply F, Hx).
  assert (I0 : 0 <= 0 <= 1) by lra. assert (I1 : 0 <= 1 <= 1) by lra. destruct (_ <? _)%nat; [|exact F]. destruct (xorb _ _).
  - apply Forall_app. split; [exact F|]. rewrite Forall_forall. intros x Hx. apply repeat_spec in Hx. subst x. destruct (tol_equal _ _ _); assumption.
  - destruct (_ && _)%bool; [|exact F]. destruct (_ =? _)%nat; [apply Forall_app; split; [exact F|repeat constructor; lra]|]. destruct (_ =? _)%nat; [|exact F].
    apply Forall_app. split; [rewrite Forall_forall in *; intros x Hx; apply F, rsort_in; exact Hx|]. constructor; [destruct (Bool.eqb _ _); assumption|constructor].
Qed.
Lemma try_inside (Q : list R -> Prop) n f : forall ts last, Q last -> (forall t, Q (f t)) -> Q (try_roots n f ts last).
Proof. induction ts as [|t ts IH]; intros last Hl Hf; cbn [try_roots]; [exact Hl|]. destruct (_ =? _)%nat; [apply Hf|apply IH; [apply Hf|exact Hf]]. Qed.
Lemma similar_roots_ok l ref mid i p pt : iv_ri ref = ent (full_list (fo (length (v_phi l))) mid) -> mids (fo (length (v_phi l))) mid -> In (i, p) (indexed l) ->
  okub (mismatch l ref pt) (similar_roots Z l ref i p pt) (fun rs => length rs = cnt i mid /\ Forall inside01 rs).
Proof.
  intros E M Hi. unfold similar_roots. set (n := length (v_phi l)) in *. assert (EL : ri_roots (iv_ri ref) = map fst (full_list (fo n) mid) /\ ri_func_ids (iv_ri ref) = map snd (full_list (fo n) mid)) by (rewrite E; split; reflexivity).
  destruct EL as [-> ->]. unfold assert_. replace (length (map fst (full_list (fo n) mid)) <=? length (map snd (full_list (fo n) mid)))%nat with true by (rewrite !map_length, Nat.leb_refl; reflexivity). rewrite combine_fst_snd. set (rr := map fst (filter _ (full_list (fo n) mid))).
  assert (Lr : length rr = cnt i mid) by (unfold rr; rewrite (wanted_cnt (full_list (fo n) mid) i), cnt_full; reflexivity).
  assert (Fr : Forall inside01 rr).
  { pose proof (goodr_inside n (iv_ri ref) (ex_intro _ mid (conj E M))) as F. rewrite E in F. cbn [ent ri_roots] in F. rewrite Forall_forall in *. intros r Hr. apply in_map_iff in Hr as (e & <- & He). apply filter_In in He as [He _]. apply F. apply in_map. exact He. }
  clearbody rr. destruct rr as [|r0 rr']; [cbn; split; [exact Lr|constructor]|]. cbv beta iota zeta. set (rr := r0 :: rr') in *.
  pose proof (complete_roots_inside l ref p rr pt) as Fc. set (new := complete_roots Z l ref p rr pt) in *. destruct (Nat.eqb_spec (length new) (length rr)) as [El|El]; [cbn; split; [lia|exact Fc]|].
  destruct (Nat.ltb_spec (Nat.max (v_base l) (v_dim l - 2)) (v_dim l - 1)) as [Hd|Hd].
  - set (dir := Nat.max (v_base l) (v_dim l - 2)) in *. cbn [okub]. match goal with |- context [if (length (?r2) =? length rr)%nat then ?r2 else rr] => set (r2' := r2) end.
    destruct (Nat.eqb_spec (length r2') (length rr)); [|split; assumption]. split; [lia|]. unfold r2'. match goal with |- context [if (length ?r1 =? length rr)%nat then ?r1 else _] => set (r1' := r1) end.
    assert (F1 : Forall inside01 r1') by (unfold r1'; apply try_inside; [exact Fc|intros; apply roots_inside]).
    destruct (_ =? _)%nat; [exact F1|]. apply try_inside; [exact F1|intros; apply roots_inside].
  - cbn [okub]. split; [exact Hd|]. exists i, p. split; [exact Hi|]. rewrite E. cbn [ent ri_roots_ids]. rewrite cnt_full, <- Lr. intros Eq. apply El. unfold new, complete_roots. fold interior.
    rewrite Eq. destruct (Nat.ltb_spec (length rr) (length rr)); [lia|exact Eq].
Qed.
(** The intervals at another point are like the reference. *)
Definition alike (ref iv : intervals) : Prop := Forall inside01 (ri_roots (iv_ri iv)) /\ length (ri_roots (iv_ri iv)) = length (ri_roots (iv_ri ref)) /\ iv_active iv = iv_active ref.
Lemma similar_ok l ref pt : good l ref -> okub (mismatch l ref pt) (similar_intervals Z l ref pt) (alike ref).
Proof.
  intros [(mid & E & M) _]. pose proof (goodr_inside _ (iv_ri ref) (ex_intro _ mid (conj E M))) as Fi. unfold similar_intervals. set (n := length (v_phi l)) in *.
  destruct (Nat.eqb_spec (length (ri_roots (iv_ri ref))) 2); [cbn; split; [exact Fi|split; reflexivity]|].
  change ri_empty with (ent []). eapply okub_bind; [apply foldM_tagp_ub with (g := fun ip => similar_roots Z l ref (fst ip) (snd ip) pt) (Q := fun ip rs => length rs = cnt (fst ip) mid /\ Forall inside01 rs)|].
  - intros [i p] Hi. cbn [fst snd]. apply similar_roots_ok; assumption.
  - intros ri (f & Hf & ->). cbn [app]. set (T := tagp f (indexed l)).
    assert (M' : mids (fo n) T) by (apply tagp_mids; intros; apply Hf; assumption).
    assert (Lt : length T = length mid).
    { unfold T. rewrite tagp_len, <- (cnt_sum n mid). 2: { eapply Forall_impl; [|exact M]. intros e He. apply He. }
      unfold n. rewrite <- map_fst_indexed, map_map. f_equal. apply map_ext_in. intros ip Hip. apply Hf. exact Hip. }
    rewrite add_ent by (repeat constructor; cbn [snd]; lia). cbn [bind]. unfold assert_. cbn [ent ri_roots]. rewrite map_length, app_length. cbn [length].
    assert (Er : length (ri_roots (iv_ri ref)) = (length mid + 2)%nat) by (rewrite E; cbn [ent ri_roots]; rewrite map_length, full_len; reflexivity). rewrite Er.
    destruct (Nat.eqb_spec (length T + 2) (length mid + 2)); [|lia]. change (mk_ri (map fst ?x) (map snd ?x) ?x) with (ent x).
    destruct (adjustZ n T (T ++ [(0, (-1)%Z); (1, (-1)%Z)]) M' (Permutation_app_comm _ _)) as (mid' & Ea & Ma & Pa). rewrite Ea. cbn [bind okub]. unfold alike. cbn [iv_ri iv_active].
    split; [apply (goodr_inside n); exists mid'; split; [reflexivity|exact Ma]|]. split; [|reflexivity]. cbn [ent ri_roots]. rewrite map_length, full_len.
    apply Permutation_length in Pa. rewrite !map_length in Pa. lia.
Qed.
End Intervals.
