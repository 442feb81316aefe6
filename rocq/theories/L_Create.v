(** Lemmas for the reparameterization of unfitted domains. *)
From Coq Require Import Reals List Lia Lra Permutation Arith ZArith Sorting.Sorted.
From Verif Require Import S_Domain L_Grid L_Domain L_DomainQ L_DomainT M_Reparam M_General S_General S_Create S_Mesh S_Orient S_Point L_Real L_BBox L_Point L_TensorNat L_Mesh L_Mesh3 L_Mesh5 L_Orient L_Orient2 L_Orient3 L_Reparam L_Reparam2 L_Reparam3.
Import ListNotations.
Local Close Scope Z_scope. Local Close Scope R_scope. Local Open Scope nat_scope.

(** The boxes of the cells of a grid. *)
Lemma grid_box g id : usable_grid g -> cell_id g id -> exists b, get_cell_domain g id = Ret b /\ length (bmin b) = length (breaks g) /\ length (bmax b) = length (breaks g) /\
  forall d, d < length (breaks g) -> (nth d (bmin b) 0 < nth d (bmax b) 0)%R.
Proof.
  intros ((brks & Hne & Hmk) & HI & _) Hid. destruct (make_grid_facts _ _ Hne Hmk) as [Hg _]. destruct (C08_lemma brks g Hne Hmk HI) as (H & _).
  destruct (H id Hid) as (lo & hi & E & (L & P) & (W1 & W2 & _)). exists (mk_box lo hi). split; [exact E|]. cbn [bmin bmax].
  assert (length lo = length (breaks g)) by (rewrite W1; apply min_length; exact Hg).
  split; [assumption|]. split; [congruence|]. intros d Hd. apply P. lia.
Qed.
Definition boxes_of (g : grid) (ids : list Z) (boxes : list bbox) : Prop := Forall2 (fun id b => get_cell_domain g id = Ret b) ids boxes.
Lemma boxes_exist g ids : usable_grid g -> Forall (cell_id g) ids -> exists boxes, boxes_of g ids boxes /\ M_Mesh.mapM (get_cell_domain g) ids = Ret boxes /\
  Forall (fun b => length (bmin b) = length (breaks g) /\ length (bmax b) = length (breaks g) /\ forall d, d < length (breaks g) -> (nth d (bmin b) 0 < nth d (bmax b) 0)%R) boxes.
Proof.
  intros Hu H. induction H as [|id ids Hid _ (boxes & IH1 & IH2 & IH3)]; [exists []; repeat constructor|]. destruct (grid_box g id Hu Hid) as (b & E & F). exists (b :: boxes).
  split; [constructor; assumption|]. split; [cbn [M_Mesh.mapM]; rewrite E; cbn [bind]; rewrite IH2; reflexivity|]. constructor; assumption.
Qed.
Lemma regions_ok O grad fresh range (S : bool) D g : range = 2 \/ range = 3 -> sound O range -> d_grid D = g -> forall ids boxes, boxes_of g ids boxes -> Forall (large_box range) boxes ->
  forall m, vm (mesh_dim range S) m -> rangem range m -> exists m', reparam_cut O grad fresh range S D ids m = Ret m' /\ vm (mesh_dim range S) m' /\ rangem range m' /\ m_order m' = m_order m /\
    regions_added (mesh_dim range S) range (o_phi O) (10000 * eps)%R boxes m m' /\
    exists more, m_points m' = m_points m ++ more /\ Forall (fun p => Exists (fun b => in_box b p) boxes) more.
Proof.
  intros Hr HO HD ids boxes HB. induction HB as [|id b ids boxes Hb HB IH]; intros HL m V Rm; unfold reparam_cut; cbn [foldM].
  - exists m. split; [reflexivity|]. split; [exact V|]. split; [exact Rm|]. split; [reflexivity|]. split; [constructor|]. exists []. split; [rewrite app_nil_r; reflexivity|constructor].
  - inversion HL as [|? ? HL1 HL2]; subst x l. destruct V as (V0 & (n0 & Vn) & VR). rewrite HD, Hb. cbn [bind].
    destruct (general_ok O grad fresh range S m n0 b Hr HO HL1 (conj V0 (conj (ex_intro _ n0 Vn) VR)) Rm Vn) as (m1 & _ & k & np & ni & wi & E & V1 & Rm1 & RA & _). rewrite E. cbn [bind].
    destruct (IH HL2 m1 V1 Rm1) as (m' & E' & V' & Rm' & Eo & RA' & more & Ep & F). unfold reparam_cut in E'. rewrite HD in E'. exists m'. split; [exact E'|]. split; [exact V'|]. split; [exact Rm'|].
    assert (RA0 := RA). destruct RA0 as (Eo1 & Ep1 & _ & _ & _ & _ & _ & Fp & _). split; [congruence|]. split; [econstructor; eassumption|].
    exists (np ++ more). split; [rewrite Ep, Ep1, app_assoc; reflexivity|]. apply Forall_app. split; [eapply Forall_impl; [|exact Fp]; intros p Hp; left; exact Hp|eapply Forall_impl; [|exact F]; intros p Hp; right; exact Hp].
Qed.
(** Points of a lattice. *)
Lemma lattice_in cheb dim b m m' : (forall i n, i < n -> (0 <= cheb i n <= 1)%R) -> 2 <= m_order m -> 0 < dim -> length (bmin b) = dim -> (forall d, d < dim -> (nth d (bmin b) 0 < nth d (bmax b) 0)%R) ->
  lattice_added cheb dim b m m' -> exists new, m_points m' = m_points m ++ new /\ Forall (in_box b) new.
Proof.
  intros Hch Ho Hd Lb1 Hb (new & Eo & Ep & Ln & Lat & _). exists new. split; [exact Ep|]. apply Forall_forall. intros p Hp. apply (In_nth _ _ []) in Hp as (j & Hj & <-). rewrite Ln in Hj.
  destruct (position_surj dim (m_order m) j Hj) as (t & Ht & Et). rewrite <- Et. assert (Hl : length (nth (position (m_order m) t) new []) = dim) by (apply (Lat t 0 Ht Hd)).
  split; [rewrite Hl; symmetry; exact Lb1|]. rewrite Hl. intros d Hdd. destruct (Lat t d Ht Hdd) as [_ ->]. specialize (Hb d Hdd).
  assert (Hi : nth d t 0 < m_order m) by (destruct Ht as [Lt Ft]; rewrite Forall_forall in Ft; apply Ft; apply nth_In; rewrite Lt; exact Hdd).
  cbv zeta. set (c := (if m_order m <? 7 then (INR (nth d t 0%nat) / INR (m_order m - 1))%R else cheb (nth d t 0%nat) (m_order m)) : R). assert (Hc : (0 <= c <= 1)%R).
  { unfold c. destruct (m_order m <? 7); [|apply Hch; exact Hi]. assert (0 < INR (m_order m - 1))%R by (apply lt_0_INR; lia). assert (INR (nth d t 0%nat) <= INR (m_order m - 1))%R by (apply le_INR; lia). pose proof (pos_INR (nth d t 0%nat)).
    split; [apply Rmult_le_pos; [assumption|left; apply Rinv_0_lt_compat; assumption]|]. apply (Rmult_le_reg_r (INR (m_order m - 1))); [assumption|]. unfold Rdiv. rewrite Rmult_assoc, Rinv_l by lra. lra. }
  nra.
Qed.
Lemma lattices_ok cheb dim : dim = 2 \/ dim = 3 -> (forall i n, i < n -> (0 <= cheb i n <= 1)%R) -> forall boxes, Forall (fun b => length (bmin b) = dim /\ length (bmax b) = dim /\ forall d, d < dim -> (nth d (bmin b) 0 < nth d (bmax b) 0)%R) boxes ->
  forall m, vm dim m -> rangem dim m -> exists m', add_full_cells cheb dim m boxes true = Ret m' /\ vm dim m' /\ rangem dim m' /\ m_order m' = m_order m /\ lattices_added cheb dim boxes m m' /\
    exists more, m_points m' = m_points m ++ more /\ Forall (fun p => Exists (fun b => in_box b p) boxes) more.
Proof.
  intros Hd Hch boxes HB. induction HB as [|b boxes (B1 & B2 & B3) HB IH]; intros m V Rm; cbn [add_full_cells].
  - exists m. split; [reflexivity|]. split; [exact V|]. split; [exact Rm|]. split; [reflexivity|]. split; [constructor|]. exists []. split; [rewrite app_nil_r; reflexivity|constructor].
  - destruct (C45_proof cheb dim m b true Hd V B1 B2) as (m1 & new & E & LA). assert (LA' : lattice_added cheb dim b m m1) by (exists new; exact LA).
    assert (V1 : vm dim m1) by (eapply valid_full_cell; eassumption). destruct (lattice_in cheb dim b m m1 Hch (proj1 V) ltac:(lia) B1 B3 LA') as (nw & Ep1 & Fn).
    assert (Rm1 : rangem dim m1) by (unfold rangem; rewrite Ep1; apply Forall_app; split; [exact Rm|eapply Forall_impl; [|exact Fn]; intros p [Lp _]; congruence]).
    rewrite E. cbn [bind]. destruct (IH m1 V1 Rm1) as (m' & E' & V' & Rm' & Eo & LA2 & more & Ep & F). exists m'. split; [exact E'|]. split; [exact V'|]. split; [exact Rm'|].
    split; [destruct LA as (Eo1 & _); congruence|]. split; [econstructor; eassumption|]. exists (nw ++ more). split; [rewrite Ep, Ep1, app_assoc; reflexivity|].
    apply Forall_app. split; [eapply Forall_impl; [|exact Fn]; intros p Hp; left; exact Hp|eapply Forall_impl; [|exact F]; intros p Hp; right; exact Hp].
Qed.
(** The cells of a status among the requested ones. *)
Lemma targets_ok g sign ccell cfacet D s st cells : built g sign ccell cfacet D s -> st = Ccut \/ st = Cfull -> Forall (cell_id g) cells ->
  exists all l, get_cells D st = Ret all /\ get_cells_target D st (zsort cells) = Ret l /\ StronglySorted Z.le l /\
    Permutation l (filter (fun id => if in_dec Z.eq_dec id all then true else false) cells) /\ Forall (cell_id g) l.
Proof.
  intros HB Hst HC. destruct (C13_body g sign ccell cfacet D s HB) as (F & E & C & EF & EE & EC & _). assert (exists all, get_cells D st = Ret all) as (all & EA) by (destruct Hst as [-> | ->]; eauto).
  assert (HC' : Forall (cell_id g) (zsort cells)) by (apply (Permutation_Forall (Permutation_sym (zsort_perm cells))); exact HC).
  destruct (C15_body g sign ccell cfacet D s HB st (zsort cells) all HC' EA) as (l & El & Sl & Pl). exists all, l. split; [exact EA|]. split; [exact El|]. split; [exact Sl|].
  assert (PF : forall f : Z -> bool, Permutation (filter f (zsort cells)) (filter f cells)).
  { clear. intros f. generalize (zsort_perm cells). induction 1 as [|x l1 l2 _ IH|x y l1|l1 l2 l3 _ IH1 _ IH2]; cbn [filter].
    - constructor.
    - destruct (f x); [apply perm_skip|]; exact IH.
    - destruct (f x), (f y); try apply Permutation_refl. apply perm_swap.
    - exact (Permutation_trans IH1 IH2). }
  assert (P : Permutation l (filter (fun id => if in_dec Z.eq_dec id all then true else false) cells)) by (eapply Permutation_trans; [exact Pl|apply PF]). split; [exact P|].
  apply (Permutation_Forall (Permutation_sym P)). apply Forall_forall. intros x Hx. apply filter_In in Hx as [Hx _]. rewrite Forall_forall in HC. apply HC. exact Hx.
Qed.
