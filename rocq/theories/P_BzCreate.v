(** Theorems for the reparameterization of unfitted domains given by a Bezier function (C97). *)
From Coq Require Import Reals List Lia Lra Permutation Arith ZArith Sorting.Sorted.
From Verif Require Import S_Domain L_Grid L_Domain L_DomainQ L_DomainT M_Reparam M_General M_BzReparam S_BzReparam S_General S_Create S_Mesh S_Orient S_Point L_Real L_BBox L_Point L_TensorNat L_Mesh L_Mesh3 L_Mesh5 L_Orient L_Orient2 L_Orient3 L_Reparam L_Reparam2 L_Reparam3 L_Create L_BzReparam3 P_General P_BzReparam.
Import ListNotations.
Local Close Scope Z_scope. Local Close Scope R_scope. Local Open Scope nat_scope.

Section Create.
Context {P : Type}.
Variables (Z0 : bz_oracles P) (value : P -> list R -> R) (grad : P -> list R -> list R) (fresh : nat -> nat -> list R) (range : nat) (lev : bool) (rescale : P -> bbox -> P) (p : P).
Hypothesis HZ : bz_sound Z0.
Hypothesis Hr : range = 2 \/ range = 3.
Notation dim := (mesh_dim range lev).
Definition grid_like (b : bbox) : Prop := length (bmin b) = range /\ length (bmax b) = range /\ forall d, d < range -> (nth d (bmin b) 0 < nth d (bmax b) 0)%R.
Lemma grid_proper b : grid_like b -> proper_box range b.
Proof. intros (A & B & C). split; [exact A|]. split; [exact B|]. intros d Hd. left. apply C. exact Hd. Qed.
Lemma added_facts b m m1 n0 k np np' : bezier_added range lev (value (rescale p b)) b m m1 n0 k np np' -> rangem range m -> length (bmin b) = range -> rangem range m1 /\ m_order m1 = m_order m /\ m_points m1 = m_points m ++ np' /\ Forall (in_box b) np'.
Proof.
  intros (mu & ni & wi & _ & _ & A & _ & _ & B & _ & C) Rm L. split; [|auto]. unfold rangem. rewrite B. apply Forall_app. split; [exact Rm|]. eapply Forall_impl; [|exact C]. intros x [Lx _]. congruence.
Qed.
Lemma cut_sound D g : d_grid D = g -> forall ids boxes, boxes_of g ids boxes -> Forall grid_like boxes -> forall m m', vm dim m -> rangem range m ->
  reparam_cut_bezier Z0 value grad fresh range lev rescale p D ids m = Ret m' -> vm dim m' /\ rangem range m' /\ m_order m' = m_order m /\ beziers_added range lev (fun b => value (rescale p b)) boxes m m' /\
    exists more, m_points m' = m_points m ++ more /\ Forall (fun p => Exists (fun b => in_box b p) boxes) more.
Proof.
  intros HD ids boxes HB. induction HB as [|id b ids boxes Hb HB IH]; intros HL m m' V Rm; unfold reparam_cut_bezier; cbn [foldM].
  - intros [= <-]. split; [exact V|]. split; [exact Rm|]. split; [reflexivity|]. split; [constructor|]. exists []. split; [rewrite app_nil_r; reflexivity|constructor].
  - inversion HL as [|? ? HL1 HL2]; subst x l. rewrite HD, Hb. cbn [bind]. destruct (reparam_bezier _ _ _ _ _ _ _ m b) as [m1| | |] eqn:E; try discriminate. cbn [bind]. intros E'.
    assert (V0 := V). destruct V0 as (_ & (n0 & Vn) & _). destruct (C95_bezier_region Z0 _ _ _ range lev _ m n0 b m1 HZ Hr V Rm Vn (grid_proper b HL1) E) as (V1 & k & np & np' & BA).
    destruct (added_facts b m m1 n0 k np np' BA Rm (proj1 HL1)) as (Rm1 & Eo1 & Ep1 & F1).
    destruct (IH HL2 m1 m' V1 Rm1) as (V' & Rm' & Eo & RA & more & Ep & F); [unfold reparam_cut_bezier; rewrite HD; exact E'|]. split; [exact V'|]. split; [exact Rm'|]. split; [congruence|]. split; [econstructor; eassumption|].
    exists (np' ++ more). split; [rewrite Ep, Ep1, app_assoc; reflexivity|]. apply Forall_app. split; [eapply Forall_impl; [|exact F1]; intros q Hq; left; exact Hq|eapply Forall_impl; [|exact F]; intros q Hq; right; exact Hq].
Qed.
Lemma cut_ends D g : scored Z0 -> d_grid D = g -> forall ids boxes, boxes_of g ids boxes -> Forall grid_like boxes -> forall m, vm dim m -> rangem range m ->
  let o := reparam_cut_bezier Z0 value grad fresh range lev rescale p D ids m in
  ((exists m', o = Ret m') \/ o = UB) /\ (Forall (fun b => z_empty Z0 (rescale p b) = true \/ steady Z0 range [rescale p b]) boxes -> exists m', o = Ret m').
Proof.
  intros HS HD ids boxes HB. induction HB as [|id b ids boxes Hb HB IH]; intros HL m V Rm; unfold reparam_cut_bezier; cbn [foldM]; cbv zeta.
  - split; [left|intros _]; eexists; reflexivity.
  - inversion HL as [|? ? HL1 HL2]; subst x l. rewrite HD, Hb. cbn [bind]. assert (V0 := V). destruct V0 as (_ & (n0 & Vn) & _).
    destruct (C96_bezier_returns_partial Z0 (value (rescale p b)) (grad (rescale p b)) fresh range lev (rescale p b) m n0 b HZ HS Hr V Rm Vn (grid_proper b HL1)) as [A B].
    destruct (reparam_bezier _ _ _ _ _ _ _ m b) as [m1| | |] eqn:E; cbn [bind].
    + destruct (C95_bezier_region Z0 _ _ _ range lev _ m n0 b m1 HZ Hr V Rm Vn (grid_proper b HL1) E) as (V1 & k & np & np' & BA).
      destruct (added_facts b m m1 n0 k np np' BA Rm (proj1 HL1)) as (Rm1 & _). destruct (IH HL2 m1 V1 Rm1) as [C C']. unfold reparam_cut_bezier in C, C'. rewrite HD in C, C'. split; [exact C|]. intros F. inversion F; subst. auto.
    + exfalso. destruct A as [[x A]|A]; discriminate.
    + split; [right; reflexivity|]. intros F. inversion F as [|? ? F1 _]; subst. destruct (B F1) as [x Bx]. discriminate.
    + exfalso. destruct A as [[x A]|A]; discriminate.
Qed.
End Create.

(** C97: create_reparameterization of a domain given by a Bezier function.  Whenever it returns, the mesh consists of the reparameterizations of the requested cut cells, each inside
    its box, in the order of the cells, then of one lattice cell for every requested full cell; merging is merge_coincident_points of that mesh (C42, C43).  It never throws, and
    returns if the polynomial of every requested cut cell has no zero there or is steady.  Missing: the other polynomials, refuted by C96. *)
Theorem C97_bezier_domain_partial : forall {P} (Z0 : bz_oracles P) value grad fresh sort esort range (lev : bool) rescale p g sign ccell cfacet D s cells order,
  bz_sound Z0 -> built g sign ccell cfacet D s -> range = 2 \/ range = 3 -> length (breaks g) = range -> Forall (cell_id g) cells -> 2 <= order ->
  exists cut_ids full_ids cut full cut_boxes full_boxes, get_cells D Ccut = Ret cut_ids /\ get_cells D Cfull = Ret full_ids /\
    StronglySorted Z.le cut /\ Permutation cut (filter (fun id => if in_dec Z.eq_dec id cut_ids then true else false) cells) /\
    StronglySorted Z.le full /\ Permutation full (filter (fun id => if in_dec Z.eq_dec id full_ids then true else false) cells) /\
    Forall2 (fun id b => get_cell_domain g id = Ret b) cut cut_boxes /\ Forall2 (fun id b => get_cell_domain g id = Ret b) full full_boxes /\
    let create := create_reparameterization_bezier Z0 value grad fresh sort esort range lev rescale p D cells order in
    (forall m, create false = Ret m -> let dim := if lev then range - 1 else range in valid dim (m_order m) (m_points m) (m_conn m) (m_wires m) /\ m_order m = order /\
      (exists m1, beziers_added range lev (fun b => value (rescale p b)) cut_boxes (mk_mesh order [] [] []) m1 /\ (if lev then m = m1 else lattices_added (z_cheb Z0) range full_boxes m1 m)) /\
      Forall (fun p => Exists (fun b => in_box b p) (if lev then cut_boxes else cut_boxes ++ full_boxes)) (m_points m) /\
      create true = merge_coincident_points (sort (m_points m)) esort range m (10000 * / 2 ^ 52)%R) /\
    (scored Z0 -> (exists m, create false = Ret m) \/ create false = UB) /\
    (scored Z0 -> Forall (fun b => z_empty Z0 (rescale p b) = true \/ steady Z0 range [rescale p b]) cut_boxes -> exists m, create false = Ret m).
Proof.
  intros P Z0 value grad fresh sort esort range lev rescale p g sign ccell cfacet D s cells order HZ HB Hr Hn HC Ho. assert (Hu : usable_grid g) by apply HB. pose proof (df_grid _ _ _ _ _ _ (built_facts _ _ _ _ _ _ HB)) as HD.
  destruct (targets_ok g sign ccell cfacet D s Ccut cells HB (or_introl eq_refl) HC) as (call & cut & EC & Ecut & Scut & Pcut & Fcut).
  destruct (targets_ok g sign ccell cfacet D s Cfull cells HB (or_intror eq_refl) HC) as (fall & full & EF & Efull & Sfull & Pfull & Ffull).
  destruct (boxes_exist g cut Hu Fcut) as (cb & Hcb & _ & Gcb). destruct (boxes_exist g full Hu Ffull) as (fb & Hfb & Mfb & Gfb). rewrite Hn in Gfb, Gcb.
  exists call, fall, cut, full, cb, fb. split; [exact EC|]. split; [exact EF|]. split; [exact Scut|]. split; [exact Pcut|]. split; [exact Sfull|]. split; [exact Pfull|]. split; [exact Hcb|]. split; [exact Hfb|]. intros create.
  set (m0 := mk_mesh order [] [] []). set (dim := mesh_dim range lev). assert (V0 : vm dim m0) by (split; [exact Ho|]; split; [exists 0; reflexivity|]; split; [exists 0; reflexivity|]; split; constructor). assert (R0 : rangem range m0) by constructor.
  set (oc := reparam_cut_bezier Z0 value grad fresh range lev rescale p D cut m0).
  assert (EE : forall merge, create merge = m1 <- oc ;; m2 <- (if lev then Ret m1 else add_full_cells (z_cheb Z0) range m1 fb true) ;; if merge then merge_coincident_points (sort (m_points m2)) esort range m2 (10000 * eps)%R else Ret m2).
  { intros merge. unfold create, create_reparameterization_bezier, new_mesh. replace (1 <? order) with true by (symmetry; apply Nat.ltb_lt; lia). cbn [assert_]. rewrite Ecut. cbn [bind]. fold m0. fold oc. destruct oc; try reflexivity. cbn [bind].
    destruct lev; [reflexivity|]. rewrite Efull, HD. cbn [bind]. rewrite Mfb. reflexivity. }
  assert (Full : forall m1, vm dim m1 -> rangem range m1 -> exists m2, (if lev then Ret m1 else add_full_cells (z_cheb Z0) range m1 fb true) = Ret m2 /\ vm dim m2 /\ m_order m2 = m_order m1 /\ (if lev then m2 = m1 else lattices_added (z_cheb Z0) range fb m1 m2) /\
      exists more, m_points m2 = m_points m1 ++ more /\ Forall (fun p => Exists (fun b => in_box b p) fb) more /\ (lev = true -> more = [])).
  { intros m1 V1 Rm1. unfold dim, mesh_dim in *. destruct lev.
    - exists m1. split; [reflexivity|]. split; [exact V1|]. split; [reflexivity|]. split; [reflexivity|]. exists []. rewrite app_nil_r. split; [reflexivity|]. split; [constructor|reflexivity].
    - destruct (lattices_ok (z_cheb Z0) range Hr (bs_cheb _ HZ) fb Gfb m1 V1 Rm1) as (m & E & V & Rm & Eo & LA & more & Ep & Fp). exists m. split; [exact E|]. split; [exact V|]. split; [exact Eo|]. split; [exact LA|]. exists more. split; [exact Ep|]. split; [exact Fp|discriminate]. }
  split; [|split].
  - intros m Hm. rewrite EE in Hm. destruct oc as [m1| | |] eqn:Eoc; try discriminate. cbn [bind] in Hm.
    destruct (cut_sound Z0 value grad fresh range lev rescale p HZ Hr D g HD cut cb Hcb Gcb m0 m1 V0 R0 Eoc) as (V1 & Rm1 & Eo1 & BA & more1 & Ep1 & F1).
    destruct (Full m1 V1 Rm1) as (m2 & E2 & V2 & Eo2 & LA & more2 & Ep2 & F2 & N2). rewrite E2 in Hm. cbn [bind] in Hm. injection Hm as <-. cbv zeta. split; [exact V2|]. split; [rewrite Eo2; exact Eo1|]. split; [exists m1; split; [exact BA|exact LA]|].
    split; [|rewrite EE; cbn [bind]; rewrite E2; reflexivity]. rewrite Ep2, Ep1. cbn [m0 m_points app]. destruct lev.
    + rewrite (N2 eq_refl), app_nil_r. exact F1.
    + apply Forall_app. split; [eapply Forall_impl; [|exact F1]|eapply Forall_impl; [|exact F2]]; intros q Hq; apply Exists_app; [left|right]; exact Hq.
  - intros HS. destruct (cut_ends Z0 value grad fresh range lev rescale p HZ Hr D g HS HD cut cb Hcb Gcb m0 V0 R0) as [A _]. fold oc in A. rewrite EE. destruct A as [[m1 A]|A]; [|rewrite A; right; reflexivity]. left.
    destruct (cut_sound Z0 value grad fresh range lev rescale p HZ Hr D g HD cut cb Hcb Gcb m0 m1 V0 R0 A) as (V1 & Rm1 & _). destruct (Full m1 V1 Rm1) as (m2 & E2 & _). rewrite A. cbn [bind]. rewrite E2. exists m2. reflexivity.
  - intros HS F. destruct (cut_ends Z0 value grad fresh range lev rescale p HZ Hr D g HS HD cut cb Hcb Gcb m0 V0 R0) as [_ A]. fold oc in A. destruct (A F) as [m1 A1]. rewrite EE.
    destruct (cut_sound Z0 value grad fresh range lev rescale p HZ Hr D g HD cut cb Hcb Gcb m0 m1 V0 R0 A1) as (V1 & Rm1 & _). destruct (Full m1 V1 Rm1) as (m2 & E2 & _). rewrite A1. cbn [bind]. rewrite E2. exists m2. reflexivity.
Qed.
Print Assumptions C97_bezier_domain_partial.

(** The hypotheses are met: any built domain on the grid of two unit cells, and the polynomial y - 1/2 in every cell. *)
Example C97_meets : forall sign ccell cfacet, exists g D s m, built g sign ccell cfacet D s /\
  create_reparameterization_bezier (graph (fun _ => (/ 2)%R) 1 false) (fun _ x => (nth 1 x 0 - / 2)%R) (fun _ _ => [0; 1]%R) (fun _ _ => [0; 0]%R) (fun _ _ l => l) (fun l => l) 2 false (fun p _ => p) tt D [1; 0; 1]%Z 3 false = Ret m.
Proof.
  intros sign ccell cfacet. destruct demo_usable as (g & Hu & Hn & Hb & Hd). destruct (build_domain_ok g sign ccell cfacet (fun m => m) Hu map_order_id) as (D & s & E & _).
  assert (HB : built g sign ccell cfacet D s) by (split; [exact Hu|exists (fun m => m); split; [apply map_order_id|exact E]]). exists g, D, s.
  destruct (C97_bezier_domain_partial (graph (fun _ => (/ 2)%R) 1 false) (fun _ x => (nth 1 x 0 - / 2)%R) (fun _ _ => [0; 1]%R) (fun _ _ => [0; 0]%R) (fun _ _ l => l) (fun l => l) 2 false (fun p _ => p) tt g sign ccell cfacet D s [1; 0; 1]%Z 3
    (graph_sound _ _ _) HB (or_introl eq_refl) Hb) as (_ & _ & _ & _ & cb & _ & _ & _ & _ & _ & _ & _ & _ & _ & _ & _ & R); try lia.
  - repeat constructor; unfold cell_id; lia.
  - destruct (R (graph_scored _ _ _)) as [m Em]; [apply Forall_forall; intros b _; right; apply steady_meets|]. exists m. split; [exact HB|exact Em].
Qed.
