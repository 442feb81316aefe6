(** C101, C102: the status of the cells and facets of the domain of a function. *)
From Coq Require Import Reals List Lia Lra Arith ZArith.
From Verif Require Import S_Phi S_Grid L_Real L_BBox L_Domain L_DomainQ L_DomainT L_Classify L_Poly6 M_Phi L_Phi.
Import ListNotations.
Local Close Scope Z_scope.
Local Close Scope nat_scope.
Local Open Scope R_scope.

Lemma tol_value : default_tol = 10 / 2 ^ 52. Proof. unfold default_tol, eps. reflexivity. Qed.

(** C101.  Functions that are not polynomials: the domain always exists, and the status of every cell is justified by the sign of the function in the cell or by the sampled volume. *)
Theorem C101_general : forall O phi grad g, encloses O phi -> usable_grid g ->
  (exists D, domain_of O (General phi grad) g D) /\
  forall D, domain_of O (General phi grad) g D -> forall id b, cell_id g id -> get_cell_domain g id = Ret b ->
  exists full empty cut, is_full_cell D id = Ret full /\ is_empty_cell D id = Ret empty /\ is_cut_cell D id = Ret cut /\
    ((full, empty, cut) = (true, false, false) \/ (full, empty, cut) = (false, true, false) \/ (full, empty, cut) = (false, false, true)) /\
    (full = true -> (forall x, in_closed (bmin b) (bmax b) x -> phi x < 0) \/ Rabs (sampled O (General phi grad) b - box_volume b) <= 10 / 2 ^ 52) /\
    (empty = true -> (forall x, in_closed (bmin b) (bmax b) x -> 0 < phi x) \/ Rabs (sampled O (General phi grad) b) <= 10 / 2 ^ 52) /\
    (cut = true -> 10 / 2 ^ 52 < Rabs (sampled O (General phi grad) b) /\ 10 / 2 ^ 52 < Rabs (sampled O (General phi grad) b - box_volume b)).
Proof.
  rewrite <- tol_value. intros O phi grad g He Hu. split; [apply domain_exists; exact Hu|]. intros D HD id b Hid Eb.
  apply (cell_results O (General phi grad) g D He HD id b Hid Eb). exact Logic.I.
Qed.
Print Assumptions C101_general.

(** Polynomials: the same for grids in the unit box (the sampled volume is relative to the cell). *)
Theorem C101_bezier_partial : forall O p g, encloses O (bezier_eval p) -> valid_poly p -> length (p_order p) = length (breaks g) -> usable_grid g ->
  (exists D, domain_of O (Bezier p) g D) /\
  forall D, domain_of O (Bezier p) g D -> forall id b, cell_id g id -> get_cell_domain g id = Ret b -> in_unit_box (bmin b) -> in_unit_box (bmax b) ->
  exists full empty cut, is_full_cell D id = Ret full /\ is_empty_cell D id = Ret empty /\ is_cut_cell D id = Ret cut /\
    ((full, empty, cut) = (true, false, false) \/ (full, empty, cut) = (false, true, false) \/ (full, empty, cut) = (false, false, true)) /\
    (full = true -> (forall x, in_closed (bmin b) (bmax b) x -> bezier_eval p x < 0) \/ Rabs (sampled O (Bezier p) b - 1) <= 10 / 2 ^ 52) /\
    (empty = true -> (forall x, in_closed (bmin b) (bmax b) x -> 0 < bezier_eval p x) \/ Rabs (sampled O (Bezier p) b) <= 10 / 2 ^ 52) /\
    (cut = true -> 10 / 2 ^ 52 < Rabs (sampled O (Bezier p) b) /\ 10 / 2 ^ 52 < Rabs (sampled O (Bezier p) b - 1)).
Proof.
  rewrite <- tol_value. intros O p g He Vp Lp Hu. split; [apply domain_exists; exact Hu|]. intros D HD id b Hid Eb Hlo Hhi.
  apply (cell_results O (Bezier p) g D He HD id b Hid Eb). cbn [settled_box]. intros x Hx.
  destruct (usable_facts g Hu) as (Hg & Hc & Hd & En).
  assert (Lb : length (bmin b) = length (breaks g)).
  { pose proof Hid as Hid'. unfold cell_id in Hid'. rewrite En in Hid'. destruct (L_Grid.valid_exists g Hg Hc id Hid') as (t & Hv & Et).
    apply (cell_sub_domain g id t b Hu Hid); [rewrite <- Et; apply L_TensorIndex.to_tensor_lex; auto|exact Eb]. }
  destruct Hx as (L1 & L2 & Hx). apply bezier_sign_ok; [exact Vp|lia|]. unfold in_unit_box in *. rewrite Forall_forall in *. intros a Ha.
  apply (In_nth _ _ 0) in Ha as (d & Hdd & <-). specialize (Hx d Hdd). specialize (Hlo (nth d (bmin b) 0) ltac:(apply nth_In; lia)). specialize (Hhi (nth d (bmax b) 0) ltac:(apply nth_In; lia)). lra.
Qed.
Print Assumptions C101_bezier_partial.

(** ** The two examples *)
Lemma eval_2_1 a c x y : bezier_eval (mk_poly [2; 1]%nat [a; c]) [x; y] = a * (1 - x) + c * x.
Proof. cbn. unfold lerp. ring. Qed.
Lemma eval_3_1 a c e x y : bezier_eval (mk_poly [3; 1]%nat [a; c; e]) [x; y] = a * (1 - x) * (1 - x) + 2 * c * x * (1 - x) + e * x * x.
Proof. cbn. unfold lerp. ring. Qed.

(** Oracles: interval arithmetic never decides; two points with the weight 1/2; the rescaling is exact for the polynomials of the examples. *)
Definition ex_pts (p : poly) : rule := [(repeat (/ 4) (length (p_order p)), / 2); (repeat (3 / 4) (length (p_order p)), / 2)].
Definition ex_rescale (p : poly) (b : bbox) : poly :=
  let l := nth 0 (bmin b) 0 in let h := nth 0 (bmax b) 0 in
  match p_order p with
  | [2; 1]%nat => mk_poly [2; 1]%nat [3 / 2 - l; 3 / 2 - h]
  | _ => mk_poly [3; 1]%nat [l * (l - / 2); l * h - (l + h) / 4; h * (h - / 2)]
  end.
Definition ex_oracles : samplers := mk_samplers (fun _ _ => (0, false)) (fun _ _ _ => []) ex_pts ex_rescale.
Definition ex_line : poly := mk_poly [2; 1]%nat [3 / 2; / 2].
Definition ex_strip : poly := mk_poly [3; 1]%nat [0; - (/ 4); / 2].
Lemma ex_encloses phi : encloses ex_oracles phi. Proof. intros c h x H. discriminate. Qed.
Lemma ex_samples : samples ex_oracles.
Proof.
  intros p Vp. split.
  - assert (G : forall a, 0 <= a <= 1 -> length (repeat a (length (p_order p))) = length (p_order p) /\ in_unit_box (repeat a (length (p_order p)))).
    { intros a Ha. split; [apply repeat_length|]. apply Forall_forall. intros y Hy. apply repeat_spec in Hy. subst y. exact Ha. }
    cbn [sm_poly ex_oracles ex_pts]. repeat constructor; cbn [fst]; apply G; lra.
  - intros _. cbn. lra.
Qed.
Lemma ex_line_rescales : rescales ex_oracles ex_line.
Proof.
  intros b L1 L2. cbn in L1, L2. cbn [sm_rescale ex_oracles]. unfold ex_rescale. cbn [ex_line p_order length].
  split; [split; [discriminate|split; [repeat constructor|reflexivity]]|]. split; [reflexivity|]. intros [|x [|y [|]]] Hx; try discriminate.
  destruct b as [[|l [|l1 [|]]] [|h [|h1 [|]]]]; try discriminate. cbn [bmin bmax nth]. unfold scale_from_01, box_lengths. cbn [bmin bmax map2 M_BBox.map3].
  unfold ex_line. rewrite !eval_2_1. field.
Qed.
Lemma ex_strip_rescales : rescales ex_oracles ex_strip.
Proof.
  intros b L1 L2. cbn in L1, L2. cbn [sm_rescale ex_oracles]. unfold ex_rescale. cbn [ex_strip p_order length].
  split; [split; [discriminate|split; [repeat constructor|reflexivity]]|]. split; [reflexivity|]. intros [|x [|y [|]]] Hx; try discriminate.
  destruct b as [[|l [|l1 [|]]] [|h [|h1 [|]]]]; try discriminate. cbn [bmin bmax nth]. unfold scale_from_01, box_lengths. cbn [bmin bmax map2 M_BBox.map3].
  unfold ex_strip. rewrite !eval_3_1. field.
Qed.
Lemma ltb_t a c : a < c -> Rltb a c = true. Proof. intros. now apply Rltb_true. Qed.
Lemma ltb_f a c : c <= a -> Rltb a c = false. Proof. intros. destruct (Rltb_spec a c); [lra|reflexivity]. Qed.
Lemma leb_f a c : c < a -> Rleb a c = false. Proof. intros. destruct (Rleb_spec a c); [lra|reflexivity]. Qed.

(** The status of a cell without conclusive signs. *)
Lemma ex_cell F g D id b : domain_of ex_oracles F g D -> cell_id g id -> get_cell_domain g id = Ret b ->
  is_empty_cell D id = Ret (match classify_cell ex_oracles F b with Tempty => true | _ => false end) /\
  is_cut_cell D id = Ret (match classify_cell ex_oracles F b with Tcut => true | _ => false end).
Proof.
  intros HD Hid Eb. destruct (domain_built _ _ _ _ HD) as (s & HB).
  destruct (every_cell_lemma _ _ _ _ _ _ HB id Hid) as (st & h & Hcr & _ & _ & -> & ->).
  inversion Hcr as [k b' lo hi E1 E2 E3 EE|k b' lo hi E1 E2 E3 EE|k lo hi tid st' e E1 E2 E3 c Hi]; subst; try discriminate.
  rewrite E1 in Eb. injection Eb as <-. destruct Hi as (-> & _). fold c. destruct c; split; reflexivity.
Qed.

(** The sign of the polynomial as given is used for every cell: a cell outside of the unit box through the middle of which the interface passes is reported as empty. *)
Theorem C101_bezier_refuted : exists O p g D id b, encloses O (bezier_eval p) /\ valid_poly p /\ length (p_order p) = length (breaks g) /\ rescales O p /\ samples O /\
  domain_of O (Bezier p) g D /\ cell_id g id /\ get_cell_domain g id = Ret b /\
  is_empty_cell D id = Ret true /\ sampled O (Bezier p) b = / 2 /\
  exists x y, in_closed (bmin b) (bmax b) x /\ in_closed (bmin b) (bmax b) y /\ bezier_eval p x = - (/ 2) /\ bezier_eval p y = / 2.
Proof.
  destruct demo_usable as (g & Hu & Hn & Hb & E0 & E1). destruct (domain_exists ex_oracles (Bezier ex_line) g Hu) as (D & HD).
  exists ex_oracles, ex_line, g, D, 1%Z, (mk_box [1; 0] [2; 1]).
  split; [apply ex_encloses|]. split; [split; [discriminate|split; [repeat constructor|reflexivity]]|]. split; [rewrite Hb; reflexivity|].
  split; [apply ex_line_rescales|]. split; [apply ex_samples|]. split; [exact HD|]. assert (Hid : cell_id g 1) by (unfold cell_id; lia). split; [exact Hid|]. split; [exact E1|].
  split; [|split].
  - rewrite (proj1 (ex_cell _ _ _ _ _ HD Hid E1)). unfold classify_cell, classify_cell_Bezier.
    replace (bezier_sign ex_line) with Spos; [reflexivity|]. unfold bezier_sign. cbn. rewrite !ltb_t by lra. reflexivity.
  - cbn [sampled sm_poly sm_rescale ex_oracles]. unfold ex_rescale. cbn [ex_line p_order bmin bmax nth]. unfold ex_pts. cbn [p_order length repeat filter fst].
    rewrite !eval_2_1. rewrite (ltb_f (_ * _ + _)), (ltb_t (_ * _ + _)) by lra. cbn. lra.
  - exists [2; 0], [1; 0]. unfold ex_line. rewrite !eval_2_1. cbn [bmin bmax].
    split; [|split; [|split; lra]]; (split; [reflexivity|split; [reflexivity|]]); intros [|[|d]] Hd; cbn in *; try lra; lia.
Qed.
Print Assumptions C101_bezier_refuted.

(** C102. *)
Theorem C102_facets_partial : forall O F g D id b f, domain_of O F g D -> sampled_well O F (length (breaks g)) -> (2 <= length (breaks g))%nat ->
  cell_id g id -> facet_id g f -> is_cut_cell D id = Ret true -> get_cell_domain g id = Ret b ->
  ((forall x, on_facet b f x -> 0 <= fvalue F x) -> is_empty_facet D id f = Ret true /\ is_full_facet D id f = Ret false /\ is_cut_facet D id f = Ret false /\
     has_unfitted_boundary D id f = Ret false /\ has_external_boundary D id f = Ret false) /\
  ((forall x, on_facet b f x -> fvalue F x < - (10 / 2 ^ 52)) -> is_full_facet D id f = Ret true /\ is_empty_facet D id f = Ret false /\ is_cut_facet D id f = Ret false /\
     has_unfitted_boundary D id f = Ret false /\ has_external_boundary D id f = Ret false).
Proof. rewrite <- tol_value. intros. apply (facet_results O F g D id b f); assumption. Qed.
Print Assumptions C102_facets_partial.

Lemma ex_strip_cut g D : domain_of ex_oracles (Bezier ex_strip) g D -> cell_id g 0 -> get_cell_domain g 0 = Ret (mk_box [0; 0] [1; 1]) -> is_cut_cell D 0 = Ret true.
Proof.
  intros HD Hid E0. rewrite (proj2 (ex_cell _ _ _ _ _ HD Hid E0)). unfold classify_cell, classify_cell_Bezier.
  replace (bezier_sign ex_strip) with Sund.
  2:{ unfold bezier_sign. cbn. rewrite (ltb_f 0 0) by lra. cbn. rewrite ?(ltb_f _ 0) by lra. reflexivity. }
  unfold negative_nodes. cbn [sm_poly sm_rescale ex_oracles]. unfold ex_rescale. cbn [ex_strip p_order bmin bmax nth length]. unfold ex_pts. cbn [p_order length repeat filter fst].
  rewrite !eval_3_1. rewrite (ltb_t (_ * _ * _ + _ + _)) by lra. rewrite (ltb_f (_ * _ * _ + _ + _)) by lra.
  unfold classify_cell_from_quad. rewrite unit_box_volume. unfold sum_weights, tol_equal. cbn [fold_left snd]. pose proof eps_small.
  rewrite leb_f by (unfold Rabs; destruct (Rcase_abs _); lra). rewrite leb_f by (unfold Rabs; destruct (Rcase_abs _); lra). reflexivity.
Qed.
(** The facets of the cells on which the polynomial vanishes with the gradient pointing out of the cell are part of the boundary of the domain, but are not reported. *)
Theorem C102_facets_refuted : exists O p g D id b f, sampled_well O (Bezier p) (length (breaks g)) /\ encloses O (bezier_eval p) /\ domain_of O (Bezier p) g D /\ cell_id g id /\ facet_id g f /\
  is_cut_cell D id = Ret true /\ get_cell_domain g id = Ret b /\
  (forall x, on_facet b f x -> bezier_eval p x = 0 /\ outward f (bezier_grad p x)) /\
  has_unfitted_boundary D id f = Ret false.
Proof.
  destruct demo_usable as (g & Hu & Hn & Hb & E0 & E1). destruct (domain_exists ex_oracles (Bezier ex_strip) g Hu) as (D & HD).
  exists ex_oracles, ex_strip, g, D, 0%Z, (mk_box [0; 0] [1; 1]), 0%Z.
  assert (HS : sampled_well ex_oracles (Bezier ex_strip) (length (breaks g))).
  { split; [split; [discriminate|split; [repeat constructor|reflexivity]]|]. split; [rewrite Hb; reflexivity|]. split; [apply ex_strip_rescales|apply ex_samples]. }
  assert (Hid : cell_id g 0) by (unfold cell_id; lia). assert (Hf : facet_id g 0) by (unfold facet_id; lia).
  pose proof (ex_strip_cut g D HD Hid E0) as Hcut.
  assert (Hz : forall x, on_facet (mk_box [0; 0] [1; 1]) 0 x -> exists y, x = [0; y]).
  { intros [|x0 [|y [|]]] ((L1 & L2 & _) & Ex); try discriminate. cbn in Ex. subst x0. eauto. }
  split; [exact HS|]. split; [apply ex_encloses|]. split; [exact HD|]. split; [exact Hid|]. split; [exact Hf|]. split; [exact Hcut|]. split; [exact E0|].
  split.
  - intros x Hx. destruct (Hz x Hx) as (y & ->). split; [unfold ex_strip; rewrite eval_3_1; ring|].
    unfold ex_strip, outward. cbn. unfold lerp. split; [lra|]. intros [|[|d]] Hd; [congruence|reflexivity|destruct d; reflexivity].
  - refine (proj1 (proj2 (proj2 (proj2 (proj1 (facet_results ex_oracles (Bezier ex_strip) g D 0 _ 0 HD Hid Hf Hcut E0 HS ltac:(lia)) _))))). intros x Hx. destruct (Hz x Hx) as (y & ->).
    cbn [fvalue]. unfold ex_strip. rewrite eval_3_1. nra.
Qed.
Print Assumptions C102_facets_refuted.

(** Non-vacuity: facets of both kinds of a cut cell of the strip 0 < x < 1/2 in the first cell. *)
Example C102_nonvacuous : exists g D b, domain_of ex_oracles (Bezier ex_strip) g D /\ sampled_well ex_oracles (Bezier ex_strip) (length (breaks g)) /\
  cell_id g 0 /\ facet_id g 1 /\ is_cut_cell D 0 = Ret true /\ get_cell_domain g 0 = Ret b /\ forall x, on_facet b 1 x -> 0 <= fvalue (Bezier ex_strip) x.
Proof.
  destruct demo_usable as (g & Hu & Hn & Hb & E0 & E1). destruct (domain_exists ex_oracles (Bezier ex_strip) g Hu) as (D & HD).
  assert (Hid : cell_id g 0) by (unfold cell_id; lia). assert (Hf : facet_id g 1) by (unfold facet_id; lia).
  exists g, D, (mk_box [0; 0] [1; 1]). split; [exact HD|].
  split; [split; [split; [discriminate|split; [repeat constructor|reflexivity]]|split; [rewrite Hb; reflexivity|split; [apply ex_strip_rescales|apply ex_samples]]]|].
  split; [exact Hid|]. split; [exact Hf|]. split; [apply (ex_strip_cut g D HD Hid E0)|]. split; [exact E0|].
  intros [|x0 [|y [|]]] ((L1 & L2 & _) & Ex); try discriminate. cbn in Ex. subst x0. cbn [fvalue]. unfold ex_strip. rewrite eval_3_1. lra.
Qed.
