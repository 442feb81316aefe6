From Coq Require Import Reals List Lia Lra Bool.
From Coquelicot Require Import Coquelicot.
From Verif Require Import M_Funcs S_Affine S_Funcs L_Real L_Affine L_Deriv L_Tpms.
Import ListNotations.
Open Scope R_scope.

Ltac fn_red := cbn [fval fgrad fhess]; cbv zeta; change (num_hess 2) with 3%nat; change (num_hess 3) with 6%nat; unfold sqrnorm, dot, vscale, vadd, vsub; cbn [map2 map fold_left fold_right seq repeat flat_map app]; unfold vx; cbn [nth map fold_left fold_right seq repeat map2].
Ltac g3 := fn_red; apply hg3; intros X Y Z dx dy dz HX HY HZ DX DY DZ; fn_red; curve_step; first [ring|field; repeat split; auto].
Ltac g2 := fn_red; apply hg2; intros X Y dx dy HX HY DX DY; fn_red; curve_step; first [ring|field; repeat split; auto].
Ltac dest3 := repeat match goal with H : length ?l = 3%nat |- _ => let a := fresh "x" in let b := fresh "y" in let c := fresh "z" in let E := fresh "E" in
  destruct (len3 l H) as (a & b & c & E); subst l; clear H end.
Ltac dest2 := repeat match goal with H : length ?l = 2%nat |- _ => let a := fresh "x" in let b := fresh "y" in let E := fresh "E" in
  destruct (len2 l H) as (a & b & E); subst l; clear H end.
Ltac rows3 := intros i Hi; assert (EE : (i = 0 \/ i = 1 \/ i = 2)%nat) by lia; clear Hi; destruct EE as [-> | [-> | ->]]; cbn [map seq sym_pos Nat.min Nat.max Nat.add nth].
Ltac rows2 := intros i Hi; assert (EE : (i = 0 \/ i = 1)%nat) by lia; clear Hi; destruct EE as [-> | ->]; cbn [map seq sym_pos Nat.min Nat.max Nat.add nth].

Lemma assert_ret_inv b (f g : func) : assert_ b (Ret f) = Ret g -> b = true /\ f = g.
Proof. destruct b; simpl; intros H; inversion H; auto. Qed.

(** ** Sphere *)
Lemma sphere_grad dim r c f : (dim = 2 \/ dim = 3)%nat -> length c = dim -> sphere dim r c = Ret f -> grad_ok dim (fval f) (fgrad f).
Proof.
  intros Hd Hc H. apply assert_ret_inv in H as [_ <-]. intros p Hp. destruct Hd as [-> | ->]; [dest2|dest3].
  - g2.
  - g3.
Qed.
Lemma sphere_hess dim r c f : (dim = 2 \/ dim = 3)%nat -> length c = dim -> sphere dim r c = Ret f -> hess_ok dim (fval f) (fhess f).
Proof.
  intros Hd Hc H p Hp. pose proof (sphere_grad dim r c f Hd Hc H) as G. apply assert_ret_inv in H as [_ <-].
  split; [destruct Hd as [-> | ->]; reflexivity|]. eexists; split; [exact G|].
  destruct Hd as [-> | ->]; [dest2; rows2; g2|dest3; rows3; g3].
Qed.
(** ** Cylinder *)
Lemma norm_axis_len axis : length (normalize_axis axis) = length axis.
Proof. unfold normalize_axis, vscale. destruct (is_zero _ _); auto. apply map_length. Qed.
Lemma cylinder_grad r o a f : length o = 3%nat -> length a = 3%nat -> cylinder r o a = Ret f -> grad_ok 3 (fval f) (fgrad f).
Proof.
  intros Ho Ha H. apply assert_ret_inv in H as [_ <-]. intros p Hp.
  pose proof (norm_axis_len a) as L. rewrite Ha in L. cbn [fval fgrad]. generalize dependent (normalize_axis a). intros b Hb. clear Ha a. dest3. g3.
Qed.
Lemma cylinder_hess r o a f p : length o = 3%nat -> length a = 3%nat -> cylinder r o a = Ret f -> length p = 3%nat ->
  has_hessian 3 (fval f) p (map (fun k => nth k (fhess f p) 0 - 2 * nth k
    (flat_map (fun i => map (fun j => vx (normalize_axis a) i * vx (normalize_axis a) j) (seq i (3 - i))) (seq 0 3)) 0) (seq 0 6)).
Proof.
  intros Ho Ha H Hp. pose proof (cylinder_grad r o a f Ho Ha H) as G. apply assert_ret_inv in H as [_ <-]. split; [reflexivity|]. eexists; split; [exact G|].
  clear G. pose proof (norm_axis_len a) as L. rewrite Ha in L. cbn [fval fgrad fhess]. revert L. generalize (normalize_axis a). intros b L. clear Ha a. dest3.
  cbn [map flat_map seq Nat.sub app vx nth]. unfold vx. cbn [nth]. rows3; g3.
Qed.
(** ** Ellipsoid *)
Lemma ell_pos dim sa sys f : ellipsoid dim sa sys = Ret f -> forall d, (d < dim)%nat -> 0 < nth d sa 0.
Proof.
  intros H d Hd. apply assert_ret_inv in H as [H _]. rewrite forallb_forall in H. specialize (H d). rewrite in_seq in H. apply Rltb_true. apply H. lia.
Qed.
Lemma lenl2 (l : list (list R)) : length l = 2%nat -> exists a b, l = [a; b].
Proof. destruct l as [|a [|b [|? ?]]]; simpl; try discriminate. eauto. Qed.
Lemma lenl3 (l : list (list R)) : length l = 3%nat -> exists a b c, l = [a; b; c].
Proof. destruct l as [|a [|b [|c [|? ?]]]]; simpl; try discriminate. eauto. Qed.
Ltac fa := repeat match goal with H : Forall _ (_ :: _) |- _ => inversion H; clear H; subst | H : Forall _ [] |- _ => clear H end.
Lemma ell_nz dim sa sys f : ellipsoid dim sa sys = Ret f -> forall d, (d < dim)%nat -> nth d sa 0 <> 0.
Proof. intros H d Hd. pose proof (ell_pos _ _ _ _ H d Hd). lra. Qed.
Lemma ell_grad dim sa sys f : (dim = 2 \/ dim = 3)%nat -> frame_ok dim sa (r_origin sys) (r_basis sys) -> ellipsoid dim sa sys = Ret f -> grad_ok dim (fval f) (fgrad f).
Proof.
  intros Hd (H1 & H2 & H3 & H4) H. pose proof (ell_nz _ _ _ _ H) as N. apply assert_ret_inv in H as [_ <-]. destruct sys as [o b]. simpl r_origin in *. simpl r_basis in *.
  intros p Hp. destruct Hd as [-> | ->].
  - destruct (lenl2 b H3) as (b0 & b1 & ->). fa. dest2. pose proof (N 0%nat ltac:(lia)). pose proof (N 1%nat ltac:(lia)). cbn [nth] in *. cbn [r_origin r_basis]. g2.
  - destruct (lenl3 b H3) as (b0 & b1 & b2 & ->). fa. dest3. pose proof (N 0%nat ltac:(lia)). pose proof (N 1%nat ltac:(lia)). pose proof (N 2%nat ltac:(lia)). cbn [nth] in *. cbn [r_origin r_basis]. g3.
Qed.
Lemma ell_hess dim sa sys f : (dim = 2 \/ dim = 3)%nat -> frame_ok dim sa (r_origin sys) (r_basis sys) -> ellipsoid dim sa sys = Ret f -> hess_ok dim (fval f) (fhess f).
Proof.
  intros Hd K H p Hp. pose proof (ell_grad dim sa sys f Hd K H) as G. destruct K as (H1 & H2 & H3 & H4). pose proof (ell_nz _ _ _ _ H) as N. apply assert_ret_inv in H as [_ <-].
  split; [destruct Hd as [-> | ->]; reflexivity|]. eexists; split; [exact G|]. clear G. destruct sys as [o b]. simpl r_origin in *. simpl r_basis in *.
  destruct Hd as [-> | ->].
  - destruct (lenl2 b H3) as (b0 & b1 & ->). fa. dest2. pose proof (N 0%nat ltac:(lia)). pose proof (N 1%nat ltac:(lia)). cbn [nth] in *. cbn [r_origin r_basis]. rows2; g2.
  - destruct (lenl3 b H3) as (b0 & b1 & b2 & ->). fa. dest3. pose proof (N 0%nat ltac:(lia)). pose proof (N 1%nat ltac:(lia)). pose proof (N 2%nat ltac:(lia)). cbn [nth] in *. cbn [r_origin r_basis]. rows3; g3.
Qed.
(** ** Annulus *)
Definition annulus_grad (ri ro : R) (c p : list R) : list R := map (fun i => (4 * (edist p c * edist p c) - 2 * ri * ri - 2 * ro * ro) * (nth i p 0 - nth i c 0)) (seq 0 2).
Lemma edist_sq p c : edist p c * edist p c = fold_right Rplus 0 (map (fun i => (nth i p 0 - nth i c 0) * (nth i p 0 - nth i c 0)) (seq 0 (length p))).
Proof.
  unfold edist. apply sqrt_sqrt. generalize (seq 0 (length p)). intros l. induction l as [|i l IH]; simpl; [lra|].
  pose proof (Rle_0_sqr (nth i p 0 - nth i c 0)) as Q. unfold Rsqr in Q. lra.
Qed.
Lemma annulus_grad_true ri ro c f : length c = 2%nat -> annulus ri ro c = Ret f -> grad_ok 2 (fval f) (annulus_grad ri ro c).
Proof.
  intros Hc H. apply assert_ret_inv in H as [_ <-]. intros p Hp. unfold annulus_grad. rewrite edist_sq, Hp. dest2. cbn [map seq nth fold_right]. g2.
Qed.
Lemma annulus_grad_diff ri ro c f p : length c = 2%nat -> length p = 2%nat -> annulus ri ro c = Ret f ->
  fgrad f p = annulus_grad ri ro c p <-> p = c.
Proof.
  intros Hc Hp H. apply assert_ret_inv in H as [B <-]. apply andb_true_iff in B as [B1 B2]. rewrite Rltb_true in B1, B2.
  unfold annulus_grad. rewrite edist_sq, Hp. dest2. cbn [map seq nth fold_right]. fn_red. split.
  - intros E. injection E as E0 E1.
    assert (K : 0 < ri * ri + ro * ro) by nra.
    assert (A : (ri * ri + ro * ro) * (x0 - x) = 0) by lra. assert (C : (ri * ri + ro * ro) * (y0 - y) = 0) by lra.
    apply Rmult_integral in A. apply Rmult_integral in C. destruct A as [A|A]; [lra|]. destruct C as [C|C]; [lra|]. f_equal; [lra|f_equal; lra].
  - intros E. injection E as -> ->. list_eq ltac:(ring).
Qed.
Lemma annulus_hess ri ro c f : length c = 2%nat -> annulus ri ro c = Ret f ->
  hess_ok 2 (fval f) (fun p => map (fun k => nth k (fhess f p) 0 - (if Nat.eqb k 1 then 0 else 2 * ri * ri + 2 * ro * ro)) (seq 0 3)).
Proof.
  intros Hc H p Hp. split; [reflexivity|]. eexists; split; [exact (annulus_grad_true ri ro c f Hc H)|]. apply assert_ret_inv in H as [_ <-].
  dest2. cbn [map seq Nat.eqb nth fval fhess]. rows2.
  - apply (hg_ext 2 (fun q => (4 * ((nth 0 q 0 - x0) * (nth 0 q 0 - x0) + (nth 1 q 0 - y0) * (nth 1 q 0 - y0)) - 2 * ri * ri - 2 * ro * ro) * (nth 0 q 0 - x0)));
      [intros q Hq; unfold annulus_grad; rewrite edist_sq, Hq; cbn [map seq nth fold_right]; ring|]. g2.
  - apply (hg_ext 2 (fun q => (4 * ((nth 0 q 0 - x0) * (nth 0 q 0 - x0) + (nth 1 q 0 - y0) * (nth 1 q 0 - y0)) - 2 * ri * ri - 2 * ro * ro) * (nth 1 q 0 - y0)));
      [intros q Hq; unfold annulus_grad; rewrite edist_sq, Hq; cbn [map seq nth fold_right]; ring|]. g2.
Qed.
(** ** Torus *)
Lemma torus_grad R0 r0 c a f : length c = 3%nat -> length a = 3%nat -> torus R0 r0 c a = Ret f -> grad_ok 3 (fval f) (fgrad f).
Proof.
  intros Hc Ha H. apply assert_ret_inv in H as [_ <-]. intros p Hp. pose proof (norm_axis_len a) as L. rewrite Ha in L. revert L. generalize (normalize_axis a). intros b L. clear Ha a. dest3. g3.
Qed.
Lemma torus_hess R0 r0 c a f : length c = 3%nat -> length a = 3%nat -> torus R0 r0 c a = Ret f -> hess_ok 3 (fval f) (fhess f).
Proof.
  intros Hc Ha H p Hp. split; [apply assert_ret_inv in H as [_ <-]; reflexivity|]. eexists; split; [exact (torus_grad R0 r0 c a f Hc Ha H)|]. apply assert_ret_inv in H as [_ <-].
  pose proof (norm_axis_len a) as L. rewrite Ha in L. revert L. generalize (normalize_axis a). intros b L. clear Ha a. dest3.
  cbn [fhess flat_map seq Nat.sub map Nat.eqb app]. rows3; g3.
Qed.
(** ** Constant and plane *)
Lemma constant_ok dim v : (dim = 2 \/ dim = 3)%nat -> grad_ok dim (fval (constant dim v)) (fgrad (constant dim v)) /\ hess_ok dim (fval (constant dim v)) (fhess (constant dim v)).
Proof.
  intros Hd. assert (G : grad_ok dim (fval (constant dim v)) (fgrad (constant dim v))).
  { intros p Hp. destruct Hd as [-> | ->]; [dest2|dest3]; unfold constant; [g2|g3]. }
  split; [exact G|]. intros p Hp. split; [destruct Hd as [-> | ->]; reflexivity|]. eexists; split; [exact G|]. unfold constant.
  destruct Hd as [-> | ->]; [dest2; rows2; g2|dest3; rows3; g3].
Qed.
Lemma plane_ok dim o n : (dim = 2 \/ dim = 3)%nat -> length o = dim -> length n = dim ->
  grad_ok dim (fval (plane dim o n)) (fgrad (plane dim o n)) /\ hess_ok dim (fval (plane dim o n)) (fhess (plane dim o n)).
Proof.
  intros Hd Ho Hn. assert (G : grad_ok dim (fval (plane dim o n)) (fgrad (plane dim o n))).
  { intros p Hp. destruct Hd as [-> | ->]; [dest2|dest3]; unfold plane; [g2|g3]. }
  split; [exact G|]. intros p Hp. split; [destruct Hd as [-> | ->]; reflexivity|]. eexists; split; [exact G|]. unfold plane.
  destruct Hd as [-> | ->]; [dest2; rows2; g2|dest3; rows3; g3].
Qed.
(** ** DimLinear *)
Lemma dl_grad dim cf : (dim = 2 \/ dim = 3)%nat -> grad_ok dim (fval (dim_linear dim cf)) (fgrad (dim_linear dim cf)).
Proof.
  intros Hd p Hp. unfold dim_linear. generalize (vx cf). intros c. destruct Hd as [-> | ->]; [dest2; g2|dest3; g3].
Qed.
Lemma dl_hess2 cf : hess_ok 2 (fval (dim_linear 2 cf)) (fhess (dim_linear 2 cf)).
Proof.
  intros p Hp. split; [reflexivity|]. eexists; split; [exact (dl_grad 2 cf (or_introl eq_refl))|].
  unfold dim_linear. generalize (vx cf). intros c. dest2; rows2; g2.
Qed.
Definition dl_true_hess3 (cf p : list R) : list R :=
  let c := vx cf in let h := fhess (dim_linear 3 cf) p in
  [nth 0 h 0; nth 1 h 0; nth 2 h 0; nth 3 h 0;
   (c 0%nat + c 6%nat - c 2%nat - c 4%nat) * (1 - vx p 0) + (c 1%nat + c 7%nat - c 3%nat - c 5%nat) * vx p 0; nth 5 h 0].
Lemma dl_hess3 cf : hess_ok 3 (fval (dim_linear 3 cf)) (dl_true_hess3 cf).
Proof.
  intros p Hp. split; [reflexivity|]. eexists; split; [exact (dl_grad 3 cf (or_intror eq_refl))|].
  unfold dl_true_hess3, dim_linear. generalize (vx cf). intros c. dest3. cbn [fhess nth]. unfold vx. cbn [nth]. rows3; g3.
Qed.
(** ** Algebra *)
Lemma map_nth0 (f : R -> R) l i : f 0 = 0 -> nth i (map f l) 0 = f (nth i l 0).
Proof. intros H. rewrite <- H at 1. apply map_nth. Qed.
Lemma map2_nth (f : R -> R -> R) a : forall b i, length a = length b -> f 0 0 = 0 -> nth i (map2 f a b) 0 = f (nth i a 0) (nth i b 0).
Proof. induction a as [|x a IH]; intros [|y b] i L E; simpl in *; try discriminate; destruct i; auto. Qed.
Lemma map2_len {A B C} (f : A -> B -> C) a : forall b, length a = length b -> length (map2 f a b) = length a.
Proof. induction a as [|x a IH]; intros [|y b] L; simpl in *; try discriminate; auto. Qed.
Lemma sum_ext_nat (l : list nat) (f g : nat -> R) : (forall i, f i = g i) -> fold_right Rplus 0 (map f l) = fold_right Rplus 0 (map g l).
Proof. intros H. f_equal. apply map_ext. auto. Qed.
Lemma sum_opp (l : list nat) (f : nat -> R) : fold_right Rplus 0 (map (fun i => - f i) l) = - fold_right Rplus 0 (map f l).
Proof. induction l; simpl; lra. Qed.
Lemma sum_plus (l : list nat) (f g : nat -> R) : fold_right Rplus 0 (map (fun i => f i + g i) l) = fold_right Rplus 0 (map f l) + fold_right Rplus 0 (map g l).
Proof. induction l; simpl; lra. Qed.
Lemma hg_opp d f p g : has_gradient d f p g -> has_gradient d (fun q => - f q) p (map Ropp g).
Proof.
  intros [L H]. split; [rewrite map_length; auto|]. intros c dc H0 Hd.
  rewrite (sum_ext_nat _ _ (fun i => - (nth i g 0 * dc i))); [|intros i; rewrite (map_nth0 Ropp) by ring; ring].
  rewrite sum_opp. apply (is_derive_opp (fun t => f (map (fun i => c i t) (seq 0 d)))). apply H; auto.
Qed.
Lemma hg_add d f f' p g g' : has_gradient d f p g -> has_gradient d f' p g' -> has_gradient d (fun q => f q + f' q) p (map2 Rplus g g').
Proof.
  intros [L H] [L' H']. split; [rewrite map2_len; congruence|]. intros c dc H0 Hd.
  rewrite (sum_ext_nat _ _ (fun i => nth i g 0 * dc i + nth i g' 0 * dc i)); [|intros i; rewrite (map2_nth Rplus) by (try ring; congruence); ring].
  rewrite sum_plus. apply (is_derive_plus (fun t => f (map (fun i => c i t) (seq 0 d)))); auto.
Qed.
Lemma hg_sub d f f' p g g' : has_gradient d f p g -> has_gradient d f' p g' -> has_gradient d (fun q => f q - f' q) p (map2 Rminus g g').
Proof.
  intros H H'. pose proof (hg_add d f (fun q => - f' q) p g (map Ropp g') H (hg_opp _ _ _ _ H')) as A.
  assert (E : map2 Rplus g (map Ropp g') = map2 Rminus g g'). { generalize g g'. intros a. induction a as [|x a IH]; intros [|y b]; simpl; auto. rewrite IH. reflexivity. }
  rewrite E in A. exact A.
Qed.
Lemma hh_opp d f p h : has_hessian d f p h -> has_hessian d (fun q => - f q) p (map Ropp h).
Proof.
  intros (L & G & HG & Hr). split; [rewrite map_length; auto|]. exists (fun q => map Ropp (G q)). split; [intros q Hq; apply hg_opp; auto|].
  intros i Hi. specialize (Hr i Hi). apply hg_opp in Hr. rewrite map_map in Hr.
  apply (hg_ext d (fun q => - nth i (G q) 0)); [intros q Hq; rewrite (map_nth0 Ropp) by ring; reflexivity|].
  erewrite map_ext; [exact Hr|]. intros j. simpl. rewrite (map_nth0 Ropp) by ring. reflexivity.
Qed.
Lemma map2_map2 {A} (f : R -> R -> R) (u v : A -> R) l : map2 f (map u l) (map v l) = map (fun i => f (u i) (v i)) l.
Proof. induction l; simpl; congruence. Qed.
Lemma hh_add d f f' p h h' : has_hessian d f p h -> has_hessian d f' p h' -> has_hessian d (fun q => f q + f' q) p (map2 Rplus h h').
Proof.
  intros (L & G & HG & Hr) (L' & G' & HG' & Hr'). split; [rewrite map2_len; congruence|]. exists (fun q => map2 Rplus (G q) (G' q)). split; [intros q Hq; apply hg_add; auto|].
  intros i Hi. specialize (Hr i Hi). specialize (Hr' i Hi). pose proof (hg_add _ _ _ _ _ _ Hr Hr') as A. rewrite map2_map2 in A.
  eapply (hg_ext d _ (fun q => nth i (map2 Rplus (G q) (G' q)) 0)); [|erewrite map_ext; [exact A|]].
  - intros q Hq. cbv beta. symmetry. apply map2_nth; [destruct (HG q Hq), (HG' q Hq); congruence|ring].
  - intros j. simpl. apply map2_nth; [congruence|ring].
Qed.
Lemma hh_sub d f f' p h h' : has_hessian d f p h -> has_hessian d f' p h' -> has_hessian d (fun q => f q - f' q) p (map2 Rminus h h').
Proof.
  intros (L & G & HG & Hr) (L' & G' & HG' & Hr'). split; [rewrite map2_len; congruence|]. exists (fun q => map2 Rminus (G q) (G' q)). split; [intros q Hq; apply hg_sub; auto|].
  intros i Hi. specialize (Hr i Hi). specialize (Hr' i Hi). pose proof (hg_sub _ _ _ _ _ _ Hr Hr') as A. rewrite map2_map2 in A.
  eapply (hg_ext d _ (fun q => nth i (map2 Rminus (G q) (G' q)) 0)); [|erewrite map_ext; [exact A|]].
  - intros q Hq. cbv beta. symmetry. apply map2_nth; [destruct (HG q Hq), (HG' q Hq); congruence|ring].
  - intros j. simpl. apply map2_nth; [congruence|ring].
Qed.
