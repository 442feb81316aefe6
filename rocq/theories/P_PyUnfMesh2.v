(** C166: the arguments of create_unfitted_impl_Cartesian_mesh. *)
From Coq Require Import List Arith Bool Lia ZArith Reals Lra.
From Verif Require Import M_Domain M_Grid L_Real L_Grid.
From Verif Require Import M_PyBase M_PyNodes M_PyFacets M_PyTp M_PyMesh M_PyTpMesh L_PyNodes P_PyMesh M_PyUnfMesh S_PyUnfMesh L_PyUnfMesh.
From Verif Require P_PyBind.
Import ListNotations. Local Close Scope R_scope.
Local Open Scope Z_scope.

Lemma nth_repeat_in {A} (x d : A) n k : (k < n)%nat -> nth k (repeat x n) d = x.
Proof. intros H. rewrite (nth_indep _ d x) by (rewrite repeat_length; auto). apply nth_repeat. Qed.
Lemma forallb_no {A} (f : A -> bool) l : forallb f l = false -> exists x, In x l /\ f x = false.
Proof. induction l as [|x l IH]; cbn; [discriminate|]. destruct (f x) eqn:E; cbn; [intros H; destruct (IH H) as (y & I & F); eauto|eauto]. Qed.
Lemma pmap_never {A B} (f : A -> outcome B) o : (o = UB \/ o = OutOfFuel) -> (forall x, f x <> o) -> forall l, pmap f l <> match o with UB => UB | _ => OutOfFuel end.
Proof.
  intros Ho H. induction l as [|x l IH]; cbn [pmap]; [destruct Ho as [-> | ->]; discriminate|]. specialize (H x). destruct Ho as [-> | ->]; destruct (f x) eqn:E; cbn [bind]; try congruence; destruct (pmap f l); cbn [bind]; congruence.
Qed.
Lemma rtype_eqb_true a b : rtype_eqb a b = true <-> a = b.
Proof. destruct a, b; cbn; split; congruence. Qed.
Lemma all_gt_true u v : length u = length v -> (all_gt u v = true <-> forall d, (d < length u)%nat -> (nth d v 0 < nth d u 0)%R).
Proof.
  revert v. induction u as [|x u IH]; intros [|y v] L; cbn in L; try discriminate; cbn [all_gt length]; [split; auto; intros; lia|].
  rewrite andb_true_iff, IH by lia. split.
  - intros (H1 & H2) [|d] Hd; cbn [nth]; [apply Rltb_true; auto|apply H2; lia].
  - intros H. split; [apply Rltb_true; apply (H 0%nat); lia|]. intros d Hd. apply (H (S d)). lia.
Qed.
Lemma linspace_ok a b k : 0 <= k -> linspace a b (k + 1) = Ret (map (fun i => if (Z.to_nat (k + 1) =? 1)%nat then a else (a + INR i * ((b - a) / INR (Z.to_nat (k + 1) - 1)))%R) (seq 0 (Z.to_nat (k + 1)))).
Proof. intros H. unfold linspace. replace (k + 1 <? 0) with false by (symmetry; apply Z.ltb_ge; lia). reflexivity. Qed.
Definition breaks_dir (a b : R) (k : Z) : list R := map (fun i => (a + INR i * ((b - a) / IZR k))%R) (seq 0 (Z.to_nat k + 1)).
Lemma linspace_pos a b k : 1 <= k -> linspace a b (k + 1) = Ret (breaks_dir a b k).
Proof.
  intros H. rewrite linspace_ok by lia. f_equal. unfold breaks_dir. replace (Z.to_nat (k + 1)) with (Z.to_nat k + 1)%nat by lia. apply map_ext. intros i.
  destruct (Nat.eqb_spec (Z.to_nat k + 1) 1) as [E|_]; [lia|]. replace (Z.to_nat k + 1 - 1)%nat with (Z.to_nat k) by lia. rewrite (INR_IZR_INZ (Z.to_nat k)), Z2Nat.id by lia. reflexivity.
Qed.
Lemma linspace_bad a b k l : k < 1 -> linspace a b (k + 1) = Ret l -> (length l <= 1)%nat.
Proof.
  unfold linspace. intros H. destruct (k + 1 <? 0) eqn:E; [discriminate|]. intros X. injection X as <-. rewrite map_length, seq_length. lia.
Qed.
Lemma breaks_len a b k : 1 <= k -> length (breaks_dir a b k) = (Z.to_nat k + 1)%nat.
Proof. intros H. unfold breaks_dir. rewrite map_length, seq_length. reflexivity. Qed.
Lemma breaks_nth a b k i : 1 <= k -> (i <= Z.to_nat k)%nat -> nth i (breaks_dir a b k) 0%R = (a + INR i * ((b - a) / IZR k))%R.
Proof. intros H Hi. unfold breaks_dir. set (f := fun i => _). rewrite (nth_indep _ 0%R (f 0%nat)) by (rewrite map_length, seq_length; lia). rewrite map_nth, seq_nth by lia. reflexivity. Qed.
Lemma breaks_good a b k : 1 <= k -> (a < b)%R -> good (breaks_dir a b k).
Proof.
  intros H Hab. split; [rewrite breaks_len; lia|]. rewrite breaks_len by auto. intros i j Hij. rewrite !breaks_nth by lia.
  assert (0 < (b - a) / IZR k)%R. { apply Rdiv_lt_0_compat; [lra|apply IZR_lt; lia]. } assert (INR i < INR j)%R by (apply lt_INR; lia). nra.
Qed.

(** C166: valid arguments give the grid with the requested number of cells per direction, equispaced breaks from xmin to xmax, and the type;
    others raise. *)
Theorem C166_arguments : forall dim n_cells xmin xmax dtype,
  (forall lo hi t, arguments_ok dim n_cells xmin xmax dtype lo hi t ->
     exists g, grid_of_arguments dim n_cells xmin xmax dtype = Ret (g, t) /\ grid_facts g /\ length (breaks g) = dim
       /\ bmin (gdomain g) = lo /\ bmax (gdomain g) = hi
       /\ forall d k, (d < dim)%nat -> number_in dim n_cells d k ->
            nth d (num_cells_dir g) 0 = k
            /\ forall i, 0 <= i <= k -> nth (Z.to_nat i) (nth d (breaks g) []) 0%R = (nth d lo 0 + IZR i / IZR k * (nth d hi 0 - nth d lo 0))%R)
  /\ ((forall lo hi t, ~ arguments_ok dim n_cells xmin xmax dtype lo hi t) -> grid_of_arguments dim n_cells xmin xmax dtype = Abort).
Proof.
  intros dim a xmin xmax dtype. split.
  - intros lo hi t (Hd & Hl & Hn & Ht & Hmin & Hmax & Htd & Hlo & Hhi & Llo & Lhi & Hlt).
    set (n := cells_per_dir dim a).
    assert (Ln : length n = dim). { unfold n, cells_per_dir. destruct a as [k|l]; [apply repeat_length|auto]. }
    assert (Hk : forall d k, (d < dim)%nat -> number_in dim a d k -> nth d n 0 = k).
    { intros d k Hdd. unfold number_in, n, cells_per_dir. destruct a as [k'|l]; [intros ->; apply nth_repeat_in; auto|intros E; apply nth_error_nth; auto]. }
    assert (Pn : forall d, (d < dim)%nat -> 1 <= nth d n 0). { intros d Hdd. destruct (Hn d Hdd) as (k & Nk & Pk). rewrite (Hk d k); auto. }
    unfold grid_of_arguments. fold n. replace ((2 <=? dim) && (dim <=? 3))%nat with true by (destruct Hd as [-> | ->]; reflexivity). cbn [assert_]. rewrite (proj2 (Nat.eqb_eq _ _) Ln). cbn [assert_].
    assert (Et : infer_dtype dtype xmin xmax = t).
    { unfold infer_dtype. destruct dtype as [t'|]; [symmetry; auto|]. destruct xmin as [c|]; [apply (Hmin c eq_refl)|]. destruct xmax as [c|]; [apply (Hmax c eq_refl)|symmetry; auto]. }
    rewrite Et.
    assert (E1 : fill_corner dim t 0%R xmin = Ret (t, lo)).
    { unfold fill_corner. destruct xmin as [(t1, l1)|]; [|rewrite Hlo by auto; reflexivity]. destruct (Hmin _ eq_refl) as (X & Y). cbn [fst snd] in X, Y |- *. rewrite X, Y. destruct t; reflexivity. }
    assert (E2 : fill_corner dim t 1%R xmax = Ret (t, hi)).
    { unfold fill_corner. destruct xmax as [(t1, l1)|]; [|rewrite Hhi by auto; reflexivity]. destruct (Hmax _ eq_refl) as (X & Y). cbn [fst snd] in X, Y |- *. rewrite X, Y. destruct t; reflexivity. }
    rewrite E1, E2. cbn [bind fst snd]. rewrite Llo, Lhi, Nat.eqb_refl. cbn [andb assert_].
    assert (Eg : all_gt hi lo = true) by (apply (proj2 (all_gt_true hi lo ltac:(lia))); rewrite Lhi; exact Hlt). rewrite Eg. cbn [assert_].
    rewrite (L_PyNodes.pmap_ret _ (fun d => breaks_dir (nth d lo 0%R) (nth d hi 0%R) (nth d n 0))) by (intros d Hdd; apply in_seq in Hdd; apply linspace_pos, Pn; lia). cbn [bind].
    set (brks := map _ (seq 0 dim)). assert (Lb : length brks = dim) by (unfold brks; rewrite map_length, seq_length; auto).
    assert (Nb : forall d, (d < dim)%nat -> nth d brks [] = breaks_dir (nth d lo 0%R) (nth d hi 0%R) (nth d n 0)).
    { intros d Hdd. unfold brks. set (f := fun d => _). rewrite (nth_indep _ [] (f 0%nat)) by (rewrite map_length, seq_length; lia). rewrite map_nth, seq_nth by lia. reflexivity. }
    assert (Gb : forall d, (d < length brks)%nat -> good (nth d brks [])). { intros d Hdd. rewrite Lb in Hdd. rewrite Nb by auto. apply breaks_good; auto. }
    destruct (make_grid_ok brks Gb) as (g & EG). rewrite EG. cbn [bind]. exists g. split; [reflexivity|].
    assert (brks <> []) by (destruct brks; [cbn in Lb; lia|discriminate]). destruct (make_grid_facts brks g ltac:(auto) EG) as (GF & Bg).
    split; [exact GF|]. split; [rewrite Bg; exact Lb|].
    assert (Ext : forall (u v : list R), length u = length v -> (forall d, (d < length u)%nat -> nth d u 0%R = nth d v 0%R) -> u = v) by (intros u v X Y; apply (nth_ext _ _ 0%R 0%R); auto).
    split; [|split].
    + rewrite (gf_min g GF), Bg. apply Ext; [rewrite map_length; lia|]. rewrite map_length, Lb. intros d Hdd. rewrite (nth_indep _ 0%R (nth 0 [] 0%R)) by (rewrite map_length; lia).
      rewrite (map_nth (fun b => nth 0 b 0%R)). rewrite Nb by auto. rewrite breaks_nth by (try apply Pn; auto; lia). cbn [INR]. ring.
    + rewrite (gf_max g GF), Bg. apply Ext; [rewrite map_length; lia|]. rewrite map_length, Lb. intros d Hdd. rewrite (nth_indep _ 0%R ((fun b : list R => nth (length b - 1)%nat b 0%R) [])) by (rewrite map_length; lia).
      rewrite (map_nth (fun b : list R => nth (length b - 1)%nat b 0%R)). rewrite Nb by auto. specialize (Pn d Hdd). rewrite breaks_len by auto. rewrite breaks_nth by lia. replace (Z.to_nat (nth d n 0%Z) + 1 - 1)%nat with (Z.to_nat (nth d n 0)) by lia.
      rewrite INR_IZR_INZ, Z2Nat.id by (lia). field. apply not_0_IZR. lia.
    + intros d k Hdd Nk. rewrite <- (Hk d k Hdd Nk). specialize (Pn d Hdd). split.
      * rewrite (size_nth g GF d) by (rewrite Bg, Lb; auto). rewrite Bg, Nb, breaks_len by auto. lia.
      * intros i Hi. rewrite Bg, Nb by auto. rewrite breaks_nth by lia. rewrite (INR_IZR_INZ (Z.to_nat i)), Z2Nat.id by lia. field. apply not_0_IZR. lia.
  - intros Hno. unfold grid_of_arguments. destruct ((2 <=? dim) && (dim <=? 3))%nat eqn:Ed; cbn [assert_]; [|reflexivity].
    assert (Hd : (dim = 2 \/ dim = 3)%nat). { apply andb_true_iff in Ed. destruct Ed as (A & B). apply Nat.leb_le in A, B. lia. }
    set (n := cells_per_dir dim a). destruct (Nat.eqb_spec (length n) dim) as [Ln|Ln]; cbn [assert_]; [|reflexivity].
    set (t := infer_dtype dtype xmin xmax).
    destruct (fill_corner dim t 0%R xmin) as [(t1, lo)| | |] eqn:E1; cbn [bind];
      [|reflexivity|unfold fill_corner in E1; destruct xmin as [c|]; [destruct (rtype_eqb _ _)|]; discriminate|unfold fill_corner in E1; destruct xmin as [c|]; [destruct (rtype_eqb _ _)|]; discriminate].
    destruct (fill_corner dim t 1%R xmax) as [(t2, hi)| | |] eqn:E2; cbn [bind];
      [|reflexivity|unfold fill_corner in E2; destruct xmax as [c|]; [destruct (rtype_eqb _ _)|]; discriminate|unfold fill_corner in E2; destruct xmax as [c|]; [destruct (rtype_eqb _ _)|]; discriminate].
    cbn [fst snd]. destruct ((dim =? length lo) && (dim =? length hi))%nat eqn:El; cbn [assert_]; [|reflexivity]. apply andb_true_iff in El. destruct El as (L1 & L2). apply Nat.eqb_eq in L1, L2.
    destruct (all_gt hi lo) eqn:Eg; cbn [assert_]; [|reflexivity]. assert (Hlt := proj1 (all_gt_true hi lo ltac:(lia)) Eg). rewrite <- L2 in Hlt.
    destruct (forallb (fun d => 1 <=? nth d n 0) (seq 0 dim)) eqn:Ef.
    { exfalso. apply (Hno lo hi t). rewrite forallb_forall in Ef. split; [exact Hd|].
      split; [intros l ->; exact Ln|]. split.
      { intros d Hdd. exists (nth d n 0). split; [|apply Z.leb_le, Ef, in_seq; lia]. unfold number_in, n, cells_per_dir. unfold n, cells_per_dir in Ln. destruct a as [k|l]; [apply nth_repeat_in; auto|]. apply nth_error_nth'. lia. }
      assert (C1 : forall c, xmin = Some c -> fst c = t /\ snd c = lo).
      { intros c ->. unfold fill_corner in E1. destruct (rtype_eqb (fst c) t) eqn:X; [|discriminate]. apply rtype_eqb_true in X. injection E1 as ->. auto. }
      assert (C2 : forall c, xmax = Some c -> fst c = t /\ snd c = hi).
      { intros c ->. unfold fill_corner in E2. destruct (rtype_eqb (fst c) t) eqn:X; [|discriminate]. apply rtype_eqb_true in X. injection E2 as ->. auto. }
      split; [intros t' ->; reflexivity|]. split; [exact C1|]. split; [exact C2|]. split; [intros -> -> ->; reflexivity|].
      split; [intros ->; cbn in E1; congruence|]. split; [intros ->; cbn in E2; congruence|]. split; [lia|]. split; [lia|]. exact Hlt. }
    destruct (pmap _ (seq 0 dim)) as [brks| | |] eqn:Ep; cbn [bind]; [|reflexivity| |].
    + assert (Bad : exists d, (d < dim)%nat /\ nth d n 0 < 1).
      { apply forallb_no in Ef. destruct Ef as (d & Hdd & X). apply in_seq in Hdd. exists d. split; [lia|]. apply Z.leb_gt in X. lia. }
      destruct Bad as (d & Hdd & Bd). destruct (proj2 (P_PyBind.pmap_inv _ _ _ Ep) d d) as (b & Eb & Ib); [rewrite (nth_error_nth' _ 0%nat) by (rewrite seq_length; lia); rewrite seq_nth; auto|].
      apply linspace_bad in Eb; [|exact Bd]. unfold make_grid.
      destruct (forallb _ brks) eqn:Eb2; [|reflexivity]. rewrite forallb_forall in Eb2. specialize (Eb2 b ltac:(eapply nth_error_In; eauto)). apply andb_true_iff in Eb2. destruct Eb2 as (X & _). apply Nat.ltb_lt in X. lia.
    + exfalso. revert Ep. apply (pmap_never _ UB); [auto|]. intros d. unfold linspace. destruct (_ <? 0); discriminate.
    + exfalso. revert Ep. apply (pmap_never _ OutOfFuel); [auto|]. intros d. unfold linspace. destruct (_ <? 0); discriminate.
Qed.
Print Assumptions C166_arguments.
(** 2 cells per direction in the unit square, given as one number. *)
Example C166_case : arguments_ok 2 (CellsInt 2) None None None [0; 0]%R [1; 1]%R F64 /\ arguments_ok 2 (CellsList [2; 3]) (Some (F32, [0; 0]%R)) None None [0; 0]%R [1; 1]%R F32
  /\ forall lo hi t, ~ arguments_ok 2 (CellsInt 2) (Some (F64, [0; 0]%R)) (Some (F32, [1; 1]%R)) None lo hi t.
Proof.
  split; [|split].
  - split; [auto|]. split; [intros; discriminate|].
    split; [intros d Hd; exists 2; cbn; split; [reflexivity|lia]|]. do 3 (split; [intros; discriminate|]). do 5 (split; [reflexivity|]). intros [|[|d]] Hd; cbn; try lra; lia.
  - split; [auto|]. split; [intros l E; injection E as <-; reflexivity|]. split; [intros [|[|d]] Hd; [exists 2|exists 3|lia]; cbn; split; try reflexivity; lia|]. split; [intros; discriminate|].
    split; [intros c E; injection E as <-; auto|]. split; [intros; discriminate|]. split; [intros; discriminate|]. split; [intros; discriminate|]. do 3 (split; [reflexivity|]). intros [|[|d]] Hd; cbn; try lra; lia.
  - intros lo hi t (_ & _ & _ & _ & H1 & H2 & _). destruct (H1 _ eq_refl) as (E1 & _). destruct (H2 _ eq_refl) as (E2 & _). cbn in E1, E2. congruence.
Qed.
