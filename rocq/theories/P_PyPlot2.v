(** C174: the picture of the cells of an unfitted domain. *)
From Coq Require Import Sorting.Sorted Lra ZifyBool.
From Verif Require L_Reparam2.
From Verif Require Import M_Real M_BBox M_Grid M_Domain S_Grid S_Domain S_TensorIndex L_TensorIndex L_Grid L_DomainQ P_Domain.
From Verif Require Import M_PyBase M_PyNodes M_PyMesh S_PyMesh L_PyMesh M_PyPlot.
Local Open Scope nat_scope.

(** The cells of VTK's rectilinear grid are those of the grid, in the same order. *)
Lemma flat_map_nth {A B} (f : A -> list B) m l k i : (forall x, length (f x) = m) -> i < m -> nth_error (flat_map f l) (i + m * k) = match nth_error l k with Some x => nth_error (f x) i | None => None end.
Proof.
  intros H Hi. revert k. induction l as [|x l IH]; intros [|k]; cbn [flat_map nth_error]; try (now destruct (i + _)).
  - rewrite Nat.mul_0_r, Nat.add_0_r. rewrite nth_error_app1 by (rewrite H; exact Hi). reflexivity.
  - rewrite nth_error_app2 by (rewrite H; nia). rewrite H. replace (i + m * S k - m) with (i + m * k) by nia. apply IH.
Qed.
Lemma combine_nth_error {A B} (a : list A) (b : list B) i : nth_error (combine a b) i = match nth_error a i, nth_error b i with Some x, Some y => Some (x, y) | _, _ => None end.
Proof. revert b i. induction a as [|x a IH]; intros [|y b] [|i]; cbn; try reflexivity; [now destruct (nth_error a i)|apply IH]. Qed.
Definition sizes (brks : list (list R)) : list Z := map (fun b => (Z.of_nat (length b) - 1)%Z) brks.
Lemma rect_nth brks t : valid_index (sizes brks) t ->
  nth_error (rect_cells brks) (Z.to_nat (lex (sizes brks) t)) = Some (map2 (fun b i => nth (Z.to_nat i) b 0%R) brks t, map2 (fun b i => nth (S (Z.to_nat i)) b 0%R) brks t).
Proof.
  revert t. induction brks as [|b brks IH]; intros [|i t] H; inversion H; subst; [reflexivity|]. cbn beta in *. cbn [rect_cells sizes map lex map2].
  assert (Hl : (0 <= lex (sizes brks) t < cells (sizes brks))%Z) by (now apply lex_bounds).
  replace (Z.to_nat (i + (Z.of_nat (length b) - 1) * lex (map (fun b0 => (Z.of_nat (length b0) - 1)%Z) brks) t)) with (Z.to_nat i + (length b - 1) * Z.to_nat (lex (sizes brks) t)) by (unfold sizes in *; nia).
  rewrite (flat_map_nth _ (length b - 1)); [|intros x; rewrite map_length, combine_length; destruct b; cbn [length tl]; lia|lia]. rewrite IH by auto. cbn beta iota.
  rewrite nth_error_map, combine_nth_error. rewrite (nth_error_nth' b 0%R) by lia. destruct b as [|b0 b]; [cbn in *; lia|]. cbn [tl length] in *. rewrite (nth_error_nth' b 0%R) by lia. reflexivity.
Qed.
Lemma rect_len brks : Forall (fun b => 1 <= length b) brks -> Z.of_nat (length (rect_cells brks)) = cells (sizes brks).
Proof.
  induction 1 as [|b brks H _ IH]; [reflexivity|]. cbn [rect_cells sizes map cells fold_right]. unfold sizes, cells in IH. rewrite <- IH. clear IH.
  set (l := rect_cells brks). clearbody l. induction l as [|c l IH]; cbn [flat_map length]; [lia|]. rewrite app_length, map_length, combine_length. replace (Nat.min (length b) (length (tl b))) with (length b - 1) by (destruct b; cbn [length tl]; lia). nia.
Qed.
Lemma sizes_ok g : grid_facts g -> sizes (breaks g) = num_cells_dir g.
Proof.
  intros Hg. apply nth_ext with (d := 0%Z) (d' := 0%Z); [unfold sizes; rewrite map_length; symmetry; apply size_length; exact Hg|]. intros d Hd. unfold sizes in Hd. rewrite map_length in Hd.
  rewrite (size_nth g Hg) by exact Hd. unfold sizes. rewrite (nth_indep _ 0%Z ((fun b : list R => (Z.of_nat (length b) - 1)%Z) [])) by (rewrite map_length; exact Hd). rewrite (map_nth (fun b : list R => (Z.of_nat (length b) - 1)%Z)). reflexivity.
Qed.
Lemma grid_picture g : usable_grid g -> length (breaks g) <= 3 -> exists l, cart_grid_cells (breaks g) = Ret l /\ length l = Z.to_nat (num_cells g)
  /\ forall k, cell_id g (Z.of_nat k) -> exists lo hi, nth_error l k = Some (Z.of_nat k, (lo, hi)) /\ get_cell_domain g (Z.of_nat k) = Ret (mk_box lo hi).
Proof.
  intros Hu H3. pose proof (usable_facts g Hu) as (Hg & Hc & _ & En). unfold cart_grid_cells.
  assert (H1 : 1 <= length (breaks g)). { destruct Hu as ((brks & Hne & Hmk) & _). destruct (make_grid_facts _ _ Hne Hmk) as (_ & ->). destruct brks; [congruence|cbn; lia]. }
  rewrite (proj2 (Nat.leb_le _ _) H1), (proj2 (Nat.leb_le _ _) H3). cbn [andb assert_].
  assert (L : length (rect_cells (breaks g)) = Z.to_nat (num_cells g)).
  { apply Nat2Z.inj. rewrite rect_len, sizes_ok, En by (auto; apply Forall_forall; intros b Hb; destruct (In_nth _ _ [] Hb) as (d & Hd & <-); destruct (gf_good g Hg d Hd); lia).
    rewrite Z2Nat.id; [reflexivity|]. pose proof (cells_pos (num_cells_dir g) (size_pos g Hg)). lia. }
  eexists. split; [reflexivity|]. split; [rewrite combine_length, map_length, seq_length; lia|]. intros k Hk. unfold cell_id in Hk.
  destruct (valid_exists g Hg Hc (Z.of_nat k)) as (t & Hv & E); [lia|]. exists (cell_lo g t), (cell_hi g t). split; [|rewrite <- E; now apply cell_domain_ok].
  rewrite combine_nth_error, nth_error_map. rewrite (nth_error_nth' (seq 0 (length (rect_cells (breaks g)))) 0) by (rewrite seq_length; lia). rewrite seq_nth by lia. cbn [option_map].
  rewrite <- (sizes_ok g Hg) in Hv, E. pose proof (rect_nth (breaks g) t Hv) as X. rewrite E, Nat2Z.id in X. rewrite X. reflexivity.
Qed.

(** numpy's l[ids] = v. *)
Lemma fill_ok {A} (l : list A) ids v d : (forall i, In i ids -> (0 <= i < Z.of_nat (length l))%Z) ->
  exists r, fill l ids v = Ret r /\ length r = length l /\ forall k, k < length l -> nth k r d = if existsb (Z.eqb (Z.of_nat k)) ids then v else nth k l d.
Proof.
  revert l. induction ids as [|i ids IH]; intros l H; cbn [fill].
  - exists l. auto.
  - pose proof (H i (or_introl eq_refl)) as Hi. rewrite (proj2 (Z.leb_le 0 i)) by lia. rewrite (proj2 (Z.leb_le 0 i)), (proj2 (Z.ltb_lt _ _)) by lia. cbn [andb].
    set (l1 := firstn (Z.to_nat i) l ++ [v] ++ skipn (S (Z.to_nat i)) l).
    assert (L1 : length l1 = length l) by (unfold l1; rewrite !app_length, firstn_length, skipn_length; cbn; lia).
    destruct (IH l1) as (r & E & L & N); [intros j Hj; rewrite L1; apply H; right; exact Hj|]. exists r. split; [exact E|]. split; [lia|]. intros k Hk. rewrite N by lia. cbn [existsb].
    destruct (existsb (Z.eqb (Z.of_nat k)) ids); [rewrite orb_true_r; reflexivity|]. rewrite orb_false_r. unfold l1.
    destruct (Z.eqb_spec (Z.of_nat k) i) as [<-|N1].
    + rewrite Nat2Z.id. rewrite app_nth2 by (rewrite firstn_length; lia). rewrite firstn_length, Nat.min_l by lia. rewrite Nat.sub_diag. reflexivity.
    + destruct (Nat.lt_ge_cases k (Z.to_nat i)).
      * rewrite app_nth1 by (rewrite firstn_length; lia). apply L_Reparam2.nth_firstn_c. lia.
      * rewrite app_nth2 by (rewrite firstn_length; lia). rewrite firstn_length, Nat.min_l by lia. replace (k - Z.to_nat i) with (S (k - S (Z.to_nat i))) by lia. cbn [app nth]. rewrite L_Reparam2.nth_skipn_c. f_equal. lia.
Qed.
Lemma mem_spec k ids : existsb (Z.eqb k) ids = true <-> In k ids.
Proof. rewrite existsb_exists. split; [intros (x & H & E); apply Z.eqb_eq in E; subst; exact H|intros H; exists k; rewrite Z.eqb_refl; auto]. Qed.
Lemma combine_filter {A B} (a : list A) (b : list B) (c : list bool) x : length b = length a -> length c = length a -> forall db dc,
  In x (map fst (filter (fun y : A * B * bool => snd y) (combine (combine a b) c))) <-> exists k, nth_error a k = Some (fst x) /\ snd x = nth k b db /\ nth k c dc = true.
Proof.
  revert b c. induction a as [|u a IH]; intros [|v b] [|w c] Hb Hc db dc; try discriminate; cbn [combine filter map].
  - split; [intros []|]. intros ([|k] & E & _); discriminate.
  - assert (X : In x (map fst (filter (fun y : A * B * bool => snd y) (combine (combine a b) c))) <-> exists k, nth_error (u :: a) (S k) = Some (fst x) /\ snd x = nth (S k) (v :: b) db /\ nth (S k) (w :: c) dc = true)
      by (apply IH; auto).
    cbn [snd]. destruct w; cbn [map fst]; [cbn [In]|]; rewrite X; clear X.
    + split; [intros [<-|(k & K)]; [exists 0; cbn; auto|exists (S k); exact K]|]. intros ([|k] & K1 & K2 & K3); [left; cbn in K1, K2; injection K1 as ->; destruct x; cbn in *; congruence|right; exists k; auto].
    + split; [intros (k & K); exists (S k); exact K|]. intros ([|k] & K1 & K2 & K3); [discriminate|exists k; auto].
Qed.
(** The picture shows the k-th cell with the status that the lists give to the number k. *)
Lemma cells_picture_ok n cells cut_cells full_cells c f e : length cells = n -> (forall i, In i cut_cells -> (0 <= i < Z.of_nat n)%Z) -> (forall i, In i full_cells -> (0 <= i < Z.of_nat n)%Z) ->
  exists l, cells_picture n cells cut_cells full_cells c f e = Ret l /\
  forall x st, In (x, st) l <-> exists k, nth_error cells k = Some x
     /\ ((In (Z.of_nat k) full_cells /\ st = 0 /\ f = true) \/ (~ In (Z.of_nat k) full_cells /\ In (Z.of_nat k) cut_cells /\ st = 1 /\ c = true)
         \/ (~ In (Z.of_nat k) full_cells /\ ~ In (Z.of_nat k) cut_cells /\ st = 2 /\ e = true)).
Proof.
  intros L Hc Hf. unfold cells_picture.
  destruct (fill_ok (repeat e n) cut_cells c false) as (v1 & E1 & L1 & N1); [now rewrite repeat_length|]. rewrite repeat_length in L1, N1.
  destruct (fill_ok (repeat 2 n) cut_cells 1 0) as (s1 & E2 & L2 & N2); [now rewrite repeat_length|]. rewrite repeat_length in L2, N2.
  destruct (fill_ok v1 full_cells f false) as (v2 & E3 & L3 & N3); [now rewrite L1|]. rewrite L1 in L3, N3.
  destruct (fill_ok s1 full_cells 0 0) as (s2 & E4 & L4 & N4); [now rewrite L2|]. rewrite L2 in L4, N4.
  rewrite E1. cbn [bind]. rewrite E2. cbn [bind]. rewrite E3. cbn [bind]. rewrite E4. cbn [bind]. rewrite L, Nat.eqb_refl. cbn [assert_]. eexists. split; [reflexivity|]. intros x st.
  rewrite (combine_filter cells s2 v2 (x, st)) with (db := 0) (dc := false) by lia. cbn [fst snd].
  assert (R2 : forall A (y : A) k d, k < n -> nth k (repeat y n) d = y).
  { clear. intros A y. induction n as [|n IH]; intros [|k] d H; try lia; cbn; [reflexivity|]. apply IH. lia. }
  split; intros (k & K); exists k.
  - destruct K as (K1 & K2 & K3). split; [exact K1|]. assert (Hk : k < n) by (rewrite <- L; apply nth_error_Some; congruence).
    rewrite N4, N2, R2 in K2 by exact Hk. rewrite N3, N1, R2 in K3 by exact Hk. pose proof (mem_spec (Z.of_nat k) full_cells) as M1. pose proof (mem_spec (Z.of_nat k) cut_cells) as M2.
    destruct (existsb (Z.eqb (Z.of_nat k)) full_cells); [left; tauto|]. assert (NF : ~ In (Z.of_nat k) full_cells) by (intros X; apply M1 in X; discriminate).
    destruct (existsb (Z.eqb (Z.of_nat k)) cut_cells); [right; left; tauto|]. right; right. split; [exact NF|]. split; [intros X; apply M2 in X; discriminate|auto].
  - destruct K as (K1 & K). split; [exact K1|]. assert (Hk : k < n) by (rewrite <- L; apply nth_error_Some; congruence).
    rewrite N4, N2, R2 by exact Hk. rewrite N3, N1, R2 by exact Hk. pose proof (mem_spec (Z.of_nat k) full_cells) as M1. pose proof (mem_spec (Z.of_nat k) cut_cells) as M2.
    destruct K as [(A & -> & ->)|[(A & B & -> & ->)|(A & B & -> & ->)]].
    + apply M1 in A. rewrite A. auto.
    + apply M2 in B. rewrite B. destruct (existsb (Z.eqb (Z.of_nat k)) full_cells); [exfalso; tauto|auto].
    + destruct (existsb (Z.eqb (Z.of_nat k)) full_cells); [exfalso; tauto|]. destruct (existsb (Z.eqb (Z.of_nat k)) cut_cells); [exfalso; tauto|auto].
Qed.

(** A domain of C++: the picture shows exactly the cells whose kind was asked for, each in its own box with its own status. *)
Theorem C174_cpp_domains : forall g sign ccell cfacet D s c f e, built g sign ccell cfacet D s -> length (breaks g) <= 3 ->
  exists F E C l, get_cells D Cfull = Ret F /\ get_cells D Cempty = Ret E /\ get_cells D Ccut = Ret C /\ domain_picture D c f e = Ret l
  /\ forall id lo hi st, In (id, (lo, hi), st) l <-> cell_id g id /\ get_cell_domain g id = Ret (mk_box lo hi)
       /\ ((st = 0 /\ In id F /\ f = true) \/ (st = 1 /\ In id C /\ c = true) \/ (st = 2 /\ In id E /\ e = true)).
Proof.
  intros g sign ccell cfacet D s c f e HB H3. destruct (C13_cells_partition g sign ccell cfacet D s HB) as (F & E & C & EF & EE & EC & _ & _ & _ & P1 & P2 & _).
  assert (Hu : usable_grid g) by apply HB. pose proof (df_grid _ _ _ _ _ _ (built_facts _ _ _ _ _ _ HB)) as HD.
  destruct (grid_picture g Hu H3) as (gl & Eg & Lg & Ng). unfold domain_picture. rewrite HD, Eg. cbn [bind].
  assert (Hn : (0 <= num_cells g)%Z) by (pose proof (usable_facts g Hu) as (Hg & Hc & _ & En); rewrite En; pose proof (cells_pos (num_cells_dir g) (size_pos g Hg)); lia).
  destruct (cells_picture_ok (Z.to_nat (num_cells g)) gl C F c f e Lg) as (l & El & Nl);
    [intros i Hi; assert (X : cell_id g i) by (apply P1; auto); unfold cell_id in X; lia|intros i Hi; assert (X : cell_id g i) by (apply P1; auto); unfold cell_id in X; lia|].
  exists F, E, C, l. split; [exact EF|]. split; [exact EE|]. split; [exact EC|]. split; [rewrite EC; cbn [bind]; rewrite EF; exact El|].
  intros id lo hi st. rewrite Nl. split.
  - intros (k & K1 & K2). assert (Hk : k < length gl) by (apply nth_error_Some; congruence). assert (Hc : cell_id g (Z.of_nat k)) by (unfold cell_id; lia).
    destruct (Ng k Hc) as (lo' & hi' & A & B). rewrite A in K1. injection K1 as <- <- <-. split; [exact Hc|]. split; [exact B|]. apply P1 in Hc. specialize (P2 (Z.of_nat k)). tauto.
  - intros (Hc & Hb & K). assert (Hc' := Hc). unfold cell_id in Hc. exists (Z.to_nat id). rewrite Z2Nat.id by lia. destruct (Ng (Z.to_nat id)) as (lo' & hi' & A & B); [rewrite Z2Nat.id by lia; exact Hc'|].
    rewrite Z2Nat.id in A, B by lia. rewrite Hb in B. injection B as <- <-. split; [exact A|]. apply P1 in Hc'. specialize (P2 id). tauto.
Qed.
Print Assumptions C174_cpp_domains.

(** Python meshes. The cells of a mesh. *)
Definition mesh_cells (m : mesh) (g : grid) : list Z := match active_cells m with Some a => a | None => map Z.of_nat (seq 0 (Z.to_nat (num_cells g))) end.
(** [ids] are the positions in DOLFINx' numbering of the (original) cells [l] of the mesh. *)
Definition dolfinx_ids (m : mesh) (l ids : list Z) : Prop := forall i, In i ids <-> exists c, original_of m i c /\ In c l.
Lemma mesh_grid_ok m g : usable_grid g -> length (breaks g) <= 3 -> cells_of_process m (Z.to_nat (num_cells g)) ->
  exists l, mesh_grid_cells m (breaks g) = Ret l /\ length l = length (mesh_cells m g)
  /\ forall k, k < length (mesh_cells m g) -> exists lo hi, nth_error l k = Some (nth k (mesh_cells m g) 0%Z, (lo, hi)) /\ get_cell_domain g (nth k (mesh_cells m g) 0%Z) = Ret (mk_box lo hi).
Proof.
  intros Hu H3 (_ & Ha). destruct (grid_picture g Hu H3) as (gl & Eg & Lg & Ng). unfold mesh_grid_cells, mesh_cells. rewrite Eg. cbn [bind]. destruct (active_cells m) as [a|].
  - destruct Ha as (_ & Ha & _). rewrite (take_zids_ok gl (0%Z, ([], []))) by (intros i Hi; specialize (Ha i Hi); lia). eexists. split; [reflexivity|]. split; [apply map_length|].
    intros k Hk. specialize (Ha (nth k a 0%Z) (nth_In _ _ Hk)). destruct (Ng (Z.to_nat (nth k a 0%Z))) as (lo & hi & A & B); [unfold cell_id; lia|]. rewrite Z2Nat.id in A, B by lia.
    exists lo, hi. split; [|exact B]. rewrite nth_error_map, (nth_error_nth' a 0%Z) by exact Hk. cbn [option_map]. f_equal. now apply nth_error_nth.
  - exists gl. split; [reflexivity|]. rewrite map_length, seq_length. split; [exact Lg|]. intros k Hk. rewrite (nth_indep _ 0%Z (Z.of_nat 0)) by (rewrite map_length, seq_length; exact Hk). rewrite map_nth, seq_nth by exact Hk.
    apply Ng. unfold cell_id. lia.
Qed.
Lemma original_pos m i c : original_of m i c -> (0 <= i < Z.of_nat (length (original_cell_index m)))%Z.
Proof. intros (H & _). exact H. Qed.

(** Partial: the picture of a mesh on one process is right when DOLFINx kept the order of the cells. *)
Theorem C174_python_partial : forall m g C F cut_cells full_cells c f e, usable_grid g -> length (breaks g) <= 3 -> cells_of_process m (Z.to_nat (num_cells g)) ->
  original_cell_index m = map Z.of_nat (seq 0 (length (mesh_cells m g))) -> (forall x, ~ (In x C /\ In x F)) ->
  dolfinx_ids m C cut_cells -> dolfinx_ids m F full_cells ->
  exists l, mesh_picture m (breaks g) (length (mesh_cells m g)) cut_cells full_cells c f e = Ret l
  /\ forall id lo hi st, In (id, (lo, hi), st) l <-> In id (mesh_cells m g) /\ get_cell_domain g id = Ret (mk_box lo hi)
       /\ ((st = 0 /\ In id F /\ f = true) \/ (st = 1 /\ In id C /\ c = true) \/ (st = 2 /\ ~ In id F /\ ~ In id C /\ e = true)).
Proof.
  intros m g C F cc fc c f e Hu H3 HP HO HD HC HF. destruct (mesh_grid_ok m g Hu H3 HP) as (gl & Eg & Lg & Ng). unfold mesh_picture. rewrite Eg. cbn [bind].
  assert (LO : length (original_cell_index m) = length (mesh_cells m g)) by (rewrite HO, map_length, seq_length; reflexivity).
  assert (NO : forall k, k < length (mesh_cells m g) -> nth k (original_cell_index m) 0%Z = Z.of_nat k).
  { intros k Hk. rewrite HO. rewrite (nth_indep _ 0%Z (Z.of_nat 0)) by (rewrite map_length, seq_length; exact Hk). rewrite map_nth, seq_nth by exact Hk. reflexivity. }
  assert (K : forall l ids, dolfinx_ids m l ids -> forall k, k < length (mesh_cells m g) -> (In (Z.of_nat k) ids <-> In (nth k (mesh_cells m g) 0%Z) l)).
  { intros l ids H k Hk. rewrite (H (Z.of_nat k)). assert (X : forall x, original_of m (Z.of_nat k) x <-> x = nth k (mesh_cells m g) 0%Z).
    { intros x. unfold original_of. rewrite Nat2Z.id, (NO k Hk). unfold mesh_cells in *. destruct (active_cells m) as [a|].
      - rewrite Nat2Z.id. rewrite (nth_indep a (-1)%Z 0%Z) by exact Hk. split; [intros (_ & E); congruence|intros ->; split; [lia|reflexivity]].
      - rewrite (nth_indep _ 0%Z (Z.of_nat 0)) by exact Hk. rewrite map_length, seq_length in *. rewrite map_nth, seq_nth by exact Hk. rewrite Nat.add_0_l. split; [intros (_ & E); congruence|intros ->; split; [lia|reflexivity]]. }
    split; [intros (x & A & B); apply X in A; subst; exact B|intros A; exists (nth k (mesh_cells m g) 0%Z); split; [now apply X|exact A]]. }
  destruct (cells_picture_ok (length (mesh_cells m g)) gl cc fc c f e Lg) as (l & El & Nl);
    [intros i Hi; apply HC in Hi as (x & A & _); apply original_pos in A; lia|intros i Hi; apply HF in Hi as (x & A & _); apply original_pos in A; lia|].
  exists l. split; [exact El|]. intros id lo hi st. rewrite Nl. split.
  - intros (k & K1 & K2). assert (Hk : k < length (mesh_cells m g)) by (rewrite <- Lg; apply nth_error_Some; congruence). destruct (Ng k Hk) as (lo' & hi' & A & B). rewrite A in K1. injection K1 as <- <- <-.
    split; [now apply nth_In|]. split; [exact B|]. pose proof (K _ _ HC k Hk). pose proof (K _ _ HF k Hk). tauto.
  - intros (Hi & Hb & Hs). destruct (In_nth _ _ 0%Z Hi) as (k & Hk & <-). exists k. destruct (Ng k Hk) as (lo' & hi' & A & B). rewrite Hb in B. injection B as <- <-. split; [exact A|].
    pose proof (K _ _ HC k Hk). pose proof (K _ _ HF k Hk). specialize (HD (nth k (mesh_cells m g) 0%Z)). tauto.
Qed.
Print Assumptions C174_python_partial.

(** Refuted: as soon as DOLFINx numbered the cells in another order, the picture of some domain shows as cut a cell that is not cut. *)
Theorem C174_python_refuted : forall m g, usable_grid g -> length (breaks g) <= 3 -> cells_of_process m (Z.to_nat (num_cells g)) -> active_cells m = None ->
  length (original_cell_index m) = Z.to_nat (num_cells g) -> original_cell_index m <> map Z.of_nat (seq 0 (Z.to_nat (num_cells g))) ->
  exists C cut_cells l, dolfinx_ids m C cut_cells /\ mesh_picture m (breaks g) (Z.to_nat (num_cells g)) cut_cells [] true false false = Ret l
  /\ exists id b, In (id, b, 1) l /\ ~ In id C.
Proof.
  intros m g Hu H3 HP HA HL HN. assert (N : exists k, k < Z.to_nat (num_cells g) /\ nth k (original_cell_index m) 0%Z <> Z.of_nat k).
  { destruct (existsb (fun k => negb (nth k (original_cell_index m) 0 =? Z.of_nat k)%Z) (seq 0 (Z.to_nat (num_cells g)))) eqn:E.
    - apply existsb_exists in E as (k & Hk & E). apply in_seq in Hk. exists k. split; [lia|]. intros X. rewrite X, Z.eqb_refl in E. discriminate.
    - exfalso. apply HN. apply nth_ext with (d := 0%Z) (d' := Z.of_nat 0); [rewrite map_length, seq_length; exact HL|]. intros k Hk. rewrite map_nth, seq_nth by lia.
      apply Z.eqb_eq. destruct (nth k (original_cell_index m) 0 =? Z.of_nat k)%Z eqn:X; [exact X|]. exfalso. assert (Y : existsb (fun k => negb (nth k (original_cell_index m) 0 =? Z.of_nat k)%Z) (seq 0 (Z.to_nat (num_cells g))) = true); [|congruence].
      apply existsb_exists. exists k. split; [apply in_seq; lia|]. rewrite X. reflexivity. }
  destruct N as (k & Hk & Nk). destruct (mesh_grid_ok m g Hu H3 HP) as (gl & Eg & Lg & Ng). assert (LM : length (mesh_cells m g) = Z.to_nat (num_cells g)) by (unfold mesh_cells; rewrite HA, map_length, seq_length; reflexivity).
  set (x := nth k (original_cell_index m) 0%Z) in *. exists [x], [Z.of_nat k].
  destruct (cells_picture_ok (Z.to_nat (num_cells g)) gl [Z.of_nat k] [] true false false) as (l & El & Nl); [lia|intros i [<-|[]]; lia|intros i []|].
  exists l. split; [|split].
  - destruct HP as (ND & _). intros i. unfold original_of. rewrite HA. split.
    + intros [<-|[]]. exists x. split; [split; [lia|]|left; reflexivity]. rewrite Nat2Z.id. reflexivity.
    + intros (y & (A & B) & [C|[]]). subst y. left. rewrite <- (Z2Nat.id i) by lia. f_equal. rewrite (NoDup_nth (original_cell_index m) 0%Z) in ND. apply ND; [lia|lia|]. unfold x in C. congruence.
  - unfold mesh_picture. rewrite Eg. exact El.
  - destruct (Ng k) as (lo & hi & A & B); [lia|]. exists (nth k (mesh_cells m g) 0%Z), (lo, hi). split.
    + apply Nl. exists k. split; [exact A|]. right. left. split; [intros []|]. split; [left; reflexivity|]. auto.
    + intros [X|[]]. apply Nk. rewrite X. unfold mesh_cells. rewrite HA. rewrite (nth_indep _ 0%Z (Z.of_nat 0)) by (rewrite map_length, seq_length; exact Hk). rewrite map_nth, seq_nth by exact Hk. reflexivity.
Qed.
Print Assumptions C174_python_refuted.
