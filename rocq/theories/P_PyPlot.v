(** C173: the pictures of quadratures show every point in its own cell, with its cell, facet and weight. *)
From Verif Require Import M_Real M_BBox M_Grid M_Domain S_Grid S_Domain L_QuadProps L_Real.
From Verif Require Import M_PyBase M_PyNodes M_PyMesh M_PyPlot.
From Coq Require Import Lra.
Local Open Scope nat_scope.

(** Point number k of the entity number j is the point number [point_index npts j k]. *)
Definition point_index (npts : list nat) (j k : nat) : nat := fold_right Nat.add 0 (firstn j npts) + k.
(** The arrays of a quadrature of cells fit together. *)
Definition fits (g : grid) (q : pquad) : Prop :=
  length (q_cells q) = length (q_npts q) /\ fold_right Nat.add 0 (q_npts q) = length (q_points q) /\ length (q_weights q) = length (q_points q)
  /\ Forall (fun p => length p = length (breaks g)) (q_points q) /\ Forall (cell_id g) (q_cells q)
  /\ match q_normals q with Some ns => length ns = length (q_points q) /\ Forall (fun p => length p = length (breaks g)) ns | None => True end.
(** The arrays of a quadrature of facets fit together. *)
Definition fits_facets (g : grid) (q : pquad) : Prop :=
  length (q_cells q) = length (q_npts q) /\ length (q_facets q) = length (q_npts q) /\ fold_right Nat.add 0 (q_npts q) = length (q_points q)
  /\ length (q_weights q) = length (q_points q) /\ Forall (fun p => S (length p) = length (breaks g)) (q_points q) /\ Forall (cell_id g) (q_cells q)
  /\ Forall (fun f => f < 2 * length (breaks g)) (q_facets q).

Lemma nth_repeat_in2 {A} (x : A) m k d : k < m -> nth k (repeat x m) d = x.
Proof. revert k. induction m as [|m IH]; intros [|k] H; try lia; cbn; [reflexivity|]. apply IH. lia. Qed.
Lemma np_len {A} (a : list A) n : length a = length n -> length (np_repeat a n) = fold_right Nat.add 0 n.
Proof. revert n. induction a as [|x a IH]; intros [|k n] H; try discriminate; [reflexivity|]. cbn. rewrite app_length, repeat_length, IH by (cbn in H; lia). reflexivity. Qed.
Lemma np_nth {A} (a : list A) n d j k : length a = length n -> j < length n -> k < nth j n 0 -> nth (point_index n j k) (np_repeat a n) d = nth j a d.
Proof.
  revert n j. induction a as [|x a IH]; intros [|m n] [|j] H Hj Hk; cbn [length nth] in *; try lia; cbn [np_repeat].
  - unfold point_index. cbn. rewrite app_nth1 by (rewrite repeat_length; lia). apply nth_repeat_in2. lia.
  - unfold point_index in *. cbn [firstn fold_right]. rewrite app_nth2 by (rewrite repeat_length; lia). rewrite repeat_length.
    replace (m + fold_right Nat.add 0 (firstn j n) + k - m) with (fold_right Nat.add 0 (firstn j n) + k) by lia. apply IH; lia.
Qed.
Lemma np_app {A} (a b : list A) n m : length a = length n -> np_repeat (a ++ b) (n ++ m) = np_repeat a n ++ np_repeat b m.
Proof. revert n. induction a as [|x a IH]; intros [|k n] H; try discriminate; [reflexivity|]. cbn. rewrite IH by (cbn in H; lia). apply app_assoc. Qed.
Lemma np_in {A} (a : list A) n x : In x (np_repeat a n) -> In x a.
Proof. revert n. induction a as [|y a IH]; intros [|k n] H; cbn in H; try tauto. apply in_app_or in H as [H|H]; [left; symmetry; eapply repeat_spec; eauto|right; eauto]. Qed.
Lemma index_lt n j k : j < length n -> k < nth j n 0 -> point_index n j k < fold_right Nat.add 0 n.
Proof. unfold point_index. revert j. induction n as [|m n IH]; intros [|j] Hj Hk; cbn [length nth firstn fold_right] in *; try lia. specialize (IH j). lia. Qed.
Lemma index_all n i : i < fold_right Nat.add 0 n -> exists j k, j < length n /\ k < nth j n 0 /\ i = point_index n j k.
Proof.
  unfold point_index. revert i. induction n as [|m n IH]; intros i H; cbn in H; [lia|]. destruct (Nat.lt_ge_cases i m).
  - exists 0, i. cbn. split; [lia|]. split; lia.
  - destruct (IH (i - m)) as (j & k & A & B & C); [lia|]. exists (S j), k. cbn. split; [lia|]. split; [exact B|]. lia.
Qed.
Lemma all_len_ok d l : Forall (fun p => length p = d) l -> all_len d l = true.
Proof. intros H. unfold all_len. apply forallb_forall. intros p Hp. apply Nat.eqb_eq. rewrite Forall_forall in H. auto. Qed.
Definition box_of (g : grid) (c : Z) : bbox := match get_cell_domain g c with Ret b => b | _ => mk_box [] [] end.
Lemma map2_app {A B C} (f : A -> B -> C) a b c d : length a = length c -> map2 f (a ++ b) (c ++ d) = map2 f a c ++ map2 f b d.
Proof. revert c. induction a as [|x a IH]; intros [|y c] H; try discriminate; [reflexivity|]. cbn. rewrite IH by (cbn in H; lia). reflexivity. Qed.
Lemma map2_repeat {A B C} (f : A -> B -> C) x l : map2 f (repeat x (length l)) l = map (f x) l.
Proof. induction l; cbn; congruence. Qed.
Lemma map2_len {A B C} (f : A -> B -> C) a b : length (map2 f a b) = Nat.min (length a) (length b).
Proof. revert b. induction a as [|x a IH]; intros [|y b]; cbn; auto. Qed.
Lemma map2_nth {A B C} (f : A -> B -> C) a b i da db dc : i < length a -> i < length b -> nth i (map2 f a b) dc = f (nth i a da) (nth i b db).
Proof. revert b i. induction a as [|x a IH]; intros [|y b] [|i] H1 H2; cbn in *; try lia; auto. apply IH; lia. Qed.
Lemma place_ok g : usable_grid g -> forall cells npts pts, length cells = length npts -> fold_right Nat.add 0 npts = length pts -> Forall (cell_id g) cells ->
  place_blocks g cells npts pts = Ret (map2 (fun c p => pad3 (scale_point (box_of g c) p)) (np_repeat cells npts) pts).
Proof.
  intros Hu. induction cells as [|c cells IH]; intros [|n npts] pts H1 H2 H3; try discriminate; cbn [place_blocks np_repeat].
  - destruct pts; [reflexivity|discriminate].
  - inversion H3; subst. destruct (L_QuadProps.cell_box [] g c Hu H4) as (lo & hi & E & _). rewrite E. cbn [bind].
    cbn in H2. rewrite IH; [|cbn in H1; lia|rewrite skipn_length; lia|auto]. cbn [bind]. f_equal.
    rewrite <- (firstn_skipn n pts) at 3. assert (L : length (firstn n pts) = n) by (rewrite firstn_length; lia).
    rewrite map2_app by (rewrite repeat_length; lia). f_equal. rewrite <- L at 2. rewrite map2_repeat. unfold box_of. rewrite E. reflexivity.
Qed.
Lemma points_ok g q : usable_grid g -> fits g q ->
  create_quad_points_grid g q = Ret {| v_points := map2 (fun c p => pad3 (scale_point (box_of g c) p)) (np_repeat (q_cells q) (q_npts q)) (q_points q);
     v_cells := np_repeat (q_cells q) (q_npts q); v_weights := q_weights q; v_normals := option_map (map pad3) (q_normals q); v_facets := [] |}.
Proof.
  intros Hu (H1 & H2 & H3 & H4 & H5 & H6). unfold create_quad_points_grid. rewrite H3. rewrite (proj2 (Nat.eqb_eq _ _) H1), Nat.eqb_refl, (all_len_ok _ _ H4). cbn [andb assert_].
  rewrite (place_ok g Hu _ _ _ H1 H2 H5). cbn [bind]. rewrite (np_len _ _ H1), H2, Nat.eqb_refl. cbn [assert_].
  destruct (q_normals q) as [ns|]; [destruct H6 as (A & B); rewrite (proj2 (Nat.eqb_eq _ _) A), (all_len_ok _ _ B)|]; reflexivity.
Qed.
Lemma scale_nth b p d : length (bmin b) = length (bmax b) -> length p = length (bmin b) -> d < length p ->
  nth d (scale_point b p) 0%R = (nth d (bmin b) 0 + nth d p 0 * (nth d (bmax b) 0 - nth d (bmin b) 0))%R.
Proof.
  intros H1 H2 Hd. unfold scale_point. rewrite (map2_nth _ _ _ _ 0%R 0%R) by (rewrite ?map2_len; lia).
  rewrite (map2_nth _ _ _ _ 0%R 0%R) by (rewrite ?map2_len; lia). rewrite (map2_nth _ _ _ _ 0%R 0%R) by lia. ring.
Qed.
Lemma pad3_nth p d : nth d (pad3 p) 0%R = if d <? length p then nth d p 0%R else 0%R.
Proof. unfold pad3. destruct (Nat.ltb_spec d (length p)); [now apply app_nth1|]. rewrite app_nth2 by lia. destruct (Nat.lt_ge_cases (d - length p) (3 - length p)); [now apply nth_repeat_in2|apply nth_overflow; rewrite repeat_length; lia]. Qed.

(** The picture of a quadrature of cells or unfitted boundaries: one point per quadrature point; point k of entity j is the affine image of the
    quadrature point in the box of its cell (zero third component in 2D), carries that cell, its weight and its normal. *)
Theorem C173_cells : forall g q, usable_grid g -> length (breaks g) <= 3 -> fits g q ->
  exists v, create_quad_points_grid g q = Ret v /\ length (v_points v) = length (q_points q) /\ length (v_cells v) = length (q_points q)
   /\ v_weights v = q_weights q
   /\ (forall j k, j < length (q_npts q) -> k < nth j (q_npts q) 0 -> let i := point_index (q_npts q) j k in
        nth i (v_cells v) 0%Z = nth j (q_cells q) 0%Z /\ length (nth i (v_points v) []) = 3
        /\ exists lo hi, get_cell_domain g (nth j (q_cells q) 0%Z) = Ret (mk_box lo hi)
        /\ (forall d, d < 3 -> nth d (nth i (v_points v) []) 0%R =
              if d <? length (breaks g) then (nth d lo 0 + nth d (nth i (q_points q) []) 0 * (nth d hi 0 - nth d lo 0))%R else 0%R)
        /\ ((forall d, d < length (breaks g) -> (0 <= nth d (nth i (q_points q) []) 0 <= 1)%R) ->
             forall d, d < length (breaks g) -> (nth d lo 0 <= nth d (nth i (v_points v) []) 0 <= nth d hi 0)%R)
        /\ match q_normals q, v_normals v with
           | Some ns, Some vs => forall d, d < 3 -> nth d (nth i vs []) 0%R = if d <? length (breaks g) then nth d (nth i ns []) 0%R else 0%R
           | None, None => True
           | _, _ => False
           end)
   /\ (forall i, i < length (q_points q) -> exists j k, j < length (q_npts q) /\ k < nth j (q_npts q) 0 /\ i = point_index (q_npts q) j k).
Proof.
  intros g q Hu H3 F. eexists. split; [exact (points_ok g q Hu F)|]. destruct F as (F1 & F2 & F3 & F4 & F5 & F6). cbn beta iota delta [v_points v_cells v_weights v_normals].
  split; [rewrite map2_len, (np_len _ _ F1); lia|]. split; [rewrite (np_len _ _ F1); lia|]. split; [reflexivity|]. split; [|intros i Hi; apply index_all; lia].
  intros j k Hj Hk i. assert (Hi : i < length (q_points q)) by (rewrite <- F2; now apply index_lt). assert (Hin : cell_id g (nth j (q_cells q) 0%Z)) by (rewrite Forall_forall in F5; apply F5, nth_In; lia).
  assert (Ei : nth i (np_repeat (q_cells q) (q_npts q)) 0%Z = nth j (q_cells q) 0%Z) by (now apply np_nth).
  destruct (L_QuadProps.cell_box [] g _ Hu Hin) as (lo & hi & E & Hp & Hl). destruct Hp as (Hp1 & Hp2). assert (Lp : length (nth i (q_points q) []) = length (breaks g)) by (rewrite Forall_forall in F4; apply F4, nth_In; lia).
  rewrite (map2_nth _ _ _ _ 0%Z []) by (rewrite ?(np_len _ _ F1); lia). rewrite Ei. unfold box_of. rewrite E.
  assert (Ls : length (scale_point (mk_box lo hi) (nth i (q_points q) [])) = length (breaks g)) by (unfold scale_point; cbn [bmin bmax]; rewrite !map2_len; lia).
  assert (X : forall d, d < 3 -> nth d (pad3 (scale_point (mk_box lo hi) (nth i (q_points q) []))) 0%R =
     if d <? length (breaks g) then (nth d lo 0 + nth d (nth i (q_points q) []) 0 * (nth d hi 0 - nth d lo 0))%R else 0%R).
  { intros d Hd. rewrite pad3_nth, Ls. destruct (Nat.ltb_spec d (length (breaks g))); [|reflexivity]. rewrite scale_nth; cbn [bmin bmax]; [reflexivity|lia..]. }
  split; [reflexivity|]. split; [unfold pad3; rewrite app_length, repeat_length; lia|]. exists lo, hi. split; [reflexivity|]. split; [exact X|]. split.
  - intros Hb d Hd. rewrite X by lia. destruct (Nat.ltb_spec d (length (breaks g))); [|lia]. specialize (Hb d Hd). assert (nth d lo 0 < nth d hi 0)%R by (apply Hp2; lia). split; nra.
  - destruct (q_normals q) as [ns|]; cbn [option_map]; [|exact I]. destruct F6 as (A & B). intros d Hd. rewrite (nth_indep _ [] (pad3 [])) by (rewrite map_length; lia). rewrite (map_nth pad3), pad3_nth.
    assert (Ln : length (nth i ns []) = length (breaks g)) by (rewrite Forall_forall in B; apply B, nth_In; lia). rewrite Ln. reflexivity.
Qed.
Print Assumptions C173_cells.

(** Facets. Facet f of a cell is the side f mod 2 in the direction f / 2; the coordinates of the reference facet are the other directions in order. *)
Definition on_facet (dim f : nat) (p : list R) : list R :=
  map (fun d => if d =? f / 2 then (if f mod 2 =? 0 then 0%R else 1%R) else nth (if d <? f / 2 then d else d - 1) p 0%R) (seq 0 dim).
Lemma nth_map_seq {A} (f : nat -> A) a n d : d < n -> nth d (map f (seq 0 n)) a = f d.
Proof. intros H. rewrite (nth_indep _ a (f 0)) by (rewrite map_length, seq_length; exact H). rewrite map_nth, seq_nth by exact H. reflexivity. Qed.
Definition dirs_of (dim : nat) := if dim =? 2 then [0; 0; 1; 1] else [0; 0; 1; 1; 2; 2].
Definition sides_of (dim : nat) := if dim =? 2 then [0; 1; 0; 1] else [0; 1; 0; 1; 0; 1].
Definition active_of (dim : nat) := if dim =? 2 then [[1]; [1]; [0]; [0]] else [[1; 2]; [1; 2]; [0; 2]; [0; 2]; [0; 1]; [0; 1]].
Lemma facet_point_ok dim f : dim = 2 \/ dim = 3 -> f < 2 * dim ->
  exists d s a, pat (dirs_of dim) f = Ret d /\ pat (sides_of dim) f = Ret s /\ pat (active_of dim) f = Ret a /\ forall p, facet_point dim d s a p = on_facet dim f p.
Proof.
  intros [-> | ->] H; do 6 (destruct f as [|f]; [first [exfalso; lia | eexists _, _, _; split; [reflexivity|]; split; [reflexivity|]; split; [reflexivity|]; intros p; reflexivity]|]); lia.
Qed.
Lemma facet_blocks_ok dim : dim = 2 \/ dim = 3 -> forall cells facets npts pts, length cells = length npts -> length facets = length npts -> fold_right Nat.add 0 npts = length pts ->
  Forall (fun f => f < 2 * dim) facets ->
  facet_blocks dim (dirs_of dim) (sides_of dim) (active_of dim) cells facets npts pts = Ret (map2 (on_facet dim) (np_repeat facets npts) pts).
Proof.
  intros Hd. induction cells as [|c cells IH]; intros [|f facets] [|n npts] pts H1 H2 H3 H4; try discriminate; cbn [facet_blocks np_repeat]; [reflexivity|].
  inversion H4; subst. cbn in H3. destruct (facet_point_ok dim f Hd H5) as (d & s & a & E1 & E2 & E3 & E4). rewrite E1, E2, E3. cbn [bind].
  rewrite (proj2 (Nat.leb_le n (length pts))) by lia. cbn [assert_]. rewrite IH; [|cbn in H1; lia|cbn in H2; lia|rewrite skipn_length; lia|auto]. cbn [bind]. f_equal.
  rewrite <- (firstn_skipn n pts) at 3. assert (L : length (firstn n pts) = n) by (rewrite firstn_length; lia).
  rewrite map2_app by (rewrite repeat_length; lia). f_equal. rewrite <- L at 2. rewrite map2_repeat. apply map_ext. exact E4.
Qed.
Lemma concat_lens {A B} (a : list (list A)) (b : list (list B)) : Forall2 (fun x y => length x = length y) a b -> length (concat a) = length (concat b).
Proof. induction 1; cbn; [reflexivity|]. rewrite !app_length. lia. Qed.
Section Facets.
  Context (g : grid).
  Definition all_cells (qs : list pquad) := concat (map q_cells qs).
  Definition all_facets (qs : list pquad) := concat (map q_facets qs).
  Definition all_npts (qs : list pquad) := concat (map q_npts qs).
  Definition all_points (qs : list pquad) := concat (map q_points qs).
  Definition all_weights (qs : list pquad) := concat (map q_weights qs).
  Lemma sum_app a b : fold_right Nat.add 0 (a ++ b) = fold_right Nat.add 0 a + fold_right Nat.add 0 b.
  Proof. induction a; cbn; lia. Qed.
  Lemma all_fits qs : Forall (fits_facets g) qs -> length (all_cells qs) = length (all_npts qs) /\ length (all_facets qs) = length (all_npts qs)
    /\ fold_right Nat.add 0 (all_npts qs) = length (all_points qs) /\ length (all_weights qs) = length (all_points qs)
    /\ Forall (fun p => S (length p) = length (breaks g)) (all_points qs) /\ Forall (cell_id g) (all_cells qs) /\ Forall (fun f => f < 2 * length (breaks g)) (all_facets qs).
  Proof.
    unfold all_cells, all_facets, all_npts, all_points, all_weights. induction 1 as [|q qs (A & B & C & D & E & F & G) _ (a & b & c & d & e & f & h)]; cbn [map concat].
    - repeat (split; [reflexivity|]). auto.
    - rewrite !app_length, sum_app. do 4 (split; [lia|]). repeat rewrite Forall_app. auto.
  Qed.
  Lemma all_blocks qs : Forall (fits_facets g) qs -> concat (map (fun q => map2 (on_facet (length (breaks g))) (np_repeat (q_facets q) (q_npts q)) (q_points q)) qs)
    = map2 (on_facet (length (breaks g))) (np_repeat (all_facets qs) (all_npts qs)) (all_points qs).
  Proof.
    unfold all_cells, all_facets, all_npts, all_points. induction 1 as [|q qs (A & B & C & D & E & F & G) _ IH]; [reflexivity|]. cbn [map concat]. rewrite np_app, map2_app, IH by (rewrite ?np_len; auto). reflexivity.
  Qed.
End Facets.
Lemma pmap_f {A B} (f : A -> outcome B) h l : (forall x, In x l -> f x = Ret (h x)) -> pmap f l = Ret (map h l).
Proof. induction l as [|x l IH]; intros H; [reflexivity|]. cbn. rewrite H by (left; reflexivity). cbn [bind]. rewrite IH by (intros; apply H; right; auto). reflexivity. Qed.

(** The picture of quadratures of facets (one after the other): point k of entity j lies on its facet of its cell (the coordinate of the direction
    f / 2 is the lower or upper end of the cell), its other coordinates are the affine images of those of the quadrature point, and it carries its cell,
    its facet and its weight. *)
Theorem C173_facets : forall g qs, usable_grid g -> length (breaks g) = 2 \/ length (breaks g) = 3 -> qs <> [] -> Forall (fits_facets g) qs ->
  exists v, create_quad_facet_points_grid g qs = Ret v /\ length (v_points v) = length (all_points qs) /\ length (v_cells v) = length (all_points qs) /\ length (v_facets v) = length (all_points qs)
   /\ v_weights v = all_weights qs
   /\ (forall j k, j < length (all_npts qs) -> k < nth j (all_npts qs) 0 -> let i := point_index (all_npts qs) j k in
        nth i (v_cells v) 0%Z = nth j (all_cells qs) 0%Z /\ nth i (v_facets v) 0 = nth j (all_facets qs) 0 /\ length (nth i (v_points v) []) = 3
        /\ exists lo hi, get_cell_domain g (nth j (all_cells qs) 0%Z) = Ret (mk_box lo hi)
        /\ let f := nth j (all_facets qs) 0 in let u := nth i (all_points qs) [] in let x := nth i (v_points v) [] in
           nth (f / 2) x 0%R = nth (f / 2) (if f mod 2 =? 0 then lo else hi) 0%R
        /\ (forall d, d < f / 2 -> nth d x 0%R = (nth d lo 0 + nth d u 0 * (nth d hi 0 - nth d lo 0))%R)
        /\ (forall d, f / 2 < d < length (breaks g) -> nth d x 0%R = (nth d lo 0 + nth (d - 1) u 0 * (nth d hi 0 - nth d lo 0))%R)
        /\ (forall d, length (breaks g) <= d < 3 -> nth d x 0%R = 0%R))
   /\ (forall i, i < length (all_points qs) -> exists j k, j < length (all_npts qs) /\ k < nth j (all_npts qs) 0 /\ i = point_index (all_npts qs) j k).
Proof.
  intros g qs Hu Hd Hne HF. destruct (all_fits g qs HF) as (F1 & F2 & F3 & F4 & F5 & F6 & F7).
  set (q := {| q_points := map2 (on_facet (length (breaks g))) (np_repeat (all_facets qs) (all_npts qs)) (all_points qs); q_weights := all_weights qs; q_normals := None;
               q_cells := all_cells qs; q_facets := []; q_npts := all_npts qs |}).
  assert (Lq : length (q_points q) = length (all_points qs)) by (cbn; rewrite map2_len, (np_len _ _ F2); lia).
  assert (Fq : fits g q).
  { split; [exact F1|]. split; [rewrite Lq; exact F3|]. split; [rewrite Lq; exact F4|]. split; [|split; [exact F6|exact I]]. apply Forall_forall. intros p Hp. cbn in Hp. clear Lq.
    assert (X : forall a b, In p (map2 (on_facet (length (breaks g))) a b) -> length p = length (breaks g)).
    { induction a as [|x a IH]; intros [|y b] X; cbn in X; try tauto. destruct X as [<-|X]; [unfold on_facet; rewrite map_length, seq_length; reflexivity|eauto]. }
    eapply X. exact Hp. }
  destruct (C173_cells g q Hu ltac:(lia) Fq) as (v & E & L1 & L2 & Ew & V & Cv). destruct v as [vp vc vw vn vf].
  cbn beta iota delta [v_points v_cells v_weights v_normals] in L1, L2, Ew, V. change (q_npts q) with (all_npts qs) in V. change (q_cells q) with (all_cells qs) in V.
  assert (Em : create_quad_facet_points_grid g qs = Ret {| v_points := vp; v_cells := vc; v_weights := vw; v_normals := vn;
     v_facets := np_repeat (all_facets qs) (all_npts qs) |}).
  { unfold create_quad_facet_points_grid. destruct qs as [|q0 qs0]; [congruence|]. cbn [length Nat.ltb Nat.leb assert_].
    assert (D1 : facets_const_dirs (length (breaks g)) = Ret (dirs_of (length (breaks g)))) by (destruct Hd as [-> | ->]; reflexivity).
    assert (D2 : facets_const_sides (length (breaks g)) = Ret (sides_of (length (breaks g)))) by (destruct Hd as [-> | ->]; reflexivity).
    assert (D3 : facets_active_dirs (length (breaks g)) = Ret (active_of (length (breaks g)))) by (destruct Hd as [-> | ->]; reflexivity).
    rewrite D1, D2, D3. cbn [bind]. rewrite (pmap_f _ (fun q => map2 (on_facet (length (breaks g))) (np_repeat (q_facets q) (q_npts q)) (q_points q))).
    2:{ intros x Hx. rewrite Forall_forall in HF. destruct (HF x Hx) as (A & B & C & D & E' & F & G). unfold sum_nat. rewrite A, B, C, D, !Nat.eqb_refl. cbn [andb].
        rewrite (all_len_ok (length (breaks g) - 1)) by (eapply Forall_impl; [|exact E']; cbn; intros; lia). cbn [assert_]. apply facet_blocks_ok; auto. }
    cbn [bind]. rewrite (all_blocks g _ HF). fold (all_npts (q0 :: qs0)) (all_weights (q0 :: qs0)) (all_cells (q0 :: qs0)) (all_facets (q0 :: qs0)). fold q. rewrite E. cbn [bind v_points v_cells v_weights v_normals].
    rewrite (np_len _ _ F2), F3, Ew. cbn [q_weights q]. rewrite F4, Nat.eqb_refl. reflexivity. }
  eexists. split; [exact Em|]. cbn beta iota delta [v_points v_cells v_weights v_facets].
  split; [congruence|]. split; [congruence|]. split; [rewrite (np_len _ _ F2); exact F3|]. split; [exact Ew|]. split; [|intros i Hi; apply index_all; lia].
  intros j k Hj Hk i. destruct (V j k Hj Hk) as (V1 & V2 & lo & hi & V3 & V4 & _). fold i in V1, V2, V4. split; [exact V1|]. split; [apply np_nth; auto|]. split; [exact V2|].
  exists lo, hi. split; [exact V3|]. intros f u x. assert (Hi : i < length (all_points qs)) by (rewrite <- F3; now apply index_lt).
  assert (Hf : f < 2 * length (breaks g)) by (rewrite Forall_forall in F7; apply F7, nth_In; lia).
  assert (Hf2 : f / 2 < length (breaks g)) by (apply Nat.div_lt_upper_bound; lia).
  assert (Q : nth i (q_points q) [] = on_facet (length (breaks g)) f u).
  { cbn [q_points q]. rewrite (map2_nth _ _ _ _ 0 []) by (rewrite ?(np_len _ _ F2); lia). f_equal. apply np_nth; auto. }
  assert (W : forall d, d < 3 -> nth d x 0%R = if d <? length (breaks g) then (nth d lo 0 + (if d =? f / 2 then if f mod 2 =? 0 then 0 else 1 else nth (if (d <? f / 2)%nat then d else (d - 1)%nat) u 0) * (nth d hi 0 - nth d lo 0))%R else 0%R).
  { intros d H3. unfold x. rewrite (V4 d H3), Q. destruct (Nat.ltb_spec d (length (breaks g))) as [Hlt|]; [|reflexivity]. unfold on_facet.
    rewrite (nth_map_seq _ 0%R) by exact Hlt. reflexivity. }
  split; [|split; [|split]].
  - rewrite W by lia. rewrite (proj2 (Nat.ltb_lt _ _) Hf2), Nat.eqb_refl. destruct (f mod 2 =? 0); ring.
  - intros d Hd'. rewrite W by lia. rewrite (proj2 (Nat.ltb_lt d (length (breaks g)))) by lia. rewrite (proj2 (Nat.eqb_neq d (f / 2))) by lia. rewrite (proj2 (Nat.ltb_lt d (f / 2))) by lia. reflexivity.
  - intros d Hd'. rewrite W by lia. rewrite (proj2 (Nat.ltb_lt d (length (breaks g)))) by lia. rewrite (proj2 (Nat.eqb_neq d (f / 2))) by lia. rewrite (proj2 (Nat.ltb_ge d (f / 2))) by lia. reflexivity.
  - intros d Hd'. rewrite W by lia. rewrite (proj2 (Nat.ltb_ge d (length (breaks g)))) by lia. reflexivity.
Qed.
Print Assumptions C173_facets.
