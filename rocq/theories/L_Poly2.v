(** Outer products of basis vectors, reading of the coefficients, de Casteljau and Horner loops. *)
From Coq Require Import Reals List Lia Lra Binomial.
From Coquelicot Require Import Coquelicot.
From Verif Require Import M_Poly S_Poly L_Real L_Point L_BBox L_TensorNat L_Poly.
Import ListNotations.
Local Close Scope Z_scope.
Local Open Scope R_scope.

Definition prodl (l : list R) : R := fold_right Rmult 1 l.
Arguments prodl l : simpl never.
Lemma prodl_cons a l : prodl (a :: l) = a * prodl l. Proof. reflexivity. Qed.
Lemma prodl_app l m : prodl (l ++ m) = prodl l * prodl m.
Proof. induction l as [|a l IH]; [unfold prodl; simpl; ring|]. simpl. rewrite !prodl_cons, IH. ring. Qed.

(** ** Outer products *)
Fixpoint outer (vs : list (list R)) : list R :=
  match vs with [] => [1] | b :: vs' => flat_map (fun w => map (fun v => v * w) b) (outer vs') end.
Definition pick (vs : list (list R)) (t : list nat) : R := prodl (map2 (fun v i => nth i v 0) vs t).

Lemma tp_all_cons o os : tp_all (o :: os) = flat_map (fun r => map (fun i => i :: r) (seq 0 o)) (tp_all os).
Proof. unfold tp_all, tp_const. simpl. rewrite Nat.sub_0_r. reflexivity. Qed.
Lemma map_seq_nth (b : list R) : b = map (fun i => nth i b 0) (seq 0 (length b)).
Proof. induction b as [|x b IH]; [reflexivity|]. simpl. f_equal. rewrite <- seq_shift, map_map. exact IH. Qed.
Lemma map_flat_map {A B C} (f : B -> C) (g : A -> list B) l : map f (flat_map g l) = flat_map (fun a => map f (g a)) l.
Proof. induction l as [|a l IH]; simpl; [reflexivity|]. rewrite map_app, IH. reflexivity. Qed.
Lemma flat_map_map {A B C} (f : B -> list C) (g : A -> B) l : flat_map f (map g l) = flat_map (fun a => f (g a)) l.
Proof. induction l as [|a l IH]; simpl; [reflexivity|]. rewrite IH. reflexivity. Qed.
Lemma flat_map_ext_in {A B} (f g : A -> list B) l : (forall a, In a l -> f a = g a) -> flat_map f l = flat_map g l.
Proof. induction l as [|a l IH]; intros H; simpl; [reflexivity|]. rewrite IH, H; auto; [left; reflexivity|]. intros; apply H; right; assumption. Qed.
Lemma flat_map_flat_map {A B C} (f : B -> list C) (g : A -> list B) l : flat_map f (flat_map g l) = flat_map (fun a => flat_map f (g a)) l.
Proof. induction l as [|a l IH]; simpl; [reflexivity|]. rewrite flat_map_app, IH. reflexivity. Qed.
Lemma outer_pick vs : outer vs = map (pick vs) (tp_all (map (@length R) vs)).
Proof.
  induction vs as [|b vs IH]; [reflexivity|]. cbn [map outer]. rewrite tp_all_cons, map_flat_map, IH, flat_map_map.
  apply flat_map_ext_in. intros t _. rewrite map_map. rewrite (map_seq_nth b) at 1. rewrite map_map. apply map_ext. intros i.
  unfold pick. cbn [map2]. rewrite prodl_cons. reflexivity.
Qed.
Lemma outer_snoc vs b : outer (vs ++ [b]) = flat_map (fun c => map (fun w => w * c) (outer vs)) b.
Proof.
  induction vs as [|a vs IH]; cbn [app outer].
  - cbn [flat_map]. rewrite app_nil_r. induction b as [|x b IH]; [reflexivity|]. cbn [map flat_map app]. rewrite IH. f_equal. ring.
  - rewrite IH, flat_map_flat_map. apply flat_map_ext_in. intros c _. rewrite flat_map_map, map_flat_map. apply flat_map_ext_in.
    intros w _. rewrite map_map. apply map_ext. intros v. ring.
Qed.
Lemma outer_length vs : length (outer vs) = tp_size (map (@length R) vs).
Proof. rewrite outer_pick, map_length, tp_all_length. reflexivity. Qed.

Lemma combine_coefs o c : length c = tp_size o -> combine c (tp_all o) = map (fun t => (nth (tp_flat o t) c 0, t)) (tp_all o).
Proof.
  intros HL. apply nth_ext with (d := (0, [])) (d' := (0, [])).
  - rewrite combine_length, map_length, HL, tp_all_length. lia.
  - intros k Hk. rewrite combine_length, HL, tp_all_length, Nat.min_id in Hk.
    rewrite combine_nth by (rewrite HL, tp_all_length; reflexivity).
    rewrite (nth_indep _ (0, []) (nth (tp_flat o []) c 0, [])) by (rewrite map_length, tp_all_length; assumption).
    rewrite (map_nth (fun t => (nth (tp_flat o t) c 0, t))). rewrite tp_all_nth by assumption. reflexivity.
Qed.
Lemma dot_tp o c g : length c = tp_size o -> dot c (map g (tp_all o)) = rsum (map (fun t => nth (tp_flat o t) c 0 * g t) (tp_all o)).
Proof.
  intros HL. rewrite dot_map_r by (rewrite HL, tp_all_length; reflexivity). rewrite combine_coefs by assumption. rewrite map_map. reflexivity.
Qed.

(** vectors of one basis for all directions *)
Definition vecs (f : R -> nat -> list R) (o : list nat) (x : list R) : list (list R) := map2 (fun n xi => f xi n) o x.
Lemma vecs_lengths f o : forall x, length x = length o -> (forall xi n, length (f xi n) = n) -> map (@length R) (vecs f o x) = o.
Proof. induction o as [|n o IH]; intros [|a x] HL Hf; try discriminate; [reflexivity|]. unfold vecs in *. cbn [map2 map]. rewrite Hf. f_equal. apply IH; auto. Qed.
Lemma basis_term_cons basis n o i t a x : basis_term basis (n :: o) (i :: t) (a :: x) = basis n i a * basis_term basis o t x.
Proof. unfold basis_term. cbn [length seq map nth fold_right]. rewrite <- seq_shift, map_map. reflexivity. Qed.
Lemma expansion_outer basis f p x : length x = length (p_order p) -> length (p_coefs p) = tp_size (p_order p) ->
  (forall xi n, length (f xi n) = n) -> (forall xi n i, (i < n)%nat -> nth i (f xi n) 0 = basis n i xi) ->
  expansion basis p x = dot (p_coefs p) (outer (vecs f (p_order p) x)).
Proof.
  intros Hx Hc Hl Hn. rewrite outer_pick, vecs_lengths by assumption. rewrite dot_tp by assumption. unfold expansion. fold (rsum). 
  change (fold_right Rplus 0) with rsum. apply rsum_ext. intros t Ht. f_equal. apply tp_all_In in Ht. destruct Ht as [Ht Hlt].
  clear Hc. revert x t Hx Ht Hlt. generalize (p_order p) as o. induction o as [|n o IH]; intros [|a x] [|i t] Hx Ht Hlt; try discriminate; [reflexivity|].
  rewrite basis_term_cons. unfold pick. cbn [vecs map2]. rewrite prodl_cons. rewrite Hn by (apply (Hlt O); simpl; lia). f_equal.
  apply IH; try (simpl in *; lia). intros d Hd. apply (Hlt (S d)). simpl. lia.
Qed.

(** ** Reading the coefficients *)
Lemma firstn_add {A} a b (l : list A) : firstn (a + b) l = firstn a l ++ firstn b (skipn a l).
Proof. revert l. induction a as [|a IH]; intros [|x l]; simpl; auto. - rewrite firstn_nil. reflexivity. - rewrite IH. reflexivity. Qed.
Lemma skipn_add {A} a b (l : list A) : skipn (a + b) l = skipn b (skipn a l).
Proof. revert l. induction a as [|a IH]; intros [|x l]; simpl; auto. rewrite skipn_nil. reflexivity. Qed.
Section Read.
Context {A : Type} (rd : list R -> A * list R) (m : nat).
Hypothesis Hs : forall c, (m <= length c)%nat -> snd (rd c) = skipn m c.
Lemma read_n_snd n : forall c, (m * n <= length c)%nat -> snd (read_n rd n c) = skipn (m * n) c.
Proof.
  induction n as [|n IH]; intros c Hc; [rewrite Nat.mul_0_r; reflexivity|]. cbn [read_n snd]. rewrite Hs by nia.
  rewrite IH by (rewrite skipn_length; nia). rewrite <- skipn_add. f_equal. lia.
Qed.
Lemma read_n_length n : forall c, length (fst (read_n rd n c)) = n.
Proof. induction n as [|n IH]; intros c; [reflexivity|]. cbn [read_n fst length]. rewrite IH. reflexivity. Qed.
Lemma read_n_forall (P : A -> Prop) n : (forall c, (m <= length c)%nat -> P (fst (rd c))) -> forall c, (m * n <= length c)%nat -> Forall P (fst (read_n rd n c)).
Proof.
  intros HP. induction n as [|n IH]; intros c Hc; [constructor|]. cbn [read_n fst]. constructor; [apply HP; nia|].
  rewrite Hs by nia. apply IH. rewrite skipn_length. nia.
Qed.
Lemma read_n_dot (h : A -> R) (W : list R) : length W = m -> (forall c, (m <= length c)%nat -> h (fst (rd c)) = dot (firstn m c) W) ->
  forall bs c, (m * length bs <= length c)%nat ->
  dot (map h (fst (read_n rd (length bs) c))) bs = dot (firstn (m * length bs) c) (flat_map (fun b => map (fun w => w * b) W) bs).
Proof.
  intros HW Hh. induction bs as [|b bs IH]; intros c Hc; [rewrite !dot_nil_r; reflexivity|].
  cbn [length read_n fst map dot flat_map] in *. rewrite Hs, Hh by nia. rewrite IH by (rewrite skipn_length; nia).
  replace (m * S (length bs))%nat with (m + m * length bs)%nat by lia. rewrite firstn_add, dot_app.
  - f_equal. rewrite (map_ext (fun w => w * b) (fun w => b * w)) by (intros; ring). rewrite dot_scal_r. ring.
  - rewrite map_length, HW, firstn_length. lia.
Qed.
End Read.

(** ** The de Casteljau triangle *)
Lemma nth_set_at {A} (l : list A) k v j d : nth j (set_at l k v) d = if Nat.eq_dec j k then (if lt_dec k (length l) then v else d) else nth j l d.
Proof.
  rewrite set_at_nth. destruct (Nat.eqb_spec k j), (Nat.eq_dec j k); try congruence; try lia.
  destruct (Nat.ltb_spec k (length l)), (lt_dec k (length l)); try lia; reflexivity.
Qed.
Lemma cj_pass_S {A} (lp : A -> A -> A) d m b : cj_pass lp d (S m) b = let b' := cj_pass lp d m b in set_at b' m (lp (nth m b' d) (nth (S m) b' d)).
Proof. unfold cj_pass. rewrite seq_S, fold_left_app. reflexivity. Qed.
Lemma cj_pass_length {A} (lp : A -> A -> A) d m : forall b, length (cj_pass lp d m b) = length b.
Proof. induction m as [|m IH]; intros b; [reflexivity|]. rewrite cj_pass_S. cbv zeta. rewrite set_at_len, IH. reflexivity. Qed.
Lemma cj_pass_nth {A} (lp : A -> A -> A) d m b : (m < length b)%nat -> forall k,
  nth k (cj_pass lp d m b) d = if lt_dec k m then lp (nth k b d) (nth (S k) b d) else nth k b d.
Proof.
  intros Hm. induction m as [|m IH]; intros k; [destruct (lt_dec k 0); [lia|reflexivity]|].
  rewrite cj_pass_S. cbv zeta. rewrite nth_set_at, cj_pass_length. rewrite !IH by lia.
  destruct (Nat.eq_dec k m) as [-> | Hk].
  - destruct (lt_dec m (length b)); [|lia]. destruct (lt_dec m m); [lia|]. destruct (lt_dec (S m) m); [lia|]. destruct (lt_dec m (S m)); [reflexivity|lia].
  - destruct (lt_dec k m), (lt_dec k (S m)); try lia; reflexivity.
Qed.
Definition cj_iter {A} (lp : A -> A -> A) (d : A) (n j : nat) (b : list A) : list A := fold_left (fun b j => cj_pass lp d (n - j) b) (seq 1 j) b.
Lemma cj_iter_S {A} (lp : A -> A -> A) d n j b : cj_iter lp d n (S j) b = cj_pass lp d (n - S j) (cj_iter lp d n j b).
Proof. unfold cj_iter. rewrite seq_S, fold_left_app. reflexivity. Qed.
Lemma cj_iter_length {A} (lp : A -> A -> A) d n j b : length (cj_iter lp d n j b) = length b.
Proof. induction j as [|j IH]; [reflexivity|]. rewrite cj_iter_S, cj_pass_length. exact IH. Qed.
Lemma cj_iter_nth x b j : (j < length b)%nat -> forall k, (k + j < length b)%nat ->
  nth k (cj_iter (lerp x) 0 (length b) j b) 0 = bigsum (S j) (fun i => B j i x * nth (k + i) b 0).
Proof.
  induction j as [|j IH]; intros Hj k Hk.
  - unfold bigsum. cbn [seq map]. rewrite rsum_cons, B_00, Nat.add_0_r. unfold rsum, cj_iter. simpl. ring.
  - rewrite cj_iter_S, cj_pass_nth by (rewrite cj_iter_length; lia). destruct (lt_dec k (length b - S j)); [|lia].
    rewrite !IH by lia. unfold lerp. rewrite (bigsum_S_l (S j)), B_rec_0.
    rewrite (bigsum_ext (S j) (fun i => B (S j) (S i) x * nth (k + S i) b 0) (fun i => (1 - x) * (B j (S i) x * nth (k + S i) b 0) + x * (B j i x * nth (S k + i) b 0))).
    2:{ intros i Hi. rewrite B_rec. replace (S k + i)%nat with (k + S i)%nat by lia. ring. }
    rewrite bigsum_plus, !bigsum_scal. rewrite (bigsum_S j (fun i => B j (S i) x * nth (k + S i) b 0)), (B_gt j (S j)) by lia.
    rewrite (bigsum_S_l j (fun i => B j i x * nth (k + i) b 0)). ring.
Qed.
Definition bvec (x : R) (n : nat) : list R := map (fun i => B (n - 1) i x) (seq 0 n).
Lemma bvec_length x n : length (bvec x n) = n. Proof. unfold bvec. rewrite map_length, seq_length. reflexivity. Qed.
Lemma map_seq_nth' (f : nat -> R) n i : (i < n)%nat -> nth i (map f (seq 0 n)) 0 = f i.
Proof. intros H. rewrite (nth_indep _ 0 (f O)) by (rewrite map_length, seq_length; assumption). rewrite map_nth, seq_nth by assumption. reflexivity. Qed.
Lemma bvec_nth x n i : (i < n)%nat -> nth i (bvec x n) 0 = B (n - 1) i x. Proof. apply map_seq_nth'. Qed.
Lemma dot_map_seq b f : dot b (map f (seq 0 (length b))) = bigsum (length b) (fun i => nth i b 0 * f i).
Proof.
  rewrite dot_bigsum by (rewrite map_length, seq_length; reflexivity). apply bigsum_ext. intros i Hi. rewrite map_seq_nth' by assumption. reflexivity.
Qed.
Lemma hd_nth0 {A} (l : list A) d : hd d l = nth 0 l d. Proof. destruct l; reflexivity. Qed.
Lemma cj_loop_dot x b : (0 < length b)%nat -> hd 0 (cj_loop (lerp x) 0 b) = dot b (bvec x (length b)).
Proof.
  intros Hb. rewrite hd_nth0. change (cj_loop (lerp x) 0 b) with (cj_iter (lerp x) 0 (length b) (length b - 1) b).
  rewrite cj_iter_nth by lia. unfold bvec. rewrite dot_map_seq. replace (S (length b - 1)) with (length b) by lia.
  apply bigsum_ext. intros i _. simpl. ring.
Qed.

(** vectors: componentwise *)
Lemma cj_pass_hom {A A'} (lp : A -> A -> A) (lp' : A' -> A' -> A') d d' (h : A -> A') (P : A -> Prop) :
  (forall a b, P a -> P b -> P (lp a b) /\ h (lp a b) = lp' (h a) (h b)) ->
  forall m b, (m < length b)%nat -> Forall P b -> Forall P (cj_pass lp d m b) /\ map h (cj_pass lp d m b) = cj_pass lp' d' m (map h b).
Proof.
  intros H m b Hm Hb.
  assert (HP : forall k, (k < length b)%nat -> P (nth k b d)) by (intros k Hk; rewrite Forall_forall in Hb; apply Hb, nth_In, Hk).
  split.
  - rewrite Forall_forall. intros a Ha. apply (In_nth _ _ d) in Ha. destruct Ha as [k [Hk <-]]. rewrite cj_pass_length in Hk.
    rewrite cj_pass_nth by assumption. destruct (lt_dec k m); [|apply HP; assumption]. apply H; apply HP; lia.
  - apply nth_ext with (d := h d) (d' := d'); [rewrite map_length, !cj_pass_length, map_length; reflexivity|].
    intros k Hk. rewrite map_length, cj_pass_length in Hk. rewrite map_nth. rewrite !cj_pass_nth by (rewrite ?map_length; assumption).
    rewrite !(nth_indep (map h b) d' (h d)) by (rewrite map_length; lia).
    destruct (lt_dec k m) as [Hkm|].
    + rewrite (nth_indep (map h b) d' (h d)) by (rewrite map_length; lia). rewrite !map_nth. apply H; apply HP; lia.
    + rewrite map_nth. reflexivity.
Qed.
Lemma cj_iter_hom {A A'} (lp : A -> A -> A) (lp' : A' -> A' -> A') d d' (h : A -> A') (P : A -> Prop) :
  (forall a b, P a -> P b -> P (lp a b) /\ h (lp a b) = lp' (h a) (h b)) ->
  forall b, Forall P b -> forall j, (j < length b)%nat ->
  Forall P (cj_iter lp d (length b) j b) /\ map h (cj_iter lp d (length b) j b) = cj_iter lp' d' (length b) j (map h b).
Proof.
  intros H b Hb. induction j as [|j IH]; intros Hj; [split; [exact Hb|reflexivity]|].
  destruct IH as [I1 I2]; [lia|]. rewrite !cj_iter_S. rewrite <- I2. apply cj_pass_hom; auto. rewrite cj_iter_length. lia.
Qed.
Lemma map2_length {A B C} (f : A -> B -> C) l : forall m, length l = length m -> length (map2 f l m) = length l.
Proof. induction l as [|a l IH]; intros [|b m] HL; try discriminate; simpl; auto. Qed.
Lemma map2_nth {A B C} (f : A -> B -> C) l : forall m k da db dc, length l = length m -> (k < length l)%nat -> nth k (map2 f l m) dc = f (nth k l da) (nth k m db).
Proof. induction l as [|a l IH]; intros [|b m] k da db dc HL Hk; try discriminate; simpl in *; [lia|]. destruct k as [|k]; [reflexivity|]. apply IH; lia. Qed.
Lemma cj_loop_vec x beta q : (0 < length beta)%nat -> Forall (fun v => length v = q) beta ->
  length (hd [] (cj_loop (vlerp x) [] beta)) = q /\
  forall c, (c < q)%nat -> nth c (hd [] (cj_loop (vlerp x) [] beta)) 0 = dot (map (fun v => nth c v 0) beta) (bvec x (length beta)).
Proof.
  intros Hb Hq. change (cj_loop (vlerp x) [] beta) with (cj_iter (vlerp x) [] (length beta) (length beta - 1) beta).
  split.
  - destruct (cj_iter_hom (vlerp x) (vlerp x) [] [] (fun v => v) (fun v => length v = q)) with (b := beta) (j := (length beta - 1)%nat) as [I _]; auto; try lia.
    { intros a b Ha Hb'. split; [unfold vlerp; rewrite map2_length; congruence|reflexivity]. }
    rewrite hd_nth0. rewrite Forall_forall in I. apply I, nth_In. rewrite cj_iter_length. lia.
  - intros c Hc. destruct (cj_iter_hom (vlerp x) (lerp x) [] 0 (fun v => nth c v 0) (fun v => length v = q)) with (b := beta) (j := (length beta - 1)%nat) as [_ I]; auto; try lia.
    { intros a b Ha Hb'. split; [unfold vlerp; rewrite map2_length; congruence|]. unfold vlerp. apply map2_nth; congruence || lia. }
    rewrite hd_nth0. replace (nth c (nth 0 (cj_iter (vlerp x) [] (length beta) (length beta - 1) beta) []) 0)
      with (nth 0 (map (fun v => nth c v 0) (cj_iter (vlerp x) [] (length beta) (length beta - 1) beta)) 0).
    2:{ rewrite (nth_indep _ 0 (nth c [] 0)) by (rewrite map_length, cj_iter_length; lia). rewrite (map_nth (fun v => nth c v 0)). reflexivity. }
    rewrite I. assert (E := cj_loop_dot x (map (fun v => nth c v 0) beta)). rewrite hd_nth0, map_length in E. rewrite <- E by assumption.
    unfold cj_loop, cj_iter. rewrite map_length. reflexivity.
Qed.
