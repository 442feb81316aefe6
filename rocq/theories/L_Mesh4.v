From Coq Require Import Reals List Lia Lra Permutation Sorting.Sorted Bool Arith ZArith.
From Verif Require Import M_Mesh S_Mesh S_MeshOps S_Point L_Point L_TensorNat L_Mesh L_Mesh2 L_Mesh3.
Import ListNotations.
Local Close Scope R_scope. Local Close Scope Z_scope. Local Open Scope nat_scope.

(** ** The VTK mask *)
Lemma nth_r {A} (d : A) a b i k : i = length a + k -> nth i (a ++ b) d = nth k b d.
Proof. intros ->. rewrite app_nth2 by lia. f_equal. lia. Qed.
Lemma nth_l {A} (d : A) a b i : i < length a -> nth i (a ++ b) d = nth i a d.
Proof. apply app_nth1. Qed.
Lemma nth_map_inn (f : nat -> nat) order k : k < order - 2 -> nth k (map f (inner_ids order)) 0 = f (k + 1).
Proof.
  intros H. unfold inner_ids. rewrite (nth_indep _ 0 (f 0)) by (rewrite map_length, seq_length; auto). rewrite map_nth, seq_nth by auto. f_equal. lia.
Qed.
Lemma nth_flat_map {A} (f : A -> list nat) n (d : A) l : (forall x, length (f x) = n) -> forall k q, k < n -> q < length l -> nth (k + n * q) (flat_map f l) 0 = nth k (f (nth q l d)) 0.
Proof.
  intros Hf. induction l as [|x l IH]; intros k q Hk Hq; [cbn in Hq; lia|]. cbn [flat_map]. destruct q as [|q].
  - rewrite Nat.mul_0_r, Nat.add_0_r, app_nth1 by (rewrite Hf; auto). reflexivity.
  - rewrite (nth_r _ _ _ _ (k + n * q)) by (rewrite Hf; lia). cbn [nth]. apply IH; auto. cbn in Hq. lia.
Qed.
Lemma nth_sq (f : nat -> nat -> nat) order a b : a < order - 2 -> b < order - 2 ->
  nth (a + (order - 2) * b) (flat_map (fun j => map (fun i => f i j) (inner_ids order)) (inner_ids order)) 0 = f (a + 1) (b + 1).
Proof.
  intros Ha Hb. rewrite (nth_flat_map _ (order - 2) 0); auto; [|intros; rewrite map_length; apply inner_len|rewrite inner_len; auto].
  rewrite (nth_map_inn (fun i => f i _)) by auto. f_equal. unfold inner_ids. rewrite seq_nth by auto. lia.
Qed.
Lemma nth_cube (f : nat -> nat -> nat -> nat) order a b c : a < order - 2 -> b < order - 2 -> c < order - 2 ->
  nth (a + (order - 2) * (b + (order - 2) * c)) (flat_map (fun k => flat_map (fun j => map (fun i => f i j k) (inner_ids order)) (inner_ids order)) (inner_ids order)) 0 = f (a + 1) (b + 1) (c + 1).
Proof.
  intros Ha Hb Hc. replace (a + (order - 2) * (b + (order - 2) * c)) with ((a + (order - 2) * b) + ((order - 2) * (order - 2)) * c) by nia.
  rewrite (nth_flat_map _ ((order - 2) * (order - 2)) 0).
  - rewrite (nth_sq (fun i j => f i j _)) by auto. f_equal. unfold inner_ids. rewrite seq_nth by auto. lia.
  - intros k. rewrite (flat_map_len _ (order - 2)), inner_len; auto. intros. rewrite map_length. apply inner_len.
  - nia.
  - rewrite inner_len; auto.
Qed.
Definition sq (n : nat) : nat := n * n.
Lemma sq_len {A} (f : nat -> nat -> A) order : length (flat_map (fun j => map (fun i => f i j) (inner_ids order)) (inner_ids order)) = sq (order - 2).
Proof. rewrite (flat_map_len _ (order - 2)), inner_len; auto. intros. rewrite map_length. apply inner_len. Qed.
Ltac on_cases order x H := destruct (Nat.eqb_spec x 0) as [?|?]; [subst x|destruct (Nat.eqb_spec x (order - 1)) as [?|?]; [subst x|]].
Lemma mask1_vtk order i : 2 <= order -> i < order -> nth (vtk1 order i) (vtu_mask1 order) 0 = position order [i].
Proof.
  intros Ho Hi. unfold vtk1, vtu_mask1, inner_ids. cbn [position]. on_cases order i Hi; [cbn; lia|cbn; lia|].
  rewrite (nth_r _ _ _ _ (i - 1)) by (cbn; lia). rewrite seq_nth by lia. lia.
Qed.
Definition lens (ls : list (list nat)) : nat := fold_right (fun l s => length l + s) 0 ls.
Lemma nth_concat ls : forall q r i, i = lens (firstn q ls) + r -> r < length (nth q ls []) -> nth i (concat ls) 0 = nth r (nth q ls []) 0.
Proof.
  induction ls as [|l ls IH]; intros [|q] r i -> Hr; cbn in *; try lia.
  - apply app_nth1. auto.
  - rewrite <- Nat.add_assoc, (nth_r _ _ _ _ (lens (firstn q ls) + r)) by auto. apply IH; auto.
Qed.
Lemma sq_bound n a b : a < n -> b < n -> a + n * b < sq n.
Proof. unfold sq. nia. Qed.
Ltac lens := cbn [firstn nth lens fold_right length]; rewrite ?map_length, ?inner_len, ?sq_len.
Ltac vert q r := rewrite (nth_concat _ q r) by (lens; lia); cbn [nth tp_flat position]; ring.
Ltac fin1 q x := rewrite (nth_concat _ q (x - 1)) by (lens; lia); cbn [nth]; rewrite nth_map_inn by lia; replace (x - 1 + 1) with x by lia; cbn [tp_flat position]; ring.
Ltac fin2 q order x y f :=
  rewrite (nth_concat _ q ((x - 1) + (order - 2) * (y - 1))) by (lens; first [apply sq_bound; lia | change ((order - 2) * (order - 2)) with (sq (order - 2)); lia]); cbn [nth]; rewrite (nth_sq f) by lia;
  replace (x - 1 + 1) with x by lia; replace (y - 1 + 1) with y by lia; cbn [tp_flat position]; ring.
Ltac edges order := cbn [orb negb Nat.eqb];
    repeat match goal with |- context [order - 1 =? 0] => replace (order - 1 =? 0) with false by (symmetry; apply Nat.eqb_neq; lia) end; cbn [negb orb];
    try rewrite !orb_true_r.
Definition pieces2 (order : nat) : list (list nat) :=
  let f i j := tp_flat [order; order] [i; j] in
  let e := order - 1 in let inn := inner_ids order in
  [ [f 0 0; f e 0; f e e; f 0 e];
    map (fun i => f i 0) inn; map (fun j => f e j) inn; map (fun i => f i e) inn; map (fun j => f 0 j) inn;
    flat_map (fun j => map (fun i => f i j) inn) inn ].
Lemma mask2_pieces order : vtu_mask2 order = concat (pieces2 order).
Proof. unfold pieces2. cbn [concat]. rewrite app_nil_r. reflexivity. Qed.
Lemma mask2_vtk order i j : 2 <= order -> i < order -> j < order -> nth (vtk2 order i j) (vtu_mask2 order) 0 = position order [i; j].
Proof.
  intros Ho Hi Hj. rewrite mask2_pieces. unfold vtk2, pieces2. cbv zeta.
  on_cases order i Hi; on_cases order j Hj; edges order.
  - vert 0 0.
  - vert 0 3.
  - fin1 4 j.
  - vert 0 1.
  - vert 0 2.
  - fin1 2 j.
  - fin1 1 i.
  - fin1 3 i.
  - fin2 5 order i j (fun i j => tp_flat [order; order] [i; j]).
Qed.
Definition pieces3 (order : nat) : list (list nat) :=
  let f i j k := tp_flat [order; order; order] [i; j; k] in
  let e := order - 1 in let inn := inner_ids order in
  [ [f 0 0 0; f e 0 0; f e e 0; f 0 e 0; f 0 0 e; f e 0 e; f e e e; f 0 e e];
    map (fun i => f i 0 0) inn; map (fun j => f e j 0) inn; map (fun i => f i e 0) inn; map (fun j => f 0 j 0) inn;
    map (fun i => f i 0 e) inn; map (fun j => f e j e) inn; map (fun i => f i e e) inn; map (fun j => f 0 j e) inn;
    map (fun k => f 0 0 k) inn; map (fun k => f e 0 k) inn; map (fun k => f 0 e k) inn; map (fun k => f e e k) inn;
    flat_map (fun k => map (fun j => f 0 j k) inn) inn; flat_map (fun k => map (fun j => f e j k) inn) inn;
    flat_map (fun k => map (fun i => f i 0 k) inn) inn; flat_map (fun k => map (fun i => f i e k) inn) inn;
    flat_map (fun j => map (fun i => f i j 0) inn) inn; flat_map (fun j => map (fun i => f i j e) inn) inn;
    flat_map (fun k => flat_map (fun j => map (fun i => f i j k) inn) inn) inn ].
Lemma mask3_pieces order : vtu_mask3 order = concat (pieces3 order).
Proof. unfold pieces3. cbn [concat]. rewrite app_nil_r. reflexivity. Qed.
Lemma mask3_vtk order i j k : 2 <= order -> i < order -> j < order -> k < order -> nth (vtk3 order i j k) (vtu_mask3 order) 0 = position order [i; j; k].
Proof.
  intros Ho Hi Hj Hk. rewrite mask3_pieces. unfold vtk3, pieces3. cbv zeta.
  on_cases order i Hi; on_cases order j Hj; on_cases order k Hk; edges order.
  - vert 0 0.
  - vert 0 4.
  - fin1 9 k.
  - vert 0 3.
  - vert 0 7.
  - fin1 11 k.
  - fin1 4 j.
  - fin1 8 j.
  - fin2 13 order j k (fun j k => tp_flat [order; order; order] [0; j; k]).
  - vert 0 1.
  - vert 0 5.
  - fin1 10 k.
  - vert 0 2.
  - vert 0 6.
  - fin1 12 k.
  - fin1 2 j.
  - fin1 6 j.
  - fin2 14 order j k (fun j k => tp_flat [order; order; order] [order - 1; j; k]).
  - fin1 1 i.
  - fin1 5 i.
  - fin2 15 order i k (fun i k => tp_flat [order; order; order] [i; 0; k]).
  - fin1 3 i.
  - fin1 7 i.
  - fin2 16 order i k (fun i k => tp_flat [order; order; order] [i; order - 1; k]).
  - fin2 17 order i j (fun i j => tp_flat [order; order; order] [i; j; 0]).
  - fin2 18 order i j (fun i j => tp_flat [order; order; order] [i; j; order - 1]).
  - rewrite (nth_concat _ 19 ((i - 1) + (order - 2) * ((j - 1) + (order - 2) * (k - 1)))).
    + cbn [nth]. rewrite (nth_cube (fun i j k => tp_flat [order; order; order] [i; j; k])) by lia.
      replace (i - 1 + 1) with i by lia. replace (j - 1 + 1) with j by lia. replace (k - 1 + 1) with k by lia. cbn [tp_flat position]. ring.
    + lens. change ((order - 2) * (order - 2)) with (sq (order - 2)). lia.
    + cbn [nth]. rewrite (flat_map_len _ (sq (order - 2))), inner_len by (intros; apply sq_len).
      generalize (sq_bound (order - 2) (j - 1) (k - 1)). remember (order - 2) as nn eqn:En. assert (i - 1 < nn) by lia. unfold sq. intros Hq. specialize (Hq ltac:(lia) ltac:(lia)). nia.
Qed.
Lemma vtu_mask_vtk dim order : 1 <= dim <= 3 -> 2 <= order -> exists mask, vtu_mask dim order = Ret mask /\ length mask = order ^ dim /\ forall t, is_index dim order t -> vtk_index order t < order ^ dim /\ nth (vtk_index order t) mask 0 = position order t.
Proof.
  intros Hd Ho. destruct (vtu_mask_perm dim order Hd Ho) as (mask & E & P). exists mask. split; auto.
  assert (Lm : length mask = order ^ dim) by (rewrite (Permutation_length P), seq_length; auto). split; auto.
  unfold vtu_mask in E. destruct (1 <? order) eqn:B; [|discriminate]. cbn [assert_] in E. injection E as E.
  intros t [Lt F]. assert (N : nth (vtk_index order t) mask 0 = position order t).
  { destruct dim as [|[|[|[|dim]]]]; try lia; destruct t as [|i [|j [|k [|? ?]]]]; try discriminate; rewrite <- E; repeat match goal with H : Forall _ (_ :: _) |- _ => inversion H; clear H; subst end; cbn [vtk_index].
    - apply mask1_vtk; auto.
    - apply mask2_vtk; auto.
    - apply mask3_vtk; auto. }
  split; auto. destruct (Nat.lt_ge_cases (vtk_index order t) (order ^ dim)) as [|Hge]; auto. exfalso.
  rewrite nth_overflow in N by lia. pose proof (position_lt dim order t (conj Lt F)) as Pl.
  assert (Z0 : is_index dim order (repeat 0 dim)). { split; [apply repeat_length|]. apply Forall_forall. intros x Hx. apply repeat_spec in Hx. lia. }
  assert (P0 : position order (repeat 0 dim) = 0). { clear. induction dim; cbn [repeat position]; auto. rewrite IHdim. lia. }
  assert (t = repeat 0 dim) by (apply (position_inj dim order); auto; try split; auto; lia). subst t.
  destruct dim as [|[|[|[|dim]]]]; try lia; cbn [repeat vtk_index] in Hge; cbn in Hge; lia.
Qed.
