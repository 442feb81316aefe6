From Coq Require Import Reals List Lia Lra.
From Coquelicot Require Import Coquelicot.
From Verif Require Import M_Affine L_Real S_Affine L_Affine.
Import ListNotations.
Open Scope R_scope.

Lemma hg2 (f : list R -> R) x y gx gy :
  (forall (X Y : R -> R) (dx dy : R), X 0 = x -> Y 0 = y -> is_derive X 0 dx -> is_derive Y 0 dy -> is_derive (fun t => f [X t; Y t]) 0 (gx * dx + gy * dy)) ->
  has_gradient 2 f [x; y] [gx; gy].
Proof.
  intros H. split; [reflexivity|]. intros c dc H0 Hd. cbn [map seq fold_right nth].
  replace (gx * dc 0%nat + (gy * dc 1%nat + 0)) with (gx * dc 0%nat + gy * dc 1%nat) by ring.
  apply (H (c 0%nat) (c 1%nat) (dc 0%nat) (dc 1%nat)); [apply (H0 0%nat); lia|apply (H0 1%nat); lia|apply Hd; lia|apply Hd; lia].
Qed.
Lemma hg3 (f : list R -> R) x y z gx gy gz :
  (forall (X Y Z : R -> R) (dx dy dz : R), X 0 = x -> Y 0 = y -> Z 0 = z -> is_derive X 0 dx -> is_derive Y 0 dy -> is_derive Z 0 dz ->
     is_derive (fun t => f [X t; Y t; Z t]) 0 (gx * dx + gy * dy + gz * dz)) ->
  has_gradient 3 f [x; y; z] [gx; gy; gz].
Proof.
  intros H. split; [reflexivity|]. intros c dc H0 Hd. cbn [map seq fold_right nth].
  replace (gx * dc 0%nat + (gy * dc 1%nat + (gz * dc 2%nat + 0))) with (gx * dc 0%nat + gy * dc 1%nat + gz * dc 2%nat) by ring.
  apply (H (c 0%nat) (c 1%nat) (c 2%nat) (dc 0%nat) (dc 1%nat) (dc 2%nat)); try (apply Hd; lia); [apply (H0 0%nat)|apply (H0 1%nat)|apply (H0 2%nat)]; lia.
Qed.
Lemma hg2_elim (f : list R -> R) x y gx gy : has_gradient 2 f [x; y] [gx; gy] ->
  (forall (X Y : R -> R) (dx dy : R), X 0 = x -> Y 0 = y -> is_derive X 0 dx -> is_derive Y 0 dy -> is_derive (fun t => f [X t; Y t]) 0 (gx * dx + gy * dy)).
Proof.
  intros [_ H] X Y dx dy HX HY DX DY.
  specialize (H (fun i => match i with 0 => X | _ => Y end%nat) (fun i => match i with 0%nat => dx | _ => dy end)).
  cbn [map seq fold_right nth] in H. replace (gx * dx + gy * dy) with (gx * dx + (gy * dy + 0)) by ring. apply H.
  - intros [|[|i]] Hi; simpl; auto; lia.
  - intros [|i] Hi; auto.
Qed.
Lemma hg3_elim (f : list R -> R) x y z gx gy gz : has_gradient 3 f [x; y; z] [gx; gy; gz] ->
  (forall (X Y Z : R -> R) (dx dy dz : R), X 0 = x -> Y 0 = y -> Z 0 = z -> is_derive X 0 dx -> is_derive Y 0 dy -> is_derive Z 0 dz ->
     is_derive (fun t => f [X t; Y t; Z t]) 0 (gx * dx + gy * dy + gz * dz)).
Proof.
  intros [_ H] X Y Z dx dy dz HX HY HZ DX DY DZ.
  specialize (H (fun i => match i with 0 => X | 1 => Y | _ => Z end%nat) (fun i => match i with 0%nat => dx | 1%nat => dy | _ => dz end)).
  cbn [map seq fold_right nth] in H. replace (gx * dx + gy * dy + gz * dz) with (gx * dx + (gy * dy + (gz * dz + 0))) by ring. apply H.
  - intros [|[|[|i]]] Hi; simpl; auto; lia.
  - intros [|[|i]] Hi; auto.
Qed.
(** The gradient is unique: it is the list of partial derivatives. *)
Lemma hg_partial d f p g i : has_gradient d f p g -> (i < d)%nat -> length p = d ->
  is_derive (fun t => f (map (fun j => if Nat.eqb j i then nth j p 0 + t else nth j p 0) (seq 0 d))) 0 (nth i g 0).
Proof.
  intros [Hl H] Hi Hp.
  specialize (H (fun j t => if Nat.eqb j i then nth j p 0 + t else nth j p 0) (fun j => if Nat.eqb j i then 1 else 0)).
  assert (E : fold_right Rplus 0 (map (fun i0 => nth i0 g 0 * (if Nat.eqb i0 i then 1 else 0)) (seq 0 d)) = nth i g 0).
  { assert (Q : forall k s, fold_right Rplus 0 (map (fun i0 => nth i0 g 0 * (if Nat.eqb i0 i then 1 else 0)) (seq s k)) = if (Nat.leb s i && Nat.ltb i (s + k))%bool then nth i g 0 else 0).
    { induction k as [|k IH]; intros s; cbn [seq map fold_right].
      - destruct (Nat.leb_spec s i), (Nat.ltb_spec i (s + 0)); simpl; auto; lia.
      - rewrite IH. destruct (Nat.eqb_spec s i) as [->|Hs].
        + destruct (Nat.leb_spec (S i) i); [lia|]. cbn [andb]. destruct (Nat.leb_spec i i), (Nat.ltb_spec i (i + S k)); try lia. cbn [andb]. ring.
        + destruct (Nat.leb_spec (S s) i), (Nat.leb_spec s i), (Nat.ltb_spec i (S s + k)), (Nat.ltb_spec i (s + S k)); try lia; cbn [andb]; ring. }
    rewrite Q. destruct (Nat.leb_spec 0 i), (Nat.ltb_spec i (0 + d)); try lia. reflexivity. }
  cbv beta in H. rewrite E in H. apply H.
  - intros j Hj. destruct (Nat.eqb j i); lra.
  - intros j Hj. destruct (Nat.eqb j i).
    + apply (is_derive_ext (fun t => nth j p 0 + t)); [reflexivity|]. auto_derive; auto; ring.
    + apply (is_derive_ext (fun _ => nth j p 0)); [reflexivity|]. auto_derive; auto; ring.
Qed.
Lemma hg_unique d f p g h : has_gradient d f p g -> has_gradient d f p h -> length p = d -> g = h.
Proof.
  intros Hg Hh Hp. apply (nth_ext _ _ 0 0); [destruct Hg, Hh; lia|]. intros i Hi.
  assert (i < d)%nat by (destruct Hg; lia).
  pose proof (hg_partial d f p g i Hg H Hp) as A. pose proof (hg_partial d f p h i Hh H Hp) as B.
  apply is_derive_unique in A. apply is_derive_unique in B. congruence.
Qed.
Lemma hg_ext d f g p v : (forall q, length q = d -> f q = g q) -> has_gradient d f p v -> has_gradient d g p v.
Proof.
  intros E [Hl H]. split; auto. intros c dc H0 Hd. apply (is_derive_ext (fun t => f (map (fun i => c i t) (seq 0 d)))); [|apply H; auto].
  intros t. apply E. rewrite map_length, seq_length. reflexivity.
Qed.
Lemma hh_unique d f p h k : (d = 2 \/ d = 3)%nat -> has_hessian d f p h -> has_hessian d f p k -> length p = d -> h = k.
Proof.
  intros Hd (Lh & G & HG & Hh) (Lk & G' & HG' & Hk) Hp.
  assert (E : forall i, (i < d)%nat -> map (fun j => nth (sym_pos d i j) h 0) (seq 0 d) = map (fun j => nth (sym_pos d i j) k 0) (seq 0 d)).
  { intros i Hi. apply (hg_unique d (fun q => nth i (G q) 0) p); auto. apply (hg_ext d (fun q => nth i (G' q) 0)); auto.
    intros q Hq. f_equal. apply (hg_unique d f q); auto. }
  destruct Hd as [-> | ->].
  - destruct (len3 h Lh) as (a & b & c & ->). destruct (len3 k Lk) as (a' & b' & c' & ->).
    pose proof (E 0%nat ltac:(lia)) as E0. pose proof (E 1%nat ltac:(lia)) as E1. cbn in E0, E1. congruence.
  - destruct (len6 h Lh) as (a & b & c & e & f0 & g & ->). destruct (len6 k Lk) as (a' & b' & c' & e' & f0' & g' & ->).
    pose proof (E 0%nat ltac:(lia)) as E0. pose proof (E 1%nat ltac:(lia)) as E1. pose proof (E 2%nat ltac:(lia)) as E2. cbn in E0, E1, E2. congruence.
Qed.

(** Tactic: derivative of an explicit expression along curves. *)
Ltac curve_step :=
  auto_derive;
  [ repeat split; auto; try (eexists; eassumption)
  | repeat match goal with H : is_derive ?X 0 ?d |- _ =>
      let E := fresh "E" in assert (E : Derive X 0 = d) by (apply is_derive_unique; exact H);
      change (fun x : R => X x) with X; rewrite ?E; clear E H end;
    repeat match goal with H : ?X 0 = ?v |- _ => rewrite H end ].
