(** Maps of facet points (custom_quad_utils.py). *)
From Coq Require Import List Reals Lra Lia Arith.
From Verif Require Import M_PyBase M_PyQuadUtils S_PyQuadUtils L_PyNodes L_PyQuadUtils.
Import ListNotations.
Local Open Scope R_scope.

(** C140: map_facets_points puts every point of the reference facet on the wanted facet of the reference cell; points of the closed facet land on
    that facet of the closed cell, the vertices of the reference facet land on the vertices basix gives for the facet, in their order, and
    different points stay different. Nothing of the uninitialised array is left. *)
Theorem C140_facet_points : forall c junk pts facets,
  length pts = length facets ->
  (forall i, (i < length facets)%nat -> (nth i facets 0 < n_facets c)%nat /\ in_facet c (nth i pts [])) ->
  exists out, map_facets_points c junk pts facets = Ret out /\ length out = length pts
    /\ forall i, (i < length pts)%nat ->
       nth i out [] = embed c (nth i facets 0%nat) (nth i pts [])
       /\ in_ref c (nth i out []) /\ on_facet c (nth i facets 0%nat) (nth i out []).
Proof.
  intros c junk pts facets L H.
  assert (IN : forall x, in_facet c x -> length x = (tdim c - 1)%nat).
  { unfold in_facet. intros x Hx. destruct c; cbn in Hx |- *; [subst x; reflexivity| | | |]; destruct Hx as [Hx _]; exact Hx. }
  assert (LC : length (combine facets pts) = length pts) by (rewrite combine_length; lia).
  assert (NC : forall i, nth i (combine facets pts) (0%nat, []) = (nth i facets 0%nat, nth i pts [])) by (intros i; apply combine_nth; symmetry; exact L).
  rewrite map_facets_points_ok; [|exact L|].
  - eexists. split; [reflexivity|]. split; [rewrite map_length; exact LC|]. intros i Hi.
    rewrite (nth_map_d _ (0%nat, [])) by lia. rewrite NC. cbn [fst snd]. split; [reflexivity|].
    destruct (H i ltac:(lia)) as [H1 H2]. revert H1 H2. generalize (nth i facets 0%nat) as f, (nth i pts []) as x. clear. intros f x Hf Hx.
    unfold in_facet in Hx. destruct c; cbn in Hf, Hx.
    + subst x. destruct f as [|[|f]]; [| |lia]; cbn; (split; [|reflexivity]); unfold in_ref; cbn; (split; [reflexivity|split; [|exact I]]); repeat constructor; lra.
    + destruct Hx as [Lx [Fx _]]. cbn in Lx. apply len1 in Lx. destruct Lx as [a ->]. inversion Fx as [|? ? Ha _]; subst.
      destruct f as [|[|[|f]]]; [| | |lia]; unfold in_ref; cbn; (split; [|lra]); (split; [reflexivity|]); (split; [|lra]); repeat (constructor; [lra|]); constructor.
    + destruct Hx as [Lx [Fx Sx]]. cbn in Lx. apply len2 in Lx. destruct Lx as [a [b ->]]. inversion Fx as [|? ? Ha F2]; subst. inversion F2 as [|? ? Hb _]; subst. cbn in Sx.
      destruct f as [|[|[|[|f]]]]; [| | | |lia]; unfold in_ref; cbn; (split; [|lra]); (split; [reflexivity|]); (split; [|lra]); repeat (constructor; [lra|]); constructor.
    + destruct Hx as [Lx [Fx _]]. cbn in Lx. apply len1 in Lx. destruct Lx as [a ->]. inversion Fx as [|? ? Ha _]; subst.
      destruct f as [|[|[|[|f]]]]; [| | | |lia]; unfold in_ref; cbn; (split; [|lra]); (split; [reflexivity|]); (split; [|exact I]); repeat (constructor; [lra|]); constructor.
    + destruct Hx as [Lx [Fx _]]. cbn in Lx. apply len2 in Lx. destruct Lx as [a [b ->]]. inversion Fx as [|? ? Ha F2]; subst. inversion F2 as [|? ? Hb _]; subst.
      destruct f as [|[|[|[|[|[|f]]]]]]; [| | | | | |lia]; unfold in_ref; cbn; (split; [|lra]); (split; [reflexivity|]); (split; [|exact I]); repeat (constructor; [lra|]); constructor.
  - intros k x I. destruct (In_nth _ _ (0%nat, []) I) as [i [Hi E]]. rewrite NC in E. injection E as <- <-. destruct (H i ltac:(lia)) as [H1 H2]. split; [exact H1|]. apply IN. exact H2.
Qed.
Print Assumptions C140_facet_points.
(** C140: the vertices of the reference facet go to the vertices of the facet. *)
Theorem C140_facet_vertices : forall c f, (f < n_facets c)%nat ->
  map (embed c f) (facet_vertices c) = map (fun v => nth v (geometry c) []) (nth f (facet_topology c) []).
Proof.
  intros c f H. destruct c; cbn in H; repeat (destruct f as [|f]; [solve [cbn; repeat lazymatch goal with |- @eq R _ _ => ring | |- nil = _ => reflexivity | |- @cons R _ _ = _ => apply (f_equal2 (@cons R)) | |- _ => apply (f_equal2 (@cons (list R))) end]|]); lia.
Qed.
Print Assumptions C140_facet_vertices.
(** C140: different points stay different. *)
Theorem C140_facet_points_distinct : forall c f x y, (f < n_facets c)%nat -> in_facet c x -> in_facet c y -> embed c f x = embed c f y -> x = y.
Proof.
  intros c f x y H Hx Hy. unfold in_facet in *. destruct c; cbn in H, Hx, Hy.
  - intros _. congruence.
  - destruct Hx as [Lx _], Hy as [Ly _]. cbn in Lx, Ly. apply len1 in Lx, Ly. destruct Lx as [a ->], Ly as [b ->].
    destruct f as [|[|[|f]]]; [| | |lia]; cbn; intros E; injection E; intros; congruence.
  - destruct Hx as [Lx _], Hy as [Ly _]. cbn in Lx, Ly. apply len2 in Lx, Ly. destruct Lx as [a [a' ->]], Ly as [b [b' ->]].
    destruct f as [|[|[|[|f]]]]; [| | | |lia]; cbn; intros E; injection E; intros; congruence.
  - destruct Hx as [Lx _], Hy as [Ly _]. cbn in Lx, Ly. apply len1 in Lx, Ly. destruct Lx as [a ->], Ly as [b ->].
    destruct f as [|[|[|[|f]]]]; [| | | |lia]; cbn; intros E; injection E; intros; congruence.
  - destruct Hx as [Lx _], Hy as [Ly _]. cbn in Lx, Ly. apply len2 in Lx, Ly. destruct Lx as [a [a' ->]], Ly as [b [b' ->]].
    destruct f as [|[|[|[|[|[|f]]]]]]; [| | | | | |lia]; cbn; intros E; injection E; intros; congruence.
Qed.
Print Assumptions C140_facet_points_distinct.
Example C140_case : map_facets_points CHexahedron (fun _ => []) [[1/4; 1/2]; [1/3; 1/5]] [4%nat; 0%nat] = Ret [[1/4; 1; 1/2]; [1/3; 1/5; 0]].
Proof.
  destruct (C140_facet_points CHexahedron (fun _ => []) [[1/4; 1/2]; [1/3; 1/5]] [4%nat; 0%nat] eq_refl) as [out [E [L H]]].
  - intros [|[|i]] Hi; cbn in Hi; [| |lia]; cbn; (split; [lia|]); unfold in_facet, in_ref; cbn; (split; [reflexivity|]); (split; [|exact I]); repeat (constructor; [lra|]); constructor.
  - rewrite E. f_equal. cbn in L. destruct out as [|a [|b [|? ?]]]; try discriminate. destruct (H 0%nat ltac:(cbn; lia)) as [A _]. destruct (H 1%nat ltac:(cbn; lia)) as [B _]. cbn in A, B. rewrite A, B. reflexivity.
Qed.

(** C141: permute_facet_points applies to every point the symmetry with the given number (numbered as the tables of FFCx: 2 * rotations + reflections). False on
    quadrilateral facets: the last two of the eight symmetries are missing, so any point with one of them raises. *)
Theorem C141_facet_symmetries_refuted : forall pts perms, length pts = length perms -> (forall k, In k perms -> (k < n_perms CQuadrilateral)%nat) ->
  (In 6%nat perms \/ In 7%nat perms) -> permute_points CQuadrilateral pts perms = Abort.
Proof.
  intros pts perms L V H. unfold permute_points, assert_. rewrite (proj2 (Nat.eqb_eq _ _) L). cbn [create_permutation_operators bind].
  set (Ps := [_; _; _; _; _; _]).
  assert (HU : In 6%nat (nodup Nat.eq_dec perms) \/ In 7%nat (nodup Nat.eq_dec perms)) by (rewrite !nodup_In; exact H).
  assert (PW : forall k g keys (src cur : list vec), exists r, put_where k (fun x => Ret (g x)) keys src cur = Ret r).
  { intros k g. induction keys as [|k' keys IH]; intros [|s src] [|c cur]; cbn; try (eexists; reflexivity). destruct (IH src cur) as [r E]. destruct (_ =? _)%nat; cbn; rewrite E; eexists; reflexivity. }
  generalize pts at 2 as cur. revert HU. generalize (nodup Nat.eq_dec perms) as us.
  induction us as [|k us IH]; intros HU cur; [destruct HU as [[]|[]]|]. cbn [permute_loop].
  destruct (Nat.eqb_spec k 0) as [->|N]. { apply IH. destruct HU as [[Q|Q]|[Q|Q]]; try discriminate; auto. }
  destruct (lt_dec k 6) as [l|l].
  - assert (EP : exists P, pat Ps k = Ret P) by (do 6 (destruct k as [|k]; [eexists; reflexivity|]); lia). destruct EP as [P ->]. cbn [bind].
    destruct (PW k (apply_perm P) perms pts cur) as [r ->]. cbn [bind]. apply IH. destruct HU as [[Q|Q]|[Q|Q]]; try (subst k; lia); auto.
  - assert (EP : pat Ps k = Abort) by (do 6 (destruct k as [|k]; [lia|]); unfold pat; cbn; destruct k; reflexivity). rewrite EP. reflexivity.
Qed.
Print Assumptions C141_facet_symmetries_refuted.
(** Such symmetries exist in meshes of hexahedra: e.g. three rotations of a facet. *)
Example C141_missing : permute_points CQuadrilateral [[1/4; 1/2]] [6%nat] = Abort /\ moved CQuadrilateral 6 [1/4; 1/2] = [1 - 1/2; 1 - (1 - 1/4)].
Proof.
  split; [|reflexivity]. apply C141_facet_symmetries_refuted; [reflexivity| |cbn; auto]. intros k [<-|[]]. cbn. lia.
Qed.
(** C141, the part that holds: all symmetries of intervals and triangles, the first six of quadrilaterals. *)
Theorem C141_facet_symmetries_partial : forall c fc all_perms pts cells facets,
  facet_cell c = Some fc -> length cells = length facets -> length pts = length facets ->
  (forall i, (i < length facets)%nat ->
     let p := nth (nth i facets 0%nat) (nth (nth i cells 0%nat) all_perms []) 0%nat in
     (nth i cells 0 < length all_perms)%nat /\ (nth i facets 0 < length (nth (nth i cells 0) all_perms []))%nat
     /\ (p < n_perms fc)%nat /\ (fc = CQuadrilateral -> (p < 6)%nat) /\ in_ref fc (nth i pts [])) ->
  exists out, permute_facet_points c all_perms pts cells facets = Ret out /\ length out = length pts
    /\ forall i, (i < length pts)%nat ->
       nth i out [] = moved fc (nth (nth i facets 0%nat) (nth (nth i cells 0%nat) all_perms []) 0%nat) (nth i pts [])
       /\ in_ref fc (nth i out []).
Proof.
  intros c fc all_perms pts cells facets HF L1 L2 H. unfold permute_facet_points, get_facet_permutations, assert_. rewrite (proj2 (Nat.eqb_eq _ _) L1), HF.
  set (perm := fun i => nth (nth i facets 0%nat) (nth (nth i cells 0%nat) all_perms []) 0%nat).
  assert (EP : pmap (fun cf => bind (pat all_perms (fst cf)) (fun row => pat row (snd cf))) (combine cells facets) = Ret (map (fun cf => nth (snd cf) (nth (fst cf) all_perms []) 0%nat) (combine cells facets))).
  { apply L_PyNodes.pmap_ret. intros [a b] I. destruct (In_nth _ _ (0%nat, 0%nat) I) as [i [Hi E]]. rewrite combine_nth in E by exact L1. injection E as <- <-. rewrite combine_length in Hi.
    destruct (H i ltac:(lia)) as [A [B _]]. cbn [fst snd]. rewrite (L_PyNodes.pat_ret all_perms _ []) by exact A. cbn [bind]. apply L_PyNodes.pat_ret. exact B. }
  rewrite EP. cbn [bind].
  set (perms := map _ _).
  assert (LP : length perms = length facets) by (unfold perms; rewrite map_length, combine_length; lia).
  assert (NP : forall i, (i < length facets)%nat -> nth i perms 0%nat = perm i).
  { intros i Hi. unfold perms. rewrite (nth_map_d _ (0%nat, 0%nat)) by (rewrite combine_length; lia). rewrite combine_nth by exact L1. reflexivity. }
  assert (NC : forall i, (i < length facets)%nat -> nth i (combine perms pts) (0%nat, []) = (perm i, nth i pts [])) by (intros i Hi; rewrite combine_nth by lia; rewrite NP by exact Hi; reflexivity).
  rewrite permute_points_ok; [|exists c; exact HF|lia|].
  - eexists. split; [reflexivity|]. split; [rewrite map_length, combine_length; lia|]. intros i Hi. rewrite (nth_map_d _ (0%nat, [])) by (rewrite combine_length; lia). rewrite NC by lia. cbn [fst snd]. split; [reflexivity|].
    destruct (H i ltac:(lia)) as [_ [_ [_ [_ IR]]]]. generalize (perm i) as p. revert IR. generalize (nth i pts []) as x. clear -HF. intros x IR p.
    assert (F : fc = CInterval \/ fc = CTriangle \/ fc = CQuadrilateral) by (destruct c; try discriminate; injection HF as <-; auto).
    assert (RF : forall y, in_ref fc y -> in_ref fc (reflect y)).
    { intros y [A [B C]]. unfold in_ref in *. destruct F as [-> |[-> | ->]]; cbn in A.
      - apply len1 in A. destruct A as [a ->]. inversion B; subst. cbn. split; [reflexivity|]. split; [|exact I]. repeat (constructor; [lra|]). constructor.
      - apply len2 in A. destruct A as [a [b ->]]. inversion B as [|? ? B1 B2]; subst. inversion B2; subst. cbn in *. split; [reflexivity|]. split; [|lra]. repeat (constructor; [lra|]). constructor.
      - apply len2 in A. destruct A as [a [b ->]]. inversion B as [|? ? B1 B2]; subst. inversion B2; subst. cbn in *. split; [reflexivity|]. split; [|exact I]. repeat (constructor; [lra|]). constructor. }
    assert (RO : forall y, in_ref fc y -> in_ref fc (rotate fc y)).
    { intros y [A [B C]]. unfold in_ref in *. destruct F as [-> |[-> | ->]]; cbn in A.
      - apply len1 in A. destruct A as [a ->]. inversion B; subst. cbn. auto.
      - apply len2 in A. destruct A as [a [b ->]]. inversion B as [|? ? B1 B2]; subst. inversion B2; subst. cbn in *. split; [reflexivity|]. split; [|lra]. repeat (constructor; [lra|]). constructor.
      - apply len2 in A. destruct A as [a [b ->]]. inversion B as [|? ? B1 B2]; subst. inversion B2; subst. cbn in *. split; [reflexivity|]. split; [|exact I]. repeat (constructor; [lra|]). constructor. }
    unfold moved. assert (IT : forall (f : vec -> vec), (forall y, in_ref fc y -> in_ref fc (f y)) -> forall n y, in_ref fc y -> in_ref fc (Nat.iter n f y)).
    { intros f Hf. induction n as [|n IH]; intros y Hy; cbn; [exact Hy|]. apply Hf, IH. exact Hy. }
    apply IT; [exact RF|]. apply IT; [exact RO|exact IR].
  - intros k x I. destruct (In_nth _ _ (0%nat, []) I) as [i [Hi E]]. rewrite combine_length in Hi. rewrite NC in E by lia. injection E as <- <-. destruct (H i ltac:(lia)) as [_ [_ [A [B [C _]]]]]. split; [split; assumption|exact C].
Qed.
Print Assumptions C141_facet_symmetries_partial.
(** The symmetries with different numbers differ. *)
Theorem C141_symmetries_distinct : forall fc p q, fc = CInterval \/ fc = CTriangle \/ fc = CQuadrilateral -> (p < n_perms fc)%nat -> (q < n_perms fc)%nat ->
  (forall x, in_ref fc x -> moved fc p x = moved fc q x) -> p = q.
Proof.
  intros fc p q F Hp Hq H. destruct F as [-> |[-> | ->]]; cbn in Hp, Hq.
  - assert (IR : in_ref CInterval [1/4]) by (unfold in_ref; cbn; repeat split; repeat constructor; lra). specialize (H _ IR).
    destruct p as [|[|p]]; [| |lia]; (destruct q as [|[|q]]; [| |lia]); try reflexivity; exfalso; cbn in H; injection H; lra.
  - assert (IR : in_ref CTriangle [1/4; 1/8]) by (unfold in_ref; cbn; repeat split; repeat constructor; lra). specialize (H _ IR).
    do 6 (destruct p as [|p]; [do 6 (destruct q as [|q]; [try reflexivity; exfalso; cbn in H; injection H; lra|]); lia|]). lia.
  - assert (IR : in_ref CQuadrilateral [1/4; 1/8]) by (unfold in_ref; cbn; repeat split; repeat constructor; lra). specialize (H _ IR).
    do 8 (destruct p as [|p]; [do 8 (destruct q as [|q]; [try reflexivity; exfalso; cbn in H; injection H; lra|]); lia|]). lia.
Qed.
Print Assumptions C141_symmetries_distinct.
Example C141_case : permute_facet_points CHexahedron [[0%nat; 3%nat]] [[1/4; 1/2]] [0%nat] [1%nat] = Ret [moved CQuadrilateral 3 [1/4; 1/2]] /\ moved CQuadrilateral 3 [1/4; 1/2] = [1 - 1/4; 1/2].
Proof.
  split; [|reflexivity].
  destruct (C141_facet_symmetries_partial CHexahedron CQuadrilateral [[0%nat; 3%nat]] [[1/4; 1/2]] [0%nat] [1%nat] eq_refl eq_refl eq_refl) as [out [E [L H]]].
  - intros [|i] Hi; cbn in Hi; [|lia]. cbn. split; [lia|]. split; [lia|]. split; [lia|]. split; [lia|]. unfold in_ref. cbn. split; [reflexivity|]. split; [|exact I]. repeat (constructor; [lra|]). constructor.
  - rewrite E. f_equal. cbn in L. destruct out as [|a [|? ?]]; try discriminate. destruct (H 0%nat ltac:(cbn; lia)) as [A _]. cbn [nth] in A. rewrite A. reflexivity.
Qed.
