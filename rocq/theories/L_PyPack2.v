(** Lemmas for the packing of custom coefficients: _copy_vals writes the data of every entity one after the other. *)
From Coq Require Import List ZArith Reals Lia Arith.
From Verif Require Import M_PyBase M_PyFacets M_PyQuadUtils M_PyPack S_PyQuadUtils S_PyPack L_PyNodes L_PyQuadUtils L_PyPack.
Import ListNotations.
Local Open Scope nat_scope.

Lemma wrote_app {A} (mem m mem' : list A) c a b : wrote mem m c a -> wrote m mem' (c + length a) b -> wrote mem mem' c (a ++ b).
Proof.
  intros [L1 [S1 F1]] [L2 [S2 F2]]. split; [congruence|]. split.
  - apply seg_app. split; [|exact S2]. apply (seg_agree m); [|exact S1]. intros k H. apply F2. left. lia.
  - intros k H. rewrite app_length in H. rewrite F2 by lia. apply F1. lia.
Qed.
Lemma wrote_nil {A} (mem : list A) c : wrote mem mem c [].
Proof. split; [reflexivity|]. split; [apply seg_nil|reflexivity]. Qed.

(** The next chunk of every array is the data [d] of an entity with [n] points. *)
Fixpoint fits (n : nat) (nv vo : list nat) (arrs d : list (list R)) : Prop :=
  match arrs, nv, vo, d with
  | [], [], [], [] => True
  | a :: arrs', m :: nv', v :: vo', x :: d' => length x = n * m /\ get_slice a v (n * m) = x /\ fits n nv' vo' arrs' d'
  | _, _, _, _ => False
  end.
Definition advance (n : nat) (nv vo : list nat) : list nat := map (fun p => snd p + n * fst p) (combine nv vo).
Lemma copy_arrays_ok n : forall arrs nv vo d mem c, fits n nv vo arrs d -> c + length (concat d) <= length mem ->
  exists mem', copy_arrays n nv vo arrs mem c = Ret (mem', advance n nv vo, c + length (concat d)) /\ wrote mem mem' c (map Num (concat d)).
Proof.
  induction arrs as [|a arrs IH]; intros [|m nv] [|v vo] [|x d] mem c F L; cbn [fits] in F; try contradiction.
  - exists mem. split; [cbn; rewrite Nat.add_0_r; reflexivity|apply wrote_nil].
  - destruct F as [F1 [F2 F3]]. cbn [copy_arrays concat]. rewrite F2. cbn [concat] in L. rewrite app_length in L.
    destruct (put_slice_ok mem (map Num x) c (n * m)) as [m1 [E1 W1]]. { rewrite map_length. lia. } { lia. }
    rewrite E1. cbn [bind].
    destruct (IH nv vo d m1 (c + n * m) F3) as [m2 [E2 W2]]. { rewrite (proj1 W1). lia. }
    rewrite E2. cbn [bind fst snd]. exists m2. split.
    + unfold advance. cbn [combine map fst snd]. rewrite app_length. replace (c + n * m + length (concat d)) with (c + (length x + length (concat d))) by lia. reflexivity.
    + rewrite map_app. apply (wrote_app _ m1); [exact W1|]. rewrite map_length, F1. exact W2.
Qed.
Fixpoint fits_all (npts : list nat) (nv vo : list nat) (arrs : list (list R)) (ds : list (list (list R))) : Prop :=
  match npts, ds with
  | [], [] => True
  | n :: npts', d :: ds' => fits n nv vo arrs d /\ fits_all npts' nv (advance n nv vo) arrs ds'
  | _, _ => False
  end.
Lemma copy_entities_ok nv arrs : forall npts vo ds offs b mem, fits_all npts nv vo arrs ds ->
  chain b offs (map (fun d => map Num (concat d)) ds) (length mem) ->
  exists mem', copy_entities npts nv vo arrs offs mem = Ret (mem', map (fun p => fst p + length (concat (snd p))) (combine offs ds))
    /\ writes mem mem' offs (map (fun d => map Num (concat d)) ds).
Proof.
  induction npts as [|n npts IH]; intros vo [|d ds] [|o offs] b mem F C; cbn [fits_all map chain] in F, C; try contradiction.
  - exists mem. split; [reflexivity|apply writes_nil].
  - destruct F as [F1 F2]. destruct C as [C1 C2]. assert (Lo := chain_le _ _ _ _ C2). rewrite map_length in C2, Lo.
    destruct (copy_arrays_ok n arrs nv vo d mem o F1 Lo) as [m [E W]]. cbn [copy_entities]. rewrite E. cbn [bind fst snd].
    assert (C3 : chain (o + length (concat d)) offs (map (fun d => map Num (concat d)) ds) (length m)) by (rewrite (proj1 W); exact C2).
    destruct (IH _ ds offs _ m F2 C3) as [m' [E' W']]. rewrite E'. cbn [bind fst snd combine map]. exists m'. split; [reflexivity|].
    apply (writes_cons mem m m' o (map Num (concat d)) _ _ (length m)); [rewrite map_length; exact C3|exact W|exact W'].
Qed.

(** Chunks of concatenated arrays. *)
Lemma fits_map n (A : nat -> list R) (N V : nat -> nat) (D : nat -> list R) : forall l, (forall i, In i l -> length (D i) = n * N i /\ get_slice (A i) (V i) (n * N i) = D i) ->
  fits n (map N l) (map V l) (map A l) (map D l).
Proof. induction l as [|i l IH]; intros H; cbn [map fits]; [exact I|]. destruct (H i (or_introl eq_refl)) as [H1 H2]. split; [exact H1|]. split; [exact H2|]. apply IH. intros j J. apply H. right. exact J. Qed.
Lemma advance_map n (N V : nat -> nat) : forall l : list nat, advance n (map N l) (map V l) = map (fun i => V i + n * N i) l.
Proof. unfold advance. induction l as [|i l IH]; cbn; [reflexivity|]. f_equal. exact IH. Qed.
Lemma get_slice_mid {A} (a b c : list A) : get_slice (a ++ b ++ c) (length a) (length b) = b.
Proof.
  unfold get_slice. rewrite skipn_app, skipn_all, Nat.sub_diag. cbn. rewrite firstn_app, firstn_all, Nat.sub_diag. cbn. apply app_nil_r.
Qed.
Lemma fits_all_concat {E} (n : E -> nat) (N : nat -> nat) (D : E -> nat -> list R) (l : list nat) : forall es pre (V : nat -> nat) (A : nat -> list R),
  (forall e i, In e (pre ++ es) -> In i l -> length (D e i) = n e * N i) ->
  (forall i, A i = concat (map (fun e => D e i) (pre ++ es))) -> (forall i, V i = length (concat (map (fun e => D e i) pre))) ->
  fits_all (map n es) (map N l) (map V l) (map A l) (map (fun e => map (D e) l) es).
Proof.
  induction es as [|e es IH]; intros pre V A H HA HV; cbn [map fits_all]; [exact I|]. split.
  - apply fits_map. intros i Hi. assert (L : length (D e i) = n e * N i) by (apply H; [apply in_or_app; right; left; reflexivity|exact Hi]). split; [exact L|].
    rewrite HA, HV, map_app, concat_app. cbn [map concat]. rewrite <- L. apply get_slice_mid.
  - rewrite advance_map.
    assert (Q : fits_all (map n es) (map N l) (map (fun i => V i + length (D e i)) l) (map A l) (map (fun e => map (D e) l) es)).
    { apply (IH (pre ++ [e])).
      - intros e' i I1 I2. apply H; [|exact I2]. rewrite <- app_assoc in I1. exact I1.
      - intros i. rewrite HA. rewrite <- app_assoc. reflexivity.
      - intros i. rewrite HV, map_app, concat_app, app_length. cbn. rewrite app_nil_r. reflexivity. }
    replace (map (fun i => V i + n e * N i) l) with (map (fun i => V i + length (D e i)) l); [exact Q|].
    apply map_ext_in. intros i Hi. rewrite (H e i); [reflexivity|apply in_or_app; right; left; reflexivity|exact Hi].
Qed.

(** Disjoint regions, as functions of the entity. *)
Definition disj {A} (E : nat) (O : nat -> nat) (N : nat -> list A) (top : nat) : Prop :=
  (forall i j, i < j < E -> O i + length (N i) <= O j) /\ (forall j, j < E -> O j + length (N j) <= top).
Definition writesf {A} (E : nat) (mem mem' : list A) (O : nat -> nat) (N : nat -> list A) : Prop :=
  length mem' = length mem /\ (forall j, j < E -> seg mem' (O j) (N j))
  /\ (forall k, (forall j, j < E -> k < O j \/ O j + length (N j) <= k) -> nth_error mem' k = nth_error mem k).
Lemma nth_seq_map {B} (f : nat -> B) E j d : j < E -> nth j (map f (seq 0 E)) d = f j.
Proof. intros H. rewrite (nth_map_d f 0) by (rewrite seq_length; exact H). rewrite seq_nth by exact H. reflexivity. Qed.
Lemma disj_chain {A} (O : nat -> nat) (N : nat -> list A) top : forall E s b, b <= top -> (s < s + E -> b <= O s) ->
  (forall i j, s <= i < j /\ j < s + E -> O i + length (N i) <= O j) -> (forall j, s <= j < s + E -> O j + length (N j) <= top) ->
  chain b (map O (seq s E)) (map N (seq s E)) top.
Proof.
  induction E as [|E IH]; intros s b B1 B2 H1 H2; cbn [seq map chain]; [exact B1|]. split; [apply B2; lia|].
  apply IH.
  - apply H2. lia.
  - intros Q. apply H1. lia.
  - intros i j H. apply H1. lia.
  - intros j H. apply H2. lia.
Qed.
