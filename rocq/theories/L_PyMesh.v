From Coq Require Import List Arith Bool ZArith Lia Permutation Sorting.Sorted Relations.
From Verif Require Import M_PyBase M_PyMesh S_PyMesh L_PyNodes L_PyTp L_PyFacets.
Import ListNotations.
Local Open Scope Z_scope.

Lemma take_ids_ok {A} (l : list A) d ids : (forall i, In i ids -> (i < length l)%nat) -> take_ids l ids = Ret (map (fun i => nth i l d) ids).
Proof.
  unfold take_ids. induction ids as [|i ids IH]; intros H; [reflexivity|]. cbn [pmap map]. rewrite (pat_ret l i d) by (apply H; cbn; auto). cbn [bind]. rewrite IH by (intros; apply H; cbn; auto). reflexivity.
Qed.
Lemma patz_ok {A} (l : list A) d i : 0 <= i < Z.of_nat (length l) -> patz l i = Ret (nth (Z.to_nat i) l d).
Proof. intros H. unfold patz. replace (0 <=? i) with true by (symmetry; apply Z.leb_le; lia). apply pat_ret. lia. Qed.
Lemma take_zids_ok {A} (l : list A) d ids : (forall i, In i ids -> 0 <= i < Z.of_nat (length l)) -> take_zids l ids = Ret (map (fun i => nth (Z.to_nat i) l d) ids).
Proof.
  unfold take_zids. induction ids as [|i ids IH]; intros H; [reflexivity|]. cbn [pmap map]. rewrite (patz_ok l d) by (apply H; cbn; auto). cbn [bind]. rewrite IH by (intros; apply H; cbn; auto). reflexivity.
Qed.
Lemma search_spec l v : StronglySorted Z.le l -> In v l -> (searchsorted l v < length l)%nat /\ nth (searchsorted l v) l 0 = v.
Proof.
  induction 1 as [|x l S IH F]; intros I; [destruct I|]. cbn [searchsorted]. destruct (x <? v) eqn:E.
  - apply Z.ltb_lt in E. destruct I as [->|I]; [lia|]. destruct (IH I). cbn. split; [lia|auto].
  - apply Z.ltb_ge in E. cbn. split; [lia|]. destruct I as [->|I]; auto. rewrite Forall_forall in F. specialize (F v I). lia.
Qed.
Lemma find_ok argsort all vs : sorts argsort -> all <> [] \/ vs = [] -> exists rs, find_in_array argsort vs all = Ret rs /\ Forall2 (position all) vs rs.
Proof.
  intros H NE. destruct (H all) as (P & SS). unfold find_in_array. set (index := argsort all) in *.
  assert (B : forall i, In i index -> (i < length all)%nat) by (intros i Hi; apply (Permutation_in _ P) in Hi; apply in_seq in Hi; lia).
  rewrite (take_ids_ok all 0 index B). cbn [bind]. set (sorted := map (fun i => nth i all 0) index) in *.
  assert (L : length index = length all) by (rewrite (Permutation_length P), seq_length; auto).
  induction vs as [|v vs IH]; [exists []; split; [reflexivity|constructor]|]. destruct NE as [NE|NE]; [|discriminate NE]. destruct IH as (rs & E & F); [auto|].
  assert (Ln : (0 < length all)%nat) by (destruct all; [congruence|cbn; lia]).
  set (p := searchsorted sorted v) in *. set (q := Nat.min p (length index - 1)).
  set (i := nth q index 0%nat). assert (Hq : (q < length index)%nat) by (unfold q; lia). assert (Hi : (i < length all)%nat) by (apply B; apply nth_In; auto).
  exists ((if nth i all 0 =? v then Z.of_nat i else -1) :: rs). cbn [pmap]. fold p. fold q. rewrite (pat_ret index q 0%nat) by auto. fold i. cbn [bind]. rewrite (pat_ret all i 0) by auto. cbn [bind]. rewrite E. cbn [bind]. split; auto. constructor; auto.
  assert (Sq : nth q sorted 0 = nth i all 0). { unfold sorted. rewrite (nth_indep _ 0 ((fun i => nth i all 0) 0%nat)) by (rewrite map_length; auto). rewrite (map_nth (fun i => nth i all 0)). reflexivity. }
  split.
  - intros I. assert (Is : In v sorted). { apply (In_nth _ _ 0) in I. destruct I as (k & Hk & <-). unfold sorted. apply in_map_iff. exists k. split; auto. apply (Permutation_in _ (Permutation_sym P)). apply in_seq. lia. }
    destruct (search_spec sorted v SS Is) as (Lp & Np). fold p in Lp, Np. unfold sorted in Lp. rewrite map_length in Lp. assert (q = p) by (unfold q; lia). rewrite H0, Np in Sq. rewrite <- Sq, Z.eqb_refl. split; [lia|]. rewrite Nat2Z.id. auto.
  - intros N. destruct (nth i all 0 =? v) eqn:Ev; auto. apply Z.eqb_eq in Ev. exfalso. apply N. rewrite <- Ev. apply nth_In. auto.
Qed.
Lemma find_empty argsort v vs : sorts argsort -> find_in_array argsort (v :: vs) [] = Abort.
Proof. intros H. destruct (H []) as (P & _). unfold find_in_array. assert (argsort [] = []) as -> by (apply Permutation_nil; symmetry; exact P). cbn. reflexivity. Qed.
Lemma f2_map {A B} (R : A -> B -> Prop) (f : A -> B) l l' : Forall2 R l l' -> (forall x y, In x l -> R x y -> y = f x) -> l' = map f l.
Proof. induction 1 as [|x y l l' Q F IH]; intros H; auto. cbn. f_equal; [apply H; cbn; auto|apply IH; intros; apply H; cbn; auto]. Qed.
Lemma position_nth l k r : NoDup l -> (k < length l)%nat -> position l (nth k l 0) r -> r = Z.of_nat k.
Proof. intros N H (P & _). destruct (P (nth_In _ _ H)) as (B & E). assert (Z.to_nat r = k) by (apply (proj1 (NoDup_nth l 0) N); auto; lia). lia. Qed.

(** ** Merging *)
Local Close Scope Z_scope.
Lemma assign_len l i x : i < length l -> length (assign l i x) = length l.
Proof. intros H. unfold assign. rewrite !app_length, firstn_length, skipn_length. cbn. lia. Qed.
Lemma assign_nth l i x k d : i < length l -> nth k (assign l i x) d = if k =? i then x else nth k l d.
Proof.
  revert i k. induction l as [|y l IH]; intros [|i] k H; cbn in H; try lia.
  - destruct k; reflexivity.
  - destruct k as [|k]; [reflexivity|]. cbn. apply (IH i k). lia.
Qed.
Section Merge.
Variable n : nat.
Variable pairs : list (nat * nat).
Hypothesis W : forall i j, In (i, j) pairs -> i < j < n.
(** What every pointer array satisfies. *)
Definition pointers (s : list nat) := length s = n /\ (forall j, j < n -> nth j s 0 <= j) /\ (forall j, j < n -> chained pairs j (nth j s 0))
  /\ (forall i j, In (i, j) pairs -> nth j s 0 < j).
Lemma chained_sym i j : chained pairs i j -> chained pairs j i.
Proof. induction 1 as [i j H| |i j k _ IH1 _ IH2]; [apply rt_step; unfold coincident in *; intuition|apply rt_refl|eapply rt_trans; eauto]. Qed.
Lemma first_ok : pointers (first_masters n pairs).
Proof.
  assert (G : forall ps s, incl ps pairs -> length s = n -> (forall j, j < n -> nth j s 0 <= j) -> (forall j, j < n -> chained pairs j (nth j s 0)) ->
     let t := fold_left (fun s p => assign s (snd p) (nth (fst p) (seq 0 n) 0)) ps s in
     length t = n /\ (forall j, j < n -> nth j t 0 <= j) /\ (forall j, j < n -> chained pairs j (nth j t 0)) /\ (forall i j, In (i, j) ps -> nth j t 0 < j) /\ (forall j, nth j s 0 < j -> nth j t 0 < j)).
  { induction ps as [|(i, j) ps IH]; intros s I L A B; [cbn; repeat split; auto; intros; contradiction|]. destruct (W i j (I _ ltac:(cbn; auto))) as (Hij & Hj). cbn [fold_left fst snd]. rewrite seq_nth by lia. rewrite Nat.add_0_l.
    assert (A' : forall k, nth k (assign s j i) 0 = if k =? j then i else nth k s 0) by (intros; apply assign_nth; lia).
    destruct (IH (assign s j i)) as (L1 & A1 & B1 & C1 & D1).
    { intros x Hx. apply I. cbn. auto. }
    { rewrite assign_len; lia. }
    { intros k Hk. rewrite A'. destruct (k =? j) eqn:E; auto. apply Nat.eqb_eq in E. lia. }
    { intros k Hk. rewrite A'. destruct (k =? j) eqn:E; auto. apply Nat.eqb_eq in E. subst k. apply rt_step. right. right. apply I. cbn. auto. }
    split; auto. split; auto. split; auto. split.
    - intros i' j' [E|H]; [|eauto]. injection E as <- <-. apply D1. rewrite A', Nat.eqb_refl. auto.
    - intros k Hk. apply D1. rewrite A'. destruct (k =? j) eqn:E; auto. apply Nat.eqb_eq in E. lia. }
  destruct (G pairs (seq 0 n)) as (L & A & B & C & _).
  { intros x; auto. } { apply seq_length. } { intros j Hj. rewrite seq_nth; lia. } { intros j Hj. rewrite seq_nth by lia. apply rt_refl. }
  split; auto.
Qed.
Lemma compose_nth s k : length s = n -> k < n -> nth k (compose s) 0 = nth (nth k s 0) s 0.
Proof. intros L H. unfold compose. rewrite (nth_indep _ 0 ((fun i => nth i s 0) 0)) by (rewrite map_length; lia). rewrite (map_nth (fun i => nth i s 0)). auto. Qed.
Lemma compose_ok s : pointers s -> pointers (compose s).
Proof.
  intros (L & A & B & C). assert (L' : length (compose s) = n) by (unfold compose; rewrite map_length; auto). split; auto. split; [|split].
  - intros j Hj. rewrite compose_nth by auto. specialize (A j Hj) as A1. assert (nth j s 0 < n) by lia. specialize (A _ H). lia.
  - intros j Hj. rewrite compose_nth by auto. specialize (A j Hj) as A1. eapply rt_trans; [apply B; auto|apply B; lia].
  - intros i j H. rewrite compose_nth by (auto; apply W in H; lia). pose proof (C i j H). destruct (W i j H). assert (Hs : nth j s 0 < n) by lia. specialize (A _ Hs). lia.
Qed.
Definition total (s : list nat) := fold_right Nat.add 0 s.
Lemma compose_less s : pointers s -> compose s <> s -> total (compose s) < total s.
Proof.
  intros (L & A & _) N.
  assert (G : forall l, (forall i, In i l -> i < n) -> map (fun i => nth i s 0) l <> l -> total (map (fun i => nth i s 0) l) < total l).
  { assert (Le : forall l, (forall i, In i l -> i < n) -> total (map (fun i => nth i s 0) l) <= total l). { induction l as [|x l IH]; intros H; cbn; auto. specialize (A x (H x ltac:(cbn; auto))). specialize (IH ltac:(intros; apply H; cbn; auto)). unfold total in *. lia. }
    induction l as [|x l IH]; intros H Ne; [destruct Ne; reflexivity|]. pose proof (A x (H x ltac:(cbn; auto))) as Ax. cbn. destruct (Nat.eq_dec (nth x s 0) x) as [E|E].
    - cbn [map] in Ne. rewrite E in *. assert (map (fun i => nth i s 0) l <> l) by congruence. specialize (IH ltac:(intros; apply H; cbn; auto) H0). unfold total in *. lia.
    - specialize (Le l ltac:(intros; apply H; cbn; auto)). unfold total in *. lia. }
  apply G; auto. intros i Hi. apply (In_nth _ _ 0) in Hi. destruct Hi as (k & Hk & <-). specialize (A k ltac:(lia)). lia.
Qed.
Lemma doubling_ok fuel s : pointers s -> total s < fuel -> exists r, doubling fuel s = Ret r /\ pointers r /\ compose r = r.
Proof.
  revert s. induction fuel as [|fuel IH]; intros s P H; [lia|]. cbn [doubling]. destruct (list_eq_dec Nat.eq_dec (compose s) s) as [E|N].
  - exists (compose s). split; auto. split; [apply compose_ok; auto|]. rewrite E. auto.
  - apply IH; [apply compose_ok; auto|]. pose proof (compose_less s P N). lia.
Qed.
Lemma total_bound s : pointers s -> total s <= n * n.
Proof.
  intros (L & A & _). assert (forall l, (forall i, In i l -> i < n) -> total l <= length l * n). { induction l as [|x l IH]; intros H; cbn; auto. specialize (H x ltac:(cbn; auto)) as Hx. specialize (IH ltac:(intros; apply H; cbn; auto)). unfold total in *. lia. }
  rewrite <- L at 1. apply H. intros i Hi. apply (In_nth _ _ 0) in Hi. destruct Hi as (k & Hk & <-). specialize (A k ltac:(lia)). lia.
Qed.
Lemma unique_in m l x : In x (unique_below m l) <-> x < m /\ In x l.
Proof. unfold unique_below. rewrite filter_In, in_seq, existsb_exists. split; [intros (H & y & Hy & E); apply Nat.eqb_eq in E; subst y; split; auto; lia|intros (H & I); split; [lia|]; exists x; split; auto; apply Nat.eqb_refl]. Qed.
Lemma unique_nodup_n m l : NoDup (unique_below m l).
Proof. unfold unique_below. apply NoDup_filter, seq_NoDup. Qed.
Lemma merge_ok {A} (nodes : list A) (conn : list (list nat)) fuel d : length nodes = n -> n * n < fuel -> (forall c i, In c conn -> In i c -> i < n) ->
  exists s o new_nodes, pointers s /\ compose s = s /\ length o = n
  /\ (forall i j, i < n -> j < n -> nth i o 0 = nth j o 0 <-> nth i s 0 = nth j s 0)
  /\ (forall i, i < n -> nth i o 0 < length new_nodes /\ nth (nth i o 0) new_nodes d = nth (nth i s 0) nodes d)
  /\ (forall k, k < length new_nodes -> exists m, m < n /\ nth m s 0 = m /\ nth m o 0 = k)
  /\ merge_points fuel nodes conn pairs = Ret (new_nodes, map (map (fun i => nth i o 0)) conn, o).
Proof.
  intros Ln Hf Hc. unfold merge_points. rewrite Ln. destruct (doubling_ok fuel (first_masters n pairs)) as (s & E & P & Id); [apply first_ok|pose proof (total_bound _ first_ok); lia|]. rewrite E. cbn [bind].
  destruct P as (Ls & As & Bs & Cs) eqn:EP. clear EP. pose proof (conj Ls (conj As (conj Bs Cs))) as P'. change (pointers s) in P'.
  set (M := unique_below n s). assert (IM : forall i, In i s -> In i M). { intros i Hi. apply unique_in. split; auto. apply (In_nth _ _ 0) in Hi. destruct Hi as (k & Hk & <-). specialize (As k ltac:(lia)). lia. }
  assert (WM : forall i, In i s -> exists k, where0 i M = Ret k /\ nth_error M k = Some i).
  { intros i Hi. destruct (where_from_spec i M 0 (IM i Hi)) as (k & E1 & E2 & _). exists k. auto. }
  set (pos := fun i => match where0 i M with Ret k => k | _ => 0 end).
  assert (Ep : forall i, In i s -> where0 i M = Ret (pos i) /\ nth_error M (pos i) = Some i) by (intros i Hi; destruct (WM i Hi) as (k & E1 & E2); unfold pos; rewrite E1; auto).
  assert (Eo : pmap (fun i => where0 i M) s = Ret (map pos s)).
  { assert (G : forall l, incl l s -> pmap (fun i => where0 i M) l = Ret (map pos l)).
    { induction l as [|x l IH]; intros Il; [reflexivity|]. cbn [pmap map]. destruct (Ep x (Il x ltac:(cbn; auto))) as (E1 & _). rewrite E1. cbn [bind]. rewrite IH by (intros z Hz; apply Il; cbn; auto). reflexivity. }
    apply G. intros x; auto. }
  rewrite Eo. cbn [bind]. set (o := map pos s).
  assert (No : forall i, i < n -> nth i o 0 = pos (nth i s 0)). { intros i Hi. unfold o. rewrite (nth_indep _ 0 (pos 0)) by (rewrite map_length; lia). apply map_nth. }
  assert (Is : forall i, i < n -> In (nth i s 0) s) by (intros; apply nth_In; lia).
  rewrite (take_ids_ok nodes d) by (intros i Hi; unfold M in Hi; apply unique_in in Hi; lia). cbn [bind].
  assert (Lo : length o = n) by (unfold o; rewrite map_length; auto).
  assert (Ec : pmap (take_ids o) conn = Ret (map (map (fun i => nth i o 0)) conn)).
  { clear - Hc Lo. induction conn as [|c conn IH]; [reflexivity|]. cbn [pmap map]. rewrite (take_ids_ok o 0) by (intros i Hi; rewrite Lo; apply (Hc c); cbn; auto). cbn [bind]. rewrite IH by (intros c' i H1 H2; apply (Hc c'); cbn; auto). reflexivity. }
  rewrite Ec. cbn [bind]. exists s, o, (map (fun i => nth i nodes d) M). split; auto. split; auto. split; auto. split; [|split; [|split; [|reflexivity]]].
  - intros i j Hi Hj. rewrite !No by auto. destruct (Ep _ (Is i Hi)) as (_ & E1), (Ep _ (Is j Hj)) as (_ & E2). split; congruence.
  - intros i Hi. rewrite No by auto. destruct (Ep _ (Is i Hi)) as (_ & E1). assert (Hp : pos (nth i s 0) < length M) by (apply nth_error_Some; congruence). rewrite map_length. split; auto.
    rewrite (nth_indep _ d ((fun i => nth i nodes d) 0)) by (rewrite map_length; auto). rewrite (map_nth (fun i => nth i nodes d)). f_equal. apply nth_error_nth. auto.
  - intros k Hk. rewrite map_length in Hk. assert (I : In (nth k M 0) M) by (apply nth_In; auto). set (m := nth k M 0) in *. pose proof I as I'. unfold M in I'. apply unique_in in I'. destruct I' as (Hm & Im). exists m. split; auto.
    assert (Fix : nth m s 0 = m). { apply (In_nth _ _ 0) in Im. destruct Im as (j & Hj & Ej). rewrite <- Ej. rewrite <- compose_nth by lia. rewrite Id. auto. }
    split; auto. rewrite No by auto. rewrite Fix. destruct (Ep m Im) as (_ & E1). pose proof (unique_nodup_n n s) as ND. fold M in ND. rewrite NoDup_nth_error in ND. apply ND; [apply nth_error_Some; congruence|]. rewrite E1. symmetry. apply nth_error_nth'. auto.
Qed.
End Merge.
