From Coq Require Import Reals List Lia Lra Permutation Sorting.Sorted Bool Arith ZArith.
From Verif Require Import M_Mesh S_Mesh S_Point L_Point L_TensorNat.
Import ListNotations.
Local Close Scope R_scope. Local Close Scope Z_scope. Local Open Scope nat_scope.

(** ** Basic *)
Lemma at_ok {A} (l : list A) i d : i < length l -> at_ l i = Ret (nth i l d).
Proof. intros H. unfold at_. rewrite (nth_error_nth' l d H). reflexivity. Qed.
Lemma at_inv {A} (l : list A) i x : at_ l i = Ret x -> i < length l.
Proof. unfold at_. destruct (nth_error l i) eqn:E; [|discriminate]. intros _. apply nth_error_Some. congruence. Qed.
Lemma mapM_ok {A B} (f : A -> outcome B) g l : (forall x, In x l -> f x = Ret (g x)) -> mapM f l = Ret (map g l).
Proof. induction l as [|x l IH]; intros H; cbn [mapM map]; auto. rewrite H by (left; auto). cbn [bind]. rewrite IH by (intros; apply H; right; auto). reflexivity. Qed.
Definition vmesh (dim : nat) (m : mesh) : Prop := valid dim (m_order m) (m_points m) (m_conn m) (m_wires m).
Lemma pow_pos o d : 2 <= o -> 0 < o ^ d.
Proof. intros H. apply Nat.neq_0_lt_0. apply Nat.pow_nonzero. lia. Qed.
Lemma num_cells_ok dim m n : 0 < pts_per_cell dim m -> length (m_conn m) = n * pts_per_cell dim m -> num_cells dim m = Ret n.
Proof.
  intros H E. unfold num_cells. rewrite E, Nat.mod_mul, Nat.div_mul by lia. reflexivity.
Qed.
Lemma tp_size_const dim n : tp_size (tp_const dim n) = n ^ dim.
Proof. unfold tp_size, tp_const. induction dim; cbn; auto. Qed.

(** ** add_full_cell *)
Lemma add_loop cheb domain l : forall m, fold_left (fun m tid => mk_mesh (m_order m) (m_points m ++ [cell_point cheb (m_order m) domain tid])
                          (m_conn m ++ [length (m_points m)]) (m_wires m)) l m =
  mk_mesh (m_order m) (m_points m ++ map (cell_point cheb (m_order m) domain) l) (m_conn m ++ seq (length (m_points m)) (length l)) (m_wires m).
Proof.
  induction l as [|t l IH]; intros m; cbn [fold_left map length seq].
  - rewrite !app_nil_r. destruct m; reflexivity.
  - rewrite IH. cbn [m_order m_points m_conn m_wires]. rewrite app_length. cbn [length]. rewrite <- !app_assoc. cbn [app]. replace (length (m_points m) + 1) with (S (length (m_points m))) by lia. reflexivity.
Qed.

(** ** Edges *)
Lemma flat_map_single {A B} (f : A -> B) l : flat_map (fun x => [f x]) l = map f l.
Proof. induction l; cbn; congruence. Qed.
Lemma one_range a h : h = S a -> seq a (h - a) = [a].
Proof. intros ->. replace (S a - a) with 1 by lia. reflexivity. Qed.
Lemma range_a2 a h n : h = S a -> tp_range [a; 0] [h; n] = map (fun i => [a; i]) (seq 0 n).
Proof. intros E. cbn [tp_range]. rewrite (one_range a h E), Nat.sub_0_r. cbn [map flat_map]. rewrite app_nil_r, flat_map_single, map_map. reflexivity. Qed.
Lemma range_2a a h n : h = S a -> tp_range [0; a] [n; h] = map (fun i => [i; a]) (seq 0 n).
Proof. intros E. cbn [tp_range]. rewrite (one_range a h E), Nat.sub_0_r. cbn [map flat_map app]. rewrite app_nil_r. reflexivity. Qed.
Lemma range_ab3 a b h k n : h = S a -> k = S b -> tp_range [a; b; 0] [h; k; n] = map (fun i => [a; b; i]) (seq 0 n).
Proof.
  intros E F. change (tp_range [a; b; 0] [h; k; n]) with (flat_map (fun rest => map (fun i => i :: rest) (seq a (h - a))) (tp_range [b; 0] [k; n])).
  rewrite (one_range a h E), (range_a2 b k n F). cbn [map]. rewrite flat_map_single, map_map. reflexivity.
Qed.
Lemma range_a3b a b h k n : h = S a -> k = S b -> tp_range [a; 0; b] [h; n; k] = map (fun i => [a; i; b]) (seq 0 n).
Proof.
  intros E F. change (tp_range [a; 0; b] [h; n; k]) with (flat_map (fun rest => map (fun i => i :: rest) (seq a (h - a))) (tp_range [0; b] [n; k])).
  rewrite (one_range a h E), (range_2a b k n F). cbn [map]. rewrite flat_map_single, map_map. reflexivity.
Qed.
Lemma range_3ab a b h k n : h = S a -> k = S b -> tp_range [0; a; b] [n; h; k] = map (fun i => [i; a; b]) (seq 0 n).
Proof.
  intros E F. cbn [tp_range]. rewrite (one_range a h E), (one_range b k F), Nat.sub_0_r. cbn [map flat_map app]. rewrite app_nil_r. reflexivity.
Qed.
Lemma edge_range dim order edge : dim = 2 \/ dim = 3 -> 2 <= order -> edge < n_edges dim ->
  exists ds, edge_dirs dim (Z.of_nat edge) = Ret ds /\
    tp_range (fst (edge_bounds dim order ds)) (snd (edge_bounds dim order ds)) = map (edge_point dim order edge) (seq 0 order).
Proof.
  intros Hd Ho He. assert (S1 : order = S (order - 1)) by lia.
  destruct Hd as [-> | ->]; cbn [n_edges] in He.
  - do 4 (destruct edge as [|edge]; [eexists; split; [reflexivity|]; (apply range_a2 || apply range_2a); (reflexivity || exact S1)|]). lia.
  - do 12 (destruct edge as [|edge]; [eexists; split; [reflexivity|]; (apply range_ab3 || apply range_a3b || apply range_3ab); (reflexivity || exact S1)|]). lia.
Qed.
Lemma edge_point_in dim order edge i : dim = 2 \/ dim = 3 -> 2 <= order -> i < order -> In (edge_point dim order edge i) (tp_all (tp_const dim order)).
Proof.
  intros Hd Ho Hi.
  assert (Hs : forall s, side_ind order s < order) by (intros [|s]; cbn; lia).
  apply tp_all_In. unfold tp_const. rewrite repeat_length. unfold edge_point.
  destruct Hd as [-> | ->].
  - destruct (edge <? 2); (split; [reflexivity|]); intros [|[|d]] H; cbn [nth repeat]; auto; lia.
  - destruct (edge <? 4); [|destruct (edge <? 8)]; (split; [reflexivity|]); intros [|[|[|d]]] H; cbn [nth repeat]; auto; lia.
Qed.
Lemma tp_flat_position order : forall dim t, length t = dim -> tp_flat (tp_const dim order) t = position order t.
Proof. induction dim as [|dim IH]; intros [|i t] H; try discriminate; [reflexivity|]. unfold tp_const in *. cbn [repeat tp_flat position]. rewrite IH; auto. Qed.
Lemma edge_point_len dim order edge i : dim = 2 \/ dim = 3 -> length (edge_point dim order edge i) = dim.
Proof. intros [-> | ->]; unfold edge_point; repeat match goal with |- context [if ?b then _ else _] => destruct b end; reflexivity. Qed.
Lemma get_edge_points_ok dim m cell edge : dim = 2 \/ dim = 3 -> 2 <= m_order m -> edge < n_edges dim ->
  (cell + 1) * m_order m ^ dim <= length (m_conn m) ->
  get_edge_points dim m cell (Z.of_nat edge) =
  Ret (sort_edge_points (m_order m) (map (fun i => nth (cell * m_order m ^ dim + position (m_order m) (edge_point dim (m_order m) edge i)) (m_conn m) 0) (seq 0 (m_order m)))).
Proof.
  intros Hd Ho He Hc. unfold get_edge_points.
  assert (B : ((0 <=? Z.of_nat edge)%Z && (Z.of_nat edge <? Z.of_nat (n_edges dim))%Z) = true).
  { apply andb_true_iff. split; [apply Z.leb_le; lia|apply Z.ltb_lt; lia]. }
  rewrite B. cbn [assert_]. destruct (edge_range dim (m_order m) edge Hd Ho He) as (ds & E1 & E2). rewrite E1. cbn [bind]. rewrite E2.
  rewrite mapM_ok with (g := fun tid => nth (cell * pts_per_cell dim m + tp_flat (tp_const dim (m_order m)) tid) (m_conn m) 0).
  - cbn [bind]. rewrite map_map. do 2 f_equal. apply map_ext_in. intros i Hi. rewrite tp_flat_position by (apply edge_point_len; auto). reflexivity.
  - intros t Ht. apply in_map_iff in Ht as (i & <- & Hi). apply in_seq in Hi. apply at_ok.
    pose proof (edge_point_in dim (m_order m) edge i Hd Ho ltac:(lia)) as K. apply tp_all_In in K as [K1 K2].
    pose proof (tp_flat_lt _ _ K1 K2) as L. rewrite tp_size_const in L. unfold pts_per_cell. lia.
Qed.

(** ** Permutation of directions *)
Lemma swap_at_length (c : list nat) i j : length (swap_at 0 c i j) = length c.
Proof. unfold swap_at. rewrite !set_at_length. reflexivity. Qed.
Lemma swap_at_nth (c : list nat) i j k : i < length c -> j < length c ->
  nth k (swap_at 0 c i j) 0 = if k =? j then nth i c 0 else if k =? i then nth j c 0 else nth k c 0.
Proof.
  intros Hi Hj. unfold swap_at. rewrite !set_at_nth, set_at_length.
  replace (j <? length c) with true by (symmetry; apply Nat.ltb_lt; auto). replace (i <? length c) with true by (symmetry; apply Nat.ltb_lt; auto).
  rewrite (Nat.eqb_sym j k), (Nat.eqb_sym i k). reflexivity.
Qed.
Definition support (ps : list (nat * nat)) : list nat := flat_map (fun p => [fst p; snd p]) ps.
Lemma fold_swaps ps : forall c, NoDup (support ps) -> (forall k, In k (support ps) -> k < length c) ->
  let r := fold_left (fun c p => swap_at 0 c (fst p) (snd p)) ps c in
  length r = length c /\ (forall i j, In (i, j) ps -> nth i r 0 = nth j c 0 /\ nth j r 0 = nth i c 0) /\
  (forall k, ~ In k (support ps) -> nth k r 0 = nth k c 0).
Proof.
  induction ps as [|[i j] ps IH]; intros c Hn Hb; cbn [fold_left support flat_map fst snd app] in *.
  - repeat split; auto; contradiction.
  - inversion Hn as [|? ? Ni Hn']; subst. inversion Hn' as [|? ? Nj Hn'']; subst. fold (support ps) in *.
    assert (Hi : i < length c) by (apply Hb; left; auto). assert (Hj : j < length c) by (apply Hb; right; left; auto).
    assert (Nij : i <> j) by (intros ->; apply Ni; left; auto).
    assert (Nis : ~ In i (support ps)) by (intros K; apply Ni; right; auto).
    destruct (IH (swap_at 0 c i j)) as (L & P & U); auto.
    { intros k Hk. rewrite swap_at_length. apply Hb. right; right; auto. }
    rewrite swap_at_length in L. cbv zeta in *. split; auto. split.
    + intros a b [E|Hab].
      * injection E as <- <-. rewrite !U by auto. rewrite !swap_at_nth by auto. rewrite !Nat.eqb_refl.
        replace (i =? j) with false by (symmetry; apply Nat.eqb_neq; auto). auto.
      * destruct (P a b Hab) as [P1 P2]. rewrite P1, P2. rewrite !swap_at_nth by auto.
        assert (Sa : In a (support ps)) by (apply in_flat_map; exists (a, b); split; [auto|left; auto]).
        assert (Sb : In b (support ps)) by (apply in_flat_map; exists (a, b); split; [auto|right; left; auto]).
        replace (b =? j) with false by (symmetry; apply Nat.eqb_neq; intros ->; auto). replace (b =? i) with false by (symmetry; apply Nat.eqb_neq; intros ->; auto).
        replace (a =? j) with false by (symmetry; apply Nat.eqb_neq; intros ->; auto). replace (a =? i) with false by (symmetry; apply Nat.eqb_neq; intros ->; auto). auto.
    + intros k Hk. rewrite U by (intros K; apply Hk; right; right; auto). rewrite swap_at_nth by auto.
      replace (k =? j) with false by (symmetry; apply Nat.eqb_neq; intros ->; apply Hk; right; left; auto).
      replace (k =? i) with false by (symmetry; apply Nat.eqb_neq; intros ->; apply Hk; left; auto). reflexivity.
Qed.
Lemma NoDup_pairs {A} (f g : A -> nat) l : NoDup l -> (forall t u, In t l -> In u l -> f t = f u -> t = u) -> (forall t u, In t l -> In u l -> g t = g u -> t = u) ->
  (forall t u, In t l -> In u l -> f t <> g u) -> NoDup (support (map (fun t => (f t, g t)) l)).
Proof.
  induction l as [|x l IH]; intros Hn Hf Hg Hfg; cbn; [constructor|]. inversion Hn; subst.
  assert (IN : forall k, In k (support (map (fun t => (f t, g t)) l)) -> exists t, In t l /\ (k = f t \/ k = g t)).
  { intros k Hk. apply in_flat_map in Hk as (p & Hp & Hk). apply in_map_iff in Hp as (t & <- & Ht). exists t. cbn in Hk. intuition. }
  constructor; [|constructor].
  - intros [K|K]; [apply (Hfg x x); [left|left|]; auto|]. apply IN in K as (t & Ht & [K|K]).
    + assert (x = t) by (apply Hf; [left|right|]; auto). subst; contradiction.
    + apply (Hfg x t); [left|right|]; auto.
  - intros K. apply IN in K as (t & Ht & [K|K]).
    + apply (Hfg t x); [right|left|]; auto.
    + assert (x = t) by (apply Hg; [left|right|]; auto). subst; contradiction.
  - apply IH; auto; intros; [apply Hf|apply Hg|apply Hfg]; try (right; assumption); auto.
Qed.
Lemma fold_left_filter {A B} (p : A -> bool) (h : B -> A -> B) l : forall b, fold_left (fun b x => if p x then b else h b x) l b = fold_left h (filter (fun x => negb (p x)) l) b.
Proof. induction l as [|x l IH]; intros b; cbn; auto. destruct (p x); cbn; auto. Qed.
Lemma fold_left_map' {A B C} (g : A -> B) (h : C -> B -> C) l : forall b, fold_left h (map g l) b = fold_left (fun b x => h b (g x)) l b.
Proof. induction l as [|x l IH]; intros b; cbn; auto. Qed.
Lemma is_index_all dim order t : is_index dim order t <-> In t (tp_all (tp_const dim order)).
Proof.
  rewrite tp_all_In. unfold is_index, tp_const. rewrite repeat_length. split; intros [L F]; (split; [auto|]).
  - intros d Hd. rewrite repeat_nth_lt by auto. rewrite Forall_forall in F. apply F. apply nth_In. lia.
  - apply Forall_forall. intros i Hi. apply (In_nth _ _ 0) in Hi as (d & Hd & <-). specialize (F d ltac:(lia)). rewrite repeat_nth_lt in F by lia. auto.
Qed.
Lemma position_lt dim order t : is_index dim order t -> position order t < order ^ dim.
Proof.
  intros H. pose proof H as [L _]. apply is_index_all in H. apply tp_all_In in H as [H1 H2]. rewrite <- (tp_flat_position order dim t L), <- tp_size_const. apply tp_flat_lt; auto.
Qed.
Lemma position_inj dim order t u : is_index dim order t -> is_index dim order u -> position order t = position order u -> t = u.
Proof.
  intros H K E. pose proof H as [L _]. pose proof K as [L' _]. apply is_index_all in H. apply is_index_all in K. apply tp_all_In in H as [H1 H2]. apply tp_all_In in K as [K1 K2].
  rewrite <- (tp_flat_position order dim t L), <- (tp_flat_position order dim u L') in E. apply (tp_flat_inj (tp_const dim order)); auto.
Qed.
Lemma position_surj dim order k : k < order ^ dim -> exists t, is_index dim order t /\ position order t = k.
Proof.
  intros H. rewrite <- tp_size_const in H. exists (nth k (tp_all (tp_const dim order)) []).
  assert (In (nth k (tp_all (tp_const dim order)) []) (tp_all (tp_const dim order))) as I by (apply nth_In; rewrite tp_all_length; auto).
  apply is_index_all in I. split; auto. rewrite <- (tp_flat_position order dim) by apply I. apply tp_all_nth; auto.
Qed.
Lemma flip_index dim order t : is_index dim order t -> is_index dim order (flip order t).
Proof.
  intros [L F]. destruct t as [|a [|b t]]; cbn [flip]; [split; auto| |].
  - split; auto. constructor; auto. inversion F; subst. lia.
  - split; auto. inversion F as [|? ? Fa F']; subst. inversion F' as [|? ? Fb F'']; subst. repeat constructor; auto.
Qed.
Lemma flip_flip dim order t : is_index dim order t -> flip order (flip order t) = t.
Proof. intros [L F]. destruct t as [|a [|b t]]; cbn [flip]; auto. inversion F; subst. f_equal. lia. Qed.
Lemma permute_conn_ok dim order offset conn : 1 <= dim -> offset + order ^ dim <= length conn ->
  let r := permute_conn dim order offset conn in
  length r = length conn /\ (forall t, is_index dim order t -> nth (offset + position order t) r 0 = nth (offset + position order (flip order t)) conn 0) /\
  (forall k, k < offset \/ offset + order ^ dim <= k -> nth k r 0 = nth k conn 0).
Proof.
  intros Hd Hb. destruct dim as [|[|dim]]; [lia| |].
  - cbn [permute_conn]. rewrite Nat.pow_1_r in *.
    assert (E : fold_left (fun c i => swap_at 0 c (offset + i) (offset + (order - 1 - i))) (seq 0 (order / 2)) conn =
                fold_left (fun c p => swap_at 0 c (fst p) (snd p)) (map (fun i => (offset + i, offset + (order - 1 - i))) (seq 0 (order / 2))) conn).
    { rewrite fold_left_map'. reflexivity. }
    rewrite E. clear E. set (ps := map _ _).
    assert (H2 : 2 * (order / 2) <= order) by (apply Nat.mul_div_le; lia).
    assert (H3 : order < 2 * (order / 2) + 2). { pose proof (Nat.mod_upper_bound order 2). pose proof (Nat.div_mod order 2). lia. }
    assert (Sup : forall k, In k (support ps) -> offset <= k < offset + order).
    { intros k Hk. apply in_flat_map in Hk as (p & Hp & Hk). apply in_map_iff in Hp as (i & <- & Hi). apply in_seq in Hi. cbn in Hk. lia. }
    destruct (fold_swaps ps conn) as (L & P & U).
    { apply (NoDup_pairs (fun i => offset + i) (fun i => offset + (order - 1 - i))); [apply seq_NoDup| | |]; intros t u Ht Hu; apply in_seq in Ht; apply in_seq in Hu; lia. }
    { intros k Hk. apply Sup in Hk. lia. }
    cbv zeta in *. split; auto. split.
    + intros t [Lt F]. destruct t as [|i [|? ?]]; try discriminate. inversion F; subst. cbn [flip position]. rewrite Nat.mul_0_r, !Nat.add_0_r.
      destruct (Nat.lt_ge_cases i (order / 2)) as [Hi|Hi].
      * apply (P (offset + i) (offset + (order - 1 - i))). apply in_map_iff. exists i. split; auto. apply in_seq. lia.
      * destruct (Nat.lt_ge_cases (order - 1 - i) (order / 2)) as [Hj|Hj].
        -- apply (P (offset + (order - 1 - i)) (offset + i)). apply in_map_iff. exists (order - 1 - i). split; [f_equal; lia|]. apply in_seq. lia.
        -- rewrite U; [f_equal; lia|]. intros K. apply in_flat_map in K as (p & Hp & Hk). apply in_map_iff in Hp as (j & <- & Hj'). apply in_seq in Hj'. cbn in Hk. lia.
    + intros k Hk. apply U. intros K. apply Sup in K. lia.
  - set (D := S (S dim)) in *. cbv zeta. unfold permute_conn. cbn [D]. change (S (S dim)) with D.
    rewrite (fold_left_filter (fun t => nth 0 t 0 <=? nth 1 t 0)). set (L := filter _ _).
    assert (E : fold_left (fun c t => swap_at 0 c (offset + tp_flat (tp_const D order) t) (offset + tp_flat (tp_const D order) (swap01 t))) L conn =
                fold_left (fun c p => swap_at 0 c (fst p) (snd p)) (map (fun t => (offset + tp_flat (tp_const D order) t, offset + tp_flat (tp_const D order) (swap01 t))) L) conn).
    { rewrite fold_left_map'. reflexivity. }
    rewrite E. clear E. set (ps := map _ _).
    assert (InL : forall t, In t L <-> is_index D order t /\ nth 1 t 0 < nth 0 t 0).
    { intros t. unfold L. rewrite filter_In, <- is_index_all, negb_true_iff, Nat.leb_gt. reflexivity. }
    assert (Sw : forall t, is_index D order t -> swap01 t = flip order t). { intros t [Lt _]. destruct t as [|a [|b t]]; try discriminate. reflexivity. }
    assert (FL : forall t, is_index D order t -> tp_flat (tp_const D order) t = position order t). { intros t [Lt _]. apply tp_flat_position; auto. }
    assert (N0 : forall t, is_index D order t -> nth 0 (flip order t) 0 = nth 1 t 0 /\ nth 1 (flip order t) 0 = nth 0 t 0).
    { intros t [Lt _]. destruct t as [|a [|b t]]; try discriminate. split; reflexivity. }
    assert (Sup : forall k, In k (support ps) -> exists t, In t L /\ (k = offset + position order t \/ k = offset + position order (flip order t))).
    { intros k Hk. apply in_flat_map in Hk as (p & Hp & Hk). apply in_map_iff in Hp as (t & <- & Ht). exists t. split; auto. apply InL in Ht as [Ht _].
      cbn [fst snd] in Hk. rewrite Sw in Hk by auto. rewrite !FL in Hk by (auto; apply flip_index; auto). destruct Hk as [<-|[<-|[]]]; auto. }
    destruct (fold_swaps ps conn) as (Ln & P & U).
    { apply NoDup_pairs.
      - unfold L. apply NoDup_filter. apply tp_all_NoDup.
      - intros t u Ht Hu K. apply InL in Ht as [Ht _]. apply InL in Hu as [Hu _]. rewrite !FL in K by auto. apply (position_inj D order); auto. lia.
      - intros t u Ht Hu K. apply InL in Ht as [Ht _]. apply InL in Hu as [Hu _]. rewrite !Sw in K by auto. rewrite !FL in K by (apply flip_index; auto).
        assert (flip order t = flip order u) as F by (apply (position_inj D order); try apply flip_index; auto; lia). apply (f_equal (flip order)) in F. rewrite !(flip_flip D order) in F by auto. auto.
      - intros t u Ht Hu K. apply InL in Ht as [Ht Ht']. apply InL in Hu as [Hu Hu']. rewrite Sw in K by auto. rewrite !FL in K by (auto; apply flip_index; auto).
        assert (t = flip order u) as F by (apply (position_inj D order); try apply flip_index; auto; lia). subst t. destruct (N0 u Hu). lia. }
    { intros k Hk. apply Sup in Hk as (t & Ht & Hk). apply InL in Ht as [Ht _]. pose proof (position_lt D order t Ht). pose proof (position_lt D order _ (flip_index _ _ _ Ht)). lia. }
    cbv zeta in *. split; auto.
    assert (Pr : forall t, In t L -> In (offset + position order t, offset + position order (flip order t)) ps).
    { intros t Ht. apply in_map_iff. exists t. split; auto. apply InL in Ht as [Ht _]. rewrite Sw by auto. rewrite !FL by (auto; apply flip_index; auto). reflexivity. }
    split.
    + intros t Ht. destruct (N0 t Ht) as [A B]. destruct (Nat.lt_trichotomy (nth 1 t 0) (nth 0 t 0)) as [C|[C|C]].
      * apply (P _ (offset + position order (flip order t))). apply Pr. apply InL. auto.
      * assert (Ef : flip order t = t). { destruct Ht as [Lt _]. destruct t as [|a [|b t]]; try discriminate. cbn in C |- *. congruence. }
        rewrite Ef. apply U. intros K. apply Sup in K as (u & Hu & K). apply InL in Hu as [Hu Hu'].
        assert (t = u \/ t = flip order u) as [->| ->]. { destruct K as [K|K]; [left|right]; apply (position_inj D order); auto; try apply flip_index; auto; lia. } { lia. } { destruct (N0 u Hu). lia. }
      * pose proof (Pr (flip order t)) as Q. rewrite (flip_flip D) in Q by auto. apply (P (offset + position order (flip order t)) (offset + position order t)). apply Q. apply InL. split; [apply flip_index; auto|]. lia.
    + intros k Hk. apply U. intros K. apply Sup in K as (u & Hu & K). apply InL in Hu as [Hu _]. pose proof (position_lt D order u Hu). pose proof (position_lt D order _ (flip_index _ _ _ Hu)). lia.
Qed.
