From Coq Require Import List Arith Bool Lia Permutation Sorting.Sorted.
From Verif Require Import M_PyBase M_PyNodes M_PyTp S_PyTp L_PyNodes.
Import ListNotations.
Local Open Scope nat_scope.

(** ** Increasing lists *)
Lemma ss_app l1 l2 : StronglySorted lt l1 -> StronglySorted lt l2 -> (forall x y, In x l1 -> In y l2 -> x < y) -> StronglySorted lt (l1 ++ l2).
Proof.
  induction 1 as [|x l1 S IH F]; cbn; intros S2 C; auto. constructor; [apply IH; auto; intros; apply C; cbn; auto|].
  apply Forall_app. split; auto. apply Forall_forall. intros y Hy. apply C; cbn; auto.
Qed.
Lemma ss_map f l : (forall x y, x < y -> f x < f y) -> StronglySorted lt l -> StronglySorted lt (map f l).
Proof. intros M. induction 1 as [|x l S IH F]; cbn; constructor; auto. apply Forall_forall. intros y Hy. apply in_map_iff in Hy. destruct Hy as (z & <- & Hz). apply M. rewrite Forall_forall in F. auto. Qed.
Lemma ss_seq a k : StronglySorted lt (seq a k).
Proof. revert a. induction k as [|k IH]; intros a; cbn; constructor; auto. apply Forall_forall. intros y Hy. apply in_seq in Hy. lia. Qed.
Lemma ss_fm (f : nat -> list nat) c : StronglySorted lt c -> (forall x, In x c -> StronglySorted lt (f x)) -> (forall x y u v, In x c -> In y c -> x < y -> In u (f x) -> In v (f y) -> u < v) -> StronglySorted lt (flat_map f c).
Proof.
  induction 1 as [|x c S IH F]; cbn; intros H C; [constructor|]. apply ss_app; [apply H; cbn; auto| |].
  - apply IH; [intros; apply H; cbn; auto|intros p q u v Hp Hq L; apply (C p q); cbn; auto].
  - intros u v Hu Hv. apply in_flat_map in Hv. destruct Hv as (y & Hy & Hv). rewrite Forall_forall in F. apply (C x y); cbn; auto.
Qed.
Lemma arange_in a b s x : 0 < s -> In x (arange a b s) <-> exists k, x = a + k * s /\ x < b.
Proof.
  intros Hs. unfold arange. rewrite in_map_iff. split.
  - intros (k & <- & Hk). apply in_seq in Hk. exists k. split; auto. destruct Hk as [_ Hk]. cbn in Hk.
    assert (k * s <= (b - a + (s - 1)) - s \/ b - a + (s - 1) < s). { destruct (le_lt_dec s (b - a + (s - 1))); [left|right; auto]. pose proof (Nat.mul_div_le (b - a + (s - 1)) s). nia. }
    destruct H as [H|H]; [|rewrite Nat.div_small in Hk by auto; lia]. assert (S k <= (b - a + (s - 1)) / s) by lia. pose proof (Nat.mul_div_le (b - a + (s - 1)) s). nia.
  - intros (k & -> & Hk). exists k. split; auto. apply in_seq. split; [lia|]. cbn. apply Nat.div_le_lower_bound; nia.
Qed.
Lemma arange_ss a b s : 0 < s -> StronglySorted lt (arange a b s).
Proof. intros H. unfold arange. apply ss_map; [intros; nia|apply ss_seq]. Qed.
Lemma arange1 a b : arange a b 1 = seq a (b - a).
Proof.
  unfold arange. rewrite Nat.sub_diag, Nat.add_0_r, Nat.div_1_r. set (k := b - a). clearbody k. assert (E : forall c, map (fun i => c + i * 1) (seq a k) = map (fun i => c + i) (seq a k)) by (intros; apply map_ext; intros; lia).
  rewrite (map_ext _ (fun i => a + i)) by (intros; lia). clear E. replace (seq a k) with (seq (a + 0) k) by (f_equal; lia). generalize 0. induction k as [|k IH]; intros z; cbn; auto. f_equal. rewrite IH. f_equal. lia.
Qed.
Lemma outer_concat r c : concat (outer_sum r c) = flat_map (fun y => map (fun x => x + y) r) c.
Proof. unfold outer_sum. symmetry. apply flat_map_concat_map. Qed.

(** ** Indices *)
Lemma index1 a t : index [a] t <-> exists i, t = [i] /\ i < a.
Proof. split. { intros H. inversion H as [|i ? ? ? L T]; subst. inversion T; subst. eauto. } intros (i & -> & L). repeat constructor; auto. Qed.
Lemma index2 a b t : index [a; b] t <-> exists i j, t = [i; j] /\ i < a /\ j < b.
Proof. split. { intros H. inversion H as [|i ? ? ? L T]; subst. apply index1 in T. destruct T as (j & -> & M). eauto. } intros (i & j & -> & L & M). repeat constructor; auto. Qed.
Lemma index3 a b c t : index [a; b; c] t <-> exists i j k, t = [i; j; k] /\ i < a /\ j < b /\ k < c.
Proof. split. { intros H. inversion H as [|i ? ? ? L T]; subst. apply index2 in T. destruct T as (j & k & -> & M & N). exists i, j, k. auto. } intros (i & j & k & -> & L & M & N). repeat constructor; auto. Qed.
Lemma dim_cases {A} (n : list A) : 1 <= length n <= 3 -> (exists a, n = [a]) \/ (exists a b, n = [a; b]) \/ (exists a b c, n = [a; b; c]).
Proof. destruct n as [|a [|b [|c [|? ?]]]]; cbn; intros; try lia; eauto 10. Qed.

(** ** Faces *)
Definition face_ok n f l := lists_exactly n (on_lex_face n f) l.
Lemma digits2 a b k : 0 < a -> k < a * b -> exists i j, i < a /\ j < b /\ k = i + a * j.
Proof. intros Ha H. exists (k mod a), (k / a). pose proof (Nat.div_mod k a). pose proof (Nat.mod_upper_bound k a). assert (k / a < b) by (apply Nat.div_lt_upper_bound; lia). repeat split; lia. Qed.
Lemma corner_list n : (forall d, d < length n -> 0 < nth d n 0) -> 1 <= length n <= 3 ->
  exists l, get_all_corners n = Ret l /\ length l = 2 ^ length n /\ forall c, c < 2 ^ length n -> nth c l 0 = flat n (map (fun d => end_of n d (side c d)) (seq 0 (length n))).
Proof.
  intros P H. destruct (dim_cases n H) as [(a & ->)|[(a & b & ->)|(a & b & c & ->)]]; cbn [get_all_corners length]; eexists; (split; [reflexivity|]); (split; [reflexivity|]); intros v Hv;
  cbn in Hv; unfold end_of, corners3, corners2, corners1, n_; do 8 (destruct v as [|v]; [cbn -[Nat.mul Nat.sub Nat.add]; ring|try (exfalso; lia)]).
Qed.
Lemma get_corner_ok n c : (forall d, d < length n -> 0 < nth d n 0) -> 1 <= length n <= 3 -> c < 2 ^ length n ->
  get_corner n c = Ret (flat n (map (fun d => end_of n d (side c d)) (seq 0 (length n)))).
Proof.
  intros P H Hc. destruct (corner_list n P H) as (l & E & L & V). unfold get_corner. replace (1 <=? length n) with true by (symmetry; apply Nat.leb_le; lia).
  replace (length n <=? 3) with true by (symmetry; apply Nat.leb_le; lia). replace (c <? 2 ^ length n) with true by (symmetry; apply Nat.ltb_lt; lia). cbn [andb assert_].
  rewrite E. cbn [bind]. rewrite (pat_ret l c 0) by lia. f_equal. apply V; auto.
Qed.
Lemma lists_intro n P l : StronglySorted lt l -> (forall k, In k l <-> exists t, index n t /\ P t /\ k = flat n t) -> lists_exactly n P l.
Proof. split; auto. Qed.
Ltac pack := first [ eexists; split; [apply index2; do 2 eexists; split; [reflexivity|] | ] | eexists; split; [apply index3; do 3 eexists; split; [reflexivity|]|] ].

Lemma face1 a f : 0 < a -> f < 2 -> exists l, lex_face [a] f = Ret l /\ face_ok [a] f l.
Proof.
  intros Ha Hf. unfold lex_face. cbn [length]. rewrite get_corner_ok; [|cbn; intros [|d]; cbn; lia|cbn; lia|cbn; auto]. cbn [bind]. eexists. split; [reflexivity|]. apply lists_intro.
  - repeat constructor.
  - intros k. cbn [In]. split.
    + intros [<-|[]]. exists [end_of [a] 0 (side f 0)]. split; [apply index1; eexists; split; [reflexivity|]; unfold end_of; destruct (side f 0); cbn; lia|].
      split; [|reflexivity]. unfold on_lex_face. destruct f as [|[|f]]; [reflexivity|reflexivity|lia].
    + intros (t & It & F & ->). apply index1 in It. destruct It as (i & -> & Hi). left. unfold on_lex_face in F. destruct f as [|[|f]]; [| |lia]; cbn in *; unfold end_of in *; cbn in *; lia.
Qed.
Ltac lexf := unfold on_lex_face, end_of; cbn.
Ltac lexfh F := unfold on_lex_face, end_of in F; cbn in F; subst; cbn [flat].
Lemma face2 a b f : 0 < a -> 0 < b -> f < 4 -> exists l, lex_face [a; b] f = Ret l /\ face_ok [a; b] f l.
Proof.
  intros Ha Hb Hf. unfold lex_face. cbn [length]. unfold n_, nprod. cbn [nth fold_right]. destruct f as [|[|[|[|f]]]]; [| | | |lia]; (eexists; split; [reflexivity|]; apply lists_intro).
  - apply arange_ss; auto.
  - intros x. rewrite arange_in by auto. split.
    + intros (k & -> & Hk). exists [0; k]. split; [apply index2; exists 0, k; repeat split; auto; nia|]. split; [lexf; auto|cbn; nia].
    + intros (t & It & F & ->). apply index2 in It. destruct It as (i & j & -> & Hi & Hj). lexfh F. exists j. nia.
  - apply ss_map; [intros; lia|apply arange_ss; auto].
  - intros x. rewrite in_map_iff. split.
    + intros (y & <- & Hy). apply arange_in in Hy; auto. destruct Hy as (k & -> & Hk). exists [a - 1; k]. split; [apply index2; exists (a - 1), k; repeat split; auto; nia|]. split; [lexf; auto|cbn; nia].
    + intros (t & It & F & ->). apply index2 in It. destruct It as (i & j & -> & Hi & Hj). lexfh F. exists (j * a). split; [nia|]. apply arange_in; auto. exists j. nia.
  - apply arange_ss; auto.
  - intros x. rewrite arange_in by auto. split.
    + intros (k & -> & Hk). exists [k; 0]. split; [apply index2; exists k, 0; repeat split; auto; nia|]. split; [lexf; auto|cbn; nia].
    + intros (t & It & F & ->). apply index2 in It. destruct It as (i & j & -> & Hi & Hj). lexfh F. exists i. nia.
  - apply ss_map; [intros; lia|apply arange_ss; auto].
  - intros x. rewrite in_map_iff. split.
    + intros (y & <- & Hy). apply arange_in in Hy; auto. destruct Hy as (k & -> & Hk). exists [k; b - 1]. split; [apply index2; exists k, (b - 1); repeat split; auto; nia|]. split; [lexf; auto|cbn; nia].
    + intros (t & It & F & ->). apply index2 in It. destruct It as (i & j & -> & Hi & Hj). lexfh F. exists i. split; [nia|]. apply arange_in; auto. exists i. nia.
Qed.
Lemma grid_ss a m c : 0 < a -> a <= m -> StronglySorted lt (concat (outer_sum (arange 0 a 1) (arange 0 (m * c) m))).
Proof.
  intros Ha Hm. rewrite outer_concat. apply ss_fm; [apply arange_ss; lia| |].
  - intros y _. apply ss_map; [intros; lia|apply arange_ss; auto].
  - intros x y u v Hx Hy L Hu Hv. apply in_map_iff in Hu, Hv. destruct Hu as (p & <- & Hp), Hv as (q & <- & Hq). rewrite arange1 in Hp, Hq. apply in_seq in Hp, Hq.
    apply arange_in in Hx, Hy; try lia. destruct Hx as (k & -> & _), Hy as (k' & -> & _). assert (S k <= k') by nia. assert (S k * m <= k' * m) by (apply Nat.mul_le_mono_r; auto). lia.
Qed.
Lemma grid_in a m c x : 0 < a -> a <= m -> In x (concat (outer_sum (arange 0 a 1) (arange 0 (m * c) m))) <-> exists i k, i < a /\ k < c /\ x = i + m * k.
Proof.
  intros Ha Hm. rewrite outer_concat, in_flat_map. split.
  - intros (y & Hy & Hx). apply arange_in in Hy; [|lia]. destruct Hy as (k & -> & Hk). apply in_map_iff in Hx. destruct Hx as (i & <- & Hi). rewrite arange1 in Hi. apply in_seq in Hi. exists i, k. repeat split; try lia; nia.
  - intros (i & k & Hi & Hk & ->). exists (m * k). split; [apply arange_in; [lia|]; exists k; nia|]. apply in_map_iff. exists i. split; auto. rewrite arange1. apply in_seq. lia.
Qed.
Lemma face3 a b c f : 0 < a -> 0 < b -> 0 < c -> f < 6 -> exists l, lex_face [a; b; c] f = Ret l /\ face_ok [a; b; c] f l.
Proof.
  intros Ha Hb Hc Hf. unfold lex_face. cbn [length]. unfold n_, nprod. cbn [nth fold_right]. assert (Hab : 0 < a * b) by nia. assert (Hle : a <= a * b) by nia.
  destruct f as [|[|[|[|[|[|f]]]]]]; [| | | | | |lia]; (eexists; split; [reflexivity|]; apply lists_intro).
  - apply arange_ss; auto.
  - intros x. rewrite arange_in by auto. split.
    + intros (k & -> & Hk). destruct (digits2 b c k Hb ltac:(nia)) as (j & l & Hj & Hl & ->). exists [0; j; l]. split; [apply index3; exists 0, j, l; repeat split; auto|]. split; [lexf; auto|cbn; nia].
    + intros (t & It & F & ->). apply index3 in It. destruct It as (i & j & k & -> & Hi & Hj & Hk). lexfh F. exists (j + b * k). nia.
  - apply ss_map; [intros; lia|apply arange_ss; auto].
  - intros x. rewrite in_map_iff. split.
    + intros (y & <- & Hy). apply arange_in in Hy; auto. destruct Hy as (k & -> & Hk). destruct (digits2 b c k Hb ltac:(nia)) as (j & l & Hj & Hl & ->). exists [a - 1; j; l]. split; [apply index3; exists (a - 1), j, l; repeat split; auto; lia|]. split; [lexf; auto|cbn; nia].
    + intros (t & It & F & ->). apply index3 in It. destruct It as (i & j & k & -> & Hi & Hj & Hk). lexfh F. exists ((j + b * k) * a). split; [nia|]. apply arange_in; auto. exists (j + b * k). nia.
  - apply grid_ss; auto.
  - intros x. rewrite grid_in by auto. split.
    + intros (i & k & Hi & Hk & ->). exists [i; 0; k]. split; [apply index3; exists i, 0, k; repeat split; auto|]. split; [lexf; auto|cbn; nia].
    + intros (t & It & F & ->). apply index3 in It. destruct It as (i & j & k & -> & Hi & Hj & Hk). lexfh F. exists i, k. nia.
  - apply ss_map; [intros; lia|apply grid_ss; auto].
  - intros x. rewrite in_map_iff. split.
    + intros (y & <- & Hy). apply grid_in in Hy; auto. destruct Hy as (i & k & Hi & Hk & ->). exists [i; b - 1; k]. split; [apply index3; exists i, (b - 1), k; repeat split; auto; lia|]. split; [lexf; auto|cbn; nia].
    + intros (t & It & F & ->). apply index3 in It. destruct It as (i & j & k & -> & Hi & Hj & Hk). lexfh F. exists (i + a * b * k). split; [nia|]. apply grid_in; auto. exists i, k. auto.
  - apply arange_ss; auto.
  - intros x. rewrite arange_in by auto. split.
    + intros (k & -> & Hk). destruct (digits2 a b k Ha ltac:(nia)) as (i & j & Hi & Hj & ->). exists [i; j; 0]. split; [apply index3; exists i, j, 0; repeat split; auto|]. split; [lexf; auto|cbn; nia].
    + intros (t & It & F & ->). apply index3 in It. destruct It as (i & j & k & -> & Hi & Hj & Hk). lexfh F. exists (i + a * j). nia.
  - apply ss_map; [intros; lia|apply arange_ss; auto].
  - intros x. rewrite in_map_iff. split.
    + intros (y & <- & Hy). apply arange_in in Hy; auto. destruct Hy as (k & -> & Hk). destruct (digits2 a b k Ha ltac:(nia)) as (i & j & Hi & Hj & ->). exists [i; j; c - 1]. split; [apply index3; exists i, j, (c - 1); repeat split; auto; lia|]. split; [lexf; auto|cbn; nia].
    + intros (t & It & F & ->). apply index3 in It. destruct It as (i & j & k & -> & Hi & Hj & Hk). lexfh F. exists (i + a * j). split; [nia|]. apply arange_in; auto. exists (i + a * j). nia.
Qed.
Definition pos_dims (n : list nat) := Forall (fun k => 1 <= k) n.
Lemma lex_face_ok n f : pos_dims n -> 1 <= length n <= 3 -> f < 2 * length n -> exists l, lex_face n f = Ret l /\ face_ok n f l.
Proof.
  intros P H Hf. unfold pos_dims in P. destruct (dim_cases n H) as [(a & ->)|[(a & b & ->)|(a & b & c & ->)]]; cbn in Hf;
  repeat match goal with X : Forall _ (_ :: _) |- _ => inversion X; clear X; subst end; [apply face1|apply face2|apply face3]; lia.
Qed.
Lemma get_face_lex n f : pos_dims n -> 1 <= length n <= 3 -> f < 2 * length n -> exists l, get_face n f true = Ret l /\ face_ok n f l.
Proof.
  intros P H Hf. unfold get_face. replace (1 <=? length n) with true by (symmetry; apply Nat.leb_le; lia).
  replace (length n <=? 3) with true by (symmetry; apply Nat.leb_le; lia). replace (f <? 2 * length n) with true by (symmetry; apply Nat.ltb_lt; lia). cbn [andb assert_ bind]. apply lex_face_ok; auto.
Qed.
Lemma lists_ext n P Q l : (forall t, index n t -> P t <-> Q t) -> lists_exactly n P l -> lists_exactly n Q l.
Proof. intros E (S & I). split; auto. intros k. rewrite I. split; intros (t & It & X & ->); exists t; (split; [auto|split; [apply E; auto|auto]]). Qed.

Ltac each_dir := intros [|[|[|d]]] up Hd Hall; cbn in Hd; try lia.
(** On a face/edge given by its vertices: compute the directions in which all of them agree. *)
Lemma on_entity_dec n vs t : on_entity n vs t <-> forall d, d < length n -> forall up, forallb (fun v => eqb (side v d) up) vs = true -> nth d t 0 = end_of n d up.
Proof.
  unfold on_entity. split; intros H d; [intros Hd up F|intros up Hd F]; apply H; auto.
  - intros v Hv. rewrite forallb_forall in F. apply eqb_prop. auto.
  - apply forallb_forall. intros v Hv. rewrite (F v Hv). apply eqb_reflx.
Qed.
Lemma facet_lex n dlf : 1 <= length n <= 3 -> dlf < 2 * length n -> exists f, f < 2 * length n /\ (t <- lexicg_to_DOLFINx_faces (length n) ;; pat t dlf) = Ret f /\
  forall t, on_lex_face n f t <-> on_entity n (nth dlf (basix_facets (length n)) []) t.
Proof.
  intros H Hf. destruct (dim_cases n H) as [(a & ->)|[(a & b & ->)|(a & b & c & ->)]]; cbn in Hf.
  all: do 6 (destruct dlf as [|dlf]; [eexists; split; [|split; [reflexivity|]]; [cbn; lia|]; intros t; rewrite on_entity_dec; split;
     [ intros F d Hd up; cbn in Hd; unfold on_lex_face in F; cbn in F; destruct d as [|[|[|d]]]; try lia; cbn; destruct up; cbn; intros X; try discriminate X; auto
     | intros F; unfold on_lex_face; cbn [Nat.div]; first [ apply (F 0 ltac:(cbn; lia)); reflexivity | apply (F 1 ltac:(cbn; lia)); reflexivity | apply (F 2 ltac:(cbn; lia)); reflexivity ] ] | ]; try lia); lia.
Qed.
