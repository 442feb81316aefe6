From Coq Require Import Reals List Lia Lra Permutation Sorting.Sorted Bool Arith ZArith.
From Verif Require Import M_Mesh S_Mesh S_Point L_Point L_TensorNat L_Mesh.
Import ListNotations.
Local Close Scope R_scope. Local Close Scope Z_scope. Local Open Scope nat_scope.

(** ** VTK mask *)
Lemma cover_perm n (l : list nat) : length l = n -> (forall k, k < n -> In k l) -> Permutation l (seq 0 n).
Proof.
  intros Hl Hc. assert (I : incl (seq 0 n) l) by (intros k Hk; apply in_seq in Hk; apply Hc; lia).
  assert (N : NoDup l). { apply (NoDup_incl_NoDup (seq_NoDup n 0)); auto. rewrite seq_length. lia. }
  apply NoDup_Permutation; [auto|apply seq_NoDup|]. intros x. split; [|apply I].
  intros Hx. refine (NoDup_length_incl (seq_NoDup n 0) _ I x Hx). rewrite seq_length. lia.
Qed.
Lemma inner_in order i : In i (inner_ids order) <-> 0 < i < order - 1.
Proof. unfold inner_ids. rewrite in_seq. lia. Qed.
Lemma inner_len order : length (inner_ids order) = order - 2.
Proof. apply seq_length. Qed.
Lemma flat_map_len {A B} (f : A -> list B) k l : (forall x, length (f x) = k) -> length (flat_map f l) = length l * k.
Proof. intros H. induction l as [|x l IH]; cbn; auto. rewrite app_length, H, IH. reflexivity. Qed.
Lemma mask2_len order : 2 <= order -> length (vtu_mask2 order) = order ^ 2.
Proof.
  intros H. unfold vtu_mask2. rewrite !app_length, !map_length, (flat_map_len _ (order - 2)) by (intros; rewrite map_length; apply inner_len).
  rewrite !inner_len. cbn [length]. assert (E : order = (order - 2) + 2) by lia. rewrite E at 7. generalize (order - 2). intros n. cbn [Nat.pow]. nia.
Qed.
Lemma mask3_len order : 2 <= order -> length (vtu_mask3 order) = order ^ 3.
Proof.
  intros H. unfold vtu_mask3.
  assert (F2 : forall (g : nat -> nat -> nat), length (flat_map (fun k => map (fun j => g j k) (inner_ids order)) (inner_ids order)) = (order - 2) * (order - 2)).
  { intros g. rewrite (flat_map_len _ (order - 2)) by (intros; rewrite map_length; apply inner_len). rewrite inner_len. reflexivity. }
  rewrite !app_length, !map_length. rewrite !F2.
  rewrite (flat_map_len _ ((order - 2) * (order - 2))) by (intros; apply F2).
  rewrite !inner_len. cbn [length]. assert (E : order ^ 3 = ((order - 2) + 2) ^ 3) by (f_equal; lia). rewrite E. generalize (order - 2). intros n. cbn [Nat.pow]. nia.
Qed.
Lemma tri order i : 2 <= order -> i < order -> i = 0 \/ i = order - 1 \/ In i (inner_ids order).
Proof. intros. rewrite inner_in. lia. Qed.
Lemma in_map_f {A B} (f : A -> B) l x y : y = f x -> In x l -> In y (map f l).
Proof. intros -> H. apply in_map; auto. Qed.
Lemma in_fm {A B} (f : A -> list B) l x y : In x l -> In y (f x) -> In y (flat_map f l).
Proof. intros. apply in_flat_map. eauto. Qed.
Ltac here := first [ solve [ eapply in_map_f; [reflexivity|assumption] ]
  | solve [ eapply in_fm; [eassumption|eapply in_map_f; [reflexivity|assumption]] ]
  | match goal with H : In ?x _, H' : In ?y _ |- _ => solve [ apply (in_fm _ _ x); [exact H|apply (in_fm _ _ y); [exact H'|eapply in_map_f; [reflexivity|assumption]]] ] end
  | solve [ repeat (first [ apply in_eq | apply in_cons ]) ] ].
Ltac find_in := first [ here | apply in_or_app; first [ left; here | right; find_in ] ].
Local Opaque tp_flat.
Lemma mask2_in order i j : 2 <= order -> i < order -> j < order -> In (tp_flat [order; order] [i; j]) (vtu_mask2 order).
Proof.
  intros Ho Hi Hj. unfold vtu_mask2; cbv zeta.
  destruct (tri order i Ho Hi) as [->|[->|Ii]], (tri order j Ho Hj) as [->|[->|Ij]]; find_in.
Qed.
Lemma mask3_in order i j k : 2 <= order -> i < order -> j < order -> k < order -> In (tp_flat [order; order; order] [i; j; k]) (vtu_mask3 order).
Proof.
  intros Ho Hi Hj Hk. unfold vtu_mask3; cbv zeta.
  destruct (tri order i Ho Hi) as [->|[->|Ii]], (tri order j Ho Hj) as [->|[->|Ij]], (tri order k Ho Hk) as [->|[->|Ik]]; find_in.
Qed.
Lemma vtu_mask_perm dim order : 1 <= dim <= 3 -> 2 <= order -> exists mask, vtu_mask dim order = Ret mask /\ Permutation mask (seq 0 (order ^ dim)).
Proof.
  intros Hd Ho. unfold vtu_mask. replace (1 <? order) with true by (symmetry; apply Nat.ltb_lt; lia). cbn [assert_].
  destruct dim as [|[|[|[|dim]]]]; try lia; (eexists; split; [reflexivity|]); apply cover_perm.
  - unfold vtu_mask1. rewrite app_length, inner_len, Nat.pow_1_r. cbn [length]. lia.
  - rewrite Nat.pow_1_r. intros k Hk. unfold vtu_mask1. apply in_or_app. destruct (tri order k Ho Hk) as [->|[->|I]]; cbn; auto.
  - apply mask2_len; auto.
  - intros k Hk. destruct (position_surj 2 order k Hk) as (t & [Lt F] & <-). rewrite <- (tp_flat_position order 2 t Lt).
    destruct t as [|i [|j [|? ?]]]; try discriminate. inversion F as [|? ? Fi F']; subst. inversion F' as [|? ? Fj _]; subst. apply mask2_in; auto.
  - apply mask3_len; auto.
  - intros k Hk. destruct (position_surj 3 order k Hk) as (t & [Lt F] & <-). rewrite <- (tp_flat_position order 3 t Lt).
    destruct t as [|i [|j [|l [|? ?]]]]; try discriminate. inversion F as [|? ? Fi F']; subst. inversion F' as [|? ? Fj F'']; subst. inversion F'' as [|? ? Fl _]; subst. apply mask3_in; auto.
Qed.

(** ** Groups of ids *)
Lemma group_ids_chunk {n} (pre post : list nat) c : length pre = c * n -> n <= length post -> group_ids n (pre ++ post) c = firstn n post.
Proof.
  intros Hp Hq. unfold group_ids. apply (nth_ext _ _ 0 0). { rewrite map_length, seq_length, firstn_length. lia. }
  intros k Hk. rewrite map_length, seq_length in Hk. rewrite (nth_indep _ 0 (nth (c * n + 0) (pre ++ post) 0)) by (rewrite map_length, seq_length; auto).
  rewrite (map_nth (fun k => nth (c * n + k) (pre ++ post) 0)). rewrite seq_nth by auto. rewrite app_nth2 by lia. replace (c * n + (0 + k) - length pre) with k by lia.
  rewrite <- (firstn_skipn n post) at 1. rewrite app_nth1; auto. rewrite firstn_length. lia.
Qed.
Lemma chunks_groups n (l : list nat) k : 0 < n -> length l = k * n -> chunks n l = map (group_ids n l) (seq 0 k).
Proof.
  intros Hn Hl. unfold chunks.
  assert (G : forall j pre suf f, l = pre ++ suf -> length pre = j * n -> k - j <= f -> j <= k -> chunks_f f n suf = map (group_ids n l) (seq j (k - j))).
  { intros j. remember (k - j) as i. revert j Heqi. induction i as [|i IH]; intros j Hi pre suf f El Hp Hf Hj.
    - assert (suf = []). { apply length_zero_iff_nil. apply (f_equal (@length nat)) in El. rewrite app_length in El. nia. } subst suf. destruct f; reflexivity.
    - destruct f as [|f]; [lia|]. assert (Lp : length suf = S i * n). { apply (f_equal (@length nat)) in El. rewrite app_length in El. nia. }
      destruct suf as [|x suf0] eqn:Ep; [cbn in Lp; nia|]. rewrite <- Ep in *. cbn [chunks_f]. rewrite Ep at 1. cbn [seq map]. f_equal.
      + rewrite El. symmetry. apply group_ids_chunk; auto. rewrite Lp. nia.
      + apply (IH (S j)) with (pre := pre ++ firstn n suf); try lia.
        * rewrite <- app_assoc, firstn_skipn. auto.
        * rewrite app_length, firstn_length, Lp. nia. }
  specialize (G 0 [] l (length l)). rewrite Nat.sub_0_r in G. apply G; auto; nia.
Qed.
Lemma group_ids_length n l c : length (group_ids n l c) = n.
Proof. unfold group_ids. rewrite map_length, seq_length. auto. Qed.
Lemma concat_length n (ls : list (list nat)) : Forall (fun e => length e = n) ls -> length (concat ls) = length ls * n.
Proof. induction 1 as [|e ls H F IH]; cbn; auto. rewrite app_length, H, IH. reflexivity. Qed.
Lemma group_ids_concat n (ls : list (list nat)) : Forall (fun e => length e = n) ls -> forall c, c < length ls -> group_ids n (concat ls) c = nth c ls [].
Proof.
  intros F c Hc. rewrite <- (firstn_skipn c ls) at 1. rewrite concat_app.
  assert (F1 : Forall (fun e => length e = n) (firstn c ls)). { rewrite Forall_forall in *. intros x Hx. apply F. rewrite <- (firstn_skipn c ls). apply in_or_app; auto. }
  assert (E : skipn c ls = nth c ls [] :: skipn (S c) ls). { clear F F1. revert c Hc. induction ls as [|x ls IH]; intros [|c] Hc; cbn in *; try lia; auto. rewrite IH by lia. destruct ls; reflexivity. }
  assert (Ln : length (nth c ls []) = n). { rewrite Forall_forall in F. apply F. apply nth_In; auto. }
  rewrite group_ids_chunk.
  - rewrite E. cbn [concat]. rewrite <- Ln at 1. rewrite firstn_app, firstn_all, Nat.sub_diag. cbn. rewrite app_nil_r. reflexivity.
  - rewrite (concat_length n) by auto. rewrite firstn_length. f_equal. lia.
  - rewrite E. cbn [concat]. rewrite app_length. lia.
Qed.

(** ** Purging *)
Fixpoint drop_eq (e : list nat) (l : list (list nat)) : list (list nat) :=
  match l with x :: l' => if list_eq_dec Nat.eq_dec e x then drop_eq e l' else l | [] => [] end.
Fixpoint uniq (fuel : nat) (l : list (list nat)) : list (list nat) :=
  match fuel, l with S f, e :: l' => e :: uniq f (drop_eq e l') | _, _ => [] end.
Lemma drop_eq_len e l : length (drop_eq e l) <= length l.
Proof. induction l as [|x l IH]; cbn; auto. destruct (list_eq_dec _ _ _); cbn; lia. Qed.
Lemma drop_eq_split e l : exists k, l = repeat e k ++ drop_eq e l.
Proof. induction l as [|x l [k IH]]; cbn; [exists 0; auto|]. destruct (list_eq_dec _ _ _) as [<-|N]; [exists (S k); cbn; congruence|exists 0; auto]. Qed.
Lemma purge_inner_true edges e0 rest : forall it it0 new,
  purge_inner edges e0 rest it it0 true new =
  (drop_eq e0 rest, it + (length rest - length (drop_eq e0 rest)),
   match drop_eq e0 rest with [] => it0 | _ => it + (length rest - length (drop_eq e0 rest)) end, true, new).
Proof.
  induction rest as [|x rest IH]; intros it it0 new; cbn [purge_inner drop_eq]; [cbn; rewrite Nat.add_0_r; reflexivity|].
  destruct (list_eq_dec Nat.eq_dec e0 x).
  - rewrite IH. pose proof (drop_eq_len e0 rest) as L. cbn [length]. replace (S it + (length rest - length (drop_eq e0 rest))) with (it + (S (length rest) - length (drop_eq e0 rest))) by lia. reflexivity.
  - cbn [length]. rewrite Nat.sub_diag, Nat.add_0_r. reflexivity.
Qed.
Lemma slice_nil {A} (l : list A) a : slice l a a = [].
Proof. unfold slice. rewrite Nat.sub_diag. reflexivity. Qed.
Lemma skipn_skipn' {A} x y (l : list A) : skipn x (skipn y l) = skipn (y + x) l.
Proof. revert l. induction y as [|y IH]; intros l; cbn; auto. destruct l; cbn; auto. destruct x; auto. Qed.
Lemma slice_app {A} (l : list A) a b c : a <= b -> b <= c -> slice l a c = slice l a b ++ slice l b c.
Proof.
  intros H K. unfold slice. replace (skipn b l) with (skipn (b - a) (skipn a l)) by (rewrite skipn_skipn'; f_equal; lia).
  replace (c - a) with ((b - a) + (c - b)) by lia.
  generalize (skipn a l) as m. generalize (b - a) as x. generalize (c - b) as y. intros y x m. revert m. induction x as [|x IH]; intros m; cbn; auto.
  destruct m as [|z m]; cbn; [destruct y; reflexivity|]. f_equal. apply IH.
Qed.
Lemma slice_one {A} (dn rest : list A) e : slice (dn ++ e :: rest) (length dn) (S (length dn)) = [e].
Proof. unfold slice. replace (S (length dn) - length dn) with 1 by lia. rewrite skipn_app, skipn_all, Nat.sub_diag. reflexivity. Qed.
Lemma purge_outer_spec fuel edges : forall dn rest it0 rep new, length rest <= fuel -> edges = dn ++ rest -> it0 <= length dn ->
  purge_outer fuel edges rest (length dn) it0 rep new =
  (match rest with [] => if rep then new else new ++ slice edges it0 (length dn) | _ => new ++ slice edges it0 (length dn) end) ++ uniq fuel rest.
Proof.
  induction fuel as [|f IH]; intros dn rest it0 rep new Hf E Hi.
  - destruct rest; [|cbn in Hf; lia]. cbn. rewrite app_nil_r in *. subst dn. reflexivity.
  - destruct rest as [|e0 rest]; cbn [purge_outer uniq].
    { rewrite !app_nil_r in *. subst dn. reflexivity. }
    assert (Len : length (dn ++ [e0]) = S (length dn)) by (rewrite app_length; cbn; lia).
    assert (SL : slice edges it0 (S (length dn)) = slice edges it0 (length dn) ++ [e0]).
    { rewrite (slice_app edges it0 (length dn) (S (length dn))) by lia. f_equal. rewrite E. apply slice_one. }
    cbn [length] in Hf. destruct rest as [|e1 rest].
    + cbn [purge_inner drop_eq]. rewrite <- Len. rewrite (IH (dn ++ [e0]) [] it0 false new); cbn [length]; try lia; [|rewrite <- app_assoc; exact E].
      rewrite Len, SL. destruct f; cbn; rewrite app_nil_r, app_assoc; reflexivity.
    + cbn [purge_inner drop_eq]. destruct (list_eq_dec Nat.eq_dec e0 e1) as [<-|N].
      * rewrite purge_inner_true. destruct (drop_eq_split e0 rest) as [k Ek].
        assert (Lk : length rest = k + length (drop_eq e0 rest)). { rewrite Ek at 1. rewrite app_length, repeat_length. reflexivity. }
        assert (Ed : edges = (dn ++ [e0] ++ [e0] ++ repeat e0 k) ++ drop_eq e0 rest). { rewrite E. rewrite Ek at 1. rewrite <- !app_assoc. reflexivity. }
        assert (Ld : length (dn ++ [e0] ++ [e0] ++ repeat e0 k) = S (S (length dn)) + (length rest - length (drop_eq e0 rest))). { rewrite !app_length, repeat_length. cbn. lia. }
        rewrite <- Ld. cbn [length] in Hf. rewrite IH; [|lia|exact Ed|destruct (drop_eq e0 rest); rewrite ?Ld; lia].
        destruct (drop_eq e0 rest) as [|x r].
        -- rewrite SL, <- !app_assoc. reflexivity.
        -- rewrite slice_nil, app_nil_r, SL, <- !app_assoc. reflexivity.
      * rewrite <- Len. rewrite (IH (dn ++ [e0]) (e1 :: rest) it0 false new); [|cbn [length] in *; lia|rewrite <- app_assoc; exact E|lia].
        rewrite Len, SL, <- !app_assoc. reflexivity.
Qed.
Lemma purge_edges_uniq l : purge_edges l = uniq (length l) l.
Proof. unfold purge_edges. change 0 with (length (@nil (list nat))) at 1. rewrite (purge_outer_spec (length l) l [] l 0 false []); auto. destruct l; cbn; rewrite ?slice_nil; reflexivity. Qed.
Lemma uniq_In fuel : forall l e, length l <= fuel -> (In e (uniq fuel l) <-> In e l).
Proof.
  induction fuel as [|f IH]; intros [|x l] e Hf; cbn [uniq]; try tauto; [cbn in Hf; lia|]. cbn [length] in Hf. pose proof (drop_eq_len x l) as Ld. cbn [In]. rewrite IH by lia.
  destruct (drop_eq_split x l) as [k Ek]. split.
  - intros [->|H]; auto. right. rewrite Ek. apply in_or_app; auto.
  - intros [->|H]; auto. rewrite Ek in H. apply in_app_or in H as [H|H]; auto. apply repeat_spec in H. auto.
Qed.
(** Order on edges. *)
Fixpoint lex_le (a b : list nat) : Prop :=
  match a, b with
  | x :: a', y :: b' => x < y \/ (x = y /\ lex_le a' b')
  | [], _ => True
  | _, [] => False
  end.
Lemma lex_le_antisym a : forall b, lex_le a b -> lex_le b a -> a = b.
Proof. induction a as [|x a IH]; intros [|y b]; cbn; try tauto. intros [H|[-> H]] [K|[E K]]; try lia. f_equal; auto. Qed.
Lemma lex_le_trans a : forall b c, lex_le a b -> lex_le b c -> lex_le a c.
Proof. induction a as [|x a IH]; intros [|y b] [|z c]; cbn; try tauto. intros [H|[-> H]] [K|[E K]]; try (left; lia). right. split; auto. eauto. Qed.
Lemma edge_lt_le a : forall b, length a = length b -> edge_lt b a = false -> lex_le a b.
Proof.
  induction a as [|x a IH]; intros [|y b] Hl; cbn; auto; try discriminate. injection Hl as Hl.
  destruct (Nat.eqb_spec y x) as [->|N]; [intros H; right; split; auto|]. intros H. apply Nat.ltb_ge in H. left. lia.
Qed.
Lemma no_descent_sorted n l : Forall (fun e => length e = n) l -> no_descent edge_lt l -> StronglySorted lex_le l.
Proof.
  induction l as [|a l IH]; intros F H; [constructor|]. inversion F as [|? ? Fa F']; subst.
  assert (Sl : StronglySorted lex_le l). { apply IH; auto. destruct l; [exact I|apply H]. }
  constructor; auto. destruct l as [|b l]; [constructor|]. destruct H as [H _].
  assert (Hab : lex_le a b). { apply edge_lt_le; auto. inversion F'; auto. }
  constructor; auto. apply StronglySorted_inv in Sl as [_ Sl]. eapply Forall_impl; [|exact Sl]. cbv beta. intros c Hc. eapply lex_le_trans; eauto.
Qed.
Lemma uniq_NoDup fuel : forall l, length l <= fuel -> StronglySorted lex_le l -> NoDup (uniq fuel l).
Proof.
  induction fuel as [|f IH]; intros [|x l] Hf Hs; cbn [uniq]; try constructor; cbn [length] in Hf; [|].
  - pose proof (drop_eq_len x l) as Ld. rewrite uniq_In by lia. apply StronglySorted_inv in Hs as [Hs Hx].
    destruct (drop_eq_split x l) as [k Ek]. intros K.
    assert (Sd : StronglySorted lex_le (drop_eq x l)). { rewrite Ek in Hs. clear - Hs. induction k; auto. cbn in Hs. apply StronglySorted_inv in Hs as [Hs _]. auto. }
    assert (Hh : match drop_eq x l with [] => True | y :: _ => x <> y end). { clear. induction l as [|y l IH]; cbn; auto. destruct (list_eq_dec _ _ _); auto. }
    destruct (drop_eq x l) as [|y d] eqn:Ed; [destruct K|]. destruct K as [K|K]; [congruence|].
    apply StronglySorted_inv in Sd as [_ Sd]. rewrite Forall_forall in Sd, Hx. apply Hh. apply lex_le_antisym; [|apply Sd; auto].
    apply Hx. rewrite Ek. apply in_or_app. right. left; auto.
  - pose proof (drop_eq_len x l) as Ld. apply IH; [lia|]. apply StronglySorted_inv in Hs as [Hs _]. destruct (drop_eq_split x l) as [k Ek].
    rewrite Ek in Hs. clear - Hs. induction k; auto. cbn in Hs. apply StronglySorted_inv in Hs as [Hs _]. auto.
Qed.
(** A sorting routine exists. *)
Fixpoint leb_edge (a b : list nat) : bool :=
  match a, b with
  | x :: a', y :: b' => if x =? y then leb_edge a' b' else x <? y
  | [], _ => true
  | _, [] => false
  end.
Fixpoint eins (e : list nat) (l : list (list nat)) : list (list nat) :=
  match l with [] => [e] | x :: l' => if leb_edge e x then e :: x :: l' else x :: eins e l' end.
Fixpoint esort_ins (l : list (list nat)) : list (list nat) := match l with [] => [] | x :: l' => eins x (esort_ins l') end.
Lemma leb_edge_lt a : forall b, leb_edge a b = true -> edge_lt b a = false.
Proof. induction a as [|x a IH]; intros [|y b]; cbn; auto; try discriminate. rewrite (Nat.eqb_sym y x). destruct (Nat.eqb_spec x y); auto. intros H. apply Nat.ltb_lt in H. apply Nat.ltb_ge. lia. Qed.
Lemma leb_edge_total a : forall b, leb_edge a b = false -> leb_edge b a = true.
Proof. induction a as [|x a IH]; intros [|y b]; cbn; auto; try discriminate. rewrite (Nat.eqb_sym y x). destruct (Nat.eqb_spec x y); auto. intros H. apply Nat.ltb_ge in H. apply Nat.ltb_lt. lia. Qed.
Lemma eins_perm e l : Permutation (eins e l) (e :: l).
Proof. induction l as [|x l IH]; cbn; auto. destruct (leb_edge e x); auto. rewrite IH. constructor. Qed.
Lemma eins_sorted e l : no_descent edge_lt l -> no_descent edge_lt (eins e l).
Proof.
  induction l as [|x l IH]; intros H; [exact I|]. cbn [eins]. destruct (leb_edge e x) eqn:E.
  - split; auto. apply leb_edge_lt; auto.
  - assert (Hl : no_descent edge_lt l) by (destruct l; [exact I|apply H]). specialize (IH Hl). apply leb_edge_total, leb_edge_lt in E.
    destruct l as [|y l]; cbn [eins] in *; [split; auto|]. destruct H as [Hxy _]. destruct (leb_edge e y); split; auto.
Qed.
Lemma esort_ins_ok : sorts_by edge_lt esort_ins.
Proof. intros l. induction l as [|x l [P S]]; cbn [esort_ins]; [split; [constructor|exact I]|]. split; [rewrite eins_perm; constructor; auto|apply eins_sorted; auto]. Qed.
