(** C176: the data found for a position of a form; C177: the patch of assemble_scalar. *)
From Coq Require Import Permutation.
From Verif Require Import M_PyBase M_PyPositions.
Local Open Scope nat_scope.

(** The specification. Integrals of type [t] of the form: its names and ids side by side. *)
Definition integrals_of (f : form_ir) (t : nat) : list (nat * Z) := combine (nth t (f_names f) []) (nth t (f_ids f) []).
(** FFCx' form: five types, the two lists parallel, an id named once per type, a kernel name of one type only (the name contains the type). *)
Record form_ok (f : form_ir) : Prop :=
  { ok_names : length (f_names f) = 5; ok_ids : length (f_ids f) = 5;
    ok_par : forall t, length (nth t (f_names f) []) = length (nth t (f_ids f) []);
    ok_once : forall t, NoDup (nth t (f_ids f) []);
    ok_type : forall t t' n, In n (nth t (f_names f) []) -> In n (nth t' (f_names f) []) -> t = t' }.
(** The compiled form lists the integrals of each type in some order (FFCx sorts them), one type after the other. *)
Definition lays_out (sorted : list (list (nat * Z))) (u : ufcx_form) : Prop :=
  u_ids u = map snd (concat sorted) /\ u_offsets u = map (fun k => length (concat (firstn k sorted))) (seq 0 6).

Lemma ids_named_ok : forall n names ids, length names = length ids ->
  ids_named n names ids = Ret (map snd (filter (fun p => fst p =? n) (combine names ids))).
Proof.
  intros n names. induction names as [|a l IH]; intros [|b r] HL; cbn in HL; try lia; [reflexivity|].
  cbn [ids_named combine filter fst]. rewrite (IH r) by lia. cbn [bind]. destruct (a =? n); reflexivity.
Qed.
Lemma named_in : forall n names (ids : list Z) s, In s (map snd (filter (fun p => fst p =? n) (combine names ids))) <-> In (n, s) (combine names ids).
Proof.
  intros n names ids s. rewrite in_map_iff. split.
  - intros ((a & b) & E & Hin). apply filter_In in Hin. destruct Hin as (Hin & Ha). cbn in E, Ha. apply Nat.eqb_eq in Ha. subst. exact Hin.
  - intros Hin. exists (n, s). split; [reflexivity|]. apply filter_In. split; [exact Hin|]. cbn. apply Nat.eqb_refl.
Qed.
Lemma in_combine_left : forall (n : nat) names (ids : list Z), length names = length ids -> In n names -> exists s, In (n, s) (combine names ids).
Proof.
  intros n names. induction names as [|a l IH]; intros [|b r] HL Hn; cbn in HL; try lia; [contradiction|].
  destruct Hn as [->|Hn]; [exists b; left; reflexivity|]. destruct (IH r ltac:(lia) Hn) as (s & Hs). exists s. right. exact Hs.
Qed.
Lemma first_ids_ok : forall n l t ns is_,
  (forall p, In p l -> length (fst p) = length (snd p)) -> nth_error l t = Some (ns, is_) -> In n ns ->
  (forall t' p, nth_error l t' = Some p -> In n (fst p) -> t' = t) ->
  first_ids n l = Ret (map snd (filter (fun p => fst p =? n) (combine ns is_))).
Proof.
  intros n l. induction l as [|(a, b) l IH]; intros t ns is_ HL Ht Hn HU; [destruct t; discriminate|].
  pose proof (HL (a, b) (or_introl eq_refl)) as Hab. cbn in Hab.
  cbn [first_ids]. rewrite (ids_named_ok n a b Hab). cbn [bind].
  destruct t as [|t]; cbn in Ht.
  - injection Ht as -> ->. destruct (in_combine_left n ns is_ Hab Hn) as (s & Hs). apply named_in in Hs.
    destruct (map snd (filter (fun p => fst p =? n) (combine ns is_))) as [|x r]; [contradiction|reflexivity].
  - destruct (map snd (filter (fun p => fst p =? n) (combine a b))) as [|x r] eqn:E.
    + cbn [length Nat.ltb Nat.leb]. apply (IH t ns is_); [intros p Hp; apply HL; right; exact Hp|exact Ht|exact Hn|].
      intros t' p Hp Hin. specialize (HU (S t') p Hp Hin). lia.
    + exfalso. assert (Hx : In x (map snd (filter (fun p => fst p =? n) (combine a b)))) by (rewrite E; left; reflexivity).
      apply named_in in Hx. specialize (HU 0 (a, b) eq_refl (in_combine_l _ _ _ _ Hx)). discriminate.
Qed.
Lemma nth_error_combine : forall {A B : Type} (l : list A) (r : list B) k a b, nth_error (combine l r) k = Some (a, b) <-> nth_error l k = Some a /\ nth_error r k = Some b.
Proof.
  intros A B l. induction l as [|x l IH]; intros [|y r] [|k] a b; cbn; split; try discriminate; try (intros (H1 & H2); discriminate).
  - intros E. injection E as -> ->. split; reflexivity.
  - intros (E1 & E2). injection E1 as ->. injection E2 as ->. reflexivity.
  - apply IH.
  - apply IH.
Qed.
Lemma extract_ok : forall f n t, form_ok f -> In n (nth t (f_names f) []) ->
  extract_integral_data [f] n t =
    Ret {| i_name := n; i_ids := map snd (filter (fun p => fst p =? n) (integrals_of f t)); i_type := t |}.
Proof.
  intros f n t HF Hn. unfold extract_integral_data, get_integral_subdomain_ids. cbn [flat_map]. rewrite app_nil_r.
  assert (Ht : t < 5).
  { destruct (Nat.lt_ge_cases t 5) as [H|H]; [exact H|]. rewrite nth_overflow in Hn; [contradiction|]. rewrite (ok_names f HF). exact H. }
  rewrite (first_ids_ok n _ t (nth t (f_names f) []) (nth t (f_ids f) [])).
  - cbn [bind]. fold (integrals_of f t).
    destruct (in_combine_left n _ _ (ok_par f HF t) Hn) as (s & Hs). apply named_in in Hs. fold (integrals_of f t) in Hs.
    destruct (map snd (filter (fun p => fst p =? n) (integrals_of f t))) as [|x r]; [contradiction|reflexivity].
  - intros (a, b) Hp. apply In_nth_error in Hp. destruct Hp as (k & Hk). apply nth_error_combine in Hk. destruct Hk as (H1 & H2).
    apply (nth_error_nth _ _ []) in H1. apply (nth_error_nth _ _ []) in H2. cbn [fst snd]. rewrite <- H1, <- H2. apply (ok_par f HF).
  - apply nth_error_combine. split; apply nth_error_nth'; [rewrite (ok_names f HF)|rewrite (ok_ids f HF)]; exact Ht.
  - exact Hn.
  - intros t' (a, b) Hp Hin. apply nth_error_combine in Hp. destruct Hp as (H1 & _). apply (nth_error_nth _ _ []) in H1. cbn [fst] in Hin.
    rewrite <- H1 in Hin. exact (ok_type f HF t' t n Hin Hn).
Qed.

(** What the list of data holds. *)
Definition datum (f : form_ir) (p : nat * nat) : itg_data :=
  {| i_name := fst p; i_ids := map snd (filter (fun q => fst q =? fst p) (integrals_of f (snd p))); i_type := snd p |}.
Lemma data_ok : forall f kernels, form_ok f -> (forall p, In p kernels -> In (fst p) (nth (snd p) (f_names f) [])) ->
  pmap (fun p => extract_integral_data [f] (fst p) (snd p)) kernels = Ret (map (datum f) kernels).
Proof.
  intros f kernels HF. induction kernels as [|p l IH]; intros HK; [reflexivity|].
  cbn [pmap map]. rewrite (extract_ok f (fst p) (snd p) HF (HK p (or_introl eq_refl))). cbn [bind].
  rewrite IH by (intros q Hq; apply HK; right; exact Hq). reflexivity.
Qed.
Lemma nodup_pair : forall (l : list nat) (r : list Z) n n' s, NoDup r -> In (n, s) (combine l r) -> In (n', s) (combine l r) -> n = n'.
Proof.
  induction l as [|a l IH]; intros [|b r] n n' s HN H1 H2; try contradiction. inversion HN as [|? ? HN1 HN2]; subst.
  destruct H1 as [E1|H1]; destruct H2 as [E2|H2].
  - injection E1 as -> ->. injection E2 as ->. reflexivity.
  - injection E1 as -> ->. exfalso. apply HN1. exact (in_combine_r _ _ _ _ H2).
  - injection E2 as -> ->. exfalso. apply HN1. exact (in_combine_r _ _ _ _ H1).
  - exact (IH r n n' s HN2 H1 H2).
Qed.
Lemma find_ok : forall f kernels n t s, form_ok f -> In (n, t) kernels -> In (n, s) (integrals_of f t) ->
  find_data (map (datum f) kernels) t s = Some (datum f (n, t)).
Proof.
  intros f kernels n t s HF Hk Hs. induction kernels as [|(n', t') l IH]; [contradiction|].
  cbn [map find_data datum fst snd i_type i_ids].
  destruct (t' =? t) eqn:Et; cbn [andb].
  - apply Nat.eqb_eq in Et. subst t'.
    destruct (existsb (Z.eqb s) (map snd (filter (fun q => fst q =? n') (integrals_of f t)))) eqn:Ee.
    + apply existsb_exists in Ee. destruct Ee as (s' & Hin & Es). apply Z.eqb_eq in Es. subst s'. apply named_in in Hin.
      rewrite (nodup_pair _ _ n' n s (ok_once f HF t) Hin Hs). reflexivity.
    + destruct Hk as [E|Hk]; [|exact (IH Hk)]. injection E as ->. exfalso.
      assert (Hx : existsb (Z.eqb s) (map snd (filter (fun q => fst q =? n) (integrals_of f t))) = true).
      { apply existsb_exists. exists s. split; [apply named_in; exact Hs|apply Z.eqb_refl]. }
      rewrite Hx in Ee. discriminate.
  - destruct Hk as [E|Hk]; [|exact (IH Hk)]. injection E as -> ->. rewrite Nat.eqb_refl in Et. discriminate.
Qed.

(** The layout. *)
Lemma firstn_S_concat : forall {A : Type} (l : list (list A)) k, concat (firstn (S k) l) = concat (firstn k l) ++ nth k l [].
Proof.
  intros A l. induction l as [|x l IH]; intros k; [destruct k; reflexivity|].
  destruct k as [|k]; [cbn; rewrite app_nil_r; reflexivity|].
  cbn [firstn concat nth] in *. specialize (IH k). cbn [firstn] in IH. rewrite <- app_assoc, <- IH. reflexivity.
Qed.
Lemma concat_split : forall {A : Type} (l : list (list A)) k, k < length l -> concat l = concat (firstn k l) ++ nth k l [] ++ concat (skipn (S k) l).
Proof.
  intros A l. induction l as [|x l IH]; intros k Hk; cbn in Hk; [lia|].
  destruct k as [|k]; [reflexivity|]. cbn [firstn concat nth skipn]. rewrite (IH k) at 1 by lia. rewrite <- app_assoc. reflexivity.
Qed.
Lemma pat_some : forall {A : Type} (l : list A) k x, nth_error l k = Some x -> pat l k = Ret x.
Proof. intros A l k x E. unfold pat. rewrite E. reflexivity. Qed.
Lemma u_id : forall sorted u t i p, lays_out sorted u -> t < length sorted -> nth_error (nth t sorted []) i = Some p ->
  pat (u_ids u) (length (concat (firstn t sorted)) + i) = Ret (snd p).
Proof.
  intros sorted u t i p (HI & _) Ht Hi. apply pat_some. rewrite HI. apply map_nth_error. rewrite (concat_split sorted t Ht).
  rewrite nth_error_app2 by lia. replace (_ + i - _) with i by lia.
  rewrite nth_error_app1; [exact Hi|]. apply nth_error_Some. rewrite Hi. discriminate.
Qed.
Lemma u_off : forall sorted u t, lays_out sorted u -> t <= 5 -> pat (u_offsets u) t = Ret (length (concat (firstn t sorted))).
Proof.
  intros sorted u t (_ & HO) Ht. apply pat_some. rewrite HO. apply (map_nth_error (fun k => length (concat (firstn k sorted)))).
  rewrite (nth_error_nth' _ 0) by (rewrite seq_length; lia). rewrite seq_nth by lia. reflexivity.
Qed.

(** The entries of one type. *)
Definition entry (f : form_ir) (t : nat) (ip : nat * (nat * Z)) : nat * nat * itg_data := (t, fst ip, datum f (fst (snd ip), t)).
Lemma row_ok : forall f kernels sorted u t (HF : form_ok f) (HU : lays_out sorted u) (Ht : t < length sorted)
  (HC : forall n s, In (n, s) (nth t sorted []) -> In (n, t) kernels /\ In (n, s) (integrals_of f t)) a,
  a = length (concat (firstn t sorted)) -> forall l i, (forall k p, nth_error l k = Some p -> nth_error (nth t sorted []) (i + k) = Some p) ->
  pmap (fun pj => sid <- pat (u_ids u) (snd pj) ;; Ret (match find_data (map (datum f) kernels) t sid with Some d => [(t, fst pj, d)] | None => [] end))
    (combine (seq i (length l)) (seq (a + i) (length l))) = Ret (map (fun ip => [entry f t ip]) (combine (seq i (length l)) l)).
Proof.
  intros f kernels sorted u t HF HU Ht HC a Ea l. induction l as [|p l IH]; intros i Hl; [reflexivity|].
  cbn [length seq combine pmap map fst snd].
  pose proof (Hl 0 p eq_refl) as Hp. rewrite Nat.add_0_r in Hp.
  assert (EU := u_id sorted u t i p HU Ht Hp). rewrite <- Ea in EU. rewrite EU. cbn [bind].
  destruct p as (n, s). destruct (HC n s (nth_error_In _ _ Hp)) as (H1 & H2). cbn [snd]. rewrite (find_ok f kernels n t s HF H1 H2).
  replace (S (a + i)) with (a + S i) by lia. cbn [bind snd].
  assert (EI := IH (S i)). rewrite EI; [reflexivity|].
  intros k p Hk. replace (S i + k) with (i + S k) by lia. exact (Hl (S k) p Hk).
Qed.
Lemma build_type_ok : forall f kernels sorted u t, form_ok f -> lays_out sorted u -> t < length sorted -> t < 5 ->
  (forall n s, In (n, s) (nth t sorted []) -> In (n, t) kernels /\ In (n, s) (integrals_of f t)) ->
  build_type u (map (datum f) kernels) t = Ret (map (entry f t) (combine (seq 0 (length (nth t sorted []))) (nth t sorted []))).
Proof.
  intros f kernels sorted u t HF HU Ht H5 HC. unfold build_type.
  rewrite (u_off sorted u t HU) by lia. cbn [bind]. rewrite (u_off sorted u (S t) HU) by lia. cbn [bind].
  rewrite (firstn_S_concat sorted t), app_length.
  replace (length (concat (firstn t sorted)) + length (nth t sorted []) - length (concat (firstn t sorted))) with (length (nth t sorted [])) by lia.
  assert (ER := row_ok f kernels sorted u t HF HU Ht HC _ eq_refl (nth t sorted []) 0 (fun k p H => H)).
  rewrite Nat.add_0_r in ER. rewrite ER. cbn [bind]. f_equal.
  generalize (combine (seq 0 (length (nth t sorted []))) (nth t sorted [])). intros l. induction l as [|x l IH]; [reflexivity|].
  cbn [map concat app]. rewrite IH. reflexivity.
Qed.
Lemma lookup_skip : forall f t t' l r pos, t <> t' -> lookup (map (entry f t) l ++ r) t' pos = lookup r t' pos.
Proof.
  intros f t t' l r pos Hne. induction l as [|x l IH]; [reflexivity|]. cbn [map app entry lookup].
  apply Nat.eqb_neq in Hne. rewrite Hne. exact IH.
Qed.
Lemma lookup_here : forall f t (l : list (nat * Z)) r pos i p, nth_error l pos = Some p ->
  lookup (map (entry f t) (combine (seq i (length l)) l) ++ r) t (i + pos) = Ret (datum f (fst p, t)).
Proof.
  intros f t l r. induction l as [|x l IH]; intros pos i p Hp; [destruct pos; discriminate|].
  cbn [length seq combine map app entry lookup fst snd]. rewrite Nat.eqb_refl. cbn [andb].
  destruct pos as [|pos]; cbn in Hp.
  - injection Hp as ->. replace (i =? i + 0) with true by (symmetry; apply Nat.eqb_eq; lia). reflexivity.
  - replace (i =? i + S pos) with false by (symmetry; apply Nat.eqb_neq; lia).
    replace (i + S pos) with (S i + pos) by lia. exact (IH pos (S i) p Hp).
Qed.
Lemma lookup_past : forall f t (l : list (nat * Z)) r pos i, length l <= pos -> 
  lookup (map (entry f t) (combine (seq i (length l)) l) ++ r) t (i + pos) = lookup r t (i + pos).
Proof.
  intros f t l r. induction l as [|x l IH]; intros pos i Hp; cbn in Hp; [reflexivity|].
  cbn [length seq combine map app entry lookup fst snd].
  replace (i =? i + pos) with false by (symmetry; apply Nat.eqb_neq; lia). rewrite andb_false_r.
  destruct pos as [|pos]; [lia|]. replace (i + S pos) with (S i + pos) by lia. apply IH. lia.
Qed.
Lemma lookup_nil_type : forall f t t' l pos, t <> t' -> lookup (map (entry f t) l) t' pos = Abort.
Proof. intros f t t' l pos H. rewrite <- (app_nil_r (map (entry f t) l)), lookup_skip by exact H. reflexivity. Qed.

Lemma get_itg_here : forall f kernels sorted u t pos p, form_ok f -> lays_out sorted u -> length sorted = 5 -> t < 3 ->
  (forall t n s, t < 3 -> In (n, s) (nth t sorted []) -> In (n, t) kernels /\ In (n, s) (integrals_of f t)) ->
  nth_error (nth t sorted []) pos = Some p -> get_itg_data u (map (datum f) kernels) t pos = Ret (datum f (fst p, t)).
Proof.
  intros f kernels sorted u t pos p HF HU HS Ht HC Hp. unfold get_itg_data. apply Nat.ltb_lt in Ht. rewrite Ht. apply Nat.ltb_lt in Ht.
  cbn [assert_]. unfold build_position_to_data.
  assert (EO : length (u_offsets u) = 6) by (destruct HU as (_ & ->); rewrite map_length, seq_length; reflexivity). rewrite EO. cbn [Nat.leb assert_].
  rewrite (build_type_ok f kernels sorted u 0 HF HU) by (try lia; intros n s; apply (HC 0); lia). cbn [bind].
  rewrite (build_type_ok f kernels sorted u 1 HF HU) by (try lia; intros n s; apply (HC 1); lia). cbn [bind].
  rewrite (build_type_ok f kernels sorted u 2 HF HU) by (try lia; intros n s; apply (HC 2); lia). cbn [bind].
  destruct t as [|[|[|t]]]; [| | |lia].
  - exact (lookup_here f 0 _ _ pos 0 p Hp).
  - rewrite lookup_skip by lia. exact (lookup_here f 1 _ _ pos 0 p Hp).
  - rewrite lookup_skip, lookup_skip by lia. rewrite <- (app_nil_r (map (entry f 2) _)). exact (lookup_here f 2 _ _ pos 0 p Hp).
Qed.
Lemma get_itg_past : forall f kernels sorted u t pos, form_ok f -> lays_out sorted u -> length sorted = 5 -> t < 3 ->
  (forall t n s, t < 3 -> In (n, s) (nth t sorted []) -> In (n, t) kernels /\ In (n, s) (integrals_of f t)) ->
  length (nth t sorted []) <= pos -> get_itg_data u (map (datum f) kernels) t pos = Abort.
Proof.
  intros f kernels sorted u t pos HF HU HS Ht HC Hp. unfold get_itg_data. apply Nat.ltb_lt in Ht. rewrite Ht. apply Nat.ltb_lt in Ht.
  cbn [assert_]. unfold build_position_to_data.
  assert (EO : length (u_offsets u) = 6) by (destruct HU as (_ & ->); rewrite map_length, seq_length; reflexivity). rewrite EO. cbn [Nat.leb assert_].
  rewrite (build_type_ok f kernels sorted u 0 HF HU) by (try lia; intros n s; apply (HC 0); lia). cbn [bind].
  rewrite (build_type_ok f kernels sorted u 1 HF HU) by (try lia; intros n s; apply (HC 1); lia). cbn [bind].
  rewrite (build_type_ok f kernels sorted u 2 HF HU) by (try lia; intros n s; apply (HC 2); lia). cbn [bind].
  destruct t as [|[|[|t]]]; [| | |lia].
  - rewrite (lookup_past f 0 _ _ pos 0 Hp). rewrite lookup_skip by lia. apply lookup_nil_type. lia.
  - rewrite lookup_skip by lia. rewrite (lookup_past f 1 _ _ pos 0 Hp). apply lookup_nil_type. lia.
  - rewrite lookup_skip, lookup_skip by lia. rewrite <- (app_nil_r (map (entry f 2) _)). exact (lookup_past f 2 _ _ pos 0 Hp).
Qed.

(** C176. Data are made for all kernels of the form, in any order; the packer then finds, for the position DOLFINx gives to an integral, the data of
    its kernel, with all its ids and no others; positions past the end raise. *)
Theorem C176_position_data : forall f kernels sorted u,
  form_ok f -> (forall n t, In (n, t) kernels <-> In n (nth t (f_names f) [])) ->
  length sorted = 5 -> (forall t, Permutation (nth t sorted []) (integrals_of f t)) -> lays_out sorted u ->
  exists data, pmap (fun p => extract_integral_data [f] (fst p) (snd p)) kernels = Ret data /\
    forall t, t < 3 ->
      (forall pos n s, nth_error (nth t sorted []) pos = Some (n, s) ->
         exists d, get_itg_data u data t pos = Ret d /\ i_name d = n /\ i_type d = t /\ (forall s', In s' (i_ids d) <-> In (n, s') (nth t sorted []))) /\
      (forall pos, length (nth t sorted []) <= pos -> get_itg_data u data t pos = Abort).
Proof.
  intros f kernels sorted u HF HK HS HP HU. exists (map (datum f) kernels).
  assert (HC : forall t n s, t < 3 -> In (n, s) (nth t sorted []) -> In (n, t) kernels /\ In (n, s) (integrals_of f t)).
  { intros t n s Ht Hin. apply (Permutation_in _ (HP t)) in Hin. split; [|exact Hin]. apply HK. exact (in_combine_l _ _ _ _ Hin). }
  split; [apply (data_ok f kernels HF); intros (n, t) Hp; apply HK; exact Hp|].
  intros t Ht. split.
  - intros pos n s Hp. exists (datum f (n, t)). split; [exact (get_itg_here f kernels sorted u t pos (n, s) HF HU HS Ht HC Hp)|].
    split; [reflexivity|]. split; [reflexivity|]. intros s'. cbn [datum i_ids fst snd].
    unfold integrals_of at 1. rewrite named_in. fold (integrals_of f t). split; intros H; [apply (Permutation_in _ (Permutation_sym (HP t)))|apply (Permutation_in _ (HP t))]; exact H.
  - intros pos Hp. exact (get_itg_past f kernels sorted u t pos HF HU HS Ht HC Hp).
Qed.
Print Assumptions C176_position_data.

(** A form with two cell kernels (one on ids 3 and -1) and a facet kernel whose ids overlap; the data in another order. *)
Definition demo_form : form_ir := {| f_names := [[10; 11; 10]; [12]; []; []; []]; f_ids := [[3; 7; -1]; [3]; []; []; []]%Z |}.
Definition demo_sorted : list (list (nat * Z)) := [[(10, (-1)%Z); (10, 3%Z); (11, 7%Z)]; [(12, 3%Z)]; []; []; []].
Definition demo_u : ufcx_form := {| u_offsets := [0; 3; 4; 4; 4; 4]; u_ids := [-1; 3; 7; 3]%Z |}.
Example demo_form_ok : form_ok demo_form /\ lays_out demo_sorted demo_u /\ (forall t, Permutation (nth t demo_sorted []) (integrals_of demo_form t)) /\
  forall n t, In (n, t) [(12, 1); (10, 0); (11, 0)] <-> In n (nth t (f_names demo_form) []).
Proof.
  split; [|split; [split; reflexivity|split]].
  - split; [reflexivity|reflexivity| | |].
    + intros [|[|[|[|[|[|t]]]]]]; reflexivity.
    + intros [|[|[|[|[|[|t]]]]]]; cbn; repeat constructor; cbn; lia.
    + intros t t' n. destruct t as [|[|[|[|[|[|t]]]]]]; cbn; try tauto; destruct t' as [|[|[|[|[|[|t']]]]]]; cbn; try tauto; lia.
  - intros [|[|[|[|[|[|t]]]]]]; try apply Permutation_refl. cbn. 
    exact (Permutation_app_comm [(10, (-1)%Z)] [(10, 3%Z); (11, 7%Z)]).
  - intros n t. destruct t as [|[|[|[|[|[|t]]]]]]; cbn; split; intros H; repeat match goal with H : _ \/ _ |- _ => destruct H end;
      try contradiction; try discriminate; try lia; try (match goal with E : (_, _) = (_, _) |- _ => injection E as; subst end; tauto); subst; tauto.
Qed.
Example demo_found : forall data, pmap (fun p => extract_integral_data [demo_form] (fst p) (snd p)) [(12, 1); (10, 0); (11, 0)] = Ret data ->
  get_itg_data demo_u data 0 2 = Ret {| i_name := 11; i_ids := [7%Z]; i_type := 0 |} /\
  get_itg_data demo_u data 0 0 = Ret {| i_name := 10; i_ids := [3; -1]%Z; i_type := 0 |} /\
  get_itg_data demo_u data 1 0 = Ret {| i_name := 12; i_ids := [3%Z]; i_type := 1 |} /\ get_itg_data demo_u data 1 1 = Abort.
Proof. intros data E. vm_compute in E. injection E as <-. repeat split; vm_compute; reflexivity. Qed.

(** C177. The code calls assemble_scalar through a module, or through a name bound earlier; what C++ gets as coefficients. *)
Definition run (v010 : bool) (l : list import) : modules := fold_left (step v010) l fresh_modules.
Definition patched (s : modules) : Prop := m_assemble s = Patched /\ m_fem s = Patched.
Lemma step_fem : forall v s i, m_fem s = m_assemble s -> m_fem (step v s i) = m_assemble (step v s i).
Proof. intros v s [|n|n] E; cbn [step m_fem m_assemble]; [|exact E|exact E]. unfold apply_patches. destruct v; cbn [negb]; [|exact E]. destruct (m_assemble s) eqn:Es; [reflexivity|congruence]. Qed.
Lemma run_fem : forall v l s, m_fem s = m_assemble s -> m_fem (fold_left (step v) l s) = m_assemble (fold_left (step v) l s).
Proof. intros v l. induction l as [|i l IH]; intros s E; [exact E|]. cbn [fold_left]. apply IH. apply step_fem. exact E. Qed.
Lemma step_keeps : forall s i, patched s -> patched (step true s i).
Proof. intros s [|n|n] (H1 & H2); cbn [step]; [|split; assumption|split; assumption]. unfold apply_patches. cbn [negb]. rewrite H1. split; assumption. Qed.
Lemma run_keeps : forall l s, patched s -> patched (fold_left (step true) l s).
Proof. induction l as [|i l IH]; intros s H; [exact H|]. cbn [fold_left]. apply IH. apply step_keeps. exact H. Qed.
Lemma run_patched : forall l, In ImportQugar l -> patched (run true l).
Proof.
  intros l Hin. apply in_split in Hin. destruct Hin as (a & b & ->). unfold run. rewrite fold_left_app. cbn [fold_left]. apply run_keeps.
  pose proof (run_fem true a fresh_modules eq_refl) as E. set (s := fold_left (step true) a fresh_modules) in *. cbn [step]. unfold apply_patches. cbn [negb].
  unfold patched. destruct (m_assemble s) eqn:Es; cbn [m_assemble m_fem]; [split; reflexivity|split; congruence].
Qed.
(** Whatever was imported before or after, once qugar.dolfinx is imported: a call through either module, or through a name bound after it, gets the
    constants and coefficients it is given, and packs those it is not. *)
Theorem C177_after_import_partial : forall (T : Type) (pc pk : T) l consts coeffs, In ImportQugar l ->
  let get := fun (o : option T) (d : T) => match o with Some x => x | None => d end in
  call pc pk (m_fem (run true l)) consts coeffs = (get consts pc, get coeffs pk) /\
  call pc pk (m_assemble (run true l)) consts coeffs = (get consts pc, get coeffs pk) /\
  forall n b, bound (m_bound (run true (l ++ [BindFem n]))) n = Some b \/ bound (m_bound (run true (l ++ [BindAssemble n]))) n = Some b ->
    call pc pk b consts coeffs = (get consts pc, get coeffs pk).
Proof.
  intros T pc pk l consts coeffs Hin get. destruct (run_patched l Hin) as (HA & HF). rewrite HA, HF.
  assert (EC : call pc pk Patched consts coeffs = (get consts pc, get coeffs pk)) by (destruct consts, coeffs; reflexivity).
  split; [exact EC|]. split; [exact EC|]. intros n b Hb. unfold run in Hb. rewrite !fold_left_app in Hb. cbn [fold_left step m_bound bound] in Hb.
  rewrite Nat.eqb_refl in Hb. fold (run true l) in Hb. rewrite HA, HF in Hb. assert (b = Patched) by (destruct Hb; congruence). subst b. exact EC.
Qed.
(** Another import changes nothing, and other DOLFINx versions are left alone. *)
Theorem C177_idempotent : forall l, In ImportQugar l -> m_assemble (run true (l ++ [ImportQugar])) = m_assemble (run true l) /\ m_fem (run true (l ++ [ImportQugar])) = m_fem (run true l).
Proof.
  intros l Hin. destruct (run_patched l Hin) as (HA & HF). destruct (run_patched (l ++ [ImportQugar])) as (HA' & HF'); [apply in_or_app; left; exact Hin|].
  rewrite HA, HF, HA', HF'. split; reflexivity.
Qed.
Theorem C177_other_versions : forall l, m_assemble (run false l) = Original /\ m_fem (run false l) = Original /\ forall n b, bound (m_bound (run false l)) n = Some b -> b = Original.
Proof.
  assert (H : forall l s, m_assemble s = Original -> m_fem s = Original -> (forall n b, bound (m_bound s) n = Some b -> b = Original) ->
    let r := fold_left (step false) l s in m_assemble r = Original /\ m_fem r = Original /\ forall n b, bound (m_bound r) n = Some b -> b = Original).
  { induction l as [|i l IH]; intros s HA HF HB; [split; [exact HA|split; assumption]|].
    cbn [fold_left]. apply IH; destruct i as [|k|k]; cbn [step m_assemble m_fem m_bound]; unfold apply_patches; cbn [negb]; try assumption.
    - intros n b. cbn [bound]. destruct (k =? n); [intros E; congruence|apply HB].
    - intros n b. cbn [bound]. destruct (k =? n); [intros E; congruence|apply HB]. }
  intros l. apply H; try reflexivity. discriminate.
Qed.
(** The property without the order of imports fails: "from dolfinx.fem import assemble_scalar" before "import qugar.dolfinx" (what sorted imports give)
    keeps the function that hands the constants over as coefficients. *)
Theorem C177_early_import_refuted : forall (T : Type) (pc pk c k : T), k <> c ->
  exists l n b, In ImportQugar l /\ bound (m_bound (run true l)) n = Some b /\ snd (call pc pk b (Some c) (Some k)) <> k.
Proof.
  intros T pc pk c k Hne. exists [BindFem 0; ImportQugar], 0, Original. split; [right; left; reflexivity|]. split; [reflexivity|]. cbn. congruence.
Qed.
Print Assumptions C177_after_import_partial.
Print Assumptions C177_idempotent.
Print Assumptions C177_other_versions.
Print Assumptions C177_early_import_refuted.
Example C177_case : call 0 1 (m_fem (run true [BindFem 5; ImportQugar; BindFem 5])) (Some 8) (Some 9) = (8, 9) /\
  bound (m_bound (run true [BindFem 5; ImportQugar])) 5 = Some Original /\ bound (m_bound (run true [BindFem 5; ImportQugar; BindFem 5])) 5 = Some Patched.
Proof. repeat split; reflexivity. Qed.
