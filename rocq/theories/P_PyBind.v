(** C162, C163: the bindings of the Python module. *)
From Coq Require Import Sorted Permutation Reals Arith.
From Verif Require Import M_Grid M_Domain S_Domain P_Domain M_PyBase M_PyBind S_PyBind L_PyNodes.
Open Scope Z_scope.

(** ** C162 *)
Lemma read_at {A} (buf : list A) i x : 0 <= i -> nth_error buf (Z.to_nat i) = Some x -> read_mem buf i = Ret x.
Proof. intros H E. unfold read_mem. rewrite (proj2 (Z.ltb_ge i 0)) by lia. rewrite E. reflexivity. Qed.
Lemma pmap_nth {A B} (f : A -> outcome B) : forall l r, (forall i a, nth_error l i = Some a -> exists b, f a = Ret b /\ nth_error r i = Some b) -> length r = length l -> pmap f l = Ret r.
Proof.
  induction l as [|a l IH]; intros r H E; [destruct r; [reflexivity|discriminate]|]. destruct r as [|b r]; [discriminate|]. cbn [pmap].
  destruct (H 0%nat a eq_refl) as (b' & E1 & E2). cbn [nth_error] in E2. injection E2 as <-. rewrite E1. cbn [bind]. rewrite (IH r); [reflexivity| |cbn [length] in E; lia].
  intros i a' Hi. exact (H (S i) a' Hi).
Qed.
Lemma pmap_inv {A B} (f : A -> outcome B) : forall l r, pmap f l = Ret r -> length r = length l /\ forall i a, nth_error l i = Some a -> exists b, f a = Ret b /\ nth_error r i = Some b.
Proof.
  induction l as [|a l IH]; intros r E; cbn [pmap] in E; [injection E as <-; split; [reflexivity|intros [|i] ? H; discriminate]|].
  destruct (f a) as [b| | |] eqn:Ef; try discriminate. cbn [bind] in E. destruct (pmap f l) as [rs| | |] eqn:Er; try discriminate. cbn [bind] in E. injection E as <-.
  destruct (IH rs eq_refl) as [H1 H2]. split; [cbn [length]; lia|]. intros [|i] a' Hi; cbn [nth_error] in *; [injection Hi as <-; exists b; auto|apply H2, Hi].
Qed.
Lemma nth_error_seq_some n i a : nth_error (seq 0 n) i = Some a -> a = i /\ (i < n)%nat.
Proof.
  intros H. assert (L : (i < n)%nat) by (rewrite <- (seq_length n 0); apply nth_error_Some; congruence). split; [|exact L].
  apply (nth_error_nth _ _ 0%nat) in H. rewrite seq_nth in H by exact L. lia.
Qed.
Lemma nth_error_seq_lt n i : (i < n)%nat -> nth_error (seq 0 n) i = Some i.
Proof. intros H. destruct (nth_error (seq 0 n) i) as [a|] eqn:E; [apply nth_error_seq_some in E as [-> _]; reflexivity|]. apply nth_error_None in E. rewrite seq_length in E. lia. Qed.

(** A contiguous array is read as Python sees it. *)
Theorem C162_contiguous : forall A (a : view A) l, elements a l -> v_step a = 1 \/ (v_size a <= 1)%nat -> data_read a = Ret l.
Proof.
  intros A a l [L H] C. unfold data_read. apply pmap_nth; [|rewrite seq_length; exact L]. intros i j Hij. apply nth_error_seq_some in Hij as [-> Hi].
  destruct (H i Hi) as (x & E & P & Q). exists x. split; [|exact E]. assert (Eq : v_start a + v_step a * Z.of_nat i = v_start a + Z.of_nat i) by (destruct C as [->|C]; [lia|]; assert (i = 0%nat) by lia; subst i; lia).
  rewrite Eq in P, Q. apply read_at; assumption.
Qed.
Print Assumptions C162_contiguous.
Lemma elements_whole {A} (l : list A) : elements (whole l) l.
Proof.
  split; [reflexivity|]. intros i Hi. cbn [whole v_size v_start v_step v_buf] in *. destruct (nth_error l i) as [x|] eqn:E; [|apply nth_error_None in E; lia].
  exists x. split; [reflexivity|]. split; [lia|]. replace (Z.to_nat (0 + 1 * Z.of_nat i)) with i by lia. exact E.
Qed.
(** So the functions get the lists of the caller; the queries with a list of cells give the listed cells that have the status. *)
Theorem C162_calls : forall cells l facets k, elements cells l -> v_step cells = 1 -> elements facets k -> v_step facets = 1 ->
  (forall B (f : list Z -> outcome B), bind_cells f cells = f l) /\
  (forall B (f : list Z -> list Z -> outcome B), bind_facets f cells facets = f l k) /\
  (forall D q all r, get_facets_target q l k = Ret r -> bind_get_facets D q all (Some cells) (Some facets) = Ret (map fst r, map snd r)).
Proof.
  intros cells l facets k H1 C1 H2 C2. assert (E1 := C162_contiguous _ _ _ H1 (or_introl C1)). assert (E2 := C162_contiguous _ _ _ H2 (or_introl C2)).
  split; [intros B f; unfold bind_cells; rewrite E1; reflexivity|]. split; [intros B f; unfold bind_facets; rewrite E1; cbn [bind]; rewrite E2; reflexivity|].
  intros D q all r E. unfold bind_get_facets. rewrite E1. cbn [bind]. rewrite E2. cbn [bind]. rewrite E. reflexivity.
Qed.
Print Assumptions C162_calls.
Theorem C162_queries : forall g sign ccell cfacet D s, built g sign ccell cfacet D s -> forall st, st <> Cunknown ->
  (exists all, bind_get_cells D st None = Ret all /\ get_cells D st = Ret all /\
    forall a targets, elements a targets -> v_step a = 1 -> Forall (cell_id g) targets ->
    exists l, bind_get_cells D st (Some a) = Ret l /\ StronglySorted Z.le l /\ (forall id, In id l <-> In id targets /\ In id all)) /\
  (forall query all cells r, bind_get_facets D query all None cells = Ret r -> exists pairs, all = Ret pairs /\ r = (map fst pairs, map snd pairs)) /\
  (forall query all cells, bind_get_facets D query all (Some cells) None = Abort).
Proof.
  intros g sign ccell cfacet D s HD st Hst. split; [|split].
  - assert (exists all, get_cells D st = Ret all) as [all E].
    { destruct (C13_cells_partition _ _ _ _ _ _ HD) as (F & E & C & H1 & H2 & H3 & _). destruct st; [exists C|exists F|exists E|contradiction]; assumption. }
    exists all. split; [exact E|]. split; [exact E|]. intros a targets Ha C Hf. destruct (C15_target_lists _ _ _ _ _ _ HD st targets all Hf E) as (l & E1 & S1 & P1).
    exists l. split; [unfold bind_get_cells; rewrite (C162_contiguous _ _ _ Ha (or_introl C)); exact E1|]. split; [exact S1|]. intros id. split; intros H.
    + apply (Permutation_in _ P1) in H. apply filter_In in H as [H1 H2]. destruct (in_dec Z.eq_dec id all); [auto|discriminate].
    + apply (Permutation_in _ (Permutation_sym P1)). apply filter_In. split; [apply H|]. destruct (in_dec Z.eq_dec id all); [reflexivity|tauto].
  - intros query all cells r E. unfold bind_get_facets in E. destruct all as [pairs| | |]; try discriminate. cbn [bind] in E. injection E as <-. exists pairs. auto.
  - intros. reflexivity.
Qed.
Print Assumptions C162_queries.
(** Other arrays are read wrongly: of two elements or more, only with the step 1 are they what Python sees whatever the contents. *)
Theorem C162_step : forall n start step size, (2 <= size)%nat -> (forall i, (i < size)%nat -> 0 <= start + step * Z.of_nat i < Z.of_nat n) ->
  (forall (buf l : list Z), length buf = n -> elements (mk_view buf start step size) l -> data_read (mk_view buf start step size) = Ret l) <-> step = 1.
Proof.
  intros n start step size Hs Hr. split.
  - intros H. set (buf := map Z.of_nat (seq 0 n)). set (a := mk_view buf start step size). assert (Lb : length buf = n) by (unfold buf; rewrite map_length, seq_length; reflexivity).
    assert (Nb : forall i, (i < n)%nat -> nth_error buf i = Some (Z.of_nat i)) by (intros i Hi; unfold buf; rewrite nth_error_map, nth_error_seq_lt by exact Hi; reflexivity).
    set (l := map (fun i => start + step * Z.of_nat i) (seq 0 size)).
    assert (Nl : forall i, (i < size)%nat -> nth_error l i = Some (start + step * Z.of_nat i)) by (intros i Hi; unfold l; rewrite nth_error_map, nth_error_seq_lt by exact Hi; reflexivity).
    assert (El : elements a l).
    { split; [unfold l; rewrite map_length, seq_length; reflexivity|]. intros i Hi. cbn [a v_size v_start v_step v_buf] in *. exists (start + step * Z.of_nat i). split; [apply Nl, Hi|]. specialize (Hr i Hi). split; [lia|].
      rewrite Nb by lia. f_equal. lia. }
    specialize (H buf l Lb El). fold a in H. unfold data_read in H. apply pmap_inv in H as [_ H]. cbn [a v_size v_start v_buf] in H. destruct (H 1%nat 1%nat (nth_error_seq_lt size 1 ltac:(lia))) as (b & E1 & E2).
    rewrite Nl in E2 by lia. injection E2 as E2. unfold read_mem in E1. destruct (Z.ltb_spec (start + Z.of_nat 1) 0); [discriminate|]. destruct (nth_error buf (Z.to_nat (start + Z.of_nat 1))) as [x|] eqn:Ex; [|discriminate]. injection E1 as <-.
    assert (Lx : (Z.to_nat (start + Z.of_nat 1) < n)%nat) by (rewrite <- Lb; apply nth_error_Some; congruence). rewrite Nb in Ex by exact Lx. injection Ex as Ex. lia.
  - intros -> buf l _ El. apply C162_contiguous; [exact El|left; reflexivity].
Qed.
Print Assumptions C162_step.
(** [cells[::2]] is taken for the first half of the cells; [cells[::-1]] is read past the end of its memory. *)
Lemma read_firstn {A} (l : list A) : forall n k, (k + n <= length l)%nat -> pmap (fun i => read_mem l (0 + Z.of_nat i)) (seq k n) = Ret (firstn n (skipn k l)).
Proof.
  induction n as [|n IH]; intros k Hk; [reflexivity|]. cbn [seq pmap]. destruct (nth_error l k) as [x|] eqn:E; [|apply nth_error_None in E; lia].
  rewrite (read_at l (0 + Z.of_nat k) x) by (lia || (replace (Z.to_nat (0 + Z.of_nat k)) with k by lia; exact E)). cbn [bind]. rewrite IH by lia. cbn [bind]. f_equal.
  clear - E. revert k E. induction l as [|y l IHl]; intros [|k] E; cbn [nth_error skipn firstn] in *; try discriminate; [injection E as ->; reflexivity|]. apply IHl, E.
Qed.
Theorem C162_slices_refuted : (forall A (l : list A), data_read (every_other l) = Ret (firstn (Nat.div2 (S (length l))) l)) /\
  (exists l e r, elements (every_other l) e /\ data_read (every_other l) = Ret r /\ l = [10; 11; 12; 13; 14; 15] /\ e = [10; 12; 14] /\ r = [10; 11; 12]) /\
  (forall A (l : list A), (2 <= length l)%nat -> data_read (reversed l) = UB /\ elements (reversed l) (rev l)).
Proof.
  split; [|split].
  - intros A l. unfold data_read, every_other. cbn [v_size v_buf v_start]. apply (read_firstn l _ 0).
    assert (G : forall m, (Nat.div2 m <= m)%nat) by (intros [|m]; [reflexivity|]; assert (G := Nat.div2_decr (S m) m ltac:(lia)); lia).
    destruct (length l) as [|m]; [cbn; lia|]. cbn [Nat.div2]. specialize (G m). lia.
  - exists [10; 11; 12; 13; 14; 15], [10; 12; 14], [10; 11; 12]. split; [|repeat split; reflexivity]. split; [reflexivity|]. intros i Hi. cbn in Hi. destruct i as [|[|[|i]]]; [..|lia]; (eexists; split; [reflexivity|]; split; [cbn; lia|reflexivity]).
  - intros A l Hl. split.
    + unfold data_read, reversed. cbn [v_size v_buf v_start]. destruct (length l) as [|[|m]] eqn:E; try lia. cbn [seq pmap]. destruct (nth_error l (S m)) as [x|] eqn:Ex; [|apply nth_error_None in Ex; lia].
      rewrite (read_at l _ x) by (lia || (replace (Z.to_nat _) with (S m) by lia; exact Ex)). cbn [bind]. unfold read_mem at 1. destruct (Z.ltb_spec (Z.of_nat (S (S m)) - 1 + Z.of_nat 1) 0); [lia|].
      replace (nth_error l (Z.to_nat (Z.of_nat (S (S m)) - 1 + Z.of_nat 1))) with (@None A) by (symmetry; apply nth_error_None; lia). reflexivity.
    + split; [cbn [reversed v_size]; apply rev_length|]. intros i Hi. cbn [reversed v_size v_start v_step v_buf] in *. destruct (nth_error (rev l) i) as [x|] eqn:Ex; [|apply nth_error_None in Ex; rewrite rev_length in Ex; lia].
      exists x. split; [reflexivity|]. split; [lia|]. assert (Hx := nth_error_nth _ _ x Ex). rewrite rev_nth in Hx by exact Hi. rewrite <- Hx. replace (Z.to_nat (Z.of_nat (length l) - 1 + -1 * Z.of_nat i)) with (length l - S i)%nat by lia. apply nth_error_nth'. lia.
Qed.
Print Assumptions C162_slices_refuted.
(** The values and the gradients of a function at an array of points. *)
Theorem C162_eval : forall (f : list R -> R) (g : list R -> list R) dim points, (forall p, length (g p) = dim) ->
  length (bind_eval f points) = length points /\ length (bind_grad dim g points) = (length points * dim)%nat /\
  forall i p, nth_error points i = Some p -> nth_error (bind_eval f points) i = Some (f p) /\
    forall d, (d < dim)%nat -> nth_error (bind_grad dim g points) (i * dim + d) = nth_error (g p) d.
Proof.
  intros f g dim points Hg. split; [apply map_length|]. split.
  - unfold bind_grad. induction points as [|p points IH]; [reflexivity|]. cbn [flat_map]. rewrite app_length, IH, map_length, seq_length. reflexivity.
  - induction points as [|q points IH]; intros i p Hp; [destruct i; discriminate|]. unfold bind_grad. cbn [flat_map]. destruct i as [|i]; cbn [nth_error] in Hp.
    + injection Hp as <-. split; [reflexivity|]. intros d Hd. rewrite nth_error_app1 by (rewrite map_length, seq_length; lia). cbn [Nat.mul Nat.add]. rewrite nth_error_map, nth_error_seq_lt by exact Hd. cbn [option_map]. symmetry. apply nth_error_nth'. rewrite Hg. exact Hd.
    + destruct (IH i p Hp) as [E1 E2]. split; [exact E1|]. intros d Hd. rewrite nth_error_app2 by (rewrite map_length, seq_length; nia). rewrite map_length, seq_length. replace (S i * dim + d - dim)%nat with (i * dim + d)%nat by nia. apply E2, Hd.
Qed.
Print Assumptions C162_eval.

(** ** C163 *)
Definition node_obj (x : node) : option nat := match x with Owner o => Some o | Part o _ _ => Some o | Array (InObj o) _ => Some o | _ => None end.
Definition alive (s : state) (o : nat) : Prop := exists c, In (o, c) (objs s).
Record inv (s : state) : Prop := mk_inv {
  i_vars : forall n, In n (vars s) -> exists x, In (n, x) (nodes s);
  i_nodes : forall n x, In (n, x) (nodes s) -> (n < next s)%nat /\
    match x with
    | Owner o => alive s o
    | Part o p _ => (p < n)%nat /\ exists y, In (p, y) (nodes s) /\ node_obj y = Some o /\ y <> Array (InObj o) (parent_of y)
    | Array (InObj o) q => exists p y, q = Some p /\ (p < n)%nat /\ In (p, y) (nodes s) /\ node_obj y = Some o /\ y <> Array (InObj o) (parent_of y)
    | Array (Buffer b) _ => In b (bufs s)
    | Array Stack _ => False
    end;
  i_parts : forall o c o', In (o, c) (objs s) -> In o' (c_parts c) -> alive s o' }.
Lemma lookup_in {A} k : forall (l : list (nat * A)) x, lookup k l = Some x -> In (k, x) l.
Proof. induction l as [|[j y] l IH]; intros x H; [discriminate|]. cbn [lookup] in H. destruct (Nat.eqb_spec j k) as [->|]; [injection H as <-; left; reflexivity|right; apply IH, H]. Qed.
(** Every instance and array lives in an object that is owned by an instance. *)
Lemma inv_owner s : inv s -> forall ns, (forall e, In e ns -> In e (nodes s)) -> (forall n x p y, In (n, x) ns -> parent_of x = Some p -> In (p, y) (nodes s) -> In (p, y) ns) ->
  forall n x o, In (n, x) ns -> node_obj x = Some o -> exists m, In (m, Owner o) ns.
Proof.
  intros I ns Hs Hp. induction n as [n IH] using (well_founded_induction lt_wf). intros x o Hx Ho. destruct (i_nodes s I n x (Hs _ Hx)) as [_ H]. destruct x as [o'|o' p c|[o'|b|] q]; cbn [node_obj] in Ho; try discriminate; injection Ho as ->.
  - exists n. exact Hx.
  - destruct H as (L & y & Hy & Ey & _). exact (IH p L y o (Hp n _ p y Hx eq_refl Hy) Ey).
  - destruct H as (p & y & -> & L & Hy & Ey & _). exact (IH p L y o (Hp n _ p y Hx eq_refl Hy) Ey).
Qed.
Lemma inv_alive s : inv s -> forall n x o, In (n, x) (nodes s) -> node_obj x = Some o -> alive s o.
Proof. intros I n x o Hx Ho. destruct (inv_owner s I (nodes s) ltac:(auto) ltac:(auto) n x o Hx Ho) as (m & Hm). apply (i_nodes s I m _ Hm). Qed.

Lemma inv_add_obj s c : inv s -> (forall o, In o (c_parts c) -> alive s o) -> inv (add_obj s c) /\ alive (add_obj s c) (next s).
Proof.
  intros [V N P] Hc. assert (M : forall o, alive s o -> alive (add_obj s c) o) by (intros o (c' & H); exists c'; right; exact H).
  split; [|exists c; left; reflexivity]. constructor; cbn [add_obj objs bufs nodes vars next].
  - exact V.
  - intros n x Hx. destruct (N n x Hx) as [L H]. split; [lia|]. destruct x as [o|o p k|[o|b|] q]; try exact H. apply M, H.
  - intros o c' o' [E|Hin] Ho; [injection E as <- <-; apply M, Hc, Ho|apply M; eapply P; eassumption].
Qed.
Lemma inv_add_buf s : inv s -> inv (add_buf s) /\ In (next s) (bufs (add_buf s)).
Proof.
  intros [V N P]. split; [|left; reflexivity]. constructor; cbn [add_buf objs bufs nodes vars next]; [exact V| |exact P].
  intros n x Hx. destruct (N n x Hx) as [L H]. split; [lia|]. destruct x as [o|o p k|[o|b|] q]; try exact H. right. exact H.
Qed.
Lemma inv_add_node s x : inv s ->
  match x with
  | Owner o => alive s o
  | Part o p _ => exists y, In (p, y) (nodes s) /\ node_obj y = Some o /\ y <> Array (InObj o) (parent_of y)
  | Array (InObj o) q => exists p y, q = Some p /\ In (p, y) (nodes s) /\ node_obj y = Some o /\ y <> Array (InObj o) (parent_of y)
  | Array (Buffer b) _ => In b (bufs s)
  | Array Stack _ => False
  end -> inv (add_node s x).
Proof.
  intros [V N P] Hx. constructor; cbn [add_node objs bufs nodes vars next]; [| |exact P].
  - intros n [<-|Hn]; [exists x; left; reflexivity|]. destruct (V n Hn) as (y & Hy). exists y. right. exact Hy.
  - intros n y [E|Hy].
    + injection E as <- <-. split; [lia|]. destruct x as [o|o p k|[o|b|] q]; try exact Hx.
      * destruct Hx as (y & Hy & R). split; [apply (N p y Hy)|]. exists y. split; [right; exact Hy|exact R].
      * destruct Hx as (p & y & E & Hy & R). exists p, y. split; [exact E|]. split; [apply (N p y Hy)|]. split; [right; exact Hy|exact R].
    + destruct (N n y Hy) as [L H]. split; [lia|]. destruct y as [o|o p k|[o|b|] q]; try exact H.
      * destruct H as (Lp & z & Hz & R). split; [exact Lp|]. exists z. split; [right; exact Hz|exact R].
      * destruct H as (p & z & E & Lp & Hz & R). exists p, z. split; [exact E|]. split; [exact Lp|]. split; [right; exact Hz|exact R].
Qed.
Lemma instance_node s n o c : instance s n = Some (o, c) -> exists y, In (n, y) (nodes s) /\ node_obj y = Some o /\ y <> Array (InObj o) (parent_of y).
Proof.
  unfold instance. intros H. destruct (lookup n (nodes s)) as [[o'|o' p c'|m q]|] eqn:E; try discriminate; apply lookup_in in E.
  - destruct (lookup o' (objs s)); [|discriminate]. injection H as <- _. exists (Owner o'). split; [exact E|]. split; [reflexivity|discriminate].
  - injection H as <- _. exists (Part o' p c'). split; [exact E|]. split; [reflexivity|discriminate].
Qed.
Lemma take_alive s : inv s -> forall l args parts, take_args s l args = Some parts -> forall o, In o parts -> alive s o.
Proof.
  intros I. induction l as [|[c k] l IH]; intros [|n args] parts H o Ho; cbn [take_args] in H; try discriminate; [injection H as <-; destruct Ho|].
  destruct (instance s n) as [[o' c']|] eqn:E; [|discriminate]. destruct (class_eqb c c'); [|discriminate]. destruct (take_args s l args) as [r|] eqn:Er; [|discriminate]. injection H as <-.
  assert (A : alive s o') by (destruct (instance_node s n o' c' E) as (y & Hy & Ho' & _); exact (inv_alive s I n y o' Hy Ho')).
  destruct k; [destruct Ho as [<-|Ho]; [exact A|]|]; exact (IH args r Er o Ho).
Qed.
Definition no_mid_point (c : class) (a : attr) : Prop := ~ (c = BoundBox /\ a = a_mid_point).
Lemma not_temp c a : no_mid_point c a -> returns c a <> Some KTemp.
Proof. intros H E. destruct c, a; try discriminate. apply H. split; reflexivity. Qed.
Lemma step_inv s s' : inv s -> step no_mid_point s s' -> inv s'.
Proof.
  intros I H. destruct H as [f args s' Ha H|n a s' o c Hn Hi Ok H|n Hn|vs Hv|s' H].
  - unfold make in H. destruct (take_args s (f_args f) args) as [parts|] eqn:E; [|discriminate]. injection H as <-. destruct (inv_add_obj s (mk_cobj (f_class f) parts) I (take_alive s I _ _ _ E)) as [I' A]. apply inv_add_node; assumption.
  - unfold call in H. rewrite Hi in H. destruct (instance_node s n o c Hi) as (y & Hy & Ey & Ny). assert (A := inv_alive s I n y o Hy Ey). assert (T := not_temp c a Ok).
    destruct (returns c a) as [[| | |c'|i c'|c']|] eqn:Er; try discriminate.
    + injection H as <-. apply inv_add_node; [exact I|]. exists n, y. auto.
    + injection H as <-. destruct (inv_add_buf s I) as [I' B]. apply inv_add_node; assumption.
    + contradiction.
    + injection H as <-. apply inv_add_node; [exact I|]. exists y. auto.
    + destruct (lookup o (objs s)) as [co|] eqn:El; [|discriminate]. apply lookup_in in El. destruct (nth_error (c_parts co) i) as [o'|] eqn:Ei; [|discriminate]. injection H as <-.
      apply inv_add_node; [exact I|]. apply nth_error_In in Ei. exact (i_parts s I o co o' El Ei).
    + injection H as <-. destruct (inv_add_obj s (mk_cobj c' []) I) as [I' B]; [intros ? []|]. apply inv_add_node; assumption.
  - destruct I as [V N P]. constructor; cbn [objs bufs nodes vars next]; [|exact N|exact P]. intros m [<-|Hm]; [apply V, Hn|apply V, Hm].
  - destruct I as [V N P]. constructor; cbn [objs bufs nodes vars next]; [|exact N|exact P]. intros m Hm. apply V, Hv, Hm.
  - destruct H as [ns os bs Hs Hv Hp Ho Hb].
    assert (A : forall o, held ns (objs s) o -> alive s o).
    { intros o H. induction H as [n o H|o c o' H IH H1 H2]; [exact (inv_alive s I n (Owner o) o (Hs _ H) eq_refl)|exact (i_parts s I o c o' H1 H2)]. }
    assert (A2 : forall o, held ns (objs s) o -> exists c, In (o, c) os) by (intros o H; destruct (A o H) as (c & Hc); exists c; apply Ho; auto).
    assert (O := inv_owner s I ns Hs Hp). constructor; cbn [objs bufs nodes vars next].
    + intros n Hn. destruct (i_vars s I n Hn) as (x & Hx). exists x. apply (Hv n x Hn Hx).
    + intros n x Hx. destruct (i_nodes s I n x (Hs _ Hx)) as [L H]. split; [exact L|]. destruct x as [o|o p k|[o|b|] q].
      * apply A2. eapply held_inst. exact Hx.
      * destruct H as (Lp & y & Hy & R). split; [exact Lp|]. exists y. split; [exact (Hp n _ p y Hx eq_refl Hy)|exact R].
      * destruct H as (p & y & -> & Lp & Hy & R). exists p, y. split; [reflexivity|]. split; [exact Lp|]. split; [exact (Hp n _ p y Hx eq_refl Hy)|exact R].
      * apply Hb. split; [exact H|]. exists n, q. exact Hx.
      * exact H.
    + intros o c o' H1 H2. apply Ho in H1 as [H1 H3]. apply A2. eapply held_part; eassumption.
Qed.
Lemma history_inv s : history no_mid_point s -> inv s.
Proof. induction 1 as [|s s' H IH Hs]; [constructor; cbn; intros; contradiction|eapply step_inv; eassumption]. Qed.

(** Whatever a program does (without BoundBox.mid_point), every object and array it holds can be read. *)
Theorem C163_readable : forall s, history no_mid_point s -> forall n, In n (vars s) -> readable s n.
Proof.
  intros s H n Hn. assert (I := history_inv s H). destruct (i_vars s I n Hn) as (x & Hx). exists x. split; [exact Hx|]. assert (A := inv_alive s I n x). destruct (i_nodes s I n x Hx) as [_ N].
  destruct x as [o|o p c|[o|b|] q]; try exact N; apply A; auto.
Qed.
Print Assumptions C163_readable.
(** The grid and the function of a domain are the ones it was made with; every domain that a program holds has them. *)
Definition uniq (l : list (nat * cobj)) : Prop := forall o c, In (o, c) l -> lookup o l = Some c.
Definition domain_ok (s : state) : Prop := forall o c, In (o, c) (objs s) -> c_class c = Domain ->
  exists g f cg cf, c_parts c = [g; f] /\ In (g, cg) (objs s) /\ c_class cg = CartGrid /\ In (f, cf) (objs s) /\ c_class cf = Func.
Record inv2 (s : state) : Prop := mk_inv2 { j_keys : forall o c, In (o, c) (objs s) -> (o < next s)%nat; j_uniq : uniq (objs s); j_dom : domain_ok s;
  j_part : forall n o p c, In (n, Part o p c) (nodes s) -> c = BoundBox }.
Lemma class_eqb_eq a b : class_eqb a b = true -> a = b.
Proof. destruct a, b; (reflexivity || discriminate). Qed.
Lemma inv2_add_obj s c : inv2 s -> domain_ok (add_obj s c) -> inv2 (add_obj s c).
Proof.
  intros [K U D Q] D'. constructor; cbn [add_obj objs bufs nodes vars next]; [| |exact D'|exact Q].
  - intros o c' [E|H]; [injection E as <- _; lia|assert (G := K o c' H); lia].
  - intros o c' [E|H]; cbn [lookup]; [injection E as <- <-; rewrite Nat.eqb_refl; reflexivity|]. assert (G := K o c' H). destruct (Nat.eqb_spec (next s) o); [lia|]. apply U, H.
Qed.
Lemma inv2_nodes s x : inv2 s -> (forall o p c, x = Part o p c -> c = BoundBox) -> inv2 (add_node s x).
Proof.
  intros [K U D Q] Hx. constructor; cbn [add_node objs bufs nodes vars next]; [intros o c H; specialize (K o c H); lia|exact U|exact D|].
  intros n o p c [E|H]; [injection E as _ E; eapply Hx; exact E|eapply Q; exact H].
Qed.
Lemma dom_other s c : domain_ok s -> c_class c <> Domain -> domain_ok (add_obj s c).
Proof.
  intros D N o c' [E|H] Hc; [injection E as <- <-; contradiction|]. destruct (D o c' H Hc) as (g & f & cg & cf & E & H1 & H2 & H3 & H4). exists g, f, cg, cf.
  split; [exact E|]. split; [right; exact H1|]. split; [exact H2|]. split; [right; exact H3|exact H4].
Qed.
Lemma instance_obj s n o c : inv2 s -> instance s n = Some (o, c) -> c <> BoundBox -> exists co, In (o, co) (objs s) /\ c_class co = c.
Proof.
  intros I H N. unfold instance in H. destruct (lookup n (nodes s)) as [[o'|o' p c'|m q]|] eqn:E; try discriminate; apply lookup_in in E.
  - destruct (lookup o' (objs s)) as [co|] eqn:E2; [|discriminate]. injection H as <- <-. apply lookup_in in E2. exists co. auto.
  - injection H as <- <-. apply (j_part s I) in E. contradiction.
Qed.
Lemma domain_parts s args parts : take_args s (f_args f_domain) args = Some parts -> exists n m g f, args = [n; m] /\ parts = [g; f] /\ instance s n = Some (g, CartGrid) /\ instance s m = Some (f, Func).
Proof.
  cbn [f_args]. destruct args as [|n [|m [|k args]]]; cbn [take_args]; try discriminate; intros H.
  - destruct (instance s n) as [[g cg]|] eqn:E1; [|discriminate]. destruct (class_eqb CartGrid cg) eqn:C1; [|discriminate]. discriminate.
  - destruct (instance s n) as [[g cg]|] eqn:E1; [|discriminate]. destruct (class_eqb CartGrid cg) eqn:C1; [|discriminate]. destruct (instance s m) as [[f cf]|] eqn:E2; [|discriminate]. destruct (class_eqb Func cf) eqn:C2; [|discriminate]. injection H as <-.
    apply class_eqb_eq in C1, C2. subst. exists n, m, g, f. auto.
  - destruct (instance s n) as [[g cg]|] eqn:E1; [|discriminate]. destruct (class_eqb CartGrid cg) eqn:C1; [|discriminate]. destruct (instance s m) as [[f cf]|] eqn:E2; [|discriminate]. destruct (class_eqb Func cf) eqn:C2; discriminate.
Qed.
Lemma step_inv2 ok s s' : inv2 s -> inv s -> step ok s s' -> inv2 s'.
Proof.
  intros I I0 H. destruct H as [f args s' Ha H|n a s' o c Hn Hi Ok H|n Hn|vs Hv|s' H].
  - unfold make in H. destruct (take_args s (f_args f) args) as [parts|] eqn:E; [|discriminate]. injection H as <-. apply inv2_nodes; [|discriminate]. apply inv2_add_obj; [exact I|].
    destruct (f_class f) eqn:Ec; try (apply dom_other; [apply (j_dom s I)|cbn [c_class]; discriminate]). destruct f; try discriminate. apply domain_parts in E as (n & m & g & f & -> & -> & E1 & E2).
    intros o c' [E|H] Hc.
    + injection E as <- <-. destruct (instance_obj s n g CartGrid I E1 ltac:(discriminate)) as (cg & H1 & H2). destruct (instance_obj s m f Func I E2 ltac:(discriminate)) as (cf & H3 & H4).
      exists g, f, cg, cf. split; [reflexivity|]. split; [right; exact H1|]. split; [exact H2|]. split; [right; exact H3|exact H4].
    + destruct (j_dom s I o c' H Hc) as (g' & f' & cg & cf & E & H1 & H2 & H3 & H4). exists g', f', cg, cf. split; [exact E|]. split; [right; exact H1|]. split; [exact H2|]. split; [right; exact H3|exact H4].
  - unfold call in H. rewrite Hi in H. destruct (returns c a) as [[| | |c'|i c'|c']|] eqn:Er; try discriminate.
    + injection H as <-. apply inv2_nodes; [exact I|discriminate].
    + injection H as <-. apply inv2_nodes; [|discriminate]. destruct I as [K U D Q]. constructor; cbn [add_buf objs bufs nodes vars next]; [intros ? ? G; specialize (K _ _ G); lia|exact U|exact D|exact Q].
    + injection H as <-. apply inv2_nodes; [exact I|discriminate].
    + injection H as <-. apply inv2_nodes; [exact I|]. intros o' p c'' E. injection E as _ _ <-. destruct c, a; try discriminate. injection Er as <-. reflexivity.
    + destruct (lookup o (objs s)) as [co|]; [|discriminate]. destruct (nth_error (c_parts co) i); [|discriminate]. injection H as <-. apply inv2_nodes; [exact I|discriminate].
    + injection H as <-. apply inv2_nodes; [|discriminate]. apply inv2_add_obj; [exact I|]. apply dom_other; [apply (j_dom s I)|]. destruct c, a; try discriminate; injection Er as <-; cbn [c_class]; discriminate.
  - destruct I as [K U D Q]. constructor; assumption.
  - destruct I as [K U D Q]. constructor; assumption.
  - destruct H as [ns os bs Hs Hv Hp Ho Hb]. destruct I as [K U D Q]. constructor; cbn [objs bufs nodes vars next].
    + intros o c H. apply Ho in H. apply (K o c), H.
    + intros o c H. destruct (lookup o os) as [c'|] eqn:E.
      * assert (H' := lookup_in _ _ _ E). apply Ho in H, H'. destruct H as [H _], H' as [H' _]. apply U in H, H'. congruence.
      * exfalso. clear - H E. induction os as [|[k x] os IH]; [exact H|]. cbn [lookup] in E. destruct (Nat.eqb_spec k o) as [->|N]; [discriminate|]. destruct H as [E2|H]; [congruence|apply IH; assumption].
    + intros o c H Hc. apply Ho in H as [H Hh]. destruct (D o c H Hc) as (g & f & cg & cf & E & H1 & H2 & H3 & H4). exists g, f, cg, cf. split; [exact E|].
      split; [apply Ho; split; [exact H1|eapply held_part; [exact Hh|exact H|rewrite E; left; reflexivity]]|]. split; [exact H2|]. split; [|exact H4]. apply Ho. split; [exact H3|eapply held_part; [exact Hh|exact H|rewrite E; right; left; reflexivity]].
    + intros n o p c H. apply Hs in H. eapply Q. exact H.
Qed.
Lemma history_inv2 s : history no_mid_point s -> inv2 s.
Proof. induction 1 as [|s s' H IH Hs]; [constructor; cbn; try (intros; contradiction); intros ? ? []|eapply step_inv2; [exact IH|apply history_inv; exact H|exact Hs]]. Qed.
Lemma owner_instance s x o co : inv2 s -> In (o, co) (objs s) -> lookup x (nodes s) = Some (Owner o) -> instance s x = Some (o, c_class co).
Proof. intros I H E. unfold instance. rewrite E, (j_uniq s I o co H). reflexivity. Qed.
Theorem C163_domain : forall s, history no_mid_point s -> forall n o, In n (vars s) -> instance s n = Some (o, Domain) ->
  exists s1 s2 g f, call n a_grid s = Some s1 /\ instance s1 (next s) = Some (g, CartGrid) /\ call n a_impl_func s = Some s2 /\ instance s2 (next s) = Some (f, Func).
Proof.
  intros s H n o Hn E. assert (I := history_inv2 s H). destruct (instance_obj s n o Domain I E ltac:(discriminate)) as (co & Hco & Ec). destruct (j_dom s I o co Hco Ec) as (g & f & cg & cf & Ep & H1 & H2 & H3 & H4).
  assert (El := j_uniq s I o co Hco). exists (add_node s (Owner g)), (add_node s (Owner f)), g, f. unfold call. rewrite E. cbn [returns]. rewrite El, Ep. cbn [nth_error].
  assert (L : forall x, lookup (next s) (nodes (add_node s (Owner x))) = Some (Owner x)) by (intros x; cbn [add_node nodes lookup]; rewrite Nat.eqb_refl; reflexivity).
  split; [reflexivity|]. split; [rewrite <- H2; apply (owner_instance (add_node s (Owner g)) (next s) g cg); [apply inv2_nodes; [exact I|discriminate]|exact H1|apply L]|].
  split; [reflexivity|]. rewrite <- H4. apply (owner_instance (add_node s (Owner f)) (next s) f cf); [apply inv2_nodes; [exact I|discriminate]|exact H3|apply L].
Qed.
Print Assumptions C163_domain.
Theorem C163_domain_made : forall s n m s1, history no_mid_point s -> make f_domain [n; m] s = Some s1 -> exists g f d s2 s3,
  instance s n = Some (g, CartGrid) /\ instance s m = Some (f, Func) /\ vars s1 = d :: vars s /\ instance s1 d = Some (next s, Domain) /\
  call d a_grid s1 = Some s2 /\ instance s2 (next s1) = Some (g, CartGrid) /\ call d a_impl_func s1 = Some s3 /\ instance s3 (next s1) = Some (f, Func).
Proof.
  intros s n m s1 H E. assert (I := history_inv2 s H). unfold make in E. destruct (take_args s (f_args f_domain) [n; m]) as [parts|] eqn:Ea; [|discriminate]. injection E as <-.
  apply domain_parts in Ea as (n' & m' & g & f & En & -> & E1 & E2). injection En as <- <-.
  destruct (instance_obj s n g CartGrid I E1 ltac:(discriminate)) as (cg & H1 & H2). destruct (instance_obj s m f Func I E2 ltac:(discriminate)) as (cf & H3 & H4).
  set (c := mk_cobj Domain [g; f]). set (s1 := add_node (add_obj s c) (Owner (next s))).
  assert (E0 : instance s1 (S (next s)) = Some (next s, Domain)) by (unfold instance, s1; cbn [add_node add_obj nodes objs next lookup]; rewrite !Nat.eqb_refl; reflexivity).
  assert (Lo : lookup (next s) (objs s1) = Some c) by (unfold s1; cbn [add_node add_obj objs lookup]; rewrite Nat.eqb_refl; reflexivity).
  assert (K : forall x cx, In (x, cx) (objs s) -> forall st, objs st = objs s1 -> lookup (next s1) (nodes st) = Some (Owner x) -> instance st (next s1) = Some (x, c_class cx)).
  { intros x cx Hx st Es El. unfold instance. rewrite El, Es. unfold s1. cbn [add_node add_obj objs lookup]. assert (G := j_keys s I x cx Hx). destruct (Nat.eqb_spec (next s) x); [lia|]. rewrite (j_uniq s I x cx Hx). reflexivity. }
  exists g, f, (S (next s)), (add_node s1 (Owner g)), (add_node s1 (Owner f)). split; [exact E1|]. split; [exact E2|]. split; [reflexivity|]. split; [exact E0|]. unfold call. rewrite E0. cbn [returns]. rewrite Lo. cbn [c c_parts nth_error].
  split; [reflexivity|]. split; [rewrite <- H2; apply (K g cg H1); [reflexivity|cbn [add_node nodes lookup]; rewrite Nat.eqb_refl; reflexivity]|].
  split; [reflexivity|]. rewrite <- H4. apply (K f cf H3); [reflexivity|cbn [add_node nodes lookup]; rewrite Nat.eqb_refl; reflexivity].
Qed.
Print Assumptions C163_domain_made.
(** When the program has forgotten everything and everything without references is deleted, no memory remains. *)
Theorem C163_no_leak : forall ok s s', history ok s -> collect s s' -> nodes s' = [] -> objs s' = [] /\ bufs s' = [].
Proof.
  intros ok s s' _ H E. destruct H as [ns os bs Hs Hv Hp Ho Hb]. cbn [nodes objs bufs] in *. subst ns. split.
  - destruct os as [|[o c] os]; [reflexivity|]. destruct (proj1 (Ho o c) (or_introl eq_refl)) as [_ G]. exfalso. clear - G. induction G as [n o []|]; assumption.
  - destruct bs as [|b bs]; [reflexivity|]. destruct (proj1 (Hb b) (or_introl eq_refl)) as [_ (n & p & [])].
Qed.
Print Assumptions C163_no_leak.
(** The array of BoundBox.mid_point refers to a temporary: two lines suffice. *)
Theorem C163_mid_point_refuted : exists s n, history (fun _ _ => True) s /\ In n (vars s) /\ ~ readable s n.
Proof.
  destruct (make f_bound_box [] start) as [s1|] eqn:E1; [|discriminate]. assert (H1 : history (fun _ _ => True) s1) by (eapply hist_step; [apply hist_start|eapply step_make; [|exact E1]; intros ? []]).
  cbn in E1. injection E1 as <-. eexists _, 2%nat. split; [|split].
  - eapply hist_step; [exact H1|]. eapply (step_call _ _ 1%nat a_mid_point); [left; reflexivity|reflexivity|exact I|reflexivity].
  - left. reflexivity.
  - intros (x & Hx & R). cbn in Hx. destruct Hx as [E|[E|[]]]; [injection E as <-; exact R|discriminate].
Qed.
Print Assumptions C163_mid_point_refuted.

(** A program: a box, a grid made with it, the domain of the grid and its lower corner; then only the corner is kept.  The memory of the grid stays, the box and its
    memory go. *)
Example ex_history : exists s c, history no_mid_point s /\ vars s = [5%nat] /\ objs s = [(2%nat, c)] /\ c_class c = CartGrid /\ nodes s = [(5%nat, Array (InObj 2) (Some 4%nat)); (4%nat, Part 2 3 BoundBox); (3%nat, Owner 2)].
Proof.
  assert (OK : forall c a, a <> a_mid_point -> no_mid_point c a) by (intros c a H [_ E]; contradiction).
  set (s1 := mk_state [(0%nat, mk_cobj BoundBox [])] [] [(1%nat, Owner 0)] [1%nat] 2).
  assert (H1 : history no_mid_point s1) by (eapply hist_step; [apply hist_start|apply (step_make _ _ f_bound_box []); [intros ? []|reflexivity]]).
  set (s2 := mk_state [(2%nat, mk_cobj CartGrid []); (0%nat, mk_cobj BoundBox [])] [] [(3%nat, Owner 2); (1%nat, Owner 0)] [3%nat; 1%nat] 4).
  assert (H2 : history no_mid_point s2) by (eapply hist_step; [exact H1|apply (step_make _ _ f_cart_grid [1%nat]); [intros ? [<-|[]]; left; reflexivity|reflexivity]]).
  set (s3 := mk_state (objs s2) [] ((4%nat, Part 2 3 BoundBox) :: nodes s2) [4%nat; 3%nat; 1%nat] 5).
  assert (H3 : history no_mid_point s3) by (eapply hist_step; [exact H2|apply (step_call _ _ 3%nat a_domain _ 2%nat CartGrid); [left; reflexivity|reflexivity|apply OK; discriminate|reflexivity]]).
  set (s4 := mk_state (objs s2) [] ((5%nat, Array (InObj 2) (Some 4%nat)) :: nodes s3) [5%nat; 4%nat; 3%nat; 1%nat] 6).
  assert (H4 : history no_mid_point s4) by (eapply hist_step; [exact H3|apply (step_call _ _ 4%nat a_min_corner _ 2%nat BoundBox); [left; reflexivity|reflexivity|apply OK; discriminate|reflexivity]]).
  set (s5 := mk_state (objs s4) (bufs s4) (nodes s4) [5%nat] (next s4)).
  assert (H5 : history no_mid_point s5) by (eapply hist_step; [exact H4|apply (step_forget _ s4 [5%nat]); intros ? [<-|[]]; left; reflexivity]).
  exists (mk_state [(2%nat, mk_cobj CartGrid [])] [] [(5%nat, Array (InObj 2) (Some 4%nat)); (4%nat, Part 2 3 BoundBox); (3%nat, Owner 2)] [5%nat] 6), (mk_cobj CartGrid []).
  split; [|repeat split; reflexivity]. eapply hist_step; [exact H5|]. apply step_collect. set (ns := [(5%nat, Array (InObj 2) (Some 4%nat)); (4%nat, Part 2 3 BoundBox); (3%nat, Owner 2)]).
  assert (Hh : forall o, held ns (objs s5) o <-> o = 2%nat).
  { intros o. split; [intros H|intros ->; apply (held_inst _ _ 3%nat); right; right; left; reflexivity]. induction H as [n o H|o c o' H IH H1' H2'].
    - destruct H as [E|[E|[E|[]]]]; try discriminate. injection E as _ <-. reflexivity.
    - cbn in H1'. destruct H1' as [E|[E|[]]]; injection E as _ <-; destruct H2'. }
  apply (collected s5 ns [(2%nat, mk_cobj CartGrid [])] []).
  - intros e [<-|[<-|[<-|[]]]]; cbn; auto.
  - intros n x [<-|[]] H. cbn in H. destruct H as [E|[E|[E|[E|[]]]]]; try discriminate. injection E as <-. left. reflexivity.
  - intros n x p y H E Hy. cbn in H, Hy. destruct H as [H|[H|[H|[]]]]; injection H as _ <-; cbn in E; try discriminate; injection E as <-; destruct Hy as [E|[E|[E|[E|[]]]]]; try discriminate; injection E as <-; cbn; auto.
  - intros o c. split.
    + intros [E|[]]. injection E as <- <-. split; [left; reflexivity|apply Hh; reflexivity].
    + intros [H1' H2']. apply Hh in H2'. subst o. cbn in H1'. destruct H1' as [E|[E|[]]]; [left; exact E|discriminate].
  - intros b. split; [intros []|intros [[] _]].
Qed.
(** [cells] of five elements, every element: the hypotheses of C162. *)
Example ex_elements : elements (whole [3; 1; 4; 1; 5]) [3; 1; 4; 1; 5] /\ v_step (whole [3; 1; 4; 1; 5]) = 1.
Proof. split; [apply elements_whole|reflexivity]. Qed.
