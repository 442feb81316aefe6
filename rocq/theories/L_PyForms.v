(** Lemmas on forms. *)
From Verif Require Import M_PyBase M_PyForms S_PyForms.
Local Open Scope Z_scope.

Definition ev (g : integral) : bool := itype_eqb (g_type g) Exterior && is_everywhere (g_sid g).
Lemma itype_eqb_ok a b : itype_eqb a b = true <-> a = b.
Proof. destruct a, b; cbn; split; congruence. Qed.
Lemma get_set_same h r x : (r < length h)%nat -> get_itg (set_itg h r x) r = x.
Proof. intros H. unfold get_itg, set_itg. rewrite app_nth2; rewrite firstn_length_le by lia; [|lia]. replace (r - r)%nat with 0%nat by lia. reflexivity. Qed.
Lemma set_len h r x : (r < length h)%nat -> length (set_itg h r x) = length h.
Proof. intros H. unfold set_itg. rewrite app_length, firstn_length_le by lia. cbn [length]. rewrite (skipn_length (S r) h). lia. Qed.
Lemma nth_firstn_f {A} (d : A) n : forall l k, (k < n)%nat -> nth k (firstn n l) d = nth k l d.
Proof. induction n; intros [|x l] [|k] H; cbn; try lia; auto. apply IHn. lia. Qed.
Lemma nth_skipn_f {A} (d : A) n : forall l k, nth k (skipn n l) d = nth (n + k) l d.
Proof. induction n; intros [|x l] k; cbn; auto. destruct k; auto. Qed.
Lemma get_set_other h r x r' : (r < length h)%nat -> r' <> r -> get_itg (set_itg h r x) r' = get_itg h r'.
Proof.
  intros H N. unfold get_itg, set_itg. destruct (Nat.lt_ge_cases r' r).
  - rewrite app_nth1 by (rewrite firstn_length_le; lia). apply nth_firstn_f. auto.
  - rewrite app_nth2; rewrite firstn_length_le by lia; [|lia]. destruct (r' - r)%nat as [|k] eqn:E; [lia|]. cbn [nth]. rewrite nth_skipn_f. f_equal. lia.
Qed.
Lemma get_app h x r : (r < length h)%nat -> get_itg (h ++ [x]) r = get_itg h r.
Proof. intros H. unfold get_itg. apply app_nth1. auto. Qed.
Lemma get_last h x : get_itg (h ++ [x]) (length h) = x.
Proof. unfold get_itg. rewrite app_nth2 by lia. rewrite Nat.sub_diag. reflexivity. Qed.

Lemma fold_max_ge h form : forall m, m <= fold_left (fun m r => let g := get_itg h r in match g_type g, g_sid g with Exterior, Id n => Z.max m n | _, _ => m end) form m.
Proof. induction form as [|r form IH]; intros m; cbn [fold_left]; [lia|]. cbn zeta. etransitivity; [|apply IH]. destruct (g_type (get_itg h r)), (g_sid (get_itg h r)); lia. Qed.
Lemma fold_max_in h form r n : In r form -> g_type (get_itg h r) = Exterior -> g_sid (get_itg h r) = Id n ->
  forall m, n <= fold_left (fun m r => let g := get_itg h r in match g_type g, g_sid g with Exterior, Id n => Z.max m n | _, _ => m end) form m.
Proof.
  induction form as [|r' form IH]; intros I T S m; [destruct I|]. cbn [fold_left]. cbn zeta. destruct I as [->|I]; [|apply IH; auto].
  rewrite T, S. etransitivity; [|apply fold_max_ge]. lia.
Qed.
Lemma new_id_gt h form r n : In r form -> g_type (get_itg h r) = Exterior -> g_sid (get_itg h r) = Id n -> n < new_id h form.
Proof. intros I T S. pose proof (fold_max_in h form r n I T S (-1)) as Q. unfold new_id. apply Z.lt_succ_r in Q. rewrite Z.add_comm. exact Q. Qed.

(** The integrals after the modification. *)
Definition modified (h h1 : heap) (r : nat) (m : Z) : Prop :=
  get_itg h1 r = {| g_fun := g_fun (get_itg h r); g_type := g_type (get_itg h r); g_sid := Id m; g_data := None; g_mark := true |}.
Definition restored (g : integral) : integral :=
  if ev g then {| g_fun := g_fun g; g_type := g_type g; g_sid := g_sid g; g_data := Some (Misplaced (g_sid g)); g_mark := g_mark g |} else g.
Lemma modify_ok form : forall todo h, NoDup todo -> incl todo form -> (forall r, In r form -> (r < length h)%nat) ->
  let h1 := fst (modify form h todo) in
  (length h <= length h1)%nat
  /\ (forall r, (r < length h)%nat -> ~ In r todo \/ ev (get_itg h r) = false -> get_itg h1 r = get_itg h r)
  /\ (exists ids : nat -> Z, (forall r, In r todo -> ev (get_itg h r) = true -> modified h h1 r (ids r) /\ new_id h form <= ids r)
       /\ forall r r', In r todo -> In r' todo -> ev (get_itg h r) = true -> ev (get_itg h r') = true -> ids r = ids r' -> r = r')
  /\ map (get_itg h1) (snd (modify form h todo)) = map (fun r => restored (get_itg h r)) todo
  /\ (forall r, In r (snd (modify form h todo)) -> (r < length h1)%nat).
Proof.
  induction todo as [|r todo IH]; intros h ND I B; cbn [modify].
  - cbn. split; [lia|]. split; [auto|]. split; [exists (fun _ => 0); split; intros; contradiction|]. split; [reflexivity|intros r []].
  - inversion ND as [|? ? Nr ND']; subst. assert (Ir : In r form) by (apply I; cbn; auto). assert (I' : incl todo form) by (intros x Hx; apply I; cbn; auto). pose proof (B r Ir) as Br.
    cbn zeta. fold (ev (get_itg h r)). destruct (ev (get_itg h r)) eqn:E.
    + set (g := get_itg h r) in *. set (copy := {| g_fun := g_fun g; g_type := g_type g; g_sid := g_sid g; g_data := Some (Misplaced (g_sid g)); g_mark := g_mark g |}).
      set (md := {| g_fun := g_fun g; g_type := g_type g; g_sid := Id (new_id h form); g_data := None; g_mark := true |}). set (h' := set_itg h r md ++ [copy]).
      assert (L' : length h' = S (length h)) by (unfold h'; rewrite app_length, set_len by auto; cbn; lia).
      destruct (IH h' ND' I' ltac:(intros x Hx; rewrite L'; specialize (B x Hx); lia)) as (L1 & Same & (ids & Ids & Inj) & Old & Bd). cbn [fst snd].
      assert (Gr : get_itg h' r = md) by (unfold h'; rewrite get_app by (rewrite set_len; auto); apply get_set_same; auto).
      assert (Go : forall x, (x < length h)%nat -> x <> r -> get_itg h' x = get_itg h x) by (intros x Hx Nx; unfold h'; rewrite get_app by (rewrite set_len; auto); apply get_set_other; auto).
      assert (Gc : get_itg h' (length h) = copy) by (unfold h'; rewrite <- (set_len h r md) by auto; apply get_last).
      assert (Tm : g_type g = Exterior) by (unfold ev in E; apply andb_true_iff in E; apply itype_eqb_ok, E).
      assert (Hm : new_id h form < new_id h' form) by (apply (new_id_gt h' form r); auto; rewrite Gr; auto).
      split; [lia|]. split; [|split; [|split]].
      * intros x Hx [Nx|Ex].
        -- rewrite Same; [apply Go; auto; intros ->; apply Nx; cbn; auto|lia|left; intros H; apply Nx; cbn; auto].
        -- assert (x <> r) by (intros ->; fold g in Ex; congruence). rewrite Same; [apply Go; auto|lia|right; rewrite Go; auto].
      * exists (fun x => if Nat.eq_dec x r then new_id h form else ids x). split.
        -- intros x [<-|Hx] Ex; destruct (Nat.eq_dec _ _) as [e|n]; try congruence.
           ++ split; [|lia]. unfold modified. fold g. rewrite Same; [exact Gr|lia|left; auto].
           ++ assert (Bx : (x < length h)%nat) by (apply B, I'; auto). destruct (Ids x Hx) as (M & G); [rewrite Go; auto|]. unfold modified in *. rewrite (Go x) in M by auto. split; [auto|lia].
        -- intros x x' Hx Hx' Ex Ex'. destruct (Nat.eq_dec x r) as [e|n], (Nat.eq_dec x' r) as [e'|n']; intros Q; try congruence.
           ++ exfalso. destruct Hx' as [<-|Hx']; [congruence|]. destruct (Ids x' Hx') as (_ & G); [rewrite Go; auto|]. lia.
           ++ exfalso. destruct Hx as [<-|Hx]; [congruence|]. destruct (Ids x Hx) as (_ & G); [rewrite Go; auto|]. lia.
           ++ destruct Hx as [<-|Hx]; [congruence|]. destruct Hx' as [<-|Hx']; [congruence|]. apply Inj; auto; rewrite Go; auto.
      * cbn [map]. f_equal.
        -- unfold restored. fold g. rewrite E. rewrite Same; [exact Gc|lia|left]. intros H. apply I', B in H. lia.
        -- rewrite Old. apply map_ext_in. intros x Hx. rewrite Go; auto; intros ->; auto.
      * intros x [<-|Hx]; [lia|auto].
    + destruct (IH h ND' I' B) as (L1 & Same & (ids & Ids & Inj) & Old & Bd). cbn [fst snd]. split; [lia|]. split; [|split; [|split]].
      * intros x Hx [Nx|Ex]; apply Same; auto. left. intros H; apply Nx; cbn; auto.
      * exists ids. split.
        -- intros x [<-|Hx] Ex; [congruence|auto].
        -- intros x x' [<-|Hx] [<-|Hx'] Ex Ex'; try congruence. apply Inj; auto.
      * cbn [map]. f_equal; [|auto]. unfold restored. rewrite E. apply Same; auto.
      * intros x [<-|Hx]; [|auto]. lia.
Qed.

Lemma insert_in x l n : In n (insert x l) <-> n = x \/ In n l.
Proof. induction l as [|y l IH]; cbn [insert]; [cbn; intuition congruence|]. destruct (x <=? y); cbn [In]; [intuition congruence|]. rewrite IH. cbn. intuition congruence. Qed.
Lemma zsort_in l n : In n (zsort l) <-> In n l.
Proof. unfold zsort. induction l as [|x l IH]; cbn [fold_right]; [reflexivity|]. rewrite insert_in, IH. cbn. intuition congruence. Qed.
