From Verif Require Import M_Quad S_Quad L_TensorIndex L_Real L_Grid L_Domain L_DomainQ L_DomainT L_QuadTP L_Quad L_QuadRun.
From Coq Require Import Lra.
Open Scope R_scope.

Lemma value_out {A B} (m : outcome (A * B)) : value m = out m.
Proof. now destruct m. Qed.
Lemma mapM_F2 {A B} (f : A -> outcome B) : forall l cs, mapM f l = Ret cs -> Forall2 (fun a c => f a = Ret c) l cs.
Proof.
  induction l as [|a l IH]; intros cs H; cbn [mapM] in H; [injection H as <-; constructor|].
  apply bind_inv in H as (c & Hc & H). apply bind_inv in H as (cs' & Hcs & H). injection H as <-. constructor; auto.
Qed.
Lemma F2_mapM {A B} (f : A -> outcome B) : forall l cs, Forall2 (fun a c => f a = Ret c) l cs -> mapM f l = Ret cs.
Proof. induction 1; cbn [mapM]; auto. rewrite H, IHForall2. reflexivity. Qed.
Lemma F2_impl {A B} (P Q : A -> B -> Prop) l m : (forall a b, P a b -> Q a b) -> Forall2 P l m -> Forall2 Q l m.
Proof. intros H. induction 1; constructor; auto. Qed.
Lemma counts_sum {A} (cs : list (list A)) : nsum (counts_of cs) = Z.of_nat (length (concat cs)).
Proof. induction cs as [|c cs IH]; cbn; auto. rewrite app_length. unfold nsum in IH. unfold counts_of in IH. rewrite IH. lia. Qed.
Lemma concat_map_length {A B} (f : A -> B) (cs : list (list A)) : length (concat (map (map f) cs)) = length (concat cs).
Proof. now rewrite <- concat_map, map_length. Qed.

Section Props.
Context (table : list R) (Htab : Z.of_nat (length table) = n_entries).

Lemma reachable_valid dim s : (dim = 2 \/ dim = 3)%nat -> reachable table dim s -> valid table dim s.
Proof.
  intros Hd. induction 1 as [|s c r s' Hr IH Hc E]; [split; exact I|].
  destruct c as [o D cells n|o D cells n i e|o D cells facets n|o D cells facets n]; cbn [run_call call_dim] in *; fold (dimD D) in Hc; subst dim;
  apply bind_inv in E as ([q s1] & E & E1); injection E1 as _ <-.
  - eapply create_quadrature_ok; eauto.
  - eapply create_unf_ok; eauto.
  - eapply facets_interior_ok; eauto.
  - eapply facets_exterior_ok; eauto.
Qed.

Lemma C31_lemma : forall dim c s, (dim = 2 \/ dim = 3)%nat -> call_dim c = dim -> reachable table dim s ->
  value (run_call table c s) = value (run_call table c statics0).
Proof.
  intros dim c s Hd Hc Hr. pose proof (reachable_valid dim s Hd Hr) as Hv. assert (valid table dim statics0) as H0 by (split; exact I).
  rewrite !value_out. unfold out.
  assert (forall A B (m m' : outcome (A * statics)) (h : A -> B), out m = out m' ->
     (x <- (r <- m ;; Ret (h (fst r), snd r)) ;; Ret (fst x)) = (x <- (r <- m' ;; Ret (h (fst r), snd r)) ;; Ret (fst x))) as K.
  { intros A B m m' h E. unfold out in E. destruct m, m'; cbn [bind fst] in *; congruence. }
  destruct c as [o D cells n|o D cells n i e|o D cells facets n|o D cells facets n]; cbn [run_call call_dim] in *; fold (dimD D) in Hc; subst dim; apply K.
  - now rewrite (proj1 (create_quadrature_ok table Htab o D cells n s Hd Hv)), (proj1 (create_quadrature_ok table Htab o D cells n statics0 Hd H0)).
  - now rewrite (proj1 (create_unf_ok table Htab o D cells n i e s Hd Hv)), (proj1 (create_unf_ok table Htab o D cells n i e statics0 Hd H0)).
  - now rewrite (proj1 (facets_interior_ok table Htab o D cells facets n s Hd Hv)), (proj1 (facets_interior_ok table Htab o D cells facets n statics0 Hd H0)).
  - now rewrite (proj1 (facets_exterior_ok table Htab o D cells facets n s Hd Hv)), (proj1 (facets_exterior_ok table Htab o D cells facets n statics0 Hd H0)).
Qed.

(** ** Cells *)
Lemma cell_box g id : usable_grid g -> cell_id g id -> exists lo hi, get_cell_domain g id = Ret (mk_box lo hi) /\ positive_box lo hi /\ length lo = length (breaks g).
Proof.
  intros Hu Hid. destruct (usable_facts g Hu) as (Hg & Hc & _ & En). destruct Hu as ((brks & Hne & Hmk) & _).
  destruct (valid_exists g Hg Hc id) as (t & Hv & <-); [unfold cell_id in Hid; lia|].
  pose proof Hv as Hv'. apply (valid_nth g Hg) in Hv' as [Hl _].
  exists (cell_lo g t), (cell_hi g t). split; [now apply cell_domain_ok|]. rewrite cell_lo_length by auto. split; auto.
  split; [now rewrite cell_lo_length, cell_hi_length by auto|]. rewrite cell_lo_length by auto. intros d Hd. now apply cell_pos.
Qed.

Section Built.
Context (g : grid) (sign : nat -> bbox -> fsign) (ccell : bbox -> tmpstatus) (cfacet : range -> nat -> tmpstatus -> fstatus) (D : domain) (s0 : cstate).
Hypothesis HB : built g sign ccell cfacet D s0.
Hypothesis Hdim : (length (breaks g) = 2 \/ length (breaks g) = 3)%nat.
Lemma grid_eq : d_grid D = g.
Proof. apply (df_grid _ _ _ _ _ _ (built_facts _ _ _ _ _ _ HB)). Qed.
Lemma dimD_eq : dimD D = length (breaks g).
Proof. unfold dimD. now rewrite grid_eq. Qed.
Lemma Hd : (dimD D = 2 \/ dimD D = 3)%nat.
Proof. now rewrite dimD_eq. Qed.
Lemma cut_stat id st : cell_id g id -> stat g D id st -> is_cut_cell D id = Ret (cstatus_eqb st Ccut).
Proof.
  intros Hid Hs. destruct (is_cut_cell_ok _ _ _ _ _ _ HB id Hid) as (b & -> & Hb). f_equal. apply eq_iff_eq_true. rewrite cstatus_eqb_eq, Hb.
  split; [intros H2; eapply (stat_fun _ _ _ _ _ _ HB); eauto|intros ->; auto].
Qed.

Lemma cell_chunk_content o n id : (1 <= n <= n_max)%Z -> cell_id g id -> exists c, cell_chunk table o D n id = Ret c /\
  (is_empty_cell D id = Ret true -> c = []) /\
  (is_full_cell D id = Ret true -> create_01 table (length (breaks g)) n = Ret c /\ Z.of_nat (length c) = (n ^ Z.of_nat (length (breaks g)))%Z) /\
  (is_cut_cell D id = Ret true -> exists dom, get_cell_domain g id = Ret dom /\ c = vol_nodes o dom n).
Proof.
  intros Hn Hid. destruct (stat_cell _ _ _ _ _ _ HB id Hid) as (st & h & Hs & _).
  pose proof (is_cell_stat _ _ _ _ _ _ HB Cfull st id Hid Hs) as Ef. pose proof (is_cell_stat _ _ _ _ _ _ HB Cempty st id Hid Hs) as Ee.
  pose proof (cut_stat id st Hid Hs) as Ec.
  unfold cell_chunk. rewrite assert_true by lia. unfold cell_id in Hid. rewrite assert_true by lia. rewrite Ec. cbn [bind].
  unfold is_full_cell, is_empty_cell. rewrite Ef, Ee. cbn [bind]. unfold only. rewrite dimD_eq, grid_eq.
  destruct (cell_box g id (proj1 HB) Hid) as (lo & hi & Eb & _).
  destruct st; cbn [cstatus_eqb].
  - rewrite Eb. cbn [bind]. eexists. split; [reflexivity|]. repeat split; try discriminate. intros _. eauto.
  - destruct (create_01_ok table Htab (length (breaks g)) n) as (c & E & Hl); [lia|lia|].
    rewrite E. exists c. split; [reflexivity|]. repeat split; try discriminate. rewrite Hl.
    destruct Hdim as [-> | ->]; unfold zpow; cbn [repeat fold_right]; [change (Z.of_nat 2) with 2%Z|change (Z.of_nat 3) with 3%Z]; ring.
  - eexists. split; [reflexivity|]. repeat split; try discriminate.
  - eexists. split; [reflexivity|]. repeat split; discriminate.
Qed.

Lemma C26_body : forall o cells n st, (1 <= n <= n_max)%Z -> reachable table (length (breaks g)) st -> Forall (cell_id g) cells ->
  exists q st' chunks, create_quadrature table o D cells n st = Ret (q, st') /\ cq_cells q = cells /\
    cq_n q = counts_of chunks /\ cq_pts q = concat (map (map fst) chunks) /\ cq_wts q = concat (map (map snd) chunks) /\
    nsum (cq_n q) = Z.of_nat (length (cq_pts q)) /\ length (cq_wts q) = length (cq_pts q) /\
    Forall2 (fun id c =>
      (is_empty_cell D id = Ret true -> c = []) /\
      (is_full_cell D id = Ret true -> create_01 table (length (breaks g)) n = Ret c /\ Z.of_nat (length c) = (n ^ Z.of_nat (length (breaks g)))%Z) /\
      (is_cut_cell D id = Ret true -> exists dom, get_cell_domain g id = Ret dom /\ c = vol_nodes o dom n)) cells chunks.
Proof.
  intros o cells n st Hn Hr Hcs.
  assert (valid table (dimD D) st) as Hv by (rewrite dimD_eq; apply reachable_valid; auto).
  destruct (create_quadrature_ok table Htab o D cells n st Hd Hv) as [E _].
  assert (exists cs, mapM (cell_chunk table o D n) cells = Ret cs /\ Forall2 (fun id c =>
      (is_empty_cell D id = Ret true -> c = []) /\
      (is_full_cell D id = Ret true -> create_01 table (length (breaks g)) n = Ret c /\ Z.of_nat (length c) = (n ^ Z.of_nat (length (breaks g)))%Z) /\
      (is_cut_cell D id = Ret true -> exists dom, get_cell_domain g id = Ret dom /\ c = vol_nodes o dom n)) cells cs) as (cs & Ecs & Hcs').
  { clear E. induction Hcs as [|id l Hid Hl IH]; [exists []; split; [reflexivity|constructor]|].
    destruct IH as (cs & E1 & E2). destruct (cell_chunk_content o n id Hn Hid) as (c & Ec & Hc).
    exists (c :: cs). cbn [mapM]. rewrite Ec, E1. split; [reflexivity|]. constructor; auto. }
  rewrite assert_true in E by lia. rewrite Ecs in E. cbn [bind] in E. unfold out in E.
  destruct (create_quadrature table o D cells n st) as [[q st']| | |]; cbn [bind fst] in E; try discriminate. injection E as ->.
  eexists _, st', cs. split; [reflexivity|]. cbn. rewrite counts_sum, !concat_map_length. auto 10.
Qed.

(** ** Facets *)
Lemma boundary_total id f : cell_id g id -> facet_id g f -> exists b, is_exterior_facet D id f = Ret b.
Proof.
  intros Hid Hf. unfold is_exterior_facet, on_boundary. rewrite grid_eq. unfold facet_id in Hf. rewrite assert_true by lia.
  destruct (usable_facts g (proj1 HB)) as (Hg & Hc & _ & En).
  destruct (to_tensor_ok (num_cells_dir g) id) as (t & -> & _); [apply size_pos; auto|auto|unfold cell_id in Hid; lia|]. cbn [bind]. eauto.
Qed.

Lemma facet_nodes_eq o dom f n : facet_nodes o dom (f / 2) (f mod 2) f n = facet_rule o dom f n.
Proof. reflexivity. Qed.

Lemma iso_chunk_content o id f n ru rc : (1 <= n <= n_max)%Z -> cell_id g id -> facet_id g f ->
  exists a c d u G dom, is_full_facet D id f = Ret a /\ is_cut_facet D id f = Ret c /\ is_full_unfitted_facet D id f = Ret d /\ has_unfitted_boundary D id f = Ret u /\
   create_01 table (length (breaks g) - 1) n = Ret G /\ get_cell_domain g id = Ret dom /\
   (d = true -> u = true /\ a = false /\ c = false) /\ (a = true -> u = false /\ c = false) /\
   iso_chunk table o D id f n ru rc =
     if d || a then Ret (if d && ru then [] else G)
     else if c then Ret (filter (fun nw => negb (if ls_at o dom f (fst nw) then (out_at o dom f (fst nw) && (ru && u)) || (negb (out_at o dom f (fst nw)) && u) else rc)) (facet_rule o dom f n))
     else if u then Abort else Ret [].
Proof.
  intros Hn Hid Hf. destruct (stat_cell _ _ _ _ _ _ HB id Hid) as (st & h & Hs & _).
  destruct (create_01_ok table Htab (length (breaks g) - 1) n) as (G & EG & _); [lia|lia|].
  destruct (cell_box g id (proj1 HB) Hid) as (lo & hi & Eb & _).
  pose proof (facet_query_ok _ _ _ _ _ _ HB st_is_full _ (only Cfull) id f st Hid Hf Hs (is_cell_stat _ _ _ _ _ _ HB Cfull st id Hid Hs)) as Ea.
  pose proof (fun p => facet_query_ok _ _ _ _ _ _ HB p (Ret false) (fun _ => false) id f st Hid Hf Hs eq_refl) as Eq.
  fold (is_full_cell D id) in Ea. fold (is_full_facet D id f) in Ea.
  pose proof (Eq st_is_cut) as Ec. pose proof (Eq st_is_full_unf) as Ed. pose proof (Eq st_has_unf) as Eu.
  fold (is_cut_facet D id f) in Ec. fold (is_full_unfitted_facet D id f) in Ed. fold (has_unfitted_boundary D id f) in Eu.
  eexists _, _, _, _, G, (mk_box lo hi). split; [exact Ea|]. split; [exact Ec|]. split; [exact Ed|]. split; [exact Eu|]. split; [exact EG|]. split; [exact Eb|].
  split. { unfold fb_of. destruct (fm_find (d_fm D) id) as [v|]; [|discriminate]. destruct (nth (Z.to_nat f) v Ffull); cbn; intros; try discriminate; auto. }
  split. { unfold fb_of. destruct (fm_find (d_fm D) id) as [v|]; [|auto]. destruct (nth (Z.to_nat f) v Ffull); cbn; intros; try discriminate; auto. }
  set (a := fb_of st _ st_is_full _ f) in *. set (c := fb_of st _ st_is_cut _ f) in *. set (d := fb_of st _ st_is_full_unf _ f) in *. set (u := fb_of st _ st_has_unf _ f) in *.
  unfold iso_chunk. rewrite dimD_eq. unfold cell_id in Hid. unfold facet_id in Hf.
  rewrite assert_true by lia. rewrite assert_true by lia. rewrite assert_true by lia. rewrite Ed. cbn [bind].
  assert ((if d then Ret true else is_full_facet D id f) = Ret (d || a)) as -> by (destruct d; auto). cbn [bind].
  destruct (d || a); [destruct (d && ru); auto|]. rewrite Ec. cbn [bind].
  assert ((if c then Ret true else has_unfitted_boundary D id f) = Ret (c || u)) as -> by (destruct c; auto). cbn [bind].
  destruct c; cbn [orb].
  - unfold compute_chunk. rewrite assert_true by lia. rewrite Ec. cbn [bind assert_]. rewrite grid_eq, dimD_eq.
    assert (facet_const_dir (Z.of_nat (length (breaks g))) f = Ret (f / 2)%Z) as Edir by (unfold facet_const_dir; rewrite assert_true by lia; auto).
    assert (facet_side (Z.of_nat (length (breaks g))) f = Ret (f mod 2)%Z) as Eside by (unfold facet_side; rewrite assert_true by lia; auto).
    rewrite Edir, Eside, Eb. cbn [bind].
    assert ((if is_bezier o then Ret (facet_nodes o (mk_box lo hi) 0 0 f n) else Ret (facet_nodes o (mk_box lo hi) (f / 2) (f mod 2) f n)) = Ret (facet_rule o (mk_box lo hi) f n)) as ->.
    { rewrite <- facet_nodes_eq. unfold facet_nodes. destruct (is_bezier o); reflexivity. }
    cbn [bind]. unfold iso_pred. rewrite Eu. cbn [bind]. rewrite Ec.
    assert ((if rc then Ret true else Ret false) = Ret rc) as -> by (destruct rc; auto). cbn [bind].
    rewrite dimD_eq, grid_eq, Edir, Eside, Eb. cbn [bind].
    destruct (negb (ru && u) && negb (true && u) && negb rc) eqn:Eall; cbn [bind].
    + apply andb_true_iff in Eall as [Eall Erc]. apply andb_true_iff in Eall as [_ Eu'].
      destruct u; [discriminate|]. destruct rc; [discriminate|]. f_equal. apply filter_ext. intros nw.
      destruct (ls_at o (mk_box lo hi) f (fst nw)), (out_at o (mk_box lo hi) f (fst nw)), ru; reflexivity.
    + reflexivity.
  - destruct u; [|reflexivity]. unfold compute_chunk. rewrite assert_true by lia. rewrite Ec. reflexivity.
Qed.

Lemma C29_content_body : forall o id f n st, (1 <= n <= n_max)%Z -> reachable table (length (breaks g)) st -> cell_id g id -> facet_id g f ->
  exists bnd a c d u G dom,
   on_boundary g id f = Ret bnd /\ is_full_facet D id f = Ret a /\ is_cut_facet D id f = Ret c /\ is_full_unfitted_facet D id f = Ret d /\ has_unfitted_boundary D id f = Ret u /\
   create_01 table (length (breaks g) - 1) n = Ret G /\ get_cell_domain g id = Ret dom /\
   (d = true -> u = true /\ a = false /\ c = false) /\ (a = true -> u = false /\ c = false) /\
   value (create_facets_interior table o D [id] [f] n st) = (r <- answer (facet_answer_int bnd a d c u (ls_at o dom f) G (facet_rule o dom f n)) ;; Ret (one_facet id f r)) /\
   value (create_facets_exterior table o D [id] [f] n st) = (r <- answer (facet_answer_ext bnd a d c u (ls_at o dom f) (out_at o dom f) G (facet_rule o dom f n)) ;; Ret (one_facet id f r)).
Proof.
  intros o id f n st Hn Hr Hid Hf.
  assert (valid table (dimD D) st) as Hv by (rewrite dimD_eq; apply reachable_valid; auto).
  destruct (boundary_total id f Hid Hf) as (bnd & Eb).
  destruct (iso_chunk_content o id f n true false Hn Hid Hf) as (a & c & d & u & G & dom & E1 & E2 & E3 & E4 & E5 & E6 & E7 & E8 & E9).
  destruct (iso_chunk_content o id f n false false Hn Hid Hf) as (a2 & c2 & d2 & u2 & G2 & dom2 & F1 & F2 & F3 & F4 & F5 & F6 & _ & _ & F9).
  destruct (iso_chunk_content o id f n false true Hn Hid Hf) as (a3 & c3 & d3 & u3 & G3 & dom3 & I1 & I2 & I3 & I4 & I5 & I6 & _ & _ & I9).
  assert (a2 = a) as -> by congruence. assert (c2 = c) as -> by congruence. assert (d2 = d) as -> by congruence. assert (u2 = u) as -> by congruence. assert (G2 = G) as -> by congruence. assert (dom2 = dom) as -> by congruence.
  assert (a3 = a) as -> by congruence. assert (c3 = c) as -> by congruence. assert (d3 = d) as -> by congruence. assert (u3 = u) as -> by congruence. assert (G3 = G) as -> by congruence. assert (dom3 = dom) as -> by congruence.
  exists bnd, a, c, d, u, G, dom. split; [unfold is_exterior_facet in Eb; rewrite grid_eq in Eb; exact Eb|]. do 8 (split; [assumption|]).
   rewrite (value_out (create_facets_interior table o D [id] [f] n st)), (value_out (create_facets_exterior table o D [id] [f] n st)). rewrite (proj1 (facets_interior_ok table Htab o D [id] [f] n st Hd Hv)), (proj1 (facets_exterior_ok table Htab o D [id] [f] n st Hd Hv)).
  rewrite !assert_true by (auto; lia). cbn [length combine mapM fst snd Nat.eqb]. 
  assert (forall m : outcome rule, (cs <- (c0 <- m ;; cs <- Ret [] ;; Ret (c0 :: cs)) ;; Ret (mk_iq [id] [f] (counts_of cs) (concat (map (map fst) cs)) (concat (map (map snd) cs)))) = (r <- m ;; Ret (one_facet id f r))) as K.
  { intros m. destruct m; cbn [bind]; auto. unfold one_facet. cbn. now rewrite !app_nil_r. }
  rewrite !K. unfold int_chunk, ext_chunk. rewrite Eb. cbn [bind]. rewrite E9, F9, I9, E4. unfold facet_answer_int, facet_answer_ext. cbn [bind].
  split.
  - f_equal. destruct bnd; cbn [negb answer]; [auto|]. destruct d; cbn [orb andb answer]; auto. destruct a; cbn [answer]; auto.
    destruct c; cbn [answer]; [|destruct u; auto]. f_equal. destruct u.
    + apply filter_ext. intros nw. destruct (ls_at o dom f (fst nw)), (out_at o dom f (fst nw)); reflexivity.
    + rewrite (filter_ext _ (fun _ => true)); [apply filter_true|]. intros nw. destruct (ls_at o dom f (fst nw)), (out_at o dom f (fst nw)); reflexivity.
  - f_equal. destruct bnd.
    + destruct d; cbn [orb andb answer]; auto. destruct a; cbn [answer]; auto. destruct c; cbn [answer]; [|destruct u; auto]. f_equal. destruct u.
      * apply filter_ext. intros nw. destruct (ls_at o dom f (fst nw)), (out_at o dom f (fst nw)); reflexivity.
      * rewrite (filter_ext _ (fun _ => true)); [apply filter_true|]. intros nw. destruct (ls_at o dom f (fst nw)), (out_at o dom f (fst nw)); reflexivity.
    + destruct u; cbn [negb answer]; auto. destruct d; cbn [orb andb answer]; auto. destruct a; [destruct E8; auto; discriminate|]. destruct c; cbn [answer]; auto.
      f_equal. apply filter_ext. intros nw. destruct (ls_at o dom f (fst nw)), (out_at o dom f (fst nw)); reflexivity.
Qed.

Lemma C29_body : forall o id f n st qi qe, (1 <= n <= n_max)%Z -> reachable table (length (breaks g)) st -> cell_id g id -> facet_id g f ->
  value (create_facets_interior table o D [id] [f] n st) = Ret qi -> value (create_facets_exterior table o D [id] [f] n st) = Ret qe ->
  (on_boundary g id f = Ret true -> iq_pts qi = [] /\ iq_n qi = [0%Z]) /\
  (on_boundary g id f = Ret false -> has_unfitted_boundary D id f = Ret false -> iq_pts qe = [] /\ iq_n qe = [0%Z]) /\
  (is_full_unfitted_facet D id f = Ret true -> iq_pts qi = [] /\ iq_n qi = [0%Z]) /\
  (forall p, In p (iq_pts qi) -> In p (iq_pts qe) -> False).
Proof.
  intros o id f n st qi qe Hn Hr Hid Hf Hqi Hqe.
  destruct (C29_content_body o id f n st Hn Hr Hid Hf) as (bnd & a & c & d & u & G & dom & E1 & E2 & E3 & E4 & E5 & E6 & E7 & E8 & E9 & E10 & E11).
  rewrite E10 in Hqi. rewrite E11 in Hqe. clear E10 E11. unfold facet_answer_int, facet_answer_ext in *.
  rewrite E1, E4, E5.
  split; [intros E; injection E as ->; injection Hqi as <-; auto|].
  split; [intros E E'; injection E as ->; injection E' as ->; injection Hqe as <-; auto|].
  split; [intros E; injection E as ->; destruct bnd; injection Hqi as <-; auto|].
  destruct bnd; [injection Hqi as <-; auto|]. destruct d; [injection Hqi as <-; auto|].
  destruct u; cbn [negb] in Hqe; [|injection Hqe as <-; auto].
  destruct a; [destruct E9; auto; discriminate|]. destruct c; [|discriminate].
  injection Hqi as <-. injection Hqe as <-. cbn. intros p H1 H2. apply in_map_iff in H1 as (x & <- & Hx). apply in_map_iff in H2 as (y & E & Hy).
  apply filter_In in Hx as [_ Hx]. apply filter_In in Hy as [_ Hy]. rewrite E in Hy. apply andb_true_iff in Hy as [Hy _]. rewrite Hy in Hx. discriminate.
Qed.

(** C30 *)
Lemma C30_body : forall o id f n st, (1 <= n <= n_max)%Z -> reachable table (length (breaks g)) st -> cell_id g id -> facet_id g f ->
  (exists qe, value (create_facets_exterior table o D [id] [f] n st) = Ret qe) \/
  (value (create_facets_exterior table o D [id] [f] n st) = Abort /\ has_unfitted_boundary D id f = Ret true /\ is_cut_facet D id f = Ret false /\ is_full_unfitted_facet D id f = Ret false).
Proof.
  intros o id f n st Hn Hr Hid Hf.
  destruct (C29_content_body o id f n st Hn Hr Hid Hf) as (bnd & a & c & d & u & G & dom & E1 & E2 & E3 & E4 & E5 & E6 & E7 & E8 & E9 & E10 & ->).
  unfold facet_answer_ext. rewrite E3, E4, E5.
  destruct bnd, d, a, c, u; cbn; eauto 6; destruct E9; auto; discriminate.
Qed.
End Built.

(** Without the boundary facets, the unfitted boundary quadrature is always generated. *)
Lemma C27_total_body g sign ccell cfacet D s0 : built g sign ccell cfacet D s0 -> (length (breaks g) = 2 \/ length (breaks g) = 3)%nat ->
  forall o cells n exc st, (0 < n)%Z -> reachable table (length (breaks g)) st -> Forall (cell_id g) cells ->
  exists q st', create_unfitted_bound table o D cells n false exc st = Ret (q, st').
Proof.
  intros HB Hdim o cells n exc st Hn Hr Hcs.
  pose proof (dimD_eq _ _ _ _ _ _ HB) as Ed. pose proof (grid_eq _ _ _ _ _ _ HB) as Eg.
  assert (valid table (dimD D) st) as Hv by (rewrite Ed; apply reachable_valid; auto).
  assert (dimD D = 2 \/ dimD D = 3)%nat as Hd' by now rewrite Ed.
  destruct (create_unf_ok table Htab o D cells n false exc st Hd' Hv) as [E _].
  assert (exists cs, mapM (unf_chunk table o D n false exc) cells = Ret cs) as (cs & Ecs).
  { clear E. induction Hcs as [|id l Hid Hl IH]; [exists []; reflexivity|].
    destruct IH as (cs & E1). cbn [mapM]. rewrite E1.
    assert (exists c, unf_chunk table o D n false exc id = Ret c) as (c & ->); [|cbn; eauto].
    unfold unf_chunk. rewrite assert_true by lia. pose proof Hid as Hid'. unfold cell_id in Hid'. rewrite assert_true by lia.
    destruct (C23_body _ _ _ _ _ _ HB id Hid) as (cu & -> & _). cbn [bind]. destruct cu; cbn [negb]; [|eauto].
    destruct (is_cut_cell_ok _ _ _ _ _ _ HB id Hid) as (b & -> & _). cbn [bind]. destruct b; [|cbn; eauto].
    rewrite Eg. destruct (cell_box g id (proj1 HB) Hid) as (lo & hi & Eb & _). rewrite Eb. cbn [bind]. unfold purge_all.
    assert (forall l c, (forall f, In f l -> facet_id g f) -> exists c', foldM (fun f c => hu <- has_unfitted_boundary D id f ;; if hu then p <- unf_pred o D id f ;; Ret (filter (fun x => negb (p x)) c) else Ret c) l c = Ret c') as K.
    { induction l0 as [|f l0 IH]; intros c Hf; cbn [foldM]; [eauto|].
      assert (facet_id g f) as Hff by (apply Hf; left; auto).
      destruct (query_total _ _ _ _ _ _ HB (has_unfitted_boundary D) ltac:(simpl; tauto) id f Hid Hff) as (u & Eu). rewrite Eu. cbn [bind].
      assert (forall f, In f l0 -> facet_id g f) as Hf' by (intros; apply Hf; right; auto).
      destruct u; [|cbn [bind]; apply IH; auto]. assert (exists p, unf_pred o D id f = Ret p) as (p & ->); [|cbn [bind]; apply IH; auto].
      unfold unf_pred. rewrite Eu. cbn [bind].
      destruct (query_total _ _ _ _ _ _ HB (has_external_boundary D) ltac:(simpl; tauto) id f Hid Hff) as (e & Ee). rewrite Ee. cbn [bind negb andb].
      unfold facet_id in Hff. unfold facet_const_dir, facet_side. rewrite Ed, Eg, Eb. rewrite !assert_true by lia. cbn [bind]. eauto. }
    destruct (K (zseq (Z.of_nat (dimD D) * 2)) (srf_nodes o (mk_box lo hi) n)) as (c' & ->); [|cbn; eauto].
    intros f Hf. unfold zseq in Hf. apply in_map_iff in Hf as (j & <- & Hj). apply in_seq in Hj. unfold facet_id. rewrite <- Ed. lia. }
  rewrite assert_true in E by lia. rewrite Ecs in E. cbn [bind] in E. unfold out in E.
  destruct (create_unfitted_bound table o D cells n false exc st) as [[q st']| | |]; cbn [bind fst] in E; try discriminate. eauto.
Qed.

Lemma C30_refuted_body : exists g sign ccell cfacet D s id f, built g sign ccell cfacet D s /\ length (breaks g) = 2%nat /\ cell_id g id /\ facet_id g f /\
  has_unfitted_boundary D id f = Ret true /\ forall o n, (1 <= n <= n_max)%Z -> value (create_facets_exterior table o D [id] [f] n statics0) = Abort.
Proof.
  destruct (demo_built (fun _ _ => Sund) (fun _ => Tcut) (fun _ _ _ => Funf)) as (g & D & s & HB & Hn & Hb).
  do 4 eexists. exists D, s, 0%Z, 0%Z. split; [exact HB|].
  assert (cell_id g 0) as Hid by (unfold cell_id; lia). assert (facet_id g 0) as Hf by (unfold facet_id; lia).
  split; [auto|]. split; [auto|]. split; [auto|].
  destruct (stat_cell _ _ _ _ _ _ HB 0%Z Hid) as (st & h & Hs & Hcr & Hcls & Hfl).
  assert (exists v, fm_find (d_fm D) 0 = Some v /\ nth 0 v Ffull = Funf) as (v & Ev & Env).
  { inversion Hcr as [k b lo hi E1 E2 E3 EE|k b lo hi E1 E2 E3 EE|k lo hi tid st' e E1 E2 E3 c [Hi1 Hi2]]; subst; try discriminate.
    rewrite Hi2. cbn. eexists. split; [reflexivity|]. rewrite Hb. reflexivity. }
  assert (has_unfitted_boundary D 0 0 = Ret true) as Hu.
  { unfold has_unfitted_boundary. rewrite (facet_query_ok _ _ _ _ _ _ HB _ (Ret false) (fun _ => false) 0%Z 0%Z st Hid Hf Hs eq_refl). rewrite Ev. unfold fb_of. change (Z.to_nat 0) with 0%nat. now rewrite Env. }
  split; [exact Hu|]. intros o n Hn'.
  destruct (C29_content_body g _ _ _ D s HB (or_introl Hb) o 0%Z 0%Z n statics0 Hn' (reach_start _ _) Hid Hf) as (bnd & a & c & d & u & G & dom & E1 & E2 & E3 & E4 & E5 & E6 & E7 & E8 & E9 & E10 & ->).
  unfold is_full_facet in E2. rewrite (facet_query_ok _ _ _ _ _ _ HB st_is_full _ (only Cfull) 0%Z 0%Z st Hid Hf Hs) in E2 by (apply (is_cell_stat _ _ _ _ _ _ HB); auto).
  unfold is_cut_facet in E3. unfold is_full_unfitted_facet in E4.
  rewrite (facet_query_ok _ _ _ _ _ _ HB st_is_cut (Ret false) (fun _ => false) 0%Z 0%Z st Hid Hf Hs eq_refl) in E3. rewrite (facet_query_ok _ _ _ _ _ _ HB st_is_full_unf (Ret false) (fun _ => false) 0%Z 0%Z st Hid Hf Hs eq_refl) in E4.
  rewrite Ev in *. unfold fb_of in *. change (Z.to_nat 0) with 0%nat in *. rewrite Env in *. cbn in E2, E3, E4. rewrite Hu in E5.
  injection E2 as <-. injection E3 as <-. injection E4 as <-. injection E5 as <-. unfold facet_answer_ext. destruct bnd; reflexivity.
Qed.

(** ** Lists of facets: the slices are the answers for the single facets. *)
Lemma F2_combine {A B C} (P : A * B -> C -> Prop) : forall l m cs, length l = length m -> Forall2 P (combine l m) cs -> length cs = length l /\
  forall k da db dc, (k < length l)%nat -> P (nth k l da, nth k m db) (nth k cs dc).
Proof.
  induction l as [|a l IH]; intros [|b m] cs Hl H; simpl in Hl; try lia; inversion H; subst; [split; [auto|intros; simpl in *; lia]|].
  match goal with H : Forall2 P (combine l m) ?l' |- _ => destruct (IH m l' ltac:(lia) H) as [K1 K2] end. split; [simpl; lia|]. intros [|k] da db dc Hk; simpl in *; [auto|apply K2; lia].
Qed.
Definition facets_call (ext : bool) := if ext then create_facets_exterior else create_facets_interior.
Lemma C27_facets_body : forall ext o D cells facets n st q st', (length (breaks (d_grid D)) = 2 \/ length (breaks (d_grid D)) = 3)%nat ->
  reachable table (length (breaks (d_grid D))) st -> facets_call ext table o D cells facets n st = Ret (q, st') ->
  length facets = length cells /\ iq_cells q = cells /\ iq_facets q = facets /\
  exists chunks, length chunks = length cells /\ iq_n q = counts_of chunks /\ iq_pts q = concat (map (map fst) chunks) /\ iq_wts q = concat (map (map snd) chunks) /\
    nsum (iq_n q) = Z.of_nat (length (iq_pts q)) /\ length (iq_wts q) = length (iq_pts q) /\
    forall k, (k < length cells)%nat -> forall st1, reachable table (length (breaks (d_grid D))) st1 ->
      value (facets_call ext table o D [nth k cells 0%Z] [nth k facets 0%Z] n st1) = Ret (one_facet (nth k cells 0%Z) (nth k facets 0%Z) (nth k chunks [])).
Proof.
  intros ext o D cells facets n st q st' Hd Hr E. fold (dimD D) in *.
  assert (value (facets_call ext table o D cells facets n st) = Ret q) as Ev by (rewrite E; reflexivity). clear E st'.
  set (chunk := fun cf : Z * Z => if ext then ext_chunk table o D n (fst cf) (snd cf) else int_chunk table o D n (fst cf) (snd cf)).
  assert (forall cs fs s1, reachable table (dimD D) s1 -> value (facets_call ext table o D cs fs n s1) =
     assert_ (0 <? n)%Z (assert_ (Nat.eqb (length cs) (length fs)) (x <- mapM chunk (combine cs fs) ;; Ret (mk_iq cs fs (counts_of x) (concat (map (map fst) x)) (concat (map (map snd) x)))))) as K.
  { intros cs fs s1 Hr1. pose proof (reachable_valid _ _ Hd Hr1) as Hv. rewrite value_out. unfold facets_call, chunk. destruct ext.
    - apply (facets_exterior_ok table Htab); auto.
    - apply (facets_interior_ok table Htab); auto. }
  rewrite K in Ev by auto. apply assert_inv in Ev as [Hn Ev]. apply assert_inv in Ev as [Hl Ev]. apply Nat.eqb_eq in Hl. apply bind_inv in Ev as (x & Ex & Ev). injection Ev as <-.
  apply mapM_F2 in Ex. destruct (F2_combine _ _ _ _ Hl Ex) as [H1 H2]. cbn. split; [auto|]. do 2 (split; [auto|]). exists x. rewrite counts_sum, !concat_map_length.
  do 6 (split; [auto|]). intros k Hk st1 Hr1. rewrite K by auto. rewrite Hn. cbn [assert_ length Nat.eqb combine mapM]. specialize (H2 k 0%Z 0%Z [] Hk). cbn in H2. rewrite H2. cbn. unfold one_facet. now rewrite !app_nil_r.
Qed.

Lemma C27_unf_body : forall o D cells n inc exc st q st', (length (breaks (d_grid D)) = 2 \/ length (breaks (d_grid D)) = 3)%nat ->
  reachable table (length (breaks (d_grid D))) st -> create_unfitted_bound table o D cells n inc exc st = Ret (q, st') ->
  uq_cells q = cells /\
  exists chunks, uq_n q = counts_of chunks /\ uq_pts q = concat (map (map (fun x => fst (fst x))) chunks) /\ uq_wts q = concat (map (map (fun x => snd (fst x))) chunks) /\ uq_nrm q = concat (map (map snd) chunks) /\
    nsum (uq_n q) = Z.of_nat (length (uq_pts q)) /\ length (uq_wts q) = length (uq_pts q) /\ length (uq_nrm q) = length (uq_pts q) /\
    Forall2 (fun id c => (is_cell_with_unf_bdry D id = Ret false -> c = []) /\ forall st1, reachable table (length (breaks (d_grid D))) st1 ->
      value (create_unfitted_bound table o D [id] n inc exc st1) = Ret (one_unf id c)) cells chunks.
Proof.
  intros o D cells n inc exc st q st' Hd Hr E. fold (dimD D) in *.
  assert (value (create_unfitted_bound table o D cells n inc exc st) = Ret q) as Ev by (rewrite E; reflexivity). clear E st'.
  assert (forall cs s1, reachable table (dimD D) s1 -> value (create_unfitted_bound table o D cs n inc exc s1) = assert_ (0 <? n)%Z (x <- mapM (unf_chunk table o D n inc exc) cs ;;
      Ret (mk_uq cs (counts_of x) (concat (map (map (fun x => fst (fst x))) x)) (concat (map (map (fun x => snd (fst x))) x)) (concat (map (map snd) x))))) as K.
  { intros cs s1 Hr1. pose proof (reachable_valid _ _ Hd Hr1) as Hv. rewrite value_out. apply (create_unf_ok table Htab); auto. }
  rewrite K in Ev by auto. apply assert_inv in Ev as [Hn Ev]. apply bind_inv in Ev as (x & Ex & Ev). injection Ev as <-. cbn. split; auto. exists x.
  rewrite counts_sum, !concat_map_length. do 7 (split; [auto|]).
  apply mapM_F2 in Ex. revert Ex. apply F2_impl. intros id c Hc. split.
  - intros Hw. unfold unf_chunk in Hc. apply assert_inv in Hc as [_ Hc]. apply assert_inv in Hc as [_ Hc]. rewrite Hw in Hc. cbn in Hc. congruence.
  - intros st1 Hr1. rewrite K by auto. rewrite Hn. cbn [assert_ mapM]. rewrite Hc. cbn. unfold one_unf. now rewrite !app_nil_r.
Qed.
End Props.

Lemma demo_usable2 : exists g, usable_grid g /\ num_cells_dir g = [2;1]%Z /\ length (breaks g) = 2%nat /\
  get_cell_domain g 0 = Ret (mk_box [0;0] [1;1]) /\ get_cell_domain g 1 = Ret (mk_box [1;0] [2;1]).
Proof.
  destruct demo_grid_ex as (g & Hmk & Hn & _ & _ & H0 & H1). exists g.
  destruct (make_grid_facts demo_breaks g ltac:(discriminate) Hmk) as [Hg Eb].
  split; [|split; [rewrite (gf_size g Hg), Eb; reflexivity|split; [now rewrite Eb|auto]]].
  split; [exists demo_breaks; split; [discriminate|auto]|]. split; [rewrite Hn; unfold INT_MAX; lia|].
  rewrite (gf_size g Hg), Eb. repeat constructor; simpl; lia.
Qed.

(** External-boundary points. *)
Section External.
Context (table : list R) (Htab : Z.of_nat (length table) = n_entries).
Lemma C75_body : forall g sign ccell cfacet D s0, built g sign ccell cfacet D s0 -> (length (breaks g) = 2 \/ length (breaks g) = 3)%nat ->
  forall ext o id f n st q dom, (1 <= n <= n_max)%Z -> reachable table (length (breaks g)) st -> cell_id g id -> facet_id g f ->
  is_cut_facet D id f = Ret true -> has_unfitted_boundary D id f = Ret true ->
  get_cell_domain g id = Ret dom -> value (facets_call ext table o D [id] [f] n st) = Ret q ->
  forall p, In p (iq_pts q) -> on_level_set o (facet_point dom f p) = true -> points_out o f (facet_point dom f p) = true.
Proof.
  intros g sign ccell cfacet D s0 HB Hdim ext o id f n st q dom Hn Hr Hid Hf Hcut Hunf Hdom Hq p Hp Hls.
  destruct (C29_content_body table Htab g _ _ _ D s0 HB Hdim o id f n st Hn Hr Hid Hf) as (bnd & a & c & d & u & G & dom' & E1 & E2 & E3 & E4 & E5 & E6 & E7 & E8 & E9 & E10 & E11).
  assert (dom' = dom) as -> by congruence. rewrite Hcut in E3. injection E3 as <-. rewrite Hunf in E5. injection E5 as <-.
  destruct d; [destruct E8 as (_ & _ & E8); auto; discriminate|]. destruct a; [destruct E9 as (E9 & _); auto; discriminate|].
  unfold facets_call in Hq. destruct ext; [rewrite E11 in Hq|rewrite E10 in Hq]; unfold facet_answer_int, facet_answer_ext in Hq; destruct bnd; cbn in Hq; injection Hq as <-; cbn in Hp; try contradiction;
    apply in_map_iff in Hp as (x & <- & Hx); apply filter_In in Hx as [_ Hx]; fold (ls_at o dom f (fst x)) in Hls; fold (out_at o dom f (fst x)); rewrite Hls in Hx; destruct (out_at o dom f (fst x)); auto.
Qed.

Lemma C75_refuted_body : exists g sign ccell cfacet D s id f dom o, built g sign ccell cfacet D s /\ length (breaks g) = 2%nat /\ cell_id g id /\ facet_id g f /\
  has_external_boundary D id f = Ret true /\ get_cell_domain g id = Ret dom /\ on_boundary g id f = Ret false /\
  forall n, (1 <= n <= n_max)%Z -> exists q p, value (create_facets_interior table o D [id] [f] n statics0) = Ret q /\ In p (iq_pts q) /\
    phi o (facet_point dom f p) = 0 /\ grad o (facet_point dom f p) = [-1; 0].
Proof.
  set (sign := fun (_ : nat) (_ : bbox) => Sund). set (ccell := fun _ : bbox => Tcut). set (cfacet := fun (_ : range) (_ : nat) (_ : tmpstatus) => Fcut_ext).
  destruct demo_usable2 as (g & Hu & Esz & Hb & Hd0 & Hd1).
  assert (num_cells g = 2%Z) as Hn by (unfold num_cells; rewrite Esz; reflexivity).
  destruct (build_domain_ok g sign ccell cfacet (fun m => m) Hu map_order_id) as (D & s & E & _).
  assert (built g sign ccell cfacet D s) as HB by (split; [auto|]; exists (fun m => m); split; [apply map_order_id|exact E]).
  set (o := mk_alg (fun p => 1 - nth 0 p 0) (fun _ => [-1; 0]) false (fun _ _ => []) (fun _ _ => []) (fun _ _ _ _ => [([1; / 2], 1)]) (fun _ _ => 0) (fun _ _ => []) (fun _ _ _ => 0) (fun _ _ => []) (fun _ _ => []) (fun _ _ _ => []) []).
  exists g, sign, ccell, cfacet, D, s, 0%Z, 1%Z, (mk_box [0;0] [1;1]), o.
  assert (cell_id g 0) as Hid by (unfold cell_id; lia). assert (facet_id g 1) as Hf by (unfold facet_id; lia).
  split; [auto|]. split; [auto|]. split; [auto|]. split; [auto|].
  destruct (stat_cell _ _ _ _ _ _ HB 0%Z Hid) as (st & h & Hs & Hcr & Hcls & Hfl).
  assert (exists v, fm_find (d_fm D) 0 = Some v /\ nth 1 v Ffull = Fcut_ext) as (v & Ev & Env).
  { inversion Hcr as [k b lo hi E1 E2 E3 EE|k b lo hi E1 E2 E3 EE|k lo hi tid st' e E1 E2 E3 c [Hi1 Hi2]]; subst; try discriminate.
    rewrite Hi2. cbn. eexists. split; [reflexivity|]. rewrite Hb. reflexivity. }
  pose proof (fun p => facet_query_ok _ _ _ _ _ _ HB p (Ret false) (fun _ => false) 0%Z 1%Z st Hid Hf Hs eq_refl) as Eq.
  rewrite Ev in Eq. unfold fb_of in Eq. change (Z.to_nat 1) with 1%nat in Eq. rewrite Env in Eq.
  split; [exact (Eq st_has_ext)|]. split; [auto|].
  assert (on_boundary g 0 1 = Ret false) as Hbnd.
  { unfold on_boundary. rewrite Hb, Esz. reflexivity. }
  split; [exact Hbnd|]. intros n Hn'.
  destruct (C29_content_body table Htab g _ _ _ D s HB (or_introl Hb) o 0%Z 1%Z n statics0 Hn' (reach_start _ _) Hid Hf) as (bnd & a & c & d & u & G & dom & E1 & E2 & E3 & E4 & E5 & E6 & E7 & E8 & E9 & -> & _).
  assert (bnd = false) as -> by congruence. assert (dom = mk_box [0;0] [1;1]) as -> by congruence.
  unfold is_cut_facet in E3. rewrite Eq in E3. injection E3 as <-. unfold is_full_unfitted_facet in E4. rewrite Eq in E4. injection E4 as <-. unfold has_unfitted_boundary in E5. rewrite Eq in E5. injection E5 as <-.
  destruct a; [destruct E9 as [_ E9]; auto; discriminate|].
  exists (one_facet 0 1 (facet_rule o (mk_box [0;0] [1;1]) 1 n)), [(/ 2 - 0) / (1 - 0)]. split; [reflexivity|].
  split; [cbn; left; reflexivity|]. split; [|reflexivity]. cbn. field.
Qed.
End External.


(** Facet points of the unfitted boundary. *)
Section Bdry.
Context (table : list R) (Htab : Z.of_nat (length table) = n_entries).
Lemma bdry_chunk_normals o D id f n c : bdry_chunk table o D id f n = Ret c -> fresh_point o = repeat 0 (dimD D) ->
  Forall (fun x => nth (Z.to_nat (f / 2)) (snd x) 0 = (if (f mod 2 =? 0)%Z then -1 else 1) /\ (forall d, d <> Z.to_nat (f / 2) -> nth d (snd x) 0 = 0) /\
     exists p, fst (fst x) = firstn (Z.to_nat (f / 2)) p ++ (if (f mod 2 =? 0)%Z then 0 else 1) :: skipn (Z.to_nat (f / 2)) p) c.
Proof.
  intros H Hz. unfold bdry_chunk in H. apply bind_inv in H as (hu & _ & H). destruct (negb hu); [injection H as <-; constructor|].
  apply bind_inv in H as (c0 & _ & H). apply bind_inv in H as (dir & Edir & H). apply bind_inv in H as (side & Eside & H). injection H as <-.
  unfold facet_const_dir in Edir. apply assert_inv in Edir as [Hb Edir]. injection Edir as <-. unfold facet_side in Eside. apply assert_inv in Eside as [_ Eside]. injection Eside as <-.
  assert (Z.to_nat (f / 2) < dimD D)%nat as Hk.
  { assert (f / 2 < Z.of_nat (dimD D))%Z by (apply Z.div_lt_upper_bound; lia). assert (0 <= f / 2)%Z by (apply Z.div_pos; lia). lia. }
  apply Forall_forall. intros x Hx. apply in_map_iff in Hx as (y & <- & _). cbn [fst snd]. rewrite Hz.
  assert (forall m k v, (k < m)%nat -> nth k (set_nth k v (repeat 0 m)) 0 = v /\ forall d, d <> k -> nth d (set_nth k v (repeat 0 m)) 0 = 0) as K.
  { induction m as [|m IH]; intros [|k] v Hm; try lia; cbn [repeat set_nth].
    - split; [reflexivity|]. intros [|d] Hd; [congruence|]. cbn. apply nth_repeat.
    - destruct (IH k v ltac:(lia)) as [K1 K2]. split; [exact K1|]. intros [|d] Hd; [reflexivity|]. cbn. apply K2. congruence. }
  destruct (K (dimD D) (Z.to_nat (f / 2)) (if (f mod 2 =? 0)%Z then - (1) else 1) Hk) as [K1 K2]. split; [rewrite K1; destruct (f mod 2 =? 0)%Z; reflexivity|].
  split; [exact K2|]. exists (fst y). reflexivity.
Qed.

Lemma C76_body : forall o D id n exc st q0 q1, (length (breaks (d_grid D)) = 2 \/ length (breaks (d_grid D)) = 3)%nat -> reachable table (length (breaks (d_grid D))) st ->
  fresh_point o = repeat 0 (length (breaks (d_grid D))) ->
  value (create_unfitted_bound table o D [id] n false exc st) = Ret q0 -> value (create_unfitted_bound table o D [id] n true exc st) = Ret q1 ->
  exists added, q1 = mk_uq [id] [(nsum (uq_n q0) + Z.of_nat (length added))%Z] (uq_pts q0 ++ map (fun x => fst (fst x)) added) (uq_wts q0 ++ map (fun x => snd (fst x)) added) (uq_nrm q0 ++ map snd added) /\
   Forall (fun x => exists f, (0 <= f < 2 * Z.of_nat (length (breaks (d_grid D))))%Z /\ has_unfitted_boundary D id f = Ret true /\ (exc = true -> on_boundary (d_grid D) id f = Ret false) /\
     nth (Z.to_nat (f / 2)) (snd x) 0 = (if (f mod 2 =? 0)%Z then -1 else 1) /\ (forall d, d <> Z.to_nat (f / 2) -> nth d (snd x) 0 = 0) /\
     exists p, fst (fst x) = firstn (Z.to_nat (f / 2)) p ++ (if (f mod 2 =? 0)%Z then 0 else 1) :: skipn (Z.to_nat (f / 2)) p) added.
Proof.
  intros o D id n exc st q0 q1 Hd Hr Hz H0 H1. fold (dimD D) in *.
  assert (forall inc, value (create_unfitted_bound table o D [id] n inc exc st) = assert_ (0 <? n)%Z (x <- unf_chunk table o D n inc exc id ;; Ret (one_unf id x))) as K.
  { intros inc. pose proof (reachable_valid table Htab _ _ Hd Hr) as Hv. rewrite value_out. rewrite (proj1 (create_unf_ok table Htab o D [id] n inc exc st Hd Hv)).
    apply assert_ext. intros _. cbn [mapM]. destruct (unf_chunk table o D n inc exc id); cbn; auto. unfold one_unf. now rewrite !app_nil_r. }
  rewrite K in H0, H1. apply assert_inv in H0 as [_ H0]. apply assert_inv in H1 as [_ H1].
  apply bind_inv in H0 as (c0 & E0 & H0). injection H0 as <-. apply bind_inv in H1 as (c1 & E1 & H1). injection H1 as <-.
  unfold unf_chunk in E0, E1. apply assert_inv in E0 as [_ E0]. apply assert_inv in E0 as [_ E0]. apply assert_inv in E1 as [_ E1]. apply assert_inv in E1 as [_ E1].
  apply bind_inv in E0 as (w & Ew & E0). rewrite Ew in E1. cbn [bind] in E1. destruct w; cbn [negb] in *.
  2:{ injection E0 as <-. injection E1 as <-. exists []. split; [reflexivity|constructor]. }
  apply bind_inv in E0 as (cut & Ec & E0). rewrite Ec in E1. cbn [bind] in E1.
  apply bind_inv in E0 as (c & Ecc & E0). injection E0 as ->. rewrite Ecc in E1. cbn [bind] in E1.
  apply bind_inv in E1 as (c2 & E2 & E1). injection E1 as <-. exists c2. split.
  { unfold one_unf. cbn. rewrite !map_app, app_length. f_equal. f_equal. lia. }
  unfold bdry_all in E2. apply bind_inv in E2 as (cs & Ecs & E2). injection E2 as <-. apply mapM_F2 in Ecs.
  apply Forall_forall. intros x Hx. apply in_concat in Hx as (l & Hl & Hx).
  assert (forall fs, Forall2 (fun f c => (hu <- has_unfitted_boundary D id f ;; if hu then skip <- (if exc then is_exterior_facet D id f else Ret false) ;; if negb skip then bdry_chunk table o D id f n else Ret [] else Ret []) = Ret c) fs cs ->
     exists f, In f fs /\ (hu <- has_unfitted_boundary D id f ;; if hu then skip <- (if exc then is_exterior_facet D id f else Ret false) ;; if negb skip then bdry_chunk table o D id f n else Ret [] else Ret []) = Ret l) as Hex.
  { clear Ecs. intros fs. revert Hl. generalize cs. induction fs as [|f fs IH]; intros cs' Hl HF; inversion HF; subst; [contradiction|]. destruct Hl as [->|Hl]; [exists f; split; [left; auto|auto]|].
    destruct (IH _ Hl H3) as (f' & Hf' & E'). exists f'. split; [right; auto|auto]. }
  destruct (Hex _ Ecs) as (f & Hf & Ef). exists f.
  unfold zseq in Hf. apply in_map_iff in Hf as (j & <- & Hj). apply in_seq in Hj. split; [lia|].
  apply bind_inv in Ef as (hu & Ehu & Ef). destruct hu; [|injection Ef as <-; contradiction]. split; [auto|].
  apply bind_inv in Ef as (skip & Eskip & Ef). destruct skip; cbn [negb] in Ef; [injection Ef as <-; contradiction|].
  split; [intros ->; exact Eskip|]. pose proof (bdry_chunk_normals o D id _ n l Ef Hz) as HF. rewrite Forall_forall in HF. apply (HF x Hx).
Qed.
End Bdry.
