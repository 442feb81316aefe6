(** Lemmas for the packing of custom coefficients: the quadratures of the entities. *)
From Coq Require Import List ZArith Reals Lia Arith Sorting.Sorted Permutation.
From Verif Require Import M_PyBase M_PyFacets M_PyQuadUtils M_PyPack S_PyQuadUtils S_PyPack L_PyNodes L_PyFacets L_PyQuadUtils L_PyPack L_PyPack2 L_PyPack3 L_PyPack4.
Import ListNotations.
Local Open Scope nat_scope.

Lemma by_index {A B} (g : A -> B) d : forall l, map g l = map (fun j => g (nth j l d)) (seq 0 (length l)).
Proof.
  intros l. apply (nth_ext _ _ (g d) (g d)). { rewrite !map_length, seq_length. reflexivity. }
  intros i H. rewrite map_length in H. rewrite map_nth. rewrite nth_seq_map by exact H. reflexivity.
Qed.
Lemma take_map {A} (l : list A) d ids : (forall i, In i ids -> i < length l) -> take_ids l ids = Ret (map (fun j => nth (nth j ids 0) l d) (seq 0 (length ids))).
Proof.
  intros H. unfold take_ids. rewrite (L_PyNodes.pmap_ret _ (fun i => nth i l d)) by (intros i I; apply pat_ret; apply H; exact I). f_equal. exact (by_index (fun i => nth i l d) 0 ids).
Qed.

Section Run.
  Variables (argsort : list nat -> list nat) (cut_cells empty_cells : list nat) (cut_facets empty_facets : bool -> list facet).
  Variables (rc : qdata -> nat -> rule) (rf : qdata -> bool -> facet -> rule).
  Variables (create_cells : qdata -> list nat -> cquad) (create_facets : qdata -> list facet -> bool -> cquad).
  Variables (ctyp : celltype) (all_perms : list (list nat)) (junk : nat -> vec) (ct : ctype) (mixed : bool) (qds : list qdata) (dom : idomain) (gdim fdim : nat).
  Hypothesis AS : stable_argsort argsort.
  Hypothesis ST : setting cut_cells empty_cells cut_facets empty_facets rc rf ctyp all_perms mixed create_cells create_facets qds dom gdim fdim.
  Definition ids : list nat := custom_ids argsort cut_cells cut_facets dom.
  Definition E : nat := length ids.

  Lemma ids_nodup : NoDup ids.
  Proof. destruct ST as [N [_ [U _]]]. exact (proj1 (ids_ok argsort cut_cells cut_facets dom AS N U)). Qed.
  Lemma ids_in i : In i ids <-> exists e, entity_at dom i = Some e /\ cut_entity cut_cells cut_facets e.
  Proof. destruct ST as [N [_ [U _]]]. exact (proj2 (ids_ok argsort cut_cells cut_facets dom AS N U) i). Qed.
  Lemma ids_lt i : In i ids -> i < shape0 dom.
  Proof. intros H. apply ids_in in H. destruct H as [e [H _]]. exact (entity_lt _ _ _ H). Qed.

  (** The arrays of an entity. *)
  Definition earr (qd : qdata) (e : entity) : pquad :=
    match e with
    | ECell c => let r := rc qd c in {| p_unf := qd_unf qd; p_npts := []; p_pts := r_pts r; p_pts1 := []; p_fpts := []; p_w := r_w r; p_nrm := r_nrm r |}
    | EFacet f => let r := rf qd true f in
        {| p_unf := qd_unf qd; p_npts := []; p_pts := map (place ctyp all_perms mixed f) (r_pts r); p_pts1 := []; p_fpts := r_pts r; p_w := r_w r; p_nrm := [] |}
    | EFacet2 f g => let r := rf qd false f in
        {| p_unf := qd_unf qd; p_npts := []; p_pts := map (place ctyp all_perms true f) (r_pts r); p_pts1 := map (place ctyp all_perms true g) (r_pts r);
           p_fpts := r_pts r; p_w := r_w r; p_nrm := [] |}
    end.
  Definition ent (j : nat) : entity := match entity_at dom (nth j ids 0) with Some e => e | None => ECell 0 end.
  Lemma ent_at j : j < E -> entity_at dom (nth j ids 0) = Some (ent j) /\ cut_entity cut_cells cut_facets (ent j).
  Proof.
    intros H. assert (I : In (nth j ids 0) ids) by (apply nth_In; exact H). apply ids_in in I. destruct I as [e [I1 I2]]. unfold ent. rewrite I1. split; [reflexivity|exact I2].
  Qed.
  Lemma loaded_expected qd e i : In qd qds -> entity_at dom i = Some e -> loaded_of mixed dom (qd_unf qd) (earr qd e) = expected rc rf ctyp all_perms mixed qd e.
  Proof.
    intros Hq He. destruct ST as [_ [_ [_ [_ [_ [_ S]]]]]]. destruct dom as [l|l|l]; cbn [entity_at is_interior] in *; destruct (nth_error l i) as [x|]; try discriminate; cbn in He; injection He as <-.
    - destruct S as [M _]. unfold loaded_of, earr, expected. rewrite M. reflexivity.
    - destruct S as [_ [U _]]. unfold loaded_of, earr, expected. rewrite (U qd Hq). reflexivity.
    - destruct S as [_ [U _]]. unfold loaded_of, earr, expected. rewrite (U qd Hq). reflexivity.
  Qed.
  Lemma place_len needs f x : valid_facet ctyp all_perms mixed dom f -> length x = tdim ctyp - 1 -> length (place ctyp all_perms needs f x) = tdim ctyp.
  Proof.
    intros [V _] L. unfold place. apply embed_length; [exact V|]. destruct needs; [|exact L]. destruct (facet_cell ctyp); [rewrite moved_length|]; exact L.
  Qed.
  Lemma rows_map n needs f l : valid_facet ctyp all_perms mixed dom f -> length l = n -> Forall (fun x => length x = tdim ctyp - 1) l -> rows_ok n (tdim ctyp) (map (place ctyp all_perms needs f) l).
  Proof.
    intros V L F. split; [rewrite map_length; exact L|]. rewrite Forall_forall in *. intros y I. apply in_map_iff in I. destruct I as [x [<- I]]. apply place_len; [exact V|]. apply F. exact I.
  Qed.

  Lemma create_ok qd : In qd qds -> exists q,
    create_quadrature argsort cut_cells cut_facets create_cells create_facets ctyp all_perms junk mixed dom qd = Ret q
    /\ p_unf q = qd_unf qd /\ gath mixed dom E q (fun j => earr qd (ent j))
    /\ (forall j, j < E -> eok mixed dom gdim fdim (qd_unf qd) (earr qd (ent j))).
  Proof.
    intros Hq. assert (LT := ids_lt). assert (EA := ent_at). destruct ST as [_ [_ [_ [_ [Hg [Hf S]]]]]].
    unfold create_quadrature. change (custom_ids argsort cut_cells cut_facets dom) with ids. destruct dom as [l|l|l] eqn:Ed.
    - destruct S as [M [RO G]].
      rewrite (take_map l 0) by exact LT. cbn [bind]. rewrite M. cbn [negb assert_].
      set (cs := map (fun j => nth (nth j ids 0) l 0) (seq 0 (length ids))).
      destruct (G qd cs) as [G1 [G2 [G3 G4]]].
      assert (Hent : forall j, j < E -> ent j = ECell (nth (nth j ids 0) l 0)).
      { intros j Hj. unfold ent. rewrite Ed. cbn [entity_at]. rewrite (nth_error_nth_d l _ 0); [reflexivity|]. apply LT. apply nth_In. exact Hj. }
      assert (EQ : forall B (g : pquad -> B) (h : rule -> B), (forall c, g (earr qd (ECell c)) = h (rc qd c)) -> map h (map (rc qd) cs) = map (fun j => g (earr qd (ent j))) (seq 0 E)).
      { intros B g h Hgh. unfold cs. rewrite !map_map. apply map_ext_in. intros j J. apply in_seq in J. rewrite Hent by lia. rewrite Hgh. reflexivity. }
      eexists. split; [reflexivity|]. split; [reflexivity|]. split.
      + unfold gath. cbn [p_npts p_pts p_pts1 p_fpts p_w p_nrm p_unf is_interior].
        split; [rewrite G1; apply (EQ nat (fun e => length (p_w e))); reflexivity|].
        split; [rewrite G2; f_equal; apply (EQ _ p_pts); reflexivity|].
        split; [discriminate|]. split; [intros Q; try rewrite M in Q; discriminate|].
        split; [rewrite G3; f_equal; apply (EQ _ p_w); reflexivity|].
        intros U. rewrite (G4 U). f_equal. apply (EQ _ p_nrm). reflexivity.
      + intros j Hj. rewrite Hent by exact Hj. destruct (RO qd (nth (nth j ids 0) l 0) Hq) as [R1 [R2 R3]]. { apply nth_In. apply LT. apply nth_In. exact Hj. }
        unfold eok. cbn [earr p_unf p_pts p_pts1 p_fpts p_w p_nrm is_interior]. split; [reflexivity|]. split; [split; assumption|]. split; [discriminate|]. split; [intros Q; try rewrite M in Q; discriminate|].
        exact R3.
    - destruct S as [Hd [U [RO [G V]]]]. cbn [single_facets is_interior negb orb] in *.
      rewrite (take_map l (0, 0)) by exact LT. cbn [bind].
      set (fc := fun j => nth (nth j ids 0) l (0, 0)). set (fs := map fc (seq 0 (length ids))).
      destruct (G qd fs) as [G1 [G2 [G3 G4]]].
      assert (Hent : forall j, j < E -> ent j = EFacet (fc j)).
      { intros j Hj. unfold ent. rewrite Ed. cbn [entity_at]. rewrite (nth_error_nth_d l _ (0, 0)); [reflexivity|]. apply LT. apply nth_In. exact Hj. }
      assert (RJ : forall j, j < E -> rule_ok fdim gdim false (rf qd true (fc j))). { intros j Hj. apply (RO qd _ Hq). apply nth_In. apply LT. apply nth_In. exact Hj. }
      assert (VJ : forall j, j < E -> valid_facet ctyp all_perms mixed (Ext l) (fc j)).
      { intros j Hj. destruct (EA j Hj) as [A1 A2]. rewrite (Hent j Hj) in A1, A2. apply (V _ _ (fc j) A1 A2). left. reflexivity. }
      assert (EQ : forall B (g : pquad -> B) (h : rule -> B), (forall f, g (earr qd (EFacet f)) = h (rf qd true f)) -> map h (map (rf qd true) fs) = map (fun j => g (earr qd (ent j))) (seq 0 E)).
      { intros B g h Hgh. unfold fs. rewrite !map_map. apply map_ext_in. intros j J. apply in_seq in J. rewrite Hent by lia. rewrite Hgh. reflexivity. }
      assert (MF := map_facet_ok ctyp all_perms junk mixed (Ext l) mixed (create_facets qd fs true) (seq 0 (length ids)) fc (fun j => r_pts (rf qd true (fc j)))). change (map fc (seq 0 (length ids))) with fs in MF. rewrite MF; clear MF; [|reflexivity|exact Hd| | |].
      2: { rewrite G1. unfold fs. rewrite !map_map. apply map_ext_in. intros j J. apply in_seq in J. symmetry. exact (proj1 (RJ j ltac:(unfold E in *; lia))). }
      2: { rewrite G2. unfold fs. rewrite !map_map. reflexivity. }
      2: { intros j J. apply in_seq in J. split; [apply VJ; unfold E in *; lia|]. rewrite <- Hf. exact (proj1 (proj2 (RJ j ltac:(unfold E in *; lia)))). }
      cbn [bind]. rewrite (U qd Hq). cbn [negb assert_]. eexists. split; [reflexivity|]. split; [reflexivity|]. split.
      + unfold gath. cbn [p_npts p_pts p_pts1 p_fpts p_w p_nrm p_unf is_interior].
        split; [rewrite G1; apply (EQ nat (fun e => length (p_w e))); reflexivity|].
        split. { f_equal. apply map_ext_in. intros j J. apply in_seq in J. rewrite Hent by (unfold E in *; lia). reflexivity. }
        split; [discriminate|]. split; [intros _; rewrite G2; f_equal; apply (EQ _ p_fpts); reflexivity|].
        split; [rewrite G3; f_equal; apply (EQ _ p_w); reflexivity|discriminate].
      + intros j Hj. rewrite Hent by exact Hj. destruct (RJ j Hj) as [R1 [R2 _]]. rewrite Hf in R2. 
        unfold eok. cbn [earr p_unf p_pts p_pts1 p_fpts p_w p_nrm is_interior]. split; [exact (U qd Hq)|].
        split; [rewrite Hg; apply rows_map; [rewrite Ed; apply VJ; exact Hj|exact R1|exact R2]|]. split; [discriminate|].
        split; [intros _; rewrite Hf; split; assumption|discriminate].
    - destruct S as [Hd [U [RO [G V]]]]. cbn [single_facets is_interior negb orb] in *.
      assert (LT1 : forall i, In i ids -> i < length (map fst l)) by (intros i I; rewrite map_length; exact (LT i I)).
      assert (LT2 : forall i, In i ids -> i < length (map snd l)) by (intros i I; rewrite map_length; exact (LT i I)).
      rewrite (take_map (map fst l) (0, 0)) by exact LT1. rewrite (take_map (map snd l) (0, 0)) by exact LT2. cbn [bind].
      set (fc := fun j => nth (nth j ids 0) (map fst l) (0, 0)). set (gc := fun j => nth (nth j ids 0) (map snd l) (0, 0)). set (fs := map fc (seq 0 (length ids))).
      destruct (G qd fs) as [G1 [G2 [G3 G4]]].
      assert (Hent : forall j, j < E -> ent j = EFacet2 (fc j) (gc j)).
      { intros j Hj. unfold ent. rewrite Ed. cbn [entity_at]. assert (Hl : nth j ids 0 < length l) by (apply LT; apply nth_In; exact Hj).
        rewrite (nth_error_nth_d l _ ((0, 0), (0, 0)) Hl). unfold fc, gc. rewrite !(nth_map_d _ ((0, 0), (0, 0))) by exact Hl. reflexivity. }
      assert (RJ : forall j, j < E -> rule_ok fdim gdim false (rf qd false (fc j))). { intros j Hj. apply (RO qd _ Hq). apply nth_In. apply LT1. apply nth_In. exact Hj. }
      assert (VJ : forall j, j < E -> valid_facet ctyp all_perms mixed (Int l) (fc j)).
      { intros j Hj. destruct (EA j Hj) as [A1 A2]. rewrite (Hent j Hj) in A1, A2. apply (V _ _ (fc j) A1 A2). left. reflexivity. }
      assert (VG : forall j, j < E -> valid_facet ctyp all_perms mixed (Int l) (gc j)).
      { intros j Hj. destruct (EA j Hj) as [A1 A2]. rewrite (Hent j Hj) in A1, A2. apply (V _ _ (gc j) A1 A2). right. left. reflexivity. }
      assert (EQ : forall B (g : pquad -> B) (h : rule -> B), (forall f f', g (earr qd (EFacet2 f f')) = h (rf qd false f)) -> map h (map (rf qd false) fs) = map (fun j => g (earr qd (ent j))) (seq 0 E)).
      { intros B g h Hgh. unfold fs. rewrite !map_map. apply map_ext_in. intros j J. apply in_seq in J. rewrite Hent by lia. rewrite Hgh. reflexivity. }
      assert (Q1 : q_npts (create_facets qd fs false) = map (fun j => length (r_pts (rf qd false (fc j)))) (seq 0 (length ids))).
      { rewrite G1. unfold fs. rewrite !map_map. apply map_ext_in. intros j J. apply in_seq in J. symmetry. exact (proj1 (RJ j ltac:(unfold E in *; lia))). }
      assert (Q2 : q_points (create_facets qd fs false) = concat (map (fun j => r_pts (rf qd false (fc j))) (seq 0 (length ids)))) by (rewrite G2; unfold fs; rewrite !map_map; reflexivity).
      assert (Q3 : forall j, In j (seq 0 (length ids)) -> Forall (fun y => length y = tdim ctyp - 1) (r_pts (rf qd false (fc j)))).
      { intros j J. apply in_seq in J. rewrite <- Hf. exact (proj1 (proj2 (RJ j ltac:(unfold E in *; lia)))). }
      assert (MF := map_facet_ok ctyp all_perms junk mixed (Int l) true (create_facets qd fs false) (seq 0 (length ids)) fc (fun j => r_pts (rf qd false (fc j)))). change (map fc (seq 0 (length ids))) with fs in MF. rewrite MF; clear MF; [|reflexivity|exact Hd|exact Q1|exact Q2|].
      2: { intros j J. split; [|exact (Q3 j J)]. apply in_seq in J. apply VJ. unfold E in *. lia. }
      rewrite (map_facet_ok ctyp all_perms junk mixed (Int l) true (create_facets qd fs false) (seq 0 (length ids)) gc (fun j => r_pts (rf qd false (fc j)))); [|reflexivity|exact Hd|exact Q1|exact Q2|].
      2: { intros j J. split; [|exact (Q3 j J)]. apply in_seq in J. apply VG. unfold E in *. lia. }
      cbn [bind]. rewrite (U qd Hq). cbn [negb assert_]. eexists. split; [reflexivity|]. split; [reflexivity|]. split.
      + unfold gath. cbn [p_npts p_pts p_pts1 p_fpts p_w p_nrm p_unf is_interior].
        split; [rewrite G1; apply (EQ nat (fun e => length (p_w e))); reflexivity|].
        split. { f_equal. apply map_ext_in. intros j J. apply in_seq in J. rewrite Hent by (unfold E in *; lia). reflexivity. }
        split. { intros _. f_equal. apply map_ext_in. intros j J. apply in_seq in J. rewrite Hent by (unfold E in *; lia). reflexivity. }
        split; [intros _; rewrite G2; f_equal; apply (EQ _ p_fpts); reflexivity|].
        split; [rewrite G3; f_equal; apply (EQ _ p_w); reflexivity|discriminate].
      + intros j Hj. rewrite Hent by exact Hj. destruct (RJ j Hj) as [R1 [R2 _]]. rewrite Hf in R2. 
        unfold eok. cbn [earr p_unf p_pts p_pts1 p_fpts p_w p_nrm is_interior]. split; [exact (U qd Hq)|].
        split; [rewrite Hg; apply rows_map; [rewrite Ed; apply VJ; exact Hj|exact R1|exact R2]|].
        split; [intros _; rewrite Hg; apply rows_map; [rewrite Ed; apply VG; exact Hj|exact R1|exact R2]|].
        split; [intros _; rewrite Hf; split; assumption|discriminate].
  Qed.
End Run.
