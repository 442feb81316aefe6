(** Lemmas for the VTK files (C103, C104). *)
From Verif Require Export S_Vtk L_Mesh5.
From Verif Require Import L_Reparam2.
From Coq Require Import Lia Lra Permutation.
Local Open Scope nat_scope.

Lemma nth_map_lt {A B} (g : A -> B) da db l i : i < length l -> nth i (map g l) db = g (nth i l da).
Proof. intros H. rewrite (nth_indep _ db (g da)) by (rewrite map_length; exact H). apply map_nth. Qed.
Lemma naturals_all l f : naturals (flat_map (fun i => [Num i; Sp]) l ++ Txt "</DataArray>" :: f) = Some l.
Proof. induction l; simpl; [reflexivity|]. rewrite IHl. reflexivity. Qed.
Definition triple (range : nat) (p : list R) : list R :=
  match range with 1 => [nth 0 p 0; 0; 0]%R | 2 => [nth 0 p 0; nth 1 p 0; 0]%R | _ => [nth 0 p 0; nth 1 p 0; nth 2 p 0]%R end.
Lemma reals_all range ps f : reals (flat_map (point_items range) ps ++ Txt "</DataArray>" :: f) = Some (flat_map (triple range) ps).
Proof.
  induction ps; [reflexivity|]. cbn [flat_map]. rewrite <- app_assoc.
  destruct range as [|[|[|r]]]; cbn [point_items triple app reals]; rewrite IHps; reflexivity.
Qed.
Lemma triple_len range p : length (triple range p) = 3.
Proof. destruct range as [|[|[|r]]]; reflexivity. Qed.
Lemma triple_nth range p d : 1 <= range <= 3 -> length p = range -> d < 3 -> nth d (triple range p) 0%R = nth d p 0%R.
Proof.
  intros Hr Hp Hd. destruct range as [|[|[|[|r]]]]; try lia; destruct p as [|a [|b [|c [|e p]]]]; try discriminate Hp;
    destruct d as [|[|[|d]]]; try lia; reflexivity.
Qed.
Lemma flat_triple_nth range ps : forall i d, i < length ps -> d < 3 -> nth (3 * i + d) (flat_map (triple range) ps) 0%R = nth d (triple range (nth i ps [])) 0%R.
Proof.
  induction ps as [|p ps IH]; intros i d Hi Hd; [simpl in Hi; lia|]. cbn [flat_map]. destruct i as [|i].
  - rewrite app_nth1 by (rewrite triple_len; lia). f_equal. 
  - rewrite app_nth2 by (rewrite triple_len; lia). rewrite triple_len. replace (3 * S i + d - 3) with (3 * i + d) by lia. cbn [nth]. apply IH; simpl in Hi; lia.
Qed.
Lemma flat_triple_len range ps : length (flat_map (triple range) ps) = 3 * length ps.
Proof. induction ps as [|p ps IH]; [reflexivity|]. cbn [flat_map]. rewrite app_length, triple_len, IH. simpl length. lia. Qed.
Lemma after_skip s pre f : (forall t, In (Txt t) pre -> String.eqb t s = false) -> after s (pre ++ f) = after s f.
Proof.
  induction pre as [|x pre IH]; intros H; [reflexivity|]. cbn [app]. assert (IH' := IH (fun t h => H t (or_intror h))).
  destruct x; cbn [after]; try exact IH'. rewrite (H s0 (or_introl eq_refl)). exact IH'.
Qed.
Lemma after_points s range ps f : after s (flat_map (point_items range) ps ++ f) = after s f.
Proof.
  apply after_skip. intros t H. apply in_flat_map in H. destruct H as (p & _ & H). destruct range as [|[|[|r]]]; cbn in H; decompose [or] H; try discriminate; contradiction.
Qed.
Lemma after_nums {A} (g : A -> nat) s l f : after s (flat_map (fun i => [Num (g i); Sp]) l ++ f) = after s f.
Proof. apply after_skip. intros t H. apply in_flat_map in H. destruct H as (p & _ & H). cbn in H. decompose [or] H; try discriminate; contradiction. Qed.
Lemma flat_num {A} (g : A -> nat) l : flat_map (fun i => [Num (g i); Sp]) l = flat_map (fun i => [Num i; Sp]) (map g l).
Proof. induction l; simpl; [reflexivity|]. now rewrite IHl. Qed.

Ltac skip_items := repeat (first [rewrite after_points | rewrite (after_nums (fun i => i)) | rewrite after_nums
  | progress (cbn [app after]) | match goal with |- context [String.eqb ?a ?b] => let v := eval vm_compute in (String.eqb a b) in change (String.eqb a b) with v; cbv iota end ]).

Lemma vtk_cells_ok dim range order points conn n :
  1 <= dim <= 3 -> 1 <= range <= 3 -> 2 <= order -> Forall (fun p => length p = range) points -> length conn = n * order ^ dim ->
  Forall (fun i => i < length points) conn -> exists f u, vtk_cells dim range points conn order = Ret f /\ reads f u /\ shows dim order points conn n u.
Proof.
  intros Hd Hr Ho Hp Hc Hb.
  assert (Hpow : 0 < order ^ dim) by (apply Nat.neq_0_lt_0, Nat.pow_nonzero; lia).
  assert (V : valid dim order points conn []). { repeat split; try lia; try assumption; [exists n; exact Hc | exists 0; reflexivity | constructor]. }
  destruct (C47_conn_proof dim (mk_mesh order points conn []) n Hd V Hc) as (out & Eo & Lo & Po & Vo). cbn [m_order m_conn m_points] in *.
  set (ct := vtk_type dim order).
  assert (Ect : vtk_cell_type dim order = Ret ct).
  { unfold vtk_cell_type, assert_. destruct (Nat.ltb_spec 1 order); [|lia]. f_equal. unfold ct, vtk_type. destruct dim as [|[|[|[|dm]]]]; try lia; destruct (order =? 2); reflexivity. }
  unfold vtk_cells, assert_. destruct (Nat.ltb_spec 1 order) as [_|]; [|lia]. cbv zeta.
  assert (Em : (length conn mod order ^ dim =? 0) = true) by (apply Nat.eqb_eq; rewrite Hc; apply Nat.mod_mul; lia). rewrite Em.
  assert (En : length conn / order ^ dim = n) by (rewrite Hc; apply Nat.div_mul; lia).
  rewrite Eo. cbn [bind]. rewrite Ect. cbn [bind]. rewrite En.
  eexists. exists (mk_vtu (length points) n (flat_map (triple range) points) out (map (fun c => (c + 1) * order ^ dim) (seq 0 n)) (map (fun _ => ct) (seq 0 n))).
  split; [reflexivity|]. split.
  - unfold reads, look. cbn [u_npoints u_ncells u_points u_conn u_offsets u_types].
    unfold xml_line, close_data, data_tag. repeat match goal with |- _ /\ _ => split end; skip_items.
    + reflexivity.
    + reflexivity.
    + apply reals_all.
    + apply naturals_all.
    + rewrite flat_num. apply naturals_all.
    + rewrite (flat_num (fun _ => ct)). apply naturals_all.
  - assert (Hoff : forall c, c < n -> nth c (map (fun c => (c + 1) * order ^ dim) (seq 0 n)) 0 = (c + 1) * order ^ dim).
    { intros c Hcn. rewrite (nth_map_lt (fun c => (c + 1) * order ^ dim) 0 0) by (rewrite seq_length; exact Hcn). rewrite seq_nth by exact Hcn. reflexivity. }
    assert (Hstart : forall c, c < n -> (match c with O => 0 | S c' => nth c' (map (fun c => (c + 1) * order ^ dim) (seq 0 n)) 0 end) = c * order ^ dim).
    { intros [|c] Hcn; [reflexivity|]. rewrite Hoff by lia. lia. }
    unfold shows. cbn [u_npoints u_ncells u_points u_conn u_offsets u_types].
    split; [reflexivity|]. split; [reflexivity|]. split; [apply flat_triple_len|]. split; [rewrite map_length, seq_length; reflexivity|].
    split; [rewrite map_length, seq_length; reflexivity|]. split; [exact Lo|]. split; [|split].
    + apply Forall_forall. intros i Hi. destruct (In_nth _ _ 0 Hi) as (k & Hk & <-). rewrite Lo in Hk.
      set (c := k / order ^ dim). assert (Hcn : c < n) by (apply Nat.div_lt_upper_bound; lia).
      assert (Hin : In (nth k out 0) (group_ids (order ^ dim) out c)).
      { unfold group_ids. apply in_map_iff. exists (k mod order ^ dim). split; [f_equal; unfold c; rewrite (Nat.div_mod k (order ^ dim)) at 3 by lia; lia|].
        apply in_seq. pose proof (Nat.mod_upper_bound k (order ^ dim)). lia. }
      apply (Permutation_in _ (Po c Hcn)) in Hin. unfold group_ids in Hin. apply in_map_iff in Hin. destruct Hin as (j & <- & Hj). apply in_seq in Hj.
      rewrite Forall_forall in Hb. apply Hb. apply nth_In. rewrite Hc. nia.
    + intros i d Hi Hdd. unfold u_point. cbn [u_points]. rewrite <- (triple_nth range (nth i points []) d Hr) by (try exact Hdd; rewrite Forall_forall in Hp; apply Hp, nth_In; exact Hi).
      rewrite <- flat_triple_nth by assumption. destruct d as [|[|[|d]]]; try lia; cbn [nth]; f_equal; lia.
    + intros c Hcn. split; [|split].
      * rewrite (nth_map_lt (fun _ => ct) 0 0) by (rewrite seq_length; exact Hcn). reflexivity.
      * unfold u_cell. cbn [u_offsets u_conn]. rewrite (Hstart c Hcn), (Hoff c Hcn). rewrite firstn_length, skipn_length, Lo. nia.
      * intros t Ht. unfold u_cell. cbn [u_offsets u_conn]. rewrite (Hstart c Hcn), (Hoff c Hcn). rewrite <- (Vo c t Hcn Ht).
        rewrite nth_firstn_c, nth_skipn_c; [reflexivity|].
        replace ((c + 1) * order ^ dim - c * order ^ dim) with (order ^ dim) by nia. destruct (C47_proof dim order Hd Ho) as (mask & _ & _ & Vm). apply (Vm t Ht).
Qed.

(** ** File names *)
Local Open Scope string_scope.
Lemma sapp_assoc a b c : (a ++ b) ++ c = a ++ (b ++ c).
Proof. induction a as [|x a IH]; cbn; [reflexivity|]. now rewrite IH. Qed.
Lemma slen_app a b : String.length (a ++ b) = String.length a + String.length b.
Proof. induction a as [|x a IH]; cbn; [reflexivity|]. now rewrite IH. Qed.
Lemma substring_app a b : substring 0 (String.length a) (a ++ b) = a.
Proof. induction a as [|x a IH]; cbn [String.length append substring]; [destruct b; reflexivity|]. now rewrite IH. Qed.
Lemma drop_end_app k a b : String.length b = k -> drop_end k (a ++ b) = a.
Proof. intros <-. unfold drop_end. rewrite slen_app. replace (String.length a + String.length b - String.length b) with (String.length a) by lia. apply substring_app. Qed.
Lemma block_interior fn : block "0" "interior" (vtmb_file fn) = Some (fn ++ ".vtu").
Proof.
  unfold block, look, vtmb_file, xml_line. skip_items. cbn [text]. f_equal.
  change (".vtu" ++ quote ++ "/>") with (".vtu" ++ (quote ++ "/>")). rewrite <- sapp_assoc. apply drop_end_app. reflexivity.
Qed.
Lemma plain_neq fn a b : plain fn = true -> String.eqb fn (a ++ dq ++ b) = false.
Proof.
  revert fn. induction a as [|c a IH]; intros [|x fn] H; cbn [append String.eqb dq]; try reflexivity; cbn [plain] in H.
  - apply Bool.andb_true_iff in H. destruct H as [H _]. apply Bool.negb_true_iff in H. rewrite H. reflexivity.
  - destruct (Ascii.eqb x c); [|reflexivity]. apply IH. apply Bool.andb_true_iff in H. apply H.
Qed.
Lemma plain_app a b : plain (a ++ b) = (plain a && plain b)%bool.
Proof. induction a as [|x a IH]; cbn; [reflexivity|]. rewrite IH. now rewrite Bool.andb_assoc. Qed.
Lemma block_boundary fn : plain fn = true -> block "1" "boundary" (vtmb_file fn) = Some (fn ++ "_wb.vtu").
Proof.
  intros P. unfold block, look. set (tag := "    <DataSet index=" ++ _).
  assert (N : String.eqb fn tag = false). { exact (plain_neq fn "    <DataSet index=" _ P). }
  assert (E : after tag (vtmb_file fn) = Some [Txt (fn ++ "_wb"); Txt (".vtu" ++ quote ++ "/>"); Nl; Txt "  </vtkMultiBlockDataSet>"; Nl; Txt "</VTKFile>"; Nl]).
  { unfold vtmb_file, xml_line. cbn [app after]. rewrite N. 
    repeat match goal with |- context [String.eqb ?a tag] => let v := eval vm_compute in (String.eqb a tag) in change (String.eqb a tag) with v; cbv iota end. reflexivity. }
  rewrite E. cbn [text]. f_equal. change (".vtu" ++ quote ++ "/>") with (".vtu" ++ (quote ++ "/>")). rewrite <- sapp_assoc, (sapp_assoc fn "_wb" ".vtu"). apply drop_end_app. reflexivity.
Qed.
Lemma no_slash_dirname s : has_slash s = false -> dirname s = "".
Proof. destruct s as [|c s]; [reflexivity|]. cbn. intros ->. reflexivity. Qed.
Lemma has_slash_app a b : has_slash (a ++ b) = (has_slash a || has_slash b)%bool.
Proof. induction a as [|x a IH]; cbn; [reflexivity|]. rewrite IH. now rewrite Bool.orb_assoc. Qed.
Lemma absolute_app a b : absolute a = true -> absolute (a ++ b) = true.
Proof. destruct a; [discriminate|exact (fun h => h)]. Qed.
Lemma no_slash_absolute s : has_slash s = false -> absolute s = false.
Proof. destruct s as [|c s]; [reflexivity|]. cbn. intros H. apply Bool.orb_false_iff in H. apply H. Qed.
