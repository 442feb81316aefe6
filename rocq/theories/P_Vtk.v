(** C103, C104: the VTK files of a reparameterization. *)
From Verif Require Export L_Vtk.
From Coq Require Import Lia Lra.
Local Open Scope nat_scope.

(** C103: the writer writes an unstructured grid with the cells and one with the wirebasket edges.  A reader finds in them the declared numbers of points and cells, the points (missing coordinates are 0), and for
    every cell its VTK type and its points, each at the position VTK gives to it. *)
Theorem C103_vtk_files : forall dim range m filename nc nw, 1 <= dim <= 3 -> 1 <= range <= 3 -> valid dim (m_order m) (m_points m) (m_conn m) (m_wires m) ->
  Forall (fun p => length p = range) (m_points m) -> length (m_conn m) = nc * m_order m ^ dim -> length (m_wires m) = nw * m_order m ->
  exists f1 f2 f3 u1 u2, write_VTK_file dim range m filename = Ret [((filename ++ ".vtu")%string, f1); ((filename ++ "_wb.vtu")%string, f2); ((filename ++ ".vtmb")%string, f3)] /\
    reads f1 u1 /\ shows dim (m_order m) (m_points m) (m_conn m) nc u1 /\ reads f2 u2 /\ shows 1 (m_order m) (m_points m) (m_wires m) nw u2.
Proof.
  intros dim range m fn nc nw Hd Hr (Ho & _ & _ & Fc & Fw) Hp Hc Hw.
  destruct (vtk_cells_ok dim range (m_order m) (m_points m) (m_conn m) nc Hd Hr Ho Hp Hc Fc) as (f1 & u1 & E1 & R1 & S1).
  destruct (vtk_cells_ok 1 range (m_order m) (m_points m) (m_wires m) nw) as (f2 & u2 & E2 & R2 & S2); try assumption; try lia; [rewrite Nat.pow_1_r; exact Hw|].
  exists f1, f2, (vtmb_file fn), u1, u2. unfold write_VTK_file. rewrite E1, E2. cbn [bind]. split; [reflexivity|]. split; [exact R1|]. split; [exact S1|]. split; [exact R2 | exact S2].
Qed.
Print Assumptions C103_vtk_files.
(** A square of order 3 with its four edges in the plane meets the hypotheses. *)
Example C103_example : exists m, valid 2 (m_order m) (m_points m) (m_conn m) (m_wires m) /\ Forall (fun p => length p = 2) (m_points m) /\ length (m_conn m) = 1 * m_order m ^ 2 /\
  length (m_wires m) = 4 * m_order m.
Proof.
  exists (mk_mesh 3 (flat_map (fun j => map (fun i => [INR i; INR j]) (seq 0 3)) (seq 0 3)) (seq 0 9) [0; 3; 6; 2; 5; 8; 0; 1; 2; 6; 7; 8]). cbn [m_order m_points m_conn m_wires].
  split; [|split; [|split]]; try reflexivity.
  - split; [lia|]. split; [exists 1; reflexivity|]. split; [exists 4; reflexivity|]. split; cbn; repeat constructor; lia.
  - cbn. repeat constructor.
Qed.

(** C104: the multi-block file refers to the two other files.
    FULL STATEMENT: for every file name.  Proved for the names without directory and the absolute ones; the full statement is refuted below. *)
Theorem C104_blocks_partial : forall dim range m filename files, write_VTK_file dim range m filename = Ret files -> plain filename = true ->
  has_slash filename = false \/ absolute filename = true ->
  exists f1 f2 f3, files = [((filename ++ ".vtu")%string, f1); ((filename ++ "_wb.vtu")%string, f2); ((filename ++ ".vtmb")%string, f3)] /\
    refers (filename ++ ".vtmb") (block "0" "interior" f3) (filename ++ ".vtu") /\ refers (filename ++ ".vtmb") (block "1" "boundary" f3) (filename ++ "_wb.vtu").
Proof.
  intros dim range m fn files E P H. unfold write_VTK_file in E.
  destruct (vtk_cells dim range _ _ _) as [f1| | |]; try discriminate E. destruct (vtk_cells 1 range _ _ _) as [f2| | |]; try discriminate E. cbn [bind] in E. injection E as <-.
  exists f1, f2, (vtmb_file fn). split; [reflexivity|]. rewrite block_interior, (block_boundary fn P).
  assert (Rn : forall b, has_slash b = false -> resolve (fn ++ ".vtmb") (fn ++ b) = (fn ++ b)%string).
  { intros b Hb. unfold resolve. destruct H as [H | H].
    - rewrite no_slash_absolute by (rewrite has_slash_app, H, Hb; reflexivity). rewrite no_slash_dirname by (rewrite has_slash_app, H; reflexivity). reflexivity.
    - rewrite absolute_app by exact H. reflexivity. }
  split; eexists; (split; [reflexivity | apply Rn; reflexivity]).
Qed.
Print Assumptions C104_blocks_partial.
(** A relative name with a directory: the block is searched in out/out. *)
Theorem C104_blocks_refuted : exists dim range m filename files, write_VTK_file dim range m filename = Ret files /\ plain filename = true /\
  forall f, In ((filename ++ ".vtmb")%string, f) files -> ~ refers (filename ++ ".vtmb") (block "0" "interior" f) (filename ++ ".vtu").
Proof.
  exists 2, 2, (mk_mesh 2 [] [] []), "out/mesh"%string. eexists. split; [reflexivity|]. split; [reflexivity|].
  intros f [H|[H|[H|[]]]]; try (injection H as H1 _; discriminate H1). injection H as <-. intros (r & H & Hr). rewrite block_interior in H. injection H as <-. vm_compute in Hr. discriminate Hr.
Qed.
Print Assumptions C104_blocks_refuted.
