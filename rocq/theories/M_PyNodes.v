(** python/qugar/mesh/utils.py: numberings of the nodes, faces and edges of a reference cell. *)
From Verif Require Import M_PyBase.

(** utils.py 17-28: _invert_map. *)
Definition invert_map (m : list nat) : outcome (list nat) := pmap (fun i => where0 i m) (seq 0 (length m)).

(** utils.py 118-119, 171-172, 336-337, 384-385: _tensor_to_flat. *)
Definition tflat2 (order u v : nat) : nat := u + v * order.
Definition tflat3 (order u v w : nat) : nat := u + v * order + w * order * order.

(** utils.py 63-91: _VTK_to_lexicg_1D_nodes. *)
Definition VTK_1D (degree : nat) : list nat := [0; degree] ++ range 1 degree.
(** utils.py 94-144: _VTK_to_lexicg_2D_nodes. *)
Definition VTK_2D (degree : nat) : list nat :=
  let f := tflat2 (degree + 1) in let r := range 1 degree in let d := degree in
  [f 0 0; f d 0; f d d; f 0 d]
  ++ map (fun u => f u 0) r ++ map (fun v => f d v) r ++ map (fun u => f u d) r ++ map (fun v => f 0 v) r
  ++ flat_map (fun v => map (fun u => f u v) r) r.
(** utils.py 147-238: _VTK_to_lexicg_3D_nodes. *)
Definition VTK_3D (degree : nat) : list nat :=
  let f := tflat3 (degree + 1) in let r := range 1 degree in let d := degree in
  [f 0 0 0; f d 0 0; f d d 0; f 0 d 0; f 0 0 d; f d 0 d; f d d d; f 0 d d]
  ++ map (fun u => f u 0 0) r ++ map (fun v => f d v 0) r ++ map (fun u => f u d 0) r ++ map (fun v => f 0 v 0) r
  ++ map (fun u => f u 0 d) r ++ map (fun v => f d v d) r ++ map (fun u => f u d d) r ++ map (fun v => f 0 v d) r
  ++ map (fun w => f 0 0 w) r ++ map (fun w => f d 0 w) r ++ map (fun w => f d d w) r ++ map (fun w => f 0 d w) r
  ++ flat_map (fun w => map (fun v => f 0 v w) r) r ++ flat_map (fun w => map (fun v => f d v w) r) r
  ++ flat_map (fun w => map (fun u => f u 0 w) r) r ++ flat_map (fun w => map (fun u => f u d w) r) r
  ++ flat_map (fun v => map (fun u => f u v 0) r) r ++ flat_map (fun v => map (fun u => f u v d) r) r
  ++ flat_map (fun w => flat_map (fun v => map (fun u => f u v w) r) r) r.
(** utils.py 31-60: VTK_to_lexicg_nodes. *)
Definition VTK_to_lexicg_nodes (dim degree : nat) : outcome (list nat) :=
  assert_ ((1 <=? dim) && (dim <=? 3)) (assert_ (1 <=? degree)
    (Ret (if dim =? 1 then VTK_1D degree else if dim =? 2 then VTK_2D degree else VTK_3D degree))).
(** utils.py 241-264: lexicg_to_VTK_nodes. *)
Definition lexicg_to_VTK_nodes (dim degree : nat) : outcome (list nat) :=
  m <- VTK_to_lexicg_nodes dim degree ;; invert_map m.

(** utils.py 292-315: _DOLFINx_to_lexicg_1D_nodes. *)
Definition DLF_1D (degree : nat) : list nat := [0; degree] ++ range 1 degree.
(** utils.py 318-362: _DOLFINx_to_lexicg_2D_nodes. *)
Definition DLF_2D (degree : nat) : list nat :=
  let f := tflat2 (degree + 1) in let r := range 1 degree in let d := degree in
  [f 0 0; f d 0; f 0 d; f d d]
  ++ map (fun u => f u 0) r ++ map (fun v => f 0 v) r ++ map (fun v => f d v) r ++ map (fun u => f u d) r
  ++ flat_map (fun v => map (fun u => f u v) r) r.
(** utils.py 365-454: _DOLFINx_to_lexicg_3D_nodes. *)
Definition DLF_3D (degree : nat) : list nat :=
  let f := tflat3 (degree + 1) in let r := range 1 degree in let d := degree in
  [f 0 0 0; f d 0 0; f 0 d 0; f d d 0; f 0 0 d; f d 0 d; f 0 d d; f d d d]
  ++ map (fun u => f u 0 0) r ++ map (fun v => f 0 v 0) r ++ map (fun w => f 0 0 w) r
  ++ map (fun v => f d v 0) r ++ map (fun w => f d 0 w) r ++ map (fun u => f u d 0) r
  ++ map (fun w => f 0 d w) r ++ map (fun w => f d d w) r
  ++ map (fun u => f u 0 d) r ++ map (fun v => f 0 v d) r ++ map (fun v => f d v d) r ++ map (fun u => f u d d) r
  ++ flat_map (fun v => map (fun u => f u v 0) r) r ++ flat_map (fun w => map (fun u => f u 0 w) r) r
  ++ flat_map (fun w => map (fun v => f 0 v w) r) r ++ flat_map (fun w => map (fun v => f d v w) r) r
  ++ flat_map (fun w => map (fun u => f u d w) r) r ++ flat_map (fun v => map (fun u => f u v d) r) r
  ++ flat_map (fun w => flat_map (fun v => map (fun u => f u v w) r) r) r.
(** utils.py 267-289: DOLFINx_to_lexicg_nodes. *)
Definition DOLFINx_to_lexicg_nodes (dim degree : nat) : outcome (list nat) :=
  assert_ ((1 <=? dim) && (dim <=? 3)) (assert_ (1 <=? degree)
    (Ret (if dim =? 1 then DLF_1D degree else if dim =? 2 then DLF_2D degree else DLF_3D degree))).
(** utils.py 457-472: lexicg_to_DOLFINx_nodes. *)
Definition lexicg_to_DOLFINx_nodes (dim degree : nat) : outcome (list nat) :=
  m <- DOLFINx_to_lexicg_nodes dim degree ;; invert_map m.
(** utils.py 475-499: DOLFINx_to_VTK_nodes. *)
Definition DOLFINx_to_VTK_nodes (dim degree : nat) : outcome (list nat) :=
  dlf_to_lex <- DOLFINx_to_lexicg_nodes dim degree ;;
  lex_to_vtk <- lexicg_to_VTK_nodes dim degree ;;
  pmap (fun i => j <- pat dlf_to_lex i ;; pat lex_to_vtk j) (seq 0 (length dlf_to_lex)).
(** utils.py 502-526: VTK_to_DOLFINx_nodes. *)
Definition VTK_to_DOLFINx_nodes (dim degree : nat) : outcome (list nat) :=
  vtk_to_lex <- VTK_to_lexicg_nodes dim degree ;;
  lex_to_dlf <- lexicg_to_DOLFINx_nodes dim degree ;;
  pmap (fun i => j <- pat vtk_to_lex i ;; pat lex_to_dlf j) (seq 0 (length vtk_to_lex)).

(** utils.py 548-554, 573-579: the numberings of the faces. *)
Definition lexicg_to_DOLFINx_faces (dim : nat) : outcome (list nat) :=
  assert_ ((1 <=? dim) && (dim <=? 3)) (Ret (if dim =? 1 then [0; 1] else if dim =? 2 then [2; 0; 1; 3] else [4; 2; 0; 1; 3; 5])).
Definition DOLFINx_to_lexicg_faces (dim : nat) : outcome (list nat) :=
  assert_ ((1 <=? dim) && (dim <=? 3)) (Ret (if dim =? 1 then [0; 1] else if dim =? 2 then [1; 2; 0; 3] else [2; 3; 1; 4; 0; 5])).
(** utils.py 596-602, 619-625. *)
Definition lexicg_to_VTK_faces (dim : nat) : outcome (list nat) :=
  assert_ ((1 <=? dim) && (dim <=? 3)) (Ret (if dim =? 1 then [0; 1] else if dim =? 2 then [2; 1; 3; 0] else [2; 4; 0; 1; 3; 5])).
Definition VTK_to_lexicg_faces (dim : nat) : outcome (list nat) :=
  assert_ ((1 <=? dim) && (dim <=? 3)) (Ret (if dim =? 1 then [0; 1] else if dim =? 2 then [3; 1; 0; 2] else [2; 3; 0; 4; 1; 5])).
(** utils.py 644-648, 667-671: the numberings of the edges. *)
Definition lexicg_to_DOLFINx_edges (dim : nat) : outcome (list nat) :=
  assert_ ((1 <=? dim) && (dim <=? 3))
    (if dim <? 3 then lexicg_to_DOLFINx_faces dim else Ret [8; 4; 0; 5; 2; 9; 1; 3; 10; 6; 7; 11]).
Definition DOLFINx_to_lexicg_edges (dim : nat) : outcome (list nat) :=
  assert_ ((1 <=? dim) && (dim <=? 3))
    (if dim <? 3 then DOLFINx_to_lexicg_faces dim else Ret [2; 6; 4; 7; 1; 3; 9; 10; 0; 5; 8; 11]).
