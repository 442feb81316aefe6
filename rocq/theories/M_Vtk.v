(** Model of the VTK writer of cpp/qugar/reparam_mesh.cpp (57-69, 248-325, 739-756).  A file is the list of the items sent to its stream: pieces of text,
    numbers, blanks and ends of line.  Simplifications: the text literals that hold blanks and the digit 0 (lines 279, 281) are split into blanks and numbers; a double is an item (it is
    printed with max_digits10 digits, from which it is read back exactly); opening the file does not fail. *)
From Verif Require Export M_Mesh.
From Coq Require Export String List.
Export ListNotations.
Close Scope string_scope.
Close Scope Z_scope.
Close Scope R_scope.
Open Scope nat_scope.

Inductive item := Txt (s : string) | Num (n : nat) | Dbl (x : R) | Sp | Nl.
Definition file := list item.
(** The text with a quote: the attribute name="value". *)
Definition quote : string := String (Ascii.ascii_of_nat 34) EmptyString.
Definition attr (name value : string) : string := (" " ++ name ++ "=" ++ quote ++ value ++ quote)%string.

(** reparam_mesh.cpp 57-69: get_VTK_cell_type. *)
Definition vtk_cell_type (dim order : nat) : outcome nat :=
  assert_ (1 <? order) (Ret (if order =? 2 then (if dim =? 1 then 3 else if dim =? 2 then 9 else 12) else (if dim =? 1 then 68 else if dim =? 2 then 70 else 72))).
(** reparam_mesh.cpp 277-285: the coordinates of a point, completed with zeros. *)
Definition point_items (range : nat) (p : list R) : file :=
  match range with
  | 1 => [Dbl (nth 0 p 0%R); Sp; Dbl 0; Sp; Dbl 0; Sp]
  | 2 => [Dbl (nth 0 p 0%R); Sp; Dbl (nth 1 p 0%R); Sp; Dbl 0; Sp]
  | _ => [Dbl (nth 0 p 0%R); Sp; Dbl (nth 1 p 0%R); Sp; Dbl (nth 2 p 0%R); Sp]
  end.
Definition xml_line : file := [Txt ("<?xml" ++ attr "version" "1.0" ++ "?>")%string; Nl].
Definition data_tag (type name rest : string) : item := Txt ("  <DataArray" ++ attr "type" type ++ attr "Name" name ++ rest ++ attr "format" "ascii" ++ ">")%string.
Definition close_data : file := [Txt "</DataArray>"; Nl].
(** reparam_mesh.cpp 248-325: write_reparam_to_VTK_cells; the content of the file. *)
Definition vtk_cells (dim range : nat) (points : list (list R)) (conn : list nat) (order : nat) : outcome file :=
  assert_ (1 <? order) (
  let n := order ^ dim in
  assert_ (length conn mod n =? 0) (
  out <- vtu_connectivity dim (mk_mesh order points conn []) ;;
  cell_type <- vtk_cell_type dim order ;;
  let n_cells := length conn / n in
  Ret (xml_line ++ [Txt ("<VTKFile" ++ attr "type" "UnstructuredGrid" ++ attr "version" "0.1" ++ attr "byte_order" "LittleEndian" ++ ">")%string; Nl; Txt "<UnstructuredGrid>"; Nl;
       Txt ("<Piece NumberOfPoints=" ++ quote)%string; Num (length points); Txt (quote ++ " NumberOfCells=" ++ quote)%string; Num n_cells; Txt (quote ++ ">")%string; Nl; Txt "<Points>"; Nl;
       data_tag "Float64" "Points" (attr "NumberOfComponents" "3")] ++ flat_map (point_items range) points ++ close_data ++ [Txt "</Points>"; Nl; Txt "<Cells>"; Nl;
       data_tag "UInt64" "connectivity" ""] ++ flat_map (fun i => [Num i; Sp]) out ++ close_data ++
       [data_tag "UInt64" "offsets" ""] ++ flat_map (fun c => [Num ((c + 1) * n); Sp]) (seq 0 n_cells) ++ close_data ++
       [data_tag "Int32" "types" ""] ++ flat_map (fun _ => [Num cell_type; Sp]) (seq 0 n_cells) ++ close_data ++
       [Txt "</Cells>"; Nl; Txt "</Piece>"; Nl; Txt "</UnstructuredGrid>"; Nl; Txt "</VTKFile>"; Nl]))).
(** reparam_mesh.cpp 745-755: the multi-block file. *)
Definition vtmb_file (filename : string) : file :=
  xml_line ++ [Txt ("<VTKFile" ++ attr "type" "vtkMultiBlockDataSet" ++ attr "version" "1.0" ++ attr "byte_order" "LittleEndian" ++ ">")%string; Nl; Txt "  <vtkMultiBlockDataSet>"; Nl;
    Txt ("    <DataSet" ++ attr "index" "0" ++ attr "name" "interior" ++ " file=" ++ quote)%string; Txt filename; Txt (".vtu" ++ quote ++ "/>")%string; Nl;
    Txt ("    <DataSet" ++ attr "index" "1" ++ attr "name" "boundary" ++ " file=" ++ quote)%string; Txt (filename ++ "_wb")%string; Txt (".vtu" ++ quote ++ "/>")%string; Nl;
    Txt "  </vtkMultiBlockDataSet>"; Nl; Txt "</VTKFile>"; Nl].
(** reparam_mesh.cpp 739-756: write_VTK_file; the files with their contents, in the order in which they are written. *)
Definition write_VTK_file (dim range : nat) (m : mesh) (filename : string) : outcome (list (string * file)) :=
  f1 <- vtk_cells dim range (m_points m) (m_conn m) (m_order m) ;;
  f2 <- vtk_cells 1 range (m_points m) (m_wires m) (m_order m) ;;
  Ret [((filename ++ ".vtu")%string, f1); ((filename ++ "_wb" ++ ".vtu")%string, f2); ((filename ++ ".vtmb")%string, vtmb_file filename)].
