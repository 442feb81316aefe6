(** Specification vocabulary for VTK files (C103, C104): what a reader finds in a file. *)
From Verif Require Export M_Vtk S_Mesh.
Local Open Scope nat_scope.

(** The items after the first occurrence of a text. *)
Fixpoint after (s : string) (f : file) : option file :=
  match f with [] => None | Txt t :: f' => if String.eqb t s then Some f' else after s f' | _ :: f' => after s f' end.
(** Numbers, each followed by a blank, up to the text that closes an array. *)
Fixpoint naturals (f : file) : option (list nat) :=
  match f with
  | Num n :: Sp :: f' => match naturals f' with Some l => Some (n :: l) | None => None end
  | Txt t :: _ => if String.eqb t "</DataArray>" then Some [] else None
  | _ => None
  end.
Fixpoint reals (f : file) : option (list R) :=
  match f with
  | Dbl x :: Sp :: f' => match reals f' with Some l => Some (x :: l) | None => None end
  | Txt t :: _ => if String.eqb t "</DataArray>" then Some [] else None
  | _ => None
  end.
Definition number (f : file) : option nat := match f with Num n :: _ => Some n | _ => None end.
(** The value of an attribute that is written as a text. *)
Definition text (f : file) : option string := match f with Txt a :: Txt b :: _ => Some (a ++ b)%string | _ => None end.
Definition look {A} (tag : string) (g : file -> option A) (f : file) : option A := match after tag f with Some f' => g f' | None => None end.
(** The double quote. *)
Definition dq : string := String (Ascii.ascii_of_nat 34) EmptyString.
Definition array_tag (type name rest : string) : string :=
  ("  <DataArray type=" ++ dq ++ type ++ dq ++ " Name=" ++ dq ++ name ++ dq ++ rest ++ " format=" ++ dq ++ "ascii" ++ dq ++ ">")%string.

(** The content of an unstructured grid: the declared numbers, and the four arrays. *)
Record vtu := mk_vtu { u_npoints : nat; u_ncells : nat; u_points : list R; u_conn : list nat; u_offsets : list nat; u_types : list nat }.
Definition reads (f : file) (u : vtu) : Prop :=
  look ("<Piece NumberOfPoints=" ++ dq)%string number f = Some (u_npoints u) /\ look (dq ++ " NumberOfCells=" ++ dq)%string number f = Some (u_ncells u) /\
  look (array_tag "Float64" "Points" (" NumberOfComponents=" ++ dq ++ "3" ++ dq)) reals f = Some (u_points u) /\
  look (array_tag "UInt64" "connectivity" "") naturals f = Some (u_conn u) /\
  look (array_tag "UInt64" "offsets" "") naturals f = Some (u_offsets u) /\ look (array_tag "Int32" "types" "") naturals f = Some (u_types u).
(** The ids of the points of a cell: between the previous offset and its own. *)
Definition u_cell (u : vtu) (c : nat) : list nat :=
  let start := match c with O => 0 | S c' => nth c' (u_offsets u) 0 end in firstn (nth c (u_offsets u) 0 - start) (skipn start (u_conn u)).
Definition u_point (u : vtu) (i : nat) : list R := [nth (3 * i) (u_points u) 0%R; nth (3 * i + 1) (u_points u) 0%R; nth (3 * i + 2) (u_points u) 0%R].
(** VTK's number of the type of a cell: linear or Lagrange lines, quadrilaterals, hexahedra. *)
Definition vtk_type (dim order : nat) : nat :=
  match dim with 1 => if order =? 2 then 3 else 68 | 2 => if order =? 2 then 9 else 70 | _ => if order =? 2 then 12 else 72 end.
(** The grid [u] shows n cells of dimension dim and [order] points per direction, with the connectivity [conn] over the points. *)
Definition shows (dim order : nat) (points : list (list R)) (conn : list nat) (n : nat) (u : vtu) : Prop :=
  u_npoints u = length points /\ u_ncells u = n /\ length (u_points u) = 3 * length points /\ length (u_offsets u) = n /\ length (u_types u) = n /\
  length (u_conn u) = n * order ^ dim /\ Forall (fun i => i < u_npoints u) (u_conn u) /\
  (forall i d, i < length points -> d < 3 -> nth d (u_point u i) 0%R = nth d (nth i points []) 0%R) /\
  forall c, c < n -> nth c (u_types u) 0 = vtk_type dim order /\ length (u_cell u c) = order ^ dim /\
    forall t, is_index dim order t -> nth (vtk_index order t) (u_cell u c) 0 = nth (c * order ^ dim + position order t) conn 0.

(** ** File names *)
Definition slash : Ascii.ascii := Ascii.ascii_of_nat 47.
Fixpoint has_slash (s : string) : bool := match s with EmptyString => false | String c s' => (Ascii.eqb c slash || has_slash s')%bool end.
(** No double quote. *)
Fixpoint plain (s : string) : bool := match s with EmptyString => true | String c s' => (negb (Ascii.eqb c (Ascii.ascii_of_nat 34)) && plain s')%bool end.
(** The directory of a file name, with its last slash (empty if there is none). *)
Fixpoint dirname (s : string) : string := match s with EmptyString => EmptyString | String c s' => if (Ascii.eqb c slash || has_slash s')%bool then String c (dirname s') else EmptyString end.
Definition absolute (s : string) : bool := match s with String c _ => Ascii.eqb c slash | _ => false end.
(** A reader of the file [base] looks for the file [name] in the directory of [base]. *)
Definition resolve (base name : string) : string := if absolute name then name else (dirname base ++ name)%string.
(** The names in the file attributes of a multi-block file: the text that ends with the quote. *)
Definition drop_end (k : nat) (s : string) : string := substring 0 (String.length s - k) s.
Definition block (index name : string) (f : file) : option string :=
  match look ("    <DataSet index=" ++ dq ++ index ++ dq ++ " name=" ++ dq ++ name ++ dq ++ " file=" ++ dq)%string text f with
  | Some s => Some (drop_end 3 s) (* without the quote and the end of the tag *)
  | None => None
  end.
(** The file [base] refers to the file that is named [name], for the reader that opens [base]. *)
Definition refers (base : string) (ref : option string) (name : string) : Prop := exists r, ref = Some r /\ resolve base r = name.
