(** python/qugar/mesh/tp_index.py: TensorProdIndex. *)
From Verif Require Import M_PyBase M_PyNodes.

(** [n_inds[i]] for an index known to be in range, [np.prod(n_inds)]. *)
Definition n_ (n : list nat) (i : nat) : nat := nth i n 0.
Definition nprod (n : list nat) : nat := fold_right Nat.mul 1 n.

(** tp_index.py 48-74: get_all_corners ([n_inds[0]-1] of a direction without indices is not modelled: nat subtraction). *)
Definition corners1 (n : list nat) : list nat := [0; n_ n 0 - 1].
Definition corners2 (n : list nat) : list nat := corners1 n ++ map (fun c => c + n_ n 0 * (n_ n 1 - 1)) (corners1 n).
Definition corners3 (n : list nat) : list nat := corners2 n ++ map (fun c => c + n_ n 0 * n_ n 1 * (n_ n 2 - 1)) (corners2 n).
Definition get_all_corners (n : list nat) : outcome (list nat) :=
  match length n with 1 => Ret (corners1 n) | 2 => Ret (corners2 n) | 3 => Ret (corners3 n) | _ => Abort end.

(** Arrays of get_all_internal: a 1D or a 2D numpy array. *)
Inductive arr := A1 (l : list nat) | A2 (rows : list (list nat)).
Definition entries (a : arr) : list nat := match a with A1 l => l | A2 r => concat r end.
(** numpy's [a + c.reshape(m, 1)] where [c] has length m: a 1D array becomes one row per entry of [c]; a 2D array is broadcast
    when it has as many rows as [c], or one row, or when [c] has one entry; otherwise numpy raises. *)
Definition add_column (a : arr) (c : list nat) : outcome arr :=
  match a with
  | A1 l => Ret (A2 (outer_sum l c))
  | A2 rows =>
      if length rows =? length c then Ret (A2 (map (fun rc => map (fun x => x + snd rc) (fst rc)) (combine rows c)))
      else match rows with
           | [r] => Ret (A2 (outer_sum r c))
           | _ => match c with
                  | [y] => Ret (A2 (map (map (fun x => x + y)) rows))
                  | _ => Abort
                  end
           end
  end.
(** tp_index.py 77-108: get_all_internal ([reshape] raises when the sizes differ). *)
Definition internal1 (n : list nat) : arr := A1 (arange 1 (n_ n 0 - 1) 1).
Definition internal2 (n : list nat) : outcome arr :=
  let c := arange (n_ n 0) (n_ n 0 * (n_ n 1 - 1)) (n_ n 0) in
  assert_ (length c =? n_ n 1 - 2) (add_column (internal1 n) c).
Definition internal3 (n : list nat) : outcome arr :=
  a <- internal2 n ;;
  let n01 := n_ n 0 * n_ n 1 in
  let c := arange n01 (n01 * (n_ n 2 - 1)) n01 in
  assert_ (length c =? n_ n 2 - 2) (add_column a c).
Definition get_all_internal (n : list nat) : outcome arr :=
  match length n with 1 => Ret (internal1 n) | 2 => internal2 n | 3 => internal3 n | _ => Abort end.

(** tp_index.py 187-209: get_corner. *)
Definition get_corner (n : list nat) (c : nat) : outcome nat :=
  assert_ ((1 <=? length n) && (length n <=? 3) && (c <? 2 ^ length n)) (l <- get_all_corners n ;; pat l c).

(** tp_index.py 238-275: the faces in lexicographical numbering. *)
Definition lex_face (n : list nat) (f : nat) : outcome (list nat) :=
  match length n with
  | 1 => c <- get_corner n f ;; Ret [c]
  | 2 =>
      match f with
      | 0 => Ret (arange 0 (nprod n) (n_ n 0))
      | 1 => Ret (map (fun x => x + (n_ n 0 - 1)) (arange 0 (nprod n) (n_ n 0)))
      | 2 => Ret (arange 0 (n_ n 0) 1)
      | _ => Ret (map (fun x => x + n_ n 0 * (n_ n 1 - 1)) (arange 0 (n_ n 0) 1))
      end
  | 3 =>
      match f with
      | 0 => Ret (arange 0 (nprod n) (n_ n 0))
      | 1 => Ret (map (fun x => x + (n_ n 0 - 1)) (arange 0 (nprod n) (n_ n 0)))
      | 2 => Ret (concat (outer_sum (arange 0 (n_ n 0) 1) (arange 0 (n_ n 0 * n_ n 1 * n_ n 2) (n_ n 0 * n_ n 1))))
      | 3 => Ret (map (fun x => x + n_ n 0 * (n_ n 1 - 1))
                  (concat (outer_sum (arange 0 (n_ n 0) 1) (arange 0 (n_ n 0 * n_ n 1 * n_ n 2) (n_ n 0 * n_ n 1)))))
      | 4 => Ret (arange 0 (n_ n 0 * n_ n 1) 1)
      | _ => Ret (map (fun x => x + n_ n 0 * n_ n 1 * (n_ n 2 - 1)) (arange 0 (n_ n 0 * n_ n 1) 1))
      end
  | _ => Abort
  end.
(** tp_index.py 212-275: get_face. *)
Definition get_face (n : list nat) (face_id : nat) (lexicg : bool) : outcome (list nat) :=
  assert_ ((1 <=? length n) && (length n <=? 3) && (face_id <? 2 * length n))
    (f <- (if lexicg then Ret face_id else t <- lexicg_to_DOLFINx_faces (length n) ;; pat t face_id) ;; lex_face n f).

(** numpy slice assignment [l[a : a + len(v)] = v]: raises when the clipped slice has another size than [v], unless [v] has size one
    (broadcast). *)
Definition put (l : list nat) (a : nat) (v : list nat) : outcome (list nat) :=
  if a + length v <=? length l then Ret (firstn a l ++ v ++ skipn (a + length v) l)
  else if length v =? 1 then Ret l else Abort.
(** [l[-len(v):] = v]. *)
Definition put_end (l v : list nat) : outcome (list nat) := put l (length l - length v) v.
(** [l[i] = x]. *)
Definition put1 (l : list nat) (i x : nat) : outcome (list nat) := assert_ (i <? length l) (put l i [x]).
(** tp_index.py 135-138: the loop over the rows. *)
Fixpoint rows2 (n0 : nat) (js : list nat) (i : nat) (l : list nat) : outcome (list nat) :=
  match js with
  | [] => Ret l
  | j :: js' => l <- put1 l i (j * n0) ;; l <- put1 l (i + 1) ((j + 1) * n0 - 1) ;; rows2 n0 js' (i + 2) l
  end.
(** tp_index.py 151-153: the loop over the layers. *)
Fixpoint layers3 (n01 : nat) (b : list nat) (ks : list nat) (i : nat) (l : list nat) : outcome (list nat) :=
  match ks with
  | [] => Ret l
  | k :: ks' => l <- put l i (map (fun x => x + k * n01) b) ;; layers3 n01 b ks' (i + length b) l
  end.
(** tp_index.py 111-157: get_all_faces (the sizes 131, 141 as naturals: with one index per direction Python's may be negative and then
    raise; here they are cut at zero). *)
Definition all_faces2 (n : list nat) : outcome (list nat) :=
  let faces := repeat 0 (2 * n_ n 0 + 2 * n_ n 1 - 4) in
  lo <- get_face n 2 true ;;
  faces <- put faces 0 lo ;;
  faces <- rows2 (n_ n 0) (range 1 (n_ n 1 - 1)) (n_ n 0) faces ;;
  hi <- get_face n 3 true ;;
  put_end faces hi.
Definition all_faces3 (n : list nat) : outcome (list nat) :=
  let n01 := n_ n 0 * n_ n 1 in
  let faces := repeat 0 (2 * n_ n 0 * n_ n 1 + 2 * (n_ n 0 + n_ n 1 - 2) * (n_ n 2 - 2)) in
  lo <- get_face n 4 true ;;
  faces <- put faces 0 lo ;;
  b <- all_faces2 (firstn 2 n) ;;
  faces <- layers3 n01 b (range 1 (n_ n 2 - 1)) n01 faces ;;
  hi <- get_face n 5 true ;;
  put_end faces hi.
Definition get_all_faces (n : list nat) : outcome (list nat) :=
  match length n with 1 => get_all_corners n | 2 => all_faces2 n | 3 => all_faces3 n | _ => Abort end.

(** tp_index.py 278-318: get_edge. *)
Definition lex_edge3 (n : list nat) (e : nat) : outcome (list nat) :=
  assert_ (e <? 12)
    (if e <? 4 then i0 <- get_corner n e ;; Ret (arange i0 (nprod n) (n_ n 0 * n_ n 1))
     else if e <? 8 then
       c <- pat [0; 1; 4; 5] (e - 4) ;; i0 <- get_corner n c ;; Ret (arange i0 (i0 + n_ n 0 * n_ n 1) (n_ n 0))
     else
       c <- pat [0; 2; 4; 6] (e - 8) ;; i0 <- get_corner n c ;; Ret (arange i0 (i0 + n_ n 0) 1)).
Definition get_edge (n : list nat) (edge_id : nat) (lexicg : bool) : outcome (list nat) :=
  assert_ ((1 <=? length n) && (length n <=? 3))
    (e <- (if lexicg then Ret edge_id else t <- lexicg_to_DOLFINx_edges (length n) ;; pat t edge_id) ;;
     if length n <? 3 then get_face n e true else lex_edge3 n e).

(** tp_index.py 321-343: __create_dims_accumulation. *)
Fixpoint accum_from (a : nat) (n : list nat) : list nat :=
  match n with [] => [] | [_] => [a] | x :: n' => a :: accum_from (a * x) n' end.
Definition dims_accumulation (n : list nat) : list nat := accum_from 1 n.
(** [np.dot]: raises when the sizes differ. *)
Definition dot (a b : list nat) : nat := fold_right Nat.add 0 (map (fun ab => fst ab * snd ab) (combine a b)).
(** tp_index.py 346-361: get_flat_index. *)
Definition get_flat_index (n tid : list nat) : outcome nat :=
  assert_ (length n =? length tid) (Ret (dot (dims_accumulation n) tid)).
(** tp_index.py 364-387: get_tensor_index: the loop over the directions dir = dim-1, ..., 0, [tid] being zero at the directions not
    visited yet. *)
Definition set_nth (l : list nat) (i x : nat) : list nat := firstn i l ++ [x] ++ skipn (S i) l.
Fixpoint tensor_loop (accum : list nat) (id : nat) (dirs : list nat) (tid : list nat) : list nat :=
  match dirs with
  | [] => tid
  | dir :: dirs' => tensor_loop accum id dirs' (set_nth tid dir ((id - dot tid accum) / nth dir accum 1))
  end.
Definition get_tensor_index (n : list nat) (id : nat) : list nat :=
  let accum := dims_accumulation n in
  tensor_loop accum id (rev (seq 0 (length accum))) (repeat 0 (length accum)).
