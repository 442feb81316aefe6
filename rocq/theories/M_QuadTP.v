(** Model of the one-dimensional tables and of the tensor-product quadratures
    (cpp/qugar/quadrature.cpp, cpp/include/qugar/quadrature.hpp). *)
From Verif Require Export M_BBox M_Domain M_Classify.
Open Scope R_scope.

(** quadrature.hpp 47, 68 (Gauss) and 96, 117 (TanhSinh): n_max and n_entries. *)
Definition n_max : Z := 100.
Definition n_entries : Z := (n_max * (n_max + 1))%Z.

(** quadrature.cpp 49-59: the position read by get_abscissa_. *)
Definition abscissa_pos (n_points pt_id : Z) : outcome Z :=
  assert_ ((0 <? n_points) && (n_points <=? n_max))%Z (
  assert_ ((0 <=? pt_id) && (pt_id <? n_points))%Z (
  let offset := ((n_points - 1) * n_points)%Z in Ret (offset + pt_id * 2)%Z)).
(** quadrature.cpp 75-85: the position read by get_weight_. *)
Definition weight_pos (n_points pt_id : Z) : outcome Z :=
  assert_ ((0 <? n_points) && (n_points <=? n_max))%Z (
  assert_ ((0 <=? pt_id) && (pt_id <? n_points))%Z (
  let offset := ((n_points - 1) * n_points + 1)%Z in Ret (offset + pt_id * 2)%Z)).

Section Table.
(** The table of abscissae and weights (quadrature_lib.cpp), Gauss or tanh-sinh. *)
Context (table : list R).
(** quadrature.cpp 90-108 *)
Definition get_abscissa (n pt : Z) : outcome R := i <- abscissa_pos n pt ;; at_ table i.
Definition get_weight (n pt : Z) : outcome R := i <- weight_pos n pt ;; at_ table i.

Definition blen (b : bbox) (d : nat) : R := nth d (bmax b) 0 - nth d (bmin b) 0.
Definition bmn (b : bbox) (d : nat) : R := nth d (bmin b) 0.
Definition zseq (n : Z) : list Z := map Z.of_nat (seq 0 (Z.to_nat n)).

(** quadrature.cpp 217-224 (dim = 1). *)
Definition tp1 (n0 : Z) (dom : bbox) : outcome rule :=
  let len := blen dom 0 in let mn := bmn dom 0 in
  mapM (fun i => a <- get_abscissa n0 i ;; w <- get_weight n0 i ;; Ret ([mn + a * len], w * len)) (zseq n0).
(** quadrature.cpp 226-245 (dim = 2). *)
Definition tp2 (n0 n1 : Z) (dom : bbox) : outcome rule :=
  let len_0 := blen dom 0 in let min_0 := bmn dom 0 in let len_1 := blen dom 1 in let min_1 := bmn dom 1 in
  concatM (fun j =>
    aj <- get_abscissa n1 j ;; let p_j := min_1 + aj * len_1 in
    wj <- get_weight n1 j ;; let w_j := wj * len_1 in
    mapM (fun i =>
      ai <- get_abscissa n0 i ;; let p_i := min_0 + ai * len_0 in
      wi <- get_weight n0 i ;; let w_i := wi * len_0 in
      Ret ([p_i; p_j], w_i * w_j)) (zseq n0)) (zseq n1).
(** quadrature.cpp 247-276 (dim = 3): as written, the minimum corner is added to the weights. *)
Definition tp3 (n0 n1 n2 : Z) (dom : bbox) : outcome rule :=
  let len_0 := blen dom 0 in let min_0 := bmn dom 0 in let len_1 := blen dom 1 in let min_1 := bmn dom 1 in
  let len_2 := blen dom 2 in let min_2 := bmn dom 2 in
  concatM (fun k =>
    ak <- get_abscissa n2 k ;; let p_k := ak * len_2 in
    wk <- get_weight n2 k ;; let w_k := min_2 + wk * len_2 in
    concatM (fun j =>
      aj <- get_abscissa n1 j ;; let p_j := aj * len_1 in
      wj <- get_weight n1 j ;; let w_j := min_1 + wj * len_1 in
      mapM (fun i =>
        ai <- get_abscissa n0 i ;; let p_i := ai * len_0 in
        wi <- get_weight n0 i ;; let w_i := min_0 + wi * len_0 in
        Ret ([p_i; p_j; p_k], w_i * w_j * w_k)) (zseq n0)) (zseq n1)) (zseq n2).

(** quadrature.cpp 199-280: create_tp_quadrature, including the assertions of the constructor (110-116). The product
    of the sizes is not checked for overflow (at most 100^3 points pass the later assertions). *)
Definition create_tp (ns : list Z) (dom : bbox) : outcome rule :=
  assert_ (forallb (Z.leb 0) ns) (
  r <- match ns with
       | [n0] => tp1 n0 dom
       | [n0; n1] => tp2 n0 n1 dom
       | [n0; n1; n2] => tp3 n0 n1 n2 dom
       | _ => Abort (* other dimensions are not instantiated *)
       end ;;
  assert_ (negb (match r with [] => true | _ => false end)) (Ret r)).

(** bbox.cpp 34: the default box. *)
Definition unit_box (dim : nat) : bbox := mk_box (repeat 0 dim) (repeat 1 dim).
(** quadrature.cpp 118-133 (and 142-158 for tanh-sinh): create_Gauss_01(n), create_Gauss_01(array). *)
Definition create_01 (dim : nat) (n : Z) : outcome rule :=
  assert_ ((0 <=? n) && (n <=? n_max))%Z (create_tp (repeat n dim) (unit_box dim)).
(** quadrature.cpp 194-197: scale_weights. *)
Definition scale_weights (ratio : R) (q : rule) : rule := map (fun nw => (fst nw, snd nw * ratio)) q.
End Table.
