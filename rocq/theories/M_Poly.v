(** Model of cpp/qugar/polynomial_tp.cpp, bezier_tp.cpp, bezier_tp_utils.cpp, bezier_tp_utils_composition.cpp and monomials_tp.cpp.
    Coefficients are reals: for range > 1 every operation of these files acts on the components separately.  Only the instances with
    [T = real] are modelled (not algoim's interval arithmetic). *)
From Verif Require Export M_Real M_TensorNat M_Point M_Classify.
Close Scope Z_scope.
Open Scope R_scope.

(** polynomial_tp.hpp: order_ (direction 0 first) and coefs_ (flat, direction 0 fastest). *)
Record poly := mk_poly { p_order : list nat; p_coefs : list R }.
(** polynomial_tp.cpp 51-65: constructor with its assertions (static_assert 0 < dim). *)
Definition make_poly (order : list nat) (coefs : list R) : outcome poly :=
  assert_ (0 <? length order)%nat (
  assert_ (forallb (fun o => 0 <? o)%nat order) (
  assert_ (tp_size order =? length coefs)%nat (Ret (mk_poly order coefs)))).
(** polynomial_tp.cpp 38-48: constructor from a constant value. *)
Definition make_const (order : list nat) (v : R) : outcome poly := make_poly order (repeat v (tp_size order)).
(** polynomial_tp.cpp 131-137: coefs_linear_transform. *)
Definition coefs_linear_transform (p : poly) (scale shift : R) : poly :=
  mk_poly (p_order p) (map (fun c => scale * c + shift) (p_coefs p)).
(** polynomial_tp.cpp 118-128: transform_image, range 1 ([old_lo], [old_len], [new_lo], [new_len] describe the two intervals). *)
Definition transform_image (p : poly) (old_lo old_len new_lo new_len : R) : poly :=
  mk_poly (p_order p) (map (fun c => (c - old_lo) * new_len / old_len + new_lo) (p_coefs p)).

(** algoim's Binomial::row(n)[k] (external): Pascal's triangle. *)
Fixpoint binom (n k : nat) : R :=
  match k, n with
  | O, _ => 1
  | S _, O => 0
  | S k', S n' => binom n' k' + binom n' k
  end.
(** The successive values of [val] in [val = start; for i < n { use val; val *= x }]. *)
Fixpoint powers (x val : R) (n : nat) : list R := match n with O => [] | S n' => val :: powers x (val * x) n' end.
(** [v[k] += a] *)
Definition add_at (v : list R) (k : nat) (a : R) : list R := set_at v k (nth k v 0 + a).

(** bezier_tp_utils.cpp 273-292: evaluate_Bernstein_value (the second loop runs from the last entry down). *)
Definition bernstein_values (x : R) (order : nat) : list R :=
  map2 Rmult (map2 Rmult (powers x 1 order) (map (binom (order - 1)) (seq 0 order))) (rev (powers (1 - x) 1 order)).
(** bezier_tp_utils.cpp 294-322: evaluate_Bernstein.  The recursive call fills the first order - 1 entries of the vector; the last
    one is assigned first, then the loop goes down in place, then entry 0. *)
Fixpoint bernstein_ders (x : R) (order der : nat) : list R :=
  match der with
  | O => bernstein_values x order
  | S d =>
      if (order <=? der)%nat then repeat 0 order else
      let v := bernstein_ders x (order - 1) d in
      let degree := (order - 1)%nat in
      let v1 := v ++ [INR degree * nth (order - 2) v 0] in
      let v2 := fold_left (fun v i => set_at v i (INR degree * (nth (i - 1) v 0 - nth i v 0))) (rev (seq 1 (degree - 1))) v1 in
      set_at v2 0 (nth 0 v2 0 * - INR degree)
  end.
Definition evaluate_Bernstein (x : R) (order der : nat) : outcome (list R) := assert_ (0 <? order)%nat (Ret (bernstein_ders x order der)).

(** ** De Casteljau *)
(** [b_k += (b_{k+1} - b_k) * x] *)
Definition lerp (x a b : R) : R := a + (b - a) * x.
Definition vlerp (x : R) (a b : list R) : list R := map2 (lerp x) a b.
(** bezier_tp.cpp 186-191 and 245-253: the in-place triangle, for values or for vectors of values. *)
Definition cj_pass {A} (lp : A -> A -> A) (d : A) (m : nat) (beta : list A) : list A :=
  fold_left (fun b k => set_at b k (lp (nth k b d) (nth (S k) b d))) (seq 0 m) beta.
Definition cj_loop {A} (lp : A -> A -> A) (d : A) (beta : list A) : list A :=
  fold_left (fun b j => cj_pass lp d (length beta - j) b) (seq 1 (length beta - 1)) beta.
(** [n] successive results read from the coefficient iterator. *)
Fixpoint read_n {A} (rd : list R -> A * list R) (n : nat) (coefs : list R) : list A * list R :=
  match n with
  | O => ([], coefs)
  | S n' => let r := rd coefs in let s := read_n rd n' (snd r) in (fst r :: fst s, snd s)
  end.
(** bezier_tp.cpp 164-194: casteljau; the last direction first ([rorder], [rpoint] are the order and the point reversed).  Returns the
    value and the advanced iterator.  Dimension 0 reads one coefficient, so that dimension 1 reads [last_order] of them. *)
Fixpoint casteljau (rorder : list nat) (rpoint coefs : list R) : R * list R :=
  match rorder, rpoint with
  | n :: ro, x :: rp => let b := read_n (casteljau ro rp) n coefs in (hd 0 (cj_loop (lerp x) 0 (fst b)), snd b)
  | _, _ => (hd 0 coefs, tl coefs)
  end.
(** bezier_tp.cpp 78-84, 138-141: operator(). *)
Definition bezier_eval (p : poly) (x : list R) : R := fst (casteljau (rev (p_order p)) (rev x) (p_coefs p)).

(** bezier_tp.cpp 225-243: gamma, from the values beta(0). *)
Definition bezier_gamma (b : list R) : list R :=
  let order := length b in
  let degree := (order - 1)%nat in
  let g1 := set_at (set_at (repeat 0 order) 0 (- INR degree * nth 0 b 0)) 1 (- nth 0 b 0) in
  let g2 := fold_left (fun g i =>
       let bi := nth i b 0 in
       add_at (add_at (add_at g (i - 1) (INR (order - i) * bi)) i ((2 * INR i - INR degree) * bi)) (S i) (- (INR (S i) * bi)))
     (seq 1 (degree - 1)) g1 in
  add_at (add_at g2 (degree - 1) (last b 0)) degree (INR degree * last b 0).
(** bezier_tp.cpp 197-258: casteljau_der: the value followed by the derivatives.  The loop updates beta and gamma together; they do not
    interact, so they are modelled one after the other. *)
Fixpoint casteljau_der (rorder : list nat) (rpoint coefs : list R) : list R * list R :=
  match rorder, rpoint with
  | n :: ro, x :: rp =>
      let b := read_n (casteljau_der ro rp) n coefs in
      let beta := fst b in
      if (1 <? n)%nat
      then (hd [] (cj_loop (vlerp x) [] beta) ++ [hd 0 (cj_loop (lerp x) 0 (bezier_gamma (map (hd 0) beta)))], snd b)
      else (hd [] beta ++ [hd 0 (repeat 0 n)], snd b)
  | _, _ => ([hd 0 coefs], tl coefs)
  end.
(** bezier_tp.cpp 87-93, 149-153: grad. *)
Definition bezier_grad (p : poly) (x : list R) : list R := tl (fst (casteljau_der (rev (p_order p)) (rev x) (p_coefs p))).

(** bezier_tp.cpp 96-136 and monomials_tp.cpp 129-170: hessian, from a table of basis values [bases der dir]. *)
Definition hess_pairs (dim : nat) : list (nat * nat) := flat_map (fun i => map (fun j => (i, j)) (seq i (dim - i))) (seq 0 dim).
Definition hess_ders (ij : nat * nat) (d : nat) : nat := ((if d =? fst ij then 1 else 0) + (if d =? snd ij then 1 else 0))%nat.
Definition hess_entry (bases : nat -> nat -> list R) (p : poly) (ij : nat * nat) : R :=
  fold_left (fun acc ct =>
      acc + fold_left (fun v d => v * nth (nth d (snd ct) O) (bases (hess_ders ij d) d) 0) (seq 0 (length (p_order p))) (fst ct))
    (combine (p_coefs p) (tp_all (p_order p))) 0.
Definition hessian_of (basis : R -> nat -> nat -> list R) (p : poly) (x : list R) : list R :=
  map (hess_entry (fun der dir => basis (nth dir x 0) (nth dir (p_order p) O) der) p) (hess_pairs (length (p_order p))).
Definition bezier_hessian (p : poly) (x : list R) : list R := hessian_of bernstein_ders p x.

(** ** Bezier arithmetic *)
Definition binom_prod (order t : list nat) : R := fold_left Rmult (map2 (fun o i => binom (o - 1) i) order t) 1.
(** bezier_tp_utils.cpp 50-58, 114-132, 196-216: compute_aux_vector. *)
Definition aux_vector (p : poly) : list R := map2 (fun c t => c * binom_prod (p_order p) t) (p_coefs p) (tp_all (p_order p)).
(** bezier_tp_utils.cpp 81-83 (dim 1), 154-157 (dim 2), 243-246 (dim 3): the position of the updated coefficient. *)
Definition product_pos (o t u : list nat) : nat :=
  match o, t, u with
  | [_], [i], [l] => i + l
  | [o0; _], [i; j], [l; m] => (j + m) * o0 + i + l
  | [o0; o1; _], [i; j; k], [l; m; n] => ((k + n) * o0) * o1 + ((j + m) * o0) + i + l
  | _, _, _ => 0
  end%nat.
(** bezier_tp_utils.cpp 43-95, 97-175, 177-269, 324-328: Bezier_product.  The nested loops over the indices of each factor are
    loops over its tensor indices. *)
Definition product_order (a b : list nat) : list nat := map2 (fun x y => ((x - 1) + (y - 1) + 1)%nat) a b.
Definition bezier_product (p q : poly) : outcome poly :=
  let o := product_order (p_order p) (p_order q) in
  let conv := fold_left (fun acc at_ => fold_left (fun acc bu => add_at acc (product_pos o (snd at_) (snd bu)) (fst at_ * fst bu))
                                          (combine (aux_vector q) (tp_all (p_order q))) acc)
                (combine (aux_vector p) (tp_all (p_order p))) (repeat 0 (tp_size o)) in
  match length (p_order p) with
  | 1%nat | 2%nat | 3%nat => make_poly o (map2 (fun c s => c / binom_prod o s) conv (tp_all o))
  | _ => Abort (* not instantiated *)
  end.
Definition order_eqb (a b : list nat) : bool := if list_eq_dec Nat.eq_dec a b then true else false.
(** bezier_tp.cpp 377-394: raise_order. *)
Definition raise_order (p : poly) (new : list nat) : outcome poly :=
  if order_eqb new (p_order p) then Ret p else
  assert_ (forallb (fun ab => (snd ab <=? fst ab)%nat) (combine new (p_order p))) (
  unit <- make_const (map2 (fun n o => (n - o + 1)%nat) new (p_order p)) 1 ;;
  bezier_product p unit).
(** bezier_tp.cpp 266-302 (operator+) and 304-341 (operator-): [op] on the coefficients; the recursive call has fuel. *)
Fixpoint bezier_combine (fuel : nat) (op : R -> R -> R) (p q : poly) : outcome poly :=
  if order_eqb (p_order q) (p_order p) then make_poly (p_order p) (map2 op (p_coefs p) (p_coefs q)) else
  match fuel with
  | O => OutOfFuel
  | S fuel' =>
      let pairs := combine (p_order q) (p_order p) in
      let rhs_is_higher := negb (existsb (fun ab => (fst ab <? snd ab)%nat) pairs) in
      let lhs_is_higher := negb (existsb (fun ab => (snd ab <? fst ab)%nat) pairs) in
      if rhs_is_higher then p' <- raise_order p (p_order q) ;; bezier_combine fuel' op p' q
      else if lhs_is_higher then q' <- raise_order q (p_order p) ;; bezier_combine fuel' op p q'
      else let new := map2 Nat.max (p_order q) (p_order p) in
           p' <- raise_order p new ;; q' <- raise_order q new ;; bezier_combine fuel' op p' q'
  end.
Definition bezier_add := bezier_combine 1 Rplus.
Definition bezier_sub := bezier_combine 1 Rminus.
(** bezier_tp.cpp 396-401: negate. *)
Definition bezier_negate (p : poly) : poly := coefs_linear_transform p (-1) 0.
(** bezier_tp.cpp 417-431: sign; algoim's uniformSign (external) is 1 / -1 when all coefficients are positive / negative. *)
Definition bezier_sign (p : poly) : fsign :=
  if forallb (fun c => Rltb 0 c) (p_coefs p) then Spos
  else if forallb (fun c => Rltb c 0) (p_coefs p) then Sneg else Sund.
(** bezier_tp.cpp 350-375 and monomials_tp.cpp 197-227: extract_facet (dim > 1). *)
Definition extract_facet (p : poly) (facet : Z) : outcome poly :=
  let dim := length (p_order p) in
  dir <- facet_const_dir (Z.of_nat dim) facet ;;
  side <- facet_side (Z.of_nat dim) facet ;;
  let d := Z.to_nat dir in
  let lower := if (side =? 0)%Z then tp_const dim 0 else set_at (tp_const dim 0) d (nth d (p_order p) O - 1)%nat in
  let upper := if (side =? 0)%Z then set_at (p_order p) d 1%nat else p_order p in
  make_poly (remove_component d (p_order p)) (map (fun t => nth (tp_flat (p_order p) t) (p_coefs p) 0) (tp_range lower upper)).

(** ** Composition (bezier_tp_utils_composition.cpp) *)
(** 58-63 *)
Definition one_minus (p : poly) : poly := coefs_linear_transform p (-1) 1.
(** 66-85: compute_powers; the powers 1 .. degree. *)
Fixpoint more_powers (p prev : poly) (n : nat) : outcome (list poly) :=
  match n with O => Ret [] | S n' => q <- bezier_product p prev ;; r <- more_powers p q n' ;; Ret (q :: r) end.
Definition compute_powers (p : poly) (order : nat) : outcome (list poly) :=
  assert_ (1 <? order)%nat (r <- more_powers p p (order - 2) ;; Ret (p :: r)).
(** 88-122: compose_with_Bernstein_bases_1D. *)
Definition poly0 : poly := mk_poly [] [].
Definition compose_bases (p : poly) (order : nat) : outcome (list poly) :=
  assert_ (0 <? order)%nat (
  if (1 <? order)%nat then
    powers_0 <- compute_powers p order ;;
    powers_1 <- compute_powers (one_minus p) order ;;
    let degree := (order - 1)%nat in
    mid <- mapM (fun i => c <- bezier_product (nth (i - 1) powers_0 poly0) (nth (degree - 1 - i) powers_1 poly0) ;;
                          Ret (coefs_linear_transform c (binom degree i) 0)) (seq 1 (degree - 1)) ;;
    Ret (last powers_1 poly0 :: mid ++ [last powers_0 poly0])
  else one <- make_poly (tp_const (length (p_order p)) 1) [1] ;; Ret [one]).
(** 163-187: the products of basis functions in the order of the coefficients of [lhs] (direction 0 fastest). *)
Definition basis_products (bases : list (list poly)) : outcome (list poly) :=
  match bases with
  | [bu] => Ret bu
  | [bu; bv] => r <- mapM (fun v => mapM (fun u => bezier_product u v) bu) bv ;; Ret (concat r)
  | [bu; bv; bw] =>
      r <- mapM (fun w => s <- mapM (fun v => vw <- bezier_product w v ;; mapM (fun u => bezier_product u vw) bu) bv ;; Ret (concat s)) bw ;;
      Ret (concat r)
  | _ => Abort (* not instantiated *)
  end.
(** 126-190: Bezier_composition; [rhs] is the list of the components of the inner map (extract_component, 41-56). *)
Definition bezier_compose (lhs : poly) (rhs : list poly) : outcome poly :=
  bases <- mapM (fun po => compose_bases (fst po) (snd po)) (combine rhs (p_order lhs)) ;;
  let order := fold_left (fun acc b => map2 (fun a o => (a + (o - 1))%nat) acc (p_order (hd poly0 b))) bases
                 (tp_const (length (p_order (hd poly0 rhs))) 1%nat) in
  prods <- basis_products bases ;;
  make_poly order (fold_left (fun acc bc => map2 (fun a c => a + c * snd bc) acc (p_coefs (fst bc))) (combine prods (p_coefs lhs))
                     (repeat 0 (tp_size order))).

(** ** Monomials (monomials_tp.cpp) *)
(** 229-256: horner. *)
Definition horner_loop {A} (step : A -> A -> A) (d : A) (beta : list A) : A := fold_left step (tl (rev beta)) (last beta d).
Definition mul_add (x v b : R) : R := v * x + b.
Fixpoint horner (rorder : list nat) (rpoint coefs : list R) : R * list R :=
  match rorder, rpoint with
  | n :: ro, x :: rp => let b := read_n (horner ro rp) n coefs in (horner_loop (mul_add x) 0 (fst b), snd b)
  | _, _ => (hd 0 coefs, tl coefs)
  end.
(** 112-118, 172-175: operator(). *)
Definition mono_eval (p : poly) (x : list R) : R := fst (horner (rev (p_order p)) (rev x) (p_coefs p)).
(** 258-293: horner_der.  The last update of [val] is executed for every order, also when last_order = 1. *)
Definition vmul_add (x : R) (v b : list R) : list R := map2 (mul_add x) v b.
Fixpoint horner_der (rorder : list nat) (rpoint coefs : list R) : list R * list R :=
  match rorder, rpoint with
  | n :: ro, x :: rp =>
      let b := read_n (horner_der ro rp) n coefs in
      let beta := fst b in
      let degree := (n - 1)%nat in
      let val0 := last beta [] in
      let der0 := INR degree * hd 0 val0 in
      let ids := rev (seq 1 (degree - 1)) in
      let val := fold_left (fun v i => vmul_add x v (nth i beta [])) ids val0 in
      let der := fold_left (fun d i => d * x + INR i * hd 0 (nth i beta [])) ids der0 in
      (vmul_add x val (hd [] beta) ++ [der], snd b)
  | _, _ => ([hd 0 coefs], tl coefs)
  end.
(** 120-127, 183-186: grad. *)
Definition mono_grad (p : poly) (x : list R) : list R := tl (fst (horner_der (rev (p_order p)) (rev x) (p_coefs p))).
(** 48-66: evaluate_monomial_basis, on a vector of zeros (as in hessian_). *)
Definition monomial_basis (x : R) (order der : nat) : list R :=
  repeat 0 (Nat.min der order)
  ++ map2 (fun i xn => fold_left (fun v j => v * INR (i - j)) (seq 0 der) xn) (seq der (order - der)) (powers x 1 (order - der)).
Definition mono_hessian (p : poly) (x : list R) : list R := hessian_of monomial_basis p x.
(** 84-108: create_derivative. *)
Definition create_derivative (p : poly) (dir : nat) : outcome poly :=
  assert_ (dir <? length (p_order p))%nat (
  if (nth dir (p_order p) O - 1 =? 0)%nat then make_poly (p_order p) (p_coefs p) else
  let new := set_at (p_order p) dir (nth dir (p_order p) O - 1)%nat in
  make_poly new (map (fun t => let t1 := set_at t dir (S (nth dir t O)) in
                               INR (nth dir t1 O) * nth (tp_flat (p_order p) t1) (p_coefs p) 0) (tp_all new))).
(** 295-330: transform_coefs_to_Bezier, on a vector of zeros (bezier_tp.cpp 66-69). *)
Definition mono_to_bezier_coefs (p : poly) : list R :=
  fold_left (fun acc ct =>
      let coef := fold_left Rdiv (map2 (fun o i => binom (o - 1) i) (p_order p) (snd ct)) (fst ct) in
      fold_left (fun acc s => add_at acc (tp_flat (p_order p) s) (fold_left Rmult (map2 binom s (snd ct)) coef))
        (tp_range (snd ct) (p_order p)) acc)
    (combine (p_coefs p) (tp_all (p_order p))) (repeat 0 (tp_size (p_order p))).
(** bezier_tp.cpp 66-69: the Bezier polynomial of a monomial polynomial. *)
Definition bezier_of_mono (p : poly) : outcome poly := make_poly (p_order p) (mono_to_bezier_coefs p).
