(** Specification vocabulary for the domain of a function (C101 - C103). *)
From Verif Require Export S_Domain S_Poly M_Phi M_Poly.
Close Scope Z_scope.
Close Scope nat_scope.
Open Scope R_scope.

(** What is assumed of the code that is called and not modelled.  Interval arithmetic is an enclosure: a uniform sign is the sign of the function at all points of the intervals. *)
Definition encloses (O : samplers) (phi : list R -> R) : Prop := forall c h x, snd (sm_interval O c h) = true -> length x = length c -> length h = length c ->
  (forall d, (d < length c)%nat -> Rabs (nth d x 0 - nth d c 0) <= nth d h 0) -> 0 < fst (sm_interval O c h) * phi x.
(** The rescaled polynomial takes in the unit box the values of the polynomial in the box. *)
Definition rescales (O : samplers) (p : poly) : Prop := forall b, length (bmin b) = length (p_order p) -> length (bmax b) = length (p_order p) ->
  valid_poly (sm_rescale O p b) /\ length (p_order (sm_rescale O p b)) = length (p_order p) /\
  forall x, length x = length (p_order p) -> bezier_eval (sm_rescale O p b) x = bezier_eval p (scale_from_01 b x).
(** The sum of the weights. *)
Definition total (q : rule) : R := fold_right (fun nw a => snd nw + a) 0 q.
(** The quadrature points are in the unit box; for a polynomial without zeros in the unit box the weights of the points add up to one. *)
Definition samples (O : samplers) : Prop := forall p, valid_poly p ->
  Forall (fun nw => length (fst nw) = length (p_order p) /\ in_unit_box (fst nw)) (sm_poly O p) /\
  ((forall x, length x = length (p_order p) -> in_unit_box x -> bezier_eval p x <> 0) -> total (sm_poly O p) = 1).
(** [D] is the domain of the function in the grid. *)
Definition domain_of (O : samplers) (F : func) (g : grid) (D : domain) : Prop :=
  usable_grid g /\ exists order s, map_order order /\ create_domain O F g None order = Ret (D, s).
(** The sum of the weights of the samples of the negative region of a cell, and the volume it is compared with: of the cell for a general function, of the unit box for a polynomial, which is rescaled. *)
Definition sampled (O : samplers) (F : func) (b : bbox) : R :=
  match F with
  | General _ _ => total (sm_general O b (-1) 0)
  | Bezier p => total (filter (fun nw => Rltb (bezier_eval (sm_rescale O p b) (fst nw)) 0) (sm_poly O (sm_rescale O p b)))
  end.
Definition sampled_volume (F : func) (b : bbox) : R := match F with General _ _ => box_volume b | Bezier _ => 1 end.
(** The point of a facet of a box: facet f has the constant direction f / 2 and the side f mod 2. *)
Definition on_facet (b : bbox) (f : Z) (x : list R) : Prop :=
  in_closed (bmin b) (bmax b) x /\ nth (Z.to_nat (f / 2)) x 0 = (if (f mod 2 =? 0)%Z then nth (Z.to_nat (f / 2)) (bmin b) 0 else nth (Z.to_nat (f / 2)) (bmax b) 0).

(** For a function that is not a polynomial: the points of the library on a facet are where the function is negative, and where the function is negative on the whole facet
    the weights add up to its area. *)
Definition facet_extent (b : bbox) (f : Z) : R :=
  fold_right (fun d a => (nth d (bmax b) 0 - nth d (bmin b) 0) * a) 1 (filter (fun d => negb (Nat.eqb d (Z.to_nat (f / 2)))) (seq 0 (length (bmin b)))).
Definition samples_general (O : samplers) (phi : list R -> R) : Prop := forall b f, positive_box (bmin b) (bmax b) -> (0 <= f < Z.of_nat (length (bmin b)) * 2)%Z ->
  Forall (fun nw => on_facet b f (fst nw) /\ phi (fst nw) < 0) (sm_general O b (f / 2) (f mod 2)) /\
  ((forall x, on_facet b f x -> phi x < 0) -> total (sm_general O b (f / 2) (f mod 2)) = facet_extent b f).
(** What is assumed of the samplers for a function in a grid of dimension n. *)
Definition sampled_well (O : samplers) (F : func) (n : nat) : Prop :=
  match F with
  | General phi _ => samples_general O phi
  | Bezier p => valid_poly p /\ length (p_order p) = n /\ rescales O p /\ samples O
  end.
(** A vector that points out of the box through the facet, orthogonally to it. *)
Definition outward (f : Z) (v : list R) : Prop :=
  (if (f mod 2 =? 0)%Z then nth (Z.to_nat (f / 2)) v 0 < 0 else 0 < nth (Z.to_nat (f / 2)) v 0) /\
  forall d, d <> Z.to_nat (f / 2) -> nth d v 0 = 0.
