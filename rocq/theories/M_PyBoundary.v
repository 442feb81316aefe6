(** python/qugar/dolfinx/boundary.py: normals and measure of the unfitted boundary. *)
From Coq Require Import Reals.
From Verif Require Import M_PyBase M_PyForms.
Local Open Scope R_scope.

(** ** UFL's linear algebra (not part of the repository): matrices are lists of rows. *)
Fixpoint vmul (u v : list R) : list R := match u, v with x :: u', y :: v' => x * y :: vmul u' v' | _, _ => [] end.
Definition inner (u v : list R) : R := fold_right Rplus 0 (vmul u v).
Definition matvec (A : list (list R)) (x : list R) : list R := map (fun r => inner r x) A.
Definition transpose (A : list (list R)) : list (list R) :=
  match A with [] => [] | r :: _ => map (fun j => map (fun row => nth j row 0) A) (seq 0 (length r)) end.
Definition matmul (A B : list (list R)) : list (list R) := map (fun r => matvec (transpose B) r) A.
(** ufl/compound_expressions.py: determinant_expr and inverse_expr (adjugate over determinant). *)
Definition det (A : list (list R)) : outcome R :=
  match A with
  | [[a; b]; [c; d]] => Ret (a * d - b * c)
  | [[a; b; c]; [d; e; f]; [g; h; i]] => Ret (a * (e * i - f * h) + b * (f * g - d * i) + c * (d * h - e * g))
  | _ => Abort
  end.
Definition inverse (A : list (list R)) : outcome (list (list R)) :=
  delta <- det A ;;
  match A with
  | [[a; b]; [c; d]] => Ret [[d / delta; - b / delta]; [- c / delta; a / delta]]
  | [[a; b; c]; [d; e; f]; [g; h; i]] =>
      Ret [[(e * i - f * h) / delta; (c * h - b * i) / delta; (b * f - c * e) / delta];
           [(f * g - d * i) / delta; (a * i - c * g) / delta; (c * d - a * f) / delta];
           [(d * h - e * g) / delta; (b * g - a * h) / delta; (a * e - b * d) / delta]]
  | _ => Abort
  end.
Definition cross (u v : list R) : list R :=
  match u, v with [a; b; c], [x; y; z] => [b * z - c * y; c * x - a * z; a * y - b * x] | _, _ => [] end.
(** The factor of dx: |det DF|; for two-dimensional cells in space, the norm of the product of the columns (pseudo_determinant_expr). *)
Definition scale (DF : list (list R)) : outcome R :=
  match DF with
  | [[a; b]; [c; d]; [e; f]] => Ret (sqrt (inner (cross [a; c; e] [b; d; f]) (cross [a; c; e] [b; d; f])))
  | _ => d <- det DF ;; Ret (Rabs d)
  end.

(** boundary.py 58-67: _compute_vector_norm. *)
Definition norm (v : list R) : R := sqrt (inner v v).
(** boundary.py 70-100: mapped_normal at a point of a cell: [DF] is the Jacobian there, [N] the value of the parametric normal. *)
Definition mapped_normal (DF : list (list R)) (N : list R) (normalize : bool) : outcome (list R) :=
  let cols := match DF with [] => 0%nat | r :: _ => length r end in
  n <- (if negb (length DF =? cols)%nat
        then (let metric := matmul (transpose DF) DF in M <- inverse metric ;; Ret (matvec (matmul DF M) N))
        else (M <- inverse DF ;; Ret (matvec (transpose M) N))) ;;
  Ret (if normalize then map (fun x => x / norm n) n else n).

(** ** The measure *)
(** Metadata of a measure: the degree, and whether it has the mark and the fake rule of the unfitted boundary. *)
Record metadata := { md_degree : option nat; md_unfitted : bool }.
(** A ds_bdry_unf measure: [me_compl] names the expression of Nanson's term (it belongs to the domain it was built for: [compl_of]). *)
Record measure := { me_dom : nat; me_id : sid; me_md : metadata; me_data : option nat; me_compl : nat }.
Section Measure.
  (** The expression that is built for a domain. Every construction mints a new constant for the normal: [fresh]. *)
  Variable mapped_norm : nat -> nat -> nat.
  (** boundary.py 122-175, 177-202: __init__. *)
  Definition new_measure (fresh dom : nat) (id : sid) (md : option metadata) (data : option nat) (degree : option nat) : measure :=
    let md0 := match md with None => {| md_degree := None; md_unfitted := false |} | Some m => m end in
    let deg := match degree with Some d => Some d | None => md_degree md0 end in
    {| me_dom := dom; me_id := id; me_md := {| md_degree := deg; md_unfitted := true |}; me_data := data; me_compl := mapped_norm fresh dom |}.
  (** boundary.py 217-241: reconstruct. *)
  Definition reconstruct (fresh : nat) (m : measure) (id : option sid) (dom : option nat) (md : option metadata) (data : option nat) : measure :=
    let new_dom := match dom with Some d => d | None => me_dom m end in
    let new := new_measure fresh new_dom (match id with Some i => i | None => me_id m end)
                 (match md with Some x => Some x | None => Some (me_md m) end) (match data with Some x => Some x | None => me_data m end) None in
    if (new_dom =? me_dom m)%nat
    then {| me_dom := me_dom new; me_id := me_id new; me_md := me_md new; me_data := me_data new; me_compl := me_compl m |} else new.
  (** ufl.Measure.__call__ (not part of the repository): degree goes to the metadata, the rest to reconstruct. *)
  Definition call_measure (fresh : nat) (m : measure) (id : option sid) (md : option metadata) (data : option nat) (degree : option nat) : measure :=
    let md' := match degree with
               | None => md
               | Some d => Some {| md_degree := Some d; md_unfitted := match md with None => false | Some x => md_unfitted x end |}
               end in
    reconstruct fresh m id None md' data.

  (** An integrand: the factors of a product (expressions by name); an integral of a form. *)
  Record cell_integral := { ci_factors : list nat; ci_id : sid; ci_md : metadata; ci_data : option nat }.
  (** boundary.py 204-215 on a measure with a single id, where UFL's __rmul__ makes one integral. *)
  Definition rmul1 (integrand : list nat) (m : measure) : list cell_integral :=
    [{| ci_factors := integrand ++ [me_compl m]; ci_id := me_id m; ci_md := me_md m; ci_data := me_data m |}].
  (** boundary.py 204-215: __rmul__. ufl.Measure.__rmul__ (not part of the repository) on a measure with a tuple of ids multiplies its integrand (here
      already with the complement) by self.reconstruct(subdomain_id=d) for each of them: __rmul__ of this class again. *)
  Definition rmul (fresh : nat) (integrand : list nat) (m : measure) : list cell_integral :=
    match me_id m with
    | Ids l => flat_map (fun d => rmul1 (integrand ++ [me_compl m]) (reconstruct fresh m (Some (Id d)) None None None)) l
    | _ => rmul1 integrand m
    end.
End Measure.
(** The value that the kernel adds for a point of weight [w]: the factors of the integrand at the point, the weight and the factor of dx. *)
Definition point_value (ev : nat -> R) (factors : list nat) (w sc : R) : R := fold_right Rmult 1 (map ev factors) * w * sc.
