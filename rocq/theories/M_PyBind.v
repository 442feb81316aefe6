(** The nanobind bindings (/repo/python/nanobind_wrappers): how arrays go from Python to C++ and from C++ to Python.
    Of nanobind (not in /repo) the model takes these rules of its documentation: a parameter [nb::ndarray<T, nb::numpy, nb::shape<-1>>] without
    [nb::c_contig] accepts an array of any stride; an array without owner returned with [reference_internal] keeps the object of the call alive, and is copied when
    it is cast otherwise; a class instance returned by value is moved to a new object, by reference with [reference_internal] it refers into the object of the
    call and keeps it alive, by shared_ptr it shares the ownership; the default of [def_prop_ro] is [reference_internal]. *)
From Verif Require Import M_Grid M_Domain M_PyBase.
From Coq Require Import Reals.
Open Scope Z_scope.

(** ** Arrays given to C++ *)
(** A one-dimensional numpy array: a buffer, the index of its first element, the distance between its elements (in elements) and its size. *)
Record view (A : Type) := mk_view { v_buf : list A; v_start : Z; v_step : Z; v_size : nat }.
Arguments mk_view {A}. Arguments v_buf {A}. Arguments v_start {A}. Arguments v_step {A}. Arguments v_size {A}.
(** Reading the memory of the buffer; outside of it: undefined behaviour. *)
Definition read_mem {A} (buf : list A) (i : Z) : outcome A :=
  if i <? 0 then UB else match nth_error buf (Z.to_nat i) with Some x => Ret x | None => UB end.
(** cut_quad.cpp 182-183, 205-206, 228-232, 247-251; reparam.cpp 107-108, 123-124; unf_domain.cpp 64-69, 86-95, 286-287:
    [std::span(a.data(), a.size())] copied to a vector: the stride is not used. *)
Definition data_read {A} (a : view A) : outcome (list A) :=
  pmap (fun i => read_mem (v_buf a) (v_start a + Z.of_nat i)) (seq 0 (v_size a)).
(** cut_quad.cpp 179-214, reparam.cpp 101-132, unf_domain.cpp 278-291: create_quadrature, create_unfitted_bound_quadrature, create_reparameterization(_levelset),
    create_unfitted_impl_domain: [f] is the C++ function with its other arguments. *)
Definition bind_cells {B} (f : list Z -> outcome B) (cells : view Z) : outcome B :=
  l <- data_read cells ;; f l.
(** cut_quad.cpp 222-258: create_facets_quadrature_interior_integral, create_facets_quadrature_exterior_integral. *)
Definition bind_facets {B} (f : list Z -> list Z -> outcome B) (cells facets : view Z) : outcome B :=
  l <- data_read cells ;; k <- data_read facets ;; f l k.
(** unf_domain.cpp 56-74, 114-149: get_full_cells, get_empty_cells, get_cut_cells. *)
Definition bind_get_cells (D : domain) (st : cstatus) (target : option (view Z)) : outcome (list Z) :=
  match target with
  | Some a => l <- data_read a ;; get_cells_target D st l
  | None => get_cells D st
  end.
(** unf_domain.cpp 76-101: get_facets for the five queries of 150-239.  Line 84 is an assert that is compiled out (it names a variable that does not exist);
    [value()] of an empty optional (89) throws.  The pairs are returned as two arrays (100). *)
Definition bind_get_facets (D : domain) (query : Z -> Z -> outcome bool) (all : outcome (list (Z * Z))) (cells facets : option (view Z)) : outcome (list Z * list Z) :=
  r <- match cells with
       | Some c => match facets with
                   | Some f => l <- data_read c ;; k <- data_read f ;; get_facets_target query l k
                   | None => Abort
                   end
       | None => all
       end ;;
  Ret (map fst r, map snd r).
(** unf_domain.cpp 150-239: the five methods. *)
Definition bind_empty_facets D := bind_get_facets D (is_empty_facet D) (get_empty_facets D).
Definition bind_full_facets D := bind_get_facets D (is_full_facet D) (get_full_facets D).
Definition bind_cut_facets D := bind_get_facets D (is_cut_facet D) (get_cut_facets D).
Definition bind_unf_bdry_facets D := bind_get_facets D (has_unfitted_boundary D) (get_unfitted_facets D).
Definition bind_full_unf_bdry_facets D := bind_get_facets D (is_full_unfitted_facet D) (get_full_unfitted_facets D).

(** impl_functions.cpp 57-74: eval.  The points are a C-contiguous array (wrapper_utils.hpp 32: nanobind copies another one): rows. *)
Definition bind_eval (f : list R -> R) (points : list (list R)) : list R := map f points.
(** impl_functions.cpp 75-99: grad: the buffer of an array of shape (n_points, dim). *)
Definition bind_grad (dim : nat) (g : list R -> list R) (points : list (list R)) : list R :=
  flat_map (fun p => map (fun d => nth d (g p) 0%R) (seq 0 dim)) points.

(** ** Objects and arrays given to Python *)
Inductive class := BoundBox | CartGrid | AffineTransf | RefSystem | Func | Domain | Quad | CutQuad | Mesh.
Inductive attr :=
| a_as_array | a_min_corner | a_max_corner | a_mid_point
| a_domain | a_num_cells_dir | a_cell_domain | a_boundary_cells | a_cell_breaks
| a_point | a_ref_system | a_eval
| a_grid | a_impl_func | a_get_cells | a_get_facets
| a_points | a_weights | a_cells | a_facets | a_n_pts | a_normals | a_cells_conn | a_wirebasket.
(** What a binding returns: an array in the memory of the object of the call; an array with its own memory; an array in the memory of a temporary; a reference to a
    part of the object; the i-th object it shares; a new object. *)
Inductive kind := KView | KCopy | KTemp | KPart (c : class) | KShared (i : nat) (c : class) | KValue (c : class).
Definition returns (c : class) (a : attr) : option kind :=
  match c, a with
  (* common.cpp 54-67: .cast() of an array without owner *)
  | BoundBox, a_as_array => Some KCopy
  (* common.cpp 68-81; bbox.hpp 119, 123 return references *)
  | BoundBox, a_min_corner | BoundBox, a_max_corner => Some KView
  (* common.cpp 82-88; bbox.hpp 164 returns a Point by value, whose data() is the array *)
  | BoundBox, a_mid_point => Some KTemp
  (* common.cpp 124: a const reference, default policy *)
  | CartGrid, a_domain => Some (KPart BoundBox)
  (* common.cpp 127-134, 136-145: .cast() *)
  | CartGrid, a_num_cells_dir | CartGrid, a_boundary_cells => Some KCopy
  (* common.cpp 135: by value *)
  | CartGrid, a_cell_domain => Some (KValue BoundBox)
  (* common.cpp 146-157 *)
  | CartGrid, a_cell_breaks => Some KView
  (* impl_functions.cpp: center, origin, axis, normal, semi_axes (110-113, 206-209, ...): references of primitive_funcs_lib.hpp *)
  | Func, a_point => Some KView
  (* impl_functions.cpp 210-213, 222, 265, 274: the lambda returns by value *)
  | Func, a_ref_system => Some (KValue RefSystem)
  (* impl_functions.cpp 57-99: as_nbarray (wrapper_utils.hpp 57-75): memory owned by a capsule *)
  | Func, a_eval => Some KCopy
  (* unf_domain.cpp 109-110, 258-261: shared pointers *)
  | Domain, a_grid => Some (KShared 0 CartGrid)
  | Domain, a_impl_func => Some (KShared 1 Func)
  (* unf_domain.cpp 73: as_nbarray; 53, 100: cast of arrays without owner *)
  | Domain, a_get_cells | Domain, a_get_facets => Some KCopy
  (* quad.cpp 43-58 *)
  | Quad, a_points | Quad, a_weights => Some KView
  (* cut_quad.cpp 50-75, 82-114, 121-158 *)
  | CutQuad, a_points | CutQuad, a_weights | CutQuad, a_cells | CutQuad, a_facets | CutQuad, a_n_pts | CutQuad, a_normals => Some KView
  (* reparam.cpp 78-94 *)
  | Mesh, a_points | Mesh, a_cells_conn | Mesh, a_wirebasket => Some KView
  | _, _ => None
  end.

(** The functions of the module that make objects: the classes of the objects they are given. *)
Inductive factory :=
  f_bound_box | f_cart_grid | f_cart_grid_breaks | f_affine | f_ref_system | f_function | f_function_transf | f_function_ref | f_transformed
| f_negative | f_negative_bzr | f_sum | f_sum_bzr | f_domain | f_gauss | f_cut_quadrature | f_reparam.
Definition f_class (f : factory) : class :=
  match f with
  | f_bound_box => BoundBox | f_cart_grid | f_cart_grid_breaks => CartGrid | f_affine => AffineTransf | f_ref_system => RefSystem
  | f_function | f_function_transf | f_function_ref | f_transformed | f_negative | f_negative_bzr | f_sum | f_sum_bzr => Func
  | f_domain => Domain | f_gauss => Quad | f_cut_quadrature => CutQuad | f_reparam => Mesh
  end.
(** The arguments that are objects, and whether the new object keeps a shared pointer to them. *)
Definition f_args (f : factory) : list (class * bool) :=
  match f with
  | f_bound_box | f_cart_grid_breaks | f_affine | f_ref_system | f_gauss | f_function => []   (* common.cpp 93-114, 168-188, 206-345; quad.cpp 60-63; impl_functions.cpp 124-147, ... *)
  | f_function_transf => [(AffineTransf, false)]                        (* impl_functions.cpp 698-716: copied *)
  | f_function_ref => [(RefSystem, false)]                              (* impl_functions.cpp 236-249, 288-301: copied *)
  | f_cart_grid => [(BoundBox, false)]                                  (* common.cpp 160-166: copied *)
  | f_transformed => [(Func, true); (AffineTransf, false)]              (* impl_functions.cpp 729-735; impl_funcs_lib.hpp 198-204 *)
  | f_negative => [(Func, true)]                                        (* impl_functions.cpp 749-758; impl_funcs_lib.hpp 216-222 *)
  | f_negative_bzr => [(Func, false)]                                   (* impl_functions.cpp 752-754: a new polynomial *)
  | f_sum => [(Func, true); (Func, true)]                               (* impl_functions.cpp 774-808; impl_funcs_lib.hpp 235-266 *)
  | f_sum_bzr => [(Func, false); (Func, false)]                         (* impl_functions.cpp 777-780, 802-805: a new polynomial *)
  | f_domain => [(CartGrid, true); (Func, true)]                        (* unf_domain.cpp 266-306; unfitted_domain.hpp 147, impl_unfitted_domain.hpp 56 *)
  | f_cut_quadrature | f_reparam => [(Domain, false)]                   (* cut_quad.cpp 179-258, reparam.cpp 101-152: vectors *)
  end.

(** The memory: the C++ objects (with the objects whose ownership they share), the buffers that belong to an array, and the Python objects: an instance that owns (a
    share of) a C++ object, an instance that refers into the object of another instance, an array. *)
Record cobj := mk_cobj { c_class : class; c_parts : list nat }.
Inductive mem := InObj (o : nat) | Buffer (b : nat) | Stack.
Inductive node := Owner (o : nat) | Part (o parent : nat) (c : class) | Array (m : mem) (parent : option nat).
Record state := mk_state { objs : list (nat * cobj); bufs : list nat; nodes : list (nat * node); vars : list nat; next : nat }.
Definition start : state := mk_state [] [] [] [] 0.
Fixpoint lookup {A} (k : nat) (l : list (nat * A)) : option A :=
  match l with [] => None | (j, x) :: l' => if Nat.eqb j k then Some x else lookup k l' end.
(** The C++ object of an instance, and its class. *)
Definition instance (s : state) (n : nat) : option (nat * class) :=
  match lookup n (nodes s) with
  | Some (Owner o) => match lookup o (objs s) with Some c => Some (o, c_class c) | None => None end
  | Some (Part o _ c) => Some (o, c)
  | _ => None
  end.
(** A new Python object, which goes to a variable. *)
Definition add_node (s : state) (x : node) : state := mk_state (objs s) (bufs s) ((next s, x) :: nodes s) (next s :: vars s) (S (next s)).
Definition add_obj (s : state) (c : cobj) : state := mk_state ((next s, c) :: objs s) (bufs s) (nodes s) (vars s) (S (next s)).
Definition add_buf (s : state) : state := mk_state (objs s) (next s :: bufs s) (nodes s) (vars s) (S (next s)).
Definition class_eqb (a b : class) : bool :=
  match a, b with
  | BoundBox, BoundBox | CartGrid, CartGrid | AffineTransf, AffineTransf | RefSystem, RefSystem | Func, Func | Domain, Domain | Quad, Quad | CutQuad, CutQuad | Mesh, Mesh => true
  | _, _ => false
  end.
(** The objects shared by a new object; None: a TypeError. *)
Fixpoint take_args (s : state) (l : list (class * bool)) (args : list nat) : option (list nat) :=
  match l, args with
  | [], [] => Some []
  | (c, keep) :: l', n :: args' =>
      match instance s n with
      | Some (o, c') => if class_eqb c c' then match take_args s l' args' with Some r => Some (if keep : bool then o :: r else r) | None => None end else None
      | None => None
      end
  | _, _ => None
  end.
Definition make (f : factory) (args : list nat) (s : state) : option state :=
  match take_args s (f_args f) args with
  | Some parts => Some (add_node (add_obj s (mk_cobj (f_class f) parts)) (Owner (next s)))
  | None => None
  end.
(** A property or a method of the instance [n]. *)
Definition call (n : nat) (a : attr) (s : state) : option state :=
  match instance s n with
  | Some (o, c) =>
      match returns c a with
      | Some KView => Some (add_node s (Array (InObj o) (Some n)))
      | Some KCopy => Some (add_node (add_buf s) (Array (Buffer (next s)) None))
      | Some KTemp => Some (add_node s (Array Stack (Some n)))
      | Some (KPart c') => Some (add_node s (Part o n c'))
      | Some (KShared i c') =>
          match lookup o (objs s) with
          | Some co => match nth_error (c_parts co) i with Some o' => Some (add_node s (Owner o')) | None => None end
          | None => None
          end
      | Some (KValue c') => Some (add_node (add_obj s (mk_cobj c' [])) (Owner (next s)))
      | None => None
      end
  | None => None
  end.
Definition parent_of (x : node) : option nat := match x with Owner _ => None | Part _ p _ => Some p | Array _ p => p end.
(** The objects that have an owner: an instance, or another such object. *)
Inductive held (ns : list (nat * node)) (os : list (nat * cobj)) : nat -> Prop :=
| held_inst n o : In (n, Owner o) ns -> held ns os o
| held_part o c o' : held ns os o -> In (o, c) os -> In o' (c_parts c) -> held ns os o'.
(** Some objects without references are deleted (at any time, in any number): what is kept includes the objects of the variables and what the kept ones refer to;
    the C++ objects without an owner, and the buffers of the deleted arrays, are freed. *)
Inductive collect (s : state) : state -> Prop :=
| collected ns os bs :
    (forall e, In e ns -> In e (nodes s)) ->
    (forall n x, In n (vars s) -> In (n, x) (nodes s) -> In (n, x) ns) ->
    (forall n x p y, In (n, x) ns -> parent_of x = Some p -> In (p, y) (nodes s) -> In (p, y) ns) ->
    (forall o c, In (o, c) os <-> In (o, c) (objs s) /\ held ns (objs s) o) ->
    (forall b, In b bs <-> In b (bufs s) /\ exists n p, In (n, Array (Buffer b) p) ns) ->
    collect s (mk_state os bs ns (vars s) (next s)).
(** What a program does: make objects, use them, copy and forget variables; [ok] says which bindings it uses. *)
Inductive step (ok : class -> attr -> Prop) (s : state) : state -> Prop :=
| step_make f args s' : incl args (vars s) -> make f args s = Some s' -> step ok s s'
| step_call n a s' o c : In n (vars s) -> instance s n = Some (o, c) -> ok c a -> call n a s = Some s' -> step ok s s'
| step_copy n : In n (vars s) -> step ok s (mk_state (objs s) (bufs s) (nodes s) (n :: vars s) (next s))
| step_forget vs : incl vs (vars s) -> step ok s (mk_state (objs s) (bufs s) (nodes s) vs (next s))
| step_collect s' : collect s s' -> step ok s s'.
Inductive history (ok : class -> attr -> Prop) : state -> Prop :=
| hist_start : history ok start
| hist_step s s' : history ok s -> step ok s s' -> history ok s'.
