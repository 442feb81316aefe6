(** Specification of the versions and of the regions of integration of a form. *)
From Verif Require Import M_PyBase M_PyForms.
Local Open Scope Z_scope.

(** Lexicographic order of versions. *)
Definition vlt (a b : Z * Z * Z) : Prop :=
  let '(a0, a1, a2) := a in let '(b0, b1, b2) := b in a0 < b0 \/ (a0 = b0 /\ (a1 < b1 \/ (a1 = b1 /\ a2 < b2))).
Definition vle (a b : Z * Z * Z) : Prop := vlt a b \/ a = b.
Definition vstr (a : Z * Z * Z) : list (option Z) := let '(a0, a1, a2) := a in [Some a0; Some a1; Some a2].

Section Regions.
  Context {entity : Type} (tagged : nat -> itype -> Z -> list entity) (all_facets : list entity).
  (** The user asked to integrate [g] over the entity e: exterior integrals without id are over all the facets of the (unfitted) boundary, an
      integral with ids over the entities with these tags. *)
  Definition requested (g : integral) (e : entity) : Prop :=
    if is_everywhere (g_sid g) then g_type g = Exterior /\ In e all_facets
    else exists k n, g_data g = Some (Tags k) /\ In n (ids_of (g_sid g)) /\ In e (tagged k (g_type g) n).
  (** DOLFINx takes for an id of a type one of the lists of entities that it was given for it. *)
  Definition picks (c : @compiled entity) (choice : itype -> Z -> list entity) : Prop :=
    forall t n, (exists ents, In (n, ents) (o_dom c t)) -> In (n, choice t n) (o_dom c t).
  (** The integral, as compiled, is evaluated on e. *)
  Definition integrated (c : @compiled entity) (choice : itype -> Z -> list entity) (g : integral) (e : entity) : Prop :=
    exists n, In n (ids_of (g_sid g)) /\ (exists ents, In (n, ents) (o_dom c (g_type g))) /\ In e (choice (g_type g) n).
End Regions.
(** The data of the integrals of a type agree, integrals with ids have them all or none of them does, and they come first: UFL sorts the integrals by ids,
    integers before "everywhere". No integral has the mark that form_custom sets while it works. *)
Definition asked_data (g : integral) : option sdata :=
  if itype_eqb (g_type g) Exterior && is_everywhere (g_sid g) then None else g_data g.
Definition good_data (k : itype -> nat) (l : list integral) : Prop :=
  (forall g, In g l -> g_data g = None \/ g_data g = Some (Tags (k (g_type g))))
  /\ (forall g, In g l -> is_everywhere (g_sid g) = false -> g_data g = Some (Tags (k (g_type g)))
       \/ (g_data g = None /\ g_mark g = false /\ forall g', In g' l -> g_type g' = g_type g -> asked_data g' = None))
  /\ (forall t, match filter (fun g => itype_eqb (g_type g) t) l with [] => True | g0 :: l' => asked_data g0 = None -> forall g, In g l' -> asked_data g = None end).
