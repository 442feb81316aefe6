(** C175: the picture of the facets of an unfitted domain; examples for C173 and C174. *)
From Coq Require Import Lra ZifyBool String.
From Verif Require Import M_Real M_BBox M_Grid M_Domain S_Grid S_Domain L_Grid L_DomainT.
From Verif Require Import M_PyBase M_PyNodes M_PyMesh S_PyMesh L_PyMesh M_PyPlot P_PyPlot P_PyPlot2.
Local Open Scope nat_scope.

(** np.unique of the indices. *)
Definition keeps (unique : list nat -> list nat) : Prop := forall l x, In x (unique l) <-> In x l.
(** The (direction, side) of the facets of the reference cells of DOLFINx (basix) and of the edges of VTK's quadrilateral. *)
Definition dolfinx_side (dim f : nat) : nat * nat := if dim =? 2 then nth f [(1, 0); (0, 0); (0, 1); (1, 1)] (0, 0) else nth f [(2, 0); (1, 0); (0, 0); (0, 1); (1, 1); (2, 1)] (0, 0).
Definition lex_side (f : nat) : nat * nat := (f / 2, f mod 2).
Definition vtk_edge_side (f : nat) : nat * nat := nth f [(1, 0); (0, 1); (1, 1); (0, 0)] (0, 0).

(** Refuted for C++ domains: the function always raises (the attribute tdim does not exist). *)
Theorem C175_cpp_refuted : forall unique dim n full cut empty l, facets_picture unique CppDomain dim n full cut empty <> Ret l.
Proof. intros. discriminate. Qed.
Print Assumptions C175_cpp_refuted.

Definition only (s : nat) (fs : list (nat * nat)) (k : nat) : option (list (nat * nat)) := if k =? s then Some fs else None.
Definition vtk_of (dim f : nat) : nat := nth f (if dim =? 2 then [3; 1; 0; 2] else [2; 3; 0; 4; 1; 5]) 0.
Definition dlf_of (dim f : nat) : nat := nth f (if dim =? 2 then [1; 2; 0; 3] else [2; 3; 1; 4; 0; 5]) 0.
Lemma facet_cases dim f : dim = 2 \/ dim = 3 -> f < 2 * dim ->
  (exists m, VTK_to_lexicg_faces dim = Ret m /\ pat m f = Ret (vtk_of dim f)) /\ vtk_of dim f < 2 * dim
  /\ (exists m, lexicg_to_VTK_faces dim = Ret m /\ pat m (vtk_of dim f) = Ret f) /\ (exists m, DOLFINx_to_lexicg_faces dim = Ret m /\ pat m f = Ret (dlf_of dim f)).
Proof.
  intros [-> | ->] H; do 6 (destruct f as [|f]; [first [exfalso; lia | split; [eexists; split; reflexivity|]; split; [cbn; lia|]; split; [eexists; split; reflexivity|]; eexists; split; reflexivity]|]); lia.
Qed.
(** The lists of facets with their statuses (0: full, 1: cut, 2: empty), and what the picture shows of them: the local facet of every DOLFINx facet is
    taken for the lexicographical one. *)
Definition shown (full cut empty : option (list (nat * nat))) (s : nat) : list (nat * nat) :=
  match (match s with 0 => full | 1 => cut | 2 => empty | _ => None end) with Some l => l | None => [] end.
Definition opt (s : nat) (o : option (list (nat * nat))) : list (nat * list (nat * nat)) := match o with Some l => [(s, l)] | None => [] end.
Lemma shown_in full cut empty s cf : (exists fs, In (s, fs) (opt 0 full ++ opt 1 cut ++ opt 2 empty) /\ In cf fs) <-> In cf (shown full cut empty s).
Proof.
  unfold shown, opt. split.
  - intros (fs & H & Hc). destruct full, cut, empty; cbn in H; repeat destruct H as [H|H]; try contradiction; injection H as <- <-; exact Hc.
  - intros H. destruct s as [|[|[|s]]]; [destruct full as [l|]; [|contradiction]|destruct cut as [l|]; [|contradiction]|destruct empty as [l|]; [|contradiction]|contradiction];
      exists l; (split; [|exact H]); rewrite !in_app_iff; cbn; auto.
Qed.
Definition ids_of (dim : nat) (fs : list (nat * nat)) : list nat := map (fun cf => fst cf * (2 * dim) + vtk_of dim (snd cf)) fs.
Fixpoint last_status (dim k : nat) (lists : list (nat * list (nat * nat))) (d : nat) : nat :=
  match lists with [] => d | (s, fs) :: l => last_status dim k l (if existsb (Z.eqb (Z.of_nat k)) (map Z.of_nat (ids_of dim fs)) then s else d) end.
Lemma marks dim n m : dim = 2 \/ dim = 3 -> VTK_to_lexicg_faces dim = Ret m -> forall lists st active,
  Forall (fun sl => Forall (fun cf => fst cf < n /\ snd cf < 2 * dim) (snd sl)) lists -> length st = n * (2 * dim) ->
  exists st', mark dim m lists st active = Ret (st', active ++ flat_map (fun sl => ids_of dim (snd sl)) lists) /\ length st' = length st
    /\ forall k, k < length st -> nth k st' 3 = last_status dim k lists (nth k st 3).
Proof.
  intros Hd Em lists. induction lists as [|(s, fs) lists IH]; intros st active HF HL.
  - exists st. cbn [mark flat_map last_status]. rewrite app_nil_r. auto.
  - pose proof (Forall_inv HF) as HF1. pose proof (Forall_inv_tail HF) as HF2. cbn [snd] in HF1.
    assert (E1 : take_ids m (map snd fs) = Ret (map (fun cf => vtk_of dim (snd cf)) fs)).
    { clear -Hd HF1 Em. induction fs as [|(c, f) fs IH]; [reflexivity|]. inversion HF1 as [|? ? V1 V2]; subst. cbn [map take_ids pmap].
      destruct (facet_cases dim f Hd) as ((m' & A & B) & _); [apply V1|]. rewrite Em in A. injection A as <-.
      cbn [snd]. rewrite B. cbn [bind]. unfold take_ids in IH. rewrite IH by auto. reflexivity. }
    assert (Y : map (fun cv => fst cv * (2 * dim) + snd cv) (combine (map fst fs) (map (fun cf => vtk_of dim (snd cf)) fs)) = ids_of dim fs).
    { unfold ids_of. clear. induction fs as [|(c, f) fs IH]; [reflexivity|]. cbn [map combine fst snd]. rewrite IH. reflexivity. }
    destruct (fill_ok st (map Z.of_nat (ids_of dim fs)) s 3) as (st1 & Es & Ls & Ns).
    { intros i Hi. rewrite HL. apply in_map_iff in Hi as (j & <- & Hj). unfold ids_of in Hj. apply in_map_iff in Hj as (cf & <- & Hc). rewrite Forall_forall in HF1. destruct (HF1 cf Hc) as (A & B).
      destruct (facet_cases dim (snd cf) Hd B) as (_ & C & _). nia. }
    destruct (IH st1 (active ++ ids_of dim fs) HF2 ltac:(lia)) as (st' & E & L & N). exists st'. split; [|split; [lia|]].
    + cbn [mark]. rewrite E1. cbn [bind]. rewrite Y. unfold set_status. rewrite Es. cbn [bind]. rewrite E. cbn [flat_map snd]. rewrite app_assoc. reflexivity.
    + intros k Hk. rewrite N by lia. rewrite Ns by exact Hk. reflexivity.
Qed.
Lemma id_inj dim c f c' f' : dim = 2 \/ dim = 3 -> f < 2 * dim -> f' < 2 * dim -> c * (2 * dim) + vtk_of dim f = c' * (2 * dim) + vtk_of dim f' -> c = c' /\ f = f'.
Proof.
  intros Hd Hf Hf' E. destruct (facet_cases dim f Hd Hf) as (_ & B & (m & M & P) & _), (facet_cases dim f' Hd Hf') as (_ & B' & (m' & M' & P') & _).
  assert (c = c') by nia. subst c'. split; [reflexivity|]. assert (Ev : vtk_of dim f = vtk_of dim f') by lia. rewrite M in M'. injection M' as <-. rewrite Ev, P' in P. congruence.
Qed.
Lemma last_in dim k : forall lists d, (exists s fs, In (s, fs) lists /\ In k (ids_of dim fs)) -> exists s fs, In (s, fs) lists /\ In k (ids_of dim fs) /\ last_status dim k lists d = s.
Proof.
  induction lists as [|(s, fs) lists IH]; intros d (s0 & fs0 & H & Hk); [contradiction|]. cbn [last_status].
  assert (X : (exists s1 fs1, In (s1, fs1) lists /\ In k (ids_of dim fs1)) \/ ~ (exists s1 fs1, In (s1, fs1) lists /\ In k (ids_of dim fs1))).
  { destruct (existsb (fun sl : nat * list (nat * nat) => existsb (Nat.eqb k) (ids_of dim (snd sl))) lists) eqn:Ex; [left|right].
    - apply existsb_exists in Ex as ((s1, fs1) & A & B). apply existsb_exists in B as (k' & B & C). apply Nat.eqb_eq in C. subst k'. exists s1, fs1. auto.
    - intros (s1 & fs1 & A & B). apply not_true_iff_false in Ex. apply Ex. apply existsb_exists. exists (s1, fs1). split; [exact A|]. apply existsb_exists. exists k. split; [exact B|apply Nat.eqb_refl]. }
  destruct X as [X|X].
  - destruct (IH (if existsb (Z.eqb (Z.of_nat k)) (map Z.of_nat (ids_of dim fs)) then s else d) X) as (s1 & fs1 & A & B & C). exists s1, fs1. split; [right; exact A|]. auto.
  - assert (s0 = s /\ fs0 = fs) as (-> & ->) by (destruct H as [H|H]; [injection H as -> ->; auto|exfalso; apply X; eauto]).
    exists s, fs. split; [left; reflexivity|]. split; [exact Hk|].
    rewrite (proj2 (mem_spec _ _)) by (apply in_map; exact Hk). clear IH H. induction lists as [|(s1, fs1) lists IH2]; [reflexivity|]. cbn [last_status].
    destruct (existsb (Z.eqb (Z.of_nat k)) (map Z.of_nat (ids_of dim fs1))) eqn:Ex.
    + exfalso. apply X. exists s1, fs1. split; [left; reflexivity|]. apply mem_spec in Ex. apply in_map_iff in Ex as (k' & Ek & Hk'). apply Nat2Z.inj in Ek. subst k'. exact Hk'.
    + apply IH2. intros (s2 & fs2 & A & B). apply X. exists s2, fs2. split; [right; exact A|exact B].
Qed.
Lemma three_lists unique dim n full cut empty : dim = 2 \/ dim = 3 -> keeps unique ->
  (forall s c f, In (c, f) (shown full cut empty s) -> c < n /\ f < 2 * dim) ->
  (forall s s' cf, In cf (shown full cut empty s) -> In cf (shown full cut empty s') -> s = s') ->
  exists l, facets_picture unique PythonDomain dim n full cut empty = Ret l
  /\ forall p, In p l <-> exists s c f, In (c, f) (shown full cut empty s) /\ p = {| pf_cell := c; pf_vtk := vtk_of dim f; pf_status := s; pf_lex := f; pf_dlf := Some (dlf_of dim f) |}.
Proof.
  intros Hd HU HF HD. set (lists := opt 0 full ++ opt 1 cut ++ opt 2 empty).
  assert (VM : exists m, VTK_to_lexicg_faces dim = Ret m) by (destruct Hd as [-> | ->]; eexists; reflexivity). destruct VM as (m & Hm).
  assert (LM : exists b, lexicg_to_VTK_faces dim = Ret b) by (destruct Hd as [-> | ->]; eexists; reflexivity). destruct LM as (b & Hb).
  assert (HS : forall s fs c f, In (s, fs) lists -> In (c, f) fs -> In (c, f) (shown full cut empty s)) by (intros s fs c f A B; apply (proj1 (shown_in full cut empty s (c, f))); exists fs; auto).
  destruct (marks dim n m Hd Hm lists (repeat 3 (n * (2 * dim))) []) as (st & Es & Ls & Ns).
  { apply Forall_forall. intros (s, fs) A. cbn [snd]. apply Forall_forall. intros (c, f) B. exact (HF s c f (HS s fs c f A B)). }
  { apply repeat_length. }
  rewrite repeat_length in Ls, Ns. cbn [app] in Es. set (ids := flat_map (fun sl => ids_of dim (snd sl)) lists) in *.
  assert (K : forall s c f, In (c, f) (shown full cut empty s) -> In (c * (2 * dim) + vtk_of dim f) ids /\ pat st (c * (2 * dim) + vtk_of dim f) = Ret s
             /\ (c * (2 * dim) + vtk_of dim f) mod (2 * dim) = vtk_of dim f /\ (c * (2 * dim) + vtk_of dim f) / (2 * dim) = c).
  { intros s c f A. destruct (HF s c f A) as (Hc & Hf). destruct (facet_cases dim f Hd Hf) as (_ & C & _). apply (proj2 (shown_in full cut empty s (c, f))) in A. destruct A as (fs & A & B).
    fold lists in A. assert (I : In (c * (2 * dim) + vtk_of dim f) (ids_of dim fs)) by (unfold ids_of; apply in_map_iff; exists (c, f); auto).
    split; [unfold ids; apply in_flat_map; exists (s, fs); auto|]. split.
    - assert (Hk : c * (2 * dim) + vtk_of dim f < n * (2 * dim)) by nia. unfold pat. rewrite (nth_error_nth' st 3) by lia. rewrite Ns by exact Hk. f_equal.
      destruct (last_in dim (c * (2 * dim) + vtk_of dim f) lists (nth (c * (2 * dim) + vtk_of dim f) (repeat 3 (n * (2 * dim))) 3)) as (s1 & fs1 & A1 & B1 & ->); [exists s, fs; auto|].
      unfold ids_of in B1. apply in_map_iff in B1 as ((c1, f1) & E1 & B1). cbn [fst snd] in E1. pose proof (HS s1 fs1 c1 f1 A1 B1) as S1. destruct (HF s1 c1 f1 S1) as (_ & Hf1).
      destruct (id_inj dim c1 f1 c f Hd Hf1 Hf E1) as (-> & ->). exact (HD s1 s (c, f) S1 (HS s fs c f A B)).
    - split; [rewrite Nat.add_comm, Nat.mod_add by lia; apply Nat.mod_small, C|]. rewrite Nat.div_add_l by lia. rewrite Nat.div_small by exact C. lia. }
  assert (M : forall i, In i (unique ids) -> exists s c f, In (c, f) (shown full cut empty s) /\ i = c * (2 * dim) + vtk_of dim f).
  { intros i Hi. apply (proj1 (HU _ _)) in Hi. unfold ids in Hi. apply in_flat_map in Hi as ((s, fs) & A & B). cbn [snd] in B. unfold ids_of in B. apply in_map_iff in B as ((c, f) & <- & Hc).
    exists s, c, f. split; [exact (HS s fs c f A Hc)|reflexivity]. }
  set (get := fun i => {| pf_cell := i / (2 * dim); pf_vtk := i mod (2 * dim); pf_status := nth i st 3; pf_lex := nth (i mod (2 * dim)) (if dim =? 2 then [2; 1; 3; 0] else [2; 4; 0; 1; 3; 5]) 0;
                          pf_dlf := Some (dlf_of dim (nth (i mod (2 * dim)) (if dim =? 2 then [2; 1; 3; 0] else [2; 4; 0; 1; 3; 5]) 0)) |}).
  assert (V : forall f, f < 2 * dim -> nth (vtk_of dim f) (if dim =? 2 then [2; 1; 3; 0] else [2; 4; 0; 1; 3; 5]) 0 = f).
  { destruct Hd as [-> | ->]; intros f Hf; do 6 (destruct f as [|f]; [first [exfalso; lia|reflexivity]|]); lia. }
  assert (G : forall s c f, In (c, f) (shown full cut empty s) -> get (c * (2 * dim) + vtk_of dim f) = {| pf_cell := c; pf_vtk := vtk_of dim f; pf_status := s; pf_lex := f; pf_dlf := Some (dlf_of dim f) |}).
  { intros s c f A. destruct (K s c f A) as (_ & K2 & K3 & K4). destruct (HF s c f A) as (_ & Hf). unfold get. rewrite K3, K4, (V f Hf). f_equal. unfold pat in K2. destruct (nth_error st (c * (2 * dim) + vtk_of dim f)) as [x|] eqn:Ex; [|discriminate].
    injection K2 as ->. apply nth_error_nth. exact Ex. }
  exists (map get (unique ids)). split.
  - unfold facets_picture. change (getattr PythonDomain "tdim" dim) with (Ret dim). cbn [bind]. assert (A : (2 <=? dim) && (dim <=? 3) = true) by (destruct Hd as [-> | ->]; reflexivity). rewrite A. cbn [assert_].
    rewrite Hm. cbn [bind]. fold (opt 0 full) (opt 1 cut) (opt 2 empty). fold lists. rewrite Es. cbn [bind]. rewrite Hb. cbn [bind fst snd].
    apply pmap_f. intros i Hi. destruct (M i Hi) as (s & c & f & M1 & ->). rewrite (G s c f M1). destruct (K s c f M1) as (_ & K2 & K3 & K4). destruct (HF s c f M1) as (_ & Hf). rewrite K2, K3, K4. cbn [bind].
    destruct (facet_cases dim f Hd Hf) as (_ & _ & (b' & B1 & B2) & t & T1 & T2).
    rewrite Hb in B1. injection B1 as <-. rewrite B2. cbn [bind]. rewrite T1. cbn [bind]. rewrite T2. cbn [bind]. reflexivity.
  - intros p. rewrite in_map_iff. split.
    + intros (i & <- & Hi). destruct (M i Hi) as (s & c & f & M1 & ->). exists s, c, f. split; [exact M1|exact (G s c f M1)].
    + intros (s & c & f & Hc & ->). exists (c * (2 * dim) + vtk_of dim f). split; [exact (G s c f Hc)|]. apply (proj2 (HU _ _)). exact (proj1 (K s c f Hc)).
Qed.
Lemma one_list unique dim n s fs : dim = 2 \/ dim = 3 -> s < 3 -> keeps unique -> Forall (fun cf => fst cf < n /\ snd cf < 2 * dim) fs ->
  exists l, facets_picture unique PythonDomain dim n (only s fs 0) (only s fs 1) (only s fs 2) = Ret l
  /\ forall p, In p l <-> exists c f, In (c, f) fs /\ p = {| pf_cell := c; pf_vtk := vtk_of dim f; pf_status := s; pf_lex := f; pf_dlf := Some (dlf_of dim f) |}.
Proof.
  intros Hd Hs HU HF. assert (S1 : forall s', shown (only s fs 0) (only s fs 1) (only s fs 2) s' = if s' =? s then fs else []).
  { intros s'. destruct s as [|[|[|s]]]; [..|lia]; destruct s' as [|[|[|s']]]; reflexivity. }
  destruct (three_lists unique dim n (only s fs 0) (only s fs 1) (only s fs 2) Hd HU) as (l & E & N).
  - intros s' c f. rewrite S1. destruct (s' =? s); [|contradiction]. intros H. rewrite Forall_forall in HF. exact (HF (c, f) H).
  - intros s1 s2 cf. rewrite !S1. destruct (Nat.eqb_spec s1 s); [|contradiction]. destruct (Nat.eqb_spec s2 s); [congruence|contradiction].
  - exists l. split; [exact E|]. intros p. rewrite N. split.
    + intros (s' & c & f & A & ->). rewrite S1 in A. destruct (Nat.eqb_spec s' s); [subst s'|contradiction]. exists c, f. auto.
    + intros (c & f & A & ->). exists s, c, f. rewrite S1, Nat.eqb_refl. auto.
Qed.
(** Partial: one facet is drawn for every facet of the three lists (no facet is in two of them), on its cell and with its status; the lexicographical and
    DOLFINx numbers it carries name one and the same side; that is the side of the facet of the domain, and the one drawn in 2D, for the facets on which
    the two numberings agree: the last one (y = 1 in 2D, z = 1 in 3D). *)
Theorem C175_python_partial : forall unique dim n full cut empty, dim = 2 \/ dim = 3 -> keeps unique ->
  (forall s c f, In (c, f) (shown full cut empty s) -> c < n /\ f < 2 * dim) ->
  (forall s s' cf, In cf (shown full cut empty s) -> In cf (shown full cut empty s') -> s = s') ->
  exists l, facets_picture unique PythonDomain dim n full cut empty = Ret l
  /\ (forall p, In p l -> exists f, In (pf_cell p, f) (shown full cut empty (pf_status p)) /\ (forall d, pf_dlf p = Some d -> lex_side (pf_lex p) = dolfinx_side dim d)
        /\ (f = 2 * dim - 1 -> pf_dlf p = Some f /\ lex_side (pf_lex p) = dolfinx_side dim f /\ (dim = 2 -> vtk_edge_side (pf_vtk p) = dolfinx_side dim f)))
  /\ (forall s c f, In (c, f) (shown full cut empty s) -> exists p, In p l /\ pf_cell p = c /\ pf_status p = s)
  /\ (forall c, (exists s f f', f <> f' /\ In (c, f) (shown full cut empty s) /\ In (c, f') (shown full cut empty s)) -> exists p p', In p l /\ In p' l /\ pf_cell p = c /\ pf_cell p' = c /\ pf_vtk p <> pf_vtk p').
Proof.
  intros unique dim n full cut empty Hd HU HF HD. destruct (three_lists unique dim n full cut empty Hd HU HF HD) as (l & E & N). exists l. split; [exact E|]. split; [|split].
  - intros p Hp. apply N in Hp as (s & c & f & Hc & ->). exists f. cbn [pf_cell pf_status pf_dlf pf_lex pf_vtk]. split; [exact Hc|]. destruct (HF s c f Hc) as (_ & Hf). split.
    + intros d Ed. injection Ed as <-. destruct Hd as [-> | ->]; do 6 (destruct f as [|f]; [first [exfalso; lia|reflexivity]|]); lia.
    + intros ->. destruct Hd as [-> | ->]; (split; [reflexivity|]; split; [reflexivity|]); [reflexivity|discriminate].
  - intros s c f Hc. eexists. split; [apply N; exists s, c, f; split; [exact Hc|reflexivity]|]. split; reflexivity.
  - intros c (s & f & f' & Hne & A & A'). eexists. eexists. split; [apply N; exists s, c, f; split; [exact A|reflexivity]|]. split; [apply N; exists s, c, f'; split; [exact A'|reflexivity]|].
    cbn [pf_cell pf_vtk]. split; [reflexivity|]. split; [reflexivity|]. intros Ev. apply Hne. destruct (HF s c f A) as (_ & Hf). destruct (HF s c f' A') as (_ & Hf').
    apply (id_inj dim c f c f' Hd Hf Hf'). rewrite Ev. reflexivity.
Qed.
(** Refuted for Python domains: every other facet is drawn on another side than its own and carries the DOLFINx number of another facet. *)
Theorem C175_python_refuted : forall unique dim n s c f, dim = 2 \/ dim = 3 -> s < 3 -> keeps unique -> c < n -> f < 2 * dim - 1 ->
  exists l p, facets_picture unique PythonDomain dim n (only s [(c, f)] 0) (only s [(c, f)] 1) (only s [(c, f)] 2) = Ret l /\ In p l /\ pf_cell p = c
  /\ pf_dlf p <> Some f /\ lex_side (pf_lex p) <> dolfinx_side dim f /\ (dim = 2 -> vtk_edge_side (pf_vtk p) <> dolfinx_side dim f).
Proof.
  intros unique dim n s c f Hd Hs HU Hc Hf. destruct (one_list unique dim n s [(c, f)] Hd Hs HU) as (l & E & N); [repeat constructor; cbn; lia|]. exists l. eexists. split; [exact E|].
  split; [apply N; exists c, f; split; [left; reflexivity|reflexivity]|]. split; [reflexivity|]. cbn [pf_dlf pf_lex pf_vtk].
  destruct Hd as [-> | ->]; do 5 (destruct f as [|f]; [first [exfalso; lia|(split; [|split]); cbv; intros; try discriminate; congruence]|]); lia.
Qed.
Print Assumptions C175_python_partial.
Print Assumptions C175_python_refuted.
Example C175_case : keeps (fun l => l) /\ Forall (fun cf => fst cf < 2 /\ snd cf < 2 * 2) [(0, 3); (1, 0)]
  /\ facets_picture (fun l => l) PythonDomain 2 2 None (Some [(0, 3); (1, 0)]) None
     = Ret [ {| pf_cell := 0; pf_vtk := 2; pf_status := 1; pf_lex := 3; pf_dlf := Some 3 |}; {| pf_cell := 1; pf_vtk := 3; pf_status := 1; pf_lex := 0; pf_dlf := Some 1 |} ].
Proof. split; [intros l x; reflexivity|]. split; [repeat constructor; cbn; lia|]. reflexivity. Qed.

Example C175_case3 : let full := Some [(0, 0); (0, 3)] in let cut := Some [(1, 0)] in
  (forall s c f, In (c, f) (shown full cut None s) -> c < 2 /\ f < 2 * 2) /\ (forall s s' cf, In cf (shown full cut None s) -> In cf (shown full cut None s') -> s = s')
  /\ exists l, facets_picture (fun l => l) PythonDomain 2 2 full cut None = Ret l /\ map (fun p => (pf_cell p, pf_status p)) l = [(0, 0); (0, 0); (1, 1)].
Proof.
  cbv zeta. split; [|split].
  - intros [|[|[|s]]] c f; cbn; intros H; repeat destruct H as [H|H]; try contradiction; injection H as <- <-; lia.
  - intros [|[|[|s]]] [|[|[|s']]] cf; cbn; intros H H'; try contradiction; try reflexivity; exfalso; repeat destruct H as [H|H]; repeat destruct H' as [H'|H']; try contradiction; congruence.
  - eexists. split; [reflexivity|]. reflexivity.
Qed.

(** The hypotheses of C173 and C174 are met: the grid of two unit cells in a row. *)
Definition demo_q : pquad := {| q_points := [[1/2; 1/4]; [0; 1]; [1; 1]]%R; q_weights := [1; 1; 1]%R; q_normals := Some [[1; 0]; [1; 0]; [0; 1]]%R; q_cells := [1%Z; 0%Z]; q_facets := []; q_npts := [2; 1] |}.
Definition demo_qf : pquad := {| q_points := [[1/2]; [1/4]; [1/8]]%R; q_weights := [1; 1; 1]%R; q_normals := None; q_cells := [1%Z; 0%Z]; q_facets := [1; 2]; q_npts := [2; 1] |}.
Example C173_case : exists g, usable_grid g /\ length (breaks g) = 2 /\ fits g demo_q /\ Forall (fits_facets g) [demo_qf]
  /\ exists v, create_quad_points_grid g demo_q = Ret v /\ v_cells v = [1; 1; 0]%Z /\ nth 0 (nth 0 (v_points v) []) 0%R = (3/2)%R.
Proof.
  destruct demo_usable as (g & Hu & Hn & Hb & H0 & H1). exists g. split; [exact Hu|]. split; [exact Hb|].
  assert (C0 : cell_id g 0) by (unfold cell_id; lia). assert (C1 : cell_id g 1) by (unfold cell_id; lia).
  assert (F : fits g demo_q). { unfold fits. rewrite Hb. cbn. do 3 (split; [reflexivity|]). split; [repeat constructor|]. split; [constructor; [exact C1|constructor; [exact C0|constructor]]|]. split; [reflexivity|repeat constructor]. }
  split; [exact F|]. split.
  - constructor; [|constructor]. unfold fits_facets. rewrite Hb. cbn. do 4 (split; [reflexivity|]). split; [repeat constructor|]. split; [constructor; [exact C1|constructor; [exact C0|constructor]]|]. repeat constructor; lia.
  - destruct (C173_cells g demo_q Hu ltac:(lia) F) as (v & E & _ & _ & _ & V & _). exists v. split; [exact E|]. rewrite (points_ok g demo_q Hu F) in E. injection E as <-. split; [reflexivity|].
    destruct (V 0 0) as (_ & _ & lo & hi & B & P & _); [cbn; lia|cbn; lia|]. change (nth 0 (q_cells demo_q) 0%Z) with 1%Z in B. rewrite H1 in B. injection B as <- <-.
    change (point_index (q_npts demo_q) 0 0) with 0 in P. rewrite (P 0) by lia. rewrite Hb. cbn [Nat.ltb Nat.leb nth demo_q q_points]. lra.
Qed.
(** Two cells that DOLFINx numbered the other way round. *)
Definition demo_mesh (l : list Z) : mesh := {| original_cell_index := l; active_cells := None; input_global_indices := []; merged_nodes_map := [] |}.
Example C174_case : exists g, usable_grid g /\ length (breaks g) = 2 /\ num_cells g = 2%Z
  /\ cells_of_process (demo_mesh [1; 0]%Z) (Z.to_nat (num_cells g)) /\ original_cell_index (demo_mesh [1; 0]%Z) <> map Z.of_nat (seq 0 (Z.to_nat (num_cells g)))
  /\ cells_of_process (demo_mesh [0; 1]%Z) (Z.to_nat (num_cells g)) /\ original_cell_index (demo_mesh [0; 1]%Z) = map Z.of_nat (seq 0 (length (mesh_cells (demo_mesh [0; 1]%Z) g)))
  /\ dolfinx_ids (demo_mesh [0; 1]%Z) [1]%Z [1]%Z.
Proof.
  destruct demo_usable as (g & Hu & Hn & Hb & H0 & H1). exists g. split; [exact Hu|]. split; [exact Hb|]. split; [exact Hn|]. unfold mesh_cells. rewrite Hn. change (Z.to_nat 2) with 2.
  split; [split; [repeat (constructor; [cbn; lia|]); constructor|cbn; intros i [<-|[<-|[]]]; lia]|]. split; [discriminate|].
  split; [split; [repeat (constructor; [cbn; lia|]); constructor|cbn; intros i [<-|[<-|[]]]; lia]|]. split; [reflexivity|].
  intros i. unfold original_of. cbn. split; [intros [<-|[]]; exists 1%Z; split; [split; [lia|reflexivity]|auto]|].
  intros (c & ((A & B) & C) & [<-|[]]). left. assert (i = 0 \/ i = 1)%Z as [-> | ->] by lia; [discriminate|reflexivity].
Qed.
