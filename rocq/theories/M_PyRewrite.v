(** python/qugar/dolfinx/_kernel_body.py: the accesses to the tables rewritten in the text of a kernel. *)
From Coq Require Import List Arith Ascii String.
From Verif Require Import M_Base M_PyText M_PyAccess.
Import ListNotations.
Local Open Scope list_scope. Local Open Scope nat_scope.

(** A run of characters of a class, and what follows. *)
Fixpoint run (c : cls) (s : text) : text * text := match s with x :: s' => if c x then (x :: fst (run c s'), snd (run c s')) else ([], s) | [] => ([], []) end.
(** 375: bracket, \[\s*(\w+\[\d+\]|[^\]]* )\s*\]\s*: the group and the text after. The two forms of the group are tried in order, with the longest runs
    (simplified: no backtracking. Shorter runs never match; if the first form matches and a later bracket does not, the second form leaves a bracket ']' where
    the next '[' is needed). *)
Definition form1 (s : text) : option (text * text) :=
  match run word s with
  | (((_ :: _) as w), x :: r) =>
      if Ascii.eqb x "[" then
        match run digit r with
        | (((_ :: _) as d), y :: r') =>
            if Ascii.eqb y "]" then match snd (run space r') with z :: r'' => if Ascii.eqb z "]" then Some (w ++ ["["%char] ++ d ++ ["]"%char], snd (run space r'')) else None | [] => None end else None
        | _ => None
        end
      else None
  | _ => None
  end.
Definition form2 (s : text) : option (text * text) :=
  match run (not_ (is "]")) s with (g, _ :: r) => Some (g, snd (run space r)) | (_, []) => None end.
Definition bracket (s : text) : option (text * text) :=
  match s with
  | x :: r => if Ascii.eqb x "[" then let s' := snd (run space r) in match form1 s' with Some m => Some m | None => form2 s' end else None
  | [] => None
  end.
(** 376: fe_re at the start of a text, FE([\w|\_]+ )\s* and four brackets: the name after FE, the groups, the text after. *)
Definition fe_access (s : text) : option (text * (text * text * text * text) * text) :=
  if starts (txt "FE") s then
    match run (fun x => word x || is "|" x) (skipn 2 s) with
    | (((_ :: _) as n), r) =>
        match bracket (snd (run space r)) with Some (i0, r0) =>
        match bracket r0 with Some (i1, r1) =>
        match bracket r1 with Some (i2, r2) =>
        match bracket r2 with Some (i3, r3) => Some (n, (i0, i1, i2, i3), r3)
        | None => None end | None => None end | None => None end | None => None end
    | _ => None
    end
  else None.
(** What is read of a table. *)
Record table_info := { ti_const : bool; ti_perms : nat; ti_funcs : nat; ti_name : text }.
(** 379-394: transform. [tables] looks a table up by the whole name. *)
Fixpoint transform (fuel : nat) (tables : text -> option table_info) (has_perms : bool) (s : text) : outcome text :=
  match fuel with
  | 0 => OutOfFuel
  | S fuel =>
      match fe_access s with
      | Some (n, (i0, _, i2, i3), r) =>
          let same := firstn (List.length s - List.length r) s in
          new <- (match tables (txt "FE" ++ n) with
                  | None => Ret same
                  | Some t => if ti_const t then Ret same else create_new_access_code (ti_const t) (ti_perms t) (ti_funcs t) (ti_name t) i0 i2 i3 has_perms
                  end) ;;
          rest <- transform fuel tables has_perms r ;;
          Ret (new ++ rest)
      | None => match s with [] => Ret [] | x :: s' => rest <- transform fuel tables has_perms s' ;; Ret (x :: rest) end
      end
  end.
(** 367-403: rewrite_table_accesses: the text before the first loop and the bodies. *)
Definition transformed (tables : text -> option table_info) (has_perms : bool) (s : text) : outcome text := transform (S (List.length s)) tables has_perms s.
Fixpoint rewrite_bodies (tables : text -> option table_info) (has_perms : bool) (ls : list loop) : outcome (list loop) :=
  match ls with
  | [] => Ret []
  | l :: ls' => b <- transformed tables has_perms (body l) ;; r <- rewrite_bodies tables has_perms ls' ;; Ret (mk_loop (quad_name l) (pre_text l) (header l) b :: r)
  end.
Definition rewrite_table_accesses (tables : text -> option table_info) (has_perms : bool) (k : kernel) : outcome kernel :=
  match loops k with
  | [] => Ret k
  | l :: ls =>
      p <- transformed tables has_perms (pre_text l) ;;
      r <- rewrite_bodies tables has_perms (mk_loop (quad_name l) p (header l) (body l) :: ls) ;;
      Ret (with_loops k r)
  end.
