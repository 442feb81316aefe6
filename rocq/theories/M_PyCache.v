(** python/qugar/dolfinx/_shim/__init__.py and jit.py: the cache of the compiled library that tabulates elements, and the cache of compiled forms, shared by processes
    and threads that run at the same time, are killed or interrupted at any moment. *)
From Coq Require Import List Arith Bool.
Import ListNotations.

(** The library file: whether it has been written completely, and the time it was last written. *)
Record libfile := mk_lib { complete : bool; mtime : nat }.
(** Where a call of ensure_built is. [Returned l fast]: it has returned when the library was [l], from the test without lock or not. *)
Inductive pc := Check1 | WantThread | WantFile | Check2 | Compiling | Returned (l : option libfile) (fast : bool) | Raised | Dead.
Record state := mk_state { lib : option libfile; clock : nat; thread_lock : nat -> option nat; file_lock : option nat; pcs : nat -> pc }.
Definition upd {A} (f : nat -> A) (n : nat) (a : A) : nat -> A := fun m => if m =? n then a else f m.
Definition goto (s : state) (t : nat) (p : pc) : state := mk_state (lib s) (clock s) (thread_lock s) (file_lock s) (upd (pcs s) t p).
Definition write (s : state) (l : option libfile) : state := mk_state l (clock s) (thread_lock s) (file_lock s) (pcs s).
(** shim/__init__.py 138, 144: lib.exists() and lib.stat().st_mtime >= src_mtime (a file removed between the two is not modelled); the time of the
    sources does not change. *)
Definition fresh (src : nat) (l : option libfile) : bool := match l with Some f => src <=? mtime f | None => false end.
(** What the compiler does: it goes on writing, ends, or fails and removes its output. *)
Inductive compiler := Writes | Finishes | Fails.
(** 141: the end of the block: both locks are released (in one step). *)
Definition leave (proc : nat -> nat) (s : state) (t : nat) (p : pc) : state :=
  mk_state (lib s) (clock s) (upd (thread_lock s) (proc t) None) None (upd (pcs s) t p).
(** 117-170: a step of the call [t] of ensure_built in the process [proc t]; None: it waits or has ended. *)
Definition task_step (src : nat) (proc : nat -> nat) (t : nat) (c : compiler) (s : state) : option state :=
  match pcs s t with
  (* 138: fast path *)
  | Check1 => Some (if fresh src (lib s) then goto s t (Returned (lib s) true) else goto s t WantThread)
  (* 141: with _LOCK, _file_lock(...) *)
  | WantThread => match thread_lock s (proc t) with Some _ => None | None => Some (goto (mk_state (lib s) (clock s) (upd (thread_lock s) (proc t) (Some t)) (file_lock s) (pcs s)) t WantFile) end
  | WantFile => match file_lock s with Some _ => None | None => Some (goto (mk_state (lib s) (clock s) (thread_lock s) (Some t) (pcs s)) t Check2) end
  (* 144 *)
  | Check2 => Some (if fresh src (lib s) then leave proc s t (Returned (lib s) false) else goto (write s (Some (mk_lib false (clock s)))) t Compiling)
  (* 170: the compiler writes its output to its final place *)
  | Compiling => match c with
      | Writes => Some (write s (Some (mk_lib false (clock s))))
      | Finishes => let s' := write s (Some (mk_lib true (clock s))) in Some (leave proc s' t (Returned (lib s') false))
      | Fails => Some (leave proc (write s None) t Raised)
      end
  | Returned _ _ | Raised | Dead => None
  end.
(** A process is killed with its compiler: the system releases the lock of the file. *)
Definition kill (proc : nat -> nat) (p : nat) (s : state) : state :=
  mk_state (lib s) (clock s) (upd (thread_lock s) p None) (match file_lock s with Some t => if proc t =? p then None else Some t | None => None end)
    (fun t => if proc t =? p then match pcs s t with Returned l b => Returned l b | Raised => Raised | _ => Dead end else pcs s t).
Inductive event := Task (t : nat) (c : compiler) | Tick | Kill (p : nat).
Definition fire (src : nat) (proc : nat -> nat) (e : event) (s : state) : option state :=
  match e with
  | Task t c => task_step src proc t c s
  | Tick => Some (mk_state (lib s) (S (clock s)) (thread_lock s) (file_lock s) (pcs s))
  | Kill p => Some (kill proc p s)
  end.
(** An execution: the events in any order. *)
Fixpoint run (src : nat) (proc : nat -> nat) (es : list event) (s : state) : option state :=
  match es with [] => Some s | e :: es' => match fire src proc e s with Some s' => run src proc es' s' | None => None end end.
Definition start (l : option libfile) (now : nat) : state := mk_state l now (fun _ => None) None (fun _ => Check1).

(** jit.py 199-297: compile_forms with a cache directory, for one signature of forms and options. get_cached_module of FFCx (not in /repo): the .c file is created
    exclusively; if it is there, the .c.cached file is waited for, [timeout] times. [module_ok]: the compiled module is complete. *)
Inductive jpc := JOpen | JWaiting (k : nat) | JBuilding | JReturned (ok : bool) | JTimedOut | JRaised | JDead.
Record jstate := mk_jstate { c_file : bool; ready : bool; module_ok : bool; jpcs : nat -> jpc }.
Definition jgoto (s : jstate) (t : nat) (p : jpc) : jstate := mk_jstate (c_file s) (ready s) (module_ok s) (upd (jpcs s) t p).
(** What the compilation does: it ends, raises an Exception, or a KeyboardInterrupt (which is not an Exception). *)
Inductive build := BFinishes | BFails | BInterrupted.
Definition jit_step (timeout : nat) (t : nat) (b : build) (s : jstate) : option jstate :=
  match jpcs s t with
  (* 249 *)
  | JOpen => Some (if c_file s then jgoto s t (JWaiting timeout) else jgoto (mk_jstate true (ready s) false (jpcs s)) t JBuilding)
  | JWaiting 0 => Some (jgoto s t JTimedOut)
  (* 250-257: the module is loaded *)
  | JWaiting (S k) => Some (if ready s then jgoto s t (JReturned (module_ok s)) else jgoto s t (JWaiting k))
  (* 261-296 *)
  | JBuilding => Some match b with
      (* 186-190: the .c.cached file is created exclusively; when it is there, this raises *)
      | BFinishes => if ready s then jgoto (mk_jstate false true true (jpcs s)) t JRaised else jgoto (mk_jstate (c_file s) true true (jpcs s)) t (JReturned true)
      (* 286-293: the .c file is renamed *)
      | BFails => jgoto (mk_jstate false (ready s) false (jpcs s)) t JRaised
      | BInterrupted => jgoto s t JRaised
      end
  | _ => None
  end.
Inductive jevent := JTask (t : nat) (b : build) | JKill (t : nat).
Definition jfire (timeout : nat) (e : jevent) (s : jstate) : option jstate :=
  match e with
  | JTask t b => jit_step timeout t b s
  | JKill t => Some (match jpcs s t with JOpen | JWaiting _ | JBuilding => jgoto s t JDead | _ => s end)
  end.
Fixpoint jrun (timeout : nat) (es : list jevent) (s : jstate) : option jstate :=
  match es with [] => Some s | e :: es' => match jfire timeout e s with Some s' => jrun timeout es' s' | None => None end end.
Definition jstart : jstate := mk_jstate false false false (fun _ => JOpen).
