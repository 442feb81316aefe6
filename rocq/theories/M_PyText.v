(** python/qugar/dolfinx/parsing_utils.py and _kernel_body.py: the text of FFCx's kernels, taken apart and put together again.
    Texts are lists of (ASCII) characters. *)
From Coq Require Import ZArith List Bool Arith Ascii String DecimalString.
From Verif Require Import M_Base.
Import ListNotations.
Local Open Scope list_scope. Local Open Scope char_scope. Local Open Scope nat_scope.

Notation text := (list ascii).
Notation txt := list_ascii_of_string.

(** Python's re (external), for sequences of character classes, each once, any number of times or at least once; greedy with backtracking: the longest
    run is tried first. [rmatch] matches at the start of the text and gives what each item matched. *)
Definition cls := ascii -> bool.
Inductive item := One (c : cls) | Star (c : cls) | Plus (c : cls).
Fixpoint span_len (c : cls) (s : text) : nat := match s with x :: s' => if c x then S (span_len c s') else 0 | [] => 0 end.
Fixpoint longest {A} (low : nat) (f : nat -> option A) (k : nat) : option A :=
  match f k with Some a => Some a | None => match k with 0 => None | S k' => if k <=? low then None else longest low f k' end end.
Fixpoint rmatch (p : list item) (s : text) : option (list text) :=
  match p with
  | [] => Some []
  | One c :: p' => match s with x :: s' => if c x then match rmatch p' s' with Some l => Some ([x] :: l) | None => None end else None | [] => None end
  | Star c :: p' => longest 0 (fun k => match rmatch p' (skipn k s) with Some l => Some (firstn k s :: l) | None => None end) (span_len c s)
  | Plus c :: p' => if span_len c s =? 0 then None
      else longest 1 (fun k => match rmatch p' (skipn k s) with Some l => Some (firstn k s :: l) | None => None end) (span_len c s)
  end.
(** re.search: the leftmost match: the text before it, what its items matched, the text after it. *)
Fixpoint rsearch (p : list item) (s : text) : option (text * list text * text) :=
  match rmatch p s with
  | Some l => Some ([], l, skipn (List.length (concat l)) s)
  | None => match s with [] => None | x :: s' => match rsearch p s' with Some (a, l, b) => Some (x :: a, l, b) | None => None end end
  end.

Definition is (a : ascii) : cls := Ascii.eqb a.
Definition among (l : string) : cls := fun x => existsb (Ascii.eqb x) (txt l).
Definition between (a b : ascii) : cls := fun x => (nat_of_ascii a <=? nat_of_ascii x) && (nat_of_ascii x <=? nat_of_ascii b).
Definition digit : cls := between "0" "9".
Definition word : cls := fun x => digit x || between "a" "z" x || between "A" "Z" x || is "_" x.
(** \s for ASCII characters (str patterns): space, \t \n \v \f \r and the separators 28-31. *)
Definition space : cls := fun x => is " " x || ((9 <=? nat_of_ascii x) && (nat_of_ascii x <=? 13)) || ((28 <=? nat_of_ascii x) && (nat_of_ascii x <=? 31)).
Definition not_ (c : cls) : cls := fun x => negb (c x).
Definition lit (s : string) : list item := map (fun a => One (is a)) (txt s).
Definition nl : ascii := "010".

(** _kernel_body.py 59-61: _FUNC_SIG_PATTERN; item 30 of the list is the group. *)
Definition func_sig : list item :=
  lit "void" ++ [Star space] ++ lit "tabulate_tensor_integral_" ++ [Plus word; Star space] ++ lit "(" ++ [Star (fun x => word x || space x || among "|,*" x)] ++ lit ")".
(** 62-64: _LOOP_HEADER_PATTERN. *)
Definition loop_header : list item :=
  lit "for" ++ [Star space] ++ lit "(" ++ [Star space] ++ lit "int" ++ [Plus space] ++ lit "iq" ++ [Star space] ++ lit "=" ++ [Star space] ++ lit "0" ++ [Star space] ++ lit ";" ++
  [Star space] ++ lit "iq" ++ [Star space] ++ lit "<" ++ [Star space; Plus digit; Star space] ++ lit ";" ++ [Star space] ++ lit "++iq" ++ [Star space] ++ lit ")".
(** 65-66: _QUAD_NAME_IN_BODY and _QUAD_NAME_VIA_WEIGHTS. *)
Definition name_in_body : list item := lit "_Q" ++ [One word; One word; One word; One (among "[|_e")].
Definition name_via_weights : list item := lit "weights_" ++ [One word; One word; One word].

(** parsing_utils.py 23-57: get_pairing_brackets (from the character [i] on). *)
Fixpoint pairing (opn cls_ : ascii) (s : text) (i start : nat) (n_open : Z) : option (nat * nat) :=
  match s with
  | [] => None
  | x :: s' =>
      if Ascii.eqb x opn then pairing opn cls_ s' (S i) (if (n_open =? 0)%Z then i else start) (n_open + 1)
      else if Ascii.eqb x cls_ then if (n_open - 1 =? 0)%Z then Some (start, S i) else pairing opn cls_ s' (S i) start (n_open - 1)
      else pairing opn cls_ s' (S i) start n_open
  end.
Definition get_pairing_brackets (code : text) (opn cls_ : ascii) : outcome (nat * nat) :=
  match pairing opn cls_ code 0 0 0 with Some r => Ret r | None => Abort end.

(** str.find and str.rfind of a character, str.rfind of "}\n". *)
Fixpoint find_char (a : ascii) (s : text) : option nat := match s with [] => None | x :: s' => if Ascii.eqb x a then Some 0 else option_map S (find_char a s') end.
Fixpoint starts (p s : text) : bool := match p, s with [], _ => true | a :: p', x :: s' => Ascii.eqb a x && starts p' s' | _, _ => false end.
Fixpoint rfind (p s : text) : option nat :=
  match s with [] => if starts p [] then Some 0 else None
  | _ :: s' => match rfind p s' with Some i => Some (S i) | None => if starts p s then Some 0 else None end end.
(** str.replace(old, new, 1). *)
Fixpoint replace1 (old new s : text) : text := if starts old s then new ++ skipn (List.length old) s else match s with [] => [] | x :: s' => x :: replace1 old new s' end.

(** 70-99: Loop; 102-134: KernelBody (the parts of the text). *)
Record loop := mk_loop { quad_name : text; pre_text : text; header : text; body : text }.
Record kernel := mk_kernel { before_func : text; after_func : text; signature : text; integral_name : text; loops : list loop; post_text : text }.

(** 140-279: from_ffcx. The loops (208-241): [ind] is the text after the last loop and [s] the text after the last match, at the position [at_] of it:
    the matches are sought after the header of the previous one. Slices from [ind] to the start of a match that lies before it are empty. *)
Definition quad_of (b : text) : option text :=
  match rsearch name_in_body b with Some (_, l, _) => Some (concat (firstn 3 (skipn 2 l)))
  | None => match rsearch name_via_weights b with Some (_, l, _) => Some (concat (skipn 8 l)) | None => None end end.
Fixpoint split_loops (fuel : nat) (inside : text) (pos ind : nat) : outcome (list loop * nat) :=
  match fuel with
  | 0 => OutOfFuel
  | S fuel =>
      match rsearch loop_header (skipn pos inside) with
      | None => Ret ([], ind)
      | Some (a, h, after_header) =>
          let start := pos + List.length a in
          let end_ := start + List.length (concat h) in
          b <- get_pairing_brackets after_header "{" "}" ;;
          let (b_open, b_close) := (b : nat * nat) in
          if negb (forallb space (firstn b_open after_header)) then Abort else
          let bd := firstn (b_close - 1 - (b_open + 1)) (skipn (b_open + 1) after_header) in
          match quad_of bd with
          | None => Abort
          | Some q =>
              rest <- split_loops fuel inside end_ (end_ + b_close) ;;
              Ret (mk_loop q (firstn (start - ind) (skipn ind inside)) (firstn (end_ + b_open + 1 - start) (skipn start inside)) bd :: fst rest, snd rest)
          end
      end
  end.
(** 192-195: the type of the coefficients in the signature, "const T* restrict w"; parse_dtype_C (parsing_utils.py 91-130) accepts these names. *)
Definition coeffs_type : list item := lit "const" ++ [Plus space; Plus (not_ (is "*"))] ++ lit "*" ++ [Plus space] ++ lit "restrict" ++ [Plus space] ++ lit "w".
Definition dtype_ok (s : text) : bool :=
  existsb (fun n => if list_eq_dec ascii_dec (txt n) s then true else false)
    ["float"; "float32"; "double"; "float64"; "complex float"; "float _Complex"; "complex64"; "complex double"; "double _Complex"; "complex128"]%string.
(** 161-244. [sub[ob:cb]]: from the first bracket to two past the last newline that follows a closing bracket
    (rm is the position of the newline in the reversed text, so len(sub) - rm is already past it: the slice takes one more character, if there is one). *)
Definition from_ffcx (code : text) : outcome kernel :=
  match rsearch func_sig code with
  | None => Abort
  | Some (before, sg, sub) =>
      match find_char "{" sub with
      | None => Abort
      | Some ob =>
          match rfind ["}"; nl] sub with
          | None => Abort
          | Some j =>
              let cb := j + 3 in
              let func_impl := firstn (cb - ob) (skipn ob sub) in
              match rsearch coeffs_type (concat sg) with
              | None => Abort
              | Some (_, w, _) =>
                  if negb (dtype_ok (concat (firstn 1 (skipn 6 w)))) then Abort else
                  if negb (starts ["{"; nl] func_impl) then Abort else
                  let inside := skipn 2 func_impl in
                  match rfind ["}"] inside with
                  | None => Abort
                  | Some close_pos =>
                      let inside_body := firstn close_pos inside in
                      ls <- split_loops (S (List.length inside_body)) inside_body 0 0 ;;
                      Ret (mk_kernel before (skipn cb sub) (concat sg) (concat (firstn 1 (skipn 30 sg))) (fst ls) (skipn (snd ls) inside_body ++ skipn close_pos inside))
                  end
              end
          end
      end
  end.

(** 285-309: render_body and render. *)
Definition render_loop (l : loop) : text := pre_text l ++ header l ++ body l ++ ["}"].
Definition render_body (k : kernel) : text := ["{"; nl] ++ concat (map render_loop (loops k)) ++ post_text k.
Definition render (k : kernel) (suffix : text) : text :=
  let sig := match suffix with [] => signature k | _ => replace1 (integral_name k) (integral_name k ++ suffix) (signature k) end in
  sig ++ render_body k ++ [nl; nl].

(** 314-323: copy (the loops are copied: the model has no aliasing). 342-361: inline_pre_loop_into_loops. *)
Definition with_loops (k : kernel) (ls : list loop) : kernel := mk_kernel (before_func k) (after_func k) (signature k) (integral_name k) ls (post_text k).
Definition inline_pre_loop (k : kernel) : kernel :=
  match loops k with
  | [] => k
  | l :: ls => with_loops k (map (fun m => mk_loop (quad_name m) (pre_text m) (header m) (pre_text l ++ body m)) (mk_loop (quad_name l) [] (header l) (body l) :: ls))
  end.
(** 363-377: break_unfitted_loops; [unf] says which quadratures are on the unfitted boundary. *)
Definition break_unfitted (unf : text -> bool) (k : kernel) : kernel :=
  with_loops k (map (fun l => if unf (quad_name l) then mk_loop (quad_name l) (pre_text l) (header l) (txt "break;" ++ [nl] ++ body l) else l) (loops k)).

(** re.sub with a function of the match (no match is empty). *)
Fixpoint rsub (fuel : nat) (p : list item) (f : list text -> text) (s : text) : text :=
  match fuel with
  | 0 => s
  | S fuel => match rsearch p s with None => s | Some (a, l, b) => a ++ f l ++ rsub fuel p f b end
  end.
Definition sub1 (p : list item) (r s : text) : text := match rsearch p s with None => s | Some (a, _, b) => a ++ r ++ b end.
(** str of a natural number. *)
Definition dec (n : nat) : text := txt (NilEmpty.string_of_uint (Nat.to_uint n)).
(** 437-450: dynamic_loop_bounds. *)
Definition runtime_header (q : text) : text := txt "for (int iq = 0; iq < n_pts_Q" ++ q ++ txt "; ++iq)".
Definition dynamic_loop_bounds (k : kernel) : kernel :=
  with_loops k (map (fun l => mk_loop (quad_name l) (pre_text l) (sub1 loop_header (runtime_header (quad_name l)) (header l)) (body l)) (loops k)).
(** 452-485: substitute_normals. *)
Definition operator : cls := fun x => among "*+-/%(" x || space x.
Definition constant_ref (n : nat) : list item := One operator :: lit "c[" ++ map (fun a => One (is a)) (dec n) ++ lit "]".
Definition normal_text (tdim : nat) (q : text) (i : nat) : text :=
  txt "normals_" ++ q ++ txt "[" ++ dec tdim ++ txt " * iq" ++ (if 0 <? i then txt " + " ++ dec i else []) ++ txt "]".
Definition substitute_in (tdim : nat) (q : text) (offsets : list nat) (block : text) : text :=
  fold_left (fun block off => fold_left (fun block i => rsub (S (List.length block)) (constant_ref (off + i)) (fun l => concat (firstn 1 l) ++ normal_text tdim q i) block) (seq 0 tdim) block)
    offsets block.
Definition substitute_normals (unf : text -> bool) (tdim : nat) (offsets : list nat) (k : kernel) : kernel :=
  with_loops k (map (fun l => if unf (quad_name l) then mk_loop (quad_name l) (pre_text l) (header l) (substitute_in tdim (quad_name l) offsets (body l)) else l) (loops k)).
