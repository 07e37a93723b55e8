(** Model of the argument parsing behind fpfind.py 424-546, parse_timestamps.py 690-716 and generate_freqcd_testcase.py 70-85: Python's argparse (3.8-3.11,
    _parse_known_args, _parse_optional, _get_option_tuples, consume_optional, consume_positionals), prefix character "-", abbreviations allowed.
    Words are lists of character codes, ASCII.  Words starting with "-" and containing "=" are split by configargparse before ([outside], see FpCliModel).  By argparse they are
    split too, but in groups of letters Python's versions differ: see [unclear].  "-x=..." with an option "-x" without argument is an error (3.11.9 and later; older versions read "-x=y" as "-xy").  Error messages are not modelled, only that there is an error.  configargparse is taken to add nothing: no
    configuration file (neither "fpfind.default.conf" nor --config), no environment variables (none are declared).  int() accepts any number of digits here. *)
From Coq Require Import QArith Qpower String Ascii.
From Verif Require Import Float Base.
Local Open Scope Z_scope.

Fixpoint chars (s : string) : list Z := match s with EmptyString => [] | String a r => Z.of_N (N_of_ascii a) :: chars r end.
Fixpoint same (s t : list Z) : bool :=
  match s, t with [], [] => true | c :: s, d :: t => (c =? d) && same s t | _, _ => false end.
Fixpoint starts (s p : list Z) : bool :=
  match p, s with [] , _ => true | d :: p, c :: s => (c =? d) && starts s p | _ :: _, [] => false end.
Definition dash : Z := 45.

(** nargs: 0 (store_true, count, help), None, "+" *)
Inductive arity := No | One | Some_of.
(** an option: its destination, names, and number of arguments *)
Record opt (D : Type) := mkOpt { dest : D; names : list (list Z); arity_of : arity }.
Arguments mkOpt {D}. Arguments dest {D}. Arguments names {D}. Arguments arity_of {D}.
(** a positional: nargs None or "?" *)
Inductive pos := Must | May.

(** re.compile(r'^-\d+$|^-\d*\.\d+$'): "$" also matches before a last newline *)
Definition digit (c : Z) : bool := (48 <=? c) && (c <=? 57).
Definition no_newline (s : list Z) : list Z := match rev s with 10 :: r => rev r | _ => s end.
Fixpoint skip_digits (s : list Z) : list Z := match s with c :: r => if digit c then skip_digits r else s | [] => [] end.
Definition negative_number (s : list Z) : bool :=
  match no_newline s with
  | 45 :: r => negb (same r []) && (same (skip_digits r) [] ||
      match skip_digits r with 46 :: f => negb (same f []) && same (skip_digits f) [] | _ => false end)
  | _ => false
  end.

Section Parser.
Context {D : Type} (opts : list (opt D)).
(** _option_string_actions: names in the order they were added *)
Definition all_names : list (list Z * opt D) := flat_map (fun o => map (fun n => (n, o)) (names o)) opts.
Definition exactly (s : list Z) : option (opt D) := option_map snd (find (fun x => same (fst x) s) all_names).
(** _get_option_tuples *)
Definition candidates (s : list Z) : list (opt D * option (list Z)) :=
  match s with
  | _ :: c :: r =>
      if c =? dash then map (fun x => (snd x, None)) (filter (fun x => starts (fst x) s) all_names)
      else flat_map (fun x => if same (fst x) [dash; c] then [(snd x, Some r)] else if starts (fst x) s then [(snd x, None)] else []) all_names
  | _ => []
  end.
(** What a word is: "--", an argument, an option of the parser (with the rest of the word), an unknown option, ambiguous. *)
Inductive kind := Dashes | Arg | Known (o : opt D) (explicit : option (list Z)) | Unknown | Ambiguous | Equals (o : opt D) (explicit : list Z).
(** _parse_optional for words without "=" *)
Definition classify (s : list Z) : kind :=
  match s with
  | [] => Arg
  | c :: r =>
      if negb (c =? dash) then Arg else
      match exactly s with
      | Some o => Known o None
      | None =>
          if same r [] then Arg else
          match candidates s with
          | [(o, e)] => Known o e
          | _ :: _ => Ambiguous
          | [] => if negative_number s then Arg else if existsb (Z.eqb 32) s then Arg else Unknown
          end
      end
  end.
(** _parse_optional: the name and the argument after "=" *)
Fixpoint split_at (s : list Z) : option (list Z * list Z) :=
  match s with [] => None | c :: r => if c =? 61 then Some ([], r) else match split_at r with Some (k, v) => Some (c :: k, v) | None => None end end.
Definition double_dash (s : list Z) : bool := match s with c :: d :: _ => (c =? dash) && (d =? dash) | _ => false end.
Definition single_dash (s : list Z) : bool := match s with c :: d :: _ => (c =? dash) && negb (d =? dash) | _ => false end.
Definition classify_any (s : list Z) : kind :=
  match split_at s with
  | None => classify s
  | Some (k, v) =>
      match exactly k with
      | Some o => Equals o v
      | None =>
          if double_dash s then
            match filter (fun x => starts (fst x) k) all_names with
            | [x] => Equals (snd x) v
            | _ :: _ => Ambiguous
            | [] => if existsb (Z.eqb 32) s then Arg else Unknown
            end
          else classify s
      end
  end.
(** the pattern string of _parse_known_args *)
Fixpoint kinds (ws : list (list Z)) : list (list Z * kind) :=
  match ws with
  | [] => []
  | w :: r => if same w [dash; dash] then (w, Dashes) :: map (fun w => (w, Arg)) r else (w, classify_any w) :: kinds r
  end.
Definition is_arg (k : kind) : bool := match k with Arg => true | _ => false end.
Definition is_opt (k : kind) : bool := match k with Known _ _ | Equals _ _ | Unknown | Ambiguous => true | _ => false end.
Fixpoint run_of_args (ks : list (list Z * kind)) : list (list Z) := match ks with (w, Arg) :: r => w :: run_of_args r | _ => [] end.

(** an action taken: an option or a positional with its arguments *)
Inductive action := Given (d : D) (args : list (list Z)) | Placed (i : nat) (args : list (list Z)).
(** the letters of one word (the loop of consume_optional): options without argument, until one takes what is left ([inl], with its
    argument), the word ends with an option taking arguments ([inr (Some o)]) or without; a letter which is no option puts the rest of the word among the
    unrecognised ([Stray]) *)
Inductive letters := Bad | Stray (as_ : list action) | Done (as_ : list action) | Waiting (as_ : list action) (o : opt D).
Fixpoint cluster (o : opt D) (e : list Z) : letters :=
  match arity_of o with
  | No =>
      match e with
      | [] => Bad
      | c :: r =>
          if c =? dash then Bad else
          match exactly [dash; c] with
          | None => Stray [Given (dest o) []]
          | Some o' =>
              match r with
              | [] => match arity_of o' with No => Done [Given (dest o) []; Given (dest o') []] | _ => Waiting [Given (dest o) []] o' end
              | _ => match cluster o' r with
                     | Bad => Bad | Stray l => Stray (Given (dest o) [] :: l) | Done l => Done (Given (dest o) [] :: l) | Waiting l o'' => Waiting (Given (dest o) [] :: l) o''
                     end
              end
          end
      end
  | _ => Done [Given (dest o) [e]]
  end.
(** an option with the words after it: actions and words used up, [None] if it lacks its argument *)
Definition with_next (o : opt D) (rest : list (list Z * kind)) : option (action * nat) :=
  match arity_of o with
  | No => Some (Given (dest o) [], 0%nat)
  | One => match run_of_args rest with [] => None | w :: _ => Some (Given (dest o) [w], 1%nat) end
  | Some_of => match run_of_args rest with [] => None | ws => Some (Given (dest o) ws, length ws) end
  end.
(** consume_optional: the actions, whether the word or its rest is unrecognised, and the number of words used up after it; [None] is an error *)
Definition consume_optional (k : kind) (rest : list (list Z * kind)) : option (list action * bool * nat) :=
  match k with
  | Known o None => match with_next o rest with None => None | Some (a, n) => Some ([a], false, n) end
  | Known o (Some e) =>
      match cluster o e with
      | Bad => None
      | Stray l => Some (l, true, 0%nat)
      | Done l => Some (l, false, 0%nat)
      | Waiting l o' => match with_next o' rest with None => None | Some (a, n) => Some (l ++ [a], false, n) end
      end
  | Equals o e => match arity_of o with No => None | _ => Some ([Given (dest o) [e]], false, 0%nat) end
  | _ => Some ([], true, 0%nat)
  end.
(** the regular expressions of positionals on the kinds of the words (any dashes, an argument, which [May] be missing, any dashes); the number of words matched *)
Fixpoint dashes (ks : list (list Z * kind)) : nat := match ks with (_, Dashes) :: r => S (dashes r) | _ => O end.
Definition matched (p : pos) (ks : list (list Z * kind)) : option nat :=
  let n := dashes ks in
  match skipn n ks, p with
  | (_, Arg) :: r, _ => Some (S n + dashes r)%nat
  | _, May => Some n
  | _, Must => None
  end.
Fixpoint matched_all (ps : list pos) (ks : list (list Z * kind)) : option (list nat) :=
  match ps with
  | [] => Some []
  | p :: ps => match matched p ks with None => None | Some n => match matched_all ps (skipn n ks) with None => None | Some l => Some (n :: l) end end
  end.
(** _match_arguments_partial: as many positionals as possible *)
Fixpoint partial (n : nat) (ps : list pos) (ks : list (list Z * kind)) : list nat :=
  match n with
  | O => []
  | S k => match matched_all (firstn n ps) ks with Some l => l | None => partial k ps ks end
  end.
(** _get_values: the first "--" is removed *)
Fixpoint undash (ws : list (list Z)) : list (list Z) := match ws with [] => [] | w :: r => if same w [dash; dash] then r else w :: undash r end.
Fixpoint place (i : nat) (ns : list nat) (ks : list (list Z * kind)) : list action :=
  match ns with [] => [] | n :: r => Placed i (undash (map fst (firstn n ks))) :: place (S i) r (skipn n ks) end.
Definition total (ns : list nat) : nat := fold_right Nat.add O ns.
(** the loop of _parse_known_args; [i] positionals are done, [ps] are left; [extra]: something was unrecognised.  The actions taken, and [Some extra] with the positionals left at the end,
    or [None] for an error after those actions.  Ambiguous words are an error before anything is taken ([parse]). *)
Fixpoint loop (fuel : nat) (i : nat) (ps : list pos) (extra : bool) (ks : list (list Z * kind)) : list action * option (bool * list pos) :=
  match fuel with
  | O => ([], None)
  | S fuel =>
      if existsb (fun x => is_opt (snd x)) ks then
        match ks with
        | [] => ([], None)
        | (w, k) :: rest =>
            if is_opt k then
              match consume_optional k rest with
              | None => ([], None)
              | Some (l, x, n) => let (m, r) := loop fuel i ps (extra || x) (skipn n rest) in (l ++ m, r)
              end
            else
              let ns := partial (length ps) ps ks in
              let l := place i ns ks in
              let i := (i + length ns)%nat in let ps := skipn (length ns) ps in
              let (m, r) := if (0 <? total ns)%nat then loop fuel i ps extra (skipn (total ns) ks) else loop fuel i ps true rest in
              (l ++ m, r)
        end
      else
        let ns := partial (length ps) ps ks in
        (place i ns ks, Some (extra || (total ns <? length ks)%nat, skipn (length ns) ps))
  end.
(** parse_args: the actions taken, and whether an error (exit code 2) follows *)
Definition parse (ps : list pos) (ws : list (list Z)) : list action * bool :=
  let ks := kinds ws in
  if existsb (fun x => match snd x with Ambiguous => true | _ => false end) ks then ([], true) else
  match loop (S (length ks)) 0 ps false ks with
  | (l, None) => (l, true)
  | (l, Some (extra, ps)) => (l, extra || existsb (fun p => match p with Must => true | May => false end) ps)
  end.
End Parser.
Arguments Given {D}. Arguments Placed {D}.
Definition outside (w : list Z) : bool := match w with 45 :: r => existsb (Z.eqb 61) r | _ => false end || existsb (fun c => (c <? 0) || (127 <? c)) w.
Definition unclear (w : list Z) : bool :=
  single_dash w && existsb (Z.eqb 61) w && negb (match w with _ :: c :: d :: _ => negb (c =? 61) && (d =? 61) | _ => false end) || existsb (fun c => (c <? 0) || (127 <? c)) w.

(** ** int() and float() *)
Definition space (c : Z) : bool := ((9 <=? c) && (c <=? 13)) || ((28 <=? c) && (c <=? 32)).
Fixpoint lstrip (s : list Z) : list Z := match s with c :: r => if space c then lstrip r else s | [] => [] end.
Definition strip (s : list Z) : list Z := rev (lstrip (rev (lstrip s))).
Definition signed (s : list Z) : bool * list Z := match s with 43 :: r => (false, r) | 45 :: r => (true, r) | _ => (false, s) end.
(** digits, with single underscores between them *)
Fixpoint scan_digits (s : list Z) (acc n : Z) : Z * Z * list Z :=
  match s with
  | [] => (acc, n, [])
  | c :: r =>
      if digit c then scan_digits r (10 * acc + (c - 48)) (n + 1)
      else if (c =? 95) && (0 <? n) && match r with d :: _ => digit d | [] => false end then scan_digits r acc n
      else (acc, n, s)
  end.
(** [None] is a ValueError *)
Definition int_of (s : list Z) : option Z :=
  let (neg, s) := signed (strip s) in
  match scan_digits s 0 0 with
  | (v, n, []) => if 0 <? n then Some (if neg then - v else v) else None
  | _ => None
  end.
(** a float, or one which is no normal number: infinity, nan, overflow, underflow *)
Inductive number := Num (q : Q) | Special.
Definition lower (c : Z) : Z := if (65 <=? c) && (c <=? 90) then c + 32 else c.
Definition special_name (s : list Z) : bool := existsb (same (map lower s)) [chars "inf"; chars "infinity"; chars "nan"].
Definition ten_to (e : Z) : Q := if 0 <=? e then inject_Z (10 ^ e) else 1 # Z.to_pos (10 ^ (- e)).
Definition tiny : Q := 1 # 2 ^ 1022.
Definition huge : Q := inject_Z (2 ^ 1024).
Definition scaled (v e : Z) : number :=
  if v =? 0 then Num 0 else
  if (400 <? e) || (e <? - 10000) then Special else
  let q := (inject_Z v * ten_to e)%Q in if Qle_bool tiny q && negb (Qle_bool huge (fl 53 q)) then Num (fl 53 q) else Special.
Definition float_of (s : list Z) : option number :=
  let (neg, s) := signed (strip s) in
  let sign := fun x => match x with Num q => if neg then Num (- q)%Q else Num q | Special => Special end in
  if special_name s then Some Special else
  let '(v1, n1, r1) := scan_digits s 0 0 in
  let '(v2, n2, r2) := match r1 with 46 :: f => scan_digits f v1 0 | _ => (v1, 0, r1) end in
  if n1 + n2 <=? 0 then None else
  match r2 with
  | [] => Some (sign (scaled v2 (- n2)))
  | c :: r3 =>
      if (c =? 101) || (c =? 69) then
        let (nege, r4) := signed r3 in
        match scan_digits r4 0 0 with
        | (x, n, []) => if 0 <? n then Some (sign (scaled v2 ((if nege then - x else x) - n2))) else None
        | _ => None
        end
      else None
  end.
