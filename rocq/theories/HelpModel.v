(** Model of utils.py 333-367, ArgparseCustomFormatter: how the help of fpfind shows an option and its text.  Characters are code points.
    Of the base class RawDescriptionHelpFormatter, _metavar_formatter and _format_args are modelled for actions taking one value or none;
    _split_lines of the base class (white space, textwrap) is the parameter [wrap]. *)
From Verif Require Import Float Base.
Import ListNotations. Local Open Scope Z_scope.

(** an action of argparse: option_strings, nargs == 0, dest, metavar, choices (as texts) *)
Record action : Type := mkAction { names : list (list Z); flag : bool; dest : list Z; metavar : option (list Z); choices : option (list (list Z)) }.
(** str.join *)
Fixpoint joined (sep : list Z) (l : list (list Z)) : list Z :=
  match l with [] => [] | [x] => x | x :: r => x ++ sep ++ joined sep r end.
(** str.upper of ASCII letters; other letters are not modelled *)
Definition upper (s : list Z) : list Z := map (fun c => if (97 <=? c) && (c <=? 122) then c - 32 else c) s.
(** _metavar_formatter(action, default)(1)[0] of argparse *)
Definition meta (a : action) (default : list Z) : list Z :=
  match metavar a, choices a with Some m, _ => m | None, Some cs => [123] ++ joined [44] cs ++ [125] | None, None => default end.
(** [parts[-1] += ' ' + args] *)
Fixpoint on_last (l : list (list Z)) (args : list Z) : list (list Z) :=
  match l with [] => [] | [x] => [x ++ 32 :: args] | x :: r => x :: on_last r args end.
(** 337-360: what is printed to standard output, and the result.  [shown] is str() of the action and of the tuple, with the line's end *)
Definition invocation (shown : action -> list Z) (a : action) : list Z * list Z :=
  match names a with
  | [] => (shown a, meta a (dest a))                                                       (* 338-342 *)
  | _ => ([], joined [44; 32] (if flag a then names a else on_last (names a) (meta a (upper (dest a)))))
  end.
(** str.splitlines *)
Definition line_end (c : Z) : bool := existsb (Z.eqb c) [10; 11; 12; 13; 28; 29; 30; 133; 8232; 8233].
Fixpoint splitlines (s : list Z) (cur : list Z) : list (list Z) :=       (* [cur]: the line so far, reversed *)
  match s with
  | [] => match cur with [] => [] | _ => [rev cur] end
  | c :: r =>
      if line_end c then rev cur :: (match c, r with 13, 10 :: r' => splitlines r' [] | _, _ => splitlines r [] end)
      else splitlines r (c :: cur)
  end.
Definition RAW_INDICATOR : list Z := [114; 97; 119; 116; 101; 120; 116; 124].      (* 335, "rawtext|" *)
(** text.startswith(marker), and the rest *)
Fixpoint after (marker text : list Z) : option (list Z) :=
  match marker, text with [], r => Some r | c :: m, d :: r => if c =? d then after m r else None | _, _ => None end.
(** 362-366 *)
Definition split_lines (wrap : list Z -> Z -> list (list Z)) (text : list Z) (width : Z) : list (list Z) :=
  match after RAW_INDICATOR text with Some r => splitlines r [] | None => wrap text width end.
