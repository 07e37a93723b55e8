(** Model of the text readers of lib/parse_timestamps.py (81-142, 204-254) on any ASCII text: line endings, comments,
    blanks, and everything that Python's int(v, 16) accepts.  Files with other bytes, or with numbers below zero, are
    [Unspecified].  Decoding is that of TimestampsModel. *)
From Coq Require Import QArith.
From Verif Require Import Float Base TimestampsModel.
Local Open Scope Z_scope.

Definition CR : Z := 13.
Definition ascii (file : list Z) : bool := forallb (fun c => (1 <=? c) && (c <=? 127)) file.
(** text mode: open(filename, "r") (213, 239), and the same in genfromtxt: "\r\n" and "\r" become "\n" *)
Fixpoint universal (s : list Z) : list Z :=
  match s with
  | [] => []
  | c :: r => if c =? CR
              then NL :: match r with d :: r' => if d =? NL then universal r' else universal r | [] => [] end
              else c :: universal r
  end.
Fixpoint lstrip (f : Z -> bool) (s : list Z) : list Z :=
  match s with c :: r => if f c then lstrip f r else s | [] => [] end.
Definition strip (f : Z -> bool) (s : list Z) : list Z := rev (lstrip f (rev (lstrip f s))).
(** blanks for C (Py_ISSPACE), blanks for str.strip(), and the argument " \r\n" of strip in genfromtxt *)
Definition is_space (c : Z) : bool := (9 <=? c) && (c <=? 13) || (c =? 32).
Definition is_uspace (c : Z) : bool := is_space c || (28 <=? c) && (c <=? 31).
Definition is_blank (c : Z) : bool := (c =? 32) || (c =? CR) || (c =? NL).

(** ** int(v, 16): PyLong_FromString of CPython *)
(** digits with single underscores between them: the value and what follows *)
Fixpoint scan (acc : Z) (prev : bool) (s : list Z) : option (Z * list Z) :=
  match s with
  | [] => if prev then None else Some (acc, [])
  | c :: r =>
      match hexval c with
      | Some d => scan (16 * acc + d) false r
      | None => if c =? 95 then if prev then None else scan acc true r
                else if prev then None else Some (acc, s)
      end
  end.
Definition sign (s : list Z) : bool * list Z :=
  match s with
  | c :: r => if c =? 43 then (false, r) else if c =? 45 then (true, r) else (false, s)
  | [] => (false, [])
  end.
(** 0x or 0X, then perhaps one underscore *)
Definition prefix (s : list Z) : list Z :=
  match s with
  | z :: x :: r => if (z =? 48) && ((x =? 120) || (x =? 88))
                   then match r with u :: r' => if u =? 95 then r' else r | [] => [] end
                   else s
  | _ => s
  end.
Definition int16_text (v : list Z) : pyres Z :=
  let '(neg, s) := sign (lstrip is_space v) in
  match prefix s with
  | [] => Err ValueError
  | c :: r =>
      if is_hex c then
        match scan 0 false (c :: r) with
        | Some (n, rest) => if forallb is_space rest then Ok (if neg then - n else n) else Err ValueError
        | None => Err ValueError
        end
      else Err ValueError
  end.
Definition ints (vs : list (list Z)) : pyres (list Z) :=
  let* ns := mapM int16_text vs in
  if forallb (fun n => 0 <=? n) ns then Ok ns else Err Unspecified.

(** ** np.genfromtxt(filename, delimiter="\n", dtype="U<w>") (107, 137): of each line what is before the first "#",
    without " \r\n" at the ends; the nonempty ones, cut to w characters.  One line gives a 0-d array, over which
    iterating is a TypeError. *)
Fixpoint before_hash (s : list Z) : list Z :=
  match s with c :: r => if c =? 35 then [] else c :: before_hash r | [] => [] end.
Definition gen_lines (w : Z) (file : list Z) : pyres (list (list Z)) :=
  match filter (fun l => match l with [] => false | _ => true end)
               (map (fun l => strip is_blank (before_hash l)) (split_nl (universal file))) with
  | [_] => Err TypeError
  | ls => Ok (map (take w) ls)
  end.

(** ** The readers *)
(** read_a0 81-112, read_a2 130-142 *)
Definition text_read (p : Z) (f : fmt) (file : list Z) (r : TSRES) (fr : bool) : pyres (tarr * list Z) :=
  match f with
  | A1 lg => read_a1 p file lg r fr
  | A0 => if ascii file then let* ls := gen_lines 8 file in let* vs := ints ls in decode_a0 p r fr vs else Err Unspecified
  | A2 => if ascii file then let* ls := gen_lines 16 file in let* vs := ints ls in decode_a2 p r fr vs else Err Unspecified
  end.
(** data = buffer.strip().split("\n"); [int(v,16) for v in data] (219-220, 245-246) *)
Definition buffer_ints (buf : list Z) : pyres (list Z) := ints (split_nl (strip is_uspace buf)).
(** sread_a0 204-228, sread_a2 230-254: read(n) counts characters after the line endings are made "\n", st_size counts
    bytes *)
Definition text_sread (p : Z) (f : fmt) (file : list Z) (r : TSRES) (fr : bool) (buffer_size : Z) : pyres (stream * Z) :=
  match f with
  | A1 lg => sread_a1 p file lg r fr buffer_size
  | A0 => if ascii file then
            let* n := num_batches 18 (len file) buffer_size in
            Ok (run_stream (fun b => let* vs := buffer_ints b in decode_a0 p r fr vs) (file_reads (buffer_size * 18) (universal file)), n)
          else Err Unspecified
  | A2 => if ascii file then
            let* n := num_batches 17 (len file) buffer_size in
            Ok (run_stream (fun b => let* vs := buffer_ints b in decode_a2 p r fr vs) (file_reads (buffer_size * 17) (universal file)), n)
          else Err Unspecified
  end.
