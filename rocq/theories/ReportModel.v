(** Model of lib/parse_timestamps.py 480-523, print_statistics_report, and of the --print branch of main (752-767).

    The lines written to stdout, without their newline, and the exception that ended the printing, if any.
    The progress bar (tqdm, on stderr) is not modelled. *)
From Coq Require Import QArith Qabs Qround String Ascii.
From Verif Require Import Float Base TimestampsModel FpfindModel.
Local Open Scope Z_scope.

(** A literal of the source. *)
Fixpoint text (s : string) : list Z :=
  match s with EmptyString => [] | String c r => Z.of_nat (nat_of_ascii c) :: text r end.

(** ** Format specifications *)
(** f"{..:>{w}}": right-aligned; the default alignment of numbers *)
Definition pad (w : Z) (s : list Z) : list Z := repeat 32 (Z.to_nat (w - len s)) ++ s.
(** the last d decimal digits *)
Fixpoint decn (d : nat) (v : Z) : list Z :=
  match d with O => [] | S k => decn k (v / 10) ++ [48 + v mod 10] end.
(** f"{v:.<d>f}" of a float64: the exact value rounded to d decimals, ties to even.  The sign of -0.0 is lost:
    no zero printed here is negative. *)
Definition fixed (d : nat) (v : Q) : list Z :=
  let m := 10 ^ Z.of_nat d in
  let n := rneQ (Qabs v * inject_Z m)%Q in
  (if Qltb v 0 then [45] else []) ++ dec (n / m) ++ [46] ++ decn d n.
(** str() of a list of numpy integers, numpy 1: the elements separated by ", " *)
Fixpoint joined_by (sep : list Z) (l : list (list Z)) : list Z :=
  match l with [] => [] | [x] => x | x :: r => x ++ sep ++ joined_by sep r end.
Definition show_list (l : list Z) : list Z := [91] ++ joined_by (text ", ") (map dec l) ++ [93].

(** the literal 1e-9 *)
Definition NANO : Q := fl 53 (1 # 1000000000).

(** ** print_statistics_report
    [lg n] is int(np.floor(np.log10(n))); [q] the precision of the times, 53 for float64 and that of
    np.longdouble otherwise; [size] the length of the file, None when the file is not one (499).
    f"{x:.9f}" of a np.longdouble converts it to float64.  [num_events // duration] (521) is the floor of the exact
    quotient: numpy's rounding in it, which needs a quotient beyond 2^52, is not modelled.  A duration of zero gives
    inf, and int(inf) raises OverflowError.  The fields are None only through [stats]: the subtraction of 506 raises
    TypeError then. *)
Definition count_line (label : string) (w n : Z) : list Z := text label ++ pad w (dec n).
Definition time_line (label : string) (v : Q) : list Z := text label ++ pad 15 (fixed 9 (fl 53 v)).
Definition print_report (lg : Z -> Z) (q : Z) (name : list Z) (size : option Z) (s : stats) : list (list Z) * option exn :=
  let n := num_events s in
  let width := if n =? 0 then 0 else lg n + 1 in
  let head := [text "Name: " ++ name] ++
    match size with
    | None => []
    | Some z => [text "Filesize (MB): " ++ fixed 3 (fl 53 (fl 53 (inject_Z z) / inject_Z (2 ^ 20)))%Q]
    end ++ [count_line "Total events    : " width n] in
  if n =? 0 then (head, None) else
  match start_t s, end_t s with
  | Some a, Some b =>
      let duration := fl q (fl q (b - a) * NANO)%Q in
      let body := head ++
        [count_line "  Channel 1     : " width (ch1 s);
         count_line "  Channel 2     : " width (ch2 s);
         count_line "  Channel 3     : " width (ch3 s);
         count_line "  Channel 4     : " width (ch4 s);
         count_line "  Multi-channel : " width (multi s);
         count_line "  No channel    : " width (none s);
         time_line "Duration (s) : " duration;
         time_line "  ~ start    : " (fl q (a * NANO))%Q;
         time_line "  ~ end      : " (fl q (b * NANO))%Q] in
      if Qeq_bool duration 0 then (body, Some OverflowError)
      else (body ++ [text "Event rate (/s) : " ++ dec (Qfloor (inject_Z n / duration)%Q);
                     text "Detection patterns: " ++ show_list (patterns s)], None)
  | _, _ => (head, Some TypeError)
  end.

(** ** main, 752-754 and 758-767 (--print)
    [p] is the precision of np.longdouble.  The times are np.longdouble, except that a stream without filters is
    read as 4 ps units and divided by 256 in float64. *)
Definition print_main (lg : Z -> Z) (p : Z) (inmemory : bool) (fin : fmt) (f : filters) (name file : list Z) : list (list Z) * option exn :=
  match report p inmemory fin f file with
  | Err e => ([], Some e)
  | Ok s => print_report lg (if inmemory || has_filtering f then p else 53) name (Some (len file)) s
  end.
