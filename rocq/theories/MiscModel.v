(** Model of the remaining scripts: lib/generate_freqcd_testcase.py, lib/logging.py, lib/g2_two_timestamps.py,
    lib/generate_freqdetuneg2.py (detune), fpplot.py (plotter) and, of lib/utils.py, histogram_fft and
    parse_docstring_description.

    Strings are lists of code points. *)
From Coq Require Import QArith.
From Verif Require Import Float Base TimestampsModel EpochsModel UtilsModel.
Local Open Scope Z_scope.

(** ** lib/generate_freqcd_testcase.py *)
(** 44-63; [legacy] is the module's LEGACY.  "=Q" is the machine's byte order, little-endian here.
    The warning about truncation is not modelled. *)
Definition get_event (legacy : bool) (t detectors : Z) : pyres (list Z) :=
  if t <? 0 then Err AssertionError
  else
    let t := if Z.shiftl 1 54 <=? t then Z.land t 18014398509481983 else t in
    if negb ((0 <=? detectors) && (detectors <? 16)) then Err AssertionError
    else
      let event := Z.shiftl t 10 + detectors in
      let event := if legacy then Z.shiftl (Z.land event 4294967295) 32 + Z.shiftr event 32 else event in
      Ok (le_enc 8 event).
(** 95-100: what -t writes, and the exception that ends it *)
Fixpoint write_all (legacy : bool) (ts : list Z) : list Z * option exn :=
  match ts with
  | [] => ([], None)
  | t :: r => match get_event legacy t 1 with
              | Err e => ([], Some e)
              | Ok b => let '(out, e) := write_all legacy r in (b ++ out, e)
              end
  end.
(** main with -t (86-100).  Line 87 assigns a local variable of main: get_event sees the module's False. *)
Definition generate (x : bool) (ts : list Z) : list Z * option exn := write_all false ts.
(** int(t * 256) of a longdouble *)
Definition print_time (p : Z) (t : Q) : Z := qtrunc (fl p (t * inject_Z (rvalue PS4))%Q).
(** main with a file name (106-128): [file] is its content (None: no such file), the result what it contains
    afterwards and the numbers printed.  Line 119 opens the file for writing and stores standard input in it.
    "-" is the same with a new file, removed afterwards. *)
Definition decode_file (p : Z) (x : bool) (file : option (list Z)) (stdin : list Z) : option (list Z) * pyres (list Z) :=
  let file := Some stdin in
  (file, let* (t, _) := read_a1 p stdin x NS1 true in Ok (map (print_time p) (tvalues t))).

(** ** lib/logging.py *)
Definition DEBUG : Z := 10.
Definition INFO : Z := 20.
Definition WARNING : Z := 30.
Definition ERROR : Z := 40.
(** 143-146 *)
Definition verbosity2level (verbosity : Z) : pyres Z :=
  let levels := [WARNING; INFO; DEBUG] in
  let verbosity := Z.min verbosity (len levels - 1) in
  getitem levels verbosity.
(** LoggingOverrideFormatter.format (82-111) after the overrides and the base class, which gives [message].
    [shown] is str(details). *)
Inductive details : Type :=
| NoDetails
| DetailList (l : list (list Z))
| DetailDict (l : list (list Z * list Z))
| DetailOther.
Fixpoint prefix_of (d s : list Z) : option (list Z) :=      (* the rest after a prefix *)
  match d, s with
  | [], _ => Some s
  | x :: d', y :: s' => if x =? y then prefix_of d' s' else None
  | _, [] => None
  end.
(** str.partition: before and after the first occurrence *)
Fixpoint partition (d s : list Z) : list Z * list Z :=
  match prefix_of d s with
  | Some r => ([], r)
  | None => match s with
            | [] => ([], [])
            | c :: s' => let '(a, b) := partition d s' in (c :: a, b)
            end
  end.
Fixpoint strip_spaces (s : list Z) : list Z :=              (* str.lstrip(" ") *)
  match s with c :: r => if c =? 32 then strip_spaces r else s | [] => [] end.
Fixpoint join_lines (l : list (list Z)) : list Z :=         (* "\n".join *)
  match l with [] => [] | [x] => x | x :: r => x ++ 10 :: join_lines r end.
Definition format_record (isspace : Z -> bool) (human : bool) (delim message : list Z) (d : details) (shown : list Z) : list Z :=
  match d with
  | NoDetails => message
  | _ =>
      if negb human then message ++ 9 :: shown
      else
        let lines := match d with
                     | DetailList l => l
                     | DetailDict l => map (fun kv => fst kv ++ 58 :: 32 :: snd kv) l
                     | _ => []
                     end in
        match lines with
        | [] => message
        | first :: rest =>
            let '(pre, text) := partition delim message in
            let pad := repeat 32 (length text - length (strip_spaces text)) in
            let blank := map (fun c => if isspace c then c else 32) pre in
            let line := fun head t => head ++ delim ++ pad ++ [32; 32] ++ t in
            match strip_spaces text with
            | [] => join_lines (line pre first :: map (line blank) rest)
            | _ => join_lines (message :: map (line blank) lines)
            end
        end
  end.

(** ** lib/g2_two_timestamps.py *)
(** 10-27.  [N] bins (2^18), [Ta] = 2^27, [maxdelay] = 10^7 in the file; times and delays in exact arithmetic,
    counts below 2^31. *)
Fixpoint drop_old (maxdelay event : Q) (arr1 : list Q) : list Q :=
  match arr1 with
  | s :: ((_ :: _) as r) => if Qle_bool maxdelay (event - s) then drop_old maxdelay event r else arr1
  | _ => arr1
  end.
Fixpoint g2_loop (N : Z) (delta_t maxdelay : Q) (arr1 arr2 : list Q) (h : list Z) : list Z :=
  match arr2 with
  | [] => h
  | event :: r =>
      let arr1 := drop_old maxdelay event arr1 in
      g2_loop N delta_t maxdelay arr1 r
        (fold_left (fun h s => incr (Z.to_nat (bin_index N delta_t (event - s)%Q)) h) arr1 h)
  end.
Definition g2 (N : Z) (Ta maxdelay : Q) (arr1 arr2 : list Q) (start delta_t : Q) : list Z :=
  let window := filter (fun t => Qltb start t && Qle_bool t (start + Ta)) in
  g2_loop N delta_t maxdelay (window arr1) (window arr2) (repeat 0 (Z.to_nat N)).

(** ** lib/generate_freqdetuneg2.py *)
(** 27-39; [t] times and patterns, in exact arithmetic; t[0] of no events is an IndexError *)
Definition detune (evs : list (Q * Z)) (channel : Z) (ratio offset : Q) : pyres (list (Q * Z)) :=
  let* e0 := getitem evs 0 in
  let t0 := fst e0 in
  Ok (map (fun e => ((fst e - t0) * (1 + ratio) + t0 + offset, snd e)%Q) (filter (fun e => snd e =? channel) evs)).

(** ** fpplot.py *)
(** 30: the times compared with the reference; freq in ppm *)
Definition plotted (freq time : Q) (bob : list Q) : list Q := map (fun t => (t - time) / (1 + freq * (1 # 1000000)))%Q bob.

(** ** lib/utils.py 282-329: histogram_fft.  The arrays given, as the caller sees them afterwards, and the result.
    Line 322 calls generate_fft with two arguments more than it has.  Arrays of floats; for arrays of integers
    line 316 may raise TypeError already. *)
Definition histogram_fft (rt : Q -> Q) (alice bob : list Q) (acq_start : option Q) : list Q * list Q * pyres (list Q * list Q) :=
  match getitem alice 0, getitem bob 0 with
  | Ok a0, Ok b0 =>
      let first := if Qltb a0 b0 then b0 else a0 in
      let s := rt (first + match acq_start with Some x => x | None => 0 end)%Q in
      (map (fun t => rt (t - s)%Q) alice, map (fun t => rt (t - s)%Q) bob, Err TypeError)
  | _, _ => (alice, bob, Err IndexError)
  end.

(** ** lib/utils.py 428-437: parse_docstring_description *)
Definition PLACEHOLDER : list Z := [126; 126; 126; 80; 76; 65; 67; 69; 72; 79; 76; 68; 69; 82; 126; 126; 126].
Definition CHANGELOG : list Z := [67; 104; 97; 110; 103; 101; 108; 111; 103; 58].
Fixpoint skip_newlines (s : list Z) : list Z :=
  match s with c :: r => if c =? 10 then skip_newlines r else s | [] => [] end.
(** re.sub(r"\n+", new, s), of the first occurrence only *)
Fixpoint sub_first (new s : list Z) : list Z :=
  match s with
  | [] => []
  | c :: r => if c =? 10 then new ++ skip_newlines r else c :: sub_first new r
  end.
(** re.sub(r"\n+", " ", s); [nl]: the previous character was a newline *)
Fixpoint sub_newlines (nl : bool) (s : list Z) : list Z :=
  match s with
  | [] => []
  | c :: r => if c =? 10 then (if nl then [] else [32]) ++ sub_newlines true r else c :: sub_newlines false r
  end.
(** re.sub(PLACEHOLDER, "\n\n", s) *)
Fixpoint sub_placeholder (fuel : nat) (s : list Z) : list Z :=
  match fuel with
  | O => []
  | S k => match prefix_of PLACEHOLDER s with
           | Some r => 10 :: 10 :: sub_placeholder k r
           | None => match s with [] => [] | c :: r => c :: sub_placeholder k r end
           end
  end.
Definition parse_docstring_description (doc : list Z) : list Z :=
  let d := fst (partition CHANGELOG doc) in
  let d := sub_first PLACEHOLDER d in
  let d := sub_newlines false d in
  sub_placeholder (S (length d)) d.
