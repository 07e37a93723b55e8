(** Model of lib/parse_timestamps.py.

    A file is its byte list; opening, progress bars (tqdm) and argparse are not modelled.
    numpy arrays carry their dtype.  [p] is the precision of np_float (67-73): 64 where numpy has
    float128 (x87 extended), 53 otherwise.  Text files are modelled when they contain only
    hexadecimal digits and newlines; on others the model answers [Unspecified] (Python's int()
    also accepts signs, prefixes and underscores). *)
From Coq Require Import QArith.
From Verif Require Import Float Base.
Local Open Scope Z_scope.

(** lib/constants.py 3-11: number of units in 1 ns *)
Inductive TSRES : Type := NS1 | PS125 | PS4.
Definition rvalue (r : TSRES) : Z := match r with NS1 => 1 | PS125 => 8 | PS4 => 256 end.

(** Timestamp arrays by dtype: uint64, float64, np_float. *)
Inductive tarr : Type := TU64 (l : list Z) | TF64 (l : list Q) | TLD (l : list Q).
Definition tvalues (t : tarr) : list Q :=
  match t with TU64 l => map inject_Z l | TF64 l => l | TLD l => l end.
Definition tlen (t : tarr) : Z := len (tvalues t).

(** ** Shared numpy helpers *)
Fixpoint mapM {E A B} (f : A -> res E B) (l : list A) : res E (list B) :=
  match l with
  | [] => Ok []
  | x :: r => let* y := f x in let* ys := mapM f r in Ok (y :: ys)
  end.
(** reshape(-1, 2) *)
Fixpoint reshape2 (l : list Z) : pyres (list (Z * Z)) :=
  match l with
  | [] => Ok []
  | [_] => Err ValueError
  | a :: b :: r => let* q := reshape2 r in Ok ((a, b) :: q)
  end.
(** little-endian 32-bit words; a trailing incomplete word is dropped (np.fromfile) *)
Fixpoint words (l : list Z) : list Z :=
  match l with
  | a :: b :: c :: d :: r => le_dec [a; b; c; d] :: words r
  | _ => []
  end.
(** np.frombuffer(buffer, "=I") *)
Definition frombuffer (l : list Z) : pyres (list Z) :=
  if len l mod 4 =? 0 then Ok (words l) else Err ValueError.
(** np.array of a list of nonnegative Python ints (numpy 1.24-1.26 on Linux) *)
Inductive nparr : Type :=
| AI64 (l : list Z) | AU64 (l : list Z) | AF64 (l : list Q) | AObj (l : list Z).
Definition np_array (l : list Z) : nparr :=
  match l with
  | [] => AF64 []
  | _ =>
      if forallb (fun v => v <? 2 ^ 63) l then AI64 l
      else if forallb (fun v => (2 ^ 63 <=? v) && (v <? 2 ^ 64)) l then AU64 l
      else if forallb (fun v => v <? 2 ^ 64) l then AF64 (map (fun v => fl 53 (inject_Z v)) l)
      else AObj l
  end.

(** ** Hexadecimal text *)
Definition NL : Z := 10.
(** value of a hexadecimal digit character *)
Definition hexval (c : Z) : option Z :=
  if (48 <=? c) && (c <=? 57) then Some (c - 48)
  else if (97 <=? c) && (c <=? 102) then Some (c - 87)
  else if (65 <=? c) && (c <=? 70) then Some (c - 55)
  else None.
Definition is_hex (c : Z) : bool := match hexval c with Some _ => true | None => false end.
Definition hexdigit (d : Z) : Z := if d <? 10 then 48 + d else 87 + d.
(** int(v, 16) for digit strings *)
Definition int16 (s : list Z) : pyres Z :=
  match s with
  | [] => Err ValueError
  | _ => if forallb is_hex s
         then Ok (fold_left (fun n c => 16 * n + match hexval c with Some d => d | None => 0 end) s 0)
         else Err Unspecified
  end.
Definition clean (file : list Z) : bool := forallb (fun c => is_hex c || (c =? NL)) file.
(** str.split("\n") *)
Fixpoint split_nl (s : list Z) : list (list Z) :=
  match s with
  | [] => [[]]
  | c :: r => if c =? NL then [] :: split_nl r
              else match split_nl r with l :: ls => (c :: l) :: ls | [] => [[c]] end
  end.
Fixpoint lstrip_nl (s : list Z) : list Z :=
  match s with c :: r => if c =? NL then lstrip_nl r else s | [] => [] end.
(** str.strip() on clean text *)
Definition strip_nl (s : list Z) : list Z := rev (lstrip_nl (rev (lstrip_nl s))).
(** np.genfromtxt(filename, delimiter="\n", dtype="U<w>"): the nonempty lines cut to w characters.
    One line gives a 0-d array, over which iterating is a TypeError. *)
Definition genfromtxt (w : Z) (file : list Z) : pyres (list (list Z)) :=
  if clean file then
    match filter (fun l => match l with [] => false | _ => true end) (split_nl file) with
    | [_] => Err TypeError
    | ls => Ok (map (take w) ls)
    end
  else Err Unspecified.

(** ** _format_timestamps (256-279) *)
Definition format_timestamps (p : Z) (t : tarr) (r : TSRES) (fractional : bool) : tarr :=
  if fractional then
    TLD (map (fun x => fl p (fl p x / (inject_Z 256 / inject_Z (rvalue r)))%Q) (tvalues t))
  else match r with
       | PS4 => t
       | _ =>
           let ints := match t with
                       | TU64 l => l
                       | TF64 l | TLD l => map (fun x => Z.quot (Qnum x) (Zpos (Qden x))) l
                       end in
           TU64 (map (fun v => v / (256 / rvalue r)) ints)
       end.

(** ** Decoding: 109-111, 125-127, 139-141 and the same lines in the streaming readers *)
(** words of a1 data, as (low position, high position) *)
Definition decode_a1 (p : Z) (legacy : bool) (r : TSRES) (fr : bool) (ws : list Z) : pyres (tarr * list Z) :=
  let* data := reshape2 ws in
  let hi := if legacy then fst (A := Z) (B := Z) else snd in
  let lo := if legacy then snd (A := Z) (B := Z) else fst in
  let t := map (fun d => u64 (u64 (Z.shiftl (hi d) 22) + Z.shiftr (lo d) 10)) data in
  Ok (format_timestamps p (TU64 t) r fr, map (fun d => Z.land (lo d) 15) data).
Definition decode_a0 (p : Z) (r : TSRES) (fr : bool) (vs : list Z) : pyres (tarr * list Z) :=
  let* data := reshape2 vs in
  match np_array vs with
  | AI64 _ =>   (* uint64 + int64 is float64 *)
      let t := map (fun d => fl 53 (fl 53 (inject_Z (u64 (Z.shiftl (snd d) 22)))
                                    + fl 53 (inject_Z (Z.shiftr (fst d) 10)))%Q) data in
      Ok (format_timestamps p (TF64 t) r fr, map (fun d => Z.land (fst d) 15) data)
  | AU64 _ =>
      let t := map (fun d => u64 (u64 (Z.shiftl (snd d) 22) + Z.shiftr (fst d) 10)) data in
      Ok (format_timestamps p (TU64 t) r fr, map (fun d => Z.land (fst d) 15) data)
  | AF64 _ => Err TypeError   (* float >> int *)
  | AObj _ => Err Unspecified
  end.
Definition decode_a2 (p : Z) (r : TSRES) (fr : bool) (vs : list Z) : pyres (tarr * list Z) :=
  match np_array vs with
  | AI64 l | AU64 l =>
      Ok (format_timestamps p (TU64 (map (fun v => Z.shiftr v 10) l)) r fr, map (fun v => Z.land v 15) l)
  | AF64 _ => Err TypeError
  | AObj _ => Err Unspecified
  end.

(** ** In-memory readers *)
(** 81-112 *)
Definition read_a0 (p : Z) (file : list Z) (r : TSRES) (fr : bool) : pyres (tarr * list Z) :=
  let* ls := genfromtxt 8 file in
  let* vs := mapM int16 ls in decode_a0 p r fr vs.
(** 114-128 *)
Definition read_a1 (p : Z) (file : list Z) (legacy : bool) (r : TSRES) (fr : bool) : pyres (tarr * list Z) :=
  decode_a1 p legacy r fr (words file).
(** 130-142 *)
Definition read_a2 (p : Z) (file : list Z) (r : TSRES) (fr : bool) : pyres (tarr * list Z) :=
  let* ls := genfromtxt 16 file in
  let* vs := mapM int16 ls in decode_a2 p r fr vs.

(** ** Streaming readers: batches produced, then possibly an exception *)
Record stream : Type := mkS { batches : list (tarr * list Z); fails : option exn }.
(** successive f.read(n); a negative n reads everything *)
Fixpoint reads (fuel : nat) (n : Z) (l : list Z) : list (list Z) :=
  match fuel with
  | O => []
  | S k => match take n l with [] => [] | c => c :: reads k n (drop n l) end
  end.
Definition file_reads (n : Z) (file : list Z) : list (list Z) :=
  if n <? 0 then match file with [] => [] | _ => [file] end
  else reads (S (length file)) n file.
Fixpoint run_stream (f : list Z -> pyres (tarr * list Z)) (bufs : list (list Z)) : stream :=
  match bufs with
  | [] => mkS [] None
  | b :: r => match f b with
              | Err e => mkS [] (Some e)
              | Ok x => let s := run_stream f r in mkS (x :: batches s) (fails s)
              end
  end.
(** int(((size-1) // (buffer_size*k)) + 1) *)
Definition num_batches (k size buffer_size : Z) : pyres Z :=
  if buffer_size =? 0 then Err ZeroDivisionError else Ok ((size - 1) / (buffer_size * k) + 1).
(** data = buffer.strip().split("\n"); [int(v,16) for v in data] *)
Definition parse_lines (buf : list Z) : pyres (list Z) :=
  if clean buf then mapM int16 (split_nl (strip_nl buf)) else Err Unspecified.
(** 144-202 *)
Definition sread_a1 (p : Z) (file : list Z) (legacy : bool) (r : TSRES) (fr : bool) (buffer_size : Z) : pyres (stream * Z) :=
  let* n := num_batches 8 (len file) buffer_size in
  Ok (run_stream (fun b => let* ws := frombuffer b in decode_a1 p legacy r fr ws)
        (file_reads (buffer_size * 8) file), n).
(** 204-228 *)
Definition sread_a0 (p : Z) (file : list Z) (r : TSRES) (fr : bool) (buffer_size : Z) : pyres (stream * Z) :=
  let* n := num_batches 18 (len file) buffer_size in
  Ok (run_stream (fun b => let* vs := parse_lines b in decode_a0 p r fr vs)
        (file_reads (buffer_size * 18) file), n).
(** 230-254 *)
Definition sread_a2 (p : Z) (file : list Z) (r : TSRES) (fr : bool) (buffer_size : Z) : pyres (stream * Z) :=
  let* n := num_batches 17 (len file) buffer_size in
  Ok (run_stream (fun b => let* vs := parse_lines b in decode_a2 p r fr vs)
        (file_reads (buffer_size * 17) file), n).

(** ** _consolidate_events (287-307), sort=False as everywhere in the package *)
(** .astype(np.uint64) of a float; outside the range of uint64 C leaves it undefined *)
Definition to_uint64 (x : Q) : pyres Z :=
  let v := Z.quot (Qnum x) (Zpos (Qden x)) in
  if (0 <=? v) && (v <? 2 ^ 64) then Ok v else Err Unspecified.
(** numpy broadcasting of [data += p] *)
Definition broadcast (n : Z) (pats : list Z) : pyres (list Z) :=
  if len pats =? n then Ok pats
  else match pats with [v] => Ok (repeat v (Z.to_nat n)) | _ => Err ValueError end.
Definition consolidate (p : Z) (t : tarr) (pats : list Z) (r : TSRES) : pyres (list Z) :=
  let* ts := mapM (fun x => to_uint64 (fl p (fl p x * inject_Z (256 / rvalue r)))%Q) (tvalues t) in
  let* ps := broadcast (len ts) pats in
  Ok (map (fun '(v, q) => u64 (u64 (Z.shiftl v 10) + u64 q)) (combine ts ps)).

(** ** Writers *)
(** f"{v:0<n>x}" for v < 16^n *)
Fixpoint hexn (n : nat) (v : Z) : list Z :=
  match n with O => [] | S k => hexn k (v / 16) ++ [hexdigit (v mod 16)] end.
(** 309-313 and 399-400.  Events are uint64, so 16 digits always suffice. *)
Definition lines_a2 (ev : list Z) : list Z := concat (map (fun v => hexn 16 v ++ [NL]) ev).
(** 317-321 and 380-383: low word then high word *)
Definition lines_a0 (ev : list Z) : list Z :=
  concat (map (fun v => hexn 8 (Z.land v 4294967295) ++ [NL] ++ hexn 8 (Z.shiftr v 32) ++ [NL]) ev).
(** 326-329 and 361-364 *)
Definition lines_a1 (legacy : bool) (ev : list Z) : list Z :=
  concat (map (fun v => le_enc 8 (if legacy then Z.shiftl (Z.land v 4294967295) 32 + Z.shiftr v 32 else v)) ev).

(** The output format: a0, a1 (with the legacy flag), a2. *)
Inductive fmt : Type := A0 | A1 (legacy : bool) | A2.
Definition render (f : fmt) (ev : list Z) : list Z :=
  match f with A0 => lines_a0 ev | A1 lg => lines_a1 lg ev | A2 => lines_a2 ev end.
(** write_a2 309-313, write_a0 315-321, write_a1 323-329 *)
Definition write (p : Z) (f : fmt) (t : tarr) (pats : list Z) (r : TSRES) : pyres (list Z) :=
  let* ev := consolidate p t pats r in Ok (render f ev).
(** swrite_a1 331-364, swrite_a0 366-383, swrite_a2 385-400: what is in the file, and the exception that
    ended the writing, if any *)
Fixpoint swrite_batches (p : Z) (f : fmt) (bs : list (tarr * list Z)) (fin : option exn) (r : TSRES) : list Z * option exn :=
  match bs with
  | [] => ([], fin)
  | (t, pats) :: rest =>
      match consolidate p t pats r with
      | Err e => ([], Some e)
      | Ok ev => let '(out, e) := swrite_batches p f rest fin r in (render f ev ++ out, e)
      end
  end.
Definition swrite (p : Z) (f : fmt) (s : stream) (r : TSRES) : list Z * option exn :=
  swrite_batches p f (batches s) (fails s) r.

(** The readers by format. *)
Definition read (p : Z) (f : fmt) (file : list Z) (r : TSRES) (fr : bool) : pyres (tarr * list Z) :=
  match f with
  | A0 => read_a0 p file r fr
  | A1 lg => read_a1 p file lg r fr
  | A2 => read_a2 p file r fr
  end.
Definition sread (p : Z) (f : fmt) (file : list Z) (r : TSRES) (fr : bool) (buffer_size : Z) : pyres (stream * Z) :=
  match f with
  | A0 => sread_a0 p file r fr buffer_size
  | A1 lg => sread_a1 p file lg r fr buffer_size
  | A2 => sread_a2 p file r fr buffer_size
  end.

(** ** Statistics; how they are printed is in ReportModel. *)
Record stats : Type := mkStats {
  num_events : Z; ch1 : Z; ch2 : Z; ch3 : Z; ch4 : Z; multi : Z; none : Z;
  start_t : option Q; end_t : option Q; patterns : list Z }.
Definition count (f : Z -> bool) (l : list Z) : Z := len (filter f l).
Definition has_bit (b : Z) (v : Z) : bool := negb (Z.land v b =? 0).
(** np.isin(p, (0, 1, 2, 4, 8), invert=True) *)
Definition is_multi (v : Z) : bool := negb (existsb (Z.eqb v) [0; 1; 2; 4; 8]).
Fixpoint insert (v : Z) (l : list Z) : list Z :=
  match l with
  | [] => [v]
  | x :: r => if v <? x then v :: l else if v =? x then l else x :: insert v r
  end.
(** sorted(set) / np.unique *)
Definition unique (l : list Z) : list Z := fold_right insert [] l.
Definition first {A} (l : list A) : option A := match l with [] => None | x :: _ => Some x end.
Definition final {A} (l : list A) : option A := first (rev l).
(** 408-429 *)
Definition print_statistics (t : tarr) (pats : list Z) : pyres stats :=
  match first (tvalues t), final (tvalues t) with
  | Some a, Some b =>
      Ok (mkStats (tlen t) (count (has_bit 1) pats) (count (has_bit 2) pats) (count (has_bit 4) pats)
            (count (has_bit 8) pats) (count is_multi pats) (count (Z.eqb 0) pats) (Some a) (Some b) (unique pats))
  | _, _ => Err IndexError
  end.
(** t[k] / resolution.value (463-464) *)
Definition scalar_div (p : Z) (t : tarr) (x : Q) (r : TSRES) : Q :=
  match t with
  | TU64 _ => fl 53 (fl 53 x / inject_Z (rvalue r))%Q
  | TF64 _ => fl 53 (x / inject_Z (rvalue r))%Q
  | TLD _ => fl p (x / inject_Z (rvalue r))%Q
  end.
(** loop body 451-464 *)
Definition add_batch (p : Z) (r : TSRES) (s : stats) (b : tarr * list Z) : stats :=
  let '(t, pats) := b in
  let st := match first (tvalues t) with
            | None => start_t s
            | Some a => match start_t s with None => Some (scalar_div p t a r) | x => x end
            end in
  let en := match final (tvalues t) with None => end_t s | Some z => Some (scalar_div p t z r) end in
  mkStats (num_events s + len pats) (ch1 s + count (has_bit 1) pats) (ch2 s + count (has_bit 2) pats)
    (ch3 s + count (has_bit 4) pats) (ch4 s + count (has_bit 8) pats) (multi s + count is_multi pats)
    (none s + count (Z.eqb 0) pats) st en (fold_right insert (patterns s) (unique pats)).
Definition stats0 : stats := mkStats 0 0 0 0 0 0 0 None None [].
(** 431-478 *)
Definition print_statistics_stream (p : Z) (s : stream) (r : TSRES) : pyres stats :=
  match fails s with
  | Some e => Err e
  | None => Ok (fold_left (add_batch p r) (batches s) stats0)
  end.

(** ** Filters *)
(** a[mask] *)
Fixpoint select {A} (mask : list bool) (l : list A) : list A :=
  match mask, l with
  | b :: m, x :: r => if b then x :: select m r else select m r
  | _, _ => []
  end.
Definition tselect (mask : list bool) (t : tarr) : tarr :=
  match t with TU64 l => TU64 (select mask l) | TF64 l => TF64 (select mask l) | TLD l => TLD (select mask l) end.
(** 526-599 *)
Definition get_pattern_mask (pats : list Z) (pattern : Z) (mask invert : bool) : list bool * list Z :=
  if negb mask then
    let m := map (fun v => v =? pattern) pats in
    let m := if invert then map negb m else m in
    (m, select m pats)
  else if negb invert then
    let q := map (fun v => Z.land v pattern) pats in
    let m := map (fun v => negb (v =? 0)) q in
    (m, select m q)
  else
    let q := map (fun v => if v =? 0 then 16 else v) pats in
    let q := map (fun v => Z.lxor v (Z.land v pattern)) q in
    let m := map (fun v => negb (v =? 0)) q in
    (m, map (fun v => if v =? 16 then 0 else v) (select m q)).
(** An element compared with a Python float: uint64 scalars are converted to float64 first. *)
Definition keys (t : tarr) : list Q :=
  match t with TU64 l => map (fun v => fl 53 (inject_Z v)) l | TF64 l => l | TLD l => l end.
Definition Qltb (x y : Q) : bool := negb (Qle_bool y x).
(** Python's bisect (Lib/bisect.py): bisect_left when [strict], bisect_right otherwise.
    None = out of fuel. *)
Fixpoint bisect (fuel : nat) (go_right : Q -> bool) (a : list Q) (lo hi : Z) : option Z :=
  match fuel with
  | O => None
  | S k =>
      if lo <? hi then
        let mid := (lo + hi) / 2 in
        if go_right (nth (Z.to_nat mid) a 0%Q) then bisect k go_right a (mid + 1) hi
        else bisect k go_right a lo mid
      else Some lo
  end.
Definition bisect_left (a : list Q) (x : Q) : pyres Z :=
  match bisect (S (length a)) (fun v => Qltb v x) a 0 (len a) with Some i => Ok i | None => Err OutOfFuel end.
Definition bisect_right (a : list Q) (x : Q) : pyres Z :=
  match bisect (S (length a)) (fun v => negb (Qltb x v)) a 0 (len a) with Some i => Ok i | None => Err OutOfFuel end.
(** start *= (1e9 * resolution.value), 662 and 672 *)
Definition bound (r : TSRES) (x : Q) : Q := fl 53 (x * inject_Z (1000000000 * rvalue r))%Q.
(** mask[i:j] = True *)
Definition range_mask (n i j : Z) : list bool :=
  map (fun k => (i <=? Z.of_nat k) && (Z.of_nat k <? j)) (seq 0 (Z.to_nat n)).
(** 601-678 *)
Definition get_timing_mask (t : tarr) (start stop : option Q) (r : TSRES) : pyres (list bool) :=
  let n := tlen t in
  let nothing := repeat false (Z.to_nat n) in
  match first (keys t), final (keys t) with
  | Some a, Some z =>
      let* (i, skip1) :=
        match start with
        | None => Ok (0, match first (tvalues t), final (tvalues t) with Some x, Some y => Qltb y x | _, _ => false end)
        | Some s => let* i := bisect_left (keys t) (bound r s) in Ok (i, Qltb z (bound r s))
        end in
      if (skip1 : bool) then Ok nothing else
      let* (j, skip2) :=
        match stop with
        | None => Ok (n, match first (tvalues t), final (tvalues t) with Some x, Some y => Qltb y x | _, _ => false end)
        | Some e => let* j := bisect_right (keys t) (bound r e) in Ok (j, Qltb (bound r e) a)
        end in
      if (skip2 : bool) then Ok nothing else Ok (range_mask n i j)
  | _, _ => Ok nothing
  end.

(** ** main (686-773) after argument parsing *)
Record filters : Type := mkF {
  f_pattern : option Z; f_mask : bool; f_invert : bool; f_start : option Q; f_end : option Q }.
(** 735-743 *)
Definition event_filter (f : filters) (r : TSRES) (b : tarr * list Z) : pyres (tarr * list Z) :=
  let '(t, pats) := b in
  let '(t, pats) :=
    match f_pattern f with
    | None => (t, pats)
    | Some v => let '(m, q) := get_pattern_mask pats v (f_mask f) (f_invert f) in (tselect m t, q)
    end in
  match f_start f, f_end f with
  | None, None => Ok (t, pats)
  | s, e => let* m := get_timing_mask t s e r in Ok (tselect m t, select m pats)
  end.
(** 745-747 *)
Fixpoint filter_batches (f : filters) (r : TSRES) (bs : list (tarr * list Z)) (fin : option exn) : stream :=
  match bs with
  | [] => mkS [] fin
  | b :: rest =>
      match event_filter f r b with
      | Err e => mkS [] (Some e)
      | Ok b' => let s := filter_batches f r rest fin in mkS (b' :: batches s) (fails s)
      end
  end.
Definition inline_filter (f : filters) (r : TSRES) (s : stream) : stream :=
  filter_batches f r (batches s) (fails s).
Definition DEFAULT_BUFFER : Z := 100000.  (* 149 *)
(** 749-756 (--inmemory) and 769-773: the written file and the exception, if any *)
Definition convert (p : Z) (inmemory : bool) (fin fout : fmt) (f : filters) (file : list Z) : list Z * option exn :=
  if inmemory then
    match (let* b := read p fin file NS1 true in
           let* (t, pats) := event_filter f NS1 b in write p fout t pats NS1) with
    | Ok out => (out, None)
    | Err e => ([], Some e)
    end
  else
    match sread p fin file PS4 false DEFAULT_BUFFER with
    | Err e => ([], Some e)
    | Ok (s, _) => swrite p fout (inline_filter f PS4 s) PS4
    end.
(** 752-754, 759-767 (--print): the statistics reported *)
Definition has_filtering (f : filters) : bool :=
  match f_pattern f, f_start f, f_end f with None, None, None => false | _, _, _ => true end.
Definition report (p : Z) (inmemory : bool) (fin : fmt) (f : filters) (file : list Z) : pyres stats :=
  if inmemory then
    let* b := read p fin file NS1 true in
    let* (t, pats) := event_filter f NS1 b in print_statistics t pats
  else if has_filtering f then
    let* (s, _) := sread p fin file NS1 true DEFAULT_BUFFER in
    print_statistics_stream p (inline_filter f NS1 s) NS1
  else
    let* (s, _) := sread p fin file PS4 false DEFAULT_BUFFER in
    print_statistics_stream p s PS4.
