(** Model of lib/parse_epochs.py and of the directory functions of lib/utils.py.

    A file is its byte list, a directory a list of (name, contents).  Log messages are modelled only for
    the header checks.  np.float128 is the x87 extended format, 64 significant bits (the code names
    np.float128 without fallback, so it only runs where numpy provides it). *)
From Coq Require Import QArith.
From Verif Require Import Float Base TimestampsModel.
Local Open Scope Z_scope.

(** f.read(n): the bytes and what is left of the file *)
Definition fread (n : Z) (f : list Z) : list Z * list Z := (take n f, drop n f).

(** struct.unpack of 32-bit fields; the flags say which are signed ('i'), the others are 'I'. *)
Fixpoint fields (sg : list bool) (l : list Z) : list Z :=
  match sg with
  | [] => []
  | s :: r => (if s then s32 (le_dec (take 4 l)) else le_dec (take 4 l)) :: fields r (drop 4 l)
  end.
Definition unpack (sg : list bool) (l : list Z) : pyres (list Z) :=
  if len l =? 4 * len sg then Ok (fields sg l) else Err StructError.
(** struct.pack of one 32-bit field: 'i' and 'I' *)
Definition pack_i (v : Z) : pyres (list Z) :=
  if (- 2 ^ 31 <=? v) && (v <? 2 ^ 31) then Ok (le_enc 4 v) else Err StructError.
Definition pack_I (v : Z) : pyres (list Z) :=
  if (0 <=? v) && (v <? 2 ^ 32) then Ok (le_enc 4 v) else Err StructError.

(** ** Numbers and names *)
Definition ndigits (v : Z) : nat := Z.to_nat (Z.log2 v / 4 + 1).
(** lower-case hexadecimal digits of v >= 0, as in hex(v)[2:] and f"{v:x}" *)
Definition hexs (v : Z) : list Z := hexn (ndigits v) v.
(** hex(v) *)
Definition py_hex (v : Z) : list Z := if v <? 0 then [45; 48; 120] ++ hexs (- v) else [48; 120] ++ hexs v.
(** 135-136 *)
Definition int2epoch (v : Z) : list Z := drop 2 (py_hex v).
(** 132-133 *)
Definition epoch2int (s : list Z) : pyres Z := int16 s.
(** f"{v:08x}" *)
Definition fmt08x (v : Z) : list Z :=
  if v <? 0 then 45 :: hexn (Nat.max 7 (ndigits (- v))) (- v) else hexn (Nat.max 8 (ndigits v)) v.
(** the float64 written 125e-12 *)
Definition PS125_S : Q := fl 53 (1 # 8000000000).
(** 105-118; [total_seconds] is int(datetime.timestamp()), the conversion from calendar dates is not
    modelled.  int / float is the float quotient of the converted int. *)
Definition date2epoch (total_seconds : Z) : list Z :=
  let epoch_val := Z.shiftr (qtrunc (fl 53 (fl 53 (inject_Z total_seconds) / PS125_S)%Q)) 32 in
  fmt08x epoch_val.
(** 121-130: the seconds handed to fromtimestamp *)
Definition epoch2seconds (epoch : list Z) : pyres Q :=
  let* e := epoch2int epoch in
  Ok (fl 53 (fl 53 (inject_Z (Z.shiftl e 32)) * PS125_S)%Q).

(** file_name.split('/')[-1] *)
Fixpoint basename (s : list Z) : list Z :=
  match s with
  | [] => []
  | c :: r => if c =? 47 then basename r
              else if existsb (fun d => d =? 47) r then basename r else s
  end.

(** ** Headers *)
Inductive warning : Type := WrongTag | WrongName.
Record head : Type := mkHead {
  h_tag : Z; h_epoch : Z; h_length : Z;
  h_timeorder : Z;   (* bits_per_entry of T1 and T3 *)
  h_basebits : Z;    (* not in T3 *)
  h_protocol : Z     (* only in T2 *) }.
Definition head_warnings (tag1 tag2 : Z) (name : list Z) (h : head) : list warning :=
  (if negb (h_tag h =? tag1) && negb (h_tag h =? tag2) then [WrongTag] else []) ++
  (if list_eq_dec Z.eq_dec (py_hex (h_epoch h)) ([48; 120] ++ basename name) then [] else [WrongName]).
Definition head_of (l : list Z) : head :=
  mkHead (nth 0 l 0) (nth 1 l 0) (nth 2 l 0) (nth 3 l 0) (nth 4 l 0) (nth 5 l 0).
(** 58-67 *)
Definition read_T1_header (name file : list Z) : pyres (head * list warning) :=
  let* l := unpack [true; false; false; true; true] (take 20 file) in
  Ok (head_of l, head_warnings 257 1 name (head_of l)).
(** 69-78 *)
Definition read_T2_header (name file : list Z) : pyres (head * list warning) :=
  let* l := unpack [true; false; false; true; true; true] (take 24 file) in
  Ok (head_of l, head_warnings 258 2 name (head_of l)).
(** 80-89 *)
Definition read_T3_header (name file : list Z) : pyres (head * list warning) :=
  let* l := unpack [true; false; false; true] (take 16 file) in
  Ok (head_of l, head_warnings 259 3 name (head_of l)).
(** 91-100 *)
Definition read_T4_header (name file : list Z) : pyres (head * list warning) :=
  let* l := unpack [false; false; false; false; false] (take 20 file) in
  Ok (head_of l, head_warnings 260 4 name (head_of l)).

(** Timestamp arrays by dtype: uint64, Python objects, float128. *)
Inductive earr : Type := EU64 (l : list Z) | EObj (l : list Z) | ELD (l : list Q).
Definition evalues (t : earr) : list Q :=
  match t with EU64 l | EObj l => map inject_Z l | ELD l => l end.

(** ** read_T1 *)
(** loop 186-202; reading past the end of the file gives b"", whose value is 0 *)
Fixpoint t1_events (fuel : nat) (f : list Z) : pyres (list Z * list Z) :=
  match fuel with
  | O => Err OutOfFuel
  | S k =>
      let '(event_high, f1) := fread 4 f in
      let '(event_low, f2) := fread 4 f1 in
      let value := Z.shiftl (le_dec event_high) 32 + le_dec event_low in
      if value =? 0 then Ok ([], [])
      else let* (ts, bs) := t1_events k f2 in
           Ok (Z.shiftr value 10 :: ts, Z.land value 15 :: bs)
  end.
(** 215-218 and 360-363: the division by TSRES.X.value/resolution.value, exact, in float128 *)
Definition scale_ld (units : Z) (r : TSRES) (v : Q) : Q :=
  fl 64 (fl 64 v / (inject_Z units / inject_Z (rvalue r)))%Q.
(** round(np.log2(a/b)) for powers of two a >= b *)
Definition bitdiff (a b : Z) : Z := Z.log2 (a / b).
(** 208-235: epoch_msb, conversion and addition of the epoch *)
Definition t1_convert (epoch : Z) (ts : list Z) (full : bool) (r : TSRES) (fr : bool) : earr :=
  let epoch_msb := Z.shiftr epoch 17 in
  if fr then
    let t := map (fun v => scale_ld 256 r (inject_Z v)) ts in
    let m := scale_ld 256 r (inject_Z (Z.shiftl epoch_msb 54)) in
    ELD (if full then map (fun v => fl 64 (v + m)%Q) t else t)
  else match r, full with
       | PS4, true => EObj (map (fun v => v + Z.shiftl epoch_msb 54) ts)
       | _, _ =>
           let d := bitdiff 256 (rvalue r) in
           let t := map (fun v => Z.shiftr v d) ts in
           let m := u64 (Z.shiftl epoch_msb (54 - d)) in
           EU64 (if full then map (fun v => u64 (v + m)) t else t)
       end.
(** 142-237 *)
Definition read_T1 (file : list Z) (full : bool) (r : TSRES) (fr : bool) : pyres (earr * list Z) :=
  let* (h, _) := read_T1_header [] file in
  let* (ts, bs) := t1_events (S (length file)) (drop 20 file) in
  if negb (h_length h =? 0) && negb (len ts =? h_length h) then Err ValueError
  else Ok (t1_convert (h_epoch h) ts full r fr, bs).

(** ** extract_bits (240-276); the file object is None or what is left of the file.
    A shift by a negative amount is a ValueError. *)
Definition extract_bits (msb_size buffer size : Z) (f : option (list Z)) : pyres (Z * Z * Z * option (list Z)) :=
  let '(buffer, size, f) :=
    match f with
    | Some f0 =>
        if size <? msb_size then
          let '(w, f1) := fread 4 f0 in (Z.shiftl buffer 32 + le_dec w, size + 32, Some f1)
        else (buffer, size, f)
    | None => (buffer, size, f)
    end in
  if size - msb_size <? 0 then Err ValueError
  else Ok (Z.shiftr buffer (size - msb_size),
           Z.land buffer (Z.shiftl 1 (size - msb_size) - 1),
           size - msb_size, f).

(** ** read_T2 *)
(** loop 317-347.  [timestamp] starts as np.uint64; adding a Python int gives float64 (numpy 1.24-1.26). *)
Fixpoint t2_loop (fuel : nat) (timeorder basebits : Z) (timestamp : Q) (buffer size : Z) (f : option (list Z))
  : pyres (list Q * list Z) :=
  match fuel with
  | O => Err OutOfFuel
  | S k =>
      let* (timing, buffer, size, f) := extract_bits timeorder buffer size f in
      if timing =? 1 then
        let* (base, buffer, size, f) := extract_bits basebits buffer size f in
        if negb (base =? 0) then Err ValueError else Ok ([], [])
      else
        let* (timing, buffer, size, f) :=
          (if timing =? 0 then extract_bits 32 buffer size f else Ok (timing, buffer, size, f)) in
        let timestamp := fl 53 (timestamp + inject_Z timing)%Q in
        let* (base, buffer, size, f) := extract_bits basebits buffer size f in
        let* (ts, bs) := t2_loop k timeorder basebits timestamp buffer size f in
        Ok (timestamp :: ts, base :: bs)
  end.
(** 353-383: epoch_msb, conversion and addition of the epoch *)
Definition t2_convert (epoch : Z) (ts : list Q) (full : bool) (r : TSRES) (fr : bool) : pyres earr :=
  let epoch_msb := Z.shiftr epoch 17 in
  if fr then
    let t := map (scale_ld 8 r) ts in
    let m := scale_ld 8 r (inject_Z (Z.shiftl epoch_msb 49)) in
    Ok (ELD (if full then map (fun v => fl 64 (v + m)%Q) t else t))
  else if 8 <? rvalue r then
    match ts with
    | [] => Ok (EObj [])
    | _ => Err TypeError   (* np.float64 << int *)
    end
  else
    let d := bitdiff 8 (rvalue r) in
    let* t := mapM to_uint64 ts in
    let t := map (fun v => Z.shiftr v d) t in
    let m := u64 (Z.shiftl epoch_msb (49 - d)) in
    Ok (EU64 (if full then map (fun v => u64 (v + m)) t else t)).
(** 279-385 *)
Definition read_T2 (fuel : nat) (file : list Z) (full : bool) (r : TSRES) (fr : bool) : pyres (earr * list Z) :=
  let* (h, _) := read_T2_header [] file in
  let epoch_lsb := Z.land (h_epoch h) (Z.shiftl 1 17 - 1) in
  let* (ts, bs) := t2_loop fuel (h_timeorder h) (h_basebits h) (inject_Z (Z.shiftl epoch_lsb 32)) 0 0
                     (Some (drop 24 file)) in
  if negb (h_length h =? 0) && negb (len ts =? h_length h) then Err ValueError
  else let* t := t2_convert (h_epoch h) ts full r fr in Ok (t, bs).

(** ** read_T4 *)
(** loop 535-566 *)
Fixpoint t4_loop (fuel : nat) (timeorder basebits : Z) (time_index : Z) (buffer size : Z) (f : option (list Z))
  : pyres (list Z * list Z) :=
  match fuel with
  | O => Err OutOfFuel
  | S k =>
      let* (d, buffer, size, f) := extract_bits timeorder buffer size f in
      if d =? 1 then
        let* (base, buffer, size, f) := extract_bits basebits buffer size f in
        if negb (base =? 0) then Err ValueError else Ok ([], [])
      else
        let* (d, buffer, size, f) :=
          (if d =? 0 then extract_bits 32 buffer size f else Ok (d, buffer, size, f)) in
        let time_index := time_index + (d - 2) in
        let* (base, buffer, size, f) := extract_bits basebits buffer size f in
        let* (ts, bs) := t4_loop k timeorder basebits time_index buffer size f in
        Ok (time_index :: ts, base :: bs)
  end.
(** 510-572 *)
Definition read_T4 (fuel : nat) (file : list Z) : pyres (list Z * list Z) :=
  let* (h, _) := read_T4_header [] file in
  let* (ts, bs) := t4_loop fuel (h_timeorder h) (h_basebits h) 0 0 0 (Some (drop 20 file)) in
  if negb (h_length h =? 0) && negb (len ts =? h_length h) then Err ValueError
  else Ok (ts, bs).

(** ** write_T1 *)
(** The timestamps argument: Python ints, or numpy arrays of int64 / uint64. *)
Inductive wts : Type := WPy (l : list Z) | WI64 (l : list Z) | WU64 (l : list Z).
Definition wvals (t : wts) : list Z := match t with WPy l | WI64 l | WU64 l => l end.
(** the detectors argument: a number or a sequence of ints *)
Inductive wdet : Type := DScalar (d : Z) | DSeq (l : list Z).
(** body of the loop 408-413.  Python int + np.uint64 is float64, which has no <<; np.int64 wraps. *)
Definition t1_event (kind : wts) (timestamp_epoch timestamp detector : Z) : pyres (list Z) :=
  let* event :=
    match kind with
    | WPy _ => Ok (Z.shiftl (timestamp_epoch + timestamp) 10 + detector)
    | WI64 _ => Ok (s64 (s64 (Z.shiftl (s64 (timestamp_epoch + timestamp)) 10) + detector))
    | WU64 _ => Err TypeError
    end in
  let* hi := pack_I (Z.shiftr event 32) in
  let* lo := pack_I (Z.land event 4294967295) in
  Ok (hi ++ lo).
(** zip(timestamps, detectors); bytes written, and the exception that stopped the writing *)
Fixpoint write_events (kind : wts) (te : Z) (l : list (Z * Z)) : list Z * option exn :=
  match l with
  | [] => (le_enc 4 0 ++ le_enc 4 0, None)
  | (t, d) :: r =>
      match t1_event kind te t d with
      | Err e => ([], Some e)
      | Ok b => let '(out, e) := write_events kind te r in (b ++ out, e)
      end
  end.
(** 388-418: the name and contents of the file in [directory] and the exception raised, if any.
    np.ones(n) * detectors is float64. *)
Definition write_T1 (full_epoch : Z) (timestamps : wts) (detectors : wdet)
  : pyres (list Z * list Z * option exn) :=
  let full_epoch := Z.land full_epoch (Z.shiftl 1 32 - 1) in
  let n := len (wvals timestamps) in
  let* ds :=
    match detectors with
    | DScalar d => Ok (repeat (qtrunc (fl 53 (inject_Z d))) (length (wvals timestamps)))
    | DSeq l => if len l =? n then Ok l else Err ValueError
    end in
  let header := let* a := pack_i 257 in let* b := pack_I full_epoch in let* c := pack_I n in
                let* d := pack_i 49 in let* e := pack_i 4 in Ok (a ++ b ++ c ++ d ++ e) in
  match header with
  | Err e => Ok (hexs full_epoch, [], Some e)
  | Ok h =>
      let timestamp_epoch := Z.shiftl (Z.land full_epoch (Z.shiftl 1 17 - 1)) (32 + 5) in
      let '(out, e) := write_events timestamps timestamp_epoch (combine (wvals timestamps) ds) in
      Ok (hexs full_epoch, h ++ out, e)
  end.

(** ** read_T3 *)
Definition decode_tbl : list Z := [-1; 0; 1; -1; 2; -1; -1; -1; 3; -1; -1; -1; -1; -1; -1; -1].
Record service : Type := mkService {
  coinc : list Z; garbageA : Z; garbageB : Z; okcount : Z; qber : Q; size_warning : bool }.
(** loop 473-482: detections and the last word read *)
Fixpoint t3_words (fuel : nat) (f : list Z) (last : list Z) : pyres (list Z * list Z) :=
  match fuel with
  | O => Err OutOfFuel
  | S k =>
      let '(word, f1) := fread 4 f in
      match word with
      | [] => Ok ([], last)
      | _ => if len word =? 4 then
               let data_b := rev (le_enc 4 (le_dec word)) in
               let* (r, last) := t3_words k f1 data_b in Ok (data_b ++ r, last)
             else Err StructError
      end
  end.
Fixpoint incr (i : nat) (l : list Z) : list Z :=
  match l, i with
  | [], _ => []
  | x :: r, O => x + 1 :: r
  | x :: r, S k => x :: incr k r
  end.
(** body of loop 489-500 *)
Definition t3_count (s : service) (detection : Z) : service :=
  let a := nth (Z.to_nat (Z.land (Z.shiftr detection 4) 15)) decode_tbl 0 in
  let b := nth (Z.to_nat (Z.land detection 15)) decode_tbl 0 in
  if (0 <=? a) && (0 <=? b) then
    mkService (incr (Z.to_nat (a * 4 + b)) (coinc s)) (garbageA s) (garbageB s) (okcount s + 1) (qber s) (size_warning s)
  else
    mkService (coinc s) (if a <? 0 then garbageA s + 1 else garbageA s)
      (if b <? 0 then garbageB s + 1 else garbageB s) (okcount s) (qber s) (size_warning s).
Definition sum_at (m : list Z) (ids : list nat) : Z := fold_right Z.add 0 (map (fun i => nth i m 0) ids).
(** round(x, 3) of a float64 *)
Definition round3 (x : Q) : Q := fl 53 (inject_Z (rneQ (x * 1000)) / 1000)%Q.
(** 440-508 *)
Definition read_T3 (file : list Z) : pyres (head * service) :=
  let* (h, _) := read_T3_header [] file in
  let* (detections, data_b) := t3_words (S (length file)) (drop 16 file) [0; 0; 0; 0] in
  let w := negb (h_length h =? len detections - len (filter (Z.eqb 0) data_b)) in
  if len detections <? h_length h then Err IndexError
  else
    let s := fold_left t3_count (take (h_length h) detections)
               (mkService (repeat 0 16) 0 0 0 (1 # 2)%Q w) in
    let er := sum_at (coinc s) [0; 5; 10; 15]%nat in
    let gd := sum_at (coinc s) [2; 7; 8; 13]%nat in
    Ok (h, if er + gd =? 0 then s
           else mkService (coinc s) (garbageA s) (garbageB s) (okcount s)
                  (round3 (fl 53 (inject_Z er / inject_Z (er + gd))%Q)) (size_warning s)).

(** ** lib/utils.py: epoch directories *)
Definition directory : Type := list (list Z * list Z).
Fixpoint open_file (d : directory) (name : list Z) : pyres (list Z) :=
  match d with
  | [] => Err FileNotFoundError
  | (n, c) :: r => if list_eq_dec Z.eq_dec n name then Ok c else open_file r name
  end.
Definition mem (v : Z) (l : list Z) : bool := existsb (Z.eqb v) l.
(** while (min_epochint + num_epochs) in epochints (394-396) *)
Fixpoint run_length (fuel : nat) (s : list Z) (m n : Z) : pyres Z :=
  match fuel with
  | O => Err OutOfFuel
  | S k => if mem (m + n) s then run_length k s m (n + 1) else Ok n
  end.
Definition min_list (x : Z) (l : list Z) : Z := fold_left Z.min l x.
(** utils.py 370-401, return_length=True *)
Definition get_first_overlapping_epoch (dir1 dir2 : directory) (first_epoch : option (list Z))
  : pyres (option (list Z) * Z) :=
  let* e1 := mapM (fun p => epoch2int (fst p)) dir1 in
  let* e2 := mapM (fun p => epoch2int (fst p)) dir2 in
  let s := filter (fun v => mem v e2) e1 in
  let* s := match first_epoch with
            | None => Ok s
            | Some e => let* f := epoch2int e in Ok (filter (fun v => f <=? v) s)
            end in
  match s with
  | [] => Ok (None, 0)
  | x :: r => let m := min_list x r in
              let* n := run_length (S (length s)) s m 1 in
              Ok (Some (int2epoch m), n)
  end.
(** utils.py 404-411; [fuel] bounds read_T2's loop *)
Definition read_times (fuel : nat) (t1 : bool) (file : list Z) : pyres (list Q) :=
  let* (t, _) := (if t1 then read_T1 file false NS1 true else read_T2 fuel file false NS1 true) in
  Ok (evalues t).
Fixpoint get_timestamps (fuel : nat) (dir : directory) (t1 : bool) (e : Z) (n : nat) : pyres (list Q) :=
  match n with
  | O => Ok []
  | S k => let* c := open_file dir (int2epoch e) in
           let* t := read_times fuel t1 c in
           let* r := get_timestamps fuel dir t1 (e + 1) k in Ok (t ++ r)
  end.
Definition get_timestamp (fuel : nat) (dir : directory) (t1 : bool) (first_epoch : list Z) (skip_epoch num : Z)
  : pyres (list Q) :=
  if num <=? 0 then Ok []
  else let* f := epoch2int first_epoch in
       get_timestamps fuel dir t1 (f + skip_epoch) (Z.to_nat num).
