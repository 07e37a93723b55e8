(** Model of the main loop of src/fpfind/freqcd.c (lines 159-461).

    Memory is modelled concretely: the three malloc'ed buffers are byte lists of
    their allocated size and every access is bounds-checked ([OutOfBounds]).
    With [strict = true] a signed 64-bit overflow is a trap ([SignedOverflow]: undefined
    behaviour in C); with [strict = false] it wraps, as the compiled code does in practice.
    The locals [tsmeas]/[tscorr] are uninitialised on entry: their initial contents are a
    parameter, [None] meaning that reading them is a trap ([Uninitialised]) and
    [Some j] that the stack happened to contain [j].
    Platform: x86-64 Linux, gcc: little-endian, 32-bit int, 64-bit long/long long,
    arithmetic right shift of negative values, conversion to int by truncation.

    The operating system is an environment that supplies one [tick] per iteration
    of the main loop. *)
From Verif Require Import Base.

Inductive trap : Type := OutOfBounds | SignedOverflow | Uninitialised.
Notation cres := (res trap).

(** Checked access to a byte buffer. *)
Definition load (buf : list Z) (off n : Z) : cres (list Z) :=
  if (0 <=? off) && (0 <=? n) && (off + n <=? len buf)
  then Ok (take n (drop off buf)) else Err OutOfBounds.
Definition store (buf : list Z) (off : Z) (data : list Z) : cres (list Z) :=
  if (0 <=? off) && (off + len data <=? len buf)
  then Ok (take off buf ++ data ++ drop (off + len data) buf) else Err OutOfBounds.

(** ** Constants: freqcd.c 81-92, 161-166 *)
Definition SIZEOF_RAWEVENT : Z := 8.                        (* 95-99 *)
Definition INBUFENTRIES : Z := 1024.                        (* 85 *)
Definition OUTBUFENTRIES : Z := 1024.                       (* 86 *)
Definition INBUFSIZE : Z := INBUFENTRIES * SIZEOF_RAWEVENT. (* 162 *)
Definition OUTBUFSIZE : Z := OUTBUFENTRIES * SIZEOF_RAWEVENT. (* 163 *)
Definition FREQBUFSIZE : Z := 100.                          (* 87 *)
Definition FCORR_ARESBITS : Z := -34.                       (* 89 *)
Definition FCORR_AMAXBITS : Z := -13.                       (* 90 *)
Definition FCORR_MAX : Z := 2 ^ (FCORR_AMAXBITS - FCORR_ARESBITS).   (* 164 *)
Definition FCORR_TBITS1 : Z := - FCORR_AMAXBITS - 1.        (* 165 *)
Definition FCORR_TBITS2 : Z := (FCORR_AMAXBITS - FCORR_ARESBITS) + 1. (* 166 *)
Definition INT_MAX : Z := 2 ^ 31 - 1.
Definition LONG_MAX : Z := 2 ^ 63 - 1.
Definition LONG_MIN : Z := - 2 ^ 63.

(** Result of a signed 64-bit operation whose exact value is [x]. *)
Definition signed64 (strict : bool) (x : Z) : cres Z :=
  if fits_s64 x then Ok x else if strict then Err SignedOverflow else Ok (s64 x).

(** C [abs] on int.  abs(INT_MIN) is undefined in C; gcc/glibc yield INT_MIN. *)
Definition abs32 (x : Z) : Z := if x =? - 2 ^ 31 then - 2 ^ 31 else Z.abs x.

(** ** readint (126-135) *)
Definition is_space (c : Z) : bool := (c =? 32) || ((9 <=? c) && (c <=? 13)).
Definition is_digit (c : Z) : bool := (48 <=? c) && (c <=? 57).

Fixpoint skip_spaces (s : list Z) : list Z :=
  match s with c :: r => if is_space c then skip_spaces r else s | [] => [] end.
(** digits read so far as a number, whether any, and the rest of the string *)
Fixpoint scan_digits (s : list Z) (acc : Z) (any : bool) : Z * bool * list Z :=
  match s with
  | c :: r => if is_digit c then scan_digits r (10 * acc + (c - 48)) true else (acc, any, s)
  | [] => (acc, any, [])
  end.
(** [strtol(buff, &end, 10)] of libc on a C string (without its NUL): whether
    [end != buff], the value (clamped to long), and the string at [end]. *)
Definition strtol (s : list Z) : bool * Z * list Z :=
  let s1 := skip_spaces s in
  let '(neg, s2) :=
    match s1 with
    | c :: r => if c =? 45 then (true, r) else if c =? 43 then (false, r) else (false, s1)
    | [] => (false, [])
    end in
  let '(n, any, rest) := scan_digits s2 0 false in
  if any then
    let v := if (neg : bool) then - n else n in
    (true, Z.max LONG_MIN (Z.min LONG_MAX v), rest)
  else (false, 0, s).

(** freqcd.c 127-135.  [abs(value)] takes an int, so the long is truncated first. *)
Definition readint (s : list Z) : Z :=
  let '(moved, value, rest) := strtol s in
  if moved && (match rest with [] => true | _ => false end)
     && (abs32 (s32 value) <? INT_MAX)
  then s32 value else INT_MAX.

(** The C string at offset [off] of [buf]: bytes up to the first NUL. *)
Fixpoint cstring (l : list Z) : cres (list Z) :=
  match l with
  | [] => Err OutOfBounds
  | c :: r => if c =? 0 then Ok [] else let* s := cstring r in Ok (c :: s)
  end.

(** ** State of the main loop *)
Record fstate : Type := mkF {
  inbuf : list Z;        (* inbuffer / inbufferbytes, 235-241 *)
  inbytesread : Z;       (* 266 *)
  outbuf : list Z;       (* 243-245 *)
  eventnum : Z;          (* 239 *)
  outevents : Z;         (* 246 *)
  freqopen : bool;       (* freqhandle != 0, 228-232 *)
  freqbuf : list Z;      (* 248-257 *)
  freqpartial : Z;       (* freqbytespartial, 251 *)
  freqnext : Z;          (* freqbuffer_next - freqbuffer, 252 *)
  fcorr : Z;             (* 173 *)
  tsref : Z;             (* 271 *)
  isset_tsref : bool;    (* 273 *)
  tsoverflowcorr : Z;    (* 276 *)
  last : option (Z * Z)  (* (tsmeas, tscorr), 274-275; None = indeterminate *)
}.

(** What the environment does in one iteration.  A read() that succeeds returns
    a prefix, of at most the requested size, of the offered bytes; no bytes = EOF. *)
Inductive rd : Type := RdErr | RdBytes (offered : list Z).
Inductive tick : Type :=
| SelectError
| Tick (in_ready : option rd) (freq_ready : option rd) (wr : option Z).
(* [wr]: what write() returns; None = everything was written *)

Inductive status : Type := Running | Stopped.

(** What an observer of the system calls sees of one iteration: the bytes
    received on the input and frequency descriptors, the bytes that left on the output. *)
Record obs : Type := mkObs { rx : list Z; rx_freq : list Z; tx : list Z }.

(** ** Lines 288-292: move the incomplete event to the front *)
Fixpoint copy_loop (n : nat) (i j : Z) (buf : list Z) : cres (list Z) :=
  match n with
  | O => Ok buf
  | S n' => let* c := load buf i 1 in
            let* buf' := store buf j c in
            copy_loop n' (i + 1) (j + 1) buf'
  end.

(** ** Lines 349-377: one event (8 bytes in memory order).
    Returns the corrected event, [tsmeas] and [tscorr]. *)
Definition event_words (islegacy : bool) (ev : list Z) : Z * Z := (* (low, high), 351-357 *)
  let w0 := le_dec (take 4 ev) in
  let w1 := le_dec (drop 4 ev) in
  if islegacy then (w1, w0) else (w0, w1).
Definition event_tsmeas (low high : Z) : Z :=                     (* 358 *)
  Z.lor (u64 (Z.shiftl high 22)) (Z.shiftr low 10).
Definition correct_event (strict islegacy : bool) (fc ref ovf : Z) (ev : list Z)
  : cres (list Z * Z * Z) :=
  let '(low, high) := event_words islegacy ev in
  let tsmeas := event_tsmeas low high in
  let* prod := signed64 strict (Z.shiftr (u64 (tsmeas - ref)) FCORR_TBITS1 * fc) in  (* 361 *)
    let tscorr := Z.shiftr prod FCORR_TBITS2 in                   (* 361 *)
    let ts := u64 (tsmeas + tscorr + ovf) in                      (* 362 *)
    let high' := u32 (Z.shiftr ts 22) in                          (* 365 *)
    let low' := u32 (Z.lor (u64 (Z.shiftl ts 10)) (Z.land low 1023)) in (* 366 *)
    let '(w0, w1) := if islegacy then (high', low') else (low', high') in (* 373-377 *)
    Ok (le_enc 4 w0 ++ le_enc 4 w1, tsmeas, tscorr).

(** ** Lines 346-380: the digest loop, [n] events from index [i] *)
Fixpoint digest (strict islegacy : bool) (fc ref ovf : Z) (n : nat) (i : Z)
    (ib ob : list Z) (oe : Z) (lst : option (Z * Z))
  : cres (list Z * list Z * Z * option (Z * Z)) :=
  match n with
  | O => Ok (ib, ob, oe, lst)
  | S n' =>
      let* ev := load ib (SIZEOF_RAWEVENT * i) SIZEOF_RAWEVENT in
      let* (ev', tsmeas, tscorr) := correct_event strict islegacy fc ref ovf ev in
      let* ib' := store ib (SIZEOF_RAWEVENT * i) ev' in
      let* ob' := store ob (SIZEOF_RAWEVENT * oe) ev' in          (* 378 *)
      digest strict islegacy fc ref ovf n' (i + 1) ib' ob' (oe + 1) (Some (tsmeas, tscorr))
  end.

(** ** Lines 325-384: after [data] (non-empty) was read at offset [partial] *)
Definition digest_input (strict islegacy : bool) (s : fstate) (partial : Z) (data : list Z)
  : cres fstate :=
  let* ib := store (inbuf s) partial data in                      (* 313 *)
  let inread := partial + len data in                             (* 326 *)
  let enum := inread / SIZEOF_RAWEVENT in                         (* 327 *)
  let* (ref, isset) :=                                            (* 331-344 *)
    if negb (isset_tsref s) && (0 <? enum) then
      let* ev := load ib 0 SIZEOF_RAWEVENT in
      let '(low, high) := event_words islegacy ev in
      Ok (event_tsmeas low high, true)
    else Ok (tsref s, isset_tsref s) in
  let* (ib', ob', oe', lst') :=
    digest strict islegacy (fcorr s) ref (tsoverflowcorr s) (Z.to_nat enum) 0
           ib (outbuf s) (outevents s) (last s) in
  match lst' with
  | None => Err Uninitialised                                     (* 383-384 *)
  | Some (tsmeas, tscorr) =>
      let* ovf := signed64 strict (tsoverflowcorr s + tscorr) in  (* 384 *)
        Ok {| inbuf := ib'; inbytesread := inread; outbuf := ob'; eventnum := enum;
              outevents := oe'; freqopen := freqopen s; freqbuf := freqbuf s;
              freqpartial := freqpartial s; freqnext := freqnext s; fcorr := fcorr s;
              tsref := tsmeas; isset_tsref := isset; tsoverflowcorr := ovf; last := lst' |}
  end.

(** ** Lines 412-424: look for newline-terminated values *)
Fixpoint freq_scan (n : nat) (i : Z) (buf : list Z) (next_num_idx fc : Z)
  : cres (list Z * Z * Z) :=
  match n with
  | O => Ok (buf, next_num_idx, fc)
  | S n' =>
      let* c := load buf i 1 in
      if (match c with [x] => x =? 10 | _ => false end) then
        let* buf' := store buf i [0] in                           (* 416 *)
        let* str := cstring (drop next_num_idx buf') in
        let v := readint str in                                   (* 417 *)
        let fc' := if abs32 v <? FCORR_MAX then v else fc in      (* 418 *)
        freq_scan n' (i + 1) buf' (i + 1) fc'
      else freq_scan n' (i + 1) buf next_num_idx fc
  end.

(** ** Lines 393-433: after [data] was read from the frequency descriptor *)
Definition digest_freq (s : fstate) (data : list Z) : cres fstate :=
  let* fb := store (freqbuf s) (freqnext s) data in               (* 393 *)
  let isopen := match data with [] => false | _ => freqopen s end in (* 396-397 *)
  let fread := freqpartial s + len data in                        (* 410 *)
  let* (fb', idx, fc) := freq_scan (Z.to_nat fread) 0 fb 0 (fcorr s) in
  if 0 <? idx then                                                (* 427-433 *)
    let part := fread - idx in
    let* fb'' := copy_loop (Z.to_nat part) (fread - part) 0 fb' in
    Ok {| inbuf := inbuf s; inbytesread := inbytesread s; outbuf := outbuf s;
          eventnum := eventnum s; outevents := outevents s; freqopen := isopen;
          freqbuf := fb''; freqpartial := part; freqnext := part; fcorr := fc;
          tsref := tsref s; isset_tsref := isset_tsref s;
          tsoverflowcorr := tsoverflowcorr s; last := last s |}
  else
    Ok {| inbuf := inbuf s; inbytesread := inbytesread s; outbuf := outbuf s;
          eventnum := eventnum s; outevents := outevents s; freqopen := isopen;
          freqbuf := fb'; freqpartial := freqpartial s; freqnext := freqnext s; fcorr := fc;
          tsref := tsref s; isset_tsref := isset_tsref s;
          tsoverflowcorr := tsoverflowcorr s; last := last s |}.

Definition with_inbuf (s : fstate) (b : list Z) : fstate :=
  {| inbuf := b; inbytesread := inbytesread s; outbuf := outbuf s;
     eventnum := eventnum s; outevents := outevents s; freqopen := freqopen s;
     freqbuf := freqbuf s; freqpartial := freqpartial s; freqnext := freqnext s;
     fcorr := fcorr s; tsref := tsref s; isset_tsref := isset_tsref s;
     tsoverflowcorr := tsoverflowcorr s; last := last s |}.
Definition clear_events (s : fstate) : fstate :=                  (* 450-451 *)
  {| inbuf := inbuf s; inbytesread := inbytesread s; outbuf := outbuf s;
     eventnum := 0; outevents := 0; freqopen := freqopen s;
     freqbuf := freqbuf s; freqpartial := freqpartial s; freqnext := freqnext s;
     fcorr := fcorr s; tsref := tsref s; isset_tsref := isset_tsref s;
     tsoverflowcorr := tsoverflowcorr s; last := last s |}.

(** ** One iteration of the main loop, lines 282-454.
    Reads are clamped to the requested size: [read()] never returns more. *)
Definition write_phase (s : fstate) (wr : option Z) (got gotf : list Z)
  : cres (fstate * obs * status) :=
  let total := eventnum s * SIZEOF_RAWEVENT in                    (* 440 *)
  let* data := load (outbuf s) 0 total in
  let retval := match wr with None => total | Some k => Z.max (-1) (Z.min k total) end in
  let o := mkObs got gotf (take retval data) in
  if retval =? total then Ok (clear_events s, o, Running)
  else Ok (s, o, Stopped).                                        (* 446-449 *)

Definition freq_phase (s : fstate) (freq_ready : option rd) (wr : option Z) (got : list Z)
  : cres (fstate * obs * status) :=
  match (if freqopen s then freq_ready else None) with            (* 392 *)
  | None => write_phase s wr got []
  | Some RdErr => Ok (s, mkObs got [] [], Stopped)                (* 404-407 *)
  | Some (RdBytes offered) =>
      let data := take (FREQBUFSIZE - freqpartial s - 1) offered in (* 393 *)
      let* s' := digest_freq s data in
      write_phase s' wr got data
  end.

Definition step (strict islegacy : bool) (s : fstate) (t : tick) : cres (fstate * obs * status) :=
  let partial := inbytesread s mod SIZEOF_RAWEVENT in             (* 288 *)
  let* ib := copy_loop (Z.to_nat partial) (inbytesread s - partial) 0 (inbuf s) in
  let s0 := with_inbuf s ib in
  match t with
  | SelectError => Ok (s0, mkObs [] [] [], Stopped)               (* 303-306 *)
  | Tick in_ready freq_ready wr =>
      match in_ready with
      | None => freq_phase s0 freq_ready wr []
      | Some RdErr => Ok (s0, mkObs [] [] [], Stopped)            (* 320-323 *)
      | Some (RdBytes offered) =>
          match take (INBUFSIZE - partial) offered with           (* 313 *)
          | [] => Ok (s0, mkObs [] [] [], Stopped)                (* 314-319 *)
          | data => let* s1 := digest_input strict islegacy s0 partial data in
                    freq_phase s1 freq_ready wr data
          end
      end
  end.

(** The main loop driven by a finite schedule; stops at the first [break]. *)
Fixpoint run (strict islegacy : bool) (s : fstate) (ts : list tick)
  : cres (fstate * list obs * status) :=
  match ts with
  | [] => Ok (s, [], Running)
  | t :: r =>
      let* (s', o, st) := step strict islegacy s t in
      match st with
      | Stopped => Ok (s', [o], Stopped)
      | Running => let* (s'', os, st') := run strict islegacy s' r in Ok (s'', o :: os, st')
      end
  end.

(** State on entry to the loop (172-279): [ib], [ob], [fb] are whatever malloc
    returned, [junk] whatever the locals [tsmeas], [tscorr] contain. *)
Definition init_state (junk : option (Z * Z)) (ib ob fb : list Z) (freq_given : bool) (fc : Z) : fstate :=
  {| inbuf := ib; inbytesread := 0; outbuf := ob; eventnum := 0; outevents := 0;
     freqopen := freq_given; freqbuf := fb; freqpartial := 0; freqnext := 0; fcorr := fc;
     tsref := 0; isset_tsref := false; tsoverflowcorr := 0; last := junk |}.

(** The three allocations have the requested sizes (236, 244, 254). *)
Definition alloc_ok (ib ob fb : list Z) : Prop :=
  len ib = INBUFSIZE /\ len ob = OUTBUFSIZE /\ len fb = FREQBUFSIZE.

(** A complete run of freqcd's main loop from its entry. *)
Definition freqcd (strict islegacy : bool) (junk : option (Z * Z)) (ib ob fb : list Z) (freq_given : bool) (fc : Z)
  (ts : list tick) : cres (fstate * list obs * status) :=
  run strict islegacy (init_state junk ib ob fb freq_given fc) ts.

(** The bytes received on the input, read by read, and everything written. *)
Definition rxs (os : list obs) : list (list Z) := map rx os.
Definition received (os : list obs) : list Z := concat (map rx os).
Definition received_freq (os : list obs) : list Z := concat (map rx_freq os).
Definition written (os : list obs) : list Z := concat (map tx os).
Definition nonempty {A} (l : list A) : bool := match l with [] => false | _ => true end.
Definition chunks (os : list obs) : list (list Z) := filter nonempty (rxs os).

(** The input bytes, read by read, that the environment [ts] would deliver to an
    iteration-by-iteration reader that clamps to the free space; [n] is the number of
    bytes of an incomplete event already buffered. *)
Fixpoint delivered (n : Z) (ts : list tick) : list (list Z) :=
  match ts with
  | Tick None _ _ :: r => delivered n r
  | Tick (Some (RdBytes offered)) _ _ :: r =>
      match take (INBUFSIZE - n) offered with
      | [] => []
      | c => c :: delivered ((n + len c) mod SIZEOF_RAWEVENT) r
      end
  | _ => []
  end.

(** Only bytes arrive. *)
Definition rd_ok (r : option rd) : Prop :=
  match r with Some (RdBytes l) => bytes_ok l | _ => True end.
Definition tick_ok (t : tick) : Prop :=
  match t with SelectError => True | Tick i f _ => rd_ok i /\ rd_ok f end.
