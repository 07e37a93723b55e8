(** Full statements of the freqcd properties that turn out to be false of the code.
    FreqcdProps.v refutes each of them and proves the strongest version we found. *)
From Verif Require Import Base FreqcdModel FreqcdSpec.

(** The corrections in force for each read that brought bytes: what the complete lines of the
    earlier frequency reads (those that contained a newline) set it to. *)
Definition in_force (fc : Z) (os : list obs) (fs : list Z) : Prop :=
  length fs = length (chunks os) /\
  forall os1 o os2, os = os1 ++ o :: os2 -> rx o <> [] ->
  exists f, nth_error fs (length (chunks os1)) = Some f /\
    after_lines_actual fc (lines (concat (filter has_newline (map rx_freq os1)))) f.

(** C05 as listed: no proviso about the first read. *)
Definition C05_statement : Prop :=
  forall lg junk ib ob fb fg fc ts,
  alloc_ok ib ob fb -> Forall tick_ok ts ->
  nondecr (map (ev_time lg) (groups (concat (delivered 0 ts)))) ->
  (forall pre s os st, prefix pre ts ->
     freqcd true lg junk ib ob fb fg fc pre = Ok (s, os, st) -> small (fcorr s)) ->
  freqcd true lg junk ib ob fb fg fc ts <> Err SignedOverflow.

(** C08: equal input bytes, equal output bytes. *)
Definition C08_statement : Prop :=
  forall lg junk ib ob fb f ts1 ts2 s1 os1 s2 os2,
  alloc_ok ib ob fb -> Forall tick_ok ts1 -> Forall tick_ok ts2 -> small f ->
  freqcd true lg junk ib ob fb false f ts1 = Ok (s1, os1, Running) ->
  freqcd true lg junk ib ob fb false f ts2 = Ok (s2, os2, Running) ->
  received os1 = received os2 ->
  written os1 = written os2.

(** C09: bytes [c1] that complete no event could as well have come with the next read. *)
Definition C09_statement : Prop :=
  forall lg junk ib ob fb f ts1 ts2 s1 os1 s2 os2 A c1 c2 B,
  alloc_ok ib ob fb -> Forall tick_ok ts1 -> Forall tick_ok ts2 -> small f ->
  freqcd true lg junk ib ob fb false f ts1 = Ok (s1, os1, Running) ->
  freqcd true lg junk ib ob fb false f ts2 = Ok (s2, os2, Running) ->
  chunks os1 = A ++ c1 :: c2 :: B -> chunks os2 = A ++ (c1 ++ c2) :: B ->
  groups (leftover (concat A) ++ c1) = [] ->
  written os1 = written os2.

(** C11: the last valid newline-terminated number wins, however the bytes were read. *)
Definition C11_statement : Prop :=
  forall strict lg junk ib ob fb fg fc ts s' os st,
  alloc_ok ib ob fb -> Forall tick_ok ts ->
  freqcd strict lg junk ib ob fb fg fc ts = Ok (s', os, st) ->
  Forall plain_line (lines (received_freq os)) ->
  after_lines fc (lines (received_freq os)) (fcorr s').

(** C12: the correction in force stays in range. *)
Definition C12_statement : Prop :=
  forall strict lg junk ib ob fb fg fc ts s' os st,
  alloc_ok ib ob fb -> Forall tick_ok ts -> small fc ->
  freqcd strict lg junk ib ob fb fg fc ts = Ok (s', os, st) ->
  small (fcorr s').

(** C13: lines that are not a decimal integer below 2^21 in magnitude change nothing. *)
Definition C13_statement : Prop :=
  forall strict lg junk ib ob fb fg fc ts s' os st,
  alloc_ok ib ob fb -> Forall tick_ok ts ->
  freqcd strict lg junk ib ob fb fg fc ts = Ok (s', os, st) ->
  Forall (fun l => forall v, ~ valid_line l v) (lines (concat (filter has_newline (map rx_freq os)))) ->
  fcorr s' = fc.

(** C18: the event after a rollover is corrected for the true elapsed time. *)
Definition C18_statement : Prop :=
  forall lg junk ib ob fb f ts s' os ev1 ev2,
  alloc_ok ib ob fb -> Forall tick_ok ts -> small f ->
  freqcd true lg junk ib ob fb false f ts = Ok (s', os, Running) ->
  len ev1 = 8 -> len ev2 = 8 -> chunks os = [ev1 ++ ev2] ->
  let r := ev_time lg ev1 in let t := ev_time lg ev2 in
  written os = mk_event lg r (ev_flags lg ev1) ++
               mk_event lg (t + shift f ((t - r) mod 2 ^ 54)) (ev_flags lg ev2).
