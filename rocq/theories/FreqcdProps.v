(** The freqcd properties.  Each theorem is closed by a lemma proved elsewhere; under it are the
    axioms it depends on and a concrete run that meets its hypotheses. *)
From Coq Require Import String List.
From Verif Require Import Base FreqcdModel FreqcdSpec FreqcdStatements FreqcdExamples FreqcdRefute
  FreqcdProofs4 FreqcdProofs5 FreqcdProofs6 FreqcdProofs7 FreqcdProofs8 FreqcdProofs9.
Import ListNotations. Local Open Scope Z_scope.

(** C01: the events written are those of the bytes received, whatever the reads; [delivered 0 ts] is what the schedule delivers. *)
Theorem C01 : forall strict lg junk ib ob fb fg fc ts s' os st,
  alloc_ok ib ob fb -> Forall tick_ok ts ->
  freqcd strict lg junk ib ob fb fg fc ts = Ok (s', os, st) ->
  prefix (chunks os) (delivered 0 ts) /\ (st = Running -> chunks os = delivered 0 ts) /\
  exists times, length times = length (groups (received os)) /\
    prefix (written os) (concat (retime lg (groups (received os)) times)) /\
    (st = Running -> written os = concat (retime lg (groups (received os)) times)).
Proof. exact freqcd_framing. Qed.
Print Assumptions C01.
Example C01_example :
  let ts := [rdin (take 3 (ev 5 1)); timeout; rdin (drop 3 (ev 5 1) ++ ev 9 2 ++ [7]); rdin [1]; timeout] in
  alloc_ok IB IB FB /\ Forall tick_ok ts /\
  outcome2 (freqcd true false (Some (0, 0)) IB IB FB false 0 ts) =
    Ok ([take 3 (ev 5 1); drop 3 (ev 5 1) ++ ev 9 2 ++ [7]; [1]], [], ev 5 1 ++ ev 9 2, 0, Running).
Proof. demo. Qed.

(** C01, C17: without signed overflow the output is exactly the specified correction of those events. *)
Theorem C01_exact : forall lg junk ib ob fb fg fc ts s' os st,
  alloc_ok ib ob fb -> Forall tick_ok ts ->
  freqcd true lg junk ib ob fb fg fc ts = Ok (s', os, st) ->
  exists fs, in_force fc os fs /\
  let out := corrected_stream lg (clock0 junk) fs (batches [] (chunks os)) in
  concat (batches [] (chunks os)) = groups (received os) /\
  prefix (written os) (concat (concat out)) /\
  (st = Running -> written os = concat (concat out)).
Proof. exact freqcd_exact_in_force. Qed.
Print Assumptions C01_exact.
Example C01_exact_example :
  let ts := [rdin (ev 0 1 ++ ev 16384 2); rdfq (line "1048576"); rdin (ev 32768 3)] in
  alloc_ok IB IB FB /\ Forall tick_ok ts /\
  outcome2 (runF 0 ts) =
    Ok ([ev 0 1 ++ ev 16384 2; ev 32768 3], line "1048576", ev 0 1 ++ ev 16384 2 ++ ev 32769 3, 1048576, Running).
Proof. demo. Qed.

(** C02: no access outside the three buffers. *)
Theorem C02 : forall strict lg junk ib ob fb fg fc ts,
  alloc_ok ib ob fb -> Forall tick_ok ts ->
  freqcd strict lg junk ib ob fb fg fc ts <> Err OutOfBounds.
Proof. exact freqcd_memory_safe. Qed.
Print Assumptions C02.
Example C02_example :
  let ts := [rdin (repeat 255 (Z.to_nat 15)); rdin (repeat 1 (Z.to_nat 9)); rdfq (repeat 49 (Z.to_nat 200))] in
  alloc_ok IB IB FB /\ Forall tick_ok ts /\
  match freqcd false false (Some (0, 0)) IB IB FB true 7 ts with
  | Ok (_, os, _) => (map (fun o => len (rx o)) os, map (fun o => len (rx_freq o)) os)
  | Err _ => ([], [])
  end = ([15; 9; 0], [0; 0; 99]).
Proof. demo. Qed.

(** C02: with wrapping arithmetic the main loop never traps at all. *)
Theorem C02_total : forall lg j ib ob fb fg fc ts,
  alloc_ok ib ob fb -> Forall tick_ok ts ->
  exists r, freqcd false lg (Some j) ib ob fb fg fc ts = Ok r.
Proof. exact freqcd_total. Qed.
Print Assumptions C02_total.

(** C03: event by event, the low 10 bits survive. *)
Theorem C03 : forall strict lg junk ib ob fb fg fc ts s' os st,
  alloc_ok ib ob fb -> Forall tick_ok ts ->
  freqcd strict lg junk ib ob fb fg fc ts = Ok (s', os, st) ->
  (forall i ev', nth_error (groups (written os)) i = Some ev' ->
    exists ev, nth_error (groups (received os)) i = Some ev /\ ev_flags lg ev' = ev_flags lg ev) /\
  (st = Running -> length (groups (written os)) = length (groups (received os)) /\ leftover (written os) = []).
Proof. exact freqcd_flags. Qed.
Print Assumptions C03.
Example C03_example :
  let ts := [rdin (ev 0 1023 ++ ev 16384 513)] in
  alloc_ok IB IB FB /\ Forall tick_ok ts /\
  outcome2 (run0 (2 ^ 20) ts) =
    Ok ([ev 0 1023 ++ ev 16384 513], [], ev 0 1023 ++ ev 16385 513, 2 ^ 20, Running).
Proof. demo. Qed.

(** C04: with no correction the output is the input. *)
Theorem C04 : forall strict lg junk ib ob fb ts,
  alloc_ok ib ob fb -> Forall tick_ok ts -> first_complete (delivered 0 ts) ->
  exists s os st, freqcd strict lg junk ib ob fb false 0 ts = Ok (s, os, st) /\
    prefix (written os) (received os) /\
    (st = Running -> written os = concat (groups (received os))).
Proof. exact freqcd_zero. Qed.
Print Assumptions C04.
Example C04_example :
  let ts := [rdin (ev 77 3 ++ [1; 2]); rdin [3]; rdin (ev 5 5)] in
  alloc_ok IB IB FB /\ Forall tick_ok ts /\
  outcome2 (run0 0 ts) =
    Ok ([ev 77 3 ++ [1; 2]; [3]; ev 5 5], [], ev 77 3 ++ [1; 2; 3; 5; 20; 0; 0; 0], 0, Running).
Proof. demo. Qed.

(** C05, partial: no signed overflow and no use of an uninitialised variable, provided the first read brings at
    least one complete event (the listed statement has no such proviso and is false, see below). *)
Theorem C05_partial : forall lg junk ib ob fb fg fc ts,
  alloc_ok ib ob fb -> Forall tick_ok ts ->
  first_complete (delivered 0 ts) ->
  nondecr (map (ev_time lg) (groups (concat (delivered 0 ts)))) ->
  (forall pre s os st, prefix pre ts ->
     freqcd true lg junk ib ob fb fg fc pre = Ok (s, os, st) -> small (fcorr s)) ->
  exists s os st, freqcd true lg junk ib ob fb fg fc ts = Ok (s, os, st).
Proof. exact freqcd_no_ub'. Qed.
Print Assumptions C05_partial.
Example C05_example :
  let ts := [rdin (ev 0 0 ++ ev (2 ^ 54 - 1) 0); rdin (ev (2 ^ 54 - 1) 1)] in
  alloc_ok IB IB FB /\ Forall tick_ok ts /\
  outcome2 (run0 (2 ^ 21 - 1) ts) =
    Ok ([ev 0 0 ++ ev (2 ^ 54 - 1) 0; ev (2 ^ 54 - 1) 1], [], ev 0 0 ++ ev (2 ^ 54 - 1 + shift (2 ^ 21 - 1) (2 ^ 54 - 1)) 0 ++ ev (2 ^ 54 - 1 + shift (2 ^ 21 - 1) (2 ^ 54 - 1)) 1, 2 ^ 21 - 1, Running).
Proof. demo. Qed.

(** C05 as listed is false: before the first complete event [tscorr] is read uninitialised. *)
Theorem C05_refuted : ~ C05_statement.
Proof. exact C05_refuted_lemma. Qed.
Print Assumptions C05_refuted.

(** C06: batch i (from 0) is accurate to 3(i+1)/2 units; the n-th read gives 3n/2. *)
Theorem C06 : forall lg junk ib ob fb f ts s' os st,
  alloc_ok ib ob fb -> Forall tick_ok ts -> small f ->
  freqcd true lg junk ib ob fb false f ts = Ok (s', os, st) ->
  every_read_completes [] (chunks os) ->
  nondecr (map (ev_time lg) (groups (received os))) ->
  let bs := map (map (ev_time lg)) (batches [] (chunks os)) in
  exists tss, length tss = length bs /\
    (forall i t0, hd_error (concat bs) = Some t0 ->
       Forall2 (accurate f t0 (Z.of_nat i + 1)) (nth i bs []) (nth i tss [])) /\
    prefix (written os) (concat (retime lg (groups (received os)) (concat tss))) /\
    (st = Running -> written os = concat (retime lg (groups (received os)) (concat tss))).
Proof. exact freqcd_accurate. Qed.
Print Assumptions C06.
Example C06_example :
  let ts := [rdin (ev 100 0 ++ ev 1000000 1); rdin (ev 3000000 2)] in
  alloc_ok IB IB FB /\ Forall tick_ok ts /\
  outcome2 (run0 1000000 ts) =
    Ok ([ev 100 0 ++ ev 1000000 1; ev 3000000 2], [], ev 100 0 ++ ev 1000058 1 ++ ev 3000174 2, 1000000, Running).
Proof. demo. Qed.

(** C07: order is preserved. *)
Theorem C07 : forall lg junk ib ob fb fg fc ts s' os st,
  alloc_ok ib ob fb -> Forall tick_ok ts ->
  (forall pre s os st, prefix pre ts ->
     freqcd true lg junk ib ob fb fg fc pre = Ok (s, os, st) -> small (fcorr s)) ->
  freqcd true lg junk ib ob fb fg fc ts = Ok (s', os, st) ->
  every_read_completes [] (chunks os) ->
  nondecr (map (ev_time lg) (groups (received os))) ->
  exists times, length times = length (groups (received os)) /\ nondecr times /\
    prefix (written os) (concat (retime lg (groups (received os)) times)) /\
    (st = Running -> written os = concat (retime lg (groups (received os)) times)).
Proof. exact freqcd_order'. Qed.
Print Assumptions C07.
Example C07_example :
  let ts := [rdin (ev 0 1 ++ ev 16384 2); rdfq (line "-2097151"); rdin (ev 16384 3 ++ ev 32768 4)] in
  alloc_ok IB IB FB /\ Forall tick_ok ts /\
  outcome2 (runF (2 ^ 21 - 1) ts) =
    Ok ([ev 0 1 ++ ev 16384 2; ev 16384 3 ++ ev 32768 4], line "-2097151", ev 0 1 ++ ev 16385 2 ++ ev 16385 3 ++ ev 32767 4, -2097151, Running).
Proof. demo. Qed.

(** C08 as listed is false: every read restarts the rounding. *)
Theorem C08_refuted : ~ C08_statement.
Proof. exact C08_refuted_lemma. Qed.
Print Assumptions C08_refuted.

(** C08, partial: two splits differ by less than 3/2 unit per read. *)
Theorem C08_partial : forall lg junk1 ib1 ob1 fb1 junk2 ib2 ob2 fb2 f ts1 ts2 s1 os1 s2 os2,
  alloc_ok ib1 ob1 fb1 -> alloc_ok ib2 ob2 fb2 -> Forall tick_ok ts1 -> Forall tick_ok ts2 -> small f ->
  freqcd true lg junk1 ib1 ob1 fb1 false f ts1 = Ok (s1, os1, Running) ->
  freqcd true lg junk2 ib2 ob2 fb2 false f ts2 = Ok (s2, os2, Running) ->
  received os1 = received os2 ->
  every_read_completes [] (chunks os1) -> every_read_completes [] (chunks os2) ->
  nondecr (map (ev_time lg) (groups (received os1))) ->
  exists times1 times2,
    length times1 = length (groups (received os1)) /\
    written os1 = concat (retime lg (groups (received os1)) times1) /\
    written os2 = concat (retime lg (groups (received os1)) times2) /\
    Forall2 (fun a b => 2 * Z.abs (a - b) < 3 * (len (chunks os1) + len (chunks os2))) times1 times2.
Proof. exact freqcd_split. Qed.
Print Assumptions C08_partial.
Example C08_example :
  outcome2 (run0 (2 ^ 20) tsA) = Ok ([ev 0 1 ++ ev 8192 2 ++ ev 16384 3], [], ev 0 1 ++ ev 8192 2 ++ ev 16385 3, 2 ^ 20, Running) /\
  outcome2 (run0 (2 ^ 20) tsB) = Ok ([ev 0 1; ev 8192 2; ev 16384 3], [], ev 0 1 ++ ev 8192 2 ++ ev 16384 3, 2 ^ 20, Running).
Proof. split; demo1. Qed.

(** C09 as listed is false: a short read adds the previous correction again. *)
Theorem C09_refuted : ~ C09_statement.
Proof. exact C09_refuted_lemma. Qed.
Print Assumptions C09_refuted.

(** C09, partial: exactly what a short read does: every later event is shifted by the correction of the last event
    before it ([c_last K]); it is harmless exactly when that is 0. *)
Theorem C09_partial : forall lg junk ib1 ob1 fb1 ib2 ob2 fb2 f ts1 ts2 s1 os1 s2 os2 A c1 c2 B,
  alloc_ok ib1 ob1 fb1 -> alloc_ok ib2 ob2 fb2 -> Forall tick_ok ts1 -> Forall tick_ok ts2 ->
  freqcd true lg junk ib1 ob1 fb1 false f ts1 = Ok (s1, os1, Running) ->
  freqcd true lg junk ib2 ob2 fb2 false f ts2 = Ok (s2, os2, Running) ->
  chunks os1 = A ++ c1 :: c2 :: B -> chunks os2 = A ++ (c1 ++ c2) :: B ->
  groups (leftover (concat A) ++ c1) = [] ->
  let evs := groups (received os1) in
  let K := clock_after (clock0 junk) (repeat f (length A)) (map (map (ev_time lg)) (batches [] A)) in
  exists timesA timesB,
    length timesA = length (groups (concat A)) /\ length (timesA ++ timesB) = length evs /\
    written os2 = concat (retime lg evs (timesA ++ timesB)) /\
    written os1 = concat (retime lg evs (timesA ++ map (Z.add (c_last K)) timesB)).
Proof. exact freqcd_short_read. Qed.
Print Assumptions C09_partial.
Example C09_example :
  outcome2 (run0 (2 ^ 20) tsC) = Ok ([ev 0 1 ++ ev 16384 3] ++ take 4 (ev 16384 5) :: drop 4 (ev 16384 5) :: [], [], ev 0 1 ++ ev 16385 3 ++ ev 16386 5, 2 ^ 20, Running) /\
  outcome2 (run0 (2 ^ 20) tsD) = Ok ([ev 0 1 ++ ev 16384 3] ++ (take 4 (ev 16384 5) ++ drop 4 (ev 16384 5)) :: [], [], ev 0 1 ++ ev 16385 3 ++ ev 16385 5, 2 ^ 20, Running) /\
  c_last (clock_after (clock0 None) [2 ^ 20] [[0; 16384]]) = 1.
Proof. split; [demo1|split; [demo1|reflexivity]]. Qed.

(** C10: legacy mode is the word-swapped normal mode. *)
Theorem C10 : forall strict junk ib1 ob1 fb1 ib2 ob2 fb2 fg fc ts1 ts2 s1 os1 s2 os2,
  alloc_ok ib1 ob1 fb1 -> alloc_ok ib2 ob2 fb2 -> Forall tick_ok ts1 -> Forall tick_ok ts2 ->
  freqcd strict false junk ib1 ob1 fb1 fg fc ts1 = Ok (s1, os1, Running) ->
  freqcd strict true junk ib2 ob2 fb2 fg fc ts2 = Ok (s2, os2, Running) ->
  Forall2 (fun o1 o2 => len (rx o1) = len (rx o2) /\ rx_freq o1 = rx_freq o2) os1 os2 ->
  groups (received os2) = map swap_words (groups (received os1)) ->
  groups (written os2) = map swap_words (groups (written os1)) /\ len (written os2) = len (written os1).
Proof. exact freqcd_legacy. Qed.
Print Assumptions C10.
Example C10_example :
  outcome2 (freqcd true true None IB IB FB false (2 ^ 20) [rdin (swap_words (ev 0 1) ++ swap_words (ev 16384 3))])
    = Ok ([swap_words (ev 0 1) ++ swap_words (ev 16384 3)], [], swap_words (ev 0 1) ++ swap_words (ev 16385 3), 2 ^ 20, Running) /\
  outcome2 (freqcd true false None IB IB FB false (2 ^ 20) [rdin (ev 0 1 ++ ev 16384 3)])
    = Ok ([ev 0 1 ++ ev 16384 3], [], ev 0 1 ++ ev 16385 3, 2 ^ 20, Running).
Proof. split; demo1. Qed.

(** C11 as listed is false: a read without a newline is forgotten. *)
Theorem C11_refuted : ~ C11_statement.
Proof. exact C11_refuted_lemma. Qed.
Print Assumptions C11_refuted.

(** C11, partial: it holds when every frequency read contains a newline (for lines without NUL whose
    number fits an int). *)
Theorem C11_partial : forall strict lg junk ib ob fb fg fc ts s' os st,
  alloc_ok ib ob fb -> Forall tick_ok ts ->
  freqcd strict lg junk ib ob fb fg fc ts = Ok (s', os, st) ->
  Forall (fun o => rx_freq o = [] \/ has_newline (rx_freq o) = true) os ->
  Forall plain_line (lines (received_freq os)) ->
  after_lines fc (lines (received_freq os)) (fcorr s').
Proof. exact freqcd_freq_lines. Qed.
Print Assumptions C11_partial.
Example C11_example :
  let ts := [rdfq (line "12" ++ str "3"); rdfq (line "4" ++ line "x" ++ str "9")] in
  alloc_ok IB IB FB /\ Forall tick_ok ts /\
  outcome2 (runF 0 ts) =
    Ok ([], line "12" ++ line "34" ++ line "x" ++ str "9", [], 34, Running).
Proof. demo. Qed.

(** C11, C13: what really happens, for every byte stream and split. *)
Theorem C11_actual : forall strict lg junk ib ob fb fg fc ts s' os st,
  alloc_ok ib ob fb -> Forall tick_ok ts ->
  freqcd strict lg junk ib ob fb fg fc ts = Ok (s', os, st) ->
  after_lines_actual fc (lines (concat (filter has_newline (map rx_freq os)))) (fcorr s').
Proof. exact freqcd_freq_actual. Qed.
Print Assumptions C11_actual.
Example C11_actual_example :
  let ts := [rdfq (str "12"); rdfq (line ""); rdfq (line "4294967301")] in
  alloc_ok IB IB FB /\ Forall tick_ok ts /\
  outcome2 (runF 0 ts) =
    Ok ([], line "12" ++ line "4294967301", [], 5, Running).
Proof. demo. Qed.

(** C12 as listed is false: the line -2147483648 is accepted. *)
Theorem C12_refuted : ~ C12_statement.
Proof. exact C12_refuted_lemma. Qed.
Print Assumptions C12_refuted.

(** C12, partial: -2^31 is the only value out of range that can be in force. *)
Theorem C12_partial : forall strict lg junk ib ob fb fg fc ts s' os st,
  alloc_ok ib ob fb -> Forall tick_ok ts -> small fc ->
  freqcd strict lg junk ib ob fb fg fc ts = Ok (s', os, st) ->
  small (fcorr s') \/ fcorr s' = - 2 ^ 31.
Proof. exact freqcd_fcorr_range. Qed.
Print Assumptions C12_partial.
Example C12_example :
  let ts := [rdfq (line "-2147483648"); rdfq (line "-2097151"); rdfq (line "2097152")] in
  alloc_ok IB IB FB /\ Forall tick_ok ts /\
  outcome2 (runF 0 ts) =
    Ok ([], line "-2147483648" ++ line "-2097151" ++ line "2097152", [], -2097151, Running).
Proof. demo. Qed.

(** C13 as listed is false: 4294967301 is taken as 5. *)
Theorem C13_refuted : ~ C13_statement.
Proof. exact C13_refuted_lemma. Qed.
Print Assumptions C13_refuted.

(** C13, partial: it holds for lines without NUL bytes whose number, if any, fits an int. *)
Theorem C13_partial : forall strict lg junk ib ob fb fg fc ts s' os st,
  alloc_ok ib ob fb -> Forall tick_ok ts ->
  freqcd strict lg junk ib ob fb fg fc ts = Ok (s', os, st) ->
  let ls := lines (concat (filter has_newline (map rx_freq os))) in
  Forall plain_line ls -> Forall (fun l => forall v, ~ valid_line l v) ls -> fcorr s' = fc.
Proof. exact freqcd_malformed. Qed.
Print Assumptions C13_partial.
Example C13_example :
  let ts := [rdfq (line "12x" ++ line "" ++ line "2097152" ++ line "- 5")] in
  alloc_ok IB IB FB /\ Forall tick_ok ts /\
  outcome2 (runF 42 ts) =
    Ok ([], line "12x" ++ line "" ++ line "2097152" ++ line "- 5", [], 42, Running).
Proof. demo. Qed.

(** C17: running longer only appends; with C01 and C01_exact the output is a prefix at every stop. *)
Theorem C17 : forall strict lg junk ib ob fb fg fc ts more s os st s' os' st',
  freqcd strict lg junk ib ob fb fg fc ts = Ok (s, os, st) ->
  freqcd strict lg junk ib ob fb fg fc (ts ++ more) = Ok (s', os', st') ->
  prefix os os' /\ prefix (written os) (written os').
Proof. exact freqcd_monotone. Qed.
Print Assumptions C17.
Example C17_example :
  let ts := [rdin (ev 0 1); Tick (Some (RdBytes (ev 16384 2))) None (Some 3); rdin (ev 5 5)] in
  alloc_ok IB IB FB /\ Forall tick_ok ts /\
  outcome2 (run0 (2 ^ 20) ts) =
    Ok ([ev 0 1; ev 16384 2], [], ev 0 1 ++ take 3 (ev 16385 2), 2 ^ 20, Stopped).
Proof. demo. Qed.

(** C18 as listed is false: the elapsed time is off by 2^64 - 2^54 units. *)
Theorem C18_refuted : ~ C18_statement.
Proof. exact C18_refuted_lemma. Qed.
Print Assumptions C18_refuted.

(** C18, partial: exact without rollover; across it the correction is wrong by f * (2^30 - 2^20) units. *)
Theorem C18_partial : forall lg junk ib ob fb f ts s' os ev1 ev2,
  alloc_ok ib ob fb -> Forall tick_ok ts ->
  freqcd true lg junk ib ob fb false f ts = Ok (s', os, Running) ->
  len ev1 = 8 -> len ev2 = 8 -> chunks os = [ev1 ++ ev2] ->
  let r := ev_time lg ev1 in let t := ev_time lg ev2 in
  (r <= t -> written os = mk_event lg r (ev_flags lg ev1) ++ mk_event lg (t + shift f (t - r)) (ev_flags lg ev2)) /\
  (t < r -> written os = mk_event lg r (ev_flags lg ev1) ++
     mk_event lg (t + shift f (t + 2 ^ 54 - r) + f * (2 ^ 30 - 2 ^ 20)) (ev_flags lg ev2)).
Proof. exact freqcd_rollover. Qed.
Print Assumptions C18_partial.
Example C18_example :
  let ts := tsR in
  alloc_ok IB IB FB /\ Forall tick_ok ts /\
  outcome2 (run0 1 ts) =
    Ok ([ev (2 ^ 54 - 1) 0 ++ ev 0 0], [], ev (2 ^ 54 - 1) 0 ++ ev (2 ^ 30 - 2 ^ 20) 0, 1, Running).
Proof. demo. Qed.

