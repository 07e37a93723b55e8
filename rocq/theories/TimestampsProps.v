(** C19-C30: timestamp files. *)
From Coq Require Import QArith Sorted String.
From Verif Require Import Float Base FreqcdExamples TimestampsModel TimestampsSpec TimestampsStatements TimestampsProofs2 TimestampsProofs3 TimestampsProofs4
  TimestampsProofs5 TimestampsProofs6 TimestampsProofs7 TimestampsRefute TimestampsExamples.
Import ListNotations.
Local Open Scope string_scope.
Local Open Scope list_scope.
Local Open Scope Z_scope.

(** C19.  [T] holds the times of [evs] in units of [r], in any dtype. *)
Theorem C19 : forall p lg r T evs, 54 <= p -> Forall event_ok evs -> same_values (tvalues T) (times_in r evs) ->
  round_trips p (A1 lg) r T evs /\
  exists file, write p (A1 lg) T (map snd evs) r = Ok file /\ read_a1 p file lg PS4 false = Ok (TU64 (map fst evs), map snd evs).
Proof. exact c19. Qed.
Print Assumptions C19.

Example C19_case : Forall event_ok evs3 /\ same_values (tvalues ts3) (times_in NS1 evs3) /\
  write 64 (A1 true) ts3 (map snd evs3) NS1 =
    Ok [0; 0; 0; 0; 1; 20; 0; 0;  61; 0; 0; 0; 6; 0; 0; 9;  255; 255; 255; 255; 8; 248; 255; 255] /\
  read_a1 64 [0; 0; 0; 0; 1; 20; 0; 0;  61; 0; 0; 0; 6; 0; 0; 9;  255; 255; 255; 255; 8; 248; 255; 255] true PS4 false
    = Ok (TU64 [5; 256000000; 2 ^ 54 - 2], [1; 6; 8]).
Proof. split; [exact evs3_ok|]. split; [exact (same_refl _)|]. split; vm_compute; reflexivity. Qed.

(** C20.  Full statement: [C20_statement].  It fails for a single event (0-d array), no event, and times on
    both sides of 2^53 (numpy makes the words floats). *)
Theorem C20_refuted : ~ C20_statement.
Proof. exact c20_refuted. Qed.
Print Assumptions C20_refuted.
(** At least two events, all before or all after 2^53; otherwise the file cannot be read. *)
Theorem C20_partial : forall p r T evs, 54 <= p -> Forall event_ok evs -> same_values (tvalues T) (times_in r evs) ->
  ((2 <= List.length evs)%nat /\ same_half evs -> round_trips p A2 r T evs) /\
  (~ ((2 <= List.length evs)%nat /\ same_half evs) -> exists file, write p A2 T (map snd evs) r = Ok file /\
     forall r' fr, read_a2 p file r' fr = Err TypeError).
Proof. exact c20. Qed.
Print Assumptions C20_partial.
Example C20_case : Forall event_ok evs_low /\ (2 <= List.length evs_low)%nat /\ same_half evs_low /\
  write 64 A2 ts3 (map snd evs3) NS1 = Ok (str "0000000000001401" ++ [10] ++ str "0000003d09000006" ++ [10] ++ str "fffffffffffff808" ++ [10])%list.
Proof.
  split; [exact evs_low_ok|]. split; [cbn; lia|]. split; [|vm_compute; reflexivity].
  left. repeat (constructor; [cbn; lia|]). constructor.
Qed.

(** C21.  Full statement: [C21_statement].  It fails for an odd time above 2^53 (float64 sum) and for no event. *)
Theorem C21_refuted : ~ C21_statement.
Proof. exact c21_refuted. Qed.
Print Assumptions C21_refuted.
(** What is read in every case; equal to what was written when float64 holds the times. *)
Theorem C21_partial : forall p r T evs, 54 <= p -> Forall event_ok evs -> same_values (tvalues T) (times_in r evs) ->
  (evs <> [] -> Forall (fun e => fst e <= 2 ^ 53 \/ Z.even (fst e) = true) evs -> round_trips p A0 r T evs) /\
  (evs <> [] -> exists file, write p A0 T (map snd evs) r = Ok file /\
     read_a0 p file PS4 false = Ok (TF64 (map (fun e => fl 53 (inject_Z (fst e))) evs), map snd evs)) /\
  (evs = [] -> exists file, write p A0 T (map snd evs) r = Ok file /\ forall r' fr, read_a0 p file r' fr = Err TypeError).
Proof. exact c21. Qed.
Print Assumptions C21_partial.
Example C21_case : evs3 <> [] /\ Forall (fun e => fst e <= 2 ^ 53 \/ Z.even (fst e) = true) evs3 /\
  write 64 A0 ts3 (map snd evs3) NS1 = Ok (str "00001401" ++ [10] ++ str "00000000" ++ [10] ++ str "09000006" ++ [10] ++ str "0000003d" ++ [10]
    ++ str "fffff808" ++ [10] ++ str "ffffffff" ++ [10])%list.
Proof.
  split; [discriminate|]. split; [|vm_compute; reflexivity].
  constructor; [left; cbn; lia|]. constructor; [left; cbn; lia|]. constructor; [right; reflexivity|constructor].
Qed.

(** C22.  Integer division and 54-bit-or-more floats are exact; C22_read for each reader. *)
Theorem C22 : forall p r ts, 54 <= p -> Forall (fun t => 0 <= t < 2 ^ 54) ts ->
  (exists l, format_timestamps p (TU64 ts) r true = TLD l /\ same_values l (map (in_units r) ts)) /\
  format_timestamps p (TU64 ts) r false = TU64 (map (fun t => t * rvalue r / 256) ts).
Proof. exact c22. Qed.
Print Assumptions C22.
Theorem C22_read : forall p f r vs, 54 <= p -> Forall word_ok vs -> readable f vs -> (f = A0 -> Forall exact53 vs) ->
  exists T T', read p f (encode f vs) r true = Ok (T, map pattern_of vs) /\ read p f (encode f vs) r false = Ok (T', map pattern_of vs) /\
    same_values (tvalues T) (map (fun v => in_units r (time_of v)) vs) /\
    same_values (tvalues T') (map (fun v => inject_Z (time_of v * rvalue r / 256)) vs).
Proof. exact c22_read. Qed.
Print Assumptions C22_read.
Example C22_case : format_timestamps 64 (TU64 [2 ^ 54 - 1]) NS1 true = TLD [(18014398509481983 # 256)%Q] /\
  format_timestamps 64 (TU64 [2 ^ 54 - 1]) PS125 false = TU64 [562949953421311].
Proof. split; vm_compute; reflexivity. Qed.

(** C23.  Full statement: [C23_statement].  It fails where the in-memory reader raises (C20, C21). *)
Theorem C23_refuted : ~ C23_statement.
Proof. exact c23_refuted. Qed.
Print Assumptions C23_refuted.
Theorem C23_partial : forall p f r fr b vs, Forall word_ok vs -> 0 < b ->
  (readable f vs -> streams_like (read p f (encode f vs) r fr) (sread p f (encode f vs) r fr b) b) /\
  (~ readable f vs -> read p f (encode f vs) r fr = Err TypeError).
Proof. exact c23. Qed.
Print Assumptions C23_partial.
Example C23_case : Forall word_ok words3 /\
  sread 64 (A1 false) (encode (A1 false) words3) PS125 false 2 = Ok (mkS [(TU64 [0; 8000000], [1; 6]); (TU64 [562949953421311], [8])] None, 2).
Proof. split; [exact words3_ok|vm_compute; reflexivity]. Qed.

(** C24. *)
Theorem C24 : forall p f r bs T P, Forall batch_ok bs -> tvalues T = concat (map (fun b => tvalues (fst b)) bs) -> P = concat (map snd bs) ->
  forall file, write p f T P r = Ok file <-> swrite p f (mkS bs None) r = (file, None).
Proof. exact c24. Qed.
Print Assumptions C24.
Example C24_case : Forall batch_ok batches3 /\
  swrite 64 (A1 false) (mkS batches3 None) PS4 = ([1; 20; 0; 0; 0; 0; 0; 0; 6; 0; 0; 9; 61; 0; 0; 0; 8; 248; 255; 255; 255; 255; 255; 255], None).
Proof. split; [repeat constructor|vm_compute; reflexivity]. Qed.

(** C25.  Counts of the whole list; first and last of the times, each divided by the resolution as numpy does.
    C25_same: against the in-memory report.  C25_raw: the times reported from raw 4 ps data. *)
Theorem C25 : forall p r bs, Forall pattern_ok (concat (map snd bs)) ->
  exists s, print_statistics_stream p (mkS bs None) r = Ok s /\ counts_right s (concat (map snd bs)) /\
    start_t s = first (concat (map (scaled p r) bs)) /\ end_t s = final (concat (map (scaled p r) bs)).
Proof. exact stream_stats. Qed.
Print Assumptions C25.
Theorem C25_same : forall p bs T, 54 <= p -> joined (map fst bs) (TLD T) -> Forall batch_ok bs -> Forall pattern_ok (concat (map snd bs)) ->
  concat (map snd bs) <> [] -> Forall (fun x => x == fl p x)%Q T ->
  exists s s', print_statistics_stream p (mkS bs None) NS1 = Ok s /\ print_statistics (TLD T) (concat (map snd bs)) = Ok s' /\
    counts_right s (concat (map snd bs)) /\ counts_right s' (concat (map snd bs)) /\
    oeq (start_t s) (start_t s') /\ oeq (end_t s) (end_t s').
Proof. exact c25_same. Qed.
Print Assumptions C25_same.
Theorem C25_raw : forall p t x, (scalar_div p (TU64 t) (inject_Z x) PS4 == fl 53 (inject_Z x) / inject_Z 256)%Q.
Proof. exact scalar_div_raw. Qed.
Print Assumptions C25_raw.
Example C25_case : print_statistics_stream 64 (mkS batches3 None) PS4
  = Ok (mkStats 3 1 1 1 1 1 0 (Some (5 # 256)%Q) (Some (9007199254740991 # 128)%Q) [1; 6; 8]).
Proof. vm_compute. reflexivity. Qed.
Example C25_same_case : let bs := [(TLD [5 # 256; 2 # 1]%Q, [1; 6]); (TLD [], []); (TLD [7 # 2]%Q, [0])] in
  joined (map fst bs) (TLD [5 # 256; 2 # 1; 7 # 2]%Q) /\ Forall batch_ok bs /\ Forall (fun x => x == fl 64 x)%Q [5 # 256; 2 # 1; 7 # 2]%Q.
Proof. split; [exact (join_ld [[5 # 256; 2 # 1]; []; [7 # 2]]%Q)|]. split; repeat constructor; vm_compute; reflexivity. Qed.

(** C26. *)
Theorem C26 : forall pats pt mask invert, (mask = true -> 0 <= pt < 16 /\ Forall (fun v => 0 <= v < 16) pats) ->
  get_pattern_mask pats pt mask invert =
  (map (keeps pt mask invert) pats, map (becomes pt mask invert) (filter (keeps pt mask invert) pats)).
Proof. exact pattern_mask_spec. Qed.
Print Assumptions C26.
Example C26_case : get_pattern_mask [0; 1; 2; 3; 4; 5; 6; 7; 8] 5 true true
  = ([true; false; true; true; false; false; true; true; true], [0; 2; 2; 2; 2; 8]).
Proof. reflexivity. Qed.

(** C27.  Full statement: [C27_statement].  It fails for integer arrays from 2^53 on: the time 2^53+1 passes an
    end bound of 2^53. *)
Theorem C27_refuted : ~ C27_statement.
Proof. exact c27_refuted. Qed.
Print Assumptions C27_refuted.
(** True, with bounds rounded to float64, for float arrays and integers that float64 holds. *)
Theorem C27_partial : forall t s e r, sortedQ (tvalues t) ->
  match t with TU64 l => Forall (fun v => (fl 53 (inject_Z v) == inject_Z v)%Q) l | _ => True end ->
  get_timing_mask t s e r = Ok (map (within (bounds r s) (bounds r e)) (tvalues t)).
Proof. exact c27. Qed.
Print Assumptions C27_partial.
(** For every sorted array: integers are compared after rounding to float64. *)
Theorem C27_actual : forall t s e r, sortedQ (tvalues t) ->
  get_timing_mask t s e r = Ok (map (within (bounds r s) (bounds r e)) (keys t)).
Proof. exact timing_mask_spec. Qed.
Print Assumptions C27_actual.
Example C27_case : sortedQ (tvalues (TU64 [2; 4; 4; 8])) /\
  get_timing_mask (TU64 [2; 4; 4; 8]) (Some (3 # 256000000000)%Q) (Some (4 # 256000000000)%Q) PS4 = Ok [false; true; true; false].
Proof. split; [repeat constructor; discriminate|vm_compute; reflexivity]. Qed.

(** C28.  [joined]: the batches make up the array. *)
Theorem C28 : forall f r bs t, joined (map fst bs) t -> Forall batch_ok bs -> (timed f = true -> sortedQ (tvalues t)) ->
  exists bs' t' p', inline_filter f r (mkS bs None) = mkS bs' None /\ List.length bs' = List.length bs /\
    event_filter f r (t, concat (map snd bs)) = Ok (t', p') /\ joined (map fst bs') t' /\ concat (map snd bs') = p' /\
    Forall batch_ok bs'.
Proof. exact filter_stream. Qed.
Print Assumptions C28.
Example C28_case : joined (map fst batches3) (TU64 [5; 256000000; 2 ^ 54 - 2]) /\ Forall batch_ok batches3 /\
  sortedQ (tvalues (TU64 [5; 256000000; 2 ^ 54 - 2])) /\
  inline_filter some_filter PS4 (mkS batches3 None) = mkS [(TU64 [256000000], [2]); (TU64 [], []); (TU64 [], [])] None.
Proof.
  split; [exact (join_u64 [[5; 256000000]; []; [2 ^ 54 - 2]])|]. split; [repeat constructor|].
  split; [repeat constructor; discriminate|vm_compute; reflexivity].
Qed.

(** C29.  Full statement: [C29_statement].  It fails for an a0 file holding the time 2^54-1, which becomes 0. *)
Theorem C29_refuted : ~ C29_statement.
Proof. exact c29_refuted. Qed.
Print Assumptions C29_refuted.
(** Streaming: float64 must hold the times if the input is a0 or a time filter is given, and a2 input must not
    straddle time 2^53. *)
Theorem C29_partial : forall p fin fout f vs, 54 <= p -> Forall word_ok vs -> filter_ok f -> (timed f = true -> in_order vs) ->
  (fin = A0 \/ timed f = true -> Forall exact53 vs) -> bufferable fin vs ->
  convert p false fin fout f (encode fin vs) = (encode fout (map (converted f) (filter (kept f) vs)), None).
Proof. exact convert_stream. Qed.
Print Assumptions C29_partial.
(** --inmemory *)
Theorem C29_memory_partial : forall p fin fout f vs, 54 <= p -> Forall word_ok vs -> filter_ok f -> (timed f = true -> in_order vs) ->
  (fin = A0 -> Forall exact53 vs) -> readable fin vs ->
  convert p true fin fout f (encode fin vs) = (encode fout (map (converted f) (filter (kept f) vs)), None).
Proof. exact convert_memory. Qed.
Print Assumptions C29_memory_partial.
Theorem C29_lost_time : forall fout, convert 64 false A0 fout no_filter (encode A0 [2 ^ 64 - 1023]) = (encode fout [1], None).
Proof. exact a0_wraps. Qed.
Print Assumptions C29_lost_time.
Example C29_case : Forall word_ok words_low /\ filter_ok some_filter /\ in_order words_low /\ bufferable A2 words_low /\ Forall exact53 words_low /\
  encode A2 (map (converted some_filter) (filter (kept some_filter) words_low)) = (str "0000003d09000002" ++ [10])%list.
Proof.
  split; [exact words_low_ok|]. split; [cbn; lia|]. split; [repeat constructor; vm_compute; congruence|].
  split; [left; repeat (constructor; [reflexivity|]); constructor|]. split; [repeat constructor; vm_compute; reflexivity|vm_compute; reflexivity].
Qed.

(** C30.  Full statement: [C30_statement].  It fails: read_a1 ignores 1 to 3 extra bytes. *)
Theorem C30_refuted : ~ C30_statement.
Proof. exact c30_refuted. Qed.
Print Assumptions C30_refuted.
Theorem C30_partial : forall p file lg r fr,
  (4 <= len file mod 8 -> read_a1 p file lg r fr = Err ValueError) /\
  (len file mod 8 < 4 -> is_ok (read_a1 p file lg r fr) /\ read_a1 p file lg r fr = read_a1 p (take (len file / 8 * 8) file) lg r fr).
Proof. exact read_a1_size. Qed.
Print Assumptions C30_partial.
Theorem C30_stream : forall p file lg r fr b, 0 < b -> exists s n, sread_a1 p file lg r fr b = Ok (s, n) /\
  fails s = if len file mod 8 =? 0 then None else Some ValueError.
Proof. exact sread_a1_size. Qed.
Print Assumptions C30_stream.
Example C30_case : read_a1 64 [1; 0; 0; 0; 0] false PS4 false = Err ValueError /\
  sread_a1 64 [1; 20; 0; 0; 0; 0; 0; 0; 7] false PS4 false 1 = Ok (mkS [(TU64 [5], [1])] (Some ValueError), 2).
Proof. split; vm_compute; reflexivity. Qed.
