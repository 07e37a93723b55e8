(** C31-C44, C67, C68: epoch files. *)
From Coq Require Import QArith Qabs String.
From Verif Require Import Float Base FreqcdExamples TimestampsModel TimestampsSpec EpochsModel EpochsSpec EpochsStatements EpochsProofs EpochsProofs2 EpochsProofs3
  EpochsProofs4 EpochsProofs5 EpochsProofs6 EpochsProofs7 EpochsRefute.
Import ListNotations.
Local Open Scope string_scope.
Local Open Scope list_scope.
Local Open Scope Z_scope.

(** C31.  [t1_file] is the filespec encoding; lsb_time has the 17 low bits of the epoch. *)
Theorem C31 : forall e evs r, Forall (t1_ok e) evs -> Forall (fun ev => t1_word e ev <> 0) evs -> len evs < 2 ^ 32 ->
  (exists name, write_T1 e (WPy (map fst evs)) (DSeq (map snd evs)) = Ok (name, t1_file e evs, None)) /\
  (forall d, Forall (fun ev => snd ev = d) evs ->
     exists name, write_T1 e (WPy (map fst evs)) (DScalar d) = Ok (name, t1_file e evs, None)) /\
  (exists T, read_T1 (t1_file e evs) false r true = Ok (T, map snd evs) /\
     same_values (evalues T) (map (fun ev => in_units r (lsb_time e (fst ev))) evs)) /\
  read_T1 (t1_file e evs) false r false =
    Ok (EU64 (map (fun ev => floor_units r (lsb_time e (fst ev))) evs), map snd evs).
Proof. exact c31. Qed.
Print Assumptions C31.
(** The excluded event: time 0 of an epoch divisible by 2^17, no detector; it ends the file. *)
Theorem C31_zero : forall e evs rest full r fr, Forall (t1_ok e) evs -> Forall (fun ev => t1_word e ev <> 0) evs ->
  e mod 2 ^ 17 = 0 -> len evs + 1 + len rest < 2 ^ 32 -> Forall (t1_ok e) rest ->
  read_T1 (t1_file e (evs ++ (0, 0) :: rest)) full r fr = Err ValueError.
Proof. exact c31_zero. Qed.
Print Assumptions C31_zero.
Example C31_case : Forall (t1_ok (2 ^ 31 + 7)) [(5, 1); (2 ^ 37 - 1, 15)] /\
  write_T1 (2 ^ 31 + 7) (WPy [5; 2 ^ 37 - 1]) (DSeq [1; 15]) =
    Ok (str "80000007",
        [1; 1; 0; 0;  7; 0; 0; 128;  2; 0; 0; 0;  49; 0; 0; 0;  4; 0; 0; 0;
         0; 128; 3; 0;  1; 20; 0; 0;   255; 255; 3; 0;  15; 252; 255; 255;  0; 0; 0; 0; 0; 0; 0; 0], None) /\
  read_T1 (t1_file (2 ^ 31 + 7) [(5, 1); (2 ^ 37 - 1, 15)]) false PS4 false =
    Ok (EU64 [7 * 2 ^ 37 + 5; 8 * 2 ^ 37 - 1], [1; 15]).
Proof.
  split; [|split; vm_compute; reflexivity]. repeat (apply Forall_cons; [split; cbn [fst snd]; lia|]). apply Forall_nil.
Qed.

(** C32.  Full epochs, integer results: exact in all three resolutions (PS4 as Python objects). *)
Theorem C32 : forall e evs r, Forall (t1_ok e) evs -> Forall (fun ev => t1_word e ev <> 0) evs -> len evs < 2 ^ 32 ->
  read_T1 (t1_file e evs) true r false =
    Ok ((match r with PS4 => EObj | _ => EU64 end) (map (fun ev => floor_units r (full_time e (fst ev))) evs), map snd evs) /\
  (r <> PS4 -> Forall (fun ev => 0 <= floor_units r (full_time e (fst ev)) < 2 ^ 64) evs).
Proof. exact c32. Qed.
Print Assumptions C32.
Example C32_case : read_T1 (t1_file (2 ^ 31 + 7) [(5, 1); (2 ^ 37 - 1, 15)]) true PS4 false =
  Ok (EObj [(2 ^ 31 + 7) * 2 ^ 37 + 5; (2 ^ 31 + 8) * 2 ^ 37 - 1], [1; 15]).
Proof. vm_compute. reflexivity. Qed.

(** C33.  Full epochs in float128: within 16 units of 4 ps, exact below 2^64 of them, order kept. *)
Theorem C33 : forall e evs r, Forall (t1_ok e) evs -> Forall (fun ev => t1_word e ev <> 0) evs -> len evs < 2 ^ 32 ->
  exists xs, read_T1 (t1_file e evs) true r true = Ok (ELD xs, map snd evs) /\ length xs = length evs /\
    Forall2 (fun ev x => Qabs (x * inject_Z (256 / rvalue r) - inject_Z (full_time e (fst ev))) <= 16 /\
                         ((full_time e (fst ev) < 2 ^ 64)%Z -> x == in_units r (full_time e (fst ev))))%Q evs xs /\
    forall i j, (i < length evs)%nat -> (j < length evs)%nat ->
      full_time e (fst (nth i evs (0, 0))) <= full_time e (fst (nth j evs (0, 0))) -> (nth i xs 0 <= nth j xs 0)%Q.
Proof. exact c33. Qed.
Print Assumptions C33.
(** 4 ps are lost: the event at 5 units in epoch 80000007 *)
Example C33_case : match read_T1 (t1_file (2 ^ 31 + 7) [(5, 1)]) true PS4 true with
  | Ok (ELD [x], [1]) => x == inject_Z ((2 ^ 31 + 7) * 2 ^ 37 + 0)
  | _ => False
  end.
Proof. vm_compute. reflexivity. Qed.

(** C34.  Full statement: [C34_statement].  It fails for a cut inside the last event that leaves a non-zero byte. *)
Theorem C34_refuted : ~ C34_statement.
Proof. exact c34_refuted. Qed.
Print Assumptions C34_refuted.
Theorem C34_partial : forall e evs m full r fr, Forall (t1_ok e) evs -> Forall (fun ev => t1_word e ev <> 0) evs ->
  0 < len evs < 2 ^ 32 -> 20 <= m ->
  let cut := m - 20 - 8 * (len evs - 1) in
  (cut < 0 -> read_T1 (take m (t1_file e evs)) full r fr = Err ValueError) /\
  (0 <= cut < 8 -> Forall (fun b => b = 0) (last_event e evs cut) ->
     read_T1 (take m (t1_file e evs)) full r fr = Err ValueError) /\
  (0 <= cut < 8 -> ~ Forall (fun b => b = 0) (last_event e evs cut) ->
     exists ws, map (t1_word e) (removelast evs) ++ [word_at (last_event e evs cut) 0] = ws /\
       read_T1 (take m (t1_file e evs)) full r fr =
         Ok (t1_convert (e mod 2 ^ 32) (map (fun v => v / 2 ^ 10) ws) full r fr, map (fun v => v mod 2 ^ 4) ws)) /\
  (8 <= cut -> read_T1 (take m (t1_file e evs)) full r fr = read_T1 (t1_file e evs) full r fr).
Proof. exact c34. Qed.
Print Assumptions C34_partial.
Example C34_case :
  read_T1 (take 28 (t1_file 7 [(5, 1); (9, 2); (11, 4)])) false PS4 false = Err ValueError /\
  read_T1 (take 40 (t1_file 7 [(5, 1); (9, 2); (11, 4)])) false PS4 false =
    Ok (EU64 [7 * 2 ^ 37 + 5; 7 * 2 ^ 37 + 9; 7 * 2 ^ 37], [1; 2; 0]).
Proof. split; vm_compute; reflexivity. Qed.

(** C35 *)
Theorem C35 : forall body ws, bytes_ok body -> Forall (fun w => 0 <= w <= 32) ws ->
  extract_all ws 0 0 (Some body) = Ok (fields_at body 0 ws).
Proof. exact c35. Qed.
Print Assumptions C35.
(** without a file: bits of the buffer, ValueError when there are too few *)
Theorem C35_buffer : forall msb buffer size, 0 <= msb ->
  extract_bits msb buffer size None =
    if msb <=? size then Ok (buffer / 2 ^ (size - msb), buffer mod 2 ^ (size - msb), size - msb, None) else Err ValueError.
Proof. exact c35_buffer. Qed.
Print Assumptions C35_buffer.
Example C35_case : extract_all [8; 2; 8; 32; 2; 8; 2; 8; 2] 0 0 (Some t2_body) = Ok [5; 1; 0; 300; 2; 7; 0; 1; 0] /\
  extract_bits 3 45 6 None = Ok (5, 5, 3, None).
Proof. split; vm_compute; reflexivity. Qed.

(** C36.  [t2_bounded]: times below 2^53 units, all the values a 17-bit epoch can have plus 2^49 units. *)
Theorem C36 : forall file e timeorder basebits xs,
  1 <= timeorder <= 32 -> 0 <= basebits <= 32 -> 0 <= e < 2 ^ 32 -> t2_encodes file e timeorder basebits xs ->
  t2_bounded e xs ->
  exists T, (forall fuel, (length xs < fuel)%nat -> read_T2 fuel file false PS125 false = Ok (T, map e_base xs)) /\
    same_values (evalues T) (map inject_Z (t2_times e xs)).
Proof. exact c36. Qed.
Print Assumptions C36.
Example C36_case : t2_encodes t2_example (2 ^ 17 + 3) 8 2 t2_entries /\ t2_bounded (2 ^ 17 + 3) t2_entries /\
  read_T2 4 t2_example false PS125 false = Ok (EU64 [3 * 2 ^ 32 + 5; 3 * 2 ^ 32 + 305; 3 * 2 ^ 32 + 312], [1; 2; 0]).
Proof. split; [exact t2_example_ok|]. split; [exact t2_example_bounded|vm_compute; reflexivity]. Qed.

(** C37.  Full statement: [C37_statement].  It fails: files without a terminator are read for ever. *)
Theorem C37_refuted : ~ C37_statement.
Proof. exact c37_refuted. Qed.
Print Assumptions C37_refuted.
(** With a terminator among the entries the loops end, within 8 passes per byte ... *)
Theorem C37_T2_partial : forall tag e n timeorder basebits protocol body full r fr,
  1 <= timeorder <= 32 -> 0 <= basebits <= 32 -> bytes_ok body -> has_terminator body timeorder basebits ->
  exists res, res <> Err OutOfFuel /\ forall fuel, 8 * len body + 32 <= Z.of_nat fuel ->
    read_T2 fuel (t2_header tag e n timeorder basebits protocol ++ body) full r fr = res.
Proof. exact c37_T2_stops. Qed.
Print Assumptions C37_T2_partial.
Theorem C37_T4_partial : forall tag e n timeorder basebits body,
  1 <= timeorder <= 32 -> 0 <= basebits <= 32 -> bytes_ok body -> has_terminator body timeorder basebits ->
  exists res, res <> Err OutOfFuel /\ forall fuel, 8 * len body + 32 <= Z.of_nat fuel ->
    read_T4 fuel (t4_header tag e n timeorder basebits ++ body) = res.
Proof. exact c37_T4_stops. Qed.
Print Assumptions C37_T4_partial.
(** ... and without one they never do. *)
Theorem C37_T2_loops : forall tag e n timeorder basebits protocol body full r fr,
  1 <= timeorder <= 32 -> 0 <= basebits <= 32 -> bytes_ok body -> ~ has_terminator body timeorder basebits ->
  forall fuel, read_T2 fuel (t2_header tag e n timeorder basebits protocol ++ body) full r fr = Err OutOfFuel.
Proof. exact c37_T2_loops. Qed.
Print Assumptions C37_T2_loops.
Theorem C37_T4_loops : forall tag e n timeorder basebits body,
  1 <= timeorder <= 32 -> 0 <= basebits <= 32 -> bytes_ok body -> ~ has_terminator body timeorder basebits ->
  forall fuel, read_T4 fuel (t4_header tag e n timeorder basebits ++ body) = Err OutOfFuel.
Proof. exact c37_T4_loops. Qed.
Print Assumptions C37_T4_loops.
(** In particular files cut after their last entry have none. *)
Theorem C37_cut : forall body timeorder basebits xs, 1 <= timeorder <= 32 -> 0 <= basebits <= 32 ->
  Forall (entry_ok timeorder basebits) xs -> starts_with body (entries_bits timeorder basebits xs) ->
  (forall i, len (entries_bits timeorder basebits xs) <= i -> bit_at body i = false) ->
  ~ has_terminator body timeorder basebits.
Proof. exact zeros_no_terminator. Qed.
Print Assumptions C37_cut.
(** Headers that end the reading at once *)
Theorem C37_header : forall file full r fr fuel,
  (len file < 24 -> read_T2 fuel file full r fr = Err StructError) /\ (len file < 20 -> read_T4 fuel file = Err StructError).
Proof. intros. split; [exact (T2_short file full r fr fuel)|exact (T4_short file fuel)]. Qed.
Print Assumptions C37_header.
Theorem C37_wide : forall tag e n timeorder basebits protocol body full r fr k,
  33 <= timeorder < 2 ^ 31 -> 0 <= basebits < 2 ^ 31 ->
  read_T2 (S k) (t2_header tag e n timeorder basebits protocol ++ body) full r fr = Err ValueError /\
  read_T4 (S k) (t4_header tag e n timeorder basebits ++ body) = Err ValueError.
Proof.
  intros tag e n timeorder basebits protocol body full r fr k T B.
  split; [exact (T2_wide tag e n timeorder basebits protocol body full r fr k T B)|apply T4_wide; lia].
Qed.
Print Assumptions C37_wide.
Example C37_case : has_terminator t2_body 8 2 /\ ~ has_terminator [] 8 2 /\ (forall fuel, read_T4 fuel t4_empty = Err OutOfFuel).
Proof.
  split; [|split; [exact nil_no_terminator|exact t4_empty_loops]].
  exists t2_entries. split; [exact t2_entries_ok|]. apply starts_withb_ok. vm_compute. reflexivity.
Qed.

(** C38.  Full statement: [C38_statement].  It fails for integer results at PS4: TypeError. *)
Theorem C38_refuted : ~ C38_statement.
Proof. exact c38_refuted. Qed.
Print Assumptions C38_refuted.
Theorem C38_partial : forall file e timeorder basebits xs full r fr,
  1 <= timeorder <= 32 -> 0 <= basebits <= 32 -> 0 <= e < 2 ^ 32 -> t2_encodes file e timeorder basebits xs ->
  (full = true -> Forall (fun t => t < 2 ^ 64) (t2_full_times e xs)) -> t2_bounded e xs ->
  fr = true \/ r <> PS4 \/ xs = [] -> t2_result file e xs full r fr.
Proof. exact c38. Qed.
Print Assumptions C38_partial.
(** the remaining case *)
Theorem C38_PS4 : forall file e timeorder basebits xs full,
  1 <= timeorder <= 32 -> 0 <= basebits <= 32 -> 0 <= e < 2 ^ 32 -> t2_encodes file e timeorder basebits xs ->
  xs <> [] -> forall fuel, (length xs < fuel)%nat -> read_T2 fuel file full PS4 false = Err TypeError.
Proof. exact c38_ps4. Qed.
Print Assumptions C38_PS4.
Example C38_case : Forall (fun t => t < 2 ^ 64) (t2_full_times (2 ^ 17 + 3) t2_entries) /\
  read_T2 4 t2_example true NS1 false = Ok (EU64 [(2 ^ 17 + 3) * 2 ^ 29; (2 ^ 17 + 3) * 2 ^ 29 + 38; (2 ^ 17 + 3) * 2 ^ 29 + 39], [1; 2; 0]) /\
  read_T2 4 t2_example true PS4 false = Err TypeError.
Proof. split; [exact t2_example_full|]. split; vm_compute; reflexivity. Qed.

(** C39 *)
Theorem C39 : forall file timeorder basebits xs,
  1 <= timeorder <= 32 -> 0 <= basebits <= 32 -> t4_encodes file timeorder basebits xs ->
  forall fuel, (length xs < fuel)%nat ->
    read_T4 fuel file = Ok (sums 0 (map (fun x => e_diff x - 2) xs), map e_base xs).
Proof. exact c39. Qed.
Print Assumptions C39.
Example C39_case : t4_encodes t4_example 8 2 t2_entries /\ read_T4 4 t4_example = Ok ([3; 301; 306], [1; 2; 0]).
Proof. split; [exact t4_example_ok|vm_compute; reflexivity]. Qed.

(** C40 *)
Theorem C40 : forall tag e n b body, bytes_ok body -> len body mod 4 = 0 -> 0 <= n <= len body -> n < 2 ^ 32 ->
  exists s, read_T3 (t3_header tag e n b ++ body) = Ok (mkHead (s32 tag) (e mod 2 ^ 32) n (s32 b) 0 0, s) /\
    t3_report n body (t3_entries body n) s.
Proof. exact c40. Qed.
Print Assumptions C40.
(** all other files *)
Theorem C40_index : forall tag e n b body, bytes_ok body -> len body mod 4 = 0 -> len body < n < 2 ^ 32 ->
  read_T3 (t3_header tag e n b ++ body) = Err IndexError.
Proof. exact c40_index. Qed.
Print Assumptions C40_index.
Theorem C40_struct : forall tag e n b body, 0 <= n < 2 ^ 32 -> len body mod 4 <> 0 ->
  read_T3 (t3_header tag e n b ++ body) = Err StructError.
Proof. exact c40_struct. Qed.
Print Assumptions C40_struct.
Theorem C40_short : forall file, len file < 16 -> read_T3 file = Err StructError.
Proof. exact T3_short. Qed.
Print Assumptions C40_short.
(** the docstring's four entries 41, 25, 22, 14 and one more, 28; three bytes of padding *)
Example C40_case :
  t3_entries [20; 34; 37; 65; 0; 0; 0; 40] 5 = [65; 37; 34; 20; 40] /\
  match read_T3 (t3_header 259 7 5 8 ++ [20; 34; 37; 65; 0; 0; 0; 40]) with
  | Ok (_, s) => coinc s = [0; 0; 1; 0;  0; 1; 0; 1;  1; 0; 0; 0;  0; 0; 0; 0] /\ okcount s = 4 /\ garbageA s = 0 /\ garbageB s = 1 /\
                 size_warning s = false /\ Qred (qber s) = (1 # 4)%Q
  | _ => False
  end.
Proof. split; [vm_compute; reflexivity|]. vm_compute. repeat split. Qed.

(** C41 *)
Theorem C41 : forall v, 0 <= v -> epoch2int (int2epoch v) = Ok v.
Proof. exact c41_roundtrip. Qed.
Print Assumptions C41.
Theorem C41_injective : forall v w, 0 <= v -> 0 <= w -> int2epoch v = int2epoch w -> v = w.
Proof. exact c41_injective. Qed.
Print Assumptions C41_injective.
Theorem C41_write : forall e evs dir, Forall (t1_ok e) evs -> len evs < 2 ^ 32 ->
  let name := int2epoch (e mod 2 ^ 32) in
  exists contents, write_T1 e (WPy (map fst evs)) (DSeq (map snd evs)) = Ok (name, contents, None) /\
  exists h, read_T1_header (dir ++ [47] ++ name) contents = Ok (h, []) /\
            h_epoch h = e mod 2 ^ 32 /\ h_length h = len evs /\ h_tag h = 257.
Proof. exact c41_write. Qed.
Print Assumptions C41_write.
(** date2epoch's zero-padded names are those of int2epoch from 2^28 on only *)
Theorem C41_padding : forall v, 0 <= v < 2 ^ 32 -> fmt08x v = int2epoch v <-> 2 ^ 28 <= v.
Proof. exact fmt08x_int2epoch. Qed.
Print Assumptions C41_padding.
Example C41_case : int2epoch 3122607808 = str "ba1f36c0" /\ epoch2int (str "BA1f36c0") = Ok 3122607808 /\ int2epoch 0 = str "0" /\
  fmt08x 255 = str "000000ff".
Proof. repeat split; vm_compute; reflexivity. Qed.

(** C42.  Full statement: [C42_statement].  It fails at s = 2^20. *)
Theorem C42_refuted : ~ C42_statement.
Proof. exact c42_refuted. Qed.
Print Assumptions C42_refuted.
(** Right except for multiples of 2^20 seconds, 12 days, which may give the epoch before. *)
Theorem C42_partial : forall s, 0 <= s -> epoch_of_second s < 2 ^ 32 ->
  exists v, epoch2int (date2epoch s) = Ok v /\ length (date2epoch s) = 8%nat /\
    (v = epoch_of_second s \/ v = epoch_of_second s - 1 /\ s mod 2 ^ 20 = 0 /\ 0 < s).
Proof. exact c42. Qed.
Print Assumptions C42_partial.
Example C42_case : date2epoch 1700000000 = str "bcbce7f1" /\ epoch_of_second 1700000000 = 3166496753 /\
  epoch2int (date2epoch 1048576) = Ok 1953124 /\ epoch_of_second 1048576 = 1953125.
Proof. repeat split; vm_compute; reflexivity. Qed.

(** C43 *)
Theorem C43 : forall d1 d2 first f, epoch_names d1 -> epoch_names d2 ->
  match first with None => f = None | Some s => exists v, epoch2int s = Ok v /\ f = Some v end ->
  let common v := has_epoch d1 v /\ has_epoch d2 v /\ from_first f v in
  (get_first_overlapping_epoch d1 d2 first = Ok (None, 0) /\ forall v, ~ common v) \/
  (exists m n, get_first_overlapping_epoch d1 d2 first = Ok (Some (int2epoch m), n) /\
     common m /\ (forall v, common v -> m <= v) /\ 1 <= n /\ (forall i, 0 <= i < n -> common (m + i)) /\ ~ common (m + n)).
Proof. exact c43. Qed.
Print Assumptions C43.
Definition dir_of (l : list Z) : directory := map (fun v => (int2epoch v, [])) l.
Example C43_case : epoch_names (dir_of [9; 12; 10; 11; 20; 14]) /\ epoch_names (dir_of [11; 7; 14; 10; 12]) /\
  get_first_overlapping_epoch (dir_of [9; 12; 10; 11; 20; 14]) (dir_of [11; 7; 14; 10; 12]) None = Ok (Some (str "a"), 3) /\
  get_first_overlapping_epoch (dir_of [9; 12; 10; 11; 20; 14]) (dir_of [11; 7; 14; 10; 12]) (Some (str "0d")) = Ok (Some (str "e"), 1) /\
  get_first_overlapping_epoch (dir_of [9; 12]) (dir_of [11; 7]) None = Ok (None, 0).
Proof.
  assert (H : forall l, Forall (fun v => 0 <= v) l -> epoch_names (dir_of l)).
  { intros l F. unfold epoch_names, names, dir_of. rewrite map_map. apply Forall_map. eapply Forall_impl; [|exact F].
    intros v V. exists v. now apply c41_roundtrip. }
  split; [apply H; repeat (apply Forall_cons; [lia|]); apply Forall_nil|].
  split; [apply H; repeat (apply Forall_cons; [lia|]); apply Forall_nil|]. repeat split; vm_compute; reflexivity.
Qed.

(** C44.  Full statement: [C44_statement].  It fails: times restart every 2^17 epochs. *)
Theorem C44_refuted : ~ C44_statement.
Proof. exact c44_refuted. Qed.
Print Assumptions C44_refuted.
(** T1 directories: every event once, in order; times increase as long as the 17-bit epoch does not wrap. *)
Theorem C44_partial : forall fuel d first f0 skip f epochs, epoch2int first = Ok f0 -> f0 + skip = f -> ordered_dir d f epochs ->
  exists ts, get_timestamp fuel d true first skip (len epochs) = Ok ts /\
    same_values ts (map (in_units NS1) (run_times f epochs)) /\
    (f mod 2 ^ 17 + len epochs <= 2 ^ 17 -> sorted_times ts).
Proof. exact c44. Qed.
Print Assumptions C44_partial.
(** any directory, T1 or T2: the result is the concatenation of the files' times ... *)
Theorem C44_concat : forall fuel d t1 first f skip n ts, epoch2int first = Ok f -> 0 <= n ->
  get_timestamp fuel d t1 first skip n = Ok ts <->
  exists pieces, len pieces = n /\ ts = concat pieces /\
    forall i p, nth_error pieces i = Some p ->
      exists c, open_file d (int2epoch (f + skip + Z.of_nat i)) = Ok c /\ read_times fuel t1 c = Ok p.
Proof.
  intros fuel d t1 first f skip n ts E N. rewrite (get_timestamp_eq _ _ _ _ f) by assumption. split.
  - intros H. destruct (c44_inv _ _ _ _ _ _ H) as (ps & L & X). exists ps. split; [unfold len; lia|exact X].
  - intros (ps & L & -> & H). apply c44_concat; [unfold len in L; lia|exact H].
Qed.
Print Assumptions C44_concat.
(** ... and the first missing file stops it. *)
Theorem C44_missing : forall fuel d t1 first f skip n k, epoch2int first = Ok f -> (k < Z.to_nat n)%nat ->
  open_file d (int2epoch (f + skip + Z.of_nat k)) = Err FileNotFoundError ->
  (forall i, (i < k)%nat -> exists c p, open_file d (int2epoch (f + skip + Z.of_nat i)) = Ok c /\ read_times fuel t1 c = Ok p) ->
  get_timestamp fuel d t1 first skip n = Err FileNotFoundError.
Proof.
  intros fuel d t1 first f skip n k E K M H. rewrite (get_timestamp_eq _ _ _ _ f) by (assumption || lia).
  exact (c44_missing fuel d t1 _ _ k K M H).
Qed.
Print Assumptions C44_missing.
Example C44_case : ordered_dir wrap_dir (2 ^ 17 - 1) [one_event; one_event] /\
  match get_timestamp 0 wrap_dir true (str "1fff0") 15 2 with
  | Ok [a; b] => (a == (131071 * 2 ^ 37 + 5) # 256)%Q /\ (b == 5 # 256)%Q
  | _ => False
  end /\
  get_timestamp 0 wrap_dir true (str "1ffff") 0 3 = Err FileNotFoundError.
Proof. split; [exact wrap_dir_ok|]. split; [vm_compute; split; reflexivity|vm_compute; reflexivity]. Qed.

(** C67.  Full statement: [C67_statement].  It fails for uint64 arrays and for int64 arrays in epochs with bit 16 set. *)
Theorem C67_refuted : ~ C67_statement.
Proof. exact c67_refuted. Qed.
Print Assumptions C67_refuted.
Theorem C67_partial : forall e evs, Forall (t1_ok e) evs -> len evs < 2 ^ 32 ->
  write_T1 e (WPy (map fst evs)) (DSeq (map snd evs)) = Ok (int2epoch (e mod 2 ^ 32), t1_file e evs, None) /\
  (e mod 2 ^ 17 < 2 ^ 16 -> write_T1 e (WI64 (map fst evs)) (DSeq (map snd evs)) = Ok (int2epoch (e mod 2 ^ 32), t1_file e evs, None)) /\
  (2 ^ 16 <= e mod 2 ^ 17 -> evs <> [] -> write_T1 e (WI64 (map fst evs)) (DSeq (map snd evs)) =
     Ok (int2epoch (e mod 2 ^ 32), t1_header e (len evs), Some StructError)) /\
  (evs <> [] -> write_T1 e (WU64 (map fst evs)) (DSeq (map snd evs)) =
     Ok (int2epoch (e mod 2 ^ 32), t1_header e (len evs), Some TypeError)).
Proof. exact c67. Qed.
Print Assumptions C67_partial.
(** the header left behind by a failed write is not mistaken for an epoch *)
Theorem C67_left : forall e (evs : list event) full r fr, 0 < len evs < 2 ^ 32 -> read_T1 (t1_header e (len evs)) full r fr = Err ValueError.
Proof. exact c67_left. Qed.
Print Assumptions C67_left.
Example C67_case : Forall (t1_ok 65536) one_event /\
  write_T1 65536 (WI64 [5]) (DSeq [1]) = Ok (str "10000", t1_header 65536 1, Some StructError) /\
  write_T1 65535 (WI64 [5]) (DSeq [1]) = Ok (str "ffff", t1_file 65535 one_event, None).
Proof. split; [apply one_event_ok|]. split; vm_compute; reflexivity. Qed.

(** C68.  read_T1 ends on every file, with the events before the first zero word. *)
Theorem C68 : forall file full r fr,
  (len file < 20 -> read_T1 file full r fr = Err StructError) /\
  (20 <= len file ->
    exists h w n, read_T1_header [] file = Ok (h, w) /\
      (forall i, 0 <= i < n -> word_at (drop 20 file) i <> 0) /\ word_at (drop 20 file) n = 0 /\ 0 <= n /\
      let ws := map (fun i => word_at (drop 20 file) (Z.of_nat i)) (seq 0 (Z.to_nat n)) in
      read_T1 file full r fr =
        if negb (h_length h =? 0) && negb (n =? h_length h) then Err ValueError
        else Ok (t1_convert (h_epoch h) (map (fun v => v / 2 ^ 10) ws) full r fr, map (fun v => v mod 2 ^ 4) ws)).
Proof. exact c68. Qed.
Print Assumptions C68.
Example C68_case : read_T1 (t1_header 7 0 ++ [1; 0; 0; 0;  2; 4; 0]) false PS4 false = Ok (EU64 [2 ^ 22 + 1], [2]) /\
  read_T1 [1; 2; 3] false PS4 false = Err StructError.
Proof. split; vm_compute; reflexivity. Qed.
