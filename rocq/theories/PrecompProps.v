(** fpfind with precompensation on files whose coincidences stand out: C107. *)
From Coq Require Import QArith Qabs String List.
From Verif Require Import Float Base FreqcdModel FreqcdSpec FreqcdCliSpec FreqcdExamples FreqcdRefute TimestampsModel TimestampsSpec UtilsModel FpfindModel FpfindSpec FpfindRefute MainModel MainSpec2
  AccuracySpec PairSpec PairProofs SignalSpec RoundedSpec CdRunModel CdRunSpec WholeSpec WholeCase PrecompSpec PrecompProofs PrecompCase.
Import ListNotations.
Local Open Scope string_scope. Local Open Scope list_scope.
Local Open Scope Z_scope.

(** C107 *)
Theorem C107 : forall e fuel M p repr o lg evA evB line, rt M = fl p -> rs M = fl 53 -> accurate_to e (2 ^ buffer_order o) (len evA) (len evB) M -> (0 <= e)%Q -> 54 <= p -> (forall x, field_ok (repr x)) -> any_search o -> moderate (tried (fl 53) o) ->
  overlapping evA evB ->
  main_files fuel M p repr o (encode (A1 lg) (map word_of evA)) (encode (A1 lg) (map word_of evB)) lg 0 = Ok line ->
  exists df0 dt df, In df0 (tried (fl 53) o) /\ shows_offsets repr (MainModel.flag o) dt df line /\
  forall D F j W, (0 <= W)%Q -> (0 <= j)%Q -> common_after e M p o evA evB df0 D F j W ->
  exists ws, widths_after M p o evA evB df0 ws /\
    let E := search_freq_error o (F_left df0 F) j W ws in
    (Qabs (df - F) <= clock df0 * E + (1 # 2 ^ 49) * (1 + Qabs (F_left df0 F) + E))%Q /\
    (Qabs (dt - D) <= clock df0 * search_time_error o (D_left df0 D) (F_left df0 F) j W ws + (1 # 2 ^ 49) * (Qabs dt + 100000000))%Q.
Proof. exact c107. Qed.
Print Assumptions C107.
(** the stream corrected by freqcd *)
Theorem C107_freqcd : forall e fuel M p repr o lg evA evB line, rt M = fl p -> rs M = fl 53 -> accurate_to e (2 ^ buffer_order o) (len evA) (len evB) M -> (0 <= e)%Q -> 54 <= p -> (forall x, field_ok (repr x)) -> any_search o -> moderate (tried (fl 53) o) ->
  overlapping evA evB -> MainModel.flag o = 7 -> nondecr (map fst evB) ->
  main_files fuel M p repr o (encode (A1 lg) (map word_of evA)) (encode (A1 lg) (map word_of evB)) lg 0 = Ok line ->
  exists df0, In df0 (tried (fl 53) o) /\ forall D F j W, (0 <= W)%Q -> (0 <= j)%Q -> common_after e M p o evA evB df0 D F j W ->
  exists ws, widths_after M p o evA evB df0 ws /\ let L := search_freq_error o (F_left df0 F) j W ws in let E := (clock df0 * L + (1 # 2 ^ 49) * (1 + Qabs (F_left df0 F) + L))%Q in
  ((Qabs F + E <= (1 # 2 ^ 13) - (1 # 2 ^ 25))%Q ->
   forall junk ib ob fb prog args ss fs stdin, alloc_ok ib ob fb -> corrects_with args ss line -> legacy_of ss = lg ->
     input_of fs stdin ss = Some (encode (A1 lg) (map word_of evB)) ->
     exists en times, freqcd_main true junk ib ob fb (prog :: args) fs stdin = Some (Ok en) /\ code en = 0 /\
       retimed_file fs (files en) (stdout en) ss (encode (A1 lg) (map word_of evB)) times /\
       forall i k ev0 evi evk t' u' d a b, nth_error evB 0 = Some ev0 -> nth_error evB i = Some evi -> nth_error evB k = Some evk -> nth_error times i = Some t' -> nth_error times k = Some u' ->
         (Qabs (inject_Z (fst evi) - (d + (1 + F) * a)) <= 256 * j)%Q -> (Qabs (inject_Z (fst evk) - (d + (1 + F) * b)) <= 256 * j)%Q ->
         as_apart ((5 # 4) * E + (1 # 2 ^ 35) + (1 # 2 ^ 50)) (256 * j) (fst ev0) (Z.of_nat i / 1024 + 1) (Z.of_nat k / 1024 + 1) (fst evi) (fst evk) t' u' a b).
Proof. exact c107_freqcd. Qed.
Print Assumptions C107_freqcd.
(** Frequencies 65 / 2^16, with which nothing is found, and 1 / 2^16. *)
Example C107_case : accurate_to 0 (2 ^ buffer_order o107) (len evA105) (len evB105) MF /\ any_search o107 /\ tried (fl 53) o107 = [65 # 65536; 1 # 65536]%Q /\ moderate (tried (fl 53) o107) /\ overlapping evA105 evB105 /\
  left107 2 (65 # 65536) = Err ValueError /\ left107 2 (1 # 65536) = Ok (12288, 0)%Q /\
  main_files 2 MF 64 (fun _ => []) o107 (file105 evA105) (file105 evB105) false 0 = Ok (str "-262140") /\
  common_after 0 MF 64 o107 evA105 evB105 (1 # 65536) 12288 (1 # 65536) 1 65536 /\
  (clock (1 # 65536) * search_freq_error o107 (F_left (1 # 65536) (1 # 65536)) 1 65536 [4096; 8192] < 1 # 60000)%Q.
Proof.
  split; [now apply exact_accurate|]. split; [exact any107|]. split; [exact tried107|]. split; [exact moderate107|]. split; [exact overlapping105|]. split; [vm_compute; reflexivity|].
  split; [vm_compute; reflexivity|]. split; [vm_compute; reflexivity|]. split; [exact common107|]. vm_compute. reflexivity.
Qed.
