(** Whole runs of fpfind and freqcd on files whose coincidences stand out: C105, C106. *)
From Coq Require Import QArith Qabs String List.
From Verif Require Import Float Base FreqcdModel FreqcdSpec FreqcdCliSpec FreqcdExamples FreqcdRefute TimestampsModel TimestampsSpec UtilsModel FpfindModel FpfindSpec FpfindProofs3 FpfindProofs4 FpfindRefute FpfindPipe MainModel MainSpec2
  AccuracySpec PairSpec PairProofs SignalSpec RoundedSpec CdRunModel CdRunSpec CdRunRefute FreqcdCliRefute WholeSpec WholeProofs WholeProofs2 WholeCase.
Import ListNotations.
Local Open Scope string_scope. Local Open Scope list_scope.
Local Open Scope Z_scope.

(** C105 *)
Theorem C105 : forall e fuel M p repr o lg evA evB D F j W line, rt M = fl p -> rs M = fl 53 -> accurate_to e (2 ^ buffer_order o) (len evA) (len evB) M -> (0 <= e)%Q -> 54 <= p -> (forall x, field_ok (repr x)) -> plain_search o ->
  (0 <= W)%Q -> (0 <= j)%Q -> common_events e M o evA evB D F j W ->
  main_files fuel M p repr o (encode (A1 lg) (map word_of evA)) (encode (A1 lg) (map word_of evB)) lg 0 = Ok line ->
  exists ws dt df, widths_of M o evA evB ws /\ shows_offsets repr (MainModel.flag o) dt df line /\
    (Qabs (df - F) <= search_freq_error o F j W ws + (1 # 2 ^ 50) * (1 + Qabs F + search_freq_error o F j W ws))%Q /\
    (Qabs (dt - D) <= search_time_error o D F j W ws + (1 # 2 ^ 50) * (Qabs dt + 100000000))%Q.
Proof. exact c105. Qed.
Print Assumptions C105.
(** Two iterations; the frequency printed is that of 1 / (1 + 2^-16) - 1 in units of 2^-34. *)
Example C105_case : accurate_to 0 (2 ^ buffer_order o105) (len evA105) (len evB105) MF /\ plain_search o105 /\ common_events 0 MF o105 evA105 evB105 12288 (1 # 65536) 1 65536 /\
  main_files 2 MF 64 (fun _ => []) o105 (file105 evA105) (file105 evB105) false 0 = Ok (str "-262140") /\
  (search_freq_error o105 (1 # 65536) 1 65536 [4096; 8192] < 1 # 60000)%Q /\ (search_time_error o105 12288 (1 # 65536) 1 65536 [4096; 8192] < 4102)%Q.
Proof. split; [now apply exact_accurate|]. split; [exact plain105|]. split; [exact common105|]. split; [vm_compute; reflexivity|]. split; vm_compute; reflexivity. Qed.

(** C106 *)
Theorem C106 : forall e fuel M p repr o lg evA evB D F j W line, rt M = fl p -> rs M = fl 53 -> accurate_to e (2 ^ buffer_order o) (len evA) (len evB) M -> (0 <= e)%Q -> 54 <= p -> (forall x, field_ok (repr x)) -> plain_search o ->
  (0 <= W)%Q -> (0 <= j)%Q -> common_events e M o evA evB D F j W -> MainModel.flag o = 7 -> nondecr (map fst evB) ->
  main_files fuel M p repr o (encode (A1 lg) (map word_of evA)) (encode (A1 lg) (map word_of evB)) lg 0 = Ok line ->
  exists ws, widths_of M o evA evB ws /\ let E := search_freq_error o F j W ws in
  ((Qabs F + E <= (1 # 2 ^ 13) - (1 # 2 ^ 24))%Q ->
   forall junk ib ob fb prog args ss fs stdin, alloc_ok ib ob fb -> corrects_with args ss line -> legacy_of ss = lg ->
     input_of fs stdin ss = Some (encode (A1 lg) (map word_of evB)) ->
     exists en times, freqcd_main true junk ib ob fb (prog :: args) fs stdin = Some (Ok en) /\ code en = 0 /\
       retimed_file fs (files en) (stdout en) ss (encode (A1 lg) (map word_of evB)) times /\
       forall i k ev0 evi evk t' u' d a b, nth_error evB 0 = Some ev0 -> nth_error evB i = Some evi -> nth_error evB k = Some evk -> nth_error times i = Some t' -> nth_error times k = Some u' ->
         (Qabs (inject_Z (fst evi) - (d + (1 + F) * a)) <= 256 * j)%Q -> (Qabs (inject_Z (fst evk) - (d + (1 + F) * b)) <= 256 * j)%Q ->
         as_apart ((5 # 4) * E + (1 # 2 ^ 34)) (256 * j) (fst ev0) (Z.of_nat i / 1024 + 1) (Z.of_nat k / 1024 + 1) (fst evi) (fst evk) t' u' a b).
Proof. exact c106. Qed.
Print Assumptions C106.
(** -f -262140 -ia -ob *)
Definition ss106 : list setting := [Corr (str "-262140"); InName (str "a"); OutName (str "b")].
Definition args106 : list (list Z) := [str "-f"; str "-262140"; str "-ia"; str "-ob"].
Definition disk106 : filesys := fun m => if same_name m (str "a") then Some (file105 evB105) else None.
(** The events recorded 2^29 ns apart by the reference are so again, up to 1 ns. *)
Example C106_case : corrects_with args106 ss106 (str "-262140") /\ input_of disk106 [] ss106 = Some (file105 evB105) /\ nondecr (map fst evB105) /\
  (Qabs (1 # 65536) + search_freq_error o105 (1 # 65536) 1 65536 [4096; 8192] <= (1 # 2 ^ 13) - (1 # 2 ^ 24))%Q /\
  leaves (seen_run (freqcd_main true None IB IB FB (str "freqcd" :: args106) disk106 []) (str "b")) (fun Y => map (fun t => t / 256) (map (ev_time false) (FreqcdSpec.groups Y)) =
    [0; 14335; 14335; 14335; 30719; 30719; 536885247; 536885247; 536885247; 536901631; 536901631; 4095937500953]).
Proof.
  split; [|split; [reflexivity|]; split; [vm_compute; repeat split; discriminate|]; split; [vm_compute; discriminate|vm_compute; reflexivity]].
  split; [|split; [|split; [|split; [reflexivity|split; [reflexivity|split; [reflexivity|right; discriminate]]]]]].
  - apply (W_detached [] (Corr (str "-262140")) (str "-262140") (skipn 2 args106) (skipn 1 ss106)); [constructor|reflexivity|].
    apply (W_attached [] (InName (str "a")) (str "a") (skipn 3 args106) (skipn 2 ss106)); [constructor|reflexivity|discriminate|].
    apply (W_attached [] (OutName (str "b")) (str "b") [] []); [constructor|reflexivity|discriminate|]. constructor. exact I.
  - constructor; [|exact (Forall_cons (InName _) good_a (Forall_cons (OutName _) good_b (Forall_nil _)))].
    exists (-262140). split; [change (str "-262140") with (dec (-262140)); apply decimal_denotes, dec_spec|lia].
  - intros [H|[H|[H|[]]]]; discriminate H.
Qed.
