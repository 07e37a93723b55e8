(** The search finds something when coincidences stand out, are significant and within reach: C111, C112. *)
From Coq Require Import QArith Qabs String List.
From Verif Require Import Float Base FreqcdExamples TimestampsModel TimestampsSpec UtilsModel UtilsSpec FpfindModel FpfindSpec FpfindProofs3 FpfindProofs4 FpfindRefute FpfindPipe MainModel MainSpec2
  AccuracySpec PairSpec PairProofs SignalSpec RoundedSpec WholeSpec SwapSpec ExistSpec ExistProofs ExistCase.
Import ListNotations.
Local Open Scope string_scope. Local Open Scope list_scope.
Local Open Scope Z_scope.

(** C111 *)
Theorem C111 : forall e M p P A B res D F j W, rt M = fl p -> rs M = fl 53 -> accurate_to e (num_bins P) (len A) (len B) M -> (0 <= e)%Q -> 54 <= p -> good_xc M -> good_zs M -> 0 < num_bins P -> Z.odd (num_bins P) = false ->
  (0 < target_resolution P)%Q -> (0 < res)%Q -> (fl 53 res == res)%Q -> (0 < separation_duration P)%Q -> (0 <= W)%Q -> (0 <= j)%Q -> Forall (device_time 54) B ->
  ends_surely M P res -> stand_out_singly e M P A B res D F j W -> within_reach M P A B res D F j W -> significant M P A B res ->
  exists n dt df ws, (forall m, (n <= m)%nat -> fpfind m M P A B res [0%Q] false = Ok (dt, df)) /\
    cells_of M P A B res ws /\ (Qabs (df - F) <= freq_off P F j W ws)%Q /\ (Qabs (dt - D) <= time_off P D F j W ws dt)%Q.
Proof. exact c111. Qed.
Print Assumptions C111.
(** Three iterations. *)
Example C111_case : accurate_to 0 (num_bins P112) (len A112) (len B112) MF /\ good_xc MF /\ good_zs MF /\ Forall (device_time 54) B112 /\ ends_surely MF P112 65536 /\ stand_out_singly 0 MF P112 A112 B112 65536 (inject_Z D112) (1 # 16384) 1 8519680 /\
  within_reach MF P112 A112 B112 65536 (inject_Z D112) (1 # 16384) 1 8519680 /\ significant MF P112 A112 B112 65536 /\
  fpfind 2 MF P112 A112 B112 65536 [0%Q] false = Err OutOfFuel /\ fpfind 3 MF P112 A112 B112 65536 [0%Q] false = Ok (34359721983 # 16384, 1 # 16384)%Q.
Proof.
  split; [now apply exact_accurate|]. split; [apply exact_good|]. split; [apply exact_good_zs|]. split; [exact device112|]. split; [exact surely112|]. split; [exact (singly_out _ _ _ _ _ _ _ _ _ _ stand112)|]. split; [exact reach112|].
  split; [exact significant112|]. split; vm_compute; reflexivity.
Qed.

(** C112 *)
Theorem C112 : forall e M p repr o lg evA evB D F j W, rt M = fl p -> rs M = fl 53 -> accurate_to e (2 ^ buffer_order o) (len evA) (len evB) M -> (0 <= e)%Q -> 54 <= p -> good_xc M -> good_zs M -> (forall x, field_ok (repr x)) -> plain_search o -> 0 < buffer_order o ->
  (0 <= W)%Q -> (0 <= j)%Q -> common_events e M o evA evB D F j W -> let A := since (common_start evA evB) evA in let B := since (common_start evA evB) evB in
  ends_surely M (told_search o) (inject_Z (initial_res o)) -> within_reach M (told_search o) A B (inject_Z (initial_res o)) D F j W -> significant M (told_search o) A B (inject_Z (initial_res o)) ->
  exists n line ws dt df, (forall m, (n <= m)%nat -> main_files m M p repr o (encode (A1 lg) (map word_of evA)) (encode (A1 lg) (map word_of evB)) lg 0 = Ok line) /\
    widths_of M o evA evB ws /\ shows_offsets repr (MainModel.flag o) dt df line /\
    (Qabs (df - F) <= search_freq_error o F j W ws + (1 # 2 ^ 50) * (1 + Qabs F + search_freq_error o F j W ws))%Q /\
    (Qabs (dt - D) <= search_time_error o D F j W ws + (1 # 2 ^ 50) * (Qabs dt + 100000000))%Q.
Proof. exact c112. Qed.
Print Assumptions C112.
(** The frequency printed is that of 1 / (1 + 2^-14) - 1 in units of 2^-34. *)
Example C112_case : plain_search o112 /\ common_events 0 MF o112 evA112 evB112 (inject_Z D112) (1 # 16384) 1 8519680 /\
  ends_surely MF (told_search o112) (inject_Z (initial_res o112)) /\ within_reach MF (told_search o112) A112 B112 (inject_Z (initial_res o112)) (inject_Z D112) (1 # 16384) 1 8519680 /\
  significant MF (told_search o112) A112 B112 (inject_Z (initial_res o112)) /\
  main_files 3 MF 64 (fun _ => []) o112 (encode (A1 false) (map word_of evA112)) (encode (A1 false) (map word_of evB112)) false 0 = Ok (str "-1048512").
Proof. split; [exact plain112|]. split; [exact common112|]. split; [exact surely112|]. split; [exact reach112|]. split; [exact significant112|]. vm_compute. reflexivity. Qed.
