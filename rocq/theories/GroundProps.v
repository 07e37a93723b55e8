(** Recordings in which the common events outnumber the accidental coincidences: C139, C140. *)
From Coq Require Import QArith Qabs String List.
From Verif Require Import Float Base FreqcdExamples TimestampsModel TimestampsSpec UtilsModel UtilsSpec FpfindModel FpfindSpec FpfindRefute MainModel MainSpec2 CdRunModel
  AccuracySpec PairSpec RoundedSpec WholeSpec SwapSpec ExistSpec ArgModel FpCliModel FpCliSpec SkipSpec GroundSpec GroundProofs2 GroundRun GroundCase.
Import ListNotations.
Local Open Scope string_scope. Local Open Scope list_scope.
Local Open Scope Z_scope.

(** C139.  All conditions on the recordings are on the times [A] and [B], the parameters and the clock relation, none on what the search goes through. *)
Theorem C139 : forall e M p P A B res D F j0 j W T, rt M = fl p -> rs M = fl 53 -> accurate_to e (num_bins P) (len A) (len B) M -> (0 <= e)%Q -> 54 <= p -> good_xc M -> good_zs M -> 0 < num_bins P -> Z.odd (num_bins P) = false ->
  (0 < target_resolution P)%Q -> (0 < res)%Q -> (fl 53 res == res)%Q -> (0 < separation_duration P)%Q -> Forall (device_time 54) B ->
  ends_surely M P res -> recorded_well e M P A B res D F j0 j W T -> significant M P A B res ->
  exists n dt df ws, (forall m, (n <= m)%nat -> fpfind m M P A B res [0%Q] false = Ok (dt, df)) /\
    reached P res ws /\ (Qabs (df - F) <= freq_off P F j W ws)%Q /\ (Qabs (dt - D) <= time_off P D F j W ws dt)%Q.
Proof. exact c139. Qed.
Print Assumptions C139.
(** 19.9 us late and 2^-16 fast; two iterations find 19903.99 ns and 0.9999 * 2^-16. *)
Example C139_case : accurate_to 0 (num_bins P139) (len A139) (len B139) M139 /\ good_xc M139 /\ good_zs M139 /\ Forall (device_time 54) B139 /\ ends_surely M139 P139 1024 /\
  recorded_well 0 M139 P139 A139 B139 1024 19900 (1 # 65536) (1 # 256) (1 # 128) 524288 (2 ^ 25) /\ significant M139 P139 A139 B139 1024 /\
  match fpfind 2 M139 P139 A139 B139 1024 [0%Q] false with Ok (dt, df) => (Qabs (dt - 19900) < 5 /\ Qabs (df - (1 # 65536)) < 1 # 500000000)%Q | Err _ => False end /\
  fpfind 1 M139 P139 A139 B139 1024 [0%Q] false = Err OutOfFuel.
Proof.
  split; [apply accurate139|]. split; [exact good_xc139|]. split; [exact good_zs139|]. split; [exact device139|]. split; [exact surely139|]. split; [exact well139|]. split; [exact significant139|].
  split; [vm_compute; split; reflexivity|vm_compute; reflexivity].
Qed.

(** C140.  [S] is the later of the first events plus the time skipped. *)
Theorem C140 : forall e fuel2 M p repr o lg evA evB skip k D F j0 j W T args ss fs dirs a b,
  writes args ss -> Forall good ss -> ~ In AHelp ss -> search_asked ss o -> last_of sendfiles_of ss = None \/ last_of t1files_of ss = None ->
  last_of reference_of ss = Some a -> last_of target_of ss = Some b -> decimal_or (last_of skip_of ss) 0 skip -> requested ALegacy ss lg ->
  fs a = Some (encode (A1 lg) (map word_of evA)) -> fs b = Some (encode (A1 lg) (map word_of evB)) ->
  computes e o evA evB M p -> (forall x, field_ok (repr x)) -> plain_search o -> 0 < buffer_order o ->
  recordings evA evB skip k -> let P := told_search o in let res := inject_Z (initial_res o) in let S := common_start evA evB + k in let A := since S evA in let B := since S evB in
  ends_surely M P res -> recorded_well e M P A B res D F j0 j W T -> significant M P A B res ->
  exists n line ws dt df, (forall m, (n <= m)%nat -> run m fuel2 M p repr args fs dirs = Exit 0 (line ++ [10])) /\ shows_offsets repr (MainModel.flag o) dt df line /\
    reached P res ws /\ (Qabs (df - F) <= freq_off P F j W ws)%Q /\ (Qabs (dt - D) <= time_off P D F j W ws dt)%Q.
Proof. exact c140. Qed.
Print Assumptions C140.
(** fpfind -V7 -q9 -R 1024 -r 64 --sep 40 -t a --targ b; -262112 is about -2^-16 in units of 2^-34 *)
Example C140_case : writes args140 ss140 /\ Forall good ss140 /\ search_asked ss140 o139 /\ disk140 (str "a") = Some (encode (A1 false) (map word_of evA139)) /\ disk140 (str "b") = Some (encode (A1 false) (map word_of evB139)) /\
  computes 0 o139 evA139 evB139 M139 64 /\ plain_search o139 /\ recordings evA139 evB139 0 0 /\ ends_surely M139 (told_search o139) (inject_Z (initial_res o139)) /\
  recorded_well 0 M139 (told_search o139) (since (common_start evA139 evB139 + 0) evA139) (since (common_start evA139 evB139 + 0) evB139) (inject_Z (initial_res o139)) 19900 (1 # 65536) (1 # 256) (1 # 128) 524288 (2 ^ 25) /\
  significant M139 (told_search o139) (since (common_start evA139 evB139 + 0) evA139) (since (common_start evA139 evB139 + 0) evB139) (inject_Z (initial_res o139)) /\
  run 2 0 M139 64 (fun _ => []) args140 disk140 (fun _ => []) = Exit 0 (str "-262112" ++ [10]).
Proof.
  split; [exact writes140|]. split; [exact good140|]. split; [exact asked140|]. split; [reflexivity|]. split; [reflexivity|]. split; [exact computes139|]. split; [exact plain139|]. split; [exact recordings139|].
  split; [exact surely139|]. split; [exact well139|]. split; [exact significant139|]. vm_compute. reflexivity.
Qed.
