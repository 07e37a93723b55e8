(** Searches that go on to the target resolution: C141, C142. *)
From Coq Require Import QArith Qabs String List.
From Verif Require Import Float Base FreqcdExamples TimestampsModel TimestampsSpec UtilsModel UtilsSpec FpfindModel FpfindSpec FpfindRefute MainModel MainSpec2 CdRunModel
  AccuracySpec PairSpec RoundedSpec WholeSpec SwapSpec ExistSpec ArgModel FpCliModel FpCliSpec SkipSpec GroundSpec GroundProofs2 GroundRun GroundCase SteadyCase SteadyProofs.
Import ListNotations.
Local Open Scope string_scope. Local Open Scope list_scope.
Local Open Scope Z_scope.

(** C141.  [steady] is a condition on the parameters and the clock relation alone. *)
Theorem C141_partial : forall e M p P A B res D F j0 j W T, rt M = fl p -> rs M = fl 53 -> accurate_to e (num_bins P) (len A) (len B) M -> (0 <= e)%Q -> 54 <= p -> good_xc M -> good_zs M -> 0 < num_bins P -> Z.odd (num_bins P) = false ->
  (0 < target_resolution P)%Q -> (0 < res)%Q -> (fl 53 res == res)%Q -> (0 < separation_duration P)%Q -> Forall (device_time 54) B ->
  ends_surely M P res -> recorded_well e M P A B res D F j0 j W T -> significant M P A B res -> steady P res D F j W ->
  exists n dt df ws, (forall m, (n <= m)%nat -> fpfind m M P A B res [0%Q] false = Ok (dt, df)) /\
    to_the_end P res ws /\ (Qabs (df - F) <= freq_off P F j W ws)%Q /\ (Qabs (dt - D) <= time_off P D F j W ws dt)%Q.
Proof. exact c141. Qed.
Print Assumptions C141_partial.
(** 19.9 us late and 2^-14 fast *)
Example C141_case : accurate_to 0 (num_bins P141) (len A141) (len B141) M139 /\ Forall (device_time 54) B141 /\ ends_surely M139 P141 1024 /\
  recorded_well 0 M139 P141 A141 B141 1024 19900 (1 # 16384) (1 # 256) (1 # 128) 524288 (2 ^ 26) /\ significant M139 P141 A141 B141 1024 /\ steady P141 1024 19900 (1 # 16384) (1 # 128) 524288 /\
  match fpfind 2 M139 P141 A141 B141 1024 [0%Q] false with Ok (dt, df) => (Qabs (dt - 19900) < 64 /\ Qabs (df - (1 # 16384)) < 1 # 500000)%Q | Err _ => False end /\
  fpfind 1 M139 P141 A141 B141 1024 [0%Q] false = Err OutOfFuel.
Proof.
  split; [apply accurate139|]. split; [exact device141|]. split; [exact surely141|]. split; [exact well141|]. split; [exact significant141|]. split; [exact steady141|].
  split; [vm_compute; split; reflexivity|vm_compute; reflexivity].
Qed.
(** Without [steady] the search can give up: an offset of 2^-17 is not found in the first iteration, and found to be spurious in the second. *)
Theorem C141_refuted : ~ (forall e M p P A B res D F j0 j W T, rt M = fl p -> rs M = fl 53 -> accurate_to e (num_bins P) (len A) (len B) M -> (0 <= e)%Q -> 54 <= p -> good_xc M -> good_zs M -> 0 < num_bins P -> Z.odd (num_bins P) = false ->
  (0 < target_resolution P)%Q -> (0 < res)%Q -> (fl 53 res == res)%Q -> (0 < separation_duration P)%Q -> Forall (device_time 54) B ->
  ends_surely M P res -> recorded_well e M P A B res D F j0 j W T -> significant M P A B res ->
  exists n dt df ws, (forall m, (n <= m)%nat -> fpfind m M P A B res [0%Q] false = Ok (dt, df)) /\
    to_the_end P res ws /\ (Qabs (df - F) <= freq_off P F j W ws)%Q /\ (Qabs (dt - D) <= time_off P D F j W ws dt)%Q).
Proof. exact c141_refuted. Qed.
Print Assumptions C141_refuted.

(** C142.  As C140, from the command line. *)
Theorem C142 : forall e fuel2 M p repr o lg evA evB skip k D F j0 j W T args ss fs dirs a b,
  writes args ss -> Forall good ss -> ~ In AHelp ss -> search_asked ss o -> last_of sendfiles_of ss = None \/ last_of t1files_of ss = None ->
  last_of reference_of ss = Some a -> last_of target_of ss = Some b -> decimal_or (last_of skip_of ss) 0 skip -> requested ALegacy ss lg ->
  fs a = Some (encode (A1 lg) (map word_of evA)) -> fs b = Some (encode (A1 lg) (map word_of evB)) ->
  computes e o evA evB M p -> (forall x, field_ok (repr x)) -> plain_search o -> 0 < buffer_order o ->
  recordings evA evB skip k -> let P := told_search o in let res := inject_Z (initial_res o) in let S := common_start evA evB + k in let A := since S evA in let B := since S evB in
  ends_surely M P res -> recorded_well e M P A B res D F j0 j W T -> significant M P A B res -> steady P res D F j W ->
  exists n line ws dt df, (forall m, (n <= m)%nat -> run m fuel2 M p repr args fs dirs = Exit 0 (line ++ [10])) /\ shows_offsets repr (MainModel.flag o) dt df line /\
    to_the_end P res ws /\ (Qabs (df - F) <= freq_off P F j W ws)%Q /\ (Qabs (dt - D) <= time_off P D F j W ws dt)%Q.
Proof. exact c142. Qed.
Print Assumptions C142.
(** fpfind -V7 -q9 -R 1024 -r 64 --sep 80 -S 3 -t a --targ b *)
Example C142_case : writes args142 ss142 /\ Forall good ss142 /\ search_asked ss142 o141 /\ disk142 (str "a") = Some (encode (A1 false) (map word_of evA141)) /\ disk142 (str "b") = Some (encode (A1 false) (map word_of evB141)) /\
  computes 0 o141 evA141 evB141 M139 64 /\ plain_search o141 /\ recordings evA141 evB141 0 0 /\ ends_surely M139 (told_search o141) (inject_Z (initial_res o141)) /\
  recorded_well 0 M139 (told_search o141) (since (common_start evA141 evB141 + 0) evA141) (since (common_start evA141 evB141 + 0) evB141) (inject_Z (initial_res o141)) 19900 (1 # 16384) (1 # 256) (1 # 128) 524288 (2 ^ 26) /\
  significant M139 (told_search o141) (since (common_start evA141 evB141 + 0) evA141) (since (common_start evA141 evB141 + 0) evB141) (inject_Z (initial_res o141)) /\
  steady (told_search o141) (inject_Z (initial_res o141)) 19900 (1 # 16384) (1 # 128) 524288 /\
  run 2 0 M139 64 (fun _ => []) args142 disk142 (fun _ => []) = Exit 0 (str "-1048497" ++ [10]).
Proof.
  split; [exact writes142|]. split; [exact good142|]. split; [exact asked142|]. split; [reflexivity|]. split; [reflexivity|]. split; [exact computes141|]. split; [exact plain141|]. split; [exact recordings141|].
  split; [exact surely141|]. split; [exact well141|]. split; [exact significant141|]. split; [exact steady141|]. vm_compute. reflexivity.
Qed.
