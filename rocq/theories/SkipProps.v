(** fpfind from the command line with -Z and on epoch directories, and fpplot with its result: C123 - C125. *)
From Coq Require Import QArith Qabs String List Lia.
From Verif Require Import Float Base FreqcdExamples TimestampsModel TimestampsSpec EpochsModel EpochsSpec EpochRunSpec UtilsModel UtilsSpec FpfindModel FpfindSpec FpfindRefute
  MainModel MainSpec2 CdRunModel AccuracySpec PairSpec SignalSpec RoundedSpec WholeSpec SwapSpec ExistSpec ExistCase PlotModel PlotSpec ArgModel FpCliModel FpCliSpec FpCliCase SkipSpec SkipProofs SkipCase.
Import ListNotations.
Local Open Scope string_scope. Local Open Scope list_scope.
Local Open Scope Z_scope.

(** C123.  [S] is the later of the first events plus the time skipped. *)
Theorem C123 : forall e fuel2 M p repr o lg evA evB skip k D F j W args ss fs dirs a b,
  writes args ss -> Forall good ss -> ~ In AHelp ss -> search_asked ss o -> last_of sendfiles_of ss = None \/ last_of t1files_of ss = None ->
  last_of reference_of ss = Some a -> last_of target_of ss = Some b -> decimal_or (last_of skip_of ss) 0 skip -> requested ALegacy ss lg ->
  fs a = Some (encode (A1 lg) (map word_of evA)) -> fs b = Some (encode (A1 lg) (map word_of evB)) ->
  computes e o evA evB M p -> (forall x, field_ok (repr x)) -> plain_search o -> 0 < buffer_order o -> (0 <= W)%Q -> (0 <= j)%Q ->
  recordings evA evB skip k -> let S := common_start evA evB + k in must_find e M o (since S evA) (since S evB) D F j W ->
  exists n line ws dt df, (forall m, (n <= m)%nat -> run m fuel2 M p repr args fs dirs = Exit 0 (line ++ [10])) /\
    shows_offsets repr (MainModel.flag o) dt df line /\ finds_relation M o (since S evA) (since S evB) D F j W ws dt df.
Proof. exact c123. Qed.
Print Assumptions C123.
(** fpfind -Z 1 ...; the first second has events which are not common *)
Example C123_case : writes args123 ss123 /\ Forall good ss123 /\ search_asked ss123 o112 /\ decimal_or (last_of skip_of ss123) 0 1 /\ computes 0 o112 evA123 evB123 MF 64 /\ recordings evA123 evB123 1 256000000000 /\
  must_find 0 MF o112 (since (common_start evA123 evB123 + 256000000000) evA123) (since (common_start evA123 evB123 + 256000000000) evB123) (inject_Z D112) (1 # 16384) 1 8519680 /\
  run 3 0 MF 64 (fun _ => []) args123 disk125 (fun _ => []) = Exit 0 (str "-1048512" ++ [10]).
Proof.
  split; [exact writes123|]. split; [exact good123|]. split; [exact asked123|]. split; [exact decimal1|]. split; [apply computes_exact|]. split; [exact recordings123|].
  split; [rewrite sinceA123, sinceB123; exact must123|]. vm_compute. reflexivity.
Qed.

(** C124.  [m + skip] is the first epoch read. *)
Theorem C124 : forall e fuel2 M p repr o n0 m skip xsA evsB D F j W args ss fs dirs d1 d2,
  writes args ss -> Forall good ss -> ~ In AHelp ss -> search_asked ss o -> last_of sendfiles_of ss = Some d1 -> last_of t1files_of ss = Some d2 -> whole_or (last_of skip_epochs_of ss) 0 skip ->
  computes e o (t2_events (m + skip) xsA) (t1_events (m + skip) evsB) M p -> (forall x, field_ok (repr x)) -> plain_search o -> 0 < buffer_order o -> (0 <= W)%Q -> (0 <= j)%Q ->
  epoch_names (dirs d1) -> epoch_names (dirs d2) -> first_common (dirs d1) (dirs d2) (last_of first_of ss) m -> 0 <= m -> 0 <= m + skip ->
  bins o = Ok n0 -> epochs_needed (fl 53) o n0 = Ok (len xsA) -> len evsB = len xsA ->
  t2_dir (dirs d1) (m + skip) xsA -> t1_dir (dirs d2) (m + skip) evsB -> Forall (fun xs => (length xs < fuel2)%nat) xsA ->
  let evA := t2_events (m + skip) xsA in let evB := t1_events (m + skip) evsB in
  recordings evA evB 0 0 -> let S := common_start evA evB in must_find e M o (since S evA) (since S evB) D F j W ->
  exists n line ws dt df, (forall k, (n <= k)%nat -> run k fuel2 M p repr args fs dirs = Exit 0 (line ++ [10])) /\
    shows_offsets repr (MainModel.flag o) dt df line /\ finds_relation M o (since S evA) (since S evB) D F j W ws dt df.
Proof. exact c124. Qed.
Print Assumptions C124.
(** fpfind -V7 -q 7 -R8192 --sep 512 -S 1 -z 1 -d s -D t *)
Example C124_case : writes args124 ss124 /\ Forall good ss124 /\ search_asked ss124 o124 /\ plain_search o124 /\ epoch_names send124 /\ epoch_names t1s124 /\ first_common send124 t1s124 None 131071 /\
  bins o124 = Ok 128 /\ epochs_needed (fl 53) o124 128 = Ok 3 /\ len entries124 = 3 /\ len events124 = 3 /\ t2_dir send124 (131071 + 1) entries124 /\ t1_dir t1s124 (131071 + 1) events124 /\
  Forall (fun xs => (length xs < 6)%nat) entries124 /\ recordings (t2_events (131071 + 1) entries124) (t1_events (131071 + 1) events124) 0 0 /\
  must_find 0 MF o124 A124 B124 (inject_Z (2 ^ 18)) (1 # 16384) (1 # 256) 1064960 /\ t2_events (131071 + 1) entries124 = evA124 /\ t1_events (131071 + 1) events124 = evB124 /\
  run 3 6 MF 64 (fun _ => []) args124 (fun _ => None) dirs124 = Exit 0 (str "-1048512" ++ [10]).
Proof.
  split; [exact writes124|]. split; [exact good124|]. split; [exact asked124|]. split; [exact plain124|]. split; [exact (proj1 names124)|]. split; [exact (proj2 names124)|]. split; [exact first124|].
  split; [reflexivity|]. split; [vm_compute; reflexivity|]. split; [reflexivity|]. split; [reflexivity|]. split; [exact dir124A|]. split; [exact dir124B|]. split; [repeat constructor|].
  split; [rewrite eventsA124, eventsB124; exact recordings124|]. split; [exact must124|]. split; [exact eventsA124|]. split; [exact eventsB124|]. vm_compute. reflexivity.
Qed.

(** C125.  fpfind prints the frequency offset, as [repr] writes it, and the delay [N] in ns; fpplot is given the latter and the former in ppm, to within [eps]. *)
Theorem C125 : forall e fuel2 M p repr o lg evA evB skip k D F j W args ss fs dirs a b,
  writes args ss -> Forall good ss -> ~ In AHelp ss -> search_asked ss o -> last_of sendfiles_of ss = None \/ last_of t1files_of ss = None ->
  last_of reference_of ss = Some a -> last_of target_of ss = Some b -> decimal_or (last_of skip_of ss) 0 skip -> requested ALegacy ss lg ->
  fs a = Some (encode (A1 lg) (map word_of evA)) -> fs b = Some (encode (A1 lg) (map word_of evB)) ->
  computes e o evA evB M p -> (forall x, field_ok (repr x)) -> plain_search o -> 0 < buffer_order o -> (0 <= W)%Q -> (0 <= j)%Q ->
  recordings evA evB skip k -> let S := common_start evA evB + k in must_find e M o (since S evA) (since S evB) D F j W -> MainModel.flag o = 0 ->
  exists n time N ws dt df, (forall m, (n <= m)%nat -> run m fuel2 M p repr args fs dirs = Exit 0 (repr df ++ 9 :: time ++ [10])) /\
    FpfindSpec.decimal time N /\ finds_relation M o (since S evA) (since S evB) D F j W ws dt df /\
    let P := told_search o in
    forall freq eps duration, (Qabs freq <= 1000)%Q -> (Qabs (freq / 1000000 - df) <= eps)%Q ->
    let d := option_map (fun x => fl 53 (x * 1000000000)) duration in
    exists al bo, plot_files M p (encode (A1 lg) (map word_of evA)) (encode (A1 lg) (map word_of evB)) lg skip duration freq (inject_Z N) = Ok (al, bo) /\
      same_values al (within d (since S evA)) /\
      Forall2 (fun t' y => forall t, belongs D F j t t' -> shown_near (time_off P D F j W ws dt + (1 # 2)) (freq_off P F j W ws + eps) j (inject_Z N) t t' y) (within d (since S evB)) bo.
Proof. exact c125. Qed.
Print Assumptions C125.
(** Without -V; 2^-14 is 61.03515625 ppm.  Times are rounded to ns: all but the first and last events meet. *)
Example C125_case : must_find 0 MF o125 A112 B112 (inject_Z D112) (1 # 16384) 1 8519680 /\
  run 3 0 MF 64 (fun _ => str "6.103515625e-05") args125 disk125 (fun _ => []) = Exit 0 (str "6.103515625e-05" ++ 9 :: str "2097151" ++ [10]) /\
  match plot_files MF 64 (encode (A1 false) (map word_of evA123)) (encode (A1 false) (map word_of evB123)) false 1 None (6103515625 # 100000000) 2097151 with
  | Ok (a, b) => (rounded a, rounded b) =
    ([0; 4096; 900000; 3500000; 6000000; 4295045073; 4297967296; 4299967297; 4300967296; 17179869184],
     [-2097023; 4097; 900000; 3500000; 6000001; 4295045073; 4297967297; 4299967298; 4300967297; 17176723649])
  | _ => False end.
Proof. split; [exact must123|]. split; vm_compute; reflexivity. Qed.
