(** fpfind's precompensation from the command line, and freqcd with its result: C135, C136. *)
From Coq Require Import QArith Qabs String List Lia.
From Verif Require Import Float Base FreqcdModel FreqcdSpec FreqcdCliSpec FreqcdExamples TimestampsModel TimestampsSpec UtilsModel UtilsSpec FpfindModel FpfindSpec FpfindProofs3 FpfindProofs4 FpfindRefute FpfindPipe MainModel MainSpec2
  CdRunModel CdRunSpec CdRunRefute AccuracySpec PairSpec PairProofs SignalSpec RoundedSpec WholeSpec SwapSpec ExistSpec ExistProofs ExistCase PrecompSpec ScanSpec ScanProofs ScanCli ScanCase ArgModel FpCliModel FpCliSpec FpCliCase.
Import ListNotations.
Local Open Scope string_scope. Local Open Scope list_scope.
Local Open Scope Z_scope.

(** C135 *)
Theorem C135 : forall e fuel2 M p repr o lg evA evB before df0 D F j W args ss fs dirs a b,
  FpCliSpec.writes args ss -> Forall FpCliSpec.good ss -> ~ In AHelp ss -> search_asked ss o -> FpCliSpec.last_of sendfiles_of ss = None \/ FpCliSpec.last_of t1files_of ss = None ->
  FpCliSpec.last_of reference_of ss = Some a -> FpCliSpec.last_of target_of ss = Some b -> FpCliSpec.last_of skip_of ss = None -> requested ALegacy ss lg ->
  fs a = Some (encode (A1 lg) (map word_of evA)) -> fs b = Some (encode (A1 lg) (map word_of evB)) ->
  rt M = fl p -> rs M = fl 53 -> accurate_to e (2 ^ buffer_order o) (len evA) (len evB) M -> (0 <= e)%Q -> 54 <= p -> good_xc M -> good_zs M -> (forall x, field_ok (repr x)) ->
  bound_to_find e M p o evA evB before df0 D F j W ->
  exists n line df1 dt df, (forall m, (n <= m)%nat -> run m fuel2 M p repr args fs dirs = Exit 0 (line ++ [10])) /\ shows_offsets repr (MainModel.flag o) dt df line /\ In df1 (before ++ [df0]) /\
    forall D F j W, (0 <= W)%Q -> (0 <= j)%Q -> common_after e M p o evA evB df1 D F j W ->
    exists ws, widths_after M p o evA evB df1 ws /\
      let E := search_freq_error o (F_left df1 F) j W ws in
      (Qabs (df - F) <= clock df1 * E + (1 # 2 ^ 49) * (1 + Qabs (F_left df1 F) + E))%Q /\
      (Qabs (dt - D) <= clock df1 * search_time_error o (D_left df1 D) (F_left df1 F) j W ws + (1 # 2 ^ 49) * (Qabs dt + 100000000))%Q.
Proof. exact c135. Qed.
Print Assumptions C135.
(** fpfind -PvV7 --precomp-sta 0.001953125 --precomp-ste -.00189208984375 --precomp-stop 6103515625e-14 --precomp-o -q 7 -R65536 --sep 512 -S 1 -t a --targ b
    tries 1/512, with which nothing is found, and 1/16384. *)
Definition disk135 : filesys :=
  fun n => if same n (str "a") then Some (encode (A1 false) (map word_of evA135)) else if same n (str "b") then Some (encode (A1 false) (map word_of evB135)) else None.
Example C135_case : FpCliSpec.writes args135 ss135 /\ Forall FpCliSpec.good ss135 /\ ~ In AHelp ss135 /\ search_asked ss135 o135 /\ FpCliSpec.last_of sendfiles_of ss135 = None /\
  FpCliSpec.last_of reference_of ss135 = Some (str "a") /\ FpCliSpec.last_of target_of ss135 = Some (str "b") /\ FpCliSpec.last_of skip_of ss135 = None /\ requested ALegacy ss135 false /\
  accurate_to 0 (2 ^ buffer_order o135) (len evA135) (len evB135) MF /\ good_xc MF /\ good_zs MF /\ bound_to_find 0 MF 64 o135 evA135 evB135 [1 # 512] (1 # 16384) (inject_Z D135) (1 # 16384) 1 8519680 /\
  time_freq 6 MF (told_search o135) A135 (precompensated 64 (1 # 512) B135) 65536 = Err ValueError /\
  run 6 0 MF 64 (fun _ => []) args135 disk135 (fun _ => []) = Exit 0 (str "-1048512" ++ [10]).
Proof.
  split; [exact writes135|]. split; [exact good135|]. split; [intros I; repeat (destruct I as [I|I]; [discriminate|]); destruct I|]. split; [exact asked135|]. do 4 (split; [reflexivity|]).
  split; [split; [discriminate|intros I; repeat (destruct I as [I|I]; [discriminate|]); destruct I]|]. split; [now apply exact_accurate|]. split; [apply exact_good|]. split; [apply exact_good_zs|].
  split; [|split; vm_compute; reflexivity].
  split; [exact any135|]. split; [reflexivity|]. split; [exact moderate135|]. split; [exact overlapping135|]. split; [discriminate|]. split; [discriminate|]. split; [exact surely112|].
  split; [exists []; exact tried135|]. split; [exact long135|]. split; [exact common135|]. split; [exact reach135|exact significant135].
Qed.

(** C136 *)
Theorem C136 : forall e fuel2 M p repr o lg evA evB before df0 D F j W args ss fs dirs a b,
  FpCliSpec.writes args ss -> Forall FpCliSpec.good ss -> ~ In AHelp ss -> search_asked ss o -> FpCliSpec.last_of sendfiles_of ss = None \/ FpCliSpec.last_of t1files_of ss = None ->
  FpCliSpec.last_of reference_of ss = Some a -> FpCliSpec.last_of target_of ss = Some b -> FpCliSpec.last_of skip_of ss = None -> requested ALegacy ss lg ->
  fs a = Some (encode (A1 lg) (map word_of evA)) -> fs b = Some (encode (A1 lg) (map word_of evB)) ->
  rt M = fl p -> rs M = fl 53 -> accurate_to e (2 ^ buffer_order o) (len evA) (len evB) M -> (0 <= e)%Q -> 54 <= p -> good_xc M -> good_zs M -> (forall x, field_ok (repr x)) ->
  bound_to_find e M p o evA evB before df0 D F j W -> MainModel.flag o = 7 -> nondecr (map fst evB) ->
  exists n line df1, (forall m, (n <= m)%nat -> run m fuel2 M p repr args fs dirs = Exit 0 (line ++ [10])) /\ In df1 (before ++ [df0]) /\
    forall D F j W, (0 <= W)%Q -> (0 <= j)%Q -> common_after e M p o evA evB df1 D F j W ->
    exists ws, widths_after M p o evA evB df1 ws /\ let L := search_freq_error o (F_left df1 F) j W ws in let E := (clock df1 * L + (1 # 2 ^ 49) * (1 + Qabs (F_left df1 F) + L))%Q in
  ((Qabs F + E <= (1 # 2 ^ 13) - (1 # 2 ^ 25))%Q ->
   forall junk ib ob fb prog args' ss' fs' stdin, alloc_ok ib ob fb -> corrects_with args' ss' line -> legacy_of ss' = lg ->
     input_of fs' stdin ss' = Some (encode (A1 lg) (map word_of evB)) ->
     exists en times, freqcd_main true junk ib ob fb (prog :: args') fs' stdin = Some (Ok en) /\ code en = 0 /\
       retimed_file fs' (files en) (CdRunModel.stdout en) ss' (encode (A1 lg) (map word_of evB)) times /\
       forall i k ev0 evi evk t' u' d a b, nth_error evB 0 = Some ev0 -> nth_error evB i = Some evi -> nth_error evB k = Some evk -> nth_error times i = Some t' -> nth_error times k = Some u' ->
         (Qabs (inject_Z (fst evi) - (d + (1 + F) * a)) <= 256 * j)%Q -> (Qabs (inject_Z (fst evk) - (d + (1 + F) * b)) <= 256 * j)%Q ->
         as_apart ((5 # 4) * E + (1 # 2 ^ 35) + (1 # 2 ^ 50)) (256 * j) (fst ev0) (Z.of_nat i / 1024 + 1) (Z.of_nat k / 1024 + 1) (fst evi) (fst evk) t' u' a b).
Proof. exact c136. Qed.
Print Assumptions C136.
(** The hypotheses on the search are those of C135_case.  The events of the target after 2^32 ns are as far apart as those of the reference again, at 77777, 3000000, 5000001 and
    6000000 ns after it. *)
Definition args136 : list (list Z) := [str "-f"; str "-1048512"; str "-ib"; str "-oc"].
Definition late_times (Y : list Z) : list Z := map (fun t => t / 256 - 2 ^ 32) (firstn 4 (skipn 5 (map (ev_time false) (FreqcdSpec.groups Y)))).
Example C136_case : MainModel.flag o135 = 7 /\ nondecr (map fst evB135) /\
  (let L := search_freq_error o135 Fleft 1 8519680 [6369051672525773 # 35184372088832; 65536] in let E := (clock (1 # 16384) * L + (1 # 2 ^ 49) * (1 + Qabs Fleft + L))%Q in
   Qabs (1 # 16384) + E <= (1 # 2 ^ 13) - (1 # 2 ^ 25))%Q /\
  leaves (seen_run (freqcd_main true None IB IB FB (str "freqcd" :: args136) disk135 []) (str "c")) (fun Y => late_times Y = map (fun t => 2097159 + t) [77777; 3000000; 5000001; 6000000]).
Proof.
  split; [reflexivity|]. split; [vm_compute; repeat split; discriminate|]. split; [vm_compute; discriminate|]. vm_compute. reflexivity.
Qed.
