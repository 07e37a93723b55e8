(** fpplot from the command line: C167 - C171. *)
From Coq Require Import QArith Qabs String List Lia.
From Verif Require Import Float Base FreqcdExamples TimestampsModel TimestampsSpec EpochsModel EpochsSpec EpochRunSpec UtilsModel FpfindModel FpfindSpec FpfindRefute MainSpec2 CdRunModel
  AccuracySpec PairSpec SignalSpec RoundedSpec WholeSpec SwapSpec ExistSpec SkipSpec
  ArgModel FpCliModel FpCliSpec FpCliCase ExistCase SkipCase PlotModel PlotSpec PlotProps PlotCliModel PlotCliSpec PlotCliSpec2 PlotCliProofs PlotCliCase.
Import ListNotations. Local Open Scope string_scope. Local Open Scope list_scope. Local Open Scope Z_scope.

(** C167.  The number whose being 0 is excluded is 1 + freq*1e-6 as computed. *)
Theorem C167 : forall fuel M p args ss fs dirs, writes args ss -> Forall good ss ->
  (args = [] \/ In AHelp ss -> run fuel M p args fs dirs = Exit 1) /\
  forall freq time width duration, args <> [] -> ~ In AHelp ss -> plot_asked ss freq time width duration -> ~ (rs M (1 + rs M (freq * rs M (1 # 1000000))) == 0)%Q ->
  (forall d1 d2 n k, last_of sendfiles_of ss = Some d1 -> last_of t1files_of ss = Some d2 -> whole_or (last_of epochs_of ss) 1 n -> whole_or (last_of skip_epochs_of ss) 0 k ->
     let r := plot_epochs fuel M (dirs d1) (dirs d2) (last_of first_of ss) n k duration freq time in r <> Err OutOfFuel -> r <> Err Unspecified -> shown ss width r (run fuel M p args fs dirs)) /\
  (last_of sendfiles_of ss = None \/ last_of t1files_of ss = None ->
   (forall a b x y lg skip, last_of reference_of ss = Some a -> last_of target_of ss = Some b -> fs a = Some x -> fs b = Some y -> requested ALegacy ss lg -> decimal_or (last_of skip_of ss) 0 skip ->
      let r := plot_files M p x y lg skip duration freq time in r <> Err OutOfFuel -> r <> Err Unspecified -> shown ss width r (run fuel M p args fs dirs)) /\
   (last_of reference_of ss = None \/ last_of target_of ss = None \/ (exists a b, last_of reference_of ss = Some a /\ last_of target_of ss = Some b /\ (fs a = None \/ fs b = None)) ->
      run fuel M p args fs dirs = Exit 1)).
Proof. exact c167. Qed.
Print Assumptions C167.
(** fpplot -vX --freq 500 --ti=3 --dur .0015 -t a -Tb --save-plot p.png *)
Example C167_case : writes args167 ss167 /\ Forall good ss167 /\ ~ In AHelp ss167 /\ plot_asked ss167 500 3 1000 (Some (fl 53 (15 # 10000))) /\ last_of sendfiles_of ss167 = None /\
  last_of reference_of ss167 = Some (str "a") /\ last_of target_of ss167 = Some (str "b") /\ requested ALegacy ss167 true /\ last_of skip_of ss167 = None /\ saved ss167 (Some (str "p.png")) /\
  ~ (rs MF (1 + rs MF (500 * rs MF (1 # 1000000))) == 0)%Q.
Proof.
  split; [exact writes167|]. split; [exact good167|]. split; [intros I; repeat (destruct I as [I|I]; [discriminate|]); destruct I|]. split; [exact asked167|].
  split; [reflexivity|]. split; [reflexivity|]. split; [reflexivity|]. split; [split; [intros _; right; left; reflexivity|reflexivity]|]. split; [reflexivity|]. split; [reflexivity|]. vm_compute. discriminate.
Qed.

(** C168 *)
Theorem C168 : forall fuel M p args ss fs dirs freq time width duration a b lg skip k evA evB, writes args ss -> Forall good ss -> ~ In AHelp ss -> plot_asked ss freq time width duration ->
  last_of sendfiles_of ss = None \/ last_of t1files_of ss = None -> last_of reference_of ss = Some a -> last_of target_of ss = Some b -> requested ALegacy ss lg -> decimal_or (last_of skip_of ss) 0 skip ->
  fs a = Some (encode (A1 lg) (map word_of evA)) -> fs b = Some (encode (A1 lg) (map word_of evB)) ->
  54 <= p -> rt M = fl p -> rs M = fl 53 -> Forall event_ok evA -> Forall event_ok evB -> evA <> [] -> evB <> [] -> (Qabs freq <= 1000)%Q ->
  (fl 53 (skip * 1000000000) == inject_Z k / 256)%Q -> let S := common_start evA evB + k in 0 <= k -> 0 <= S < 2 ^ 54 -> (duration = None \/ since S evA <> [] /\ since S evB <> []) ->
  let d := option_map (fun x => fl 53 (x * 1000000000)) duration in
  exists al bo s, run fuel M p args fs dirs = Drawn al bo width s /\ saved ss s /\
    same_values al (within d (since S evA)) /\ Forall2 (compensated (1 # 2 ^ 51) freq time) (within d (since S evB)) bo.
Proof. exact c168. Qed.
Print Assumptions C168.
(** the recordings of C91_case *)
Definition disk168 : filesys := fun n => if same n (str "a") then Some (encode (A1 true) (map word_of plotA)) else if same n (str "b") then Some (encode (A1 true) (map word_of plotB)) else None.
Example C168_case : match run 0 MF 64 args167 disk168 (fun _ => []) with
  | Drawn a b w s => (a, rounded b) = (map inject_Z [0; 1000; 3000; 999000], [-2999; 1000000; 3000000; 999000000]) /\ w = 1000%Q /\ s = Some (str "p.png") | _ => False end.
Proof. vm_compute. repeat split. Qed.

(** epoch directories *)
Theorem C168_epochs : forall fuel M p args ss fs dirs freq time width duration d1 d2 m skip xsA evsB, writes args ss -> Forall good ss -> ~ In AHelp ss -> plot_asked ss freq time width duration ->
  last_of sendfiles_of ss = Some d1 -> last_of t1files_of ss = Some d2 -> whole_or (last_of epochs_of ss) 1 (len xsA) -> whole_or (last_of skip_epochs_of ss) 0 skip ->
  54 <= p -> rt M = fl p -> rs M = fl 53 -> (Qabs freq <= 1000)%Q -> epoch_names (dirs d1) -> epoch_names (dirs d2) -> first_common (dirs d1) (dirs d2) (last_of first_of ss) m -> 0 <= m -> 0 <= m + skip ->
  len evsB = len xsA -> t2_dir (dirs d1) (m + skip) xsA -> t1_dir (dirs d2) (m + skip) evsB -> Forall (fun xs => (length xs < fuel)%nat) xsA ->
  let evA := t2_events (m + skip) xsA in let evB := t1_events (m + skip) evsB in Forall event_ok evA -> Forall event_ok evB -> evA <> [] -> evB <> [] ->
  let S := common_start evA evB in (duration = None \/ since S evA <> [] /\ since S evB <> []) ->
  let d := option_map (fun x => fl 53 (x * 1000000000)) duration in
  exists al bo s, run fuel M p args fs dirs = Drawn al bo width s /\ saved ss s /\
    same_values al (within d (since S evA)) /\ Forall2 (compensated (1 # 2 ^ 51) freq time) (within d (since S evB)) bo.
Proof. exact c168_epochs. Qed.
Print Assumptions C168_epochs.
(** the directories of C124_case, where more of the hypotheses are shown *)
Example C168_epochs_case : Forall event_ok (t2_events (131071 + 1) entries124) /\ Forall event_ok (t1_events (131071 + 1) events124) /\
  match run 6 MF 64 (map str ["-ds"; "-D=t"; "-z1"; "--num"; "3"; "--duration"; "0.05"]) (fun _ => None) dirs124 with
  | Drawn a b w s => (SkipCase.rounded (firstn 4 a), SkipCase.rounded (firstn 4 b)) = ([0; 512; 112512; 437504], [0; 262656; 374663; 699675]) /\ w = 1000%Q /\ s = None | _ => False end.
Proof. rewrite eventsA124, eventsB124. split; [exact (proj1 recordings124)|]. split; [exact (proj1 (proj2 recordings124))|]. vm_compute. repeat split. Qed.

(** C169 *)
Definition C169_statement : Prop := forall fuel M q fs dirs args ss p a t x args' ss', writes args ss -> writes args' ss' -> Forall good (ss ++ ss') ->
  option_word p a -> takes_number a -> argument a = Some t -> decimal t x -> run fuel M q (args ++ p :: t :: args') fs dirs <> Exit 2 /\ run fuel M q (args ++ (p ++ 61 :: t) :: args') fs dirs <> Exit 2.
Theorem C169_refuted : ~ C169_statement.
Proof.
  intros H. apply (proj1 (H O MF 64 (fun _ => None) (fun _ => []) [] [] (codes "--freq") (AFreq (codes "-1e-6")) (codes "-1e-6") _ [] [] W_end W_end (Forall_nil _) freq_word I eq_refl decimal_micro)).
  vm_compute. reflexivity.
Qed.
Print Assumptions C169_refuted.
(** accepted exactly when not beginning with a dash, or without exponent and not ending with the point *)
Theorem C169_partial : forall fuel M q fs dirs args ss p a t x args' ss', writes args ss -> writes args' ss' -> Forall good (ss ++ ss') ->
  option_word p a -> takes_number a -> argument a = Some t -> decimal t x ->
  (own_word t -> run fuel M q (args ++ p :: t :: args') fs dirs <> Exit 2) /\ (~ own_word t -> run fuel M q (args ++ p :: t :: args') fs dirs = Exit 2).
Proof. exact number_apart. Qed.
Print Assumptions C169_partial.
Theorem C169_equals_partial : forall fuel M q fs dirs args ss p a t x args' ss', writes args ss -> writes args' ss' -> Forall good (ss ++ ss') ->
  option_word p a -> takes_number a -> argument a = Some t -> decimal t x ->
  (own_word t -> run fuel M q (args ++ (p ++ 61 :: t) :: args') fs dirs <> Exit 2) /\ (~ own_word t -> run fuel M q (args ++ (p ++ 61 :: t) :: args') fs dirs = Exit 2).
Proof. exact number_equals. Qed.
Print Assumptions C169_equals_partial.
(** --freq -1e-6 is refused and --freq=-.000001 accepted; there are no files here *)
Example C169_case : option_word (codes "--freq") (AFreq (codes "-1e-6")) /\ decimal (codes "-1e-6") (- fl 53 (1 # 1000000)) /\ ~ own_word (codes "-1e-6") /\
  run 0 MF 64 (map str ["-t=a"; "--freq"; "-1e-6"; "-T"; "b"]) (fun _ => None) (fun _ => []) = Exit 2 /\ run 0 MF 64 (map str ["-t=a"; "--freq=-.000001"; "-T"; "b"]) (fun _ => None) (fun _ => []) = Exit 1.
Proof. split; [exact freq_word|]. split; [exact decimal_micro|]. split; [exact not_own|]. split; vm_compute; reflexivity. Qed.

(** C170 *)
Theorem C170 : forall args, strays args -> forall fuel M p fs dirs, run fuel M p args fs dirs = Exit 2.
Proof. exact strays_refused. Qed.
Print Assumptions C170.
(** fpfind's -q is not an option of fpplot *)
Example C170_case : strays [codes "-t"; codes "a"; codes "-q"; codes "25"].
Proof.
  apply (S_more [codes "-t"; codes "a"] [AReference (codes "a")] (codes "-q") [codes "25"]).
  - apply (W_detached [] [] (AReference (codes "a")) 116 (codes "a")); [constructor|reflexivity|reflexivity|now apply own_simple|ascii|]. constructor.
  - split; [discriminate|]. split; [ascii|]. right. right. exists 113, []. split; [reflexivity|]. split; [easy|]. split; [lia|]. split; [|lia]. intros I. repeat (destruct I as [I|I]; [discriminate|]). destruct I.
  - apply (S_last [] [] (codes "25") [] []); [constructor| |constructor]. split; [discriminate|]. split; [ascii|]. left. intros r. discriminate.
Qed.

(** C171.  [args] are fpfind's words, [args'] fpplot's. *)
Theorem C171 : forall e fuel fuel2 M p repr o lg evA evB skip k D F j W args ss args' ss' fs dirs a b,
  FpCliSpec.writes args ss -> Forall FpCliSpec.good ss -> ~ In FpCliSpec.AHelp ss -> search_asked ss o -> FpCliSpec.last_of FpCliSpec.sendfiles_of ss = None \/ FpCliSpec.last_of FpCliSpec.t1files_of ss = None ->
  FpCliSpec.last_of FpCliSpec.reference_of ss = Some a -> FpCliSpec.last_of FpCliSpec.target_of ss = Some b -> decimal_or (FpCliSpec.last_of FpCliSpec.skip_of ss) 0 skip -> FpCliSpec.requested FpCliSpec.ALegacy ss lg ->
  fs a = Some (encode (A1 lg) (map word_of evA)) -> fs b = Some (encode (A1 lg) (map word_of evB)) ->
  computes e o evA evB M p -> (forall x, field_ok (repr x)) -> plain_search o -> 0 < MainModel.buffer_order o -> (0 <= W)%Q -> (0 <= j)%Q ->
  recordings evA evB skip k -> let S := common_start evA evB + k in must_find e M o (since S evA) (since S evB) D F j W -> MainModel.flag o = 0 ->
  exists n time N ws dt df, (forall m, (n <= m)%nat -> FpCliModel.run m fuel2 M p repr args fs dirs = FpCliModel.Exit 0 (repr df ++ 9 :: time ++ [10])) /\
    FpfindSpec.decimal time N /\ finds_relation M o (since S evA) (since S evB) D F j W ws dt df /\
    let P := told_search o in
    forall freq eps width duration, writes args' ss' -> Forall good ss' -> ~ In AHelp ss' -> plot_asked ss' freq (inject_Z N) width duration -> last_of sendfiles_of ss' = None \/ last_of t1files_of ss' = None ->
    last_of reference_of ss' = Some a -> last_of target_of ss' = Some b -> decimal_or (last_of skip_of ss') 0 skip -> requested ALegacy ss' lg ->
    (Qabs freq <= 1000)%Q -> (Qabs (freq / 1000000 - df) <= eps)%Q ->
    let d := option_map (fun x => fl 53 (x * 1000000000)) duration in
    exists al bo s, run fuel M p args' fs dirs = Drawn al bo width s /\ saved ss' s /\ same_values al (within d (since S evA)) /\
      Forall2 (fun t' y => forall t, belongs D F j t t' -> shown_near (time_off P D F j W ws dt + (1 # 2)) (freq_off P F j W ws + eps) j (inject_Z N) t t' y) (within d (since S evB)) bo.
Proof. exact c171. Qed.
Print Assumptions C171.
(** fpfind as in C125_case, which prints 6.103515625e-05 and 2097151; and *)
Example C171_case : match run 0 MF 64 (map str ["-Z1"; "-t"; "a"; "-T"; "b"; "--freq"; "61.03515625"; "--time"; "2097151"]) disk125 (fun _ => []) with
  | Drawn a b w s => (SkipCase.rounded a, SkipCase.rounded b) =
    ([0; 4096; 900000; 3500000; 6000000; 4295045073; 4297967296; 4299967297; 4300967296; 17179869184],
     [-2097023; 4097; 900000; 3500000; 6000001; 4295045073; 4297967297; 4299967298; 4300967297; 17176723649]) /\ w = 1000%Q /\ s = None
  | _ => False end.
Proof. vm_compute. repeat split. Qed.
