(** fpfind from the command line to exit code and standard output: C113 - C117, C144. *)
From Coq Require Import QArith Qabs String List Lia.
From Verif Require Import Float Base FreqcdExamples TimestampsModel TimestampsSpec UtilsModel UtilsSpec FpfindModel FpfindSpec FpfindProofs3 FpfindProofs4 FpfindRefute FpfindPipe EpochsModel MainModel MainSpec2 CdRunModel
  AccuracySpec PairSpec PairProofs SignalSpec RoundedSpec WholeSpec SwapSpec ExistSpec ExistProofs ExistCase ArgModel FpCliModel FpCliSpec FpCliProofs FpCliCase.
Import ListNotations.
Local Open Scope string_scope. Local Open Scope list_scope.
Local Open Scope Z_scope.

(** C113 *)
Theorem C113 : forall fuel fuel2 M p repr args ss fs dirs, writes args ss -> Forall good ss ->
  (args = [] \/ In AHelp ss -> run fuel fuel2 M p repr args fs dirs = Exit 1 []) /\
  forall o, args <> [] -> ~ In AHelp ss -> search_asked ss o ->
  (forall d1 d2 k, last_of sendfiles_of ss = Some d1 -> last_of t1files_of ss = Some d2 -> whole_or (last_of skip_epochs_of ss) 0 k ->
     let r := main_epochs fuel fuel2 M repr o (dirs d1) (dirs d2) (last_of first_of ss) k in r <> Err OutOfFuel -> r <> Err Unspecified ->
     exists code out, run fuel fuel2 M p repr args fs dirs = Exit code out /\ result r code out) /\
  (last_of sendfiles_of ss = None \/ last_of t1files_of ss = None ->
   (forall a b x y lg skip, last_of reference_of ss = Some a -> last_of target_of ss = Some b -> fs a = Some x -> fs b = Some y -> requested ALegacy ss lg -> decimal_or (last_of skip_of ss) 0 skip ->
      let r := main_files fuel M p repr o x y lg skip in r <> Err OutOfFuel -> r <> Err Unspecified ->
      exists code out, run fuel fuel2 M p repr args fs dirs = Exit code out /\ result r code out) /\
   (last_of reference_of ss = None \/ last_of target_of ss = None \/ (exists a b, last_of reference_of ss = Some a /\ last_of target_of ss = Some b /\ (fs a = None \/ fs b = None)) ->
      run fuel fuel2 M p repr args fs dirs = Exit 1 [])).
Proof. exact c113. Qed.
Print Assumptions C113.
(** fpfind -vvV7 -q 7 -R65536 --sep=512 -S 1 -t a --targ b *)
Example C113_case : writes args114 ss114 /\ Forall good ss114 /\ ~ In AHelp ss114 /\ search_asked ss114 o112 /\ last_of sendfiles_of ss114 = None /\
  last_of reference_of ss114 = Some (str "a") /\ last_of target_of ss114 = Some (str "b") /\ requested ALegacy ss114 false /\ last_of skip_of ss114 = None.
Proof.
  split; [exact writes114|]. split; [exact good114|]. split; [intros I; repeat (destruct I as [I|I]; [discriminate|]); destruct I|]. split; [exact asked114|].
  split; [reflexivity|]. split; [reflexivity|]. split; [reflexivity|]. split; [|reflexivity]. split; [discriminate|intros I; repeat (destruct I as [I|I]; [discriminate|]); destruct I].
Qed.

(** C114 *)
Theorem C114 : forall e fuel2 M p repr o lg evA evB D F j W args ss fs dirs a b,
  writes args ss -> Forall good ss -> ~ In AHelp ss -> search_asked ss o -> last_of sendfiles_of ss = None \/ last_of t1files_of ss = None ->
  last_of reference_of ss = Some a -> last_of target_of ss = Some b -> last_of skip_of ss = None -> requested ALegacy ss lg ->
  fs a = Some (encode (A1 lg) (map word_of evA)) -> fs b = Some (encode (A1 lg) (map word_of evB)) ->
  rt M = fl p -> rs M = fl 53 -> accurate_to e (2 ^ buffer_order o) (len evA) (len evB) M -> (0 <= e)%Q -> 54 <= p -> good_xc M -> good_zs M -> (forall x, field_ok (repr x)) -> plain_search o -> 0 < buffer_order o ->
  (0 <= W)%Q -> (0 <= j)%Q -> common_events e M o evA evB D F j W -> let A := since (common_start evA evB) evA in let B := since (common_start evA evB) evB in
  ends_surely M (told_search o) (inject_Z (initial_res o)) -> within_reach M (told_search o) A B (inject_Z (initial_res o)) D F j W -> significant M (told_search o) A B (inject_Z (initial_res o)) ->
  exists n line ws dt df, (forall m, (n <= m)%nat -> run m fuel2 M p repr args fs dirs = Exit 0 (line ++ [10])) /\
    widths_of M o evA evB ws /\ shows_offsets repr (MainModel.flag o) dt df line /\
    (Qabs (df - F) <= search_freq_error o F j W ws + (1 # 2 ^ 50) * (1 + Qabs F + search_freq_error o F j W ws))%Q /\
    (Qabs (dt - D) <= search_time_error o D F j W ws + (1 # 2 ^ 50) * (Qabs dt + 100000000))%Q.
Proof. exact c114. Qed.
Print Assumptions C114.
(** The hypotheses are those of C113_case and C112_case; what is printed: *)
Example C114_case : run 3 0 MF 64 (fun _ => []) args114
    (fun n => if same n (str "a") then Some (encode (A1 false) (map word_of evA112)) else if same n (str "b") then Some (encode (A1 false) (map word_of evB112)) else None) (fun _ => [])
  = Exit 0 (str "-1048512" ++ [10]).
Proof. vm_compute. reflexivity. Qed.

(** C115 *)
Theorem C115 : forall args, strays args -> forall fuel fuel2 M p repr fs dirs, run fuel fuel2 M p repr args fs dirs = Exit 2 [].
Proof. exact strays_refused. Qed.
Print Assumptions C115.
Example C115_case : strays (readme (str "a") (str "b")).
Proof. apply readme_strays; [split; [ascii|intros r; discriminate]|discriminate|split; [ascii|intros r; discriminate]|discriminate]. Qed.

(** C116 *)
Definition C116_statement : Prop := forall fuel fuel2 M p repr fs dirs a b, file_name a -> a <> [] -> file_name b -> b <> [] -> run fuel fuel2 M p repr (readme a b) fs dirs <> Exit 2 [].
Theorem C116_refuted : ~ C116_statement.
Proof. intros H. apply (H O O MF 64 (fun _ => []) (fun _ => None) (fun _ => []) [97] [98]); [split; [ascii|intros r; discriminate]|discriminate|split; [ascii|intros r; discriminate]|discriminate|]. vm_compute. reflexivity. Qed.
Print Assumptions C116_refuted.
Theorem C116_partial : forall fuel fuel2 M p repr fs dirs a b, file_name a -> a <> [] -> file_name b -> b <> [] -> run fuel fuel2 M p repr (readme a b) fs dirs = Exit 2 [].
Proof. intros fuel fuel2 M p repr fs dirs a b A AN B BN. exact (strays_refused _ (readme_strays a b A AN B BN) fuel fuel2 M p repr fs dirs). Qed.
Print Assumptions C116_partial.
(** without "-n 1" it is accepted; there are no files here *)
Example C116_case : run 0 0 MF 64 (fun _ => []) (map str ["-t"; "a"; "-T"; "b"; "-q"; "25"; "-S"; "4"]) (fun _ => None) (fun _ => []) = Exit 1 [] /\ file_name (str "a") /\ str "a" <> [].
Proof. split; [vm_compute; reflexivity|split; [split; [ascii|intros r; discriminate]|discriminate]]. Qed.

(** C117 *)
Definition C117_statement : Prop := forall fuel fuel2 M q repr fs dirs args ss p a t x args' ss', writes args ss -> writes args' ss' -> Forall good (ss ++ ss') ->
  option_word p a -> takes_number a -> argument a = Some t -> decimal t x -> run fuel fuel2 M q repr (args ++ p :: t :: args') fs dirs <> Exit 2 [].
Theorem C117_refuted : ~ C117_statement.
Proof.
  intros H. apply (H O O MF 64 (fun _ => []) (fun _ => None) (fun _ => []) [] [] (codes "--precomp-start") (AStart (codes "-1e-6")) (codes "-1e-6") _ [] [] W_end W_end (Forall_nil _) start_word I eq_refl decimal_micro).
  vm_compute. reflexivity.
Qed.
Print Assumptions C117_refuted.
(** accepted exactly when not beginning with a dash, or without exponent and not ending with the point *)
Theorem C117_partial : forall fuel fuel2 M q repr fs dirs args ss p a t x args' ss', writes args ss -> writes args' ss' -> Forall good (ss ++ ss') ->
  option_word p a -> takes_number a -> argument a = Some t -> decimal t x ->
  (own_word t -> run fuel fuel2 M q repr (args ++ p :: t :: args') fs dirs <> Exit 2 []) /\ (~ own_word t -> run fuel fuel2 M q repr (args ++ p :: t :: args') fs dirs = Exit 2 []).
Proof. exact c117. Qed.
Print Assumptions C117_partial.
Example C117_case : option_word (codes "--precomp-start") (AStart (codes "-1e-6")) /\ decimal (codes "-1e-6") (- fl 53 (1 # 1000000)) /\ ~ own_word (codes "-1e-6") /\ own_word (codes "-.000001").
Proof.
  split; [exact start_word|]. split; [exact decimal_micro|]. split; [exact not_own|]. right. right. right. exists [], (codes "000001").
  split; [discriminate|]. split; [constructor|]. split; [|reflexivity]. vm_compute. repeat (constructor; [split; discriminate|]). constructor.
Qed.

(** C144 *)
Definition C144_statement : Prop := forall fuel fuel2 M q repr fs dirs args ss p a t x args' ss', writes args ss -> writes args' ss' -> Forall good (ss ++ ss') ->
  option_word p a -> takes_number a -> argument a = Some t -> decimal t x -> run fuel fuel2 M q repr (args ++ (p ++ 61 :: t) :: args') fs dirs <> Exit 2 [].
Theorem C144_refuted : ~ C144_statement.
Proof.
  intros H. apply (H O O MF 64 (fun _ => []) (fun _ => None) (fun _ => []) [] [] (codes "--precomp-start") (AStart (codes "-1e-6")) (codes "-1e-6") _ [] [] W_end W_end (Forall_nil _) start_word I eq_refl decimal_micro).
  vm_compute. reflexivity.
Qed.
Print Assumptions C144_refuted.
(** "=" does not help: accepted exactly when accepted as a word of its own *)
Theorem C144_partial : forall fuel fuel2 M q repr fs dirs args ss p a t x args' ss', writes args ss -> writes args' ss' -> Forall good (ss ++ ss') ->
  option_word p a -> takes_number a -> argument a = Some t -> decimal t x ->
  (own_word t -> run fuel fuel2 M q repr (args ++ (p ++ 61 :: t) :: args') fs dirs <> Exit 2 []) /\ (~ own_word t -> run fuel fuel2 M q repr (args ++ (p ++ 61 :: t) :: args') fs dirs = Exit 2 []).
Proof. exact c144. Qed.
Print Assumptions C144_partial.
(** --precomp-start=-1e-6 is refused and --precomp-start=-.000001 accepted; there are no files here *)
Example C144_case : run 0 0 MF 64 (fun _ => []) (map str ["-t=a"; "--precomp-start=-1e-6"; "-T"; "b"]) (fun _ => None) (fun _ => []) = Exit 2 [] /\
  run 0 0 MF 64 (fun _ => []) (map str ["-t=a"; "--precomp-start=-.000001"; "-T"; "b"]) (fun _ => None) (fun _ => []) = Exit 1 [].
Proof. split; vm_compute; reflexivity. Qed.
