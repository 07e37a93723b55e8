(** fpplot from the command line, end to end; and cases. *)
From Coq Require Import QArith Qabs Lqa String List Lia.
From Verif Require Import Float Base FreqcdExamples TimestampsModel TimestampsSpec EpochsModel EpochsSpec EpochRunSpec UtilsModel FpfindModel FpfindSpec FpfindRefute MainProofs MainSpec2 CdRunModel
  ArgModel FpCliModel FpCliSpec FpCliProofs FpCliCase PlotModel PlotSpec PlotProofs PlotCliModel PlotCliSpec PlotCliProofs PlotCliSpec2.
Import ListNotations. Local Open Scope string_scope. Local Open Scope list_scope. Local Open Scope Z_scope.

Lemma ended_shown ss freq time width duration r : r <> Err OutOfFuel -> r <> Err Unspecified ->
  shown ss width r (ended (mkPlot freq time width duration (last_of picture_of ss)) r).
Proof.
  intros N1 N2. destruct r as [[a b]|e]; cbn [ended shown picture PlotCliModel.width].
  - exists (match last_of picture_of ss with Some [] => None | x => x end). split; reflexivity.
  - destruct e; try reflexivity; congruence.
Qed.
Lemma c167 : forall fuel M p args ss fs dirs, writes args ss -> Forall good ss ->
  (args = [] \/ In AHelp ss -> run fuel M p args fs dirs = Exit 1) /\
  forall freq time width duration, args <> [] -> ~ In AHelp ss -> plot_asked ss freq time width duration -> ~ (rs M (1 + rs M (freq * rs M (1 # 1000000))) == 0)%Q ->
  (forall d1 d2 n k, last_of sendfiles_of ss = Some d1 -> last_of t1files_of ss = Some d2 -> whole_or (last_of epochs_of ss) 1 n -> whole_or (last_of skip_epochs_of ss) 0 k ->
     let r := plot_epochs fuel M (dirs d1) (dirs d2) (last_of first_of ss) n k duration freq time in r <> Err OutOfFuel -> r <> Err Unspecified -> shown ss width r (run fuel M p args fs dirs)) /\
  (last_of sendfiles_of ss = None \/ last_of t1files_of ss = None ->
   (forall a b x y lg skip, last_of reference_of ss = Some a -> last_of target_of ss = Some b -> fs a = Some x -> fs b = Some y -> requested ALegacy ss lg -> decimal_or (last_of skip_of ss) 0 skip ->
      let r := plot_files M p x y lg skip duration freq time in r <> Err OutOfFuel -> r <> Err Unspecified -> shown ss width r (run fuel M p args fs dirs)) /\
   (last_of reference_of ss = None \/ last_of target_of ss = None \/ (exists a b, last_of reference_of ss = Some a /\ last_of target_of ss = Some b /\ (fs a = None \/ fs b = None)) ->
      run fuel M p args fs dirs = Exit 1)).
Proof.
  intros fuel M p args ss fs dirs W G. split; [exact (run_help fuel M p args ss fs dirs W G)|]. intros qf qt qw qd NE NH PA RG0.
  assert (RG : Qeq_bool (rs M (1 + rs M (qf * rs M (1 # 1000000)))%Q) 0 = false) by (destruct (Qeq_bool _ 0) eqn:E; [apply Qeq_bool_iff in E; contradiction|reflexivity]).
  split.
  - intros d1 d2 n k A B N K r N1 N2. rewrite (run_dirs fuel M p args ss fs dirs W G NE NH qf qt qw qd PA RG d1 d2 n k A B N K). now apply ended_shown.
  - intros ND. split; [|exact (run_nothing fuel M p args ss fs dirs W G NE NH qf qt qw qd PA RG ND)].
    intros a b x y lg skip A B X Y L K r N1 N2. rewrite (run_files fuel M p args ss fs dirs W G NE NH qf qt qw qd PA RG ND a b x y lg skip A B X Y L K). now apply ended_shown.
Qed.
Lemma scale_positive freq : (Qabs freq <= 1000)%Q -> ~ (fl 53 (1 + fl 53 (freq * fl 53 (1 # 1000000))) == 0)%Q.
Proof.
  intros F E. pose proof (rate_near freq F) as R. rewrite E in R. apply Qabs_Qle_condition in R as [R1 R2]. apply Qabs_Qle_condition in F as [F1 F2].
  assert (K : (freq / 1000000 == freq * (1 # 1000000))%Q) by (unfold Qdiv; reflexivity). rewrite K in *. lra.
Qed.
Lemma c168 : forall fuel M p args ss fs dirs freq time width duration a b lg skip k evA evB, writes args ss -> Forall good ss -> ~ In AHelp ss -> plot_asked ss freq time width duration ->
  last_of sendfiles_of ss = None \/ last_of t1files_of ss = None -> last_of reference_of ss = Some a -> last_of target_of ss = Some b -> requested ALegacy ss lg -> decimal_or (last_of skip_of ss) 0 skip ->
  fs a = Some (encode (A1 lg) (map word_of evA)) -> fs b = Some (encode (A1 lg) (map word_of evB)) ->
  54 <= p -> rt M = fl p -> rs M = fl 53 -> Forall event_ok evA -> Forall event_ok evB -> evA <> [] -> evB <> [] -> (Qabs freq <= 1000)%Q ->
  (fl 53 (skip * 1000000000) == inject_Z k / 256)%Q -> let S := common_start evA evB + k in 0 <= k -> 0 <= S < 2 ^ 54 -> (duration = None \/ since S evA <> [] /\ since S evB <> []) ->
  let d := option_map (fun x => fl 53 (x * 1000000000)) duration in
  exists al bo s, run fuel M p args fs dirs = Drawn al bo width s /\ saved ss s /\
    same_values al (within d (since S evA)) /\ Forall2 (compensated (1 # 2 ^ 51) freq time) (within d (since S evB)) bo.
Proof.
  intros fuel M p args ss fs dirs freq time width duration a b lg skip k evA evB W G NH PA ND A B LG SK FA FB P54 RT RS EA EB NA NB FR KK S K0 SS DU d.
  destruct (c91 M p lg skip k duration freq time evA evB P54 RT RS EA EB NA NB FR KK K0 SS DU) as (al & bo & R & C1 & C2).
  assert (NE : args <> []). { intros ->. inv W. discriminate. }
  destruct (c167 fuel M p args ss fs dirs W G) as [_ H]. destruct (H freq time width duration NE NH PA ltac:(rewrite RS; now apply scale_positive)) as [_ H2]. destruct (H2 ND) as [H3 _].
  specialize (H3 a b _ _ lg skip A B FA FB LG SK). cbv zeta in H3. fold d in R. rewrite R in H3. destruct (H3 ltac:(discriminate) ltac:(discriminate)) as (s & SV & E).
  exists al, bo, s. now repeat split.
Qed.
Lemma c168_epochs : forall fuel M p args ss fs dirs freq time width duration d1 d2 m skip xsA evsB, writes args ss -> Forall good ss -> ~ In AHelp ss -> plot_asked ss freq time width duration ->
  last_of sendfiles_of ss = Some d1 -> last_of t1files_of ss = Some d2 -> whole_or (last_of epochs_of ss) 1 (len xsA) -> whole_or (last_of skip_epochs_of ss) 0 skip ->
  54 <= p -> rt M = fl p -> rs M = fl 53 -> (Qabs freq <= 1000)%Q -> epoch_names (dirs d1) -> epoch_names (dirs d2) -> first_common (dirs d1) (dirs d2) (last_of first_of ss) m -> 0 <= m -> 0 <= m + skip ->
  len evsB = len xsA -> t2_dir (dirs d1) (m + skip) xsA -> t1_dir (dirs d2) (m + skip) evsB -> Forall (fun xs => (length xs < fuel)%nat) xsA ->
  let evA := t2_events (m + skip) xsA in let evB := t1_events (m + skip) evsB in Forall event_ok evA -> Forall event_ok evB -> evA <> [] -> evB <> [] ->
  let S := common_start evA evB in (duration = None \/ since S evA <> [] /\ since S evB <> []) ->
  let d := option_map (fun x => fl 53 (x * 1000000000)) duration in
  exists al bo s, run fuel M p args fs dirs = Drawn al bo width s /\ saved ss s /\
    same_values al (within d (since S evA)) /\ Forall2 (compensated (1 # 2 ^ 51) freq time) (within d (since S evB)) bo.
Proof.
  intros fuel M p args ss fs dirs freq time width duration d1 d2 m skip xsA evsB W G NH PA A B NE SK P54 RT RS FR N1 N2 FC M0 MS LE D1 D2 FU evA evB EA EB NA NB S DU d.
  assert (RE : respects (rt M)) by (rewrite RT; intros x y E; now apply fl_eq).
  pose proof (c91_epochs fuel M p false (dirs d1) (dirs d2) (last_of first_of ss) m skip xsA evsB duration freq time P54 RE N1 N2 FC M0 MS LE D1 D2 FU EA EB) as EQ.
  assert (S0 : 0 <= S < 2 ^ 54).
  { unfold S, common_start. destruct evA as [|x evA'] eqn:XA; [congruence|]. destruct evB as [|y evB'] eqn:XB; [congruence|]. inv EA. inv EB. match goal with X : event_ok x, Y : event_ok y |- _ => destruct X as [X _], Y as [Y _] end. cbn [hd]. lia. }
  destruct (c91 M p false 0 0 duration freq time evA evB P54 RT RS EA EB NA NB FR ltac:(reflexivity) ltac:(lia) ltac:(rewrite Z.add_0_r; exact S0) ltac:(rewrite Z.add_0_r; exact DU)) as (al & bo & R & C1 & C2).
  rewrite Z.add_0_r in C1, C2. fold S d in C1, C2. fold evA evB in EQ. rewrite R in EQ.
  assert (NA' : args <> []) by (intros ->; inv W; discriminate).
  destruct (c167 fuel M p args ss fs dirs W G) as [_ H]. destruct (H freq time width duration NA' NH PA ltac:(rewrite RS; now apply scale_positive)) as [H1 _].
  specialize (H1 d1 d2 (len xsA) skip A B NE SK). cbv zeta in H1. rewrite EQ in H1. destruct (H1 ltac:(discriminate) ltac:(discriminate)) as (s & SV & E).
  exists al, bo, s. now repeat split.
Qed.
(** fpplot -vX --freq 500 --ti=3 --dur .0015 -t a -Tb --save-plot p.png *)
Definition args167 : list (list Z) := map str ["-vX"; "--freq"; "500"; "--ti=3"; "--dur"; ".0015"; "-t"; "a"; "-Tb"; "--save-plot"; "p.png"].
Definition ss167 : list ask := [AVerbose; ALegacy; AFreq (str "500"); ATime (str "3"); ADuration (str ".0015"); AReference (str "a"); ATarget (str "b"); APicture (str "p.png")].
Lemma shortened p a n : p = firstn n (word a) -> (2 <? len p) && forallb (fun v => negb (starts v p) || same v (word a)) words = true -> abbreviates p a.
Proof.
  intros E H. apply andb_true_iff in H as [H1 H2]. split; [lia|]. split; [exists (skipn n (word a)); rewrite E; now rewrite firstn_skipn|].
  intros w r I X. rewrite forallb_forall in H2. specialize (H2 w I). apply orb_true_iff in H2 as [H2|H2].
  - apply negb_true_iff in H2. assert (K : starts w p = true) by (apply starts_iff; now exists r). congruence.
  - now apply same_iff.
Qed.
Lemma writes167 : writes args167 ss167.
Proof.
  unfold args167, ss167. vm_compute map.
  apply (W_flags [AVerbose; ALegacy] [118; 88]); [discriminate|repeat constructor|].
  apply (W_long (str "--freq") (AFreq (str "500"))); [reflexivity|apply (shortened _ _ 6); reflexivity|now apply own_simple|ascii|].
  apply (W_long_equals (str "--ti") (ATime (str "3"))); [reflexivity|apply (shortened _ _ 4); reflexivity|now apply own_simple|ascii|].
  apply (W_long (str "--dur") (ADuration (str ".0015"))); [reflexivity|apply (shortened _ _ 5); reflexivity|now apply own_simple|ascii|].
  apply (W_detached [] [] (AReference [97]) 116 [97]); [constructor|reflexivity|reflexivity|now apply own_simple|ascii|].
  apply (W_attached [] [] (ATarget [98]) 84 [98]); [constructor|reflexivity|reflexivity|split; [discriminate|intros [X|[]]; discriminate]|ascii|].
  apply (W_long (str "--save-plot") (APicture (str "p.png"))); [reflexivity|apply (shortened _ _ 11); reflexivity|now apply own_simple|ascii|].
  constructor.
Qed.
Lemma decimal500 : decimal (str "500") 500. Proof. exact (decimal_text [] false (str "500") [] [] 0 500 plus_none eq_refl no_exponent ltac:(vm_compute; reflexivity) ltac:(vm_compute; reflexivity)). Qed.
Lemma decimal3 : decimal (str "3") 3. Proof. exact (decimal_text [] false (str "3") [] [] 0 3 plus_none eq_refl no_exponent ltac:(vm_compute; reflexivity) ltac:(vm_compute; reflexivity)). Qed.
Lemma decimal0015 : decimal (str ".0015") (fl 53 (15 # 10000)). Proof. exact (decimal_text [] false [] (str "0015") [] 0 _ plus_none eq_refl no_exponent ltac:(vm_compute; reflexivity) ltac:(vm_compute; reflexivity)). Qed.
Lemma good167 : Forall good ss167.
Proof. repeat constructor; cbn [good]; eexists; [exact decimal500|exact decimal3|exact decimal0015]. Qed.
Lemma asked167 : plot_asked ss167 500 3 1000 (Some (fl 53 (15 # 10000))).
Proof. split; [exact decimal500|]. split; [exact decimal3|]. split; [reflexivity|exact decimal0015]. Qed.
Lemma freq_word : option_word (codes "--freq") (AFreq (codes "-1e-6")). Proof. left. apply (shortened _ _ 6); reflexivity. Qed.
(** fpfind and then fpplot, by their command lines *)
From Verif Require Import AccuracySpec PairSpec SignalSpec RoundedSpec WholeSpec SwapSpec ExistSpec SkipSpec SkipProofs.
Lemma c171 : forall e fuel fuel2 M p repr o lg evA evB skip k D F j W args ss args' ss' fs dirs a b,
  FpCliSpec.writes args ss -> Forall FpCliSpec.good ss -> ~ In FpCliSpec.AHelp ss -> search_asked ss o -> FpCliSpec.last_of FpCliSpec.sendfiles_of ss = None \/ FpCliSpec.last_of FpCliSpec.t1files_of ss = None ->
  FpCliSpec.last_of FpCliSpec.reference_of ss = Some a -> FpCliSpec.last_of FpCliSpec.target_of ss = Some b -> decimal_or (FpCliSpec.last_of FpCliSpec.skip_of ss) 0 skip -> FpCliSpec.requested FpCliSpec.ALegacy ss lg ->
  fs a = Some (encode (A1 lg) (map word_of evA)) -> fs b = Some (encode (A1 lg) (map word_of evB)) ->
  computes e o evA evB M p -> (forall x, field_ok (repr x)) -> plain_search o -> 0 < MainModel.buffer_order o -> (0 <= W)%Q -> (0 <= j)%Q ->
  recordings evA evB skip k -> let S := common_start evA evB + k in must_find e M o (since S evA) (since S evB) D F j W -> MainModel.flag o = 0 ->
  exists n time N ws dt df, (forall m, (n <= m)%nat -> FpCliModel.run m fuel2 M p repr args fs dirs = FpCliModel.Exit 0 (repr df ++ 9 :: time ++ [10])) /\
    FpfindSpec.decimal time N /\ finds_relation M o (since S evA) (since S evB) D F j W ws dt df /\
    let P := told_search o in
    forall freq eps width duration, writes args' ss' -> Forall good ss' -> ~ In AHelp ss' -> plot_asked ss' freq (inject_Z N) width duration -> last_of sendfiles_of ss' = None \/ last_of t1files_of ss' = None ->
    last_of reference_of ss' = Some a -> last_of target_of ss' = Some b -> decimal_or (last_of skip_of ss') 0 skip -> requested ALegacy ss' lg ->
    (Qabs freq <= 1000)%Q -> (Qabs (freq / 1000000 - df) <= eps)%Q ->
    let d := option_map (fun x => fl 53 (x * 1000000000)) duration in
    exists al bo s, run fuel M p args' fs dirs = Drawn al bo width s /\ saved ss' s /\ same_values al (within d (since S evA)) /\
      Forall2 (fun t' y => forall t, belongs D F j t t' -> shown_near (time_off P D F j W ws dt + (1 # 2)) (freq_off P F j W ws + eps) j (inject_Z N) t t' y) (within d (since S evB)) bo.
Proof.
  intros e fuel fuel2 M p repr o lg evA evB skip k D F j W args ss args' ss' fs dirs a b WR G NH SO ND RA TB SK LG FA FB CM RP PL BO W0 J0 RC S MF F0.
  destruct (c125 e fuel2 M p repr o lg evA evB skip k D F j W args ss fs dirs a b WR G NH SO ND RA TB SK LG FA FB CM RP PL BO W0 J0 RC MF F0) as (n & tm & N & ws & dt & df & R & DN & FR & H).
  exists n, tm, N, ws, dt, df. split; [exact R|]. split; [exact DN|]. split; [exact FR|]. intros P freq eps width duration WR' G' NH' PA ND' RA' TB' SK' LG' FR1 FE d.
  destruct (H freq eps duration FR1 FE) as (al & bo & PF & C1 & C2). assert (NE : args' <> []) by (intros ->; inv WR'; discriminate).
  destruct CM as (_ & RS & _). destruct (c167 fuel M p args' ss' fs dirs WR' G') as [_ H1]. destruct (H1 freq (inject_Z N) width duration NE NH' PA ltac:(rewrite RS; now apply scale_positive)) as [_ H2]. destruct (H2 ND') as [H3 _].
  specialize (H3 a b _ _ lg skip RA' TB' FA FB LG' SK'). cbv zeta in H3. rewrite PF in H3. destruct (H3 ltac:(discriminate) ltac:(discriminate)) as (s & SV & E).
  exists al, bo, s. now repeat split.
Qed.
