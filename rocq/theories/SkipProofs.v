(** fpfind on part of two recordings and on epoch directories, from the command line; fpplot with its result. *)
From Coq Require Import QArith Qabs Lqa List Lia.
From Verif Require Import Float Base TimestampsModel TimestampsSpec EpochsModel EpochsSpec EpochsStatements UtilsModel UtilsSpec UtilsProofs UtilsProofs2 FpfindModel FpfindSpec FpfindProofs3 FpfindPipe
  MainModel MainProofs MainProofs2 MainProofs3 MainSpec2 MainProofs4 EpochRunSpec EpochRunProofs PipeSpec AccuracySpec AccuracyProofs PairSpec SignalSpec RoundedSpec WholeSpec WholeProofs SwapSpec ExistSpec ExistProofs
  PlotModel PlotSpec PlotProofs CdRunModel ArgModel FpCliModel FpCliSpec FpCliProofs SkipSpec.
Import ListNotations. Local Open Scope Z_scope.

Lemma start_ok evA evB : evA <> [] -> Forall event_ok evA -> 0 <= common_start evA evB.
Proof. intros N O. destruct evA as [|ev evA']; [congruence|]. inv O. match goal with X : event_ok ev |- _ => destruct X as [E _] end. unfold common_start. cbn [hd]. lia. Qed.
(** from the files to the search *)
Lemma skip_equation fuel M p repr o lg evA evB skip k a b : rt M = fl p -> rs M = fl 53 -> 54 <= p -> plain_search o ->
  Forall event_ok evA -> Forall event_ok evB -> evA <> [] -> evB <> [] -> (fl 53 (skip * 1000000000) == inject_Z k / 256)%Q -> let S := common_start evA evB + k in 0 <= S < 2 ^ 54 ->
  getitem (since S evA) (-1) = Ok a -> getitem (since S evB) (-1) = Ok b ->
  main_files fuel M p repr o (encode (A1 lg) (map word_of evA)) (encode (A1 lg) (map word_of evB)) lg skip =
    let* (dt, df) := fpfind fuel M (told_search o) (since S evA) (since S evB) (inject_Z (initial_res o)) [0%Q] false in
    Ok (output (fl 53) repr (MainModel.flag o) dt df).
Proof.
  intros RT RS PP (Z0 & FR & Q1 & W0 & T53 & PC & FS & SP) OA OB NA NB K S SB GA GB.
  destruct (files_since p lg skip k evA evB PP OA OB NA NB K SB) as (ra & pa & rb & pb & al & bo & EA & EB & EN & SA & SBo). fold S in SA, SBo.
  unfold main_files, bins. destruct (Z.ltb_spec (buffer_order o) 0) as [QN|_]; [lia|]. cbn [bind]. rewrite EA, EB. cbn [bind].
  unfold search_and_print. rewrite RT, RS, EN. cbn [bind nth].
  assert (G0 : forall l l', same_values l l' -> l' <> [] -> exists v, getitem l 0 = Ok v).
  { intros l l' X Y. destruct X; [congruence|]. eexists. reflexivity. }
  destruct (G0 al _ SA) as [v1 X1]; [intros X; rewrite X in GA; discriminate|].
  destruct (G0 bo _ SBo) as [v2 X2]; [intros X; rewrite X in GB; discriminate|]. rewrite X1, X2. cbn [bind]. rewrite PC, FS.
  rewrite Z.shiftl_1_l. change (Ta o (2 ^ buffer_order o)) with (acquisition o).
  assert (ES : fl 53 (separation o * fl 53 (inject_Z (acquisition o))) = sep_ns o).
  { unfold sep_ns. apply fl_eq. assert (0 < 2 ^ buffer_order o) by (apply Z.pow_pos_nonneg; lia).
    assert (0 <= acquisition o) by (unfold acquisition; set (n := 2 ^ buffer_order o) in *; clearbody n; apply Z.mul_nonneg_nonneg; nia). rewrite fl_int by lia. reflexivity. }
  rewrite ES. fold (told_search o). rewrite (fpfind_same fuel M (told_search o) al (since S evA) bo (since S evB) (inject_Z (initial_res o)) [0%Q] false); [|intros x y; rewrite RT; apply fl_eq|exact SA|exact SBo].
  reflexivity.
Qed.
Lemma skip_files e M p repr o lg evA evB skip k D F j W : computes e o evA evB M p -> (forall x, field_ok (repr x)) -> plain_search o -> 0 < buffer_order o -> (0 <= W)%Q -> (0 <= j)%Q ->
  recordings evA evB skip k -> let S := common_start evA evB + k in must_find e M o (since S evA) (since S evB) D F j W ->
  exists n line ws dt df, (forall m, (n <= m)%nat -> main_files m M p repr o (encode (A1 lg) (map word_of evA)) (encode (A1 lg) (map word_of evB)) lg skip = Ok line) /\
    shows_offsets repr (MainModel.flag o) dt df line /\ finds_relation M o (since S evA) (since S evB) D F j W ws dt df.
Proof.
  intros (RT & RS & AC & E0 & PP & GX & GZ) RP PS BO W0 J0 (OA & OB & NA & NB & K & K0 & SB) S (ES & SO & WR & SG).
  pose proof (start_ok evA evB NA OA) as ST. assert (S0 : 0 <= S < 2 ^ 54) by (unfold S; lia).
  pose proof SO as (a & b & GA & GB & _). pose proof PS as (Z0 & FR & Q1 & WR0 & T53 & PC & FS & SP).
  assert (PT : 0 < num_bins (told_search o)) by (cbn [told_search num_bins]; apply Z.pow_pos_nonneg; lia).
  assert (EV : Z.odd (num_bins (told_search o)) = false).
  { cbn [told_search num_bins]. replace (2 ^ buffer_order o) with (2 * 2 ^ (buffer_order o - 1)) by (rewrite <- Z.pow_succ_r by lia; f_equal; lia). rewrite Z.odd_mul. reflexivity. }
  assert (TR : (0 < target_resolution (told_search o))%Q) by (cbn [told_search target_resolution]; change 0%Q with (inject_Z 0); rewrite <- Zlt_Qlt; lia).
  assert (R0 : (0 < inject_Z (initial_res o))%Q) by (change 0%Q with (inject_Z 0); rewrite <- Zlt_Qlt; lia).
  destruct (c111 e M p (told_search o) (since S evA) (since S evB) (inject_Z (initial_res o)) D F j W RT RS (accurate_since _ _ _ _ _ _ AC) E0 PP GX GZ PT EV TR R0 (res_float o PS) SP W0 J0 (since_device S evB ltac:(lia) OB) ES SO WR SG)
    as (n & dt & df & ws & FP & C & X & Y).
  exists n, (output (fl 53) repr (MainModel.flag o) dt df), ws, dt, df. split; [|split; [exact (c62 (fl 53) repr (MainModel.flag o) dt df RP)|now split]].
  intros m L. rewrite (skip_equation m M p repr o lg evA evB skip k a b RT RS PP PS OA OB NA NB K S0 GA GB). fold S. rewrite (FP m L). reflexivity.
Qed.
(** ** The command line *)
Lemma c123 e fuel2 M p repr o lg evA evB skip k D F j W args ss fs dirs a b :
  writes args ss -> Forall good ss -> ~ In AHelp ss -> search_asked ss o -> last_of sendfiles_of ss = None \/ last_of t1files_of ss = None ->
  last_of reference_of ss = Some a -> last_of target_of ss = Some b -> decimal_or (last_of skip_of ss) 0 skip -> requested ALegacy ss lg ->
  fs a = Some (encode (A1 lg) (map word_of evA)) -> fs b = Some (encode (A1 lg) (map word_of evB)) ->
  computes e o evA evB M p -> (forall x, field_ok (repr x)) -> plain_search o -> 0 < buffer_order o -> (0 <= W)%Q -> (0 <= j)%Q ->
  recordings evA evB skip k -> let S := common_start evA evB + k in must_find e M o (since S evA) (since S evB) D F j W ->
  exists n line ws dt df, (forall m, (n <= m)%nat -> run m fuel2 M p repr args fs dirs = Exit 0 (line ++ [10])) /\
    shows_offsets repr (MainModel.flag o) dt df line /\ finds_relation M o (since S evA) (since S evB) D F j W ws dt df.
Proof.
  intros WR G NH SO ND RA TB SK LG FA FB CM RP PL BO W0 J0 RC S MF.
  destruct (skip_files e M p repr o lg evA evB skip k D F j W CM RP PL BO W0 J0 RC MF) as (n & line & ws & dt & df & R & C). exists n, line, ws, dt, df. split; [|exact C]. intros m Hm.
  assert (NE : args <> []). { intros ->. inv WR. discriminate. }
  rewrite (run_files m fuel2 M p repr args ss fs dirs WR G NE NH o SO ND a b _ _ lg skip RA TB FA FB LG SK), (R m Hm). reflexivity.
Qed.
Lemma c124 e fuel2 M p repr o n0 m skip xsA evsB D F j W args ss fs dirs d1 d2 :
  writes args ss -> Forall good ss -> ~ In AHelp ss -> search_asked ss o -> last_of sendfiles_of ss = Some d1 -> last_of t1files_of ss = Some d2 -> whole_or (last_of skip_epochs_of ss) 0 skip ->
  computes e o (t2_events (m + skip) xsA) (t1_events (m + skip) evsB) M p -> (forall x, field_ok (repr x)) -> plain_search o -> 0 < buffer_order o -> (0 <= W)%Q -> (0 <= j)%Q ->
  epoch_names (dirs d1) -> epoch_names (dirs d2) -> first_common (dirs d1) (dirs d2) (last_of first_of ss) m -> 0 <= m -> 0 <= m + skip ->
  bins o = Ok n0 -> epochs_needed (fl 53) o n0 = Ok (len xsA) -> len evsB = len xsA ->
  t2_dir (dirs d1) (m + skip) xsA -> t1_dir (dirs d2) (m + skip) evsB -> Forall (fun xs => (length xs < fuel2)%nat) xsA ->
  let evA := t2_events (m + skip) xsA in let evB := t1_events (m + skip) evsB in
  recordings evA evB 0 0 -> let S := common_start evA evB in must_find e M o (since S evA) (since S evB) D F j W ->
  exists n line ws dt df, (forall k, (n <= k)%nat -> run k fuel2 M p repr args fs dirs = Exit 0 (line ++ [10])) /\
    shows_offsets repr (MainModel.flag o) dt df line /\ finds_relation M o (since S evA) (since S evB) D F j W ws dt df.
Proof.
  intros WR G NH SO DA DB SK CM RP PL BO W0 J0 N1 N2 FC M0 MS BN EN LB TA TB FU evA evB RC S MF.
  assert (ES : common_start evA evB + 0 = S) by (unfold S; lia). rewrite <- ES in MF |- *.
  destruct (skip_files e M p repr o false evA evB 0 0 D F j W CM RP PL BO W0 J0 RC MF) as (n & line & ws & dt & df & R & C). exists n, line, ws, dt, df. split; [|exact C]. intros k Hk.
  assert (NE : args <> []). { intros ->. inv WR. discriminate. }
  destruct CM as (RT & RS & _ & _ & P54 & _). destruct RC as (OA & OB & _).
  rewrite (run_dirs k fuel2 M p repr args ss fs dirs WR G NE NH o SO d1 d2 skip DA DB SK).
  rewrite (c90 k fuel2 M p repr o false n0 (dirs d1) (dirs d2) (last_of first_of ss) m skip xsA evsB P54 ltac:(intros x y; rewrite RT; apply fl_eq) N1 N2 FC M0 MS BN ltac:(now rewrite RS) LB TA TB FU OA OB).
  fold evA evB. rewrite (R k Hk). reflexivity.
Qed.
(** ** fpplot with what fpfind printed *)
Lemma weaken2 {A B} (P Q : A -> B -> Prop) l r : (forall x y, P x y -> Q x y) -> Forall2 P l r -> Forall2 Q l r.
Proof. intros H. induction 1; constructor; auto. Qed.
Lemma shown_pair eps G N freq D F j t t' y E : (Qabs freq <= 1000)%Q -> compensated (1 # 2 ^ 51) freq N t' y -> belongs D F j t t' -> (Qabs (D - N) <= E)%Q -> (Qabs (F - freq / 1000000) <= G + eps)%Q ->
  shown_near E (G + eps) j N t t' y.
Proof.
  intros FB C B EN GF. unfold belongs in B. unfold shown_near. set (D' := (D + (t' - (D + (1 + F) * t)))%Q).
  eapply Qle_trans; [apply (c91_zero (1 # 2 ^ 51) freq N F D' t t' y FB C); unfold D'; ring|].
  apply Qplus_le_r. apply Qmult_le_l; [reflexivity|].
  assert (X : (Qabs (D' - N) <= E + j)%Q).
  { unfold D'. setoid_replace (D + (t' - (D + (1 + F) * t)) - N)%Q with ((D - N) + (t' - (D + (1 + F) * t)))%Q by ring. eapply Qle_trans; [apply Qabs_triangle|]. now apply Qplus_le_compat. }
  apply Qplus_le_compat; [exact X|]. rewrite (Qmult_comm (Qabs t)), (Qmult_comm (Qabs t)). apply Qmult_le_compat_r; [exact GF|apply Qabs_nonneg].
Qed.
Lemma c125 e fuel2 M p repr o lg evA evB skip k D F j W args ss fs dirs a b :
  writes args ss -> Forall good ss -> ~ In AHelp ss -> search_asked ss o -> last_of sendfiles_of ss = None \/ last_of t1files_of ss = None ->
  last_of reference_of ss = Some a -> last_of target_of ss = Some b -> decimal_or (last_of skip_of ss) 0 skip -> requested ALegacy ss lg ->
  fs a = Some (encode (A1 lg) (map word_of evA)) -> fs b = Some (encode (A1 lg) (map word_of evB)) ->
  computes e o evA evB M p -> (forall x, field_ok (repr x)) -> plain_search o -> 0 < buffer_order o -> (0 <= W)%Q -> (0 <= j)%Q ->
  recordings evA evB skip k -> let S := common_start evA evB + k in must_find e M o (since S evA) (since S evB) D F j W -> MainModel.flag o = 0 ->
  exists n time N ws dt df, (forall m, (n <= m)%nat -> run m fuel2 M p repr args fs dirs = Exit 0 (repr df ++ 9 :: time ++ [10])) /\
    FpfindSpec.decimal time N /\ finds_relation M o (since S evA) (since S evB) D F j W ws dt df /\
    let P := told_search o in
    forall freq eps duration, (Qabs freq <= 1000)%Q -> (Qabs (freq / 1000000 - df) <= eps)%Q ->
    let d := option_map (fun x => fl 53 (x * 1000000000)) duration in
    exists al bo, plot_files M p (encode (A1 lg) (map word_of evA)) (encode (A1 lg) (map word_of evB)) lg skip duration freq (inject_Z N) = Ok (al, bo) /\
      same_values al (PlotSpec.within d (since S evA)) /\
      Forall2 (fun t' y => forall t, belongs D F j t t' -> shown_near (time_off P D F j W ws dt + (1 # 2)) (freq_off P F j W ws + eps) j (inject_Z N) t t' y) (PlotSpec.within d (since S evB)) bo.
Proof.
  intros WR G NH SO ND RA TB SK LG FA FB CM RP PL BO W0 J0 RC S MF F0.
  destruct (c123 e fuel2 M p repr o lg evA evB skip k D F j W args ss fs dirs a b WR G NH SO ND RA TB SK LG FA FB CM RP PL BO W0 J0 RC MF) as (n & line & ws & dt & df & R & SH & FR).
  rewrite F0 in SH. destruct SH as (freq_text & time & N & LN & FT & DN & NN). cbn in LN, FT, NN.
  exists n, time, N, ws, dt, df. split; [|split; [exact DN|split; [exact FR|]]].
  { intros m Hm. rewrite (R m Hm), LN, FT, <- app_assoc. reflexivity. }
  intros P freq eps duration FB1 FE d. destruct FR as (_ & FX & TX). destruct CM as (RT & RS & _ & _ & PP & _). destruct RC as (OA & OB & NA & NB & K & K0 & SB). destruct MF as (_ & (x & y & GA & GB & _) & _).
  pose proof (start_ok evA evB NA OA) as ST.
  destruct (c91 M p lg skip k duration freq (inject_Z N) evA evB PP RT RS OA OB NA NB FB1 K K0 ltac:(lia)) as (al & bo & PF & VA & VB).
  { right. split; intros Z; [fold S in Z; rewrite Z in GA; discriminate|fold S in Z; rewrite Z in GB; discriminate]. }
  fold S d in VA, VB. exists al, bo. split; [exact PF|]. split; [exact VA|].
  refine (weaken2 _ _ _ _ _ VB). intros t' y0 C t B. apply (shown_pair eps _ _ freq D F j t t' y0); try assumption.
  - setoid_replace (D - inject_Z N)%Q with ((D - dt) + (dt - inject_Z N))%Q by ring. eapply Qle_trans; [apply Qabs_triangle|]. apply Qplus_le_compat; [now rewrite Qabs_Qminus|rewrite Qabs_Qminus; exact NN].
  - setoid_replace (F - freq / 1000000)%Q with ((F - df) + (df - freq / 1000000))%Q by ring. eapply Qle_trans; [apply Qabs_triangle|]. apply Qplus_le_compat; [now rewrite Qabs_Qminus|now rewrite Qabs_Qminus].
Qed.
