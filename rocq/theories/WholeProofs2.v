(** From two files through fpfind and freqcd to the corrected file. *)
From Coq Require Import QArith Qabs Lqa Permutation Lia.
From Verif Require Import Float Base FreqcdModel FreqcdSpec FreqcdCliSpec FreqcdCliProofs TimestampsModel TimestampsSpec EpochsModel UtilsModel UtilsSpec FpfindModel FpfindSpec FpfindProofs3 FpfindProofs4 FpfindPipe
  MainModel MainProofs3 MainSpec2 MainProofs4 PipeSpec PipeProofs AccuracySpec AccuracyProofs PairSpec SignalSpec RoundedSpec RoundedProofs CdFileSpec CdFileProofs CdRunModel CdRunSpec CdRunProofs CdRunProofs2 CdRunProofs3 WholeSpec WholeProofs.
Local Open Scope Z_scope.

Lemma units_near_by dt df F f E : (Qabs df <= 1 # 8192)%Q -> (Qabs (df - F) <= E)%Q -> (E <= 1 # 100)%Q -> nearest (snd (inverted (fl 53) (dt, df)) * inject_Z (2 ^ 34)) f ->
  (Qabs (inject_Z f * (1 # 2 ^ 34) - (1 / (1 + F) - 1)) <= (1 # 2 ^ 35) + (1 # 2 ^ 50) + (5 # 4) * E)%Q.
Proof.
  intros D DF E1 N. pose proof (inverted_near dt df D) as I. unfold nearest in N. set (z := snd (inverted (fl 53) (dt, df))) in *.
  change (inject_Z (2 ^ 34)) with (17179869184 # 1)%Q in N. change (1 # 2 ^ 34)%Q with (1 # 17179869184)%Q. change (1 # 2 ^ 35)%Q with (1 # 34359738368)%Q.
  change (1 # 2 ^ 50)%Q with (1 # 1125899906842624)%Q in *.
  pose proof (proj1 (qabs_iff _ _) DF) as DF'. apply qabs_iff in D, N, I.
  assert (E2 : (Qabs (1 + df - (1 + F)) <= E)%Q) by (apply qabs_iff; lra).
  pose proof (inverse_near (1 + df) (1 + F) _ ltac:(lra) ltac:(lra) E2) as IN. apply qabs_iff in IN. apply qabs_iff. lra.
Qed.
Lemma units_step e F f t0 n t t' : ~ (1 + F == 0)%Q -> (Qabs (inject_Z f * (1 # 2 ^ 34) - (1 / (1 + F) - 1)) <= e)%Q ->
  FreqcdSpec.accurate f t0 n t t' -> in_step e F t0 n t t'.
Proof.
  intros F1 U A dt0. unfold FreqcdSpec.accurate in A. unfold FpfindSpec.corrected. cbn [fst snd].
  set (r := (1 / (1 + F) - 1)%Q) in *. set (g := (inject_Z f * (1 # 2 ^ 34))%Q) in *.
  set (T := inject_Z (t - t0)). set (T' := inject_Z (t' - t0)).
  assert (E1 : ((inject_Z t - dt0) / (1 + F) - (inject_Z t0 - dt0) / (1 + F) == T * (1 + r))%Q).
  { unfold T, r. unfold Z.sub. rewrite inject_Z_plus, inject_Z_opp. field. assumption. }
  assert (E2 : (Qabs (T' - T * (1 + g)) <= (3 # 2) * inject_Z n)%Q).
  { assert (Z1 : Z.abs (2 * (2 ^ 34 * (t' - t0 - (t - t0)) - f * (t - t0))) <= 3 * n * 2 ^ 34).
    { replace (t' - t0 - (t - t0)) with (t' - t) by lia. rewrite Z.abs_mul. change (Z.abs 2) with 2. lia. }
    set (d := t - t0) in *. set (d' := t' - t0) in *. clearbody d d'.
    assert (EQ : (T' - T * (1 + g) == inject_Z (2 * (2 ^ 34 * (d' - d) - f * d)) * (1 # 2 ^ 35))%Q).
    { unfold T', T, g. unfold Z.sub. rewrite !inject_Z_mult, !inject_Z_plus, !inject_Z_opp, !inject_Z_mult, !inject_Z_plus, !inject_Z_opp. change (inject_Z 2) with (2 # 1).
      change (inject_Z (2 ^ 34)) with (17179869184 # 1). change (1 # 2 ^ 34)%Q with (1 # 17179869184)%Q. change (1 # 2 ^ 35)%Q with (1 # 34359738368)%Q. field. }
    rewrite EQ, Qabs_Qmult. rewrite (Qabs_pos (1 # 2 ^ 35)) by discriminate.
    assert (Z2 : (Qabs (inject_Z (2 * (2 ^ 34 * (d' - d) - f * d))) <= inject_Z (3 * n * 2 ^ 34))%Q).
    { apply qabs_iff. rewrite <- inject_Z_opp, <- !Zle_Qle. lia. }
    apply Qle_trans with (inject_Z (3 * n * 2 ^ 34) * (1 # 2 ^ 35))%Q; [apply Qmult_le_compat_r; [exact Z2|discriminate]|].
    apply Qle_lteq. right. rewrite !inject_Z_mult. change (inject_Z 3) with (3 # 1). change (inject_Z (2 ^ 34)) with (17179869184 # 1). change (1 # 2 ^ 35)%Q with (1 # 34359738368)%Q. field. }
  assert (E3 : (Qabs (T * (g - r)) <= e * Qabs T)%Q).
  { rewrite Qabs_Qmult, Qmult_comm. apply Qmult_le_compat_r; [exact U|apply Qabs_nonneg]. }
  rewrite E1. clearbody T T' g r. apply qabs_iff in E2, E3. apply qabs_iff. 
  assert (E4 : (T' - T * (1 + r) == (T' - T * (1 + g)) + T * (g - r))%Q) by ring. rewrite E4. lra.
Qed.
(** events in step are as far apart as in the reference *)
Lemma steps_apart e F d j t0 n m t u t' u' a b : (Qabs F <= 1 # 2 ^ 12)%Q -> (Qabs (inject_Z t - (d + (1 + F) * a)) <= j)%Q -> (Qabs (inject_Z u - (d + (1 + F) * b)) <= j)%Q ->
  in_step e F t0 n t t' -> in_step e F t0 m u u' -> as_apart e j t0 n m t u t' u' a b.
Proof.
  intros HF HA HB S1 S2. specialize (S1 d). specialize (S2 d). unfold as_apart. unfold FpfindSpec.corrected in *. cbn [fst snd] in *.
  change (1 # 2 ^ 12)%Q with (1 # 4096)%Q in HF. apply qabs_iff in HF. assert (F1 : ~ (1 + F == 0)%Q) by lra.
  set (I := (/ (1 + F))%Q). assert (I2 : (0 <= I <= 2049 # 2048)%Q).
  { split; [apply Qlt_le_weak, Qinv_lt_0_compat; lra|]. setoid_replace I with (1 / (1 + F))%Q by (unfold I; field; assumption). apply Qle_shift_div_r; lra. }
  assert (J0 : (0 <= j)%Q) by (eapply Qle_trans; [apply Qabs_nonneg|exact HA]).
  assert (X : forall v c, (Qabs (v - (d + (1 + F) * c)) <= j -> Qabs ((v - d) / (1 + F) - c) <= (2049 # 2048) * j)%Q).
  { intros v c H. setoid_replace ((v - d) / (1 + F) - c)%Q with ((v - (d + (1 + F) * c)) * I)%Q by (unfold I; field; assumption).
    rewrite Qabs_Qmult, (Qabs_pos I) by apply I2. apply Qle_trans with (j * I)%Q; [apply Qmult_le_compat_r; [exact H|apply I2]|]. rewrite Qmult_comm. apply Qmult_le_compat_r; [apply I2|exact J0]. }
  apply X in HA, HB. set (x := ((inject_Z t - d) / (1 + F))%Q) in *. set (y := ((inject_Z u - d) / (1 + F))%Q) in *. set (z := ((inject_Z t0 - d) / (1 + F))%Q) in *. clearbody x y z.
  assert (EZ : (inject_Z (t' - u') == inject_Z (t' - t0) - inject_Z (u' - t0))%Q) by (unfold Z.sub; rewrite !inject_Z_plus, !inject_Z_opp; ring).
  rewrite EZ, inject_Z_plus. apply qabs_iff in HA, HB, S1, S2. apply qabs_iff. rewrite Qmult_plus_distr_r, (Qmult_plus_distr_r (3 # 2)).
  set (p := (e * Qabs (inject_Z (t - t0)))%Q) in *. set (q := (e * Qabs (inject_Z (u - t0)))%Q) in *. lra.
Qed.
Lemma word_of_ok e : event_ok e -> word_ok (word_of e) /\ time_of (word_of e) = fst e.
Proof. intros [T P]. unfold word_ok, word_of, time_of, event_ok in *. destruct e as [t q]. cbn [fst snd] in *. lia. Qed.
Lemma file_times lg evs : Forall event_ok evs -> map (ev_time lg) (FreqcdSpec.groups (encode (A1 lg) (map word_of evs))) = map fst evs.
Proof.
  intros H. rewrite times_encode.
  - rewrite map_map. apply map_ext_in. intros e I. rewrite Forall_forall in H. now apply word_of_ok, H.
  - apply Forall_map. eapply Forall_impl; [|exact H]. intros e K. now apply word_of_ok.
Qed.
Lemma encode_bytes lg vs : bytes_ok (encode (A1 lg) vs) /\ len (encode (A1 lg) vs) mod 8 = 0.
Proof.
  induction vs as [|v vs [B L]]; [split; [constructor|reflexivity]|]. change (encode (A1 lg) (v :: vs)) with (encode1 (A1 lg) v ++ encode (A1 lg) vs). split.
  - apply Forall_app. split; [|exact B]. destruct lg; cbn [encode1]; apply Forall_app; split; apply le_enc_bytes.
  - rewrite len_app, encode1_len. lia.
Qed.
(** freqcd with the line printed for an offset [df] that is within [E] of F *)
Lemma line_run repr dt df F E j lg evB line : (forall x, field_ok (repr x)) -> line = output (fl 53) repr 7 dt df -> (Qabs (df - F) <= E)%Q -> (Qabs F + E <= (1 # 2 ^ 13) - (1 # 2 ^ 25))%Q ->
  Forall event_ok evB -> nondecr (map fst evB) ->
  forall junk ib ob fb prog args ss fs stdin, alloc_ok ib ob fb -> corrects_with args ss line -> legacy_of ss = lg ->
     input_of fs stdin ss = Some (encode (A1 lg) (map word_of evB)) ->
     exists en times, freqcd_main true junk ib ob fb (prog :: args) fs stdin = Some (Ok en) /\ code en = 0 /\
       retimed_file fs (files en) (stdout en) ss (encode (A1 lg) (map word_of evB)) times /\
       forall i k ev0 evi evk t' u' d a b, nth_error evB 0 = Some ev0 -> nth_error evB i = Some evi -> nth_error evB k = Some evk -> nth_error times i = Some t' -> nth_error times k = Some u' ->
         (Qabs (inject_Z (fst evi) - (d + (1 + F) * a)) <= 256 * j)%Q -> (Qabs (inject_Z (fst evk) - (d + (1 + F) * b)) <= 256 * j)%Q ->
         as_apart ((5 # 4) * E + (1 # 2 ^ 35) + (1 # 2 ^ 50)) (256 * j) (fst ev0) (Z.of_nat i / 1024 + 1) (Z.of_nat k / 1024 + 1) (fst evi) (fst evk) t' u' a b.
Proof.
  intros RP LN BE SM OB ND junk ib ob fb prog args ss fs stdin AL (WR & GD & NH & LC & DC & NF & SE) LG IN.
  pose proof (Qabs_nonneg F) as F0. pose proof (Qabs_nonneg (df - F)) as DF0.
  assert (T1 : (Qabs df <= Qabs (df - F) + Qabs F)%Q) by (eapply Qle_trans; [|apply Qabs_triangle]; apply Qle_lteq; right; apply Qabs_wd; ring).
  assert (B : (Qabs df <= (1 # 2 ^ 13) - (1 # 2 ^ 25))%Q) by lra.
  change (1 # 2 ^ 13)%Q with (1 # 8192)%Q in SM. change (1 # 2 ^ 25)%Q with (1 # 33554432)%Q in SM.
  remember (units true (fl 53) dt df) as n eqn:EN. assert (NS : Z.abs n < 2097152) by (rewrite EN; unfold units; pose proof (c61_inverted dt df B) as NS; change (2 ^ 21) with 2097152 in NS; exact NS).
  assert (LD : line = dec n) by (rewrite LN, EN, <- (printed_units true (fl 53) repr dt df RP); unfold printed; reflexivity).
  assert (GN : good_number line n) by (rewrite LD; split; [apply decimal_denotes, dec_spec|change (2 ^ 31) with 2147483648; lia]).
  assert (NR : nearest (snd (inverted (fl 53) (dt, df)) * inject_Z (2 ^ 34)) n).
  { rewrite EN. unfold units, freq_units. change (Z.shiftl 1 34) with (2 ^ 34). change (snd (inverted (fl 53) (dt, df))) with (snd (invert (fl 53) dt df)). set (df' := snd (invert (fl 53) dt df)).
    assert (EE : (fl 53 df' == df')%Q) by (apply fl_idem; lia). pose proof (rneQ_nearest (fl 53 (df' * inject_Z (2 ^ 34)))) as N. unfold nearest in *. now rewrite <- (float_scaled df' EE) at 2. }
  assert (AK : asks args ss n).
  { split; [exact WR|]. split; [exact GD|]. split; [exact NH|]. exists n. rewrite LC, DC. split; [exact GN|]. unfold documented. replace (Z.abs n <=? 2097151) with true by lia. reflexivity. }
  set (X := encode (A1 lg) (map word_of evB)) in *.
  assert (EV : event_file (legacy_of ss) X).
  { rewrite LG. destruct (encode_bytes lg (map word_of evB)) as [B1 B2]. split; [exact B1|]. split; [exact B2|]. unfold X. rewrite file_times by exact OB. exact ND. }
  destruct (on_file junk ib ob fb prog args ss n fs stdin X AL AK IN EV NF SE) as (en & times & RUN & CO & RF & ACC). exists en, times. split; [exact RUN|]. split; [exact CO|]. split; [exact RF|].
  intros i k ev0 evi evk t' u' d a b H0 HI HK HT HU PA PB.
  assert (ET : forall x ev, nth_error evB x = Some ev -> event_time (legacy_of ss) X x (fst ev)).
  { intros x ev Q. unfold event_time, X. rewrite LG, file_times by exact OB. now apply map_nth_error. }
  assert (F1 : ~ (1 + F == 0)%Q).
  { intros Q. assert (L : (Qabs F <= 1 # 8192)%Q) by lra. apply qabs_iff in L. lra. }
  assert (U : (Qabs (inject_Z n * (1 # 2 ^ 34) - (1 / (1 + F) - 1)) <= (5 # 4) * E + (1 # 2 ^ 35) + (1 # 2 ^ 50))%Q).
  { eapply Qle_trans; [apply (units_near_by dt df F n E)|].
    - change (1 # 2 ^ 13)%Q with (1 # 8192)%Q in B. change (1 # 2 ^ 25)%Q with (1 # 33554432)%Q in B. lra.
    - exact BE.
    - lra.
    - exact NR.
    - lra. }
  apply (steps_apart _ F d); try assumption.
  - change (1 # 2 ^ 12)%Q with (1 # 4096)%Q. lra.
  - apply (units_step _ F n); [exact F1|exact U|]. apply (ACC i); [exact (ET _ _ H0)|exact (ET _ _ HI)|exact HT].
  - apply (units_step _ F n); [exact F1|exact U|]. apply (ACC k); [exact (ET _ _ H0)|exact (ET _ _ HK)|exact HU].
Qed.
Lemma c106 e fuel M p repr o lg evA evB D F j W line : rt M = fl p -> rs M = fl 53 -> accurate_to e (2 ^ buffer_order o) (len evA) (len evB) M -> (0 <= e)%Q -> 54 <= p -> (forall x, field_ok (repr x)) -> plain_search o ->
  (0 <= W)%Q -> (0 <= j)%Q -> common_events e M o evA evB D F j W -> flag o = 7 -> nondecr (map fst evB) ->
  main_files fuel M p repr o (encode (A1 lg) (map word_of evA)) (encode (A1 lg) (map word_of evB)) lg 0 = Ok line ->
  exists ws, widths_of M o evA evB ws /\ let E := search_freq_error o F j W ws in
  ((Qabs F + E <= (1 # 2 ^ 13) - (1 # 2 ^ 24))%Q ->
   forall junk ib ob fb prog args ss fs stdin, alloc_ok ib ob fb -> corrects_with args ss line -> legacy_of ss = lg ->
     input_of fs stdin ss = Some (encode (A1 lg) (map word_of evB)) ->
     exists en times, freqcd_main true junk ib ob fb (prog :: args) fs stdin = Some (Ok en) /\ code en = 0 /\
       retimed_file fs (files en) (stdout en) ss (encode (A1 lg) (map word_of evB)) times /\
       forall i k ev0 evi evk t' u' d a b, nth_error evB 0 = Some ev0 -> nth_error evB i = Some evi -> nth_error evB k = Some evk -> nth_error times i = Some t' -> nth_error times k = Some u' ->
         (Qabs (inject_Z (fst evi) - (d + (1 + F) * a)) <= 256 * j)%Q -> (Qabs (inject_Z (fst evk) - (d + (1 + F) * b)) <= 256 * j)%Q ->
         as_apart ((5 # 4) * E + (1 # 2 ^ 34)) (256 * j) (fst ev0) (Z.of_nat i / 1024 + 1) (Z.of_nat k / 1024 + 1) (fst evi) (fst evk) t' u' a b).
Proof.
  intros RT RS AC E0 PP RP PS W0 J0 CE FL ND H. destruct (whole_search e fuel M p repr o lg evA evB D F j W line RT RS AC E0 PP PS W0 J0 CE H) as (ws & dt & df & WO & LN & BF & _).
  exists ws. split; [exact WO|]. set (E := search_freq_error o F j W ws) in *. clearbody E. cbv zeta. intros SM junk ib ob fb prog args ss fs stdin AL CW LG IN.
  destruct CE as (_ & OB & _). rewrite FL in LN.
  assert (BE : (Qabs (df - F) <= E + (1 # 2 ^ 49))%Q).
  { eapply Qle_trans; [exact BF|]. change (1 # 2 ^ 50)%Q with (1 # 1125899906842624)%Q. change (1 # 2 ^ 49)%Q with (1 # 562949953421312)%Q. change (1 # 2 ^ 13)%Q with (1 # 8192)%Q in SM. change (1 # 2 ^ 24)%Q with (1 # 16777216)%Q in SM. lra. }
  destruct (line_run repr dt df F (E + (1 # 2 ^ 49)) j lg evB line RP LN BE) with (junk := junk) (ib := ib) (ob := ob) (fb := fb) (prog := prog) (args := args) (ss := ss) (fs := fs) (stdin := stdin) as (en & times & R1 & R2 & R3 & R4); try assumption.
  { change (1 # 2 ^ 49)%Q with (1 # 562949953421312)%Q. change (1 # 2 ^ 13)%Q with (1 # 8192)%Q in *. change (1 # 2 ^ 24)%Q with (1 # 16777216)%Q in SM. change (1 # 2 ^ 25)%Q with (1 # 33554432)%Q. lra. }
  exists en, times. split; [exact R1|]. split; [exact R2|]. split; [exact R3|]. intros i k ev0 evi evk t' u' d a b H0 HI HK HT HU PA PB. pose proof (R4 i k ev0 evi evk t' u' d a b H0 HI HK HT HU PA PB) as Z. unfold as_apart in *. eapply Qle_trans; [exact Z|].
  rewrite <- !Qplus_assoc. apply Qplus_le_l. apply Qmult_le_compat_r.
  - change (1 # 2 ^ 50)%Q with (1 # 1125899906842624)%Q. change (1 # 2 ^ 49)%Q with (1 # 562949953421312)%Q. change (1 # 2 ^ 35)%Q with (1 # 34359738368)%Q. change (1 # 2 ^ 34)%Q with (1 # 17179869184)%Q. lra.
  - pose proof (Qabs_nonneg (inject_Z (fst evi - fst ev0))). pose proof (Qabs_nonneg (inject_Z (fst evk - fst ev0))). lra.
Qed.
