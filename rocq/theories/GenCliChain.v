(** generate_freqcd_testcase, freqcd and generate_freqcd_testcase one after another. *)
From Coq Require Import QArith String Lia.
From Coq Require Import ZifyBool.
From Verif Require Import Float Base FreqcdModel FreqcdSpec FreqcdCliSpec FpfindModel MiscModel CdRunModel CdRunSpec TimestampsModel TimestampsSpec ChainSpec ChainProofs ArgModel FpCliSpec CliSpec TsCliModel TsCliSpec
  GenCliModel GenCliSpec GenCliProofs3.
Import ListNotations. Local Open Scope Z_scope.

Lemma events_of ts : Forall (fun t => 0 <= t < 2 ^ 54) ts -> events_at false ts = encode (A1 false) (map word_of (map (fun t => (t, 1)) ts)).
Proof. intros H. unfold events_at. f_equal. rewrite map_map. apply map_ext_Forall. eapply Forall_impl; [|exact H]. cbn beta. intros t T. now rewrite Z.mod_small. Qed.
Lemma c134 p args1 ss1 tmp1 fs1 in1 ws ts junk ib ob fb prog args2 ss2 f fs2 args3 ss3 tmp3 fs3 :
  54 <= p -> gcommand args1 ss1 -> Forall ggood ss1 -> ~ In GHelp ss1 -> last_given gout_of ss1 = None -> last_given gtimes_of ss1 = Some ws -> Forall2 whole ws ts ->
  Forall (fun t => 0 <= t < 2 ^ 54) ts -> nondecr ts ->
  alloc_ok ib ob fb -> asks args2 ss2 f -> static false ss2 -> FreqcdCliSpec.last_of FreqcdCliSpec.in_of ss2 = None -> FreqcdCliSpec.last_of FreqcdCliSpec.out_of ss2 = None ->
  with_input args3 ss3 [45] -> Forall ggood ss3 -> ~ In GHelp ss3 -> ~ In GLegacy ss3 -> last_given gtimes_of ss3 = None -> last_given gout_of ss3 = None -> fs3 tmp3 = None ->
  exists e1 e2 out times,
    grun p tmp1 args1 fs1 in1 = Ends e1 /\ code e1 = 0 /\
    freqcd_main true junk ib ob fb (prog :: args2) fs2 (CdRunModel.stdout e1) = Some (Ok e2) /\ code e2 = 0 /\
    said (grun p tmp3 args3 fs3 (CdRunModel.stdout e2)) 0 fs3 out /\ numbers (map (fun t => t mod 2 ^ 54) times) out /\ length times = length ts /\ nondecr times /\
    forall i t0 t t', nth_error ts 0 = Some t0 -> nth_error ts i = Some t -> nth_error times i = Some t' -> accurate f t0 (Z.of_nat i / 1024 + 1) t t'.
Proof.
  intros P C1 G1 H1 O1 T1 W T N A K S IN OU C3 G3 H3 L3 T3 O3 FT.
  destruct (c130_times p tmp1 args1 ss1 fs1 in1 ws ts C1 G1 H1 T1 W) as [R _]. specialize (R ltac:(eapply Forall_impl; [|exact T]; cbn beta; lia)). rewrite O1 in R. cbn [delivers app] in R.
  destruct R as (e1 & E1 & Z1 & S1 & _). rewrite events_of in S1 by exact T. set (evs := map (fun t => (t, 1)) ts) in *. assert (M1 : map fst evs = ts) by (unfold evs; rewrite map_map; apply map_id).
  assert (OK : Forall event_ok evs). { apply Forall_map. eapply Forall_impl; [|exact T]. cbn beta. intros t H. split; cbn [fst snd]; lia. }
  destruct (on_events false junk ib ob fb prog args2 ss2 f fs2 (encode (A1 false) (map word_of evs)) evs A K S) as (e2 & times & ME & CE & _ & LT & NT & OUT & _ & ACC).
  { split; [exact OK|]. now rewrite M1. }
  { unfold input_of. now rewrite IN. }
  assert (LE : length evs = length ts) by apply map_length.
  unfold ChainSpec.output_of in OUT. rewrite OU in OUT. assert (S2 : CdRunModel.stdout e2 = encode (A1 false) (map word_of (at_times evs times))) by congruence.
  assert (GL : gasked GLegacy ss3 false) by (split; [discriminate|intros X; contradiction]).
  destruct (c131 p tmp3 args3 ss3 fs3 false (at_times evs times) P C3 G3 H3 T3 O3 GL FT (at_times_ok evs times OK)) as (out & NU & SA).
  exists e1, e2, out, times. rewrite S1, S2. rewrite at_times_fst in NU by lia. split; [exact E1|]. split; [exact Z1|]. split; [exact ME|]. split; [exact CE|]. split; [exact SA|]. split; [exact NU|].
  split; [lia|]. split; [exact NT|].
  intros i t0 t t' X0 X1 X2. apply (ACC i (t0, 1) (t, 1) t'); [now apply (map_nth_error (fun t => (t, 1)))|now apply (map_nth_error (fun t => (t, 1)))|exact X2].
Qed.
Lemma c134_twice p args1 ss1 tmp1 fs1 in1 ws ts junk ib ob fb prog args2 ss2 f fs2 junk3 ib3 ob3 fb3 prog3 args3 ss3 g fs3 :
  gcommand args1 ss1 -> Forall ggood ss1 -> ~ In GHelp ss1 -> last_given gout_of ss1 = None -> last_given gtimes_of ss1 = Some ws -> Forall2 whole ws ts ->
  Forall (fun t => 0 <= t < 2 ^ 53) ts -> nondecr ts -> len ts < 2 ^ 60 ->
  alloc_ok ib ob fb -> asks args2 ss2 f -> static false ss2 -> FreqcdCliSpec.last_of FreqcdCliSpec.in_of ss2 = None -> FreqcdCliSpec.last_of FreqcdCliSpec.out_of ss2 = None ->
  alloc_ok ib3 ob3 fb3 -> asks args3 ss3 g -> static false ss3 -> FreqcdCliSpec.last_of FreqcdCliSpec.in_of ss3 = None ->
  exists e1 e2 e3 times,
    grun p tmp1 args1 fs1 in1 = Ends e1 /\ code e1 = 0 /\
    freqcd_main true junk ib ob fb (prog :: args2) fs2 (CdRunModel.stdout e1) = Some (Ok e2) /\ code e2 = 0 /\
    freqcd_main true junk3 ib3 ob3 fb3 (prog3 :: args3) fs3 (CdRunModel.stdout e2) = Some (Ok e3) /\ code e3 = 0 /\
    ChainSpec.output_of (files e3) (CdRunModel.stdout e3) ss3 = Some (events_at false times) /\ length times = length ts /\ nondecr times /\
    forall i t0 t t', nth_error ts 0 = Some t0 -> nth_error ts i = Some t -> nth_error times i = Some t' ->
      accurate2 f g t0 (Z.of_nat i / 1024 + 1) t t' /\ (inverse_units f g -> restored t0 (Z.of_nat i / 1024 + 1) t t').
Proof.
  intros C1 G1 H1 O1 T1 W T N LN A K S IN OU A3 K3 S3 IN3. assert (T' : Forall (fun t => 0 <= t < 2 ^ 54) ts) by (eapply Forall_impl; [|exact T]; cbn beta; lia).
  destruct (c130_times p tmp1 args1 ss1 fs1 in1 ws ts C1 G1 H1 T1 W) as [R _]. specialize (R ltac:(eapply Forall_impl; [|exact T]; cbn beta; lia)). rewrite O1 in R. cbn [delivers app] in R.
  destruct R as (e1 & E1 & Z1 & S1 & _). rewrite events_of in S1 by exact T'. set (evs := map (fun t => (t, 1)) ts) in *. assert (M1 : map fst evs = ts) by (unfold evs; rewrite map_map; apply map_id).
  assert (OK : Forall event_ok evs). { apply Forall_map. eapply Forall_impl; [|exact T']. cbn beta. intros t H. split; cbn [fst snd]; lia. }
  assert (LE : length evs = length ts) by apply map_length.
  destruct (c109 false junk ib ob fb prog args2 ss2 f fs2 (CdRunModel.stdout e1) junk3 ib3 ob3 fb3 prog3 args3 ss3 g evs A K S A3 K3 S3) as (e2 & ME & CE & NX).
  { split; [exact OK|]. now rewrite M1. }
  { split; [unfold evs; apply Forall_map; eapply Forall_impl; [|exact T]; cbn [fst]; lia|]. unfold len in *. now rewrite LE. }
  { unfold input_of. rewrite IN. now rewrite S1. }
  destruct (NX fs3 (CdRunModel.stdout e2)) as (e3 & times & M3 & CE3 & LT & NT & OUT & ACC).
  { unfold input_of, ChainSpec.output_of. now rewrite IN3, OU. }
  exists e1, e2, e3, times. split; [exact E1|]. split; [exact Z1|]. split; [exact ME|]. split; [exact CE|]. split; [exact M3|]. split; [exact CE3|].
  split; [|split; [lia|split; [exact NT|]]].
  - rewrite OUT. unfold events_at. do 2 f_equal. rewrite <- (map_map (fun t => (t mod 2 ^ 54, 1)) word_of). f_equal. clear - LT LE. unfold evs in *. clear evs LE. rewrite map_length in LT.
    revert times LT. induction ts as [|t ts IH]; intros [|u us] LT; try discriminate LT; [reflexivity|]. cbn [map at_times snd]. f_equal. apply IH. now injection LT.
  - intros i t0 t t' X0 X1 X2. apply (ACC i (t0, 1) (t, 1) t'); [now apply (map_nth_error (fun t => (t, 1)))|now apply (map_nth_error (fun t => (t, 1)))|exact X2].
Qed.
