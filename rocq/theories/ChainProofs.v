(** Proofs about freqcd in a chain. *)
From Coq Require Import QArith List Lia.
From Verif Require Import Float Base FreqcdModel FreqcdSpec FreqcdProofs FreqcdProofs7 FreqcdCliSpec TimestampsModel TimestampsSpec TimestampsProofs CdFileSpec CdFileProofs MiscModel MiscSpec MiscProofs
  CdRunModel CdRunSpec CdRunProofs CdRunProofs2 CdRunProofs3 WholeProofs2 ChainSpec.
From Coq Require Import ZifyBool.
Import ListNotations. Local Open Scope Z_scope.
Ltac Zify.zify_post_hook ::= Z.div_mod_to_equations.

Lemma with_time_event e t : event_ok e -> with_time (word_of e) t = word_of (t mod 2 ^ 54, snd e).
Proof. intros [T P]. unfold with_time, word_of. cbn [fst snd]. lia. Qed.
Lemma at_times_words evs ts : Forall event_ok evs -> map (fun '(v, t) => with_time v t) (combine (map word_of evs) ts) = map word_of (at_times evs ts).
Proof.
  intros H. revert ts. induction H as [|e evs E H IH]; intros [|t ts]; try reflexivity. cbn [map combine at_times]. rewrite IH. f_equal. now apply with_time_event.
Qed.
Lemma at_times_ok evs ts : Forall event_ok evs -> Forall event_ok (at_times evs ts).
Proof.
  intros H. revert ts. induction H as [|e evs E H IH]; intros [|t ts]; cbn [at_times]; constructor; [|apply IH]. destruct E as [_ E]. split; cbn [fst snd]; [lia|exact E].
Qed.
Lemma at_times_fst evs ts : length ts = length evs -> map fst (at_times evs ts) = map (fun t => t mod 2 ^ 54) ts.
Proof.
  revert ts. induction evs as [|e evs IH]; intros [|t ts] L; cbn [length] in L; try lia; [reflexivity|]. cbn [at_times map fst]. f_equal. apply IH. lia.
Qed.
Lemma first_exact f fs t tl tss : (exists r, concat (corrected start (f :: fs) ((t :: tl) :: tss)) = t :: r).
Proof.
  cbn [corrected batch_times map ref_of start c_ref c_acc concat app]. eexists. f_equal.
  unfold elapsed, shift. rewrite Z.sub_diag. cbn. lia.
Qed.
(** one run on a file of events *)
Lemma on_events lg junk ib ob fb prog args ss f fs stdin evs :
  alloc_ok ib ob fb -> asks args ss f -> static lg ss -> recording evs -> input_of fs stdin ss = Some (encode (A1 lg) (map word_of evs)) ->
  exists e times, freqcd_main true junk ib ob fb (prog :: args) fs stdin = Some (Ok e) /\ code e = 0 /\ small f /\ length times = length evs /\ nondecr times /\
    output_of (files e) (stdout e) ss = Some (encode (A1 lg) (map word_of (at_times evs times))) /\
    (forall ev0 r, evs = ev0 :: r -> exists r', times = fst ev0 :: r') /\
    forall i ev0 ev t', nth_error evs 0 = Some ev0 -> nth_error evs i = Some ev -> nth_error times i = Some t' -> accurate f (fst ev0) (Z.of_nat i / 1024 + 1) (fst ev) t'.
Proof.
  intros A K (LG & NF & S1) [OK ND] IN. set (X := encode (A1 lg) (map word_of evs)) in *.
  assert (EV : event_file (legacy_of ss) X).
  { rewrite LG. destruct (encode_bytes lg (map word_of evs)) as [B1 B2]. split; [exact B1|]. split; [exact B2|]. unfold X. rewrite file_times by exact OK. exact ND. }
  destruct (on_file_exact junk ib ob fb prog args ss f fs stdin X [] A K IN EV) as (e & bs & g & ME & CE & BL & AL & SF & _ & C & TR & NE & RF); [now rewrite NF|exact (Forall_nil _)|rewrite len_nil; lia|exact (Forall_nil _)|exact S1|left; exact NF|].
  change (FreqcdSpec.lines []) with (@nil (list Z)) in AL. assert (EG : g = f) by (inversion AL; congruence). clear AL. subst g. rewrite LG in *.
  set (tss := map (map (ev_time lg)) (map FreqcdSpec.groups bs)) in *. set (times := concat (corrected start (f :: repeat f (length tss)) tss)) in *.
  assert (C' : concat tss = map fst evs) by (rewrite C; unfold X; now apply file_times).
  destruct RF as (L & N & LB). assert (LT : length times = length evs) by (rewrite L; unfold X; rewrite groups_encode, !map_length; reflexivity).
  exists e, times. split; [exact ME|]. split; [exact CE|]. split; [exact SF|]. split; [exact LT|]. split; [exact N|]. split; [|split].
  - assert (Y : concat (retime (legacy_of ss) (FreqcdSpec.groups X) times) = encode (A1 lg) (map word_of (at_times evs times))).
    { rewrite LG. unfold X. rewrite retime_encode; [now rewrite at_times_words| |now rewrite map_length]. apply Forall_map. eapply Forall_impl; [|exact OK]. intros ev O. now apply word_of_ok. }
    rewrite Y in LB. unfold left_behind in LB. unfold output_of. destruct (last_of out_of ss) as [t|]; [apply LB|f_equal; apply LB].
  - intros ev0 r EE. rewrite EE in C'. unfold times. destruct tss as [|[|t tl] tss']; [discriminate C'|inv NE; congruence|]. injection C' as ET _. rewrite <- ET. apply first_exact.
  - intros i ev0 ev t' H0 H1 H2. apply (accurate_index tss f NE); [rewrite C'; exact ND|exact TR|exact SF|exact (blocks_sized _ _ _ BL)| | |exact H2]; rewrite C'; now apply map_nth_error.
Qed.

(** ** Generator, freqcd, decoder *)
Lemma event_words_events ts : Forall (fun t => 0 <= t < 2 ^ 54) ts -> event_words ts = map word_of (map (fun t => (t, 1)) ts).
Proof. intros H. unfold event_words. rewrite map_map. apply map_ext_Forall. eapply Forall_impl; [|exact H]. cbn beta. intros t T. now rewrite Z.mod_small. Qed.
Lemma c108 p x junk ib ob fb prog args ss f fs ts : alloc_ok ib ob fb -> asks args ss f -> static false ss -> last_of in_of ss = None ->
  54 <= p -> Forall (fun t => 0 <= t < 2 ^ 54) ts -> nondecr ts ->
  exists X e Y times, generate x ts = (X, None) /\ freqcd_main true junk ib ob fb (prog :: args) fs X = Some (Ok e) /\ code e = 0 /\
    output_of (files e) (stdout e) ss = Some Y /\ snd (decode_file p false None Y) = Ok (map (fun t => t mod 2 ^ 54) times) /\ length times = length ts /\ nondecr times /\
    forall i t0 t t', nth_error ts 0 = Some t0 -> nth_error ts i = Some t -> nth_error times i = Some t' -> accurate f t0 (Z.of_nat i / 1024 + 1) t t'.
Proof.
  intros A K S IN P T N. set (evs := map (fun t => (t, 1)) ts). assert (E1 : map fst evs = ts) by (unfold evs; rewrite map_map; apply map_id).
  assert (OK : Forall event_ok evs). { apply Forall_map. eapply Forall_impl; [|exact T]. cbn beta. intros t H. split; cbn [fst snd]; lia. }
  destruct (on_events false junk ib ob fb prog args ss f fs (encode (A1 false) (map word_of evs)) evs A K S) as (e & times & ME & CE & _ & LT & NT & OUT & _ & ACC).
  - split; [exact OK|]. now rewrite E1.
  - unfold input_of. now rewrite IN.
  - assert (LE : length evs = length ts) by apply map_length.
    exists (encode (A1 false) (map word_of evs)), e. eexists. exists times. split; [|split; [exact ME|split; [exact CE|split; [exact OUT|split; [|split; [lia|split; [exact NT|]]]]]]].
    + unfold generate. rewrite write_all_ok by (eapply Forall_impl; [|exact T]; cbn beta; lia). now rewrite event_words_events.
    + rewrite c65; [|exact P|now apply at_times_ok]. cbn [snd]. now rewrite at_times_fst.
    + intros i t0 t t' H0 H1 H2. apply (ACC i (t0, 1) (t, 1) t'); [now apply (map_nth_error (fun t => (t, 1)))|now apply (map_nth_error (fun t => (t, 1)))|exact H2].
Qed.

(** ** Two runs *)
Lemma accurate_twice f g t0 n t t' t'' : small g -> accurate f t0 n t t' -> accurate g t0 n t' t'' -> accurate2 f g t0 n t t''.
Proof.
  unfold small, accurate, accurate2. intros G H1 H2. set (d := t - t0) in *. set (p := 2 ^ 34 * (t' - t) - f * d) in *. set (q := 2 ^ 34 * (t'' - t') - g * (t' - t0)) in *.
  assert (E : 2 ^ 68 * (t'' - t0) - (2 ^ 34 + f) * (2 ^ 34 + g) * d = (2 ^ 34 + g) * p + 2 ^ 34 * q) by (unfold p, q, d; change (2 ^ 68) with (2 ^ 34 * 2 ^ 34); ring).
  rewrite E. clearbody p q. change (2 ^ 68) with (2 ^ 34 * 2 ^ 34). change (2 ^ 34) with 17179869184 in *. change (2 ^ 21) with 2097152 in *. change (2 ^ 14) with 16384 in *.
  assert (B1 : Z.abs (17179869184 + g) * (2 * Z.abs p) <= (17179869184 + 2097152) * (2 * Z.abs p)) by (apply Z.mul_le_mono_nonneg_r; lia).
  assert (B2 : Z.abs ((17179869184 + g) * p) = Z.abs (17179869184 + g) * Z.abs p) by apply Z.abs_mul. set (a := (17179869184 + g) * p) in *. lia.
Qed.
Lemma restored_inverse f g t0 n t t' : small f -> t0 <= t -> inverse_units f g -> accurate2 f g t0 n t t' -> restored t0 n t t'.
Proof.
  unfold small, inverse_units, accurate2, restored. intros F O I A. set (k := (2 ^ 34 + f) * (2 ^ 34 + g) - 2 ^ 68) in *.
  replace ((2 ^ 34 + f) * (2 ^ 34 + g)) with (k + 2 ^ 68) in A by (unfold k; ring). clearbody k.
  assert (E : 2 ^ 68 * (t' - t0) - (k + 2 ^ 68) * (t - t0) = 2 ^ 68 * (t' - t) - k * (t - t0)) by ring. rewrite E in A. clear E.
  assert (B : Z.abs (k * (t - t0)) = Z.abs k * (t - t0)) by (rewrite Z.abs_mul, (Z.abs_eq (t - t0)) by lia; reflexivity).
  assert (C : 2 * Z.abs k * (t - t0) <= (2 ^ 34 + 2 ^ 21) * (t - t0)) by (apply Z.mul_le_mono_nonneg_r; lia).
  set (a := k * (t - t0)) in *. rewrite <- Z.mul_assoc, <- B in C. clearbody a. clear B I.
  change (2 ^ 68) with 295147905179352825856 in *. change (2 ^ 34) with 17179869184 in *. change (2 ^ 21) with 2097152 in *. change (2 ^ 14) with 16384 in *. change (2 ^ 48) with 281474976710656. change (2 ^ 13) with 8192. lia.
Qed.
Lemma nondecr_first t ts x : nondecr (t :: ts) -> In x (t :: ts) -> t <= x.
Proof.
  revert t. induction ts as [|y r IH]; intros t N [<-|I]; try lia; [destruct I|]. destruct N as [H N]. specialize (IH y N I). lia.
Qed.
Lemma c109 lg junk1 ib1 ob1 fb1 prog1 args1 ss1 f fs1 in1 junk2 ib2 ob2 fb2 prog2 args2 ss2 g evs :
  alloc_ok ib1 ob1 fb1 -> asks args1 ss1 f -> static lg ss1 -> alloc_ok ib2 ob2 fb2 -> asks args2 ss2 g -> static lg ss2 ->
  recording evs -> no_rollover evs -> input_of fs1 in1 ss1 = Some (encode (A1 lg) (map word_of evs)) ->
  exists e1, freqcd_main true junk1 ib1 ob1 fb1 (prog1 :: args1) fs1 in1 = Some (Ok e1) /\ code e1 = 0 /\
  forall fs2 in2, input_of fs2 in2 ss2 = output_of (files e1) (stdout e1) ss1 ->
  exists e2 times, freqcd_main true junk2 ib2 ob2 fb2 (prog2 :: args2) fs2 in2 = Some (Ok e2) /\ code e2 = 0 /\ length times = length evs /\ nondecr times /\
    output_of (files e2) (stdout e2) ss2 = Some (encode (A1 lg) (map word_of (at_times evs times))) /\
    forall i ev0 ev t', nth_error evs 0 = Some ev0 -> nth_error evs i = Some ev -> nth_error times i = Some t' ->
      accurate2 f g (fst ev0) (Z.of_nat i / 1024 + 1) (fst ev) t' /\ (inverse_units f g -> restored (fst ev0) (Z.of_nat i / 1024 + 1) (fst ev) t').
Proof.
  intros A1 K1 S1 A2 K2 S2 R [NR NL] IN1. destruct (on_events lg junk1 ib1 ob1 fb1 prog1 args1 ss1 f fs1 in1 evs A1 K1 S1 R IN1) as (e1 & ts & ME1 & CE1 & SF & LT & NT & OUT1 & FST & ACC1).
  exists e1. split; [exact ME1|]. split; [exact CE1|]. intros fs2 in2 IN2. rewrite OUT1 in IN2. destruct R as [OK ND].
  (* the corrected times need no cutting *)
  assert (RG : Forall (fun t => 0 <= t < 2 ^ 54) ts).
  { apply Forall_forall. intros t' I. destruct evs as [|ev0 r] eqn:EE; [destruct ts; [destruct I|discriminate LT]|]. destruct (FST ev0 r eq_refl) as (r' & EF).
    assert (O0 : event_ok ev0) by (inv OK; assumption). split.
    - rewrite EF in NT, I. pose proof (nondecr_first _ _ _ NT I). destruct O0. lia.
    - apply In_nth_error in I as (i & I). assert (LI : (i < length ts)%nat) by (apply nth_error_Some; congruence).
      destruct (nth_error (ev0 :: r) i) as [ev|] eqn:EI; [|apply nth_error_None in EI; rewrite LT in LI; lia].
      specialize (ACC1 i ev0 ev t' eq_refl EI I). apply nth_error_In in EI. rewrite Forall_forall in NR. pose proof (NR _ EI) as H. pose proof (NR ev0 (or_introl eq_refl)) as H'. cbn beta in H, H'. rewrite Forall_forall in OK. destruct (OK _ EI) as [T _]. destruct O0 as [T0 _].
      unfold accurate, small in *. assert (LL : Z.of_nat i < 2 ^ 60) by (unfold len in NL; lia).
      assert (B : Z.abs (f * (fst ev - fst ev0)) <= 2 ^ 21 * 2 ^ 53) by (rewrite Z.abs_mul; apply Z.mul_le_mono_nonneg; lia).
      set (a := f * (fst ev - fst ev0)) in *. clearbody a. set (m := Z.of_nat i / 1024) in *. assert (M : m < 2 ^ 50) by (unfold m; lia). clearbody m.
      change (2 ^ 21 * 2 ^ 53) with 18889465931478580854784 in *. change (2 ^ 50) with 1125899906842624 in *. change (2 ^ 53) with 9007199254740992 in *. change (2 ^ 54) with 18014398509481984 in *. change (2 ^ 34) with 17179869184 in *. lia. }
  assert (F1 : map fst (at_times evs ts) = ts).
  { rewrite at_times_fst by assumption. rewrite <- (map_id ts) at 2. apply map_ext_Forall. eapply Forall_impl; [|exact RG]. cbn beta. intros t T. now apply Z.mod_small. }
  assert (R2 : recording (at_times evs ts)) by (split; [now apply at_times_ok|now rewrite F1]).
  assert (LA : length (at_times evs ts) = length evs) by (rewrite <- (map_length fst), F1; exact LT).
  destruct (on_events lg junk2 ib2 ob2 fb2 prog2 args2 ss2 g fs2 in2 (at_times evs ts) A2 K2 S2 R2 IN2) as (e2 & us & ME2 & CE2 & SG & LU & NU & OUT2 & _ & ACC2).
  exists e2, us. split; [exact ME2|]. split; [exact CE2|]. split; [lia|]. split; [exact NU|]. split.
  - rewrite OUT2. do 3 f_equal. clear - LT LU LA. revert ts us LT LU LA. induction evs as [|e evs IH]; intros [|t ts] [|u us] LT LU LA; cbn [length at_times] in *; try lia; try reflexivity. f_equal. apply IH; lia.
  - intros i ev0 ev u H0 HI HU. assert (LI : (i < length evs)%nat) by (apply nth_error_Some; congruence).
    destruct (nth_error (at_times evs ts) i) as [ev'|] eqn:EI; [|apply nth_error_None in EI; lia].
    assert (TI : nth_error ts i = Some (fst ev')) by (rewrite <- F1; now apply map_nth_error).
    assert (A0 : exists ev0', nth_error (at_times evs ts) 0 = Some ev0' /\ fst ev0' = fst ev0).
    { destruct evs as [|x r]; [discriminate|]. injection H0 as ->. destruct (FST ev0 r eq_refl) as (r' & ->). cbn [at_times nth_error]. eexists. split; [reflexivity|]. cbn [fst]. assert (O0 : event_ok ev0) by (inv OK; assumption). destruct O0. apply Z.mod_small. lia. }
    destruct A0 as (ev0' & E0 & EF0). pose proof (ACC1 i ev0 ev _ H0 HI TI) as X1. pose proof (ACC2 i ev0' ev' u E0 EI HU) as X2. rewrite EF0 in X2.
    pose proof (accurate_twice _ _ _ _ _ _ _ SG X1 X2) as X3. split; [exact X3|]. intros INV. apply (restored_inverse f g); [exact SF| |exact INV|exact X3].
    destruct evs as [|x r]; [discriminate|]. injection H0 as ->. apply (nondecr_first _ (map fst r)); [exact ND|]. apply nth_error_In in HI. exact (in_map fst (ev0 :: r) ev HI).
Qed.
