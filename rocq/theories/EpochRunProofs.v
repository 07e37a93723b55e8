(** fpfind on epoch directories and on timestamp files. *)
From Coq Require Import QArith Qabs Lqa List Lia.
From Verif Require Import Float Base TimestampsModel TimestampsSpec EpochsModel EpochsSpec EpochsStatements EpochsProofs2 EpochsProofs3 EpochsProofs4 EpochsProofs5 EpochsProofs6
  UtilsModel UtilsSpec UtilsProofs FpfindModel FpfindSpec PipeSpec MainModel MainProofs MainProofs2 MainProofs3 MainSpec2 MainProofs4 EndProofs EpochRunSpec.
Import ListNotations. Local Open Scope Z_scope.

Lemma normalize_values M a b a' b' skip : respects (rt M) -> same_values a a' -> same_values b b' ->
  normalize_timestamps (rt M) (rs M) [a; b] skip true = normalize_timestamps (rt M) (rs M) [a'; b'] skip true.
Proof.
  intros R A B. unfold normalize_timestamps. cbn [bind mapM].
  pose proof (same_getitem a a' 0 A) as GA. pose proof (same_getitem b b' 0 B) as GB.
  destruct (getitem a 0) as [x|], (getitem a' 0) as [x'|]; try tauto; cbn [bind]; [|now subst].
  destruct (getitem b 0) as [y|], (getitem b' 0) as [y'|]; try tauto; cbn [bind]; [|now subst].
  assert (Q : (qmax_list x [y] == qmax_list x' [y'])%Q).
  { unfold qmax_list. cbn [fold_left]. unfold Qltb. rewrite (Qle_bool_cong y x y' x') by (rewrite GA, GB; tauto). destruct (Qle_bool y' x'); assumption. }
  rewrite (R (qmax_list x [y] + rs M (skip * 1000000000))%Q (qmax_list x' [y'] + rs M (skip * 1000000000))%Q) by now rewrite Q.
  now rewrite (slice_same _ a a' _ None R A), (slice_same _ b b' _ None R B).
Qed.
Lemma search_values fuel M repr o n a b a' b' skip : respects (rt M) -> same_values a a' -> same_values b b' ->
  search_and_print fuel M repr o n a b skip = search_and_print fuel M repr o n a' b' skip.
Proof. intros R A B. unfold search_and_print. now rewrite (normalize_values M a b a' b' skip R A B). Qed.
Lemma t2_tail d f xs r : t2_dir d f (xs :: r) -> t2_dir d (f + 1) r.
Proof. intros H i x X. specialize (H (S i) x X). replace (f + 1 + Z.of_nat i) with (f + Z.of_nat (S i)) by lia. exact H. Qed.
Lemma t1_tail d f xs r : t1_dir d f (xs :: r) -> t1_dir d (f + 1) r.
Proof. intros H i x X. specialize (H (S i) x X). replace (f + 1 + Z.of_nat i) with (f + Z.of_nat (S i)) by lia. exact H. Qed.
Lemma t1_read fuel d : forall epochs f, t1_dir d f epochs ->
  exists ts, get_timestamps fuel d true f (length epochs) = Ok ts /\ same_values ts (map (fun e => inject_Z (fst e) / 256)%Q (t1_events f epochs)).
Proof.
  induction epochs as [|evs r IH]; intros f H; cbn [length get_timestamps t1_events].
  - exists []. split; [reflexivity|constructor].
  - destruct (H 0%nat evs eq_refl) as (O & K & NZ & L). rewrite Z.add_0_r in *.
    destruct (IH (f + 1) (t1_tail _ _ _ _ H)) as (ts & E & V).
    destruct (c31 f evs NS1 K NZ L) as (_ & _ & (T & R & RV) & _).
    rewrite O. cbn [bind]. unfold read_times at 1. rewrite R. cbn [bind]. rewrite E. cbn [bind].
    eexists. split; [reflexivity|]. rewrite map_app, map_map. apply Forall2_app; [|exact V]. cbn [fst].
    unfold in_units in RV. cbn [rvalue] in RV. erewrite map_ext; [exact RV|]. intros e. cbn beta. now rewrite Z.mul_1_r.
Qed.
Lemma sums_length s l : length (sums s l) = length l.
Proof. revert s. induction l; intros s; cbn [sums length]; congruence. Qed.
Lemma t2_read fuel d : forall epochs f, 0 <= f -> t2_dir d f epochs -> Forall (fun xs => (length xs < fuel)%nat) epochs ->
  exists ts, get_timestamps fuel d false f (length epochs) = Ok ts /\ same_values ts (map (fun e => inject_Z (fst e) / 256)%Q (t2_events f epochs)).
Proof.
  induction epochs as [|xs r IH]; intros f F0 H FU; cbn [length get_timestamps t2_events].
  - exists []. split; [reflexivity|constructor].
  - inv FU. destruct (H 0%nat xs eq_refl) as (file & to & bb & O & TO & BB & F & EN & TB). rewrite Z.add_0_r in *.
    destruct (IH (f + 1) ltac:(lia) (t2_tail _ _ _ _ H) H3) as (ts & E & V).
    destruct (c38 file f to bb xs false NS1 true TO BB (conj F0 F) EN ltac:(discriminate) TB ltac:(left; reflexivity)) as (T & R & RV).
    rewrite O. cbn [bind]. unfold read_times at 1. rewrite R by assumption. cbn [bind]. rewrite E. cbn [bind].
    eexists. split; [reflexivity|]. rewrite map_app. apply Forall2_app; [|exact V].
    cbv iota in RV.
    assert (LL : length (t2_times f xs) = length (map e_base xs)) by (unfold t2_times; rewrite sums_length, !map_length; reflexivity).
    eapply same_trans; [exact RV|]. clear -LL. revert LL. generalize (map e_base xs) as bs, (t2_times f xs) as l.
    intros bs l. revert bs. induction l as [|t l IH]; intros [|b bs] L; cbn [length] in L; try lia; cbn [map combine]; constructor; [|apply IH; lia].
    cbn [fst]. unfold in_units125. cbn [rvalue]. rewrite Z.mul_1_r, inject_Z_mult. change (inject_Z 8) with (8 # 1). change (inject_Z 32) with (32 # 1). field.
Qed.
Lemma first_found d1 d2 first m : epoch_names d1 -> epoch_names d2 -> first_common d1 d2 first m ->
  exists n, get_first_overlapping_epoch d1 d2 first = Ok (Some (int2epoch m), n).
Proof.
  intros N1 N2 [C LE].
  assert (exists f, match first with None => f = None | Some s => exists v, epoch2int s = Ok v /\ f = Some v end /\
    forall v, match first with None => True | Some s => exists w, epoch2int s = Ok w /\ w <= v end <-> from_first f v) as (f & F & FF).
  { destruct first as [s|].
    - destruct C as (_ & _ & w & W & _). exists (Some w). split; [exists w; now split|]. intros v. cbn [from_first]. split.
      + intros (w' & W' & L). congruence.
      + intros L. exists w. now split.
    - exists None. split; [reflexivity|]. intros v. cbn. tauto. }
  destruct (c43 d1 d2 first f N1 N2 F) as [[_ NO]|(m' & n & G & (C1 & C2 & C3) & LE' & _)].
  - exfalso. apply (NO m). destruct C as (C1 & C2 & C3). split; [exact C1|]. split; [exact C2|]. now apply FF.
  - exists n. rewrite G. replace m' with m; [reflexivity|].
    assert (m <= m') by (apply LE; split; [exact C1|split; [exact C2|now apply FF]]).
    assert (m' <= m) by (apply LE'; destruct C as (D1 & D2 & D3); split; [exact D1|split; [exact D2|now apply FF]]). lia.
Qed.
Lemma c90 fuel fuel2 M p repr o lg n d1 d2 first m skip xsA evsB : 54 <= p -> respects (rt M) -> epoch_names d1 -> epoch_names d2 ->
  first_common d1 d2 first m -> 0 <= m -> 0 <= m + skip ->
  bins o = Ok n -> epochs_needed (rs M) o n = Ok (len xsA) -> len evsB = len xsA ->
  t2_dir d1 (m + skip) xsA -> t1_dir d2 (m + skip) evsB -> Forall (fun xs => (length xs < fuel2)%nat) xsA ->
  let evA := t2_events (m + skip) xsA in let evB := t1_events (m + skip) evsB in
  Forall event_ok evA -> Forall event_ok evB ->
  main_epochs fuel fuel2 M repr o d1 d2 first skip =
  main_files fuel M p repr o (encode (A1 lg) (map word_of evA)) (encode (A1 lg) (map word_of evB)) lg 0.
Proof.
  intros P R N1 N2 FC M0 MS B EN LB DA DB FU evA evB OA OB.
  destruct (first_found d1 d2 first m N1 N2 FC) as (av & G).
  unfold main_epochs, main_files. rewrite B. cbn [bind]. rewrite EN. cbn [bind]. rewrite G. cbn [bind].
  pose proof (c41_roundtrip m M0) as RT.
  rewrite !(get_timestamp_eq _ _ _ _ m) by (exact RT || apply len_nonneg).
  destruct (t2_read fuel2 d1 xsA (m + skip) MS DA FU) as (a & EA & VA). destruct (t1_read fuel2 d2 evsB (m + skip) DB) as (b & EB & VB).
  replace (Z.to_nat (len xsA)) with (length xsA) by (unfold len; lia). rewrite EA. cbn [bind].
  replace (length xsA) with (length evsB) by (unfold len in LB; lia). rewrite EB. cbn [bind].
  destruct (read_times_values p lg evA P OA) as (a' & pa & EA' & VA'). destruct (read_times_values p lg evB P OB) as (b' & pb & EB' & VB').
  rewrite EA', EB'. cbn [bind]. apply search_values; [exact R| |]; (eapply same_trans; [eassumption|apply same_sym; assumption]).
Qed.
Lemma c90_offsets fuel fuel2 M p repr o n d1 d2 first m skip xsA evsB s1 s2 : 54 <= p -> rt M = fl p -> rs M = fl 53 -> accurate (2 ^ buffer_order o) (len (t2_events (m + skip) xsA)) (len (t1_events (m + skip) evsB)) M ->
  (forall x, field_ok (repr x)) -> epoch_names d1 -> epoch_names d2 -> first_common d1 d2 first m -> 0 <= m -> 0 <= m + skip ->
  bins o = Ok n -> epochs_needed (rs M) o n = Ok (len xsA) -> len evsB = len xsA ->
  t2_dir d1 (m + skip) xsA -> t1_dir d2 (m + skip) evsB -> Forall (fun xs => (length xs < fuel2)%nat) xsA ->
  one_iteration o -> same_events M o (t2_events (m + skip) xsA) (t1_events (m + skip) evsB) s1 s2 ->
  Z.abs (delay_ns o s1) <= 100000000 -> (Qabs (ratio o s1 s2) <= (1 # 8192) - (1 # 2 ^ 51))%Q ->
  exists line dt df, main_epochs (S fuel) fuel2 M repr o d1 d2 first skip = Ok line /\
    shows_offsets repr (flag o) dt df line /\ (dt == inject_Z (delay_ns o s1))%Q /\ (Qabs (df - ratio o s1 s2) <= 1 # 2 ^ 51)%Q.
Proof.
  intros P RT RS AC FO N1 N2 FC M0 MS B EN LB DA DB FU OI SE C1 CF. pose proof SE as (OA & OB & _).
  rewrite (c90 (S fuel) fuel2 M p repr o false n d1 d2 first m skip xsA evsB); try assumption; [|intros x y; rewrite RT; apply fl_eq].
  now apply c88.
Qed.
