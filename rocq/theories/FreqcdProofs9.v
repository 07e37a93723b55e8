(** The corrections in force, read by read, as a specification. *)
From Verif Require Import Base FreqcdModel FreqcdSpec FreqcdStatements FreqcdProofs FreqcdProofs2 FreqcdProofs3 FreqcdProofs4 FreqcdProofs5 FreqcdProofs6 FreqcdProofs7 FreqcdProofs8.
From Coq Require Import ZifyBool.

Lemma corrections_in_force fc os : in_force fc os (corrections ([], fc) os).
Proof.
  split; [apply corrections_length|]. intros os1 o os2 -> R.
  rewrite corrections_app. cbn [corrections]. destruct (rx o); [congruence|].
  exists (snd (freq_after ([], fc) os1)). split.
  - rewrite nth_error_app2, corrections_length, Nat.sub_diag; [reflexivity|]. now rewrite corrections_length.
  - rewrite freq_after_spec. apply after_lines_actual_fold.
Qed.
Lemma freqcd_exact_in_force lg junk ib ob fb fg fc ts s' os st :
  alloc_ok ib ob fb -> Forall tick_ok ts ->
  freqcd true lg junk ib ob fb fg fc ts = Ok (s', os, st) ->
  exists fs, in_force fc os fs /\
  let out := corrected_stream lg (clock0 junk) fs (batches [] (chunks os)) in
  concat (batches [] (chunks os)) = groups (received os) /\
  prefix (written os) (concat (concat out)) /\
  (st = Running -> written os = concat (concat out)).
Proof.
  intros A T E. exists (corrections ([], fc) os). split; [apply corrections_in_force|]. cbv zeta.
  pose proof (freqcd_spec true lg junk ib ob fb fg fc ts A T) as S. rewrite E in S.
  destruct S as (_ & _ & _ & _ & _ & _ & _ & _ & _ & CB).
  destruct (freqcd_exact lg junk ib ob fb fg fc ts s' os st A T E). auto.
Qed.
Lemma freqcd_framing strict lg junk ib ob fb fg fc ts s' os st :
  alloc_ok ib ob fb -> Forall tick_ok ts ->
  freqcd strict lg junk ib ob fb fg fc ts = Ok (s', os, st) ->
  prefix (chunks os) (delivered 0 ts) /\ (st = Running -> chunks os = delivered 0 ts) /\
  exists times, length times = length (groups (received os)) /\
    prefix (written os) (concat (retime lg (groups (received os)) times)) /\
    (st = Running -> written os = concat (retime lg (groups (received os)) times)).
Proof.
  intros A T E. destruct (freqcd_delivered _ _ _ _ _ _ _ _ _ _ _ _ A T E) as [D1 D2].
  split; [assumption|]. split; [assumption|]. eapply freqcd_retime; eassumption.
Qed.
Lemma freqcd_order' lg junk ib ob fb fg fc ts s' os st :
  alloc_ok ib ob fb -> Forall tick_ok ts ->
  (forall pre s os st, prefix pre ts ->
     freqcd true lg junk ib ob fb fg fc pre = Ok (s, os, st) -> small (fcorr s)) ->
  freqcd true lg junk ib ob fb fg fc ts = Ok (s', os, st) ->
  every_read_completes [] (chunks os) ->
  nondecr (map (ev_time lg) (groups (received os))) ->
  exists times, length times = length (groups (received os)) /\ nondecr times /\
    prefix (written os) (concat (retime lg (groups (received os)) times)) /\
    (st = Running -> written os = concat (retime lg (groups (received os)) times)).
Proof.
  intros A T SM E C N. eapply freqcd_order; try eassumption. eapply corrections_small; eassumption.
Qed.
Lemma freqcd_no_ub' lg junk ib ob fb fg fc ts :
  alloc_ok ib ob fb -> Forall tick_ok ts ->
  first_complete (delivered 0 ts) ->
  nondecr (map (ev_time lg) (groups (concat (delivered 0 ts)))) ->
  (forall pre s os st, prefix pre ts ->
     freqcd true lg junk ib ob fb fg fc pre = Ok (s, os, st) -> small (fcorr s)) ->
  exists s os st, freqcd true lg junk ib ob fb fg fc ts = Ok (s, os, st).
Proof.
  intros A T FC N S. destruct (freqcd_no_ub lg junk ib ob fb fg fc ts A T FC N S) as (s & os & st & E & _). eauto.
Qed.
Lemma freqcd_zero strict lg junk ib ob fb ts :
  alloc_ok ib ob fb -> Forall tick_ok ts -> first_complete (delivered 0 ts) ->
  exists s os st, freqcd strict lg junk ib ob fb false 0 ts = Ok (s, os, st) /\
    prefix (written os) (received os) /\
    (st = Running -> written os = concat (groups (received os))).
Proof.
  intros A T F. destruct (freqcd_zero_total strict lg junk ib ob fb ts A T F) as (s & os & st & E).
  exists s, os, st. split; [assumption|]. eapply freqcd_identity; try eassumption.
  destruct (freqcd_delivered _ _ _ _ _ _ _ _ _ _ _ _ A T E) as [[q D] _]. rewrite D in F.
  destruct (chunks os); [exact I|exact F].
Qed.
(** Output at a stop is the output of the same run cut there: runs only ever append. *)
Lemma freqcd_monotone strict lg junk ib ob fb fg fc ts more s os st s' os' st' :
  freqcd strict lg junk ib ob fb fg fc ts = Ok (s, os, st) ->
  freqcd strict lg junk ib ob fb fg fc (ts ++ more) = Ok (s', os', st') ->
  prefix os os' /\ prefix (written os) (written os').
Proof.
  unfold freqcd. intros E1 E2. rewrite run_app, E1 in E2. cbn [bind] in E2.
  assert (P : prefix os os').
  { destruct st; [|inv E2; exists []; now rewrite app_nil_r].
    destruct (run strict lg s more) as [[[s2 os2] st2]|]; [|discriminate]. cbn [bind] in E2.
    injection E2 as _ <- _. now exists os2. }
  split; [assumption|]. destruct P as [q ->]. unfold written. rewrite map_app, concat_app. now eexists.
Qed.
