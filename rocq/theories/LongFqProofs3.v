(** Proof of C191. *)
From Verif Require Import Base FreqcdModel FreqcdSpec FreqcdStatements FreqcdProofs FreqcdProofs2 FreqcdProofs3 FreqcdProofs4 FreqcdProofs5 FreqcdProofs6 FreqcdProofs7 FreqcdProofs8 FreqcdProofs9 FreqcdCli FreqcdCliSpec FreqcdCliStatements FreqcdCliProofs CdRunModel CdRunSpec CdRunStatements CdRunProofs CdRunProofs2 CdRunProofs3 FqPipeSpec FqPipeProofs CdExactSpec CdExactProofs FqExactSpec FqExactProofs LongFqSpec LongFqProofs LongFqProofs2.
From Coq Require Import ZifyBool.
Import ListNotations.
Local Open Scope Z_scope.
Ltac Zify.zify_post_hook ::= Z.div_mod_to_equations.

Definition FZ (f : Z) (Zf : list Z) (k : nat) : Z := told f (take (consumed Zf k) Zf).
Lemma lines_prefix (P : list Z -> Prop) c Zf : Forall P (lines Zf) -> Forall P (lines (take c Zf)).
Proof.
  intros H. rewrite <- (take_drop c Zf) in H. unfold lines in *. rewrite split_app in H. destruct (split_lines [] (take c Zf)) as [l1 r1]. destruct (split_lines r1 (drop c Zf)) as [l2 r2]. cbn [fst] in *. now apply Forall_app in H.
Qed.
Lemma value_at_FZ f Zf : Forall plain_line (lines Zf) -> value_at f Zf (FZ f Zf).
Proof. intros PL k. apply after_lines_fold. now apply lines_prefix. Qed.
Lemma small_FZ f Zf k : small f -> Forall plain_line (lines Zf) -> small (FZ f Zf k).
Proof. intros S PL. apply (after_lines_small f _ _ S (value_at_FZ f Zf PL k)). Qed.
Lemma concat_newlines ds : Forall (fun d => d = [] \/ has_newline d = true) ds -> concat (filter has_newline ds) = concat ds.
Proof. induction 1 as [|d ds [->|H] _ IH]; [reflexivity|exact IH|]. cbn [filter]. rewrite H. cbn [concat]. now rewrite IH. Qed.
Lemma main_run2 junk ib ob fb prog args ss f fs stdin X t Zf :
  alloc_ok ib ob fb -> asks args ss f -> input_of fs stdin ss = Some X -> event_file (legacy_of ss) X ->
  last_of freq_of ss = Some t -> fs t = Some Zf -> bytes_ok Zf -> text_of_lines 98 Zf -> Forall plain_line (lines Zf) ->
  separate (last_of in_of ss) (last_of out_of ss) -> separate (last_of freq_of ss) (last_of out_of ss) ->
  small f /\
  exists e bs, freqcd_main true junk ib ob fb (prog :: args) fs stdin = Some (Ok e) /\ code e = 0 /\ blocks 8192 X bs /\ concat bs = X /\
    left_behind fs (files e) (stdout e) ss (concat (concat (corrected_stream (legacy_of ss) start (map (FZ f Zf) (seq 0 (length bs))) (map groups bs)))).
Proof.
  intros A K IN EV FN FQ BZ TL PL S1 S2. set (lg := legacy_of ss) in *.
  destruct (main_start2 true junk ib ob fb prog args ss f fs stdin X t Zf K IN FN FQ BZ S1 S2) as (SM & ts & s' & os & R & FR & FT & NX & G). fold lg in FR, G.
  split; [exact SM|]. destruct EV as (BX & MX8 & NDX). pose proof (reads_ok X BX _ _ _ R) as TO.
  assert (SR : strictly [] Zf os).
  { pose proof (strict_reads true lg X Zf ts 0 0 _ [] [] 0 s' os (init_inv junk ib ob fb true f A) TO R ltac:(lia) NX FR FT) as H. rewrite drop_0 in H by lia. apply H; [exact TL|now left]. }
  assert (NL : Forall (fun o => rx_freq o = [] \/ has_newline (rx_freq o) = true) os) by (apply (greedy_newlines os [] Zf TL eq_refl); now apply strictly_greedy).
  destruct (strict_corrections f Zf os 0) as [CR PF]; [cbn; lia|cbn [consumed]; rewrite take_0, drop_0 by lia; exact SR|exact NL|exact NX|].
  cbn [consumed] in CR, PF. rewrite take_0 in CR by lia. rewrite take_0 in PF by lia. cbn [app] in PF. change (last_line []) with (@nil Z) in CR. change (told f []) with f in CR. fold (FZ f Zf) in CR.
  assert (SMALL : forall pre s1 os1 st1, prefix pre ts -> freqcd true lg junk ib ob fb true f pre = Ok (s1, os1, st1) -> small (fcorr s1)).
  { intros pre s1 os1 st1 [q EP] F1. rewrite EP in TO, FR. apply Forall_app in TO as [TO' _]. rewrite (freqcd_fcorr _ _ _ _ _ _ _ _ _ _ _ _ A TO' F1).
    destruct (freqcd_monotone _ _ _ _ _ _ _ _ _ _ _ _ _ _ _ _ F1 FR) as [[q' EO] _].
    assert (E1 : os1 = firstn (length os1) os) by (rewrite EO, firstn_app, Nat.sub_diag, firstn_all, app_nil_r; reflexivity).
    rewrite concat_newlines. 2: { rewrite EO in NL. apply Forall_app in NL as [NL _]. clear - NL. induction NL; cbn [map]; constructor; assumption. }
    rewrite E1, PF by (rewrite EO, app_length; lia). apply (small_FZ f Zf _ SM PL). }
  assert (ND : forall ts', reads X 0 0 ts' -> nondecr (map (ev_time lg) (groups (concat (delivered 0 ts'))))).
  { intros ts' R'. destruct (reads_blocks X ts' 0 ltac:(lia) R') as [_ [q P]]. rewrite drop_0 in P by lia. rewrite P, groups_split, map_app in NDX. now apply nondecr_app_l in NDX. }
  destruct G as [(e & ME & CE & DR & LB)|(tk & e & RT & RE)].
  2: { exfalso. destruct (freqcd_no_ub' lg junk ib ob fb true f (ts ++ [tk]) A (reads_ok X BX _ _ _ RT) (first_reads X _ MX8 RT) (ND _ RT)) as (s1 & os1 & st1 & F1).
    - intros pre s1 os1 st1 P F1. destruct P as [q P]. destruct q as [|y q].
      + rewrite app_nil_r in P. subst pre. congruence.
      + apply (SMALL pre s1 os1 st1); [|exact F1]. assert (E : ts = pre ++ removelast (y :: q)).
        { rewrite <- removelast_app by discriminate. rewrite <- P. now rewrite removelast_last. }
        now exists (removelast (y :: q)).
    - congruence. }
  destruct (freqcd_delivered _ _ _ _ _ _ _ _ _ _ _ _ A TO FR) as [_ CD]. specialize (CD eq_refl).
  destruct (reads_blocks X ts 0 ltac:(lia) R) as [BL _]. rewrite <- CD in BL. rewrite concat_chunks, <- DR in BL. destruct (blocks_groups _ _ BL) as [BG CX].
  destruct (freqcd_exact _ _ _ _ _ _ _ _ _ _ _ A TO FR) as [_ W]. specialize (W eq_refl). rewrite BG, CR in W. rewrite <- (chunks_all os NX) in W.
  assert (EQ : corrected_stream lg (clock0 junk) (map (FZ f Zf) (seq 0 (length (chunks os)))) (map groups (chunks os)) = corrected_stream lg start (map (FZ f Zf) (seq 0 (length (chunks os)))) (map groups (chunks os))).
  { unfold corrected_stream. f_equal. pose proof (blocks_complete _ _ BL MX8) as CO. destruct (chunks os) as [|b bs]; [reflexivity|]. cbn [map].
    apply corrected_start. cbn [every_read_completes app] in CO. destruct CO as [CO _]. destruct (groups b); [congruence|discriminate]. }
  rewrite EQ in W. rewrite W in LB. exists e, (chunks os). split; [exact ME|]. split; [exact CE|]. split; [exact BL|]. split; [exact CX|]. exact LB.
Qed.
Lemma c191 junk ib ob fb prog args ss f fs stdin X t Zf : alloc_ok ib ob fb -> asks args ss f -> input_of fs stdin ss = Some X -> event_file (legacy_of ss) X ->
  last_of freq_of ss = Some t -> fs t = Some Zf -> bytes_ok Zf -> text_of_lines 98 Zf -> Forall plain_line (lines Zf) ->
  separate (last_of in_of ss) (last_of out_of ss) -> separate (last_of freq_of ss) (last_of out_of ss) ->
  let ts := map (ev_time (legacy_of ss)) (groups X) in
  exists e F, value_at f Zf F /\ freqcd_main true junk ib ob fb (prog :: args) fs stdin = Some (Ok e) /\ code e = 0 /\
    retimed_file fs (files e) (stdout e) ss X (map (exact_time_by F ts) (seq 0 (length ts))).
Proof.
  intros A K IN EV FN FQ BZ TL PL S1 S2 ts. destruct (main_run2 junk ib ob fb prog args ss f fs stdin X t Zf A K IN EV FN FQ BZ TL PL S1 S2) as (SM & e & bs & ME & CE & BL & CX & LB).
  exists e, (FZ f Zf). split; [now apply value_at_FZ|]. split; [exact ME|]. split; [exact CE|].
  destruct EV as (BX & MX & ND). set (lg := legacy_of ss) in *. destruct (blocks_good lg X bs BX BL MX) as (C & TR & NE & CG). pose proof (blocks_sized lg _ _ BL) as SZ.
  set (tss := map (map (ev_time lg)) (map groups bs)) in *. fold ts in C, ND. assert (LT : length tss = length bs) by (unfold tss; now rewrite !map_length).
  set (fl := map (FZ f Zf) (seq 0 (length tss))). assert (LF : length fl = length tss) by (unfold fl; now rewrite map_length, seq_length).
  rewrite C in TR. pose proof (exact_allF (FZ f Zf) ts ND TR tss (eq_sym C) SZ NE) as EA. fold fl in EA.
  assert (LC : length (concat (corrected start fl tss)) = length ts) by (rewrite times_length by exact LF; now rewrite C).
  assert (EQ : map (exact_time_by (FZ f Zf) ts) (seq 0 (length ts)) = concat (corrected start fl tss)).
  { symmetry. apply nth_ext with (d := 0) (d' := exact_time_by (FZ f Zf) ts 0).
    - now rewrite map_length, seq_length.
    - intros n N. rewrite LC in N. rewrite map_nth, seq_nth by assumption. apply nth_error_nth. apply EA. exact N. }
  rewrite EQ. split; [|split].
  - rewrite LC. unfold ts. apply map_length.
  - destruct tss as [|[|t0 tl] tss'] eqn:ET; [unfold fl; exact I|inv NE; congruence|]. rewrite <- ET in *.
    apply (nondecr_tl (t0 + 0)). assert (CS : corrected start fl tss = corrected (mkClock (Some t0) 0 0) fl tss) by (rewrite ET; destruct fl; reflexivity). rewrite CS.
    assert (E0 : exists r, ts = t0 :: r) by (rewrite <- C, ET; cbn [concat app]; eexists; reflexivity). destruct E0 as [r E0].
    apply corrected_order; [exact LF| |exact NE| | |].
    + unfold fl. apply Forall_forall. intros x J. apply in_map_iff in J as (k & <- & _). now apply small_FZ.
    + rewrite E0 in TR. apply Forall_inv in TR. lia.
    + rewrite C, E0. apply nondecr_cons; [lia|]. rewrite <- E0. exact ND.
    + rewrite C. eapply Forall_impl; [|exact TR]. cbn beta. lia.
  - fold lg. rewrite <- CG. rewrite <- LT in LB. fold fl in LB. rewrite corrected_stream_times in LB by (rewrite LF, LT; symmetry; apply map_length). exact LB.
Qed.
Definition plainb (l : list Z) : bool := forallb (fun c => negb (c =? 0)) l && (Z.abs (snd (fst (strtol l))) <? 2 ^ 31).
Lemma plain_byb ls : forallb plainb ls = true -> Forall plain_line ls.
Proof.
  intros H. apply Forall_forall. intros l J. rewrite forallb_forall in H. specialize (H l J). unfold plainb in H. apply andb_true_iff in H as [H1 H2]. split.
  - apply Forall_forall. intros c K. rewrite forallb_forall in H1. specialize (H1 c K). lia.
  - intros v D. apply strtol_denotes in D. rewrite D in H2. cbn [fst snd] in H2. unfold clampl, LONG_MIN, LONG_MAX in H2. lia.
Qed.
