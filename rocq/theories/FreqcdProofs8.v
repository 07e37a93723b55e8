(** Totality with zero correction, flag bits, and what is taken from frequency lines. *)
From Verif Require Import Base FreqcdModel FreqcdSpec FreqcdProofs FreqcdProofs2 FreqcdProofs3 FreqcdProofs4 FreqcdProofs5 FreqcdProofs6 FreqcdProofs7.
From Coq Require Import ZifyBool.
Ltac Zify.zify_post_hook ::= Z.div_mod_to_equations.

Lemma freqcd_delivered strict lg junk ib ob fb fg fc ts s' os st :
  alloc_ok ib ob fb -> Forall tick_ok ts ->
  freqcd strict lg junk ib ob fb fg fc ts = Ok (s', os, st) ->
  prefix (chunks os) (delivered 0 ts) /\ (st = Running -> chunks os = delivered 0 ts).
Proof.
  intros A T E. pose proof (freqcd_spec strict lg junk ib ob fb fg fc ts A T) as S. rewrite E in S.
  destruct S as (_ & _ & _ & D & P & _). split; [assumption|]. intros R. specialize (D R []).
  cbn [delivered] in D. rewrite !app_nil_r in D. now symmetry.
Qed.

(** ** Flags *)
Lemma retime_length lg : forall evs ts, length evs = length ts -> length (retime lg evs ts) = length evs.
Proof. induction evs; intros [|t ts] L; cbn in *; try discriminate; auto. Qed.
Lemma retime_len8 lg : forall evs ts, Forall (fun ev => len ev = 8) (retime lg evs ts).
Proof. induction evs; intros [|t ts]; cbn; constructor; auto. apply mk_event_len. Qed.
Lemma retime_flags lg : forall evs ts i ev', nth_error (retime lg evs ts) i = Some ev' ->
  exists ev, nth_error evs i = Some ev /\ ev_flags lg ev' = ev_flags lg ev.
Proof.
  induction evs as [|ev evs IH]; intros [|t ts] [|i] ev' H; cbn in *; try discriminate.
  - injection H as <-. exists ev. split; [reflexivity|]. apply ev_flags_mk, ev_flags_range.
  - eauto.
Qed.
Lemma groups_prefix w l : prefix w (concat l) -> Forall (fun ev => len ev = 8) l -> prefix (groups w) l.
Proof.
  intros [q E] H. pose proof (groups_concat' l H) as G. rewrite E, groups_split in G.
  eexists. symmetry. exact G.
Qed.
Lemma nth_error_prefix {A} (p l : list A) i x : prefix p l -> nth_error p i = Some x -> nth_error l i = Some x.
Proof.
  intros [q ->] H. rewrite nth_error_app1; [assumption|]. apply nth_error_Some. congruence.
Qed.
Lemma freqcd_flags strict lg junk ib ob fb fg fc ts s' os st :
  alloc_ok ib ob fb -> Forall tick_ok ts ->
  freqcd strict lg junk ib ob fb fg fc ts = Ok (s', os, st) ->
  (forall i ev', nth_error (groups (written os)) i = Some ev' ->
    exists ev, nth_error (groups (received os)) i = Some ev /\ ev_flags lg ev' = ev_flags lg ev) /\
  (st = Running -> length (groups (written os)) = length (groups (received os)) /\ leftover (written os) = []).
Proof.
  intros A T E. destruct (freqcd_retime _ _ _ _ _ _ _ _ _ _ _ _ A T E) as (times & L & P & W). split.
  - intros i ev' H. eapply retime_flags. eapply nth_error_prefix; [|exact H].
    apply groups_prefix; [exact P|apply retime_len8].
  - intros R. rewrite (W R). rewrite groups_concat' by apply retime_len8.
    split; [apply retime_length; auto|].
    rewrite <- (app_nil_r (concat _)), leftover_concat by apply retime_len8. reflexivity.
Qed.

(** ** Zero correction: no trap *)
Lemma clock_run_zero_k strict lg : forall fs bs ref isset m outs k',
  length fs = length bs -> Forall (eq 0) fs -> Forall (Forall good_ev) bs ->
  clock_run strict lg fs (ref, isset, 0, Some (m, 0)) bs = Ok (outs, k') ->
  exists r i m', k' = (r, i, 0, Some (m', 0)).
Proof.
  induction fs as [|f fs IH]; intros [|b bs] ref isset m outs k' L F G; cbn in L; try discriminate.
  - cbn. intros H. injection H as _ <-. eexists _, _, _; reflexivity.
  - inv F. inv G. cbn [clock_run]. unfold input_clock.
    destruct (match b with [] => _ | _ => _ end) as [ref' isset'].
    destruct (correct_all_zero strict lg ref' b (Some (m, 0)) H1) as (l' & -> & E). cbn [bind].
    assert (exists m', l' = Some (m', 0)) as [m' ->] by (destruct b; [subst; now eexists|assumption]).
    change (signed64 strict (0 + 0)) with (@Ok trap Z 0). cbn [bind].
    destruct (clock_run strict lg fs _ bs) as [[o k]|] eqn:CR; [|discriminate]. cbn [bind].
    intros H; injection H as _ <-. eapply IH; [| | |exact CR]; auto.
Qed.
Lemma freqcd_zero_total strict lg junk ib ob fb : forall ts,
  alloc_ok ib ob fb -> Forall tick_ok ts -> first_complete (delivered 0 ts) ->
  exists s os st, freqcd strict lg junk ib ob fb false 0 ts = Ok (s, os, st).
Proof.
  intros ts A. induction ts as [|t ts IH] using rev_ind; intros T FC.
  - eexists _, _, _. reflexivity.
  - apply Forall_app in T as [T1 T2]. inv T2.
    destruct (delivered_prefix ts [t] 0) as [q DQ].
    destruct IH as (s & os & st & E); auto.
    { rewrite DQ in FC. destruct (delivered 0 ts); [exact I|exact FC]. }
    pose proof (freqcd_spec strict lg junk ib ob fb false 0 ts A T1) as S. rewrite E in S.
    unfold freqcd in *. rewrite run_app, E. cbn [bind].
    destruct st; [|eexists _, _, _; reflexivity].
    destruct S as ((outs & CR & _) & FS & I & D & _ & NF & BO & L & G & CB).
    specialize (I eq_refl). specialize (D eq_refl). specialize (NF eq_refl). pose proof (D [t]) as D1.
    rewrite (freq_after_spec 0 os) in FS.
    assert (F0 : fcorr s = 0).
    { rewrite FS. clear - NF. induction NF as [|o os H _ IH]; [reflexivity|]. cbn [map filter]. rewrite H. exact IH. }
    cbn [run]. pose proof (step_spec strict lg s _ _ t I H1) as ST.
    destruct (step strict lg s t) as [[[s1 o] st1]|e].
    + destruct st1; cbn [bind]; eexists _, _, _; reflexivity.
    + exfalso. destruct ST as (data & DD & BD & IC). rewrite DD in D1.
      set (lo := leftover (received os)) in *.
      assert (GD : Forall good_ev (groups (lo ++ data))).
      { pose proof (batches_good [data] lo) as GG. cbn in GG.
        assert (G1 := GG ltac:(apply Forall_leftover; unfold received; apply Forall_concat;
           clear - BO; induction BO as [|x l [? ?] ? ?]; cbn; constructor; auto) ltac:(constructor; auto)).
        now inv G1. }
      rewrite corrections_fixed in CR, L by assumption.
      rewrite F0 in IC. rewrite D1 in FC.
      destruct (chunks os) as [|c cs] eqn:CS.
      * assert (RE : received os = []) by (rewrite <- concat_chunks; now rewrite CS).
        assert (LO : lo = []) by (unfold lo; now rewrite RE). rewrite LO in *. cbn [app] in *.
        cbn in CR. assert (CK : clk_of s = (0, false, 0, junk)) by congruence. rewrite CK in IC.
        unfold input_clock in IC. destruct (groups data) as [|ev evs] eqn:GE.
        { apply (f_equal len) in GE. rewrite len_groups in GE. cbn in FC. change (@len (list Z) []) with 0 in GE. lia. }
        destruct (correct_all_zero strict lg (ev_time lg ev) (ev :: evs) junk GD) as (l' & EC & m' & ->).
        rewrite EC in IC. cbn [bind] in IC. discriminate.
      * cbn [length repeat batches clock_run app] in CR, L. inv G. cbn [app] in H3.
        unfold input_clock in CR at 1.
        destruct (groups c) as [|ev evs] eqn:GE.
        { apply (f_equal len) in GE. rewrite len_groups in GE. cbn in FC. change (@len (list Z) []) with 0 in GE. lia. }
        destruct (correct_all_zero strict lg (ev_time lg ev) (ev :: evs) junk H3) as (l' & EC & m' & ->).
        rewrite EC in CR. cbn [bind] in CR.
        change (signed64 strict (0 + 0)) with (@Ok trap Z 0) in CR. cbn [bind] in CR.
        destruct (clock_run strict lg _ _ _) as [[o2 k2]|] eqn:CR2 in CR; [|discriminate]. cbn [bind] in CR.
        assert (CK : k2 = clk_of s) by congruence. clear CR.
        apply clock_run_zero_k in CR2; [| now rewrite repeat_length, batches_length | | assumption].
        2:{ clear. induction (length cs); cbn; constructor; auto. }
        destruct CR2 as (r & i & m & ->). rewrite <- CK in IC. unfold input_clock in IC.
        destruct (match groups (lo ++ data) with [] => _ | _ => _ end) as [ref' isset'].
        destruct (correct_all_zero strict lg ref' (groups (lo ++ data)) (Some (m, 0)) GD) as (l' & EC2 & EL).
        rewrite EC2 in IC. cbn [bind] in IC.
        assert (exists m', l' = Some (m', 0)) as [m'' ->] by (destruct (groups (lo ++ data)); [subst; now eexists|assumption]).
        discriminate.
Qed.

(** ** What is taken from the frequency stream *)
Lemma line_update_actual f line : after_line_actual f line (line_update f line).
Proof.
  unfold after_line_actual, taken, line_update, readint.
  destruct (strtol (upto0 line)) as [[moved w] rest] eqn:S.
  destruct (moved && match rest with [] => true | _ => false end) eqn:C.
  - destruct moved; [|discriminate]. destruct rest; [|discriminate]. cbn [andb].
    pose proof S as S'. apply strtol_inv in S as (v & D & ->).
    change (Z.max (- 2 ^ 63) (Z.min (2 ^ 63 - 1) v)) with (clampl v).
    set (w := s32 (clampl v)) in *. assert (RW : - 2 ^ 31 <= w < 2 ^ 31) by (unfold w, s32; lia).
    assert (U : forall u, (exists v0, denotes (upto0 line) v0 /\ u = s32 (Z.max (- 2 ^ 63) (Z.min (2 ^ 63 - 1) v0)) /\
      (Z.abs u < 2 ^ 21 \/ u = - 2 ^ 31)) -> u = w).
    { intros u (v0 & D0 & -> & _). unfold w. f_equal. symmetry. exact (denotes_fun _ _ _ D D0). }
    assert (EW : w = s32 (clampl v)) by reflexivity.
    clearbody w. unfold abs32, INT_MAX. change FCORR_MAX with (2 ^ 21).
    destruct (w =? - 2 ^ 31) eqn:E1.
    + replace (- 2 ^ 31 <? 2 ^ 31 - 1) with true by lia. rewrite E1.
      replace (- 2 ^ 31 <? 2 ^ 21) with true by lia. left. exists v. split; [assumption|]. split; [exact EW|right; lia].
    + destruct (Z.abs w <? 2 ^ 31 - 1) eqn:E2.
      * rewrite E1. destruct (Z.abs w <? 2 ^ 21) eqn:E3.
        -- left. exists v. split; [assumption|]. split; [exact EW|left; lia].
        -- right. split; [|reflexivity]. intros u Hu. pose proof (U u Hu). subst u.
           destruct Hu as (_ & _ & _ & Hu). lia.
      * replace (2 ^ 31 - 1 =? - 2 ^ 31) with false by lia.
        replace (Z.abs (2 ^ 31 - 1) <? 2 ^ 21) with false by lia.
        right. split; [|reflexivity]. intros u Hu. pose proof (U u Hu). subst u.
        destruct Hu as (_ & _ & _ & Hu). lia.
  - cbn [andb]. right. split; [|reflexivity].
    intros u (v & Du & _). apply strtol_denotes in Du. rewrite S in Du. inv Du. discriminate.
Qed.
Lemma after_lines_actual_fold : forall ls f, after_lines_actual f ls (fold_left line_update ls f).
Proof.
  induction ls as [|l ls IH]; intros f; cbn; [constructor|].
  econstructor; [apply line_update_actual|apply IH].
Qed.
(** The exact rule: reads without a newline are forgotten; every complete line of the rest counts. *)
Lemma freqcd_freq_actual strict lg junk ib ob fb fg fc ts s' os st :
  alloc_ok ib ob fb -> Forall tick_ok ts ->
  freqcd strict lg junk ib ob fb fg fc ts = Ok (s', os, st) ->
  after_lines_actual fc (lines (concat (filter has_newline (map rx_freq os)))) (fcorr s').
Proof.
  intros A T E. rewrite (freqcd_fcorr _ _ _ _ _ _ _ _ _ _ _ _ A T E). apply after_lines_actual_fold.
Qed.
Lemma after_lines_invalid f ls f' : after_lines f ls f' ->
  Forall (fun l => forall v, ~ valid_line l v) ls -> f' = f.
Proof.
  induction 1 as [|f l f1 ls f2 H _ IH]; intros I; [reflexivity|]. inv I.
  destruct H as [H|[_ ->]]; [now apply H2 in H|auto].
Qed.
Lemma freqcd_malformed strict lg junk ib ob fb fg fc ts s' os st :
  alloc_ok ib ob fb -> Forall tick_ok ts ->
  freqcd strict lg junk ib ob fb fg fc ts = Ok (s', os, st) ->
  let ls := lines (concat (filter has_newline (map rx_freq os))) in
  Forall plain_line ls -> Forall (fun l => forall v, ~ valid_line l v) ls -> fcorr s' = fc.
Proof.
  intros A T E ls P I. apply (after_lines_invalid fc ls); [|assumption].
  rewrite (freqcd_fcorr _ _ _ _ _ _ _ _ _ _ _ _ A T E). now apply after_lines_fold.
Qed.

(** ** Corrections in force *)
Lemma corrections_small strict lg junk ib ob fb fg fc : forall ts s os st,
  alloc_ok ib ob fb -> Forall tick_ok ts ->
  (forall pre s os st, prefix pre ts ->
     freqcd strict lg junk ib ob fb fg fc pre = Ok (s, os, st) -> small (fcorr s)) ->
  freqcd strict lg junk ib ob fb fg fc ts = Ok (s, os, st) ->
  Forall small (corrections ([], fc) os).
Proof.
  intros ts s os st A. revert s os st.
  induction ts as [|t ts IH] using rev_ind; intros s os st T SM E.
  - cbn in E. inv E. constructor.
  - apply Forall_app in T as [T1 T2]. inv T2.
    unfold freqcd in E. rewrite run_app in E.
    destruct (run strict lg (init_state junk ib ob fb fg fc) ts) as [[[s0 os0] st0]|] eqn:E0; [|discriminate].
    assert (C0 : Forall small (corrections ([], fc) os0)).
    { apply (IH s0 os0 st0); auto. intros pre s1 os1 st1 [p ->] E1.
      apply (SM pre s1 os1 st1); [|exact E1]. exists (p ++ [t]). now rewrite app_assoc. }
    cbn [bind] in E. destruct st0; [|inv E; assumption].
    pose proof (freqcd_spec strict lg junk ib ob fb fg fc ts A T1) as S. unfold freqcd in S. rewrite E0 in S.
    destruct S as (_ & FS & _).
    assert (SF : small (fcorr s0)) by (apply (SM ts s0 os0 Running); [now exists [t]|exact E0]).
    cbn [run] in E. destruct (step strict lg s0 t) as [[[s1 o] st1]|]; [|discriminate].
    cbn [bind] in E.
    assert (C1 : Forall small (corrections ([], fc) (os0 ++ [o]))).
    { rewrite corrections_app. apply Forall_app. split; [assumption|]. cbn [corrections].
      destruct (rx o); constructor; [|constructor]. now rewrite <- FS. }
    destruct st1; cbn [bind] in E; inv E; assumption.
Qed.
