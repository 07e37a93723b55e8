(** What a later iteration finds is not applied when it is clearly more than ten times what is known. *)
From Coq Require Import QArith Qabs Qminmax Lqa List Lia.
From Verif Require Import Float Base TimestampsModel UtilsModel FpfindModel FpfindSpec FpfindProofs AccuracySpec AccuracyProofs RoundedProofs WholeSpec GuardSpec.
From Verif Require UtilsProofs.
Import ListNotations. Local Open Scope Q_scope.

Lemma limit_rounded_up u M x y : rounds u M -> small u -> 0 < y -> rs M (10 * qmax x y) <= (10001 # 1000) * Qmax x y.
Proof.
  intros R U Y. pose proof (Q.le_max_r x y) as Z. pose proof (round_up u M (10 * qmax x y) R U) as H.
  assert (E2 : Qabs (10 * qmax x y) == 10 * Qmax x y) by (rewrite (qmax_is x y); apply Qabs_pos; lra). rewrite E2 in H. pose proof (Qle_Qabs (rs M (10 * qmax x y))). lra.
Qed.
Lemma guard_fires u M P s d1 d2 : rounds u M -> small u -> 0 < separation_duration P ->
  let thr_dt := rs M (10 * qmax (Qabs (dt s)) 1) in let thr_df := rs M (10 * qmax (Qabs (rs M (f s - 1))) (rs M (1 # 1000000000))) in let df1 := rs M (rs M (d2 - d1) / separation_duration P) in
  far_off P s d1 d2 -> (Qltb thr_dt (Qabs d1) || Qltb thr_dt (Qabs d2) || Qltb thr_df (Qabs df1))%bool = true.
Proof.
  intros R U S thr_dt thr_df df1 H. pose proof (limit_rounded_up u M (Qabs (dt s)) 1 R U ltac:(lra)) as T1. fold thr_dt in T1. pose proof (Q.le_max_r (Qabs (dt s)) 1) as X1.
  unfold far_off in H. cbv zeta in H. apply orb_true_intro. destruct H as [H|[H|H]]; [left; apply orb_true_intro; left|left; apply orb_true_intro; right|right]; apply UtilsProofs.Qltb_lt; [lra|lra|].
  assert (P1 : 0 < rs M (1 # 1000000000)). { pose proof (R (1 # 1000000000)) as K. change (Qabs (1 # 1000000000)) with (1 # 1000000000) in K. destruct U as [U0 U1]. apply qabs_both in K. lra. }
  pose proof (round_up u M (1 # 1000000000) R U) as L1. change (Qabs (1 # 1000000000)) with (1 # 1000000000) in L1. rewrite (Qabs_pos _ (Qlt_le_weak _ _ P1)) in L1.
  pose proof (round_up u M (f s - 1) R U) as L2. pose proof (limit_rounded_up u M (Qabs (rs M (f s - 1))) (rs M (1 # 1000000000)) R U P1) as T2. fold thr_df in T2.
  set (q := (d2 - d1) / separation_duration P) in *. assert (Q1 : (999998 # 1000000) * Qabs q <= Qabs df1).
  { eapply Qle_trans; [|apply (round_down u M _ R U)]. assert (Y : (999999 # 1000000) * Qabs q <= Qabs (rs M (d2 - d1) / separation_duration P)); [|pose proof (Qabs_nonneg q); lra].
    assert (Y0 : forall z, Qabs (z / separation_duration P) == Qabs z / separation_duration P).
    { intros z. unfold Qdiv. rewrite Qabs_Qmult. rewrite (Qabs_pos (/ separation_duration P)); [reflexivity|]. apply Qlt_le_weak, Qinv_lt_0_compat, S. }
    unfold q. rewrite !Y0. apply Qle_shift_div_l; [exact S|]. pose proof (round_down u M (d2 - d1) R U) as Z. eapply Qle_trans; [|exact Z]. apply Qle_lteq. right. field. lra. }
  assert (M1 : Qmax (Qabs (rs M (f s - 1))) (rs M (1 # 1000000000)) <= (1000001 # 1000000) * Qmax (Qabs (f s - 1)) (1 # 1000000000)).
  { pose proof (Q.le_max_l (Qabs (f s - 1)) (1 # 1000000000)). pose proof (Q.le_max_r (Qabs (f s - 1)) (1 # 1000000000)). apply Q.max_lub; lra. }
  pose proof (Q.le_max_r (Qabs (f s - 1)) (1 # 1000000000)) as M2. lra.
Qed.
Lemma history_iterate M P ats e d s0 s ws : history M P ats e d s0 s ws -> forall k, iterate (length ws + k) M P ats e d s0 = iterate k M P ats e d s.
Proof.
  intros H. induction H as [|s ws r d1 d2 s' H IH FI IT]; intros k; [reflexivity|].
  cbn [length]. replace (S (length ws) + k)%nat with (length ws + S k)%nat by lia. rewrite IH. cbn [iterate]. rewrite IT. reflexivity.
Qed.
Lemma history_first M P ats e d s0 s ws : history M P ats e d s0 s ws -> ws <> [] -> is_first s = false.
Proof.
  intros H. destruct H as [|s ws r d1 d2 s' H FI IT]; [congruence|]. intros _. unfold iteration in IT.
  apply bind_ok in IT as (ys & _ & IT). apply bind_ok in IT as (t1 & _ & IT). apply bind_ok in IT as (sig & _ & IT). apply bind_ok in IT as ([r' d1'] & _ & IT).
  destruct (Qltb NTP_MAXDELAY_NS (Qabs d1')); [discriminate|]. apply bind_ok in IT as (ys2 & _ & IT). apply bind_ok in IT as (d2' & _ & IT). cbv zeta in IT.
  destruct (_ && _)%bool in IT; [discriminate|]. destruct (Qle_bool MAX_FCORR _) in IT; [discriminate|]. destruct (Qeq_bool r' _) in IT; [discriminate|]. injection IT as <-. reflexivity.
Qed.
Lemma c143 M P A B res a b s ws r d1 d2 : rs M = fl 53 -> 0 < separation_duration P -> getitem A (-1) = Ok a -> getitem B (-1) = Ok b ->
  let d := rs M (rs M (inject_Z (num_wraps P) * res) * inject_Z (num_bins P)) in
  history M P A (qmin a b) d (mkS B res 0 1 true) s ws -> ws <> [] -> finds M P A (qmin a b) d s r d1 d2 -> Qabs d1 <= NTP_MAXDELAY_NS -> far_off P s d1 d2 ->
  forall m, (length ws < m)%nat -> time_freq m M P A B res = Ok (dt s, rs M (f s - 1)).
Proof.
  intros RS SEP GA GB d HI NE FI D1 FO m L. unfold time_freq. rewrite GA, GB. cbn [bind]. cbv zeta. fold d. replace m with (length ws + S (m - length ws - 1))%nat by lia. rewrite (history_iterate M P A _ d _ s ws HI).
  cbn [iterate]. pose proof (history_first M P A _ d _ s ws HI NE) as NF. destruct FI as (ys & t1 & sig & ys2 & C1 & DE & SI & CF & C2 & DE2).
  unfold iteration. rewrite C1. cbn [bind]. rewrite DE. cbn [bind]. rewrite SI. cbn [bind]. rewrite CF. cbn [bind].
  assert (Qltb NTP_MAXDELAY_NS (Qabs d1) = false) as -> by (unfold Qltb; now apply Bool.negb_false_iff, Qle_bool_iff). rewrite C2. cbn [bind]. rewrite DE2. cbn [bind]. cbv zeta.
  assert (RS' : forall v, rs M v = fl 53 v) by (intros v; now rewrite RS). assert (SM : small U53) by (split; vm_compute; discriminate).
  rewrite NF. cbn [negb andb]. rewrite (guard_fires U53 M P s d1 d2 (rounds_float M RS') SM SEP FO). reflexivity.
Qed.
