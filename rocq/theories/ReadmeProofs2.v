(** Proof of C129. *)
From Coq Require Import QArith Qabs String List Lia Lqa.
From Verif Require Import Float Base FreqcdModel FreqcdSpec FreqcdProofs FreqcdProofs2 FreqcdProofs6 FreqcdExamples FreqcdRefute FreqcdCli FreqcdCliSpec FreqcdCliProofs FreqcdCliRefute CdRunModel CdRunSpec CdRunProofs CdRunProofs2 CdRunProofs3 CdRunRefute ReadmeSpec.
Import ListNotations. Local Open Scope string_scope. Local Open Scope list_scope. Local Open Scope Z_scope.

Lemma quot_near n : Z.abs (Z.quot (n * 2 ^ 34) (10 ^ 10) * 10 ^ 10 - n * 2 ^ 34) < 10 ^ 10.
Proof. pose proof (Z.quot_rem' (n * 2 ^ 34) (10 ^ 10)). pose proof (Z.rem_bound_abs (n * 2 ^ 34) (10 ^ 10) ltac:(lia)). lia. Qed.
Lemma decimal_from n f t0 k t t' : documented true n = Some f -> accurate f t0 k t t' -> decimal_accurate n t0 k t t'.
Proof.
  unfold documented. destruct (_ <=? _); [|discriminate]. intros H A. assert (HF : f = Z.quot (n * 2 ^ 34) (10 ^ 10)) by congruence. unfold accurate in A. unfold decimal_accurate.
  pose proof (quot_near n) as Q0. rewrite <- HF in Q0. clear H HF.
  set (u := t' - t) in *. set (v := t - t0) in *.
  assert (M : Z.abs (f * 10 ^ 10 - n * 2 ^ 34) * Z.abs v <= 10 ^ 10 * Z.abs v) by (apply Z.mul_le_mono_nonneg_r; lia).
  rewrite <- Z.abs_mul in M.
  assert (K : 2 * Z.abs (2 ^ 34 * 10 ^ 10 * u - 2 ^ 34 * (n * v)) <= 3 * k * (2 ^ 34 * 10 ^ 10) + 2 * (10 ^ 10 * Z.abs v)).
  { replace ((f * 10 ^ 10 - n * 2 ^ 34) * v) with (10 ^ 10 * (f * v) - 2 ^ 34 * (n * v)) in M by ring.
    revert A M. generalize (n * v) (f * v). change (10 ^ 10) with 10000000000. change (2 ^ 34) with 17179869184.
    change (17179869184 * 10000000000) with 171798691840000000000. clear. intros x y A M.
    replace (3 * k * 171798691840000000000) with (k * 515396075520000000000) by ring. lia. }
  assert (S : (0 < inject_Z (2 ^ 34 * 10 ^ 10))%Q) by reflexivity.
  apply (Qmult_le_r _ _ _ S). rewrite <- (Qabs_pos (inject_Z (2 ^ 34 * 10 ^ 10))) at 1 by (apply Qlt_le_weak, S). rewrite <- Qabs_Qmult.
  setoid_replace ((inject_Z u - inject_Z (n * v) / inject_Z (10 ^ 10)) * inject_Z (2 ^ 34 * 10 ^ 10))%Q with (inject_Z (2 ^ 34 * 10 ^ 10 * u - 2 ^ 34 * (n * v))).
  2:{ unfold Z.sub. rewrite inject_Z_plus, inject_Z_opp, !inject_Z_mult. field. discriminate. }
  setoid_replace (((3 # 2) * inject_Z k + inject_Z (Z.abs v) / inject_Z (2 ^ 34)) * inject_Z (2 ^ 34 * 10 ^ 10))%Q with ((1 # 2) * inject_Z (3 * k * (2 ^ 34 * 10 ^ 10) + 2 * (10 ^ 10 * Z.abs v)))%Q.
  2:{ rewrite inject_Z_plus, !inject_Z_mult. change (inject_Z 3) with 3%Q. change (inject_Z 2) with 2%Q. field. discriminate. }
  assert (AB : forall z, Qabs (inject_Z z) = inject_Z (Z.abs z)) by (intros z; unfold inject_Z, Qabs; reflexivity). rewrite AB. rewrite Zle_Qle, inject_Z_mult in K. change (inject_Z 2) with 2%Q in K. lra.
Qed.
Lemma c129 junk ib ob fb prog args ss txt n fs stdin X : alloc_ok ib ob fb -> writes args ss -> Forall good ss -> ~ In Help ss -> In Decimal ss -> last_of corr_of ss = Some txt -> good_number txt n ->
  Z.abs n <= 1220703 -> input_of fs stdin ss = Some X -> event_file (legacy_of ss) X -> last_of freq_of ss = None -> separate (last_of in_of ss) (last_of out_of ss) ->
  exists e times, freqcd_main true junk ib ob fb (prog :: args) fs stdin = Some (Ok e) /\ code e = 0 /\ retimed_file fs (files e) (CdRunModel.stdout e) ss X times /\
    forall i t0 t t', event_time (legacy_of ss) X 0 t0 -> event_time (legacy_of ss) X i t -> nth_error times i = Some t' -> decimal_accurate n t0 (Z.of_nat i / 1024 + 1) t t'.
Proof.
  intros AL WR G NH DE LC GN R I EF FR SP.
  assert (D : decimal_of ss = true) by (unfold decimal_of; apply existsb_exists; exists Decimal; auto).
  assert (DC : exists f, documented true n = Some f) by (unfold documented; destruct (Z.leb_spec (Z.abs n) 1220703); [eexists; reflexivity|lia]). destruct DC as (f & DC).
  destruct (on_file junk ib ob fb prog args ss f fs stdin X AL) as (e & times & A & B & C & K); try assumption.
  { split; [exact WR|]. split; [exact G|]. split; [exact NH|]. exists n. rewrite LC, D. split; [exact GN|exact DC]. }
  exists e, times. split; [exact A|]. split; [exact B|]. split; [exact C|]. intros i t0 t t' H0 H1 H2. eapply decimal_from; [exact DC|]. eapply K; eassumption.
Qed.
(** freqcd -x -df 568 *)
Definition readme_settings : list setting := [Legacy; Decimal; Corr (str "568")].
Lemma readme_written : writes readme_freqcd readme_settings.
Proof.
  apply (W_flags [Legacy] (skipn 1 readme_freqcd) [Decimal; Corr (str "568")]); [repeat constructor|discriminate|].
  apply (W_detached [Decimal] (Corr (str "568")) (str "568") [] []); [repeat constructor|reflexivity|]. constructor. exact I.
Qed.
Lemma good_568 : good_number (str "568") 568. Proof. apply number; [vm_compute; reflexivity|lia]. Qed.
Lemma c129_readme junk ib ob fb prog fs X : alloc_ok ib ob fb -> event_file true X ->
  exists e times, freqcd_main true junk ib ob fb (prog :: readme_freqcd) fs X = Some (Ok e) /\ code e = 0 /\ retimed_file fs (files e) (CdRunModel.stdout e) [Legacy] X times /\
    forall i t0 t t', event_time true X 0 t0 -> event_time true X i t -> nth_error times i = Some t' -> decimal_accurate 568 t0 (Z.of_nat i / 1024 + 1) t t'.
Proof.
  intros AL EF. apply (c129 junk ib ob fb prog readme_freqcd readme_settings (str "568") 568 fs X X AL); try reflexivity; try assumption.
  - exact readme_written.
  - exact (Forall_cons Legacy I (Forall_cons Decimal I (Forall_cons (Corr _) (ex_intro _ 568 good_568) (Forall_nil _)))).
  - intros [H|[H|[H|[]]]]; discriminate H.
  - right. now left.
  - exact good_568.
  - discriminate.
  - now left.
Qed.
