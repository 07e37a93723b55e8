From Coq Require Import QArith Qabs Lqa Lia.
From Verif Require Import Float Base FreqcdModel FreqcdSpec FreqcdProofs FreqcdProofs2 FreqcdProofs3 FreqcdProofs4 FreqcdProofs5 FreqcdProofs6 FreqcdProofs7
  FreqcdCliSpec FreqcdCliProofs FpfindModel FpfindSpec FpfindProofs3 FpfindPipe PipeSpec.
Local Open Scope Z_scope.

Lemma qabs_iff x b : (Qabs x <= b <-> - b <= x /\ x <= b)%Q.
Proof. apply Qabs_Qle_condition. Qed.
(** ** The inverse of the ratio in float64 *)
Lemma inverse_near a b e : (9 # 10 <= a)%Q -> (9 # 10 <= b)%Q -> (Qabs (a - b) <= e)%Q -> (Qabs (1 / a - 1 / b) <= (5 # 4) * e)%Q.
Proof.
  intros A B E. assert (A0 : ~ (a == 0)%Q) by lra. assert (B0 : ~ (b == 0)%Q) by lra.
  assert (EQ : (1 / a - 1 / b == (b - a) * (1 / a * (1 / b)))%Q) by (field; split; assumption).
  assert (IA : (0 <= 1 / a <= 10 # 9)%Q). { split; [apply Qle_shift_div_l; lra|apply Qle_shift_div_r; lra]. }
  assert (IB : (0 <= 1 / b <= 10 # 9)%Q). { split; [apply Qle_shift_div_l; lra|apply Qle_shift_div_r; lra]. }
  assert (P : (0 <= 1 / a * (1 / b) <= 100 # 81)%Q).
  { split; [apply Qmult_le_0_compat; apply IA || apply IB|].
    apply Qle_trans with ((10 # 9) * (1 / b))%Q; [apply Qmult_le_compat_r; [apply IA|apply IB]|lra]. }
  rewrite EQ, Qabs_Qmult. assert (BA : (Qabs (b - a) <= e)%Q) by (rewrite <- Qabs_opp; eapply Qle_trans; [|exact E]; apply Qle_lteq; right; apply Qabs_wd; ring).
  rewrite (Qabs_pos (1 / a * (1 / b))) by apply P. pose proof (Qabs_nonneg (b - a)).
  apply Qle_trans with (Qabs (b - a) * (100 # 81))%Q; [|lra]. rewrite !(Qmult_comm (Qabs (b - a))). apply Qmult_le_compat_r; [apply P|assumption].
Qed.
Lemma inverted_near dt df : (Qabs df <= 1 # 8192)%Q -> (Qabs (snd (inverted (fl 53) (dt, df)) - (1 / (1 + df) - 1)) <= 1 # 2 ^ 50)%Q.
Proof.
  intros H. unfold inverted. cbn [fst snd]. set (x := fl 53 (1 + df)). set (y := fl 53 (1 / x)). set (z := fl 53 (y - 1)).
  apply qabs_iff in H. change (1 # 2 ^ 50)%Q with (1 # 1125899906842624)%Q.
  assert (HX : (Qabs (x - (1 + df)) <= (1 # 2 ^ 53) * 2)%Q) by (apply fl53_near; apply qabs_iff; lra).
  change (1 # 2 ^ 53)%Q with (1 # 9007199254740992)%Q in HX. pose proof (proj1 (qabs_iff _ _) HX) as HX'.
  pose proof (inverse_near x (1 + df) _ ltac:(lra) ltac:(lra) HX) as IN. apply qabs_iff in IN.
  assert (I1 : (9 # 10 <= 1 / (1 + df) <= 11 # 10)%Q). { split; [apply Qle_shift_div_l; lra|apply Qle_shift_div_r; lra]. }
  assert (HY : (Qabs (y - 1 / x) <= (1 # 2 ^ 53) * (6 # 5))%Q) by (apply fl53_near; apply qabs_iff; lra).
  change (1 # 2 ^ 53)%Q with (1 # 9007199254740992)%Q in HY. apply qabs_iff in HY.
  assert (HZ : (Qabs (z - (y - 1)) <= (1 # 2 ^ 53) * 1)%Q) by (apply fl53_near; apply qabs_iff; lra).
  change (1 # 2 ^ 53)%Q with (1 # 9007199254740992)%Q in HZ. apply qabs_iff in HZ. apply qabs_iff. lra.
Qed.
(** ** The frequency in units of 2^-34 *)
Lemma units_near dt df F f : (Qabs df <= 1 # 8192)%Q -> (Qabs (df - F) <= 1 # 2 ^ 51)%Q -> nearest (snd (inverted (fl 53) (dt, df)) * inject_Z (2 ^ 34)) f ->
  (Qabs (inject_Z f * (1 # 2 ^ 34) - (1 / (1 + F) - 1)) <= (1 # 2 ^ 35) + (1 # 2 ^ 49))%Q.
Proof.
  intros D DF N. pose proof (inverted_near dt df D) as I. unfold nearest in N. set (z := snd (inverted (fl 53) (dt, df))) in *.
  change (inject_Z (2 ^ 34)) with (17179869184 # 1)%Q in N. change (1 # 2 ^ 34)%Q with (1 # 17179869184)%Q. change (1 # 2 ^ 35)%Q with (1 # 34359738368)%Q.
  change (1 # 2 ^ 49)%Q with (1 # 562949953421312)%Q. change (1 # 2 ^ 50)%Q with (1 # 1125899906842624)%Q in I. change (1 # 2 ^ 51)%Q with (1 # 2251799813685248)%Q in DF.
  pose proof (proj1 (qabs_iff _ _) DF) as DF'. apply qabs_iff in D, N, I.
  assert (E : (Qabs (1 + df - (1 + F)) <= 1 # 2251799813685248)%Q) by (apply qabs_iff; lra).
  pose proof (inverse_near (1 + df) (1 + F) _ ltac:(lra) ltac:(lra) E) as IN. apply qabs_iff in IN. apply qabs_iff. lra.
Qed.
(** ** From the accuracy of freqcd *)
Lemma accurate_step dt df F f t0 n t t' : (Qabs df <= 1 # 8192)%Q -> (Qabs (df - F) <= 1 # 2 ^ 51)%Q -> nearest (snd (inverted (fl 53) (dt, df)) * inject_Z (2 ^ 34)) f ->
  FreqcdSpec.accurate f t0 n t t' -> in_step ((1 # 2 ^ 35) + (1 # 2 ^ 49)) F t0 n t t'.
Proof.
  intros D DF N A dt0. pose proof (units_near dt df F f D DF N) as U. unfold FreqcdSpec.accurate in A. unfold FpfindSpec.corrected. cbn [fst snd].
  set (r := (1 / (1 + F) - 1)%Q) in *. set (e := ((1 # 2 ^ 35) + (1 # 2 ^ 49))%Q) in *. set (g := (inject_Z f * (1 # 2 ^ 34))%Q) in *.
  assert (F1 : ~ (1 + F == 0)%Q). { change (1 # 2 ^ 51)%Q with (1 # 2251799813685248)%Q in DF. apply qabs_iff in D, DF. intros X. lra. }
  set (T := inject_Z (t - t0)). set (T' := inject_Z (t' - t0)).
  assert (E1 : ((inject_Z t - dt0) / (1 + F) - (inject_Z t0 - dt0) / (1 + F) == T * (1 + r))%Q).
  { unfold T, r. unfold Z.sub. rewrite inject_Z_plus, inject_Z_opp. field. assumption. }
  assert (E2 : (Qabs (T' - T * (1 + g)) <= (3 # 2) * inject_Z n)%Q).
  { assert (Z1 : Z.abs (2 * (2 ^ 34 * (t' - t0 - (t - t0)) - f * (t - t0))) <= 3 * n * 2 ^ 34).
    { replace (t' - t0 - (t - t0)) with (t' - t) by lia. rewrite Z.abs_mul. change (Z.abs 2) with 2. lia. }
    set (d := t - t0) in *. set (d' := t' - t0) in *. clearbody d d'.
    assert (EQ : (T' - T * (1 + g) == inject_Z (2 * (2 ^ 34 * (d' - d) - f * d)) * (1 # 2 ^ 35))%Q).
    { unfold T', T, g. unfold Z.sub. rewrite !inject_Z_mult, !inject_Z_plus, !inject_Z_opp, !inject_Z_mult, !inject_Z_plus, !inject_Z_opp. change (inject_Z 2) with (2 # 1).
      change (inject_Z (2 ^ 34)) with (17179869184 # 1). change (1 # 2 ^ 34)%Q with (1 # 17179869184)%Q. change (1 # 2 ^ 35)%Q with (1 # 34359738368)%Q. field. }
    rewrite EQ, Qabs_Qmult. rewrite (Qabs_pos (1 # 2 ^ 35)) by discriminate.
    assert (Z2 : (Qabs (inject_Z (2 * (2 ^ 34 * (d' - d) - f * d))) <= inject_Z (3 * n * 2 ^ 34))%Q).
    { apply qabs_iff. rewrite <- inject_Z_opp, <- !Zle_Qle. lia. }
    apply Qle_trans with (inject_Z (3 * n * 2 ^ 34) * (1 # 2 ^ 35))%Q; [apply Qmult_le_compat_r; [exact Z2|discriminate]|].
    apply Qle_lteq. right. rewrite !inject_Z_mult. change (inject_Z 3) with (3 # 1). change (inject_Z (2 ^ 34)) with (17179869184 # 1). change (1 # 2 ^ 35)%Q with (1 # 34359738368)%Q. field. }
  assert (E3 : (Qabs (T * (g - r)) <= e * Qabs T)%Q).
  { rewrite Qabs_Qmult, Qmult_comm. apply Qmult_le_compat_r; [exact U|apply Qabs_nonneg]. }
  rewrite E1. clearbody T T' g r e. apply qabs_iff in E2, E3. apply qabs_iff. 
  assert (E4 : (T' - T * (1 + r) == (T' - T * (1 + g)) + T * (g - r))%Q) by ring. rewrite E4. lra.
Qed.
(** ** Both programs *)
Lemma pipe prog repr dt df : (forall x, field_ok (repr x)) -> (Qabs df <= (1 # 2 ^ 13) - (1 # 2 ^ 25))%Q ->
  exists f, accepted prog (printed true (fl 53) repr dt df) f /\
  forall F lg junk ib ob fb ts s' os st, (Qabs (df - F) <= 1 # 2 ^ 51)%Q -> alloc_ok ib ob fb -> Forall tick_ok ts ->
    freqcd true lg junk ib ob fb false f ts = Ok (s', os, st) -> every_read_completes [] (chunks os) ->
    nondecr (map (ev_time lg) (groups (received os))) ->
    let bs := map (map (ev_time lg)) (FreqcdSpec.batches [] (chunks os)) in
    exists tss, length tss = length bs /\
      (forall i t0, hd_error (concat bs) = Some t0 ->
         Forall2 (in_step ((1 # 2 ^ 35) + (1 # 2 ^ 49)) F t0 (Z.of_nat i + 1)) (nth i bs []) (nth i tss [])) /\
      prefix (written os) (concat (retime lg (groups (received os)) (concat tss))) /\
      (st = Running -> written os = concat (retime lg (groups (received os)) (concat tss))).
Proof.
  intros R B. destruct (c61_pipe_inverted prog repr dt df R B) as (f & A & N). exists f. split; [exact A|].
  intros F lg junk ib ob fb ts s' os st DF AL TK RUN ERC ND. cbv zeta.
  assert (S : small f).
  { unfold small. pose proof (c61_inverted dt df B) as S0.
    pose proof (given_ok true prog (fl 53) repr dt df R S0) as A2. pose proof (answers_fun _ _ _ A A2) as E. injection E as ->. exact S0. }
  destruct (freqcd_accurate lg junk ib ob fb f ts s' os st AL TK S RUN ERC ND) as (tss & L & ACC & P1 & P2). exists tss. split; [exact L|]. split; [|split; assumption].
  intros i t0 H. specialize (ACC i t0 H). assert (DF' : (Qabs df <= 1 # 8192)%Q).
  { change (1 # 2 ^ 13)%Q with (1 # 8192)%Q in B. change (1 # 2 ^ 25)%Q with (1 # 33554432)%Q in B. lra. }
  induction ACC as [|t t' l l' X ACC IH]; constructor; [exact (accurate_step dt df F f t0 _ t t' DF' DF N X)|exact IH].
Qed.
