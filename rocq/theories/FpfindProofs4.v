(** Termination of time_freq without a given number of iterations. *)
From Coq Require Import QArith Qabs Qround Lqa.
From Coq Require Import ZifyBool.
From Verif Require Import Float Base TimestampsModel TimestampsSpec UtilsModel UtilsSpec UtilsProofs UtilsProofs2 UtilsProofs3 FpfindModel FpfindSpec FpfindProofs FpfindProofs2 FpfindProofs3.
Local Open Scope Z_scope.

Lemma bernoulli c : (0 <= c)%Q -> (c < 1)%Q -> forall k, (0 <= qpow c k)%Q /\ (qpow c k * (1 + inject_Z (Z.of_nat k) * (1 - c)) <= 1)%Q.
Proof.
  intros C0 C1. induction k as [|k [P IH]]; [split; [discriminate|]; cbn [qpow]; change (inject_Z (Z.of_nat 0)) with 0%Q; lra|]. cbn [qpow]. split; [apply Qmult_le_0_compat; assumption|].
  rewrite Nat2Z.inj_succ. unfold Z.succ. rewrite inject_Z_plus. change (inject_Z 1) with 1%Q. set (n := inject_Z (Z.of_nat k)) in *.
  assert (N : (0 <= n)%Q) by (subst n; change 0%Q with (inject_Z 0); rewrite <- Zle_Qle; lia). clearbody n. set (p := qpow c k) in *. clearbody p.
  apply Qle_trans with (p * (1 + n * (1 - c)))%Q; [|exact IH].
  setoid_replace (c * p * (1 + (n + 1) * (1 - c)))%Q with (p * (c * (1 + (n + 1) * (1 - c))))%Q by ring.
  rewrite !(Qmult_comm p). apply Qmult_le_compat_r; [|exact P].
  assert (E : (1 + n * (1 - c) - c * (1 + (n + 1) * (1 - c)) == (1 - c) * (1 - c) * (1 + n))%Q) by ring.
  assert (0 <= (1 - c) * (1 - c) * (1 + n))%Q by (apply Qmult_le_0_compat; [apply Qmult_le_0_compat|]; lra). lra.
Qed.
Lemma qpow_small c x t : (0 <= c)%Q -> (c < 1)%Q -> (0 < x)%Q -> (0 < t)%Q -> exists k, (x * qpow c (S k) <= t)%Q.
Proof.
  intros C0 C1 X T. set (e := (1 - c)%Q). assert (E : (0 < e)%Q) by (unfold e; lra).
  exists (Z.to_nat (Qceiling (x / (t * e)))). set (k := Z.to_nat (Qceiling (x / (t * e)))).
  destruct (bernoulli c C0 C1 (S k)) as [P B]. fold e in B. set (p := qpow c (S k)) in *.
  assert (TE : (0 < t * e)%Q) by (apply Qmult_lt_0_compat; assumption).
  assert (L : (x / (t * e) <= inject_Z (Z.of_nat (S k)))%Q).
  { apply Qle_trans with (inject_Z (Qceiling (x / (t * e)))); [apply Qle_ceiling|]. rewrite <- Zle_Qle. lia. }
  set (n := inject_Z (Z.of_nat (S k))) in *. clearbody n p.
  assert (XL : (x <= n * (t * e))%Q).
  { apply Qle_trans with (x / (t * e) * (t * e))%Q; [apply Qle_lteq; right; field; lra|]. apply Qmult_le_compat_r; [exact L|lra]. }
  apply Qle_trans with (n * (t * e) * p)%Q; [apply Qmult_le_compat_r; assumption|].
  setoid_replace (n * (t * e) * p)%Q with (t * (p * (n * e)))%Q by ring.
  assert (p * (n * e) <= 1)%Q by lra. rewrite <- (Qmult_1_r t) at 2. rewrite !(Qmult_comm t). apply Qmult_le_compat_r; lra.
Qed.
Lemma iterate_more M P ats e d : forall n m s, (n <= m)%nat -> iterate n M P ats e d s <> Err OutOfFuel -> iterate m M P ats e d s = iterate n M P ats e d s.
Proof.
  induction n as [|n IH]; intros m s L H; [now destruct H|]. destruct m as [|m]; [lia|]. cbn [iterate] in *.
  destruct (iteration M P ats e d s) as [[x y|s']|x]; cbn [bind] in *; [reflexivity| |reflexivity]. apply IH; [lia|exact H].
Qed.
Lemma time_freq_more M P ats bts res n m : (n <= m)%nat -> time_freq n M P ats bts res <> Err OutOfFuel -> time_freq m M P ats bts res = time_freq n M P ats bts res.
Proof.
  intros L. unfold time_freq. destruct (getitem ats (-1)) as [a|]; cbn [bind]; [|reflexivity]. destruct (getitem bts (-1)) as [b|]; cbn [bind]; [|reflexivity]. now apply iterate_more.
Qed.
Lemma qpow_le c k : (0 <= c)%Q -> (c < 1)%Q -> (0 <= qpow c k <= 1)%Q.
Proof. intros A B. destruct (bernoulli c A B k) as [P L]. split; [exact P|].
  assert (0 <= inject_Z (Z.of_nat k))%Q by (change 0%Q with (inject_Z 0); rewrite <- Zle_Qle; lia). assert (0 <= qpow c k * (inject_Z (Z.of_nat k) * (1 - c)))%Q by (apply Qmult_le_0_compat; [exact P|apply Qmult_le_0_compat; lra]). lra.
Qed.
Lemma c55_ends M P ats bts res c : (forall x, 0 < x -> 0 < rs M x)%Q -> good_xc M -> good_zs M -> num_bins P = 1 \/ Z.odd (num_bins P) = false ->
  shrinks M (separation_duration P) (rs M (rs M (inject_Z (num_wraps P) * res) * inject_Z (num_bins P))%Q) c ->
  (0 < target_resolution P)%Q -> (0 < res)%Q -> ats <> [] -> bts <> [] ->
  exists n r, r <> Err OutOfFuel /\ forall m, (n <= m)%nat -> time_freq m M P ats bts res = r.
Proof.
  intros RP GX GZ NB SH T R NA NBt. pose proof SH as (C0 & C1 & _).
  destruct (qpow_small c (res + 10000)%Q (target_resolution P) C0 C1 ltac:(lra) T) as (k & K).
  destruct (qpow_le c (S k) C0 C1) as [P0 _].
  assert (A1 : (0 <= res * qpow c (S k))%Q) by (apply Qmult_le_0_compat; lra).
  assert (E : errs [ValueError; IndexError] (time_freq (S (S k)) M P ats bts res)) by (apply (c55 M P ats bts res c k); try assumption; lra).
  exists (S (S k)), (time_freq (S (S k)) M P ats bts res).
  assert (N : time_freq (S (S k)) M P ats bts res <> Err OutOfFuel) by (intros X; apply E in X as [X|[X|[]]]; discriminate).
  split; [exact N|]. intros m L. now apply time_freq_more.
Qed.
Lemma fl53_below x y : (1 <= x)%Q -> (x * (1 - (1 # 2 ^ 53)) >= y)%Q -> (y <= fl 53 x)%Q.
Proof.
  intros X Y. pose proof (fl53_near x x ltac:(rewrite Qabs_pos; lra)) as E. apply Qabs_Qle_condition in E. lra.
Qed.
Lemma shrinks_ratio M sep d : (forall x, rs M x = fl 53 x) -> (0 < d)%Q -> (d * RES_REFINE_FACTOR * (1 + (1 # 2 ^ 49)) <= sep)%Q ->
  exists c, shrinks M sep d c.
Proof.
  intros RS D L. eexists. apply (shrinks_fl M sep d RS).
  assert (R1 : (RES_REFINE_FACTOR * (1 + (1 # 2 ^ 49)) <= sep / d)%Q) by (apply Qle_shift_div_l; [assumption|]; lra).
  set (a := (RES_REFINE_FACTOR * (1 + (1 # 2 ^ 49)) * (1 - (1 # 2 ^ 53)))%Q).
  assert (A : (a <= fl 53 (sep / d))%Q).
  { apply fl53_below; [apply Qle_trans with (RES_REFINE_FACTOR * (1 + (1 # 2 ^ 49)))%Q; [vm_compute; discriminate|exact R1]|].
    unfold a. apply Qmult_le_compat_r; [exact R1|vm_compute; discriminate]. }
  assert (B : (a / RES_REFINE_FACTOR <= fl 53 (sep / d) / RES_REFINE_FACTOR)%Q) by (apply Qmult_le_compat_r; [exact A|vm_compute; discriminate]).
  apply fl53_below; [apply Qle_trans with (a / RES_REFINE_FACTOR)%Q; [vm_compute; discriminate|exact B]|].
  apply Qle_trans with (a / RES_REFINE_FACTOR * (1 - (1 # 2 ^ 53)))%Q; [vm_compute; discriminate|]. apply Qmult_le_compat_r; [exact B|vm_compute; discriminate].
Qed.
Lemma c55_float M P ats bts res : (forall x, rs M x = fl 53 x) -> good_xc M -> good_zs M -> num_bins P = 1 \/ Z.odd (num_bins P) = false ->
  let d := fl 53 (fl 53 (inject_Z (num_wraps P) * res) * inject_Z (num_bins P)) in
  (0 < d)%Q -> (d * RES_REFINE_FACTOR * (1 + (1 # 2 ^ 49)) <= separation_duration P)%Q ->
  (0 < target_resolution P)%Q -> (0 < res)%Q -> ats <> [] -> bts <> [] ->
  exists n r, r <> Err OutOfFuel /\ forall m, (n <= m)%nat -> time_freq m M P ats bts res = r.
Proof.
  intros RS GX GZ NB d D L T R NA NBt. destruct (shrinks_ratio M _ d RS D L) as (c & SH).
  apply (c55_ends M P ats bts res c); try assumption; [intros x X; rewrite RS; now apply fl_pos|]. now rewrite !RS.
Qed.
Lemma c55_exact M P ats bts res : exact_fpu M -> good_xc M -> good_zs M -> num_bins P = 1 \/ Z.odd (num_bins P) = false ->
  let d := (inject_Z (num_wraps P) * res * inject_Z (num_bins P))%Q in
  (0 < d)%Q -> (d * RES_REFINE_FACTOR < separation_duration P)%Q ->
  (0 < target_resolution P)%Q -> (0 < res)%Q -> ats <> [] -> bts <> [] ->
  exists n r, r <> Err OutOfFuel /\ forall m, (n <= m)%nat -> time_freq m M P ats bts res = r.
Proof.
  intros EX GX GZ NB d D L T R NA NBt. pose proof EX as [RT RS].
  set (d' := rs M (rs M (inject_Z (num_wraps P) * res) * inject_Z (num_bins P))%Q).
  assert (E : (d' == d)%Q) by (subst d' d; rewrite (RS (rs M (inject_Z (num_wraps P) * res) * inject_Z (num_bins P))%Q), (RS (inject_Z (num_wraps P) * res)%Q); reflexivity).
  apply (c55_ends M P ats bts res (d' * RES_REFINE_FACTOR / separation_duration P)); try assumption; [intros x X; now rewrite RS|].
  apply shrinks_exact; [assumption|now rewrite E|now rewrite E].
Qed.

(** the model with exact transforms *)
Lemma exact_good rt rs : good_xc (mkFpu rt rs exact_xc exact_zs).
Proof. intros h k E _. cbn [xc]. unfold exact_xc, circular. now rewrite !map_length, seq_length. Qed.
Lemma exact_good_zs rt rs : good_zs (mkFpu rt rs exact_xc exact_zs).
Proof.
  intros m b. cbn [zs]. unfold exact_zs. replace (Qeq_bool (qvar [b]) 0) with true; [reflexivity|]. symmetry. apply Qeq_bool_iff.
  apply qvar_zero; [discriminate|]. intros x y [<-|[]] [<-|[]]. reflexivity.
Qed.
