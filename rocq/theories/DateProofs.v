(** Proofs about epoch2date. *)
From Coq Require Import QArith Qabs Qround Lqa.
From Coq Require Import ZifyBool.
From Verif Require Import Float Base TimestampsModel EpochsModel EpochsSpec EpochsProofs6 DateModel DateSpec.
Local Open Scope Z_scope.

Lemma seconds_near e : 0 <= e < 2 ^ 32 ->
  let t := fl 53 (fl 53 (inject_Z (Z.shiftl e 32)) * PS125_S)%Q in
  (0 <= t)%Q /\ (Qabs (t - inject_Z e * (536870912 # 1000000000)) <= 41 # 100000000)%Q.
Proof.
  intros H. cbv zeta. rewrite PS125_S_val, Z.shiftl_mul_pow2 by lia.
  assert (E : (fl 53 (inject_Z (e * 2 ^ 32)) * (4835703278458517 # 38685626227668133590597632) == inject_Z e * (4835703278458517 # 9007199254740992))%Q).
  { rewrite inject_Z_mult. change (inject_Z (2 ^ 32)) with (pow2 32). rewrite fl_exact by lia.
    change (pow2 32) with (4294967296 # 1)%Q. field. }
  rewrite (fl_eq 53 _ _ E).
  assert (E0 : (0 <= inject_Z e)%Q) by (change 0%Q with (inject_Z 0); rewrite <- Zle_Qle; lia).
  assert (E1 : (inject_Z e <= 4294967296 # 1)%Q) by (change (4294967296 # 1)%Q with (inject_Z 4294967296); rewrite <- Zle_Qle; lia).
  set (y := (inject_Z e * (4835703278458517 # 9007199254740992))%Q).
  assert (Y0 : (0 <= y)%Q) by (subst y; lra).
  assert (R := fl_err 53 y). rewrite (Qabs_pos y Y0) in R. change (pow2 (- (53))) with (1 # 9007199254740992)%Q in R.
  split; [rewrite <- (fl_0 53 0) by reflexivity; apply fl_mono; [lia|assumption]|].
  apply Qabs_Qle_condition in R. apply Qabs_Qle_condition. generalize dependent (fl 53 y). intros t [R1 R2].
  subst y. split; lra.
Qed.
Lemma trunc_floor x : (0 <= x)%Q -> (inject_Z (qtrunc x) <= x /\ x < inject_Z (qtrunc x) + 1)%Q.
Proof.
  intros X. assert (F : 0 <= Qfloor x).
  { pose proof (Qlt_floor x) as L. assert (0 < Qfloor x + 1) by (rewrite Zlt_Qlt; change (inject_Z 0) with 0%Q; lra). lia. }
  rewrite (qtrunc_bounds x (Qfloor x) F (Qfloor_le x) (Qlt_floor x)). split; [apply Qfloor_le|].
  pose proof (Qlt_floor x) as L. rewrite inject_Z_plus in L. exact L.
Qed.
Lemma timestamp_near t : (0 <= t)%Q -> (Qabs (inject_Z (from_timestamp t) - t * 1000000) <= 501 # 1000)%Q.
Proof.
  intros T. unfold from_timestamp. destruct (trunc_floor t T) as [A B]. set (n := qtrunc t) in *.
  set (f := ((t - inject_Z n) * 1000000)%Q). assert (F0 : (0 <= f)%Q) by (subst f; lra).
  assert (R := fl_err 53 f). rewrite (Qabs_pos f F0) in R. change (pow2 (- (53))) with (1 # 9007199254740992)%Q in R.
  assert (S := rneQ_err (fl 53 f)). apply Qabs_Qle_condition in R. apply Qabs_Qle_condition in S. apply Qabs_Qle_condition.
  generalize dependent (rneQ (fl 53 f)). intros k S. generalize dependent (fl 53 f). intros g R S.
  rewrite inject_Z_plus, inject_Z_mult. change (inject_Z 1000000) with 1000000%Q. subst f. split; lra.
Qed.
Lemma c177 name e : epoch2int name = Ok e -> 0 <= e < 2 ^ 32 -> exists d, epoch2date name = Ok d /\ starts_epoch e d.
Proof.
  intros N H. unfold epoch2date, epoch2seconds. rewrite N. cbn [bind]. eexists. split; [reflexivity|].
  destruct (seconds_near e H) as [T0 T]. cbv zeta in T0, T. set (t := fl 53 (fl 53 (inject_Z (Z.shiftl e 32)) * PS125_S)%Q) in *. clearbody t.
  assert (U := timestamp_near t T0). generalize dependent (from_timestamp t). intros d U.
  apply Qabs_Qle_condition in T. apply Qabs_Qle_condition in U. unfold starts_epoch.
  assert (A : (inject_Z (536870912 * e - 1000) < inject_Z (1000 * d))%Q).
  { unfold Zminus. rewrite inject_Z_plus, !inject_Z_mult. change (inject_Z 536870912) with (536870912 # 1)%Q.
    change (inject_Z (- (1000))) with (- 1000 # 1)%Q. change (inject_Z 1000) with (1000 # 1)%Q. lra. }
  assert (B : (inject_Z (1000 * d) < inject_Z (536870912 * e + 1000))%Q).
  { rewrite inject_Z_plus, !inject_Z_mult. change (inject_Z 536870912) with (536870912 # 1)%Q. change (inject_Z 1000) with (1000 # 1)%Q. lra. }
  rewrite <- Zlt_Qlt in A, B. lia.
Qed.
Lemma c177_order name name' e e' : epoch2int name = Ok e -> epoch2int name' = Ok e' -> 0 <= e -> e < e' -> e' < 2 ^ 32 ->
  exists d d', epoch2date name = Ok d /\ epoch2date name' = Ok d' /\ d < d'.
Proof.
  intros N N' A B C. destruct (c177 name e N ltac:(lia)) as (d & D & S). destruct (c177 name' e' N' ltac:(lia)) as (d' & D' & S').
  exists d, d'. split; [exact D|]. split; [exact D'|]. unfold starts_epoch in *. lia.
Qed.
Lemma c178 name e : epoch2int name = Ok e -> 0 <= e < 2 ^ 32 ->
  exists d v, epoch2date name = Ok d /\ epoch2int (date2epoch (whole_seconds d)) = Ok v /\ e - 2 <= v <= e /\
    (v = e -> exists s, 0 <= 1000000000 * s - 536870912 * e < 1000).
Proof.
  intros N H. destruct (c177 name e N H) as (d & D & S). unfold starts_epoch in S. set (s := whole_seconds d).
  assert (SD : s * 1000000 <= d < (s + 1) * 1000000) by (subst s; unfold whole_seconds; lia).
  assert (D0 : 0 <= d) by lia. assert (S0 : 0 <= s) by lia.
  assert (U : s * 8000000000 < e * 2 ^ 32 + 8000) by lia.
  assert (L : e * 2 ^ 32 - 8000 - 8000000000 < s * 8000000000) by lia.
  assert (ES : e - 2 <= epoch_of_second s <= e) by (unfold epoch_of_second; lia).
  destruct (c42 s S0) as (v & V & _ & W); [unfold epoch_of_second; lia|]. exists d, v. split; [exact D|]. split; [exact V|].
  split; [|intros E; exists s; assert (e <= epoch_of_second s) by lia; unfold epoch_of_second in *; lia].
  destruct W as [->|(-> & M & P)]; [lia|]. unfold epoch_of_second in *.
  assert (K : s * 8000000000 mod 2 ^ 32 = 0).
  { rewrite (Z.div_mod s (2 ^ 20)) by lia. rewrite M, Z.add_0_r. replace (2 ^ 20 * (s / 2 ^ 20) * 8000000000) with (s / 2 ^ 20 * 1953125 * 2 ^ 32) by lia.
    apply Z.mod_mul. lia. }
  lia.
Qed.
Lemma c178_refuted : ~ C178_statement.
Proof.
  intros H. destruct (H [49] 1 eq_refl ltac:(lia)) as (d & D & E). vm_compute in D. injection D as <-. vm_compute in E. discriminate E.
Qed.
