(** Epochs needed by main, and a search that succeeds at once. *)
From Coq Require Import QArith Qabs Qround Lqa Permutation.
From Verif Require Import Float Base TimestampsModel TimestampsSpec EpochsModel EpochsSpec EpochsProofs6 UtilsModel UtilsSpec UtilsProofs UtilsProofs2 FpfindModel FpfindSpec FpfindProofs MainModel.
Local Open Scope Z_scope.

Lemma ceiling_bounds x : (x <= inject_Z (Qceiling x))%Q /\ (inject_Z (Qceiling x) < x + 1)%Q.
Proof.
  split; [apply Qle_ceiling|]. unfold Qceiling. pose proof (Qlt_floor (- x)) as H. rewrite inject_Z_opp.
  rewrite inject_Z_plus in H. change (inject_Z 1) with 1%Q in H. lra.
Qed.
Lemma fl53_close x : (0 <= x)%Q -> (fl 53 x <= x * (1 + (1 # 9007199254740992)))%Q /\ (x * (1 - (1 # 9007199254740992)) <= fl 53 x)%Q.
Proof.
  intros H. pose proof (fl_err 53 x) as E. rewrite (Qabs_pos x H) in E. apply Qabs_Qle_condition in E. change (pow2 (- (53))) with (1 # 9007199254740992) in E.
  destruct E as [E1 E2]. split; lra.
Qed.
Lemma md_scaled o n : (fl 53 (minimum_duration (fl 53) o n / inject_Z EPOCH_LENGTH) == minimum_duration (fl 53) o n / inject_Z EPOCH_LENGTH)%Q.
Proof.
  set (d := minimum_duration (fl 53) o n).
  assert (E : (d / inject_Z EPOCH_LENGTH == d * pow2 (-29))%Q) by (change (pow2 (-29)) with (1 # 536870912); change (inject_Z EPOCH_LENGTH) with (536870912 # 1); field).
  rewrite (fl_eq 53 _ _ E), E, fl_scale. unfold d, minimum_duration. rewrite fl_idem by lia. reflexivity.
Qed.
(** the epochs read span the minimum duration, and no epoch more than the spare one is read without need *)
Lemma c79 o n num : (0 <= separation o)%Q -> 0 <= Ta o n < 2 ^ 53 -> epochs_needed (fl 53) o n = Ok num ->
  ((separation o + 1) * inject_Z (Ta o n) <= inject_Z num * inject_Z (2 ^ 29))%Q /\
  (inject_Z (num - 2) * inject_Z (2 ^ 29) < minimum_duration (fl 53) o n)%Q /\
  (minimum_duration (fl 53) o n <= inject_Z (num - 1) * inject_Z (2 ^ 29))%Q.
Proof.
  intros S T H. unfold epochs_needed in H. cbv zeta in H.
  set (q := fl 53 (minimum_duration (fl 53) o n / inject_Z EPOCH_LENGTH)) in *.
  destruct (Z.abs (Qceiling q) <? 2 ^ 31) eqn:B; [|discriminate]. injection H as <-.
  destruct (ceiling_bounds q) as [C1 C2]. pose proof (md_scaled o n) as HQ. fold q in HQ.
  set (md := minimum_duration (fl 53) o n) in *.
  change (inject_Z EPOCH_LENGTH) with (536870912 # 1) in HQ. change (inject_Z (2 ^ 29)) with (536870912 # 1).
  assert (D : (md == q * (536870912 # 1))%Q) by (rewrite HQ; field).
  replace (Qceiling q + 1 - 1) with (Qceiling q) by lia. replace (Qceiling q + 1 - 2) with (Qceiling q - 1) by lia.
  set (c := Qceiling q) in *. split; [|split].
  - assert (TA : (fl 53 (inject_Z (Ta o n)) == inject_Z (Ta o n))%Q) by (apply fl_int; lia).
    assert (TP : (0 <= inject_Z (Ta o n))%Q) by (rewrite <- (Zle_Qle 0); lia).
    assert (SP : (0 <= separation o + 1)%Q) by lra.
    pose proof (fl53_close (separation o + 1) SP) as [_ F1].
    set (s1 := fl 53 (separation o + 1)) in *. set (ta := inject_Z (Ta o n)) in *.
    assert (S1 : (0 <= s1)%Q) by lra.
    assert (MD : (md == fl 53 (s1 * ta))%Q).
    { unfold md, minimum_duration. fold s1. fold ta. rewrite (fl_eq 53 _ (s1 * ta)%Q); [reflexivity|]. now rewrite TA. }
    assert (P0 : (0 <= s1 * ta)%Q) by (apply Qmult_le_0_compat; assumption).
    pose proof (fl53_close (s1 * ta) P0) as [_ F2]. rewrite <- MD in F2.
    set (X := ((separation o + 1) * ta)%Q).
    assert (X0 : (0 <= X)%Q) by (apply Qmult_le_0_compat; lra).
    assert (F3 : (X * (1 - (1 # 9007199254740992)) <= s1 * ta)%Q).
    { unfold X. setoid_replace ((separation o + 1) * ta * (1 - (1 # 9007199254740992)))%Q with ((separation o + 1) * (1 - (1 # 9007199254740992)) * ta)%Q by ring.
      apply Qmult_le_compat_r; assumption. }
    assert (CB : (inject_Z c <= 2147483648)%Q) . { change 2147483648%Q with (inject_Z 2147483648). rewrite <- Zle_Qle. apply Z.ltb_lt in B. change (2 ^ 31) with 2147483648 in B. clear -B. lia. }
    assert (MB : (md <= inject_Z c * (536870912 # 1))%Q) by (rewrite D; apply Qmult_le_compat_r; [exact C1|lra]).
    rewrite inject_Z_plus. change (inject_Z 1) with 1%Q. fold X. lra.
  - rewrite D. apply Qmult_lt_compat_r; [reflexivity|]. assert (E1 : (inject_Z (c - 1) == inject_Z c - 1)%Q) by (unfold Z.sub; rewrite inject_Z_plus; reflexivity). rewrite E1. lra.
  - rewrite D. apply Qmult_le_compat_r; [exact C1|lra].
Qed.
Lemma open_has d v c : 0 <= v -> open_file d (int2epoch v) = Ok c -> has_epoch d v.
Proof.
  intros V H. exists (int2epoch v). split; [|now apply c41_roundtrip]. unfold names.
  induction d as [|[nm ct] d IH]; cbn [open_file] in H; [discriminate|]. cbn [map fst].
  destruct (list_eq_dec Z.eq_dec nm (int2epoch v)) as [E|E]; [now left|right; now apply IH].
Qed.
Lemma get_all fuel d t1 first f skip n ts : epoch2int first = Ok f -> 0 <= n -> get_timestamp fuel d t1 first skip n = Ok ts ->
  forall i, 0 <= i < n -> exists c, open_file d (int2epoch (f + skip + i)) = Ok c.
Proof.
  intros E N H i I. rewrite (get_timestamp_eq _ _ _ _ f) in H by assumption. apply c44_inv in H. destruct H as (ps & L & _ & P).
  destruct (nth_error ps (Z.to_nat i)) as [p|] eqn:G.
  - destruct (P _ _ G) as (c & O & _). exists c. now rewrite Z2Nat.id in O by lia.
  - apply nth_error_None in G. lia.
Qed.
(** too few epochs: nothing is printed *)
Lemma c79_short fuel fuel2 M repr o d1 d2 first f skip k num e av line : epoch_names d1 -> epoch_names d2 ->
  match first with None => f = None | Some s => exists v, epoch2int s = Ok v /\ f = Some v end -> Forall (fun s => forall v, epoch2int s = Ok v -> 0 <= v) (names d1) ->
  bins o = Ok k -> epochs_needed (rs M) o k = Ok num ->
  get_first_overlapping_epoch d1 d2 first = Ok (Some e, av) -> 0 <= skip <= av -> av < skip + num ->
  main_epochs fuel fuel2 M repr o d1 d2 first skip <> Ok line.
Proof.
  intros N1 N2 F POS B E G S A H. unfold main_epochs in H. rewrite B in H. cbn [bind] in H. rewrite E in H. cbn [bind] in H. rewrite G in H. cbn [bind] in H.
  destruct (c43 d1 d2 first f N1 N2 F) as [[X _]|(m & n & X & (H1 & H2 & H3) & _ & _ & _ & NC)]; rewrite G in X; [discriminate|].
  injection X as -> ->.
  assert (M0 : 0 <= m). { destruct H1 as (s & I & V). rewrite Forall_forall in POS. eapply POS; eassumption. }
  assert (EM : epoch2int (int2epoch m) = Ok m) by now apply c41_roundtrip.
  destruct (get_timestamp fuel2 d1 false (int2epoch m) skip num) as [a|] eqn:GA; [|discriminate]. cbn [bind] in H.
  destruct (get_timestamp fuel2 d2 true (int2epoch m) skip num) as [b|] eqn:GB; [|discriminate].
  assert (N0 : 0 <= num) by lia. assert (NI : 0 <= n - skip < num) by lia.
  destruct (get_all _ _ _ _ _ _ _ _ EM N0 GA (n - skip) NI) as (c1 & O1).
  destruct (get_all _ _ _ _ _ _ _ _ EM N0 GB (n - skip) NI) as (c2 & O2).
  replace (m + skip + (n - skip)) with (m + n) in O1, O2 by lia.
  apply NC. split; [|split]; [eapply open_has; [|exact O1]; lia|eapply open_has; [|exact O2]; lia|].
  destruct f as [f|]; cbn [from_first] in *; [lia|exact I].
Qed.
