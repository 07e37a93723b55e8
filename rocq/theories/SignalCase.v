(** A run to which C98 applies: two iterations, a delay of 12288 ns growing by 2^-16. *)
From Coq Require Import QArith Qabs Qround Qminmax Lqa.
From Coq Require Import ZifyBool.
From Verif Require Import Float Base TimestampsModel TimestampsSpec EpochsModel UtilsModel UtilsSpec UtilsProofs UtilsProofs2 FpfindModel FpfindSpec FpfindProofs FpfindProofs3 FpfindRefute MainProofs3 AccuracySpec AccuracyProofs PairSpec PairProofs PairProofs2 SignalSpec SignalProofs.
Local Open Scope Z_scope.

Definition alice98 : list Q := map (fun t => Qred (4096 * t)) alice1.
Definition bob98 : list Q := map (fun t => Qred (4096 * t)) bob1.
Definition P98 : params := mkP 1 8 4096 1 536870912.
Lemma run98 : time_freq 2 MQ P98 alice98 bob98 8192 = Ok (196609 # 16, 1 # 65536)%Q.
Proof. vm_compute. reflexivity. Qed.

(** ** Deciding whether there is a signal *)
Definition signal_b (e : Q) (n : Z) (res : Q) (m : Z) (A B : list Q) (T : Q -> Q -> bool) (g0 : Z) : bool :=
  forallb (fun i => let g := Z.of_nat i in
    existsb (fun c => T (fst c) (snd c) && (lag n res (fst c) (snd c) / m =? g)) (list_prod A B) ||
    negb (Qle_bool (inject_Z (pairs n res m A B g0)) (inject_Z (pairs n res m A B g) + 2 * e * inject_Z m))%Q) (seq 0 (Z.to_nat (n / m))).
Definition coincident_b (D F j dt f s a b : Q) : bool := Qle_bool (Qabs (dt + f * (s + b) - (D + (1 + F) * (s + a)))) j.
Lemma signal_ok e n res m A B D F j dt f s g0 : 0 <= g0 < n / m -> signal_b e n res m A B (coincident_b D F j dt f s) g0 = true -> signal e n res m A B (coincident D F j dt f s).
Proof.
  intros G H. exists g0. split; [exact G|]. intros g Hg N. unfold signal_b in H. rewrite forallb_forall in H. specialize (H (Z.to_nat g)). cbv zeta in H. rewrite Z2Nat.id in H by lia.
  specialize (H ltac:(apply in_seq; lia)). apply orb_true_iff in H as [H|H].
  - apply existsb_exists in H as ((a & b) & I & C). apply in_prod_iff in I as [IA IB]. cbn [fst snd] in C. apply andb_true_iff in C as [C1 C2]. exfalso. apply (N a b IA IB); [now apply Qle_bool_iff|lia].
  - apply Qnot_le_lt. intros L. apply Qle_bool_iff in L. rewrite L in H. discriminate.
Qed.
Lemma same_in l l' x : same_values l l' -> In x l' -> exists y, In y l /\ (x == y)%Q.
Proof.
  unfold same_values. induction 1 as [|a b l l' E H IH]; [intros []|]. intros [-> | I]; [exists a; split; [now left|now symmetry]|].
  destruct (IH I) as (y & Y & EY). exists y. split; [now right|exact EY].
Qed.
Lemma signal_same e n res res' m A A' B B' D F j dt dt' f f' s : (res == res')%Q -> (dt == dt')%Q -> (f == f')%Q -> same_values A A' -> same_values B B' ->
  signal e n res m A B (coincident D F j dt f s) -> signal e n res' m A' B' (coincident D F j dt' f' s).
Proof.
  intros ER ED EF SA SB (g0 & G0 & H). exists g0. split; [exact G0|]. intros g G N. rewrite <- !(pairs_same n res res' m A A' B B') by assumption. apply H; [exact G|].
  intros a b IA IB T. destruct (same_in A' A a (same_sym _ _ SA) IA) as (a' & IA' & EA). destruct (same_in B' B b (same_sym _ _ SB) IB) as (b' & IB' & EB).
  rewrite (lag_eq n res res' a a' b b') by assumption. apply N; [exact IA'|exact IB'|]. unfold coincident in *. now rewrite <- EA, <- EB, <- ED, <- EF.
Qed.
Lemma shown_same dt dt' f f' B : (dt == dt')%Q -> (f == f')%Q -> same_values (shown dt f B) (shown dt' f' B).
Proof. intros ED EF. apply same_map. intros t _. now rewrite ED, EF. Qed.

(** ** The windows *)
Lemma common98 last : last_common alice98 bob98 last -> (last == 4096000000000)%Q.
Proof.
  intros (A' & a & B' & b & EA & EB & Z).
  assert (a = 4096000000000%Q).
  { assert (E : alice98 = removelast alice98 ++ [4096000000000%Q]) by reflexivity. rewrite E in EA. now apply app_inj_tail in EA as [_ <-]. }
  assert (b = 4096000000000%Q).
  { assert (E : bob98 = removelast bob98 ++ [4096000000000%Q]) by reflexivity. rewrite E in EB. now apply app_inj_tail in EB as [_ <-]. }
  subst a b. rewrite Z. reflexivity.
Qed.
Lemma window98 q dur last w c : (last == 4096000000000)%Q -> (dur == 65536)%Q -> 1 <= c <= 2 -> (q * inject_Z c == 8192)%Q -> window_length 8 q dur last w -> (w == 65536)%Q.
Proof.
  intros L DU C QC (k & z & NK & (Z1 & Z2) & W). unfold nearest in NK.
  assert (QB : (q * inject_Z 8 == 65536 / inject_Z c)%Q) by (change 65536%Q with (8192 * 8)%Q; rewrite <- QC; change (inject_Z 8) with 8%Q; field; assert (c = 1 \/ c = 2) as [-> | ->] by lia; discriminate).
  rewrite W. rewrite QB in *. rewrite DU, L in *. assert (c = 1 \/ c = 2) as [-> | ->] by lia.
  - assert (E : (65536 / (65536 / inject_Z 1) == 1)%Q) by reflexivity. rewrite E in NK. apply Qabs_Qle_condition in NK.
    setoid_replace (65536 / inject_Z 1)%Q with 65536%Q in Z2 by reflexivity.
    assert (k = 1). { assert (inject_Z 0 < inject_Z k)%Q by (change (inject_Z 0) with 0%Q; lra). assert (inject_Z k < inject_Z 2)%Q by (change (inject_Z 2) with 2%Q; lra). rewrite <- Zlt_Qlt in *. lia. }
    assert (1 <= z). { assert (inject_Z 1 < inject_Z (z + 1))%Q by (change (inject_Z 1) with 1%Q; lra). rewrite <- Zlt_Qlt in *. lia. }
    replace (Z.min k z) with 1 by lia. reflexivity.
  - assert (E : (65536 / (65536 / inject_Z 2) == 2)%Q) by reflexivity. rewrite E in NK. apply Qabs_Qle_condition in NK.
    setoid_replace (65536 / inject_Z 2)%Q with 32768%Q in Z2 by reflexivity.
    assert (k = 2). { assert (inject_Z 1 < inject_Z k)%Q by (change (inject_Z 1) with 1%Q; lra). assert (inject_Z k < inject_Z 3)%Q by (change (inject_Z 3) with 3%Q; lra). rewrite <- Zlt_Qlt in *. lia. }
    assert (2 <= z). { assert (inject_Z 2 < inject_Z (z + 1))%Q by (change (inject_Z 2) with 2%Q; lra). rewrite <- Zlt_Qlt in *. lia. }
    replace (Z.min k z) with 2 by lia. reflexivity.
Qed.
(** ** The first iteration *)
Definition D98 : Q := 12288. Definition F98 : Q := 1 # 65536.
Lemma clear98_0 dur last : (last == 4096000000000)%Q -> (dur == 65536)%Q -> clear 0 P98 alice98 bob98 D98 F98 1 dur last 65536 8192 0 1 0.
Proof.
  intros L DU. split.
  - intros tau T. unfold remaining, D98, F98, RATIO. cbn [num_bins separation_duration P98] in *. change (inject_Z (2 ^ 0)) with 1%Q. change (inject_Z 8 * 8192 / 2)%Q with (65536 / 2)%Q.
    setoid_replace (65536 / 2)%Q with 32768%Q by reflexivity.
    setoid_replace ((12288 + (1 + (1 # 65536)) * tau - 0) / 1 - tau)%Q with (12288 + (1 # 65536) * tau)%Q by field.
    rewrite Qabs_pos by (destruct T; lra). destruct T as [T|T]; lra.
  - intros w WL. cbn [num_bins separation_duration P98] in *. assert (W : (w == 65536)%Q) by (apply (window98 8192 dur last w 1); try assumption; [lia|reflexivity]).
    split; [lra|]. rewrite !(view_eq _ w 65536) by exact W. split.
    + apply (signal_ok _ _ _ _ _ _ _ _ _ _ _ _ 1); [split; [lia|reflexivity]|]. vm_compute. reflexivity.
    + apply (signal_ok _ _ _ _ _ _ _ _ _ _ _ _ 2); [split; [lia|reflexivity]|]. vm_compute. reflexivity.
Qed.
Lemma out98 : stands_out 8 8192 1 (view 0 65536 alice98) (view 0 65536 (shown 0 1 bob98)) 1 /\ stands_out 8 8192 1 (view 536870912 65536 alice98) (view 536870912 65536 (shown 0 1 bob98)) 2.
Proof.
  split; intros g G NE; change (8 / 1) with 8 in *; change (1 mod 8) with 1 in *; change (2 mod 8) with 2 in *;
    assert (g = 0 \/ g = 1 \/ g = 2 \/ g = 3 \/ g = 4 \/ g = 5 \/ g = 6 \/ g = 7) as [->|[->|[->|[->|[->|[->|[->| ->]]]]]]] by lia; try lia; vm_compute; reflexivity.
Qed.
Lemma measured98 dur last r d1 d2 : (last == 4096000000000)%Q -> (dur == 65536)%Q -> measured 0 P98 alice98 dur last true 8192 (shown 0 1 bob98) r d1 d2 ->
  (r == 8192)%Q /\ (d1 == 8192)%Q /\ (d2 == 16384)%Q.
Proof.
  intros L DU (w & k & WL & K0 & _ & K2 & ER & _ & F1 & _ & F2). cbn [num_bins separation_duration P98] in *.
  assert (W : (w == 65536)%Q) by (apply (window98 8192 dur last w 1); try assumption; [lia|reflexivity]). rewrite !(view_eq _ w 65536) in F1 by exact W. rewrite !(view_eq _ w 65536) in F2 by exact W.
  assert (k = 0).
  { destruct K2 as [K2|K2]; [exact K2|]. destruct (Z.eq_dec k 0) as [|NE]; [assumption|]. exfalso.
    assert (P2 : 2 ^ 1 <= 2 ^ k) by (apply Z.pow_le_mono_r; lia). rewrite Zle_Qle in P2. change (inject_Z (2 ^ 1)) with 2%Q in P2. rewrite ER in K2. lra. }
  subst k. change (inject_Z (2 ^ 0)) with 1%Q in ER. assert (R : (r == 8192)%Q) by (rewrite ER; ring). split; [exact R|]. destruct out98 as [O1 O2]. split.
  - apply (frequent_unique _ _ _ _ _ 1) in F1; [|reflexivity|exact O1]. rewrite F1. reflexivity.
  - apply (frequent_same 0 8 r 8192 1 _ (view 536870912 65536 alice98) _ (view 536870912 65536 (shown 0 1 bob98))) in F2; [|exact R|apply same_refl|apply same_refl].
    apply (frequent_unique _ _ _ _ _ 2) in F2; [|reflexivity|exact O2]. rewrite F2. reflexivity.
Qed.
(** ** The second iteration *)
Lemma clear98_1 dur last q dt f : (last == 4096000000000)%Q -> (dur == 65536)%Q -> (q == 4096)%Q -> (dt == 8192)%Q -> (f == 65537 # 65536)%Q ->
  clear 0 P98 alice98 bob98 D98 F98 1 dur last 65536 q dt f 0.
Proof.
  intros L DU EQ ED EF. split.
  - intros tau T. unfold remaining, D98, F98, RATIO. cbn [num_bins separation_duration P98] in *. change (inject_Z (2 ^ 0)) with 1%Q. rewrite EQ, ED, EF.
    setoid_replace (inject_Z 8 * 4096 / 2)%Q with 16384%Q by reflexivity.
    setoid_replace ((12288 + (1 + (1 # 65536)) * tau - 8192) / (65537 # 65536) - tau)%Q with (268435456 # 65537)%Q by field. vm_compute. discriminate.
  - intros w WL. cbn [num_bins separation_duration P98] in *. assert (W : (w == 65536)%Q) by (apply (window98 q dur last w 2); try assumption; [lia|rewrite EQ; reflexivity]).
    split; [lra|]. rewrite !(view_eq _ w 65536) by exact W. change (2 ^ 0) with 1. change (inject_Z 1) with 1%Q. split.
    + apply (signal_same 0 8 4096 q 1 (view 0 65536 alice98) _ (view 0 65536 (shown 8192 (65537 # 65536) bob98)) _ D98 F98 1 8192 dt (65537 # 65536) f 0);
        try (now symmetry); [apply same_refl|apply view_same, shown_same; now symmetry|].
      apply (signal_ok _ _ _ _ _ _ _ _ _ _ _ _ 1); [split; [lia|reflexivity]|]. vm_compute. reflexivity.
    + apply (signal_same 0 8 4096 (q * 1) 1 (view 536870912 65536 alice98) _ (view 536870912 65536 (shown 8192 (65537 # 65536) bob98)) _ D98 F98 1 8192 dt (65537 # 65536) f 536870912);
        try (now symmetry); [rewrite EQ; reflexivity|apply same_refl|apply view_same, shown_same; now symmetry|].
      apply (signal_ok _ _ _ _ _ _ _ _ _ _ _ _ 1); [split; [lia|reflexivity]|]. vm_compute. reflexivity.
Qed.
Lemma stage98 dur last ws q dt f : (last == 4096000000000)%Q -> (dur == 65536)%Q -> stage 0 P98 alice98 bob98 dur last 8192 ws q dt f ->
  (ws = [] /\ q = 8192 /\ dt = 0 /\ f = 1)%Q \/ (exists r, ws = [r] /\ r == 8192 /\ q == 4096 /\ dt == 8192 /\ f == 65537 # 65536)%Q.
Proof.
  intros L DU ST. induction ST as [|ws q dt f r d1 d2 dt' f' q' ST IH ME NI NT E1 E2 LD EQ]; [left; tauto|]. right.
  destruct IH as [(-> & -> & -> & ->)|(r0 & -> & R0 & EQ0 & _)].
  - cbn [no_width] in ME. destruct (measured98 dur last r d1 d2 L DU ME) as (R & X1 & X2). exists r. cbn [separation_duration target_resolution P98] in *.
    split; [reflexivity|]. split; [exact R|]. split; [rewrite EQ, R, DU; reflexivity|]. split; [rewrite E1, X1; reflexivity|rewrite E2, X1, X2; reflexivity].
  - exfalso. apply NT. destruct ME as (w & k & _ & _ & K & _ & ER & _). cbn [no_width] in K. rewrite (K eq_refl) in ER. rewrite ER, EQ0. reflexivity.
Qed.
Lemma clear98 : always_clear 0 P98 alice98 bob98 8192 D98 F98 1 65536.
Proof.
  intros last dur ws q dt f k LC DU ST (K0 & K1 & _ & K3). apply common98 in LC. assert (DU' : (dur == 65536)%Q) by (rewrite DU; reflexivity). destruct (stage98 dur last ws q dt f LC DU' ST) as [(-> & -> & -> & ->)|(r & -> & _ & EQ & ED & EF)].
  - assert (k = 0).
    { destruct K3 as [K3|K3]; [exact K3|]. destruct (Z.eq_dec k 0) as [|NE]; [assumption|]. exfalso.
      assert (P2 : 2 ^ 1 <= 2 ^ k) by (apply Z.pow_le_mono_r; lia). rewrite Zle_Qle in P2. change (inject_Z (2 ^ 1)) with 2%Q in P2. lra. }
    subst k. now apply clear98_0.
  - rewrite K1 by discriminate. now apply clear98_1.
Qed.
(** ** The widths *)
Lemma frequent98 q A B d : (q == 4096)%Q -> frequent 0 8 q 1 A B d -> (Qabs d <= 16384)%Q.
Proof.
  intros EQ (g & G & _ & _ & D). change (8 / 1) with 8 in *. rewrite D, EQ.
  assert (g = 0 \/ g = 1 \/ g = 2 \/ g = 3 \/ g = 4 \/ g = 5 \/ g = 6 \/ g = 7) as [->|[->|[->|[->|[->|[->|[->| ->]]]]]]] by lia; vm_compute; discriminate.
Qed.
Lemma plausible98 dur last q dt f r d1 d2 : (q == 4096)%Q -> (dt == 8192)%Q -> (f == 65537 # 65536)%Q -> measured 0 P98 alice98 dur last false q (shown dt f bob98) r d1 d2 ->
  (r == 4096)%Q /\ ~ implausible P98 dt f d1 d2.
Proof.
  intros EQ ED EF (w & k & _ & _ & K & _ & ER & _ & F1 & _ & F2). rewrite (K eq_refl) in *. cbn [num_bins separation_duration P98] in *. change (2 ^ 0) with 1 in *. change (inject_Z 1) with 1%Q in ER.
  assert (R : (r == 4096)%Q) by (rewrite ER, EQ; reflexivity). split; [exact R|]. apply frequent98 in F1; [|exact EQ]. apply frequent98 in F2; [|exact R].
  unfold implausible. cbn [separation_duration P98]. intros [H|[H|H]]; rewrite ?ED, ?EF in H.
  - setoid_replace (10 * Qmax (Qabs 8192) 1)%Q with 81920%Q in H by reflexivity. lra.
  - setoid_replace (10 * Qmax (Qabs 8192) 1)%Q with 81920%Q in H by reflexivity. lra.
  - setoid_replace (10 * Qmax (Qabs ((65537 # 65536) - 1)) (1 # 1000000000))%Q with (10 # 65536)%Q in H by reflexivity.
    apply Qabs_Qle_condition in F1 as [F1 F1']. apply Qabs_Qle_condition in F2 as [F2 F2']. apply (Qlt_not_le _ _ H).
    setoid_replace ((d2 - d1) / 536870912)%Q with ((d2 - d1) * (1 # 536870912))%Q by reflexivity. apply Qabs_Qle_condition. split; lra.
Qed.
Lemma widths98 last dur ws : last_common alice98 bob98 last -> (dur == inject_Z (num_wraps P98) * 8192 * inject_Z (num_bins P98))%Q ->
  widths_used 0 P98 alice98 bob98 dur last 8192 ws -> same_values ws [4096; 8192]%Q.
Proof.
  intros LC DU (ws' & q & dt & f & r & d1 & d2 & ST & ME & H). apply common98 in LC. assert (DU' : (dur == 65536)%Q) by (rewrite DU; reflexivity).
  destruct (stage98 dur last ws' q dt f LC DU' ST) as [(-> & -> & -> & ->)|(r0 & -> & R & EQ & ED & EF)].
  - cbn [no_width] in ME. destruct (measured98 dur last r d1 d2 LC DU' ME) as (R & _). destruct H as [(-> & NE & _)|(_ & _ & E)]; [contradiction|]. rewrite R in E. discriminate E.
  - cbn [no_width] in ME. destruct (plausible98 dur last q dt f r d1 d2 EQ ED EF ME) as [R1 NI]. destruct H as [(_ & _ & H)|(-> & _)]; [contradiction|]. repeat constructor; assumption.
Qed.
