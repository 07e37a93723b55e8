(** Statements of the properties of fpfind.py that do not hold in full, with counterexamples, and the runs shown
    beside the theorems. *)
From Coq Require Import QArith Qabs Qround Lqa.
From Verif Require Import Float Base TimestampsModel TimestampsSpec UtilsModel UtilsSpec UtilsProofs UtilsProofs2 UtilsProofs3 FpfindModel FpfindSpec FpfindProofs FpfindProofs2 FpfindProofs3 FpfindProofs4.
Local Open Scope Z_scope.

(** exact arithmetic in lowest terms, and the formats of the program: float64 scalars, 80-bit timestamp arrays *)
Definition MQ : fpu := mkFpu Qred Qred exact_xc exact_zs.
Definition MF : fpu := mkFpu (fl 64) (fl 53) exact_xc exact_zs.
Lemma MQ_exact : exact_fpu MQ.
Proof. split; intros x; apply Qred_correct. Qed.

(** A run: five events at the start and after the separation 2^17 ns; the target is 3 ns late, then 5 ns. *)
Definition alice1 : list Q := [1#2; 1#2; 1#2; 9#2; 9#2; 262145#2; 262145#2; 262145#2; 262153#2; 262153#2; 1000000000]%Q.
Definition bob1 : list Q := [7#2; 7#2; 7#2; 15#2; 15#2; 262155#2; 262155#2; 262155#2; 262163#2; 262163#2; 1000000000]%Q.
Definition P1 : params := mkP 1 8 1 1 131072.
Lemma run1 : time_freq 2 MQ P1 alice1 bob1 2 = Ok (196609 # 65536, 1 # 65536)%Q.
Proof. vm_compute. reflexivity. Qed.

(** The loop with a ratio of exactly RES_REFINE_FACTOR: nothing changes any more. *)
Definition ats2 : list Q := [0; 0; 1; 6; 6; 7]%Q.
Definition P2 : params := mkP 1 4 (1 # 2) 3 (4 * RES_REFINE_FACTOR).
Lemma loop2 : forall n, time_freq n MQ P2 ats2 ats2 1 = Err OutOfFuel.
Proof.
  assert (S1 : iteration MQ P2 ats2 7 4 (mkS ats2 1 0 1 false) = Ok (Again (mkS ats2 1 0 1 false))) by (vm_compute; reflexivity).
  assert (S0 : iteration MQ P2 ats2 7 4 (mkS ats2 1 0 1 true) = Ok (Again (mkS ats2 1 0 1 false))) by (vm_compute; reflexivity).
  assert (L : forall n, iterate n MQ P2 ats2 7 4 (mkS ats2 1 0 1 false) = Err OutOfFuel).
  { induction n as [|n IH]; [reflexivity|]. cbn [iterate]. rewrite S1. cbn [bind]. exact IH. }
  intros n. change (time_freq n MQ P2 ats2 ats2 1) with (iterate n MQ P2 ats2 7 4 (mkS ats2 1 0 1 true)).
  destruct n as [|n]; [reflexivity|]. cbn [iterate]. rewrite S0. cbn [bind]. apply L.
Qed.
(** C55 with "at least" in place of "above" *)
Definition C55_at_least : Prop := forall M P ats bts res, exact_fpu M -> good_xc M -> good_zs M -> num_bins P = 1 \/ Z.odd (num_bins P) = false ->
  let d := (inject_Z (num_wraps P) * res * inject_Z (num_bins P))%Q in
  (0 < d)%Q -> (d * RES_REFINE_FACTOR <= separation_duration P)%Q ->
  (0 < target_resolution P)%Q -> (0 < res)%Q -> ats <> [] -> bts <> [] ->
  exists n, time_freq n M P ats bts res <> Err OutOfFuel.
Lemma c55_at_least_refuted : ~ C55_at_least.
Proof.
  intros H. destruct (H MQ P2 ats2 ats2 1%Q) as (n & N); try discriminate; try reflexivity; try (apply MQ_exact); try (apply exact_good); try (apply exact_good_zs).
  - now right.
  - apply N, loop2.
Qed.

(** C57 *)
Definition C57_statement : Prop := forall rt rs search bob df0s,
  (forall x, In x df0s -> (exists r, search (attempt rt rs x bob) = Ok r) \/ search (attempt rt rs x bob) = Err ValueError) ->
  (exists x r, In x df0s /\ search (attempt rt rs x bob) = Ok r) ->
  exists r, scan rt rs search bob df0s true = Ok r.
Lemma c57_refuted : ~ C57_statement.
Proof.
  intros H. destruct (H (fun x => x) (fun x => x) (fun _ => Ok (1, 0)%Q) [1%Q] [0%Q]) as (r & E).
  - intros x _. left. now exists (1, 0)%Q.
  - exists 0%Q, (1, 0)%Q. split; [now left|reflexivity].
  - now apply c57_never in E.
Qed.

(** C58.  OutOfFuel is no exception of the program but the bound of the model (C55). *)
Definition C58_statement : Prop := forall fuel M P alice bob res df0s fs e,
  good_xc M -> good_zs M -> num_bins P = 1 \/ Z.odd (num_bins P) = false -> alice <> [] -> bob <> [] ->
  Forall (fun t => 0 <= t)%Q alice -> Forall (fun t => 0 <= t)%Q bob ->
  fpfind fuel M P alice bob res df0s fs = Err e -> e = ValueError \/ e = OutOfFuel.
(** the run above, the data ending before the separation *)
Definition alice3 : list Q := firstn 5 alice1 ++ [100%Q].
Definition bob3 : list Q := firstn 5 bob1 ++ [100%Q].
Lemma c58_refuted : ~ C58_statement.
Proof.
  intros H. destruct (H 3%nat MQ P1 alice3 bob3 2%Q [0%Q] false IndexError) as [X|X]; try discriminate.
  - apply exact_good.
  - apply exact_good_zs.
  - now right.
  - repeat constructor; discriminate.
  - repeat constructor; discriminate.
  - vm_compute. reflexivity.
Qed.

(** C60 *)
Definition C60_statement : Prop := forall dt df t, (-1 < df)%Q -> (corrected (invert (fun x => x) dt df) (corrected (dt, df) t) == t)%Q.
Lemma c60_refuted : ~ C60_statement.
Proof. intros H. specialize (H 1000%Q (1 # 10000)%Q 0%Q). vm_compute in H. discriminate H. reflexivity. Qed.

(** C61: runs in the formats of the program *)
(** one bin of drift over a little more, or less, than 2^13 bins *)
Definition sep4 : Q := (8192 + (1 # 4096))%Q.
Definition P4 : params := mkP 1 8 1 1 sep4.
Definition alice4 : list Q := [1#2; 1#2; 1#2; 5#2; 7#2; sep4 + (1#2); sep4 + (1#2); sep4 + (1#2); sep4 + (5#2); sep4 + (7#2); 20000]%Q.
Definition bob4 : list Q := [1#2; 1#2; 1#2; 5#2; 7#2; sep4 + (3#2); sep4 + (3#2); sep4 + (3#2); sep4 + (7#2); sep4 + (9#2); 20000]%Q.
Lemma run4 : exists dt df, time_freq 1 MF P4 alice4 bob4 1 = Ok (dt, df) /\ freq_units (fl 53) df = 2 ^ 21.
Proof. eexists. eexists. split; [vm_compute; reflexivity|]. vm_compute. reflexivity. Qed.
Lemma run4_inverted : exists dt df, time_freq 1 MF P4 bob4 alice4 1 = Ok (dt, df) /\ freq_units (fl 53) (snd (invert (fl 53) dt df)) = 2 ^ 21 + 256.
Proof. eexists. eexists. split; [vm_compute; reflexivity|]. vm_compute. reflexivity. Qed.
(** C73: the examples of the documentation of generate_precompensations (399-407) *)
Definition C73_statement : Prop :=
  Forall2 Qeq (generate_precompensations (fl 53) 0 0 0 false) [0]%Q /\
  Forall2 Qeq (generate_precompensations (fl 53) 1 10 5 false) [1; 6; -(4); 11; -(9)]%Q /\
  Forall2 Qeq (generate_precompensations (fl 53) 1 1 5 false) [1; 6; -(4)]%Q /\
  Forall2 Qeq (generate_precompensations (fl 53) 1 10 5 true) [1; 6; 11]%Q.
Lemma c73_actual :
  Forall2 Qeq (generate_precompensations (fl 53) 0 0 0 false) [0]%Q /\
  Forall2 Qeq (generate_precompensations (fl 53) 1 10 5 false) [1; 6; -(4); 11; -(9)]%Q /\
  Forall2 Qeq (generate_precompensations (fl 53) 1 1 5 false) [1]%Q /\
  Forall2 Qeq (generate_precompensations (fl 53) 1 10 5 true) [1; 6]%Q.
Proof. repeat split; vm_compute; repeat constructor. Qed.
Lemma c73_refuted : ~ C73_statement.
Proof.
  intros (_ & _ & A & _). destruct c73_actual as (_ & _ & B & _).
  assert (L : forall a b, Forall2 Qeq a b -> length a = length b) by (intros a b F; induction F; cbn [length]; congruence).
  apply L in A. apply L in B. rewrite A in B. discriminate B.
Qed.
