(** Epoch names, dates and directories. *)
From Coq Require Import QArith Lqa ZifyBool Qabs FinFun.
From Verif Require Import Float Base TimestampsModel TimestampsSpec TimestampsProofs TimestampsProofs2 EpochsModel EpochsSpec EpochsStatements EpochsProofs EpochsProofs2.
Local Open Scope Z_scope.
Ltac Zify.zify_post_hook ::= Z.div_mod_to_equations.

(** ** Names *)
Lemma ndigits_bound v : 0 <= v -> v < 16 ^ Z.of_nat (ndigits v).
Proof.
  intros V. unfold ndigits. pose proof (Z.log2_nonneg v). rewrite Z2Nat.id by lia.
  change 16 with (2 ^ 4). rewrite <- Z.pow_mul_r by lia.
  destruct (Z.eq_dec v 0) as [->|NZ]; [reflexivity|].
  pose proof (Z.log2_spec v ltac:(lia)) as [_ L]. eapply Z.lt_le_trans; [exact L|]. apply Z.pow_le_mono_r; lia.
Qed.
Lemma ndigits_pos v : (0 < ndigits v)%nat.
Proof. unfold ndigits. pose proof (Z.log2_nonneg v). lia. Qed.
Lemma int2epoch_hexs v : 0 <= v -> int2epoch v = hexs v.
Proof. intros V. unfold int2epoch, py_hex. replace (v <? 0) with false by lia. reflexivity. Qed.
Lemma epoch2int_hexs v : 0 <= v -> epoch2int (hexs v) = Ok v.
Proof. intros V. unfold epoch2int, hexs. apply int16_hexn; [apply ndigits_pos|]. pose proof (ndigits_bound v V). lia. Qed.
Lemma c41_roundtrip v : 0 <= v -> epoch2int (int2epoch v) = Ok v.
Proof. intros V. rewrite int2epoch_hexs by assumption. now apply epoch2int_hexs. Qed.
Lemma c41_injective v w : 0 <= v -> 0 <= w -> int2epoch v = int2epoch w -> v = w.
Proof. intros V W E. pose proof (c41_roundtrip v V) as A. rewrite E, c41_roundtrip in A by assumption. congruence. Qed.
Lemma hexs_no_slash v : existsb (fun d => d =? 47) (hexs v) = false.
Proof.
  apply Bool.not_true_is_false. intros H. apply existsb_exists in H. destruct H as (c & I & E).
  pose proof (hexn_chars (ndigits v) v) as C. rewrite Forall_forall in C. destruct (C c I) as [C1 _].
  apply Z.eqb_eq in E. subst c. vm_compute in C1. discriminate.
Qed.
Lemma basename_nil s : existsb (fun d => d =? 47) s = false -> basename s = s.
Proof. intros H. destruct s as [|c r]; [reflexivity|]. cbn [existsb] in H. apply Bool.orb_false_iff in H. destruct H as [A B]. cbn [basename]. now rewrite A, B. Qed.
Lemma basename_path dir s : existsb (fun d => d =? 47) s = false -> basename (dir ++ [47] ++ s) = s.
Proof.
  intros H. induction dir as [|c dir IH]; cbn [app].
  - cbn [basename]. change (47 =? 47) with true. cbv iota. now apply basename_nil.
  - cbn [basename]. cbn [app] in IH. rewrite IH. destruct (c =? 47); [reflexivity|].
    replace (existsb (fun d => d =? 47) (dir ++ 47 :: s)) with true; [reflexivity|].
    symmetry. rewrite existsb_app. cbn [existsb]. change (47 =? 47) with true. cbn [orb]. apply Bool.orb_true_r.
Qed.
Lemma no_warnings name e n rest dir : 0 <= e < 2 ^ 32 -> name = int2epoch e ->
  exists h, read_T1_header (dir ++ [47] ++ name) (t1_header e n ++ rest) = Ok (h, []) /\
            read_T1_header name (t1_header e n ++ rest) = Ok (h, []).
Proof.
  intros HE ->. rewrite int2epoch_hexs by lia. eexists. rewrite !T1_header_ok. unfold head_warnings. cbn [h_tag h_epoch].
  rewrite basename_path, basename_nil by apply hexs_no_slash. rewrite (Z.mod_small e) by lia.
  unfold py_hex. replace (e <? 0) with false by lia.
  change (negb (257 =? 257) && negb (257 =? 1)) with false. cbv iota. cbn [app].
  destruct (list_eq_dec Z.eq_dec (48 :: 120 :: hexs e) (48 :: 120 :: hexs e)) as [_|C]; [|now contradiction C]. split; reflexivity.
Qed.
Lemma c41_write e evs dir : Forall (t1_ok e) evs -> len evs < 2 ^ 32 ->
  let name := int2epoch (e mod 2 ^ 32) in
  exists contents, write_T1 e (WPy (map fst evs)) (DSeq (map snd evs)) = Ok (name, contents, None) /\
  exists h, read_T1_header (dir ++ [47] ++ name) contents = Ok (h, []) /\
            h_epoch h = e mod 2 ^ 32 /\ h_length h = len evs /\ h_tag h = 257.
Proof.
  intros O L. cbn zeta. exists (t1_file e evs). split; [rewrite write_T1_seq, int2epoch_hexs by (assumption || lia); reflexivity|].
  assert (H : 0 <= e mod 2 ^ 32 < 2 ^ 32) by lia.
  destruct (no_warnings _ (e mod 2 ^ 32) (len evs) (t1_body e evs ++ repeat 0 8) dir H eq_refl) as (h & E1 & _).
  assert (X : t1_header (e mod 2 ^ 32) (len evs) = t1_header e (len evs)) by (unfold t1_header; now rewrite Z.mod_mod by lia).
  rewrite X in E1. exists h. split; [exact E1|]. rewrite T1_header_ok in E1. inv E1. cbn [h_epoch h_length h_tag].
  split; [reflexivity|]. split; [|reflexivity]. apply Z.mod_small. pose proof (len_nonneg evs). lia.
Qed.
Lemma hexn_lead n v : hexn (S n) v = hexdigit (v / 16 ^ Z.of_nat n mod 16) :: hexn n v.
Proof.
  revert v. induction n as [|n IH]; intros v.
  - cbn [hexn app]. now rewrite Z.pow_0_r, Z.div_1_r.
  - change (hexn (S (S n)) v) with (hexn (S n) (v / 16) ++ [hexdigit (v mod 16)]). rewrite IH. cbn [hexn app]. f_equal.
    rewrite Z.div_div by lia. do 3 f_equal. rewrite Nat2Z.inj_succ, Z.pow_succ_r by lia. reflexivity.
Qed.
Lemma ndigits_8 v : 0 <= v < 2 ^ 32 -> (ndigits v <= 8)%nat /\ (ndigits v = 8%nat <-> 2 ^ 28 <= v).
Proof.
  intros V. unfold ndigits. destruct (Z.eq_dec v 0) as [->|NZ]; [cbn; lia|].
  assert (L : Z.log2 v < 32) by (apply Z.log2_lt_pow2; lia). pose proof (Z.log2_nonneg v).
  split; [lia|]. split; intros H0.
  - apply Z.log2_le_pow2; lia.
  - apply Z.log2_le_pow2 in H0; lia.
Qed.
Lemma fmt08x_8 v : 0 <= v < 2 ^ 32 -> fmt08x v = hexn 8 v.
Proof.
  intros V. unfold fmt08x. replace (v <? 0) with false by lia. destruct (ndigits_8 v V) as [L _]. now rewrite Nat.max_l by exact L.
Qed.
Lemma fmt08x_val v : 0 <= v < 2 ^ 32 -> epoch2int (fmt08x v) = Ok v /\ length (fmt08x v) = 8%nat.
Proof.
  intros V. rewrite fmt08x_8 by assumption. split; [|apply hexn_length]. apply int16_hexn; [lia|]. exact V.
Qed.
Lemma fmt08x_int2epoch v : 0 <= v < 2 ^ 32 -> fmt08x v = int2epoch v <-> 2 ^ 28 <= v.
Proof.
  intros V. rewrite fmt08x_8, int2epoch_hexs by lia. unfold hexs. destruct (ndigits_8 v V) as [_ D]. split.
  - intros E. apply D. apply (f_equal (@length Z)) in E. rewrite !hexn_length in E. congruence.
  - intros H. apply D in H. now rewrite H.
Qed.

(** ** Dates *)
Lemma PS125_S_val : PS125_S = (4835703278458517 # 38685626227668133590597632)%Q.
Proof. vm_compute. reflexivity. Qed.
Lemma date_value s : 0 <= s -> s * 8000000000 < 2 ^ 64 ->
  let q := qtrunc (fl 53 (fl 53 (inject_Z s) / PS125_S)%Q) in s * 8000000000 - 2 ^ 12 <= q <= s * 8000000000 /\ 0 <= q.
Proof.
  intros S0 S1. cbn zeta. rewrite PS125_S_val.
  assert (SS : s < 2 ^ 32) by lia.
  assert (E : (fl 53 (inject_Z s) / (4835703278458517 # 38685626227668133590597632) == inject_Z s * (38685626227668133590597632 # 4835703278458517))%Q).
  { rewrite fl_int by lia. field. }
  rewrite (fl_eq 53 _ _ E). set (x := (inject_Z s * (38685626227668133590597632 # 4835703278458517))%Q).
  assert (SQ : (0 <= inject_Z s)%Q) by (change 0%Q with (inject_Z 0); rewrite <- Zle_Qle; lia).
  assert (SU : (inject_Z s <= inject_Z 2305843010)%Q) by (rewrite <- Zle_Qle; lia).
  change (inject_Z 2305843010) with (2305843010 # 1)%Q in SU.
  assert (X0 : (0 <= x)%Q) by (subst x; lra).
  assert (XU : (x <= inject_Z (s * 8000000000))%Q).
  { rewrite inject_Z_mult. change (inject_Z 8000000000) with (8000000000 # 1)%Q. subst x. lra. }
  assert (XL : (inject_Z (s * 8000000000 - 2 ^ 12) <= x)%Q).
  { unfold Zminus. rewrite inject_Z_plus, inject_Z_mult. change (inject_Z 8000000000) with (8000000000 # 1)%Q.
    change (inject_Z (- 2 ^ 12)) with (- 4096 # 1)%Q. subst x. lra. }
  clearbody x.
  assert (P : forall m, Z.abs m <= 2 ^ 53 -> (fl 53 (inject_Z (m * 2 ^ 12)) == inject_Z (m * 2 ^ 12))%Q).
  { intros m M. rewrite inject_Z_mult. change (inject_Z (2 ^ 12)) with (pow2 12). apply fl_exact; lia. }
  assert (F0 : (0 <= fl 53 x)%Q) by (rewrite <- (fl_0 53 0) by reflexivity; apply fl_mono; [lia|assumption]).
  assert (FU : (fl 53 x <= inject_Z (s * 8000000000))%Q).
  { replace (s * 8000000000) with (s * 1953125 * 2 ^ 12) in * by lia. rewrite <- P by lia. apply fl_mono; [lia|assumption]. }
  assert (FL : (inject_Z (s * 8000000000 - 2 ^ 12) <= fl 53 x)%Q).
  { replace (s * 8000000000 - 2 ^ 12) with ((s * 1953125 - 1) * 2 ^ 12) in * by lia. rewrite <- P by lia. apply fl_mono; [lia|assumption]. }
  set (y := fl 53 x) in *. clearbody y.
  assert (Q0 : 0 <= qtrunc y) by (rewrite <- (qtrunc_int 0 0) by reflexivity; apply qtrunc_mono; [lra|assumption]).
  split; [|assumption]. split.
  - destruct (Z_le_gt_dec 0 (s * 8000000000 - 2 ^ 12)) as [G|G]; [|lia].
    rewrite <- (qtrunc_int _ _ (Qeq_refl (inject_Z (s * 8000000000 - 2 ^ 12)))). apply qtrunc_mono; [|assumption].
    change 0%Q with (inject_Z 0). rewrite <- Zle_Qle. lia.
  - rewrite <- (qtrunc_int _ _ (Qeq_refl (inject_Z (s * 8000000000)))). apply qtrunc_mono; assumption.
Qed.
Lemma c42 s : 0 <= s -> epoch_of_second s < 2 ^ 32 ->
  exists v, epoch2int (date2epoch s) = Ok v /\ length (date2epoch s) = 8%nat /\
    (v = epoch_of_second s \/ v = epoch_of_second s - 1 /\ s mod 2 ^ 20 = 0 /\ 0 < s).
Proof.
  intros S0 H. unfold epoch_of_second in *. assert (S1 : s * 8000000000 < 2 ^ 64) by lia.
  destruct (date_value s S0 S1) as [[A B] C]. cbn zeta in *. unfold date2epoch.
  set (q := qtrunc (fl 53 (fl 53 (inject_Z s) / PS125_S)%Q)) in *. clearbody q.
  rewrite Z.shiftr_div_pow2 by lia. exists (q / 2 ^ 32).
  assert (R : 0 <= q / 2 ^ 32 < 2 ^ 32) by lia. destruct (fmt08x_val _ R) as [E1 E2]. split; [assumption|]. split; [assumption|].
  assert (V : s * 8000000000 = s * 1953125 * 2 ^ 12) by lia. rewrite V in *. clear V.
  assert (D : s * 1953125 * 2 ^ 12 / 2 ^ 32 = s * 1953125 / 2 ^ 20).
  { change (2 ^ 32) with (2 ^ 20 * 2 ^ 12). apply Z.div_mul_cancel_r; lia. }
  rewrite D in *.
  destruct (Z.eq_dec (s mod 2 ^ 20) 0) as [M|M].
  - assert (s * 1953125 mod 2 ^ 20 = 0).
    { rewrite Z.mul_mod by lia. rewrite M. reflexivity. }
    destruct (Z.eq_dec s 0); [left; lia|]. lia.
  - left. assert (s * 1953125 mod 2 ^ 20 <> 0).
    { intros N. apply M. assert (G : (2 ^ 20 | 1953125 * s)) by (rewrite Z.mul_comm; apply Z.mod_divide; [lia|assumption]).
      apply Z.gauss in G; [|vm_compute; reflexivity]. now apply Z.mod_divide. }
    lia.
Qed.

(** ** The first common epoch *)
Lemma mem_In v l : mem v l = true <-> In v l.
Proof.
  unfold mem. rewrite existsb_exists. split.
  - intros (x & I & E). apply Z.eqb_eq in E. now subst.
  - intros I. exists v. split; [assumption|]. apply Z.eqb_refl.
Qed.
Lemma epochs_of d : epoch_names d -> exists l, mapM (fun p : list Z * list Z => epoch2int (fst p)) d = Ok l /\
  forall v, In v l <-> has_epoch d v.
Proof.
  unfold epoch_names, has_epoch, names. induction d as [|p d IH]; cbn [map mapM]; intros H.
  - exists []. split; [reflexivity|]. intros v. split; [intros []|intros (s & [] & _)].
  - destruct (Forall_inv H) as [v E]. destruct (IH (Forall_inv_tail H)) as (l & E2 & I). exists (v :: l).
    rewrite E. cbn [bind]. rewrite E2. split; [reflexivity|]. intros w. split.
    + intros [->|J]; [exists (fst p); split; [now left|assumption]|]. apply I in J. destruct J as (s & S1 & S2). exists s. split; [now right|assumption].
    + intros (s & [<-|S1] & S2); [left; congruence|]. right. apply I. now exists s.
Qed.
Lemma run_length_spec s m k : forall n, 0 <= n ->
  (exists r, run_length k s m n = Ok r /\ n <= r /\ (forall i, n <= i < r -> In (m + i) s) /\ ~ In (m + r) s) \/
  (run_length k s m n = Err OutOfFuel /\ forall i, n <= i < n + Z.of_nat k -> In (m + i) s).
Proof.
  induction k as [|k IH]; intros n N; cbn [run_length].
  - right. split; [reflexivity|]. intros; lia.
  - destruct (mem (m + n) s) eqn:E.
    + apply mem_In in E. destruct (IH (n + 1) ltac:(lia)) as [(r & R1 & R2 & R3 & R4)|[R1 R2]].
      * left. exists r. split; [assumption|]. split; [lia|]. split; [|assumption].
        intros i I. destruct (Z.eq_dec i n) as [->|]; [assumption|apply R3; lia].
      * right. split; [assumption|]. intros i I. destruct (Z.eq_dec i n) as [->|]; [assumption|apply R2; lia].
    + left. exists n. split; [reflexivity|]. split; [lia|]. split; [intros; lia|].
      intros I. apply mem_In in I. congruence.
Qed.
Lemma run_length_fuel s m : exists r, run_length (S (length s)) s m 1 = Ok r /\ 1 <= r /\
  (forall i, 1 <= i < r -> In (m + i) s) /\ ~ In (m + r) s.
Proof.
  destruct (run_length_spec s m (S (length s)) 1 ltac:(lia)) as [H|[_ H]]; [exact H|]. exfalso.
  set (l := map (fun i => m + 1 + Z.of_nat i) (seq 0 (S (length s)))).
  assert (ND : NoDup l) by (apply Injective_map_NoDup; [intros a b ?; lia|apply seq_NoDup]).
  assert (IN : incl l s).
  { intros v I. apply in_map_iff in I. destruct I as (i & <- & I). apply in_seq in I. rewrite <- Z.add_assoc. apply H. lia. }
  pose proof (NoDup_incl_length ND IN) as L. unfold l in L. rewrite map_length, seq_length in L. lia.
Qed.
Lemma min_list_spec l : forall x, (min_list x l = x \/ In (min_list x l) l) /\ min_list x l <= x /\ forall v, In v l -> min_list x l <= v.
Proof.
  unfold min_list. induction l as [|y l IH]; intros x; cbn [fold_left].
  - split; [now left|]. split; [lia|]. intros v [].
  - destruct (IH (Z.min x y)) as (A & B & C). split; [|split; [lia|]].
    + destruct A as [A|A]; [|right; now right]. rewrite A. destruct (Z.min_spec x y) as [[_ ->]|[_ ->]]; [now left|right; now left].
    + intros v [<-|I]; [lia|now apply C].
Qed.
Lemma c43 d1 d2 first f : epoch_names d1 -> epoch_names d2 ->
  match first with None => f = None | Some s => exists v, epoch2int s = Ok v /\ f = Some v end ->
  let common v := has_epoch d1 v /\ has_epoch d2 v /\ from_first f v in
  (get_first_overlapping_epoch d1 d2 first = Ok (None, 0) /\ forall v, ~ common v) \/
  (exists m n, get_first_overlapping_epoch d1 d2 first = Ok (Some (int2epoch m), n) /\
     common m /\ (forall v, common v -> m <= v) /\ 1 <= n /\ (forall i, 0 <= i < n -> common (m + i)) /\ ~ common (m + n)).
Proof.
  intros N1 N2 F common. unfold get_first_overlapping_epoch.
  destruct (epochs_of d1 N1) as (e1 & E1 & I1). destruct (epochs_of d2 N2) as (e2 & E2 & I2).
  rewrite E1. cbn [bind]. rewrite E2. cbn [bind].
  assert (S0 : exists s, (match first with
            | None => Ok (filter (fun v => mem v e2) e1)
            | Some e => let* f := epoch2int e in Ok (filter (fun v => f <=? v) (filter (fun v => mem v e2) e1))
            end : pyres (list Z)) = Ok s /\ forall v, In v s <-> common v).
  { unfold common, from_first. destruct first as [e|].
    - destruct F as (v0 & F1 & ->). rewrite F1. cbn [bind]. eexists. split; [reflexivity|]. intros v.
      rewrite !filter_In, mem_In, I1, I2, Z.leb_le. tauto.
    - subst f. eexists. split; [reflexivity|]. intros v. rewrite filter_In, mem_In, I1, I2. tauto. }
  destruct S0 as (s & -> & IS). cbn [bind]. destruct s as [|x r] eqn:Es.
  - left. split; [reflexivity|]. intros v C. apply IS in C. destruct C.
  - right. rewrite <- Es in *. destruct (run_length_fuel s (min_list x r)) as (n & R1 & R2 & R3 & R4).
    destruct (min_list_spec r x) as (A & B & C). set (m := min_list x r) in *.
    assert (IM : In m s) by (rewrite Es; destruct A as [A|A]; [left; congruence|now right]).
    exists m, n. rewrite R1. cbn [bind]. split; [reflexivity|]. split; [now apply IS|]. split; [|split; [assumption|split]].
    + intros v V. apply IS in V. rewrite Es in V. destruct V as [<-|V]; [assumption|now apply C].
    + intros i I. apply IS. destruct (Z.eq_dec i 0) as [->|]; [now rewrite Z.add_0_r|apply R3; lia].
    + intros V. apply IS in V. contradiction.
Qed.

(** ** Concatenating epochs *)
Lemma c44_concat fuel d t1 : forall n e (pieces : list (list Q)), length pieces = n ->
  (forall i p, nth_error pieces i = Some p ->
     exists c, open_file d (int2epoch (e + Z.of_nat i)) = Ok c /\ read_times fuel t1 c = Ok p) ->
  get_timestamps fuel d t1 e n = Ok (concat pieces).
Proof.
  induction n as [|n IH]; intros e pieces L H; destruct pieces as [|p pieces]; try discriminate L; cbn [get_timestamps]; [reflexivity|].
  destruct (H 0%nat p eq_refl) as (c & H1 & H2). rewrite Z.add_0_r in H1. rewrite H1. cbn [bind]. rewrite H2. cbn [bind].
  rewrite (IH (e + 1) pieces); [reflexivity|now injection L|].
  intros i q Q. destruct (H (S i) q Q) as (c' & H3 & H4). exists c'. split; [|assumption].
  rewrite <- H3. f_equal. f_equal. lia.
Qed.
Lemma c44_inv fuel d t1 : forall n e ts, get_timestamps fuel d t1 e n = Ok ts ->
  exists pieces, length pieces = n /\ ts = concat pieces /\
    forall i p, nth_error pieces i = Some p ->
      exists c, open_file d (int2epoch (e + Z.of_nat i)) = Ok c /\ read_times fuel t1 c = Ok p.
Proof.
  induction n as [|n IH]; intros e ts H; cbn [get_timestamps] in H.
  - inv H. exists []. split; [reflexivity|]. split; [reflexivity|]. intros [|i] p X; discriminate X.
  - destruct (open_file d (int2epoch e)) as [c|] eqn:E1; [|discriminate]. cbn [bind] in H.
    destruct (read_times fuel t1 c) as [p|] eqn:E2; [|discriminate]. cbn [bind] in H.
    destruct (get_timestamps fuel d t1 (e + 1) n) as [r|] eqn:E3; [|discriminate]. cbn [bind] in H. inv H.
    destruct (IH _ _ E3) as (ps & L & -> & P). exists (p :: ps). split; [cbn [length]; congruence|]. split; [reflexivity|].
    intros [|i] q Q; cbn [nth_error] in Q.
    + inv Q. exists c. now rewrite Z.add_0_r.
    + destruct (P i q Q) as (c' & H1 & H2). exists c'. split; [|assumption]. rewrite <- H1. f_equal. f_equal. lia.
Qed.
(** the first epoch without a file stops the reading *)
Lemma c44_missing fuel d t1 : forall n e k, (k < n)%nat ->
  open_file d (int2epoch (e + Z.of_nat k)) = Err FileNotFoundError ->
  (forall i, (i < k)%nat -> exists c p, open_file d (int2epoch (e + Z.of_nat i)) = Ok c /\ read_times fuel t1 c = Ok p) ->
  get_timestamps fuel d t1 e n = Err FileNotFoundError.
Proof.
  induction n as [|n IH]; intros e k K M H; [lia|]. cbn [get_timestamps]. destruct k as [|k].
  - rewrite Z.add_0_r in M. now rewrite M.
  - destruct (H 0%nat ltac:(lia)) as (c & p & H1 & H2). rewrite Z.add_0_r in H1. rewrite H1. cbn [bind]. rewrite H2. cbn [bind].
    rewrite (IH (e + 1) k); [reflexivity|lia| |].
    + rewrite <- M. f_equal. f_equal. lia.
    + intros i I. destruct (H (S i) ltac:(lia)) as (c' & p' & H3 & H4). exists c', p'. split; [|assumption].
      rewrite <- H3. f_equal. f_equal. lia.
Qed.
Lemma get_timestamp_eq fuel d t1 first f skip n : epoch2int first = Ok f -> 0 <= n ->
  get_timestamp fuel d t1 first skip n = get_timestamps fuel d t1 (f + skip) (Z.to_nat n).
Proof.
  intros E N. unfold get_timestamp. rewrite E. destruct (Z.leb_spec n 0) as [H|H]; [|reflexivity].
  replace n with 0 by lia. reflexivity.
Qed.
Lemma ordered_tail d f evs r : ordered_dir d f (evs :: r) -> ordered_dir d (f + 1) r.
Proof.
  intros H i x X. specialize (H (S i) x X). replace (f + 1 + Z.of_nat i) with (f + Z.of_nat (S i)) by lia. exact H.
Qed.
Lemma run_read fuel d : forall epochs f, ordered_dir d f epochs ->
  exists ts, get_timestamps fuel d true f (length epochs) = Ok ts /\ same_values ts (map (in_units NS1) (run_times f epochs)).
Proof.
  induction epochs as [|evs r IH]; intros f H; cbn [length get_timestamps run_times].
  - exists []. split; [reflexivity|constructor].
  - destruct (H 0%nat evs eq_refl) as (O & K & NZ & L & S0). rewrite Z.add_0_r in *.
    destruct (IH (f + 1) (ordered_tail _ _ _ _ H)) as (ts & E & V).
    destruct (c31 f evs NS1 K NZ L) as (_ & _ & (T & R & RV) & _).
    rewrite O. cbn [bind]. unfold read_times at 1. rewrite R. cbn [bind]. rewrite E. cbn [bind].
    eexists. split; [reflexivity|]. rewrite map_app, map_map. apply Forall2_app; assumption.
Qed.
Lemma run_bounds : forall epochs f, (forall i evs, nth_error epochs i = Some evs -> Forall (t1_ok (f + Z.of_nat i)) evs) ->
  f mod 2 ^ 17 + len epochs <= 2 ^ 17 -> Forall (fun t => (f mod 2 ^ 17) * 2 ^ 37 <= t) (run_times f epochs).
Proof.
  induction epochs as [|evs r IH]; intros f K M; cbn [run_times]; [constructor|]. apply Forall_app. split.
  - apply Forall_map. specialize (K 0%nat evs eq_refl). eapply Forall_impl; [|exact K].
    intros ev [E _]. unfold lsb_time. lia.
  - rewrite len_cons in M. destruct r as [|x r'] eqn:Er; [constructor|]. rewrite <- Er in *.
    assert (LR : 1 <= len r) by (subst r; unfold len; cbn [length]; lia).
    assert (MM : (f + 1) mod 2 ^ 17 = f mod 2 ^ 17 + 1) by lia.
    eapply Forall_impl; [|apply IH].
    + cbn beta. intros t. lia.
    + intros i ev I. specialize (K (S i) ev I). replace (f + 1 + Z.of_nat i) with (f + Z.of_nat (S i)) by lia. exact K.
    + lia.
Qed.
Lemma nondecr_app a b : nondecr a -> nondecr b -> (forall x y, In x a -> In y b -> x <= y) -> nondecr (a ++ b).
Proof.
  induction a as [|x a IH]; intros A B H; [assumption|]. cbn [app nondecr] in *. destruct A as [A1 A2]. split.
  - destruct a as [|z a]; cbn [app]; [|assumption]. destruct b as [|y b]; [exact I|]. apply H; now left.
  - apply IH; [assumption|assumption|]. intros u v U V. apply H; [now right|assumption].
Qed.
Lemma nondecr_shift c l : nondecr l -> nondecr (map (fun t => c + t) l).
Proof.
  induction l as [|x l IH]; intros H; [exact I|]. cbn [map nondecr] in *. destruct H as [A B]. split; [|now apply IH].
  destruct l; cbn [map]; [exact I|lia].
Qed.
Lemma nondecr_nth l : nondecr l -> forall i j, (i < j < length l)%nat -> nth i l 0 <= nth j l 0.
Proof.
  induction l as [|x l IH]; intros H i j L; cbn [length] in L; [lia|]. destruct j as [|j]; [lia|].
  destruct H as [A B]. destruct i as [|i]; cbn [nth]; [|apply IH; [assumption|lia]].
  destruct l as [|y l]; [cbn [length] in L; lia|]. destruct j as [|j]; [exact A|].
  etransitivity; [exact A|]. change y with (nth 0 (y :: l) 0) at 1. apply IH; [assumption|lia].
Qed.
Lemma run_sorted d : forall epochs f, ordered_dir d f epochs -> f mod 2 ^ 17 + len epochs <= 2 ^ 17 -> nondecr (run_times f epochs).
Proof.
  induction epochs as [|evs r IH]; intros f H M; cbn [run_times]; [constructor|].
  pose proof (ordered_tail _ _ _ _ H) as HT. destruct (H 0%nat evs eq_refl) as (_ & K & _ & _ & S0). rewrite Z.add_0_r in K.
  rewrite len_cons in M.
  assert (SE : nondecr (map (fun ev => lsb_time f (fst ev)) evs)).
  { unfold lsb_time. rewrite <- (map_map fst (fun t => f mod 2 ^ 17 * 2 ^ 37 + t)). now apply nondecr_shift. }
  destruct r as [|x r'] eqn:Er; [cbn [run_times]; now rewrite app_nil_r|]. rewrite <- Er in *.
  assert (LR : 1 <= len r) by (subst r; unfold len; cbn [length]; lia).
  assert (MM : (f + 1) mod 2 ^ 17 = f mod 2 ^ 17 + 1) by lia.
  apply nondecr_app; [assumption|apply IH; [assumption|lia]|].
  intros t u T U. apply in_map_iff in T. destruct T as (ev & <- & IE).
  assert (X := proj1 (Forall_forall _ _) K ev IE). destruct X as [X _].
  assert (B : Forall (fun t => ((f + 1) mod 2 ^ 17) * 2 ^ 37 <= t) (run_times (f + 1) r)).
  { apply run_bounds; [|lia]. intros i y Y. apply (HT i y Y). }
  assert (Y := proj1 (Forall_forall _ _) B u U). cbn beta in Y. unfold lsb_time. lia.
Qed.
Lemma sorted_units r ts l : same_values ts (map (in_units r) l) -> nondecr l -> sorted_times ts.
Proof.
  intros V N i j H. assert (L : length ts = length l) by (rewrite (Forall2_len _ _ _ V); apply map_length).
  assert (X : forall k, (k < length l)%nat -> (nth k ts 0 == in_units r (nth k l 0%Z))%Q).
  { intros k K. pose proof (Forall2_nth_q _ _ _ 0%Q V k ltac:(lia)) as Y.
    rewrite (nth_indep (map (in_units r) l) 0%Q (in_units r 0%Z)) in Y by (rewrite map_length; lia). now rewrite map_nth in Y. }
  rewrite !X by lia. pose proof (nondecr_nth l N i j ltac:(lia)) as LE. unfold in_units.
  apply Qmult_le_compat_r; [|destruct r; discriminate]. rewrite <- Zle_Qle. destruct r; cbn [rvalue]; lia.
Qed.
Lemma c44 fuel d first f0 skip f epochs : epoch2int first = Ok f0 -> f0 + skip = f -> ordered_dir d f epochs ->
  exists ts, get_timestamp fuel d true first skip (len epochs) = Ok ts /\
    same_values ts (map (in_units NS1) (run_times f epochs)) /\
    (f mod 2 ^ 17 + len epochs <= 2 ^ 17 -> sorted_times ts).
Proof.
  intros E <- H. rewrite (get_timestamp_eq _ _ _ _ f0) by (assumption || apply len_nonneg).
  unfold len at 1. rewrite Nat2Z.id. destruct (run_read fuel d epochs _ H) as (ts & T & V). exists ts. split; [assumption|].
  split; [assumption|]. intros M. eapply sorted_units; [exact V|]. eapply run_sorted; eassumption.
Qed.
