(** T1 files: units and the full epoch, truncated files. *)
From Coq Require Import QArith Qabs Lqa ZifyBool.
From Verif Require Import Float Base TimestampsModel TimestampsSpec EpochsModel EpochsSpec EpochsProofs.
Local Open Scope Z_scope.
Ltac Zify.zify_post_hook ::= Z.div_mod_to_equations.

(** units of [r] as a power of two *)
Definition rlog (r : TSRES) : Z := match r with NS1 => 0 | PS125 => 3 | PS4 => 8 end.
Lemma rvalue_pow r : rvalue r = 2 ^ rlog r. Proof. destruct r; reflexivity. Qed.
Lemma units_pow r v : (in_units r v == inject_Z v * pow2 (rlog r - 8))%Q.
Proof.
  unfold in_units. rewrite inject_Z_mult. unfold Qdiv. rewrite <- Qmult_assoc. apply Qmult_comp; [reflexivity|].
  destruct r; reflexivity.
Qed.
Lemma scale_ld_pow n r v m k : (v == inject_Z m * pow2 k)%Q -> Z.abs m <= 2 ^ 64 -> 0 <= n ->
  (scale_ld (2 ^ n) r v == inject_Z m * pow2 (k + rlog r - n))%Q.
Proof.
  intros E M N. unfold scale_ld.
  assert (A : (fl 64 v == inject_Z m * pow2 k)%Q).
  { rewrite (fl_eq 64 _ _ E). apply fl_exact; lia. }
  assert (B : (fl 64 v / (inject_Z (2 ^ n) / inject_Z (rvalue r)) == inject_Z m * pow2 (k + rlog r - n))%Q).
  { rewrite A, rvalue_pow, <- !pow2_Z by (lia || destruct r; cbn; lia).
    unfold Z.sub. rewrite !pow2_plus, pow2_inv. field. split; apply pow2_nz. }
  rewrite (fl_eq 64 _ _ B). apply fl_exact; lia.
Qed.
Lemma scale_ld_256 r v : Z.abs v <= 2 ^ 64 -> (scale_ld 256 r (inject_Z v) == in_units r v)%Q.
Proof.
  intros. change 256 with (2 ^ 8). rewrite (scale_ld_pow 8 r (inject_Z v) v 0); [|change (pow2 0) with 1%Q; ring|lia|lia].
  rewrite units_pow. reflexivity.
Qed.
Lemma in_units_plus r a b : (in_units r a + in_units r b == in_units r (a + b))%Q.
Proof. rewrite !units_pow, inject_Z_plus. ring. Qed.
Lemma in_units_eq r a b : a = b -> (in_units r a == in_units r b)%Q. Proof. intros ->; reflexivity. Qed.
Lemma scale_ld_msb r m : 0 <= m < 2 ^ 15 -> (scale_ld 256 r (inject_Z (Z.shiftl m 54)) == in_units r (m * 2 ^ 54))%Q.
Proof.
  intros H. rewrite Z.shiftl_mul_pow2 by lia. change 256 with (2 ^ 8).
  rewrite (scale_ld_pow 8 r _ m 54); [|rewrite inject_Z_mult, pow2_Z by lia; reflexivity|lia|lia].
  rewrite units_pow, inject_Z_mult, <- (pow2_Z 54) by lia.
  replace (54 + rlog r - 8) with (54 + (rlog r - 8)) by lia. rewrite pow2_plus. ring.
Qed.
Lemma full_lsb e t : full_time e t = (e mod 2 ^ 32 / 2 ^ 17) * 2 ^ 54 + lsb_time e t.
Proof.
  unfold full_time, lsb_time. rewrite <- (mod_mod_pow e 17 32) by lia.
  pose proof (Z.div_mod (e mod 2 ^ 32) (2 ^ 17)). lia.
Qed.
Lemma msb_range e : 0 <= e mod 2 ^ 32 / 2 ^ 17 < 2 ^ 15.
Proof. pose proof (Z.mod_pos_bound e (2 ^ 32)). lia. Qed.

(** Without the epoch's high bits: exact. *)
Lemma convert_lsb e ts r : Forall (fun t => 0 <= t < 2 ^ 54) ts ->
  same_values (evalues (t1_convert e ts false r true)) (map (in_units r) ts) /\
  t1_convert e ts false r false = EU64 (map (floor_units r) ts).
Proof.
  intros H. split.
  - cbn [t1_convert evalues]. induction H as [|t ts T _ IH]; cbn [map]; constructor; [|exact IH].
    apply scale_ld_256; lia.
  - unfold t1_convert. destruct r; apply f_equal; apply map_ext; intros t; unfold floor_units, bitdiff;
      rewrite Z.shiftr_div_pow2 by (apply Z.log2_nonneg).
    + change (2 ^ Z.log2 (256 / rvalue NS1)) with 256. cbn [rvalue]. now rewrite Z.mul_1_r.
    + change (2 ^ Z.log2 (256 / rvalue PS125)) with 32. cbn [rvalue]. lia.
    + change (2 ^ Z.log2 (256 / rvalue PS4)) with 1. cbn [rvalue]. lia.
Qed.
(** With the full epoch, as integers: exact, and 64 bits suffice where numpy arrays are used. *)
Lemma convert_full e ts r : Forall (fun t => 0 <= t < 2 ^ 37) ts ->
  t1_convert (e mod 2 ^ 32) (map (lsb_time e) ts) true r false =
    (match r with PS4 => EObj | _ => EU64 end) (map (fun t => floor_units r (full_time e t)) ts) /\
  (r <> PS4 -> Forall (fun t => 0 <= floor_units r (full_time e t) < 2 ^ 64) ts).
Proof.
  intros H. pose proof (msb_range e) as M. split.
  - unfold t1_convert. rewrite Z.shiftr_div_pow2 by lia.
    assert (X : forall t k, In t ts -> 0 <= k <= 8 -> 5 <= k ->
      u64 (Z.shiftr (lsb_time e t) k + u64 (Z.shiftl (e mod 2 ^ 32 / 2 ^ 17) (54 - k))) = full_time e t / 2 ^ k).
    { intros t k I K K5. rewrite Forall_forall in H. specialize (H t I). rewrite full_lsb.
      pose proof (lsb_time_range e t H) as R. unfold u64.
      rewrite Z.shiftr_div_pow2, Z.shiftl_mul_pow2 by lia.
      replace (2 ^ 54) with (2 ^ (54 - k) * 2 ^ k) by (rewrite <- Z.pow_add_r by lia; f_equal; lia).
      assert (P : 0 < 2 ^ k) by (apply Z.pow_pos_nonneg; lia).
      assert (Q : 0 < 2 ^ (54 - k)) by (apply Z.pow_pos_nonneg; lia).
      rewrite Z.mul_assoc, Z.add_comm, Z.div_add_l by lia. rewrite Z.add_comm.
      assert (Q2 : 2 ^ (54 - k) <= 2 ^ 49) by (apply Z.pow_le_mono_r; lia).
      assert (L : 0 <= lsb_time e t / 2 ^ k < 2 ^ (54 - k)).
      { split; [apply Z.div_pos; lia|]. apply Z.div_lt_upper_bound; [lia|].
        rewrite <- Z.pow_add_r by lia. replace (k + (54 - k)) with 54 by lia. lia. }
      rewrite (Z.mod_small (_ * _)) by nia.
      rewrite (Z.add_comm (_ / 2 ^ k)). apply Z.mod_small. nia. }
    destruct r; cbn [rvalue].
    + change (bitdiff 256 1) with 8. f_equal. rewrite !map_map. apply map_ext_in. intros t I.
      rewrite (X t 8) by (assumption || lia). unfold floor_units. cbn [rvalue]. rewrite Z.mul_1_r. reflexivity.
    + change (bitdiff 256 8) with 5. f_equal. rewrite !map_map. apply map_ext_in. intros t I.
      rewrite (X t 5) by (assumption || lia). unfold floor_units. cbn [rvalue].
      change (2 ^ 5) with 32. lia.
    + f_equal. rewrite !map_map. apply map_ext_in. intros t I.
      rewrite Z.shiftl_mul_pow2 by lia. rewrite full_lsb. unfold floor_units. cbn [rvalue].
      rewrite Z.div_mul by lia. lia.
  - intros NP. eapply Forall_impl; [|exact H]. cbn beta. intros t T.
    unfold floor_units, full_time. pose proof (Z.mod_pos_bound e (2 ^ 32)).
    destruct r; [| |congruence]; cbn [rvalue]; lia.
Qed.
(** With the full epoch, as float128. *)
Lemma units_range r T : 0 <= T < 2 ^ 69 -> (0 <= in_units r T < pow2 (61 + rlog r))%Q.
Proof.
  intros [A B]. rewrite units_pow. split.
  - apply Qmult_le_0_compat; [|apply Qlt_le_weak, pow2_pos]. change 0%Q with (inject_Z 0). now rewrite <- Zle_Qle.
  - replace (61 + rlog r) with (69 + (rlog r - 8)) by lia. rewrite pow2_plus, (pow2_Z 69) by lia.
    apply Qmul_lt; [apply pow2_pos|]. now rewrite <- Zlt_Qlt.
Qed.
Lemma full_round r x T : 0 <= T < 2 ^ 69 -> (x == in_units r T)%Q ->
  (Qabs (fl 64 x * inject_Z (256 / rvalue r) - inject_Z T) <= 16)%Q /\ (T < 2 ^ 64 -> (fl 64 x == in_units r T)%Q).
Proof.
  intros R E. rewrite (fl_eq 64 _ _ E). split.
  - destruct (Qeq_dec (in_units r T) 0) as [Z0|NZ].
    + rewrite fl_0 by assumption.
      assert (T = 0) as ->.
      { rewrite units_pow in Z0. apply Qmult_integral in Z0. destruct Z0 as [Z0|Z0]; [|now apply pow2_nz in Z0].
        unfold Qeq in Z0. cbn in Z0. lia. }
      rewrite Qmult_0_l. cbn. discriminate.
    + destruct (fl_exp 64 _ NZ) as (k & K). pose proof (fl_err_at 64 _ k K) as D.
      destruct (units_range r T R) as [P U].
      assert (EK : k + 63 < 61 + rlog r).
      { apply pow2_lt_inv. eapply Qle_lt_trans; [|exact U]. rewrite <- (Qabs_pos _ P).
        replace (k + 63) with (k + 64 - 1) by lia. apply K. }
      assert (W : (inject_Z (256 / rvalue r) == pow2 (8 - rlog r))%Q) by (destruct r; reflexivity).
      assert (S : (inject_Z T == in_units r T * inject_Z (256 / rvalue r))%Q).
      { rewrite units_pow, W, <- Qmult_assoc, <- pow2_plus.
        replace (rlog r - 8 + (8 - rlog r)) with 0 by lia. change (pow2 0) with 1%Q. ring. }
      rewrite S at 1.
      setoid_replace (fl 64 (in_units r T) * inject_Z (256 / rvalue r) - in_units r T * inject_Z (256 / rvalue r))%Q
        with ((fl 64 (in_units r T) - in_units r T) * inject_Z (256 / rvalue r))%Q by ring.
      rewrite Qabs_Qmult, W. rewrite (Qabs_pos (pow2 (8 - rlog r))) by (apply Qlt_le_weak, pow2_pos).
      apply Qle_trans with (pow2 (k - 1) * pow2 (8 - rlog r))%Q; [apply Qmul_le; [apply pow2_pos|exact D]|].
      rewrite <- pow2_plus. change 16%Q with (pow2 4). apply pow2_le. lia.
  - intros L. rewrite (fl_eq 64 _ _ (units_pow r T)), units_pow. apply fl_exact; lia.
Qed.
Lemma full_time_range e t : 0 <= t < 2 ^ 37 -> 0 <= full_time e t < 2 ^ 69.
Proof. intros; unfold full_time. pose proof (Z.mod_pos_bound e (2 ^ 32)). lia. Qed.
Lemma convert_full_ld e ts r : Forall (fun t => 0 <= t < 2 ^ 37) ts ->
  exists xs, t1_convert (e mod 2 ^ 32) (map (lsb_time e) ts) true r true = ELD (map (fl 64) xs) /\
    Forall2 (fun t x => x == in_units r (full_time e t))%Q ts xs.
Proof.
  intros H. unfold t1_convert. rewrite Z.shiftr_div_pow2 by lia.
  exists (map (fun t => scale_ld 256 r (inject_Z (lsb_time e t)) + scale_ld 256 r (inject_Z (Z.shiftl (e mod 2 ^ 32 / 2 ^ 17) 54)))%Q ts).
  split; [now rewrite !map_map|].
  induction H as [|t ts T _ IH]; cbn [map]; constructor; [|exact IH].
  pose proof (lsb_time_range e t T). pose proof (msb_range e).
  rewrite scale_ld_256, scale_ld_msb by lia. rewrite in_units_plus. apply in_units_eq. rewrite full_lsb. lia.
Qed.
Lemma in_units_le r a b : a <= b -> (in_units r a <= in_units r b)%Q.
Proof. intros. rewrite !units_pow. apply Qmul_le; [apply pow2_pos|]. now rewrite <- Zle_Qle. Qed.

(** ** C31 - C33 *)
Lemma map_lsb e (evs : list event) : map (fun ev => lsb_time e (fst ev)) evs = map (lsb_time e) (map fst evs).
Proof. now rewrite map_map. Qed.
Lemma ok_fst e evs : Forall (t1_ok e) evs -> Forall (fun t => 0 <= t < 2 ^ 37) (map fst evs).
Proof. intros H. apply Forall_map. eapply Forall_impl; [|exact H]. now intros ev [A _]. Qed.
Lemma ok_lsb e evs : Forall (t1_ok e) evs -> Forall (fun t => 0 <= t < 2 ^ 54) (map (lsb_time e) (map fst evs)).
Proof. intros H. apply Forall_map. eapply Forall_impl; [|exact (ok_fst e evs H)]. intros; now apply lsb_time_range. Qed.
Lemma c31 e evs r : Forall (t1_ok e) evs -> Forall (fun ev => t1_word e ev <> 0) evs -> len evs < 2 ^ 32 ->
  (exists name, write_T1 e (WPy (map fst evs)) (DSeq (map snd evs)) = Ok (name, t1_file e evs, None)) /\
  (forall d, Forall (fun ev => snd ev = d) evs ->
     exists name, write_T1 e (WPy (map fst evs)) (DScalar d) = Ok (name, t1_file e evs, None)) /\
  (exists T, read_T1 (t1_file e evs) false r true = Ok (T, map snd evs) /\
     same_values (evalues T) (map (fun ev => in_units r (lsb_time e (fst ev))) evs)) /\
  read_T1 (t1_file e evs) false r false =
    Ok (EU64 (map (fun ev => floor_units r (lsb_time e (fst ev))) evs), map snd evs).
Proof.
  intros O N L. split; [|split; [|split]].
  - eexists. now apply write_T1_seq.
  - intros d D. eexists. now apply write_T1_scalar.
  - eexists. rewrite read_t1_file by assumption. split; [reflexivity|]. rewrite map_lsb.
    destruct (convert_lsb (e mod 2 ^ 32) _ r (ok_lsb e evs O)) as [A _].
    rewrite !map_map in A. rewrite !map_map. exact A.
  - rewrite read_t1_file by assumption. rewrite map_lsb.
    destruct (convert_lsb (e mod 2 ^ 32) _ r (ok_lsb e evs O)) as [_ B]. rewrite B, !map_map. reflexivity.
Qed.
Lemma c32 e evs r : Forall (t1_ok e) evs -> Forall (fun ev => t1_word e ev <> 0) evs -> len evs < 2 ^ 32 ->
  read_T1 (t1_file e evs) true r false =
    Ok ((match r with PS4 => EObj | _ => EU64 end) (map (fun ev => floor_units r (full_time e (fst ev))) evs), map snd evs) /\
  (r <> PS4 -> Forall (fun ev => 0 <= floor_units r (full_time e (fst ev)) < 2 ^ 64) evs).
Proof.
  intros O N L. destruct (convert_full e _ r (ok_fst e evs O)) as [A B]. split.
  - rewrite read_t1_file by assumption. rewrite map_lsb, A, map_map. reflexivity.
  - intros NP. specialize (B NP). now rewrite Forall_map in B.
Qed.
Lemma Forall2_nth_q {A} (P : A -> Q -> Prop) l xs d : Forall2 P l xs -> forall i, (i < length l)%nat -> P (nth i l d) (nth i xs 0%Q).
Proof. induction 1; intros [|i] H1; cbn in *; try lia; [assumption|]. apply IHForall2; lia. Qed.
Lemma Forall2_len {A B} (P : A -> B -> Prop) l m : Forall2 P l m -> length l = length m.
Proof. induction 1; cbn; congruence. Qed.
Lemma c33 e evs r : Forall (t1_ok e) evs -> Forall (fun ev => t1_word e ev <> 0) evs -> len evs < 2 ^ 32 ->
  exists xs, read_T1 (t1_file e evs) true r true = Ok (ELD xs, map snd evs) /\ length xs = length evs /\
    Forall2 (fun ev x => Qabs (x * inject_Z (256 / rvalue r) - inject_Z (full_time e (fst ev))) <= 16 /\
                         ((full_time e (fst ev) < 2 ^ 64)%Z -> x == in_units r (full_time e (fst ev))))%Q evs xs /\
    forall i j, (i < length evs)%nat -> (j < length evs)%nat ->
      full_time e (fst (nth i evs (0, 0))) <= full_time e (fst (nth j evs (0, 0))) -> (nth i xs 0 <= nth j xs 0)%Q.
Proof.
  intros O N L. destruct (convert_full_ld e _ r (ok_fst e evs O)) as (xs & E & F).
  exists (map (fl 64) xs). pose proof (Forall2_len _ _ _ F) as LE. rewrite map_length in LE.
  assert (F' : Forall2 (fun ev x => x == in_units r (full_time e (fst ev)))%Q evs xs).
  { clear - F. revert xs F. induction evs as [|ev evs IH]; intros xs F; inv F; constructor; auto. }
  split; [|split; [|split]].
  - rewrite read_t1_file by assumption. now rewrite map_lsb, E.
  - rewrite map_length. symmetry. exact LE.
  - clear - F' O. revert xs F'. induction O as [|ev evs H _ IH]; intros xs F'; inv F'; cbn [map]; constructor; auto.
    apply full_round; [apply full_time_range, H|assumption].
  - intros i j I J T.
    rewrite (nth_indep _ 0%Q (fl 64 0)) by (rewrite map_length; lia). rewrite map_nth.
    rewrite (nth_indep (map (fl 64) xs) 0%Q (fl 64 0)) by (rewrite map_length; lia). rewrite map_nth.
    apply fl_mono; [lia|].
    rewrite (Forall2_nth_q _ _ _ (0, 0) F' i I), (Forall2_nth_q _ _ _ (0, 0) F' j J).
    now apply in_units_le.
Qed.

(** ** C34: truncation *)
Lemma t1_body_app e a b : t1_body e (a ++ b) = t1_body e a ++ t1_body e b.
Proof. unfold t1_body. now rewrite map_app, concat_app. Qed.
Lemma t1_body_len e evs : len (t1_body e evs) = 8 * len evs.
Proof.
  unfold t1_body. induction evs as [|ev evs IH]; cbn [map concat]; [reflexivity|].
  autorewrite with lens. rewrite encode_t1_len, IH. lia.
Qed.
Lemma t1_header_len e n : len (t1_header e n) = 20.
Proof. unfold t1_header; autorewrite with lens; rewrite !le_enc_len; reflexivity. Qed.
Lemma u32_zero_iff l i : bytes_ok l -> u32_at l i = 0 <->
  byte_at l i = 0 /\ byte_at l (i + 1) = 0 /\ byte_at l (i + 2) = 0 /\ byte_at l (i + 3) = 0.
Proof.
  intros H; unfold u32_at.
  pose proof (byte_at_range l i H). pose proof (byte_at_range l (i + 1) H).
  pose proof (byte_at_range l (i + 2) H). pose proof (byte_at_range l (i + 3) H). lia.
Qed.
Lemma word_zero_iff l : bytes_ok l -> len l <= 8 -> word_at l 0 = 0 <-> Forall (fun b => b = 0) l.
Proof.
  intros B L. pose proof (u32_at_range l 0 B). pose proof (u32_at_range l 4 B).
  assert (word_at l 0 = 0 <-> u32_at l 0 = 0 /\ u32_at l 4 = 0) as -> by (unfold word_at; cbn; lia).
  rewrite !u32_zero_iff by assumption. change (0 + 1) with 1. change (0 + 2) with 2. change (0 + 3) with 3.
  change (4 + 1) with 5. change (4 + 2) with 6. change (4 + 3) with 7. split.
  - intros Z. apply Forall_forall. intros b I. apply In_nth with (d := 0) in I. destruct I as (i & I & E).
    unfold len in L. unfold byte_at in Z.
    change (Z.to_nat 0) with 0%nat in Z. change (Z.to_nat 1) with 1%nat in Z. change (Z.to_nat 2) with 2%nat in Z.
    change (Z.to_nat 3) with 3%nat in Z. change (Z.to_nat 4) with 4%nat in Z. change (Z.to_nat 5) with 5%nat in Z.
    change (Z.to_nat 6) with 6%nat in Z. change (Z.to_nat 7) with 7%nat in Z.
    do 8 (destruct i as [|i]; [intuition congruence|]). lia.
  - intros F. assert (X : forall i, byte_at l i = 0).
    { intros i. unfold byte_at. destruct (nth_in_or_default (Z.to_nat i) l 0) as [I|E]; [|assumption].
      exact (proj1 (Forall_forall _ _) F _ I). }
    rewrite !X. tauto.
Qed.
Lemma read_t1_cut e n pre tl full r fr : Forall (t1_ok e) pre -> Forall (fun ev => t1_word e ev <> 0) pre ->
  0 < n < 2 ^ 32 -> bytes_ok tl -> len tl < 8 ->
  read_T1 (t1_header e n ++ t1_body e pre ++ tl) full r fr =
    (let ws := map (t1_word e) pre ++ (if word_at tl 0 =? 0 then [] else [word_at tl 0]) in
     if len ws =? n
     then Ok (t1_convert (e mod 2 ^ 32) (map (fun v => v / 2 ^ 10) ws) full r fr, map (fun v => v mod 2 ^ 4) ws)
     else Err ValueError).
Proof.
  intros O N R B L.
  destruct (read_T1_any (t1_header e n ++ t1_body e pre ++ tl) full r fr _ _ (T1_header_ok [] e n _))
    as (k & E & NZ & Z0).
  cbn zeta in *. rewrite T1_drop in *. unfold t1_body in *.
  assert (W : Forall (fun v => 0 <= v < 2 ^ 64) (map (t1_word e) pre)).
  { apply Forall_map. eapply Forall_impl; [|exact O]. intros; now apply t1_word_range. }
  destruct (nwords_encode _ tl W) as [W1 W2]. rewrite map_map, map_length in W1. rewrite map_map in W2. rewrite len_map in W2.
  set (body := concat (map (fun ev => encode_t1 (t1_word e ev)) pre) ++ tl) in *.
  set (ws := map (t1_word e) pre ++ (if word_at tl 0 =? 0 then [] else [word_at tl 0])).
  assert (K : k = length ws /\ nwords body k = ws).
  { assert (X : Forall (fun v => v <> 0) (nwords body (length ws)) /\ word_at body (len ws) = 0 /\ nwords body (length ws) = ws).
    { subst ws. pose proof (W2 0 ltac:(lia)) as V0. pose proof (W2 1 ltac:(lia)) as V1.
      rewrite (word_at_over tl 1) in V1 by lia.
      destruct (Z.eqb_spec (word_at tl 0) 0) as [E0|E0].
      - rewrite app_nil_r, map_length, len_map. rewrite W1. split; [now apply Forall_map|]. split; [|reflexivity].
        rewrite <- E0, <- V0. f_equal. lia.
      - assert (Y : nwords body (length (map (t1_word e) pre ++ [word_at tl 0])) = map (t1_word e) pre ++ [word_at tl 0]).
        { rewrite app_length, map_length. cbn [length]. unfold nwords. rewrite seq_app, map_app. cbn [seq map].
          fold (nwords body (length pre)). rewrite W1. do 2 f_equal. rewrite <- V0. f_equal. unfold len. lia. }
        rewrite Y. split; [|split; [|reflexivity]].
        + apply Forall_app. split; [now apply Forall_map|]. constructor; [assumption|constructor].
        + autorewrite with lens. rewrite len_map. rewrite <- V1. f_equal. lia. }
    destruct X as (X1 & X2 & X3).
    assert (k = length ws) as -> by (eapply nwords_unique; eassumption).
    now split. }
  destruct K as [-> K]. rewrite E, K. cbn [h_length h_epoch]. rewrite (Z.mod_small n) by lia.
  fold (len ws). destruct (Z.eqb_spec (len ws) n); destruct (Z.eqb_spec n 0); cbn [negb andb]; try reflexivity; lia.
Qed.
Lemma split_at {A} (l : list A) k : 0 <= k < len l -> exists a x b, l = a ++ x :: b /\ len a = k.
Proof.
  intros H. destruct (nth_error l (Z.to_nat k)) as [x|] eqn:E.
  - apply nth_error_split in E. destruct E as (a & b & -> & L). exists a, x, b. split; [reflexivity|]. unfold len; lia.
  - apply nth_error_None in E. unfold len in H. lia.
Qed.
Lemma take_t1_file e evs m : 20 <= m -> take m (t1_file e evs) = t1_header e (len evs) ++ take (m - 20) (t1_body e evs ++ repeat 0 8).
Proof. intros. unfold t1_file. rewrite take_app_ge by (rewrite t1_header_len; lia). now rewrite t1_header_len. Qed.
Lemma take_body e a x b l j : 0 <= j < 8 ->
  take (8 * len a + j) (t1_body e (a ++ x :: b) ++ l) = t1_body e a ++ take j (encode_t1 (t1_word e x)).
Proof.
  intros J. rewrite t1_body_app, <- app_assoc. rewrite take_app_ge by (rewrite t1_body_len; lia).
  rewrite t1_body_len. replace (8 * len a + j - 8 * len a) with j by lia. f_equal.
  unfold t1_body. cbn [map concat]. rewrite <- app_assoc. apply take_app_le. rewrite encode_t1_len; lia.
Qed.
Lemma encode_t1_bytes v : bytes_ok (encode_t1 v).
Proof. unfold encode_t1. apply Forall_app; split; apply le_enc_bytes. Qed.
Lemma Forall_mid {A} (P : A -> Prop) a x b : Forall P (a ++ x :: b) -> Forall P a /\ P x.
Proof. intros H. apply Forall_app in H. destruct H as [A1 B1]. inv B1. now split. Qed.
Lemma c34 e evs m full r fr : Forall (t1_ok e) evs -> Forall (fun ev => t1_word e ev <> 0) evs ->
  0 < len evs < 2 ^ 32 -> 20 <= m ->
  let cut := m - 20 - 8 * (len evs - 1) in
  (cut < 0 -> read_T1 (take m (t1_file e evs)) full r fr = Err ValueError) /\
  (0 <= cut < 8 -> Forall (fun b => b = 0) (last_event e evs cut) ->
     read_T1 (take m (t1_file e evs)) full r fr = Err ValueError) /\
  (0 <= cut < 8 -> ~ Forall (fun b => b = 0) (last_event e evs cut) ->
     exists ws, map (t1_word e) (removelast evs) ++ [word_at (last_event e evs cut) 0] = ws /\
       read_T1 (take m (t1_file e evs)) full r fr =
         Ok (t1_convert (e mod 2 ^ 32) (map (fun v => v / 2 ^ 10) ws) full r fr, map (fun v => v mod 2 ^ 4) ws)) /\
  (8 <= cut -> read_T1 (take m (t1_file e evs)) full r fr = read_T1 (t1_file e evs) full r fr).
Proof.
  intros O N L M cut. subst cut. split; [|split; [|split]].
  - intros C. rewrite take_t1_file by assumption.
    destruct (split_at evs ((m - 20) / 8)) as (a & x & b & E & A); [lia|]. rewrite E in *.
    replace (m - 20) with (8 * len a + (m - 20) mod 8) by lia.
    rewrite take_body by lia. destruct (Forall_mid _ _ _ _ O) as [O1 _]. destruct (Forall_mid _ _ _ _ N) as [N1 _].
    rewrite read_t1_cut; [|assumption|assumption|assumption|apply Forall_take, encode_t1_bytes|rewrite len_take, encode_t1_len by lia; lia].
    cbn zeta. match goal with |- (if ?c then _ else _) = _ => replace c with false; [reflexivity|] end.
    symmetry. apply Z.eqb_neq. intros Q.
    exfalso. autorewrite with lens in *. rewrite len_map in Q.
    destruct (Z.eqb_spec (word_at (take ((m - 20) mod 8) (encode_t1 (t1_word e x))) 0) 0); autorewrite with lens in Q; pose proof (len_nonneg b); lia.
  - intros C F. rewrite take_t1_file by assumption.
    assert (NE : evs <> []) by (destruct evs; [unfold len in L; cbn [length] in L; lia|discriminate]).
    destruct (exists_last NE) as (a & x & E). rewrite E in *.
    unfold last_event in F. rewrite last_last in F.
    autorewrite with lens in *.
    replace (m - 20) with (8 * len a + (m - 20 - 8 * (len a + (1 + 0) - 1))) by lia.
    rewrite (take_body e a x []) by lia. destruct (Forall_mid _ _ _ _ O) as [O1 _]. destruct (Forall_mid _ _ _ _ N) as [N1 _].
    rewrite read_t1_cut; [|assumption|assumption|lia|apply Forall_take, encode_t1_bytes|rewrite len_take, encode_t1_len by lia; lia].
    apply word_zero_iff in F; [|apply Forall_take, encode_t1_bytes|rewrite len_take, encode_t1_len by lia; lia].
    cbn zeta. rewrite F, Z.eqb_refl, app_nil_r, len_map.
    destruct (Z.eqb_spec (len a) (len a + (1 + 0))); [lia|reflexivity].
  - intros C F. eexists; split; [reflexivity|]. rewrite take_t1_file by assumption.
    assert (NE : evs <> []) by (destruct evs; [unfold len in L; cbn [length] in L; lia|discriminate]).
    destruct (exists_last NE) as (a & x & E). rewrite E in *.
    unfold last_event in *. rewrite last_last in *. rewrite removelast_last.
    autorewrite with lens in *. set (j := m - 20 - 8 * (len a + (1 + 0) - 1)) in *.
    replace (m - 20) with (8 * len a + j) by lia.
    rewrite (take_body e a x []) by lia. destruct (Forall_mid _ _ _ _ O) as [O1 _]. destruct (Forall_mid _ _ _ _ N) as [N1 _].
    rewrite read_t1_cut; [|assumption|assumption|lia|apply Forall_take, encode_t1_bytes|rewrite len_take, encode_t1_len by lia; lia].
    rewrite <- word_zero_iff in F; [|apply Forall_take, encode_t1_bytes|rewrite len_take, encode_t1_len by lia; lia].
    cbn zeta. destruct (Z.eqb_spec (word_at (take j (encode_t1 (t1_word e x))) 0) 0) as [|_]; [contradiction|].
    autorewrite with lens. rewrite len_map, Z.eqb_refl. reflexivity.
  - intros C. rewrite take_t1_file by assumption.
    rewrite take_app_ge by (rewrite t1_body_len; lia). rewrite t1_body_len.
    set (k := m - 20 - 8 * len evs).
    destruct (Z.le_gt_cases 8 k).
    + rewrite (take_all k) by (change (len (repeat 0 8)) with 8; lia). reflexivity.
    + assert (F : Forall (fun b => b = 0) (take k (repeat 0 8))) by (apply Forall_take; repeat constructor).
      assert (B : bytes_ok (take k (repeat 0 8))) by (eapply Forall_impl; [|exact F]; intros b ->; split; lia).
      assert (K : len (take k (repeat 0 8)) < 8) by (rewrite len_take by lia; lia).
      rewrite read_t1_cut by assumption.
      apply word_zero_iff in F; [|assumption|lia].
      cbn zeta. rewrite F, Z.eqb_refl, app_nil_r, len_map, Z.eqb_refl.
      rewrite read_t1_file by (assumption || lia). rewrite !map_map. f_equal. f_equal; [f_equal|].
      * apply map_ext_in. intros ev I. apply t1_word_time. eapply Forall_forall; eauto.
      * apply map_ext_in. intros ev I. apply t1_word_det. eapply Forall_forall; eauto.
Qed.
