(** Bit streams: extract_bits and the decoding loops of T2 and T4. *)
From Coq Require Import QArith ZifyBool.
From Verif Require Import Float Base TimestampsModel TimestampsSpec EpochsModel EpochsSpec EpochsProofs.
Local Open Scope Z_scope.
Ltac Zify.zify_post_hook ::= Z.div_mod_to_equations.

Lemma b2z_range b : 0 <= Z.b2z b <= 1. Proof. destruct b; cbn; lia. Qed.
Lemma field_range body p w : 0 <= field body p w < 2 ^ Z.of_nat w.
Proof.
  induction w as [|w IH]; cbn [field]; [cbn; lia|].
  replace (Z.of_nat (S w)) with (Z.succ (Z.of_nat w)) by lia. rewrite Z.pow_succ_r by lia.
  pose proof (b2z_range (bit_at body (p + Z.of_nat w))). lia.
Qed.
Lemma field_app body p a b :
  field body p (a + b) = field body p a * 2 ^ Z.of_nat b + field body (p + Z.of_nat a) b.
Proof.
  induction b as [|b IH]; cbn [field].
  - rewrite Nat.add_0_r. cbn [Z.of_nat]. change (2 ^ 0) with 1. lia.
  - rewrite Nat.add_succ_r. cbn [field]. rewrite IH.
    replace (Z.of_nat (S b)) with (Z.succ (Z.of_nat b)) by lia. rewrite Z.pow_succ_r by lia.
    replace (p + Z.of_nat (a + b)) with (p + Z.of_nat a + Z.of_nat b) by lia. ring.
Qed.
(** if the bits at [p] are the leading bits of the [w]-bit number [v] *)
Lemma field_number body p w v n : 0 <= v < 2 ^ w -> 0 <= w -> Z.of_nat n <= w ->
  (forall i, 0 <= i < Z.of_nat n -> bit_at body (p + i) = Z.testbit v (w - 1 - i)) ->
  field body p n = v / 2 ^ (w - Z.of_nat n).
Proof.
  intros V W. induction n as [|n IH]; intros L B; cbn [field].
  - cbn [Z.of_nat]. rewrite Z.sub_0_r, Z.div_small; lia.
  - rewrite IH by (intros; try apply B; lia). rewrite B by lia.
    replace (w - 1 - Z.of_nat n) with (w - Z.of_nat (S n)) by lia.
    remember (w - Z.of_nat (S n)) as m eqn:Em. replace (w - Z.of_nat n) with (Z.succ m) by lia.
    rewrite Z.testbit_spec' by lia. rewrite Z.pow_succ_r by lia.
    rewrite (Z.mul_comm 2 (2 ^ m)), <- Z.div_div by (try apply Z.pow_nonzero; lia).
    pose proof (Z.div_mod (v / 2 ^ m) 2). lia.
Qed.
Lemma field_word body k : bytes_ok body -> 0 <= k -> field body (32 * k) 32 = u32_at body (4 * k).
Proof.
  intros B K. rewrite (field_number body (32 * k) 32 (u32_at body (4 * k))).
  - change (32 - Z.of_nat 32) with 0. change (2 ^ 0) with 1. apply Z.div_1_r.
  - now apply u32_at_range.
  - lia.
  - lia.
  - intros i I. unfold bit_at. replace ((32 * k + i) / 32) with k by lia.
    replace ((32 * k + i) mod 32) with i by lia. f_equal; lia.
Qed.

(** ** State of the extraction at bit [p] *)
Definition St (body : list Z) (p buffer size : Z) (f : option (list Z)) : Prop :=
  0 <= p /\ 0 <= size < 32 /\ (p + size) mod 32 = 0 /\ buffer = field body p (Z.to_nat size) /\
  f = Some (drop (4 * ((p + size) / 32)) body).
Lemma St_0 body : St body 0 0 0 (Some body).
Proof. repeat split; try lia. Qed.
Lemma extract_st body p w buffer size f : bytes_ok body -> St body p buffer size f -> 0 <= w <= 32 ->
  exists b' s' f', extract_bits w buffer size f = Ok (field body p (Z.to_nat w), b', s', f') /\ St body (p + w) b' s' f'.
Proof.
  intros B (P & S & M & -> & ->) W. unfold extract_bits, fread.
  assert (X : forall s, w <= s -> Z.shiftr (field body p (Z.to_nat s)) (s - w) = field body p (Z.to_nat w) /\
    Z.land (field body p (Z.to_nat s)) (Z.shiftl 1 (s - w) - 1) = field body (p + w) (Z.to_nat (s - w))).
  { intros s L. rewrite land_low by lia. rewrite Z.shiftr_div_pow2 by lia.
    replace (Z.to_nat s) with (Z.to_nat w + Z.to_nat (s - w))%nat by lia. rewrite field_app.
    rewrite !Z2Nat.id by lia. pose proof (field_range body (p + w) (Z.to_nat (s - w))) as R.
    rewrite Z2Nat.id in R by lia. assert (0 < 2 ^ (s - w)) by (apply Z.pow_pos_nonneg; lia). split.
    - rewrite Z.div_add_l by lia. rewrite (Z.div_small (field body (p + w) _)) by lia. lia.
    - rewrite Z.add_comm, Z.mod_add by lia. apply Z.mod_small. lia. }
  destruct (Z.ltb_spec size w).
  - remember ((p + size) / 32) as k eqn:Ek.
    assert (E : Z.shiftl (field body p (Z.to_nat size)) 32 + le_dec (take 4 (drop (4 * k) body)) = field body p (Z.to_nat (size + 32))).
    { rewrite <- u32_at_dec, <- field_word by (assumption || lia). rewrite Z.shiftl_mul_pow2 by lia.
      replace (Z.to_nat (size + 32)) with (Z.to_nat size + 32)%nat by lia. rewrite field_app.
      change (Z.of_nat 32) with 32. replace (p + Z.of_nat (Z.to_nat size)) with (32 * k) by lia. reflexivity. }
    rewrite E. replace (size + 32 - w <? 0) with false by lia.
    destruct (X (size + 32)) as [X1 X2]; [lia|]. rewrite X1, X2.
    do 3 eexists. split; [reflexivity|]. split; [lia|]. split; [lia|]. split; [lia|]. split; [reflexivity|].
    f_equal. rewrite drop_drop by lia. f_equal. lia.
  - replace (size - w <? 0) with false by lia.
    destruct (X size) as [X1 X2]; [lia|]. rewrite X1, X2.
    do 3 eexists. split; [reflexivity|]. split; [lia|]. split; [lia|]. split; [lia|]. split; [reflexivity|].
    do 3 f_equal. lia.
Qed.
Lemma extract_all_st body ws : bytes_ok body -> Forall (fun w => 0 <= w <= 32) ws ->
  forall p buffer size f, St body p buffer size f -> extract_all ws buffer size f = Ok (fields_at body p ws).
Proof.
  intros B. induction 1 as [|w ws W _ IH]; intros p b s f H; cbn [extract_all fields_at]; [reflexivity|].
  destruct (extract_st body p w b s f B H W) as (b' & s' & f' & E & H'). rewrite E. cbn [bind].
  rewrite (IH _ _ _ _ H'). reflexivity.
Qed.
Lemma c35 body ws : bytes_ok body -> Forall (fun w => 0 <= w <= 32) ws ->
  extract_all ws 0 0 (Some body) = Ok (fields_at body 0 ws).
Proof. intros B W. exact (extract_all_st body ws B W 0 0 0 (Some body) (St_0 body)). Qed.
Lemma c35_buffer msb buffer size : 0 <= msb ->
  extract_bits msb buffer size None =
    if msb <=? size then Ok (buffer / 2 ^ (size - msb), buffer mod 2 ^ (size - msb), size - msb, None) else Err ValueError.
Proof.
  intros M. unfold extract_bits. destruct (Z.leb_spec msb size).
  - replace (size - msb <? 0) with false by lia. rewrite land_low, Z.shiftr_div_pow2 by lia. reflexivity.
  - replace (size - msb <? 0) with true by lia. reflexivity.
Qed.

(** ** Entries *)
Definition wd (w : Z) : nat := Z.to_nat w.
Definition entry_at (body : list Z) (timeorder basebits p : Z) : entry :=
  let t := field body p (wd timeorder) in
  if t =? 0 then Extended (field body (p + timeorder) (wd 32)) (field body (p + timeorder + 32) (wd basebits))
  else Short t (field body (p + timeorder) (wd basebits)).
Definition width (timeorder basebits : Z) (x : entry) : Z :=
  match x with Short _ _ => timeorder + basebits | Extended _ _ => timeorder + 32 + basebits end.
Fixpoint decode (fuel : nat) (body : list Z) (timeorder basebits p : Z) : pyres (list entry) :=
  match fuel with
  | O => Err OutOfFuel
  | S k => if field body p (wd timeorder) =? 1
           then if field body (p + timeorder) (wd basebits) =? 0 then Ok [] else Err ValueError
           else let x := entry_at body timeorder basebits p in
                let* xs := decode k body timeorder basebits (p + width timeorder basebits x) in Ok (x :: xs)
  end.
Lemma decode_S k body timeorder basebits p : decode (S k) body timeorder basebits p =
  if field body p (wd timeorder) =? 1
  then if field body (p + timeorder) (wd basebits) =? 0 then Ok [] else Err ValueError
  else let x := entry_at body timeorder basebits p in
       let* xs := decode k body timeorder basebits (p + width timeorder basebits x) in Ok (x :: xs).
Proof. reflexivity. Qed.
(** floating-point running sums *)
Fixpoint fsums (t : Q) (ds : list Z) : list Q :=
  match ds with [] => [] | d :: r => let t' := fl 53 (t + inject_Z d)%Q in t' :: fsums t' r end.

Lemma Extended_inj a b c d : Extended a b = Extended c d -> a = c /\ b = d.
Proof. now inversion 1. Qed.
Section loops.
Context (body : list Z) (timeorder basebits : Z).
Context (B : bytes_ok body) (TO : 1 <= timeorder <= 32) (BB : 0 <= basebits <= 32).

Lemma t2_decode fuel : forall p t buffer size f, St body p buffer size f ->
  t2_loop fuel timeorder basebits t buffer size f =
    let* xs := decode fuel body timeorder basebits p in Ok (fsums t (map e_diff xs), map e_base xs).
Proof.
  induction fuel as [|k IH]; intros p t b s f H; [reflexivity|]. cbn [t2_loop decode].
  destruct (extract_st body p timeorder b s f B H) as (b1 & s1 & f1 & E1 & H1); [lia|]. rewrite E1. cbn [bind].
  fold (wd timeorder). destruct (Z.eqb_spec (field body p (wd timeorder)) 1) as [T|T].
  - destruct (extract_st body (p + timeorder) basebits b1 s1 f1 B H1 BB) as (b2 & s2 & f2 & E2 & H2). rewrite E2. cbn [bind].
    fold (wd basebits). destruct (field body (p + timeorder) (wd basebits) =? 0); reflexivity.
  - unfold entry_at. destruct (Z.eqb_spec (field body p (wd timeorder)) 0) as [T0|T0].
    + destruct (extract_st body (p + timeorder) 32 b1 s1 f1 B H1) as (b2 & s2 & f2 & E2 & H2); [lia|]. rewrite E2. cbn [bind]. fold (wd 32).
      destruct (extract_st body _ basebits b2 s2 f2 B H2 BB) as (b3 & s3 & f3 & E3 & H3). rewrite E3. cbn [bind].
      rewrite (IH _ _ _ _ _ H3). cbn [width].
      replace (p + (timeorder + 32 + basebits)) with (p + timeorder + 32 + basebits) by lia.
      destruct (decode k body timeorder basebits (p + timeorder + 32 + basebits)); cbn [bind map e_diff e_base fsums sums]; reflexivity.
    + cbn [bind]. destruct (extract_st body _ basebits b1 s1 f1 B H1 BB) as (b3 & s3 & f3 & E3 & H3). rewrite E3. cbn [bind].
      rewrite (IH _ _ _ _ _ H3). cbn [width].
      replace (p + (timeorder + basebits)) with (p + timeorder + basebits) by lia.
      destruct (decode k body timeorder basebits (p + timeorder + basebits)); cbn [bind map e_diff e_base fsums sums]; reflexivity.
Qed.
Lemma t4_decode fuel : forall p t buffer size f, St body p buffer size f ->
  t4_loop fuel timeorder basebits t buffer size f =
    let* xs := decode fuel body timeorder basebits p in Ok (sums t (map (fun x => e_diff x - 2) xs), map e_base xs).
Proof.
  induction fuel as [|k IH]; intros p t b s f H; [reflexivity|]. cbn [t4_loop decode].
  destruct (extract_st body p timeorder b s f B H) as (b1 & s1 & f1 & E1 & H1); [lia|]. rewrite E1. cbn [bind].
  fold (wd timeorder). destruct (Z.eqb_spec (field body p (wd timeorder)) 1) as [T|T].
  - destruct (extract_st body (p + timeorder) basebits b1 s1 f1 B H1 BB) as (b2 & s2 & f2 & E2 & H2). rewrite E2. cbn [bind].
    fold (wd basebits). destruct (field body (p + timeorder) (wd basebits) =? 0); reflexivity.
  - unfold entry_at. destruct (Z.eqb_spec (field body p (wd timeorder)) 0) as [T0|T0].
    + destruct (extract_st body (p + timeorder) 32 b1 s1 f1 B H1) as (b2 & s2 & f2 & E2 & H2); [lia|]. rewrite E2. cbn [bind]. fold (wd 32).
      destruct (extract_st body _ basebits b2 s2 f2 B H2 BB) as (b3 & s3 & f3 & E3 & H3). rewrite E3. cbn [bind].
      rewrite (IH _ _ _ _ _ H3). cbn [width].
      replace (p + (timeorder + 32 + basebits)) with (p + timeorder + 32 + basebits) by lia.
      destruct (decode k body timeorder basebits (p + timeorder + 32 + basebits)); cbn [bind map e_diff e_base fsums sums]; reflexivity.
    + cbn [bind]. destruct (extract_st body _ basebits b1 s1 f1 B H1 BB) as (b3 & s3 & f3 & E3 & H3). rewrite E3. cbn [bind].
      rewrite (IH _ _ _ _ _ H3). cbn [width].
      replace (p + (timeorder + basebits)) with (p + timeorder + basebits) by lia.
      destruct (decode k body timeorder basebits (p + timeorder + basebits)); cbn [bind map e_diff e_base fsums sums]; reflexivity.
Qed.

(** ** Bits and entries *)
Definition bits_from (p : Z) (l : list bool) : Prop :=
  forall i, 0 <= i < len l -> bit_at body (p + i) = nth (Z.to_nat i) l false.
Lemma bits_from_app p l m : bits_from p (l ++ m) <-> bits_from p l /\ bits_from (p + len l) m.
Proof.
  unfold bits_from. split.
  - intros H. split.
    + intros i I. rewrite H by (autorewrite with lens; pose proof (len_nonneg m); lia).
      apply app_nth1. unfold len in I; lia.
    + intros i I. rewrite <- Z.add_assoc, H by (autorewrite with lens; pose proof (len_nonneg l); lia).
      rewrite app_nth2 by (unfold len in *; lia). f_equal. unfold len; lia.
  - intros [H1 H2] i I. autorewrite with lens in I. destruct (Z.lt_ge_cases i (len l)).
    + rewrite H1 by lia. rewrite app_nth1 by (unfold len in *; lia). reflexivity.
    + replace (p + i) with (p + len l + (i - len l)) by lia. rewrite H2 by lia.
      rewrite app_nth2 by (unfold len in *; lia). f_equal. unfold len in *; lia.
Qed.
Lemma len_bits w v : 0 <= w -> len (bits w v) = w.
Proof. intros. unfold len, bits. rewrite map_length, seq_length. lia. Qed.
Lemma nth_bits w v i : 0 <= i < w -> nth (Z.to_nat i) (bits w v) false = Z.testbit v (w - 1 - i).
Proof.
  intros H. unfold bits. erewrite nth_indep with (d' := (fun i => Z.testbit v (w - 1 - Z.of_nat i)) 0%nat)
    by (rewrite map_length, seq_length; lia).
  rewrite (map_nth (fun i => Z.testbit v (w - 1 - Z.of_nat i))). rewrite seq_nth by lia. f_equal. lia.
Qed.
Lemma bits_field p w v : 0 <= w -> 0 <= v < 2 ^ w -> (bits_from p (bits w v) <-> field body p (wd w) = v).
Proof.
  intros W V. split.
  - intros H. unfold wd. rewrite (field_number body p w v); [|assumption|assumption|lia|].
    + rewrite Z2Nat.id, Z.sub_diag by lia. apply Z.div_1_r.
    + rewrite Z2Nat.id by lia. intros i I. rewrite H by (rewrite len_bits by lia; lia). apply nth_bits; lia.
  - intros <-. intros i I. rewrite len_bits in I by lia. rewrite nth_bits by lia.
    unfold wd. replace (Z.to_nat w) with (Z.to_nat i + (1 + Z.to_nat (w - 1 - i)))%nat by lia.
    rewrite !field_app. cbn [field]. rewrite !Z2Nat.id by lia.
    pose proof (field_range body (p + i + Z.of_nat 1) (Z.to_nat (w - 1 - i))) as R.
    rewrite Z2Nat.id in R by lia. remember (w - 1 - i) as m eqn:Em.
    replace (Z.of_nat (1 + Z.to_nat m)) with (1 + m) by lia.
    rewrite Z.pow_add_r by lia. replace (p + i + Z.of_nat 0) with (p + i) by lia.
    set (x := field body p (Z.to_nat i)). set (y := field body (p + i + Z.of_nat 1) (Z.to_nat m)) in *.
    assert (E : (x * (2 ^ 1 * 2 ^ m) + ((2 * 0 + Z.b2z (bit_at body (p + i))) * 2 ^ m + y)) / 2 ^ m
                = 2 * x + Z.b2z (bit_at body (p + i))).
    { replace (x * (2 ^ 1 * 2 ^ m) + ((2 * 0 + Z.b2z (bit_at body (p + i))) * 2 ^ m + y))
        with ((2 * x + Z.b2z (bit_at body (p + i))) * 2 ^ m + y) by ring.
      rewrite Z.div_add_l by lia. rewrite (Z.div_small y) by lia. lia. }
    apply Z.b2z_inj. rewrite Z.testbit_spec', E by lia.
    destruct (bit_at body (p + i)); cbn [Z.b2z]; lia.
Qed.
Lemma len_entry x : len (entry_bits timeorder basebits x) = width timeorder basebits x.
Proof. destruct x; cbn [entry_bits width]; autorewrite with lens; rewrite !len_bits by lia; lia. Qed.
Lemma bits_entry p x : entry_ok timeorder basebits x ->
  (bits_from p (entry_bits timeorder basebits x) <->
   field body p (wd timeorder) <> 1 /\ entry_at body timeorder basebits p = x).
Proof.
  intros [Hb Hd]. assert (P2 : 2 ^ timeorder >= 2) by (pose proof (Z.pow_le_mono_r 2 1 timeorder); lia).
  unfold entry_at. destruct x as [d b|d b]; cbn [entry_bits e_base] in *.
  - rewrite bits_from_app, len_bits, !bits_field by lia. split.
    + intros [-> ->]. split; [lia|]. destruct (Z.eqb_spec d 0); [lia|reflexivity].
    + intros [N E]. destruct (Z.eqb_spec (field body p (wd timeorder)) 0); inv E. now split.
  - rewrite !bits_from_app, !len_bits, !bits_field by lia. split.
    + intros (-> & E1 & E2). split; [lia|]. rewrite E1, E2. reflexivity.
    + intros [N E]. destruct (Z.eqb_spec (field body p (wd timeorder)) 0); [|discriminate].
      split; [assumption|].
      now apply Extended_inj in E.
Qed.
Lemma entry_at_ok p : field body p (wd timeorder) <> 1 -> entry_ok timeorder basebits (entry_at body timeorder basebits p).
Proof.
  intros N. unfold entry_at, entry_ok. pose proof (field_range body p (wd timeorder)) as R. unfold wd in *. rewrite Z2Nat.id in R by lia.
  destruct (Z.eqb_spec (field body p (Z.to_nat timeorder)) 0); cbn [e_base].
  - pose proof (field_range body (p + timeorder + 32) (Z.to_nat basebits)) as R1. rewrite Z2Nat.id in R1 by lia.
    pose proof (field_range body (p + timeorder) (Z.to_nat 32)) as R2. change (Z.of_nat (Z.to_nat 32)) with 32 in R2. tauto.
  - pose proof (field_range body (p + timeorder) (Z.to_nat basebits)) as R1. rewrite Z2Nat.id in R1 by lia. lia.
Qed.
Lemma one_ok : 0 <= 1 < 2 ^ timeorder.
Proof. pose proof (Z.pow_le_mono_r 2 1 timeorder). lia. Qed.
Lemma zero_ok w : 0 <= w -> 0 <= 0 < 2 ^ w.
Proof. intros. assert (0 < 2 ^ w) by (apply Z.pow_pos_nonneg; lia). lia. Qed.

(** entries followed by a terminator *)
Lemma decode_term xs : forall p tl, Forall (entry_ok timeorder basebits) xs ->
  bits_from p (entries_bits timeorder basebits xs ++ bits timeorder 1 ++ tl) ->
  let q := p + len (entries_bits timeorder basebits xs) + timeorder in
  forall k, decode (S (length xs) + k) body timeorder basebits p =
    if field body q (wd basebits) =? 0 then Ok xs else Err ValueError.
Proof.
  induction xs as [|x xs IH]; intros p tl F H q k; subst q.
  - cbn [entries_bits map concat app] in H. cbn [decode length Nat.add].
    apply bits_from_app in H. destruct H as [H _]. apply bits_field in H; [|lia|apply one_ok]. rewrite H.
    replace (p + len (entries_bits timeorder basebits [])) with p by (change (len (entries_bits timeorder basebits [])) with 0; lia).
    change (1 =? 1) with true. reflexivity.
  - pose proof (Forall_inv F) as FX. pose proof (Forall_inv_tail F) as FT. clear F. unfold entries_bits in *. cbn [map concat] in *. rewrite <- app_assoc in H. apply bits_from_app in H.
    destruct H as [H1 H2]. rewrite len_entry in H2. apply bits_entry in H1; [|assumption]. destruct H1 as [N E].
    change (S (length (x :: xs)) + k)%nat with (S (S (length xs) + k)). rewrite decode_S. destruct (Z.eqb_spec (field body p (wd timeorder)) 1); [contradiction|]. rewrite E. cbn zeta.
    specialize (IH _ tl FT H2 k). cbn zeta in IH.
    rewrite len_app, len_entry. rewrite IH.
    replace (p + (width timeorder basebits x + len (concat (map (entry_bits timeorder basebits) xs))) + timeorder)
      with (p + width timeorder basebits x + len (concat (map (entry_bits timeorder basebits) xs)) + timeorder) by lia.
    destruct (field body _ (wd basebits) =? 0); reflexivity.
Qed.
Lemma decode_inv fuel : forall p,
  match decode fuel body timeorder basebits p with
  | Ok xs => Forall (entry_ok timeorder basebits) xs /\ (length xs < fuel)%nat /\
             bits_from p (entries_bits timeorder basebits xs ++ terminator timeorder basebits)
  | Err OutOfFuel => True
  | Err e => e = ValueError /\ exists xs, Forall (entry_ok timeorder basebits) xs /\ (length xs < fuel)%nat /\
             bits_from p (entries_bits timeorder basebits xs ++ bits timeorder 1)
  end.
Proof.
  induction fuel as [|k IH]; intros p; cbn [decode]; [exact I|].
  destruct (Z.eqb_spec (field body p (wd timeorder)) 1) as [E|N].
  - apply (proj2 (bits_field p timeorder 1 ltac:(lia) one_ok)) in E.
    destruct (Z.eqb_spec (field body (p + timeorder) (wd basebits)) 0) as [E0|N0].
    + split; [constructor|]. split; [cbn; lia|]. unfold entries_bits, terminator; cbn [map concat app].
      apply bits_from_app. split; [exact E|]. rewrite len_bits by lia. apply bits_field; [lia|apply zero_ok; lia|assumption].
    + split; [reflexivity|]. exists []. split; [constructor|]. split; [cbn; lia|]. exact E.
  - cbn zeta. set (x := entry_at body timeorder basebits p). specialize (IH (p + width timeorder basebits x)).
    assert (OK : entry_ok timeorder basebits x) by now apply entry_at_ok.
    assert (BX : bits_from p (entry_bits timeorder basebits x)) by (apply bits_entry; [assumption|now split]).
    destruct (decode k body timeorder basebits (p + width timeorder basebits x)) as [xs|e]; cbn [bind].
    + destruct IH as (F & L & H). split; [now constructor|]. split; [cbn [length]; lia|].
      unfold entries_bits in *. cbn [map concat]. rewrite <- app_assoc. apply bits_from_app. split; [exact BX|]. now rewrite len_entry.
    + destruct e; try exact I; destruct IH as (EE & xs & F & L & H); try discriminate EE.
      split; [reflexivity|]. exists (x :: xs). split; [now constructor|]. split; [cbn [length]; lia|].
      unfold entries_bits in *. cbn [map concat]. rewrite <- app_assoc. apply bits_from_app. split; [exact BX|]. now rewrite len_entry.
Qed.
Lemma bit_over i : 32 * ((len body + 3) / 4) <= i -> bit_at body i = false.
Proof. intros H. unfold bit_at. rewrite u32_at_over by lia. apply Z.bits_0. Qed.
Lemma entries_len xs : len xs * timeorder <= len (entries_bits timeorder basebits xs).
Proof.
  induction xs as [|x xs IH]; [reflexivity|]. unfold entries_bits in *. cbn [map concat].
  rewrite len_app, len_entry, len_cons. destruct x; cbn [width]; lia.
Qed.
(** The terminator's bit is inside the file. *)
Lemma term_inside xs : bits_from 0 (entries_bits timeorder basebits xs ++ bits timeorder 1) ->
  len xs < 8 * len body + 32.
Proof.
  intros H. apply bits_from_app in H. destruct H as [_ H].
  specialize (H (timeorder - 1)). rewrite len_bits in H by lia. specialize (H ltac:(lia)).
  rewrite nth_bits in H by lia. replace (timeorder - 1 - (timeorder - 1)) with 0 in H by lia.
  change (Z.testbit 1 0) with true in H.
  destruct (Z.lt_ge_cases (0 + len (entries_bits timeorder basebits xs) + (timeorder - 1)) (32 * ((len body + 3) / 4))) as [L|L].
  - pose proof (entries_len xs). pose proof (len_nonneg xs). nia.
  - rewrite bit_over in H by assumption. discriminate.
Qed.
Lemma decode_forever : ~ has_terminator body timeorder basebits -> forall fuel, decode fuel body timeorder basebits 0 = Err OutOfFuel.
Proof.
  intros N fuel. pose proof (decode_inv fuel 0) as D.
  destruct (decode fuel body timeorder basebits 0) as [xs|e].
  - exfalso. destruct D as (F & _ & H). apply N. exists xs. split; [assumption|]. unfold terminator in H.
    rewrite app_assoc in H. apply bits_from_app in H. exact (proj1 H).
  - destruct e; try (exfalso; destruct D as (_ & xs & F & _ & H); apply N; exists xs; split; assumption). reflexivity.
Qed.
Lemma decode_enough : has_terminator body timeorder basebits ->
  exists r, r <> Err OutOfFuel /\ forall fuel, 8 * len body + 32 <= Z.of_nat fuel -> decode fuel body timeorder basebits 0 = r.
Proof.
  intros (xs & F & H). pose proof (term_inside xs H) as L.
  exists (if field body (0 + len (entries_bits timeorder basebits xs) + timeorder) (wd basebits) =? 0 then Ok xs else Err ValueError).
  split; [destruct (_ =? 0); discriminate|]. intros fuel U.
  pose proof (decode_term xs 0 [] F) as D. rewrite app_nil_r in D. specialize (D H). cbn zeta in D.
  specialize (D (fuel - S (length xs))%nat).
  replace (S (length xs) + (fuel - S (length xs)))%nat with fuel in D by (unfold len in *; lia). exact D.
Qed.
(** zeros for ever *)
Lemma decode_zeros xs : forall p, Forall (entry_ok timeorder basebits) xs ->
  bits_from p (entries_bits timeorder basebits xs) ->
  (forall i, p + len (entries_bits timeorder basebits xs) <= i -> bit_at body i = false) ->
  forall fuel, decode fuel body timeorder basebits p = Err OutOfFuel.
Proof.
  induction xs as [|x xs IH]; intros p F H Z0 fuel.
  - assert (X : forall p w, (forall i, p <= i -> bit_at body i = false) -> field body p w = 0).
    { intros p' w Z1. induction w as [|w IH]; cbn [field]; [reflexivity|]. rewrite IH, Z1 by lia. reflexivity. }
    change (len (entries_bits timeorder basebits [])) with 0 in Z0. rewrite Z.add_0_r in Z0.
    clear H F. revert p Z0. induction fuel as [|k IH]; intros p Z0; cbn [decode]; [reflexivity|].
    rewrite X by assumption. change (0 =? 1) with false. cbv iota zeta.
    rewrite IH; [reflexivity|]. intros i I. apply Z0. unfold entry_at in I. rewrite X in I by assumption. cbn in I. lia.
  - pose proof (Forall_inv F) as FX. pose proof (Forall_inv_tail F) as FT. clear F. destruct fuel as [|k]; [reflexivity|]. cbn [decode].
    unfold entries_bits in *. cbn [map concat] in *. apply bits_from_app in H.
    destruct H as [H1 H4]. rewrite len_entry in H4. apply bits_entry in H1; [|assumption]. destruct H1 as [N E].
    destruct (Z.eqb_spec (field body p (wd timeorder)) 1); [contradiction|]. rewrite E. cbn zeta.
    rewrite IH; [reflexivity|assumption|assumption|].
    intros i I. apply Z0. rewrite len_app, len_entry. lia.
Qed.
End loops.
