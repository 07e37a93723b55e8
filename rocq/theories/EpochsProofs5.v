(** T3 files. *)
From Coq Require Import QArith Lqa ZifyBool Qabs.
From Verif Require Import Float Base TimestampsModel TimestampsSpec TimestampsProofs2 EpochsModel EpochsSpec EpochsStatements EpochsProofs EpochsProofs2.
Local Open Scope Z_scope.
Ltac Zify.zify_post_hook ::= Z.div_mod_to_equations.

Lemma T3_header_ok tag e n b body : 0 <= n < 2 ^ 32 ->
  exists w, read_T3_header [] (t3_header tag e n b ++ body) =
    Ok (mkHead (s32 tag) (e mod 2 ^ 32) n (s32 b) 0 0, w).
Proof.
  intros N. eexists. unfold read_T3_header.
  rewrite take_app_exact by (unfold t3_header; autorewrite with lens; rewrite !le_enc_len; reflexivity).
  unfold unpack. replace (len (t3_header tag e n b)) with 16
    by (unfold t3_header; autorewrite with lens; rewrite !le_enc_len; reflexivity).
  change (16 =? 4 * len [true; false; false; true]) with true. cbv iota. cbn [bind].
  unfold t3_header. rewrite !fields_cons. rewrite <- (app_nil_r (le_enc 4 b)), fields_cons.
  rewrite (Z.mod_small n) by lia. reflexivity.
Qed.
Lemma T3_drop tag e n b body : drop 16 (t3_header tag e n b ++ body) = body.
Proof. apply drop_app_exact. unfold t3_header; autorewrite with lens; rewrite !le_enc_len; reflexivity. Qed.
Lemma T3_short file : len file < 16 -> read_T3 file = Err StructError.
Proof.
  intros L. unfold read_T3, read_T3_header, unpack. rewrite take_all by lia.
  replace (len file =? 4 * len [true; false; false; true]) with false; [reflexivity|].
  change (4 * len [true; false; false; true]) with 16. lia.
Qed.

(** ** Reading the words *)
Lemma word4 a b c d : bytes_ok [a; b; c; d] -> rev (le_enc 4 (le_dec [a; b; c; d])) = [d; c; b; a].
Proof. intros B. change 4%nat with (length [a; b; c; d]). now rewrite le_enc_dec. Qed.
Lemma byte_shift l f i : 0 <= i -> byte_at (l ++ f) (len l + i) = byte_at f i.
Proof. intros I. unfold byte_at, len. rewrite app_nth2 by lia. f_equal. lia. Qed.
Lemma entry_shift a b c d f i : 0 <= i -> t3_entry (a :: b :: c :: d :: f) (4 + i) = t3_entry f i.
Proof.
  intros I. unfold t3_entry. rewrite <- (byte_shift [a; b; c; d] f) by lia.
  f_equal. change (len [a; b; c; d]) with 4. lia.
Qed.
Lemma seq_map_add k n : forall a, map (fun i => (k + i)%nat) (seq a n) = seq (a + k) n.
Proof. induction n as [|n IH]; intros a; cbn [seq map]; [reflexivity|]. f_equal; [lia|apply (IH (S a))]. Qed.
Lemma entries_cons a b c d f n : 0 <= n -> t3_entries (a :: b :: c :: d :: f) (4 + n) = d :: c :: b :: a :: t3_entries f n.
Proof.
  intros N. unfold t3_entries. replace (Z.to_nat (4 + n)) with (4 + Z.to_nat n)%nat by lia.
  rewrite seq_app, map_app. change (d :: c :: b :: a :: ?t) with ([d; c; b; a] ++ t). f_equal.
  rewrite <- (seq_map_add 4). rewrite map_map.
  apply map_ext_in. intros i _. rewrite <- (entry_shift a b c d f) by lia. f_equal. lia.
Qed.
(** the last word of the body, or the four zeros of line 470 *)
Definition last_word (f last : list Z) : list Z := match f with [] => last | _ => rev (drop (len f - 4) f) end.
Lemma t3_words_ok k : forall fuel f last, len f = 4 * Z.of_nat k -> bytes_ok f -> (k < fuel)%nat ->
  t3_words fuel f last = Ok (t3_entries f (len f), last_word f last).
Proof.
  induction k as [|k IH]; intros fuel f last L B K.
  - destruct f; [|unfold len in L; cbn [length] in L; lia]. destruct fuel; [lia|]. reflexivity.
  - destruct fuel; [lia|]. destruct f as [|a [|b [|c [|d f]]]]; try (unfold len in L; cbn [length] in L; lia).
    assert (L' : len f = 4 * Z.of_nat k) by (unfold len in *; cbn [length] in L; lia).
    assert (B4 : bytes_ok [a; b; c; d] /\ bytes_ok f).
    { change (a :: b :: c :: d :: f) with ([a; b; c; d] ++ f) in B. now apply Forall_app in B. }
    destruct B4 as [B4 Bf].
    cbn [t3_words]. unfold fread. change (take 4 (a :: b :: c :: d :: f)) with [a; b; c; d].
    change (drop 4 (a :: b :: c :: d :: f)) with f. cbv iota. change (len [a; b; c; d] =? 4) with true. cbv iota.
    rewrite word4 by assumption. rewrite (IH fuel f _ L' Bf) by lia. cbn [bind].
    replace (len (a :: b :: c :: d :: f)) with (4 + len f) by (unfold len; cbn [length]; lia).
    rewrite entries_cons by (pose proof (len_nonneg f); lia). cbn [app].
    f_equal. f_equal. unfold last_word. destruct f as [|x f'] eqn:Ef; [reflexivity|]. rewrite <- Ef in *. f_equal.
    replace (4 + len f - 4) with (4 + (len f - 4)) by lia.
    assert (0 <= len f - 4) by (rewrite L'; assert (len f > 0) by (subst f; unfold len; cbn [length]; lia); lia).
    replace (len (a :: b :: c :: d :: f) - 4) with (4 + (len f - 4)) by (unfold len; cbn [length]; lia).
    rewrite Z.add_comm, <- drop_drop by lia. reflexivity.
Qed.
Lemma t3_words_bad k : forall fuel f last, len f = 4 * Z.of_nat k + len f mod 4 -> 0 < len f mod 4 -> (k < fuel)%nat ->
  t3_words fuel f last = Err StructError.
Proof.
  induction k as [|k IH]; intros fuel f last L M K; (destruct fuel; [lia|]); cbn [t3_words]; unfold fread.
  - destruct f as [|a f]; [unfold len in M; cbn in M; lia|]. rewrite take_all by lia.
    replace (len (a :: f) =? 4) with false by lia. reflexivity.
  - destruct f as [|a [|b [|c [|d f]]]]; try (unfold len in L; cbn [length] in L; lia).
    change (take 4 (a :: b :: c :: d :: f)) with [a; b; c; d].
    change (drop 4 (a :: b :: c :: d :: f)) with f. cbv iota. change (len [a; b; c; d] =? 4) with true. cbv iota.
    assert (X : len (a :: b :: c :: d :: f) = 4 + len f) by (unfold len; cbn [length]; lia).
    rewrite (IH fuel f) by lia. reflexivity.
Qed.

(** ** Counting *)
Definition both (v : Z) : bool := single (alice v) && single (bob v).
Definition row (a b v : Z) : bool := (alice v =? 2 ^ a) && (bob v =? 2 ^ b).
Definition one (f : Z -> bool) (v : Z) : Z := if f v then 1 else 0.
Definition tables_agree (v : Z) : bool :=
  let a := nth (Z.to_nat (Z.land (Z.shiftr v 4) 15)) decode_tbl 0 in
  let b := nth (Z.to_nat (Z.land v 15)) decode_tbl 0 in
  Bool.eqb (0 <=? a) (single (alice v)) && Bool.eqb (0 <=? b) (single (bob v)) &&
  (if both v then row a b v && (a <? 4) && (b <? 4) &&
     forallb (fun i => Bool.eqb (row (Z.of_nat i / 4) (Z.of_nat i mod 4) v) (Z.of_nat i =? a * 4 + b)) (seq 0 16)
   else forallb (fun i => negb (row (Z.of_nat i / 4) (Z.of_nat i mod 4) v)) (seq 0 16)).
Lemma tables_ok v : 0 <= v < 256 -> tables_agree v = true.
Proof.
  intros H. assert (A : forallb (fun i => tables_agree (Z.of_nat i)) (seq 0 256) = true) by (vm_compute; reflexivity).
  rewrite forallb_forall in A. specialize (A (Z.to_nat v)). rewrite Z2Nat.id in A by lia. apply A, in_seq. lia.
Qed.
Lemma incr_length i : forall l, length (incr i l) = length l.
Proof. induction i; intros [|x l]; cbn [incr length]; auto. Qed.
Lemma incr_nth i : forall l j, (i < length l)%nat -> nth j (incr i l) 0 = nth j l 0 + (if Nat.eqb i j then 1 else 0).
Proof.
  induction i; intros [|x l] j H; cbn [length] in H; try lia; cbn [incr].
  - destruct j; cbn [nth Nat.eqb]; lia.
  - destruct j; cbn [nth Nat.eqb]; [lia|]. apply IHi. lia.
Qed.
Lemma count_cons f v vs : count f (v :: vs) = one f v + count f vs.
Proof. unfold count, one. cbn [filter]. destruct (f v); autorewrite with lens; unfold len; cbn [length]; lia. Qed.
Lemma t3_count_one s v : 0 <= v < 256 -> length (coinc s) = 16%nat ->
  length (coinc (t3_count s v)) = 16%nat /\
  (forall i, (i < 16)%nat -> nth i (coinc (t3_count s v)) 0 = nth i (coinc s) 0 + one (row (Z.of_nat i / 4) (Z.of_nat i mod 4)) v) /\
  okcount (t3_count s v) = okcount s + one both v /\
  garbageA (t3_count s v) = garbageA s + one (fun v => negb (single (alice v))) v /\
  garbageB (t3_count s v) = garbageB s + one (fun v => negb (single (bob v))) v /\
  qber (t3_count s v) = qber s /\ size_warning (t3_count s v) = size_warning s.
Proof.
  intros V L. pose proof (tables_ok v V) as A. unfold tables_agree in A. cbv zeta in A. unfold t3_count. cbv zeta.
  set (a := nth (Z.to_nat (Z.land (Z.shiftr v 4) 15)) decode_tbl 0) in *.
  set (b := nth (Z.to_nat (Z.land v 15)) decode_tbl 0) in *. clearbody a b.
  apply andb_true_iff in A. destruct A as [A C]. apply andb_true_iff in A. destruct A as [Ea Eb].
  apply Bool.eqb_prop in Ea, Eb. unfold one, both in *. rewrite Ea, Eb. rewrite <- Ea, <- Eb in *.
  destruct (0 <=? a) eqn:PA; destruct (0 <=? b) eqn:PB; cbn [andb negb] in *;
    cbn [coinc garbageA garbageB okcount qber size_warning].
  - apply andb_true_iff in C. destruct C as [C F]. rewrite forallb_forall in F.
    assert (a < 4 /\ b < 4) as [A4 B4] by lia.
    split; [now rewrite incr_length|]. split; [|repeat split; lia].
    intros i I. rewrite incr_nth by lia. f_equal. specialize (F i ltac:(apply in_seq; lia)). apply Bool.eqb_prop in F.
    rewrite F. destruct (Nat.eqb_spec (Z.to_nat (a * 4 + b)) i); destruct (Z.eqb_spec (Z.of_nat i) (a * 4 + b)); lia.
  - rewrite forallb_forall in C. split; [assumption|]. split; [|replace (a <? 0) with false by lia; replace (b <? 0) with true by lia; repeat split; lia].
    intros i I. specialize (C i ltac:(apply in_seq; lia)). apply negb_true_iff in C. rewrite C. lia.
  - rewrite forallb_forall in C. split; [assumption|]. split; [|replace (a <? 0) with true by lia; replace (b <? 0) with false by lia; repeat split; lia].
    intros i I. specialize (C i ltac:(apply in_seq; lia)). apply negb_true_iff in C. rewrite C. lia.
  - rewrite forallb_forall in C. split; [assumption|]. split; [|replace (a <? 0) with true by lia; replace (b <? 0) with true by lia; repeat split; lia].
    intros i I. specialize (C i ltac:(apply in_seq; lia)). apply negb_true_iff in C. rewrite C. lia.
Qed.
Lemma t3_fold vs : forall s, Forall (fun v => 0 <= v < 256) vs -> length (coinc s) = 16%nat ->
  let t := fold_left t3_count vs s in
  length (coinc t) = 16%nat /\
  (forall i, (i < 16)%nat -> nth i (coinc t) 0 = nth i (coinc s) 0 + cell (Z.of_nat i / 4) (Z.of_nat i mod 4) vs) /\
  okcount t = okcount s + count both vs /\
  garbageA t = garbageA s + count (fun v => negb (single (alice v))) vs /\
  garbageB t = garbageB s + count (fun v => negb (single (bob v))) vs /\
  qber t = qber s /\ size_warning t = size_warning s.
Proof.
  induction vs as [|v vs IH]; intros s F L; cbn zeta; cbn [fold_left].
  - split; [assumption|]. unfold cell, count. cbn [filter]. change (len (@nil Z)) with 0. split; [intros; lia|repeat split; lia].
  - assert (F1 := Forall_inv F). assert (F2 := Forall_inv_tail F). clear F. cbn beta in F1.
    destruct (t3_count_one s v F1 L) as (L1 & C1 & K1 & A1 & B1 & Q1 & W1).
    destruct (IH (t3_count s v) F2 L1) as (L2 & C2 & K2 & A2 & B2 & Q2 & W2). cbn zeta in *.
    split; [assumption|]. unfold cell in *. rewrite !count_cons.
    split; [|repeat split; try congruence; lia].
    intros i I. rewrite count_cons. rewrite C2, C1 by assumption. unfold row. lia.
Qed.
Lemma firstn_entries body n m : 0 <= n <= m -> take n (t3_entries body m) = t3_entries body n.
Proof.
  intros H. unfold t3_entries, take. rewrite firstn_map. f_equal.
  replace (Z.to_nat m) with (Z.to_nat n + Z.to_nat (m - n))%nat by lia. rewrite seq_app, firstn_app, seq_length, Nat.sub_diag.
  cbn [firstn]. rewrite app_nil_r. apply firstn_all2. rewrite seq_length. lia.
Qed.
Lemma entries_bytes body n : bytes_ok body -> Forall (fun v => 0 <= v < 256) (t3_entries body n).
Proof.
  intros B. apply Forall_forall. intros v I. unfold t3_entries in I. apply in_map_iff in I. destruct I as (i & <- & _).
  unfold t3_entry, byte_at. destruct (nth_in_or_default (Z.to_nat (4 * (Z.of_nat i / 4) + 3 - Z.of_nat i mod 4)) body 0) as [I|E].
  - exact (proj1 (Forall_forall _ _) B _ I).
  - rewrite E. lia.
Qed.
Lemma entries_len body n : 0 <= n -> len (t3_entries body n) = n.
Proof. intros. unfold t3_entries, len. rewrite map_length, seq_length. lia. Qed.

(** counting every pair of single detectors once *)
Lemma both_cells v : 0 <= v < 256 ->
  one both v = fold_right Z.add 0 (map (fun i => one (row (Z.of_nat i / 4) (Z.of_nat i mod 4)) v) (seq 0 16)).
Proof.
  intros H.
  assert (A : forallb (fun j => let v := Z.of_nat j in
      one both v =? fold_right Z.add 0 (map (fun i => one (row (Z.of_nat i / 4) (Z.of_nat i mod 4)) v) (seq 0 16)))
      (seq 0 256) = true) by (vm_compute; reflexivity).
  rewrite forallb_forall in A. specialize (A (Z.to_nat v) ltac:(apply in_seq; lia)). cbv zeta in A. rewrite Z2Nat.id in A by lia. lia.
Qed.
Lemma sum_add {A} (f g : A -> Z) l : fold_right Z.add 0 (map (fun i => f i + g i) l) = fold_right Z.add 0 (map f l) + fold_right Z.add 0 (map g l).
Proof. induction l; cbn [map fold_right]; lia. Qed.
Lemma count_both vs : Forall (fun v => 0 <= v < 256) vs ->
  count both vs = fold_right Z.add 0 (map (fun i => cell (Z.of_nat i / 4) (Z.of_nat i mod 4) vs) (seq 0 16)).
Proof.
  induction vs as [|v vs IH]; intros F; [reflexivity|].
  rewrite count_cons, both_cells by exact (Forall_inv F). rewrite IH by exact (Forall_inv_tail F).
  rewrite <- sum_add. f_equal. apply map_ext. intros i. unfold cell. rewrite count_cons. reflexivity.
Qed.
Lemma sum_nths l : fold_right Z.add 0 l = fold_right Z.add 0 (map (fun i => nth i l 0) (seq 0 (length l))).
Proof.
  f_equal. induction l as [|x l IH]; [reflexivity|]. cbn [length seq map nth]. f_equal. rewrite <- seq_shift, map_map. exact IH.
Qed.

(** ** The quantum bit error ratio *)
Lemma round3_near x : (0 <= x <= 1)%Q -> exists k, 0 <= k <= 1000 /\ round3 x = fl 53 (inject_Z k / 1000)%Q /\
  (Qabs (inject_Z k / 1000 - x) <= 1 # 2000)%Q.
Proof.
  intros [A B]. exists (rneQ (x * 1000)).
  assert (L : 0 <= rneQ (x * 1000)).
  { rewrite <- (rneQ_inject 0). apply rneQ_mono. change (inject_Z 0) with 0%Q. lra. }
  assert (U : rneQ (x * 1000) <= 1000).
  { apply Z.le_trans with (rneQ (inject_Z 1000)); [apply rneQ_mono; change (inject_Z 1000) with (1000 # 1)%Q; lra|rewrite rneQ_inject; lia]. }
  split; [lia|]. split; [reflexivity|].
  pose proof (rneQ_err (x * 1000)) as E. apply Qabs_Qle_condition in E. apply Qabs_Qle_condition.
  set (k := inject_Z (rneQ (x * 1000))) in *. clearbody k. setoid_replace (k / 1000)%Q with (k * (1 # 1000))%Q by (field; discriminate). lra.
Qed.
Lemma qber_ok er gd : 0 <= er -> 0 <= gd -> er + gd <> 0 ->
  let q := round3 (fl 53 (inject_Z er / inject_Z (er + gd))%Q) in
  (0 <= q <= 1)%Q /\ (Qabs (q - inject_Z er / inject_Z (er + gd)) <= (1 # 2000) + pow2 (- 52))%Q.
Proof.
  intros A B C. cbn zeta. set (x := (inject_Z er / inject_Z (er + gd))%Q).
  assert (X : (0 <= x <= 1)%Q).
  { assert (P : (0 < inject_Z (er + gd))%Q) by (change 0%Q with (inject_Z 0); rewrite <- Zlt_Qlt; lia).
    subst x. split.
    - apply Qle_shift_div_l; [assumption|]. rewrite Qmult_0_l. change 0%Q with (inject_Z 0). rewrite <- Zle_Qle. lia.
    - apply Qle_shift_div_r; [assumption|]. rewrite Qmult_1_l. rewrite <- Zle_Qle. lia. }
  clearbody x.
  assert (FX : (0 <= fl 53 x <= 1)%Q).
  { split; [rewrite <- (fl_0 53 0) by reflexivity|rewrite <- (fl_int 53 1) by lia]; apply fl_mono; try lia; apply X. }
  pose proof (fl_err 53 x) as E1. rewrite (Qabs_pos x) in E1 by apply X. apply Qabs_Qle_condition in E1.
  destruct (round3_near _ FX) as (k & K & -> & E2). apply Qabs_Qle_condition in E2.
  assert (KQ : (0 <= inject_Z k / 1000 <= 1)%Q).
  { setoid_replace (inject_Z k / 1000)%Q with (inject_Z k * (1 # 1000))%Q by (field; discriminate).
    assert (0 <= inject_Z k <= 1000)%Q by (split; [change 0%Q with (inject_Z 0)|change (1000 # 1)%Q with (inject_Z 1000)]; rewrite <- Zle_Qle; lia). lra. }
  set (y := (inject_Z k / 1000)%Q) in *. clearbody y.
  split.
  - split; [rewrite <- (fl_0 53 0) by reflexivity|rewrite <- (fl_int 53 1) by lia]; apply fl_mono; try lia; apply KQ.
  - pose proof (fl_err 53 y) as E3. rewrite (Qabs_pos y) in E3 by apply KQ. apply Qabs_Qle_condition in E3. apply Qabs_Qle_condition.
    set (u := fl 53 x) in *. set (v := fl 53 y) in *. clearbody u v.
    change (pow2 (Z.opp 53)) with (1 # 9007199254740992)%Q in *.
    match goal with |- context [pow2 ?z] => change (pow2 z) with (1 # 4503599627370496)%Q end. lra.
Qed.
Lemma count_nonneg f l : 0 <= count f l.
Proof. unfold count. apply len_nonneg. Qed.

(** ** C40 *)
Lemma count_rev f l : count f (rev l) = count f l.
Proof. induction l as [|x l IH]; [reflexivity|]. cbn [rev]. unfold count in *. rewrite filter_app, len_app, IH. cbn [filter]. destruct (f x); autorewrite with lens; unfold len; cbn [length]; lia. Qed.
Lemma sum16 m vs : (forall i, (i < 16)%nat -> nth i m 0 = nth i (repeat 0 16) 0 + cell (Z.of_nat i / 4) (Z.of_nat i mod 4) vs) ->
  sum_at m [0; 5; 10; 15]%nat = errors vs /\ sum_at m [2; 7; 8; 13]%nat = goods vs.
Proof.
  intros H. unfold sum_at, errors, goods. cbn [map fold_right]. rewrite !H by lia. cbn [nth repeat].
  change (Z.of_nat 0 / 4) with 0. change (Z.of_nat 0 mod 4) with 0. change (Z.of_nat 5 / 4) with 1. change (Z.of_nat 5 mod 4) with 1.
  change (Z.of_nat 10 / 4) with 2. change (Z.of_nat 10 mod 4) with 2. change (Z.of_nat 15 / 4) with 3. change (Z.of_nat 15 mod 4) with 3.
  change (Z.of_nat 2 / 4) with 0. change (Z.of_nat 2 mod 4) with 2. change (Z.of_nat 7 / 4) with 1. change (Z.of_nat 7 mod 4) with 3.
  change (Z.of_nat 8 / 4) with 2. change (Z.of_nat 8 mod 4) with 0. change (Z.of_nat 13 / 4) with 3. change (Z.of_nat 13 mod 4) with 1.
  lia.
Qed.
Lemma c40 tag e n b body : bytes_ok body -> len body mod 4 = 0 -> 0 <= n <= len body -> n < 2 ^ 32 ->
  exists s, read_T3 (t3_header tag e n b ++ body) = Ok (mkHead (s32 tag) (e mod 2 ^ 32) n (s32 b) 0 0, s) /\
    t3_report n body (t3_entries body n) s.
Proof.
  intros B M N N32. unfold read_T3.
  destruct (T3_header_ok tag e n b body) as [w E]; [lia|]. rewrite E. cbn [bind]. cbn [h_length]. rewrite T3_drop.
  assert (LH : len (t3_header tag e n b ++ body) = 16 + len body)
    by (unfold t3_header; autorewrite with lens; rewrite !le_enc_len; lia).
  rewrite (t3_words_ok (Z.to_nat (len body / 4))); [|pose proof (len_nonneg body); lia|assumption|unfold len in *; lia].
  cbn [bind]. rewrite entries_len by lia. replace (len body <? n) with false by lia.
  rewrite firstn_entries by lia. set (vs := t3_entries body n).
  assert (V : Forall (fun v => 0 <= v < 256) vs) by (subst vs; now apply entries_bytes).
  set (W := negb (n =? len body - len (filter (Z.eqb 0) (last_word body [0; 0; 0; 0])))).
  destruct (t3_fold vs (mkService (repeat 0 16) 0 0 0 (1 # 2) W) V eq_refl) as (L2 & C2 & K2 & A2 & B2 & Q2 & W2).
  cbn [coinc okcount garbageA garbageB qber size_warning] in *.
  set (s := fold_left t3_count vs (mkService (repeat 0 16) 0 0 0 (1 # 2) W)) in *. clearbody s.
  destruct (sum16 _ _ C2) as [-> ->].
  assert (CC : forall a c, 0 <= a < 4 -> 0 <= c < 4 -> nth (Z.to_nat (4 * a + c)) (coinc s) 0 = cell a c vs).
  { intros a c A0 C0. rewrite C2 by lia. rewrite Z2Nat.id by lia.
    replace ((4 * a + c) / 4) with a by lia. replace ((4 * a + c) mod 4) with c by lia.
    replace (nth (Z.to_nat (4 * a + c)) (repeat 0 16) 0) with 0; [lia|].
    symmetry. apply nth_repeat. }
  assert (SUM : okcount s = fold_right Z.add 0 (coinc s)).
  { rewrite K2. rewrite Z.add_0_l, count_both by assumption. rewrite (sum_nths (coinc s)), L2. f_equal. apply map_ext_in.
    intros i I. apply in_seq in I. rewrite C2 by lia. rewrite nth_repeat. lia. }
  assert (WW : W = true <-> n <> len body - (if len body =? 0 then 4 else count (Z.eqb 0) (drop (len body - 4) body))).
  { subst W. unfold last_word. destruct body as [|x body0] eqn:Eb.
    - change (len [] =? 0) with true. cbv iota. change (len (filter (Z.eqb 0) [0; 0; 0; 0])) with 4. lia.
    - rewrite <- Eb in *. replace (len body =? 0) with false by (subst body; unfold len; cbn [length]; lia).
      fold (count (Z.eqb 0) (rev (drop (len body - 4) body))). rewrite count_rev. lia. }
  assert (EN : 0 <= errors vs /\ 0 <= goods vs).
  { unfold errors, goods, cell. split; repeat apply Z.add_nonneg_nonneg; apply count_nonneg. }
  destruct (Z.eqb_spec (errors vs + goods vs) 0) as [Z0|Z0]; (eexists; split; [reflexivity|]); unfold t3_report;
    cbn [coinc okcount garbageA garbageB qber size_warning].
  - split; [assumption|]. split; [assumption|]. split; [rewrite K2; reflexivity|]. split; [assumption|].
    split; [lia|]. split; [lia|]. split; [intros _; rewrite Q2; reflexivity|]. split; [intros X; contradiction|]. rewrite W2. exact WW.
  - split; [assumption|]. split; [assumption|]. split; [rewrite K2; reflexivity|]. split; [assumption|].
    split; [lia|]. split; [lia|]. split; [intros X; contradiction|]. split; [|rewrite W2; exact WW].
    intros _. apply qber_ok; [apply EN|apply EN|assumption].
Qed.
Lemma c40_index tag e n b body : bytes_ok body -> len body mod 4 = 0 -> len body < n < 2 ^ 32 ->
  read_T3 (t3_header tag e n b ++ body) = Err IndexError.
Proof.
  intros B M N. unfold read_T3. pose proof (len_nonneg body) as P.
  destruct (T3_header_ok tag e n b body) as [w E]; [lia|]. rewrite E. cbn [bind]. cbn [h_length]. rewrite T3_drop.
  assert (LH : len (t3_header tag e n b ++ body) = 16 + len body)
    by (unfold t3_header; autorewrite with lens; rewrite !le_enc_len; lia).
  rewrite (t3_words_ok (Z.to_nat (len body / 4))); [|lia|assumption|unfold len in *; lia].
  cbn [bind]. rewrite entries_len by lia. replace (len body <? n) with true by lia. reflexivity.
Qed.
Lemma c40_struct tag e n b body : 0 <= n < 2 ^ 32 -> len body mod 4 <> 0 ->
  read_T3 (t3_header tag e n b ++ body) = Err StructError.
Proof.
  intros N M. unfold read_T3. pose proof (len_nonneg body) as P.
  destruct (T3_header_ok tag e n b body) as [w E]; [lia|]. rewrite E. cbn [bind]. cbn [h_length]. rewrite T3_drop.
  assert (LH : len (t3_header tag e n b ++ body) = 16 + len body)
    by (unfold t3_header; autorewrite with lens; rewrite !le_enc_len; lia).
  rewrite (t3_words_bad (Z.to_nat (len body / 4))); [reflexivity|lia|lia|unfold len in *; lia].
Qed.
