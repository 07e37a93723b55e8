(** T1 files: headers, decoding of any file, write_T1. *)
From Coq Require Import QArith ZifyBool.
From Verif Require Import Float Base TimestampsModel TimestampsSpec EpochsModel EpochsSpec.
Local Open Scope Z_scope.
Ltac Zify.zify_post_hook ::= Z.div_mod_to_equations.

Lemma nth_skipn {A} (l : list A) k i d : nth i (skipn k l) d = nth (k + i) l d.
Proof. revert l; induction k as [|k IH]; intros [|x l]; cbn [skipn Nat.add nth]; auto; destruct i; reflexivity. Qed.
Lemma byte_at_drop l k i : 0 <= k -> 0 <= i -> byte_at (drop k l) i = byte_at l (k + i).
Proof. intros; unfold byte_at, drop. rewrite nth_skipn. f_equal; lia. Qed.
Lemma byte_at_app_l l m i : 0 <= i < len l -> byte_at (l ++ m) i = byte_at l i.
Proof. unfold byte_at, len; intros; apply app_nth1; lia. Qed.
Lemma byte_at_app_r l m i : len l <= i -> byte_at (l ++ m) i = byte_at m (i - len l).
Proof. unfold byte_at, len; intros; rewrite app_nth2 by lia; f_equal; lia. Qed.
Lemma byte_at_over l i : len l <= i -> byte_at l i = 0.
Proof. unfold byte_at, len; intros; apply nth_overflow; lia. Qed.
Lemma byte_at_range l i : bytes_ok l -> 0 <= byte_at l i < 256.
Proof.
  intros H; unfold byte_at. destruct (nth_in_or_default (Z.to_nat i) l 0) as [I|E]; [|lia].
  eapply (proj1 (Forall_forall _ _) H) in I. exact I.
Qed.
Lemma u32_take l : u32_at l 0 = le_dec (take 4 l).
Proof.
  unfold u32_at, byte_at, take.
  change (Z.to_nat 0) with 0%nat. change (Z.to_nat (0 + 1)) with 1%nat. change (Z.to_nat (0 + 2)) with 2%nat.
  change (Z.to_nat (0 + 3)) with 3%nat. change (Z.to_nat 4) with 4%nat.
  destruct l as [|a [|b [|c [|d l]]]]; cbn [nth firstn le_dec]; lia.
Qed.
Lemma u32_drop l k i : 0 <= k -> 0 <= i -> u32_at (drop k l) i = u32_at l (k + i).
Proof. intros; unfold u32_at. rewrite !byte_at_drop by lia. rewrite !Z.add_assoc. reflexivity. Qed.
Lemma u32_at_dec l k : 0 <= k -> u32_at l k = le_dec (take 4 (drop k l)).
Proof. intros; rewrite <- u32_take, u32_drop by lia. f_equal; lia. Qed.
Lemma u32_at_range l i : bytes_ok l -> 0 <= u32_at l i < 2 ^ 32.
Proof.
  intros H; unfold u32_at.
  pose proof (byte_at_range l i H). pose proof (byte_at_range l (i + 1) H).
  pose proof (byte_at_range l (i + 2) H). pose proof (byte_at_range l (i + 3) H). lia.
Qed.
Lemma u32_at_over l i : len l <= i -> u32_at l i = 0.
Proof. intros; unfold u32_at. rewrite !byte_at_over by lia. reflexivity. Qed.
Lemma word_at_range l i : bytes_ok l -> 0 <= word_at l i < 2 ^ 64.
Proof.
  intros H; unfold word_at. pose proof (u32_at_range l (8 * i) H). pose proof (u32_at_range l (8 * i + 4) H). lia.
Qed.
Lemma word_at_drop l i : 0 <= i -> word_at (drop 8 l) i = word_at l (i + 1).
Proof.
  intros; unfold word_at. rewrite !u32_drop by lia. do 2 f_equal; [f_equal|]; lia.
Qed.
Lemma word_at_over l i : len l <= 8 * i -> word_at l i = 0.
Proof. intros; unfold word_at. rewrite !u32_at_over by lia. reflexivity. Qed.

(** The event words of a body up to the first zero word. *)
Definition nwords (body : list Z) (n : nat) : list Z := map (fun i => word_at body (Z.of_nat i)) (seq 0 n).
Lemma nwords_S body n : nwords body (S n) = word_at body 0 :: nwords (drop 8 body) n.
Proof.
  unfold nwords. cbn [seq map]. f_equal. rewrite <- seq_shift, map_map. apply map_ext; intros i.
  rewrite word_at_drop by lia. f_equal; lia.
Qed.
Lemma t1_events_spec fuel body : len body + 8 <= 8 * Z.of_nat fuel ->
  exists n, t1_events fuel body = Ok (map (fun v => v / 2 ^ 10) (nwords body n), map (fun v => v mod 2 ^ 4) (nwords body n)) /\
    Forall (fun v => v <> 0) (nwords body n) /\ word_at body (Z.of_nat n) = 0.
Proof.
  revert body; induction fuel as [|k IH]; intros body L; [pose proof (len_nonneg body); lia|].
  cbn [t1_events fread]. rewrite drop_drop by lia.
  rewrite <- u32_take, <- u32_at_dec, Z.shiftl_mul_pow2 by lia.
  change (4 + 4) with 8. change (u32_at body 0 * 2 ^ 32 + u32_at body 4) with (word_at body 0).
  destruct (Z.eqb_spec (word_at body 0) 0) as [E|E].
  - exists 0%nat. cbn. repeat split; [constructor|assumption].
  - destruct (IH (drop 8 body)) as (n & E1 & E2 & E3); [|].
    { rewrite len_drop by lia. assert (0 < len body); [|lia].
      destruct (Z.le_gt_cases (len body) 0); [|assumption].
      exfalso. apply E. apply word_at_over. lia. }
    exists (S n). rewrite E1. cbn [bind]. rewrite nwords_S. cbn [map]. split; [|split].
    + rewrite Z.shiftr_div_pow2 by lia. change 15 with (Z.ones 4). rewrite Z.land_ones by lia. reflexivity.
    + now constructor.
    + rewrite word_at_drop in E3 by lia. replace (Z.of_nat (S n)) with (Z.of_nat n + 1) by lia. assumption.
Qed.

(** ** Headers *)
Lemma fields_cons s sg v l : fields (s :: sg) (le_enc 4 v ++ l) =
  (if s then s32 v else v mod 2 ^ 32) :: fields sg l.
Proof.
  cbn [fields]. rewrite take_app_exact, drop_app_exact by (now rewrite le_enc_len).
  rewrite le_dec_enc. change (256 ^ Z.of_nat 4) with (2 ^ 32). f_equal.
  destruct s; [|reflexivity]. unfold s32. rewrite Z.add_mod_idemp_l by lia. reflexivity.
Qed.
Lemma s32_small v : - 2 ^ 31 <= v < 2 ^ 31 -> s32 v = v.
Proof. intros; unfold s32. rewrite Z.mod_small; lia. Qed.
Lemma T1_header_ok name e n rest : read_T1_header name (t1_header e n ++ rest) =
  Ok (mkHead 257 (e mod 2 ^ 32) (n mod 2 ^ 32) 49 4 0,
      head_warnings 257 1 name (mkHead 257 (e mod 2 ^ 32) (n mod 2 ^ 32) 49 4 0)).
Proof.
  unfold read_T1_header. rewrite take_app_exact by (unfold t1_header; autorewrite with lens; rewrite !le_enc_len; reflexivity).
  unfold unpack. replace (len (t1_header e n)) with 20 by (unfold t1_header; autorewrite with lens; rewrite !le_enc_len; reflexivity).
  change (20 =? 4 * len [true; false; false; true; true]) with true. cbv iota. cbn [bind].
  unfold t1_header. rewrite !fields_cons. rewrite <- (app_nil_r (le_enc 4 4)), fields_cons.
  rewrite Z.mod_mod, !s32_small by lia. reflexivity.
Qed.
Lemma T1_drop e n rest : drop 20 (t1_header e n ++ rest) = rest.
Proof. apply drop_app_exact. unfold t1_header; autorewrite with lens; rewrite !le_enc_len; reflexivity. Qed.

(** ** Any T1 file *)
Lemma read_T1_any file full r fr h w : read_T1_header [] file = Ok (h, w) ->
  exists n, let ws := nwords (drop 20 file) n in
    read_T1 file full r fr =
      (if negb (h_length h =? 0) && negb (Z.of_nat n =? h_length h) then Err ValueError
       else Ok (t1_convert (h_epoch h) (map (fun v => v / 2 ^ 10) ws) full r fr, map (fun v => v mod 2 ^ 4) ws)) /\
    Forall (fun v => v <> 0) ws /\ word_at (drop 20 file) (Z.of_nat n) = 0.
Proof.
  intros E. destruct (t1_events_spec (S (length file)) (drop 20 file)) as (n & E1 & E2 & E3).
  { rewrite len_drop by lia. unfold len. lia. }
  exists n. cbn zeta. split; [|now split].
  unfold read_T1. rewrite E. cbn [bind]. rewrite E1. cbn [bind].
  replace (len (map (fun v => v / 2 ^ 10) (nwords (drop 20 file) n))) with (Z.of_nat n); [reflexivity|].
  unfold len, nwords. now rewrite !map_length, seq_length.
Qed.
Lemma nwords_unique body n m : Forall (fun v => v <> 0) (nwords body n) -> word_at body (Z.of_nat n) = 0 ->
  Forall (fun v => v <> 0) (nwords body m) -> word_at body (Z.of_nat m) = 0 -> n = m.
Proof.
  unfold nwords. rewrite !Forall_map, !Forall_forall. intros A B C D.
  destruct (Nat.lt_trichotomy n m) as [H|[H|H]]; [|assumption|].
  - exfalso. apply (C n); [apply in_seq; lia|assumption].
  - exfalso. apply (A m); [apply in_seq; lia|assumption].
Qed.

(** ** Encoded events *)
Lemma encode_t1_len v : len (encode_t1 v) = 8.
Proof. unfold encode_t1. autorewrite with lens. rewrite !le_enc_len. reflexivity. Qed.
Lemma word_at_encode v l : 0 <= v < 2 ^ 64 -> word_at (encode_t1 v ++ l) 0 = v.
Proof.
  intros H. unfold word_at. rewrite !u32_at_dec by lia. rewrite drop_0 by lia.
  unfold encode_t1. rewrite <- app_assoc.
  rewrite (take_app_exact 4) by (now rewrite le_enc_len).
  rewrite drop_app_exact by (rewrite le_enc_len; reflexivity).
  rewrite (take_app_exact 4) by (now rewrite le_enc_len).
  rewrite !le_dec_enc. change (256 ^ Z.of_nat 4) with (2 ^ 32).
  rewrite Z.mod_mod, (Z.mod_small (v / 2 ^ 32)) by lia. lia.
Qed.
Lemma nwords_encode vs l : Forall (fun v => 0 <= v < 2 ^ 64) vs ->
  nwords (concat (map encode_t1 vs) ++ l) (length vs) = vs /\
  forall k, 0 <= k -> word_at (concat (map encode_t1 vs) ++ l) (len vs + k) = word_at l k.
Proof.
  induction 1 as [|v vs Hv Hs [IH1 IH2]]; [split; [reflexivity|intros; f_equal; rewrite len_nil; lia]|].
  cbn [map concat length]. rewrite <- app_assoc. split.
  - rewrite nwords_S, word_at_encode by assumption.
    rewrite drop_app_exact by (now rewrite encode_t1_len). now rewrite IH1.
  - intros k K. rewrite len_cons, <- (IH2 k K).
    replace (1 + len vs + k) with (len vs + k + 1) by lia.
    rewrite <- word_at_drop by (pose proof (len_nonneg vs); lia).
    rewrite drop_app_exact by (now rewrite encode_t1_len). reflexivity.
Qed.
Lemma lsb_time_range e t : 0 <= t < 2 ^ 37 -> 0 <= lsb_time e t < 2 ^ 54.
Proof. intros; unfold lsb_time. pose proof (Z.mod_pos_bound e (2 ^ 17)). lia. Qed.
Lemma t1_word_range e ev : t1_ok e ev -> 0 <= t1_word e ev < 2 ^ 64.
Proof.
  intros [H D]; unfold t1_word. pose proof (lsb_time_range e (fst ev) H). lia.
Qed.
Lemma t1_word_time e ev : t1_ok e ev -> t1_word e ev / 2 ^ 10 = lsb_time e (fst ev).
Proof.
  intros [H D]; unfold t1_word. rewrite Z.add_comm, Z.div_add by lia. rewrite Z.div_small by lia. lia.
Qed.
Lemma t1_word_det e ev : t1_ok e ev -> t1_word e ev mod 2 ^ 4 = snd ev.
Proof.
  intros [H D]; unfold t1_word. replace (2 ^ 10) with (2 ^ 6 * 2 ^ 4) by reflexivity.
  rewrite Z.mul_assoc, Z.add_comm, Z.mod_add by lia. apply Z.mod_small; lia.
Qed.

(** Reading the file of a list of events none of which is all zero. *)
Lemma read_t1_file e evs full r fr : Forall (t1_ok e) evs -> Forall (fun ev => t1_word e ev <> 0) evs ->
  len evs < 2 ^ 32 ->
  read_T1 (t1_file e evs) full r fr =
    Ok (t1_convert (e mod 2 ^ 32) (map (fun ev => lsb_time e (fst ev)) evs) full r fr, map snd evs).
Proof.
  intros O N L. unfold t1_file.
  destruct (read_T1_any (t1_header e (len evs) ++ t1_body e evs ++ repeat 0 8) full r fr _ _ (T1_header_ok [] e (len evs) _))
    as (n & E & NZ & Z0).
  cbn zeta in *. rewrite T1_drop in *. unfold t1_body in *.
  assert (W : Forall (fun v => 0 <= v < 2 ^ 64) (map (t1_word e) evs)).
  { apply Forall_map. eapply Forall_impl; [|exact O]. intros; now apply t1_word_range. }
  destruct (nwords_encode _ (repeat 0 8) W) as [W1 W2]. rewrite map_map, map_length in W1. rewrite map_map in W2.
  assert (n = length evs) as ->.
  { eapply nwords_unique; [exact NZ|exact Z0| |].
    - rewrite W1. now apply Forall_map.
    - specialize (W2 0 ltac:(lia)). rewrite Z.add_0_r, len_map in W2. unfold len in W2. rewrite W2. reflexivity. }
  rewrite E, W1. cbn [h_length h_epoch]. rewrite (Z.mod_small (len evs)) by (pose proof (len_nonneg evs); lia).
  replace (negb (len evs =? 0) && negb (Z.of_nat (length evs) =? len evs)) with false by (unfold len; lia).
  do 3 f_equal.
  - rewrite map_map. apply map_ext_in. intros ev I. apply t1_word_time. eapply Forall_forall; eauto.
  - rewrite map_map. apply map_ext_in. intros ev I. apply t1_word_det. eapply Forall_forall; eauto.
Qed.

(** ** write_T1 *)
Lemma land_low n v : 0 <= n -> Z.land v (Z.shiftl 1 n - 1) = v mod 2 ^ n.
Proof. intros. rewrite Z.shiftl_1_l. replace (2 ^ n - 1) with (Z.ones n) by (rewrite Z.ones_equiv; lia). now apply Z.land_ones. Qed.
Lemma mod_mod_pow v a b : 0 <= a <= b -> (v mod 2 ^ b) mod 2 ^ a = v mod 2 ^ a.
Proof.
  intros H. replace b with (a + (b - a)) by lia. rewrite Z.pow_add_r by lia.
  rewrite Z.rem_mul_r by (apply Z.pow_nonzero || apply Z.pow_pos_nonneg; lia).
  rewrite Z.mul_comm, Z.mod_add by (apply Z.pow_nonzero; lia). apply Z.mod_mod. apply Z.pow_nonzero; lia.
Qed.
Lemma write_event_py l e ev : t1_ok e ev ->
  t1_event (WPy l) ((e mod 2 ^ 17) * 2 ^ 37) (fst ev) (snd ev) = Ok (encode_t1 (t1_word e ev)).
Proof.
  intros O. pose proof (t1_word_range e ev O) as R.
  unfold t1_event. cbn [bind]. rewrite Z.shiftl_mul_pow2 by lia.
  change (((e mod 2 ^ 17) * 2 ^ 37 + fst ev) * 2 ^ 10 + snd ev) with (t1_word e ev).
  rewrite Z.shiftr_div_pow2 by lia. change 4294967295 with (Z.ones 32). rewrite Z.land_ones by lia.
  unfold pack_I. 
  replace ((0 <=? t1_word e ev / 2 ^ 32) && (t1_word e ev / 2 ^ 32 <? 2 ^ 32)) with true by lia.
  replace ((0 <=? t1_word e ev mod 2 ^ 32) && (t1_word e ev mod 2 ^ 32 <? 2 ^ 32)) with true by lia.
  reflexivity.
Qed.
Lemma write_events_py l e evs : Forall (t1_ok e) evs ->
  write_events (WPy l) ((e mod 2 ^ 17) * 2 ^ 37) evs = (t1_body e evs ++ repeat 0 8, None).
Proof.
  unfold t1_body. induction 1 as [|ev evs O _ IH]; cbn [write_events map concat]; [reflexivity|].
  destruct ev as [t d]. pose proof (write_event_py l e (t, d) O) as W. cbn [fst snd] in W.
  rewrite W, IH, <- app_assoc. reflexivity.
Qed.
Lemma pack_header e n : 0 <= n < 2 ^ 32 ->
  (let* a := pack_i 257 in let* b := pack_I (e mod 2 ^ 32) in let* c := pack_I n in
   let* d := pack_i 49 in let* f := pack_i 4 in Ok (a ++ b ++ c ++ d ++ f)) = Ok (t1_header e n).
Proof.
  intros. unfold pack_I.
  replace ((0 <=? e mod 2 ^ 32) && (e mod 2 ^ 32 <? 2 ^ 32)) with true by lia.
  replace ((0 <=? n) && (n <? 2 ^ 32)) with true by lia. reflexivity.
Qed.
Lemma combine_fst_snd {A B} (l : list (A * B)) : combine (map fst l) (map snd l) = l.
Proof. induction l as [|[a b] l IH]; cbn; [reflexivity|]. now rewrite IH. Qed.
Lemma write_T1_seq e evs : Forall (t1_ok e) evs -> len evs < 2 ^ 32 ->
  write_T1 e (WPy (map fst evs)) (DSeq (map snd evs)) = Ok (hexs (e mod 2 ^ 32), t1_file e evs, None).
Proof.
  intros O L. unfold write_T1. rewrite !land_low by lia. cbn [wvals]. rewrite !len_map, Z.eqb_refl. cbn [bind].
  rewrite pack_header by (split; [apply len_nonneg|exact L]).
  rewrite mod_mod_pow by lia. rewrite Z.shiftl_mul_pow2 by lia. change (32 + 5) with 37.
  rewrite combine_fst_snd, write_events_py by assumption. reflexivity.
Qed.
Lemma write_T1_scalar e evs d : Forall (t1_ok e) evs -> Forall (fun ev => snd ev = d) evs -> len evs < 2 ^ 32 ->
  write_T1 e (WPy (map fst evs)) (DScalar d) = Ok (hexs (e mod 2 ^ 32), t1_file e evs, None).
Proof.
  intros O D L. destruct evs as [|ev0 evs0].
  - cbn [map]. unfold write_T1. cbn [wvals length repeat]. rewrite !land_low by lia.
    change (len (@nil Z)) with 0. cbn [bind].
    rewrite pack_header by lia. reflexivity.
  - rewrite <- write_T1_seq by assumption. set (evs := ev0 :: evs0) in *. unfold write_T1. cbn [wvals].
    rewrite !len_map, Z.eqb_refl. cbn [bind].
    replace (repeat (qtrunc (fl 53 (inject_Z d))) (length (map fst evs))) with (map snd evs); [reflexivity|].
    assert (0 <= d < 16) by (inv O; inv D; unfold t1_ok in *; lia).
    rewrite (qtrunc_int _ d) by (apply fl_int; lia). rewrite map_length.
    clear - D. induction D as [|ev l E _ IH]; cbn [map repeat length]; [reflexivity|]. now rewrite E, IH.
Qed.
