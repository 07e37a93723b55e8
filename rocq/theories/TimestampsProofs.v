(** Encoding and decoding of timestamp files. *)
From Coq Require Import QArith Lqa ZifyBool.
From Verif Require Import Float Base TimestampsModel TimestampsSpec.
Local Open Scope Z_scope.
Ltac Zify.zify_post_hook ::= Z.div_mod_to_equations.

(** ** Numbers *)
Definition rexp (r : TSRES) : Z := match r with NS1 => -8 | PS125 => -5 | PS4 => 0 end.
Lemma in_units_pow r t : (in_units r t == inject_Z t * pow2 (rexp r))%Q.
Proof.
  unfold in_units. rewrite inject_Z_mult. destruct r; cbn [rvalue rexp].
  - change (pow2 (-8)) with (1 # 256). change (inject_Z 256) with (256 # 1). change (inject_Z 1) with 1%Q. field.
  - change (pow2 (-5)) with (1 # 32). change (inject_Z 256) with (256 # 1). change (inject_Z 8) with (8 # 1). field.
  - change (pow2 0) with 1%Q. change (inject_Z 256) with (256 # 1). field.
Qed.
Lemma fl_units p r t : 54 <= p -> 0 <= t < 2 ^ 54 -> (fl p (in_units r t) == in_units r t)%Q.
Proof.
  intros P T. rewrite (fl_eq p _ _ (in_units_pow r t)), in_units_pow. apply fl_exact; [lia|].
  assert (2 ^ 54 <= 2 ^ p) by (apply Z.pow_le_mono_r; lia). lia.
Qed.
Lemma fl_time p t : 54 <= p -> 0 <= t < 2 ^ 54 -> (fl p (inject_Z t) == inject_Z t)%Q.
Proof. intros P T. apply fl_int; [lia|]. assert (2 ^ 54 <= 2 ^ p) by (apply Z.pow_le_mono_r; lia). lia. Qed.
Lemma units_scaled r t : (in_units r t * inject_Z (256 / rvalue r) == inject_Z t)%Q.
Proof.
  unfold in_units. rewrite inject_Z_mult. destruct r; cbn [rvalue];
  change (inject_Z 256) with (256 # 1); change (inject_Z 1) with 1%Q; change (inject_Z 8) with (8 # 1).
  - change (inject_Z (256 / 1)) with (256 # 1). field.
  - change (inject_Z (256 / 8)) with (32 # 1). field.
  - change (inject_Z (256 / 256)) with 1%Q. field.
Qed.
Lemma event_uint64 p r x t : 54 <= p -> 0 <= t < 2 ^ 54 -> (x == in_units r t)%Q ->
  to_uint64 (fl p (fl p x * inject_Z (256 / rvalue r)))%Q = Ok t.
Proof.
  intros P T E. unfold to_uint64. fold (qtrunc (fl p (fl p x * inject_Z (256 / rvalue r))%Q)).
  rewrite (qtrunc_int _ t).
  - replace ((0 <=? t) && (t <? 2 ^ 64)) with true by lia. reflexivity.
  - rewrite (fl_eq p _ (inject_Z t)); [apply fl_time; assumption|].
    rewrite (fl_eq p x _ E), (fl_units p r t P T). apply units_scaled.
Qed.
Lemma consolidate_events p r T evs : 54 <= p -> Forall event_ok evs -> same_values (tvalues T) (times_in r evs) ->
  consolidate p T (map snd evs) r = Ok (map word_of evs).
Proof.
  intros P O S. unfold consolidate.
  assert (M : mapM (fun x => to_uint64 (fl p (fl p x * inject_Z (256 / rvalue r)))%Q) (tvalues T) = Ok (map fst evs)).
  { revert O S. generalize (tvalues T) as l. induction evs as [|e evs IH]; intros l O S;
      [inversion S; reflexivity|].
    inversion S as [|x ? l0 ? EX ES]; subst. inversion O as [|? ? OE OS]; subst.
    cbn [mapM map]. rewrite (event_uint64 p r x (fst e) P (proj1 OE) EX). cbn [bind].
    rewrite (IH l0) by assumption. reflexivity. }
  rewrite M. cbn [bind]. unfold broadcast. rewrite !len_map, Z.eqb_refl. cbn [bind]. f_equal.
  clear M S. induction O as [|[t q] evs [T1 T2] O IH]; [reflexivity|]. cbn [map combine fst snd] in *. f_equal; [|exact IH].
  unfold word_of, u64. cbn [fst snd]. rewrite Z.shiftl_mul_pow2 by lia. rewrite !Z.mod_small; lia.
Qed.

(** ** Binary words *)
Lemma le_enc4 x : le_enc 4 x = [x mod 256; x / 256 mod 256; x / 256 / 256 mod 256; x / 256 / 256 / 256 mod 256].
Proof. reflexivity. Qed.
Lemma words_enc x r : words (le_enc 4 x ++ r) = x mod 2 ^ 32 :: words r.
Proof.
  change (2 ^ 32) with (256 ^ Z.of_nat 4). rewrite <- le_dec_enc, le_enc4. reflexivity.
Qed.
Lemma le_enc8_split v : 0 <= v < 2 ^ 64 -> le_enc 8 v = le_enc 4 (low v) ++ le_enc 4 (high v).
Proof.
  intros H. change 8%nat with (4 + 4)%nat. rewrite le_enc_app. change (256 ^ Z.of_nat 4) with (2 ^ 32).
  f_equal. unfold low. symmetry. apply le_enc_mod; [apply Z.divide_refl|lia].
Qed.
Lemma low_land v : 0 <= v -> Z.land v 4294967295 = low v.
Proof. intros H. change 4294967295 with (Z.ones 32). apply Z.land_ones. lia. Qed.
Lemma high_shiftr v : Z.shiftr v 32 = high v.
Proof. apply Z.shiftr_div_pow2. lia. Qed.
Lemma high_range v : word_ok v -> 0 <= high v < 2 ^ 32.
Proof. unfold word_ok, high. lia. Qed.
Lemma low_range v : 0 <= low v < 2 ^ 32.
Proof. unfold low. apply Z.mod_pos_bound. lia. Qed.
Lemma low_join a b : 0 <= b < 2 ^ 32 -> low (a * 2 ^ 32 + b) = b.
Proof. intros H. unfold low. rewrite Z.add_comm, Z.mod_add by lia. apply Z.mod_small. lia. Qed.
Lemma high_join a b : 0 <= b < 2 ^ 32 -> high (a * 2 ^ 32 + b) = a.
Proof. intros H. unfold high. rewrite Z.div_add_l by lia. rewrite Z.div_small by lia. lia. Qed.
Lemma lines_a1_encode lg vs : Forall word_ok vs -> lines_a1 lg vs = encode (A1 lg) vs.
Proof.
  intros F. unfold lines_a1, encode. f_equal. apply map_ext_Forall. eapply Forall_impl; [|exact F].
  intros v H. pose proof (high_range v H). pose proof (low_range v). cbn [encode1]. destruct lg.
  - rewrite low_land, high_shiftr, Z.shiftl_mul_pow2 by (unfold word_ok in H; lia).
    rewrite le_enc8_split by lia. rewrite low_join, high_join by lia. reflexivity.
  - apply le_enc8_split. exact H.
Qed.
Lemma words_encode lg vs : Forall word_ok vs ->
  words (encode (A1 lg) vs) = concat (map (fun v => if lg then [high v; low v] else [low v; high v]) vs).
Proof.
  unfold encode. induction 1 as [|v vs H F IH]; [reflexivity|]. cbn [map concat].
  pose proof (high_range v H). pose proof (low_range v).
  destruct lg; cbn [encode1]; rewrite <- app_assoc, !words_enc, IH, !Z.mod_small by lia; reflexivity.
Qed.
Lemma reshape2_pairs {A} (f g : A -> Z) vs : reshape2 (concat (map (fun v => [f v; g v]) vs)) = Ok (map (fun v => (f v, g v)) vs).
Proof. induction vs as [|v vs IH]; [reflexivity|]. cbn [map concat app reshape2]. now rewrite IH. Qed.
Lemma word_time v : word_ok v -> u64 (u64 (Z.shiftl (high v) 22) + Z.shiftr (low v) 10) = time_of v.
Proof.
  intros H. unfold u64, high, low, time_of. rewrite Z.shiftl_mul_pow2, Z.shiftr_div_pow2 by lia.
  unfold word_ok in H. rewrite (Z.mod_small (_ * _)) by lia. rewrite Z.mod_small; lia.
Qed.
Lemma land15 v : Z.land v 15 = v mod 16. Proof. apply (Z.land_ones v 4). lia. Qed.
Lemma low_pattern v : Z.land (low v) 15 = pattern_of v.
Proof. rewrite land15. unfold low, pattern_of. change (2 ^ 4) with 16. lia. Qed.

(** What a format makes of a list of words before formatting. *)
Definition raw_t (f : fmt) (vs : list Z) : tarr :=
  match f with
  | A0 => TF64 (map (fun v => fl 53 (inject_Z (time_of v))) vs)
  | _ => TU64 (map time_of vs)
  end.
Definition out (p : Z) (f : fmt) (r : TSRES) (fr : bool) (vs : list Z) : tarr * list Z :=
  (format_timestamps p (raw_t f vs) r fr, map pattern_of vs).
Lemma decode_a1_words p lg r fr vs : Forall word_ok vs ->
  decode_a1 p lg r fr (words (encode (A1 lg) vs)) = Ok (out p (A1 lg) r fr vs).
Proof.
  intros F. rewrite words_encode by assumption. unfold decode_a1, out, raw_t.
  assert (T : map (fun v => u64 (u64 (Z.shiftl (high v) 22) + Z.shiftr (low v) 10)) vs = map time_of vs).
  { apply map_ext_Forall. eapply Forall_impl; [|exact F]. intros v. apply word_time. }
  assert (Q : map (fun v => Z.land (low v) 15) vs = map pattern_of vs) by (apply map_ext; apply low_pattern).
  destruct lg; rewrite reshape2_pairs; cbn [bind]; rewrite !map_map; cbn [fst snd]; now rewrite T, Q.
Qed.

(** ** Hexadecimal text *)
Lemma hexn_hex n v : hexn n v = hex n v.
Proof.
  revert v; induction n as [|n IH]; intros v; [reflexivity|]. cbn [hexn]. rewrite IH. unfold hex.
  rewrite seq_S, map_app. cbn [map Nat.add]. f_equal.
  - apply map_ext_in. intros i I. apply in_seq in I. do 2 f_equal.
    replace (Z.of_nat (S n) - 1 - Z.of_nat i) with (1 + (Z.of_nat n - 1 - Z.of_nat i)) by lia.
    rewrite Z.pow_add_r by lia. rewrite <- Z.div_div by lia. reflexivity.
  - replace (Z.of_nat (S n) - 1 - Z.of_nat n) with 0 by lia. rewrite Z.pow_0_r, Z.div_1_r.
    unfold hexdigit, hexchar. destruct (v mod 16 <? 10); [reflexivity|]. f_equal. lia.
Qed.
Lemma hexdigit_val d : 0 <= d < 16 -> hexval (hexdigit d) = Some d.
Proof.
  intros H. unfold hexdigit, hexval. destruct (d <? 10) eqn:E.
  - replace ((48 <=? 48 + d) && (48 + d <=? 57)) with true by lia. f_equal. lia.
  - replace ((48 <=? 87 + d) && (87 + d <=? 57)) with false by lia.
    replace ((97 <=? 87 + d) && (87 + d <=? 102)) with true by lia. f_equal. lia.
Qed.
Lemma hexdigit_not_nl d : 0 <= d < 16 -> hexdigit d <> NL.
Proof. unfold hexdigit, NL. destruct (d <? 10); lia. Qed.
Lemma hexn_chars n v : Forall (fun c => is_hex c = true /\ c <> NL) (hexn n v).
Proof.
  revert v; induction n as [|n IH]; intros v; [constructor|]. cbn [hexn]. apply Forall_app. split; [apply IH|].
  constructor; [|constructor]. pose proof (Z.mod_pos_bound v 16). split; [|apply hexdigit_not_nl; lia].
  unfold is_hex. now rewrite hexdigit_val by lia.
Qed.
Lemma hexn_length n v : length (hexn n v) = n.
Proof. revert v; induction n as [|n IH]; intros v; [reflexivity|]. cbn [hexn]. rewrite app_length, IH. cbn. lia. Qed.
Lemma hexn_value n v : fold_left (fun k c => 16 * k + match hexval c with Some d => d | None => 0 end) (hexn n v) 0
  = v mod 16 ^ Z.of_nat n.
Proof.
  revert v; induction n as [|n IH]; intros v; [cbn; now rewrite Z.mod_1_r|].
  cbn [hexn]. rewrite fold_left_app. cbn [fold_left]. rewrite IH, hexdigit_val by (pose proof (Z.mod_pos_bound v 16); lia).
  replace (Z.of_nat (S n)) with (Z.succ (Z.of_nat n)) by lia. rewrite Z.pow_succ_r by lia.
  rewrite Z.rem_mul_r; [lia|lia|apply Z.pow_pos_nonneg; lia].
Qed.
Lemma int16_hexn n v : (0 < n)%nat -> 0 <= v < 16 ^ Z.of_nat n -> int16 (hexn n v) = Ok v.
Proof.
  intros N V. unfold int16. pose proof (hexn_length n v) as L. destruct (hexn n v) as [|c s] eqn:E; [cbn in L; lia|].
  rewrite <- E. pose proof (hexn_chars n v) as C.
  assert (F : forallb is_hex (hexn n v) = true) by (apply forallb_forall; rewrite Forall_forall in C; intros x I; now apply C).
  rewrite F, hexn_value, Z.mod_small by lia. reflexivity.
Qed.

(** text made of lines *)
Definition text (ls : list (list Z)) : list Z := concat (map (fun l => l ++ [NL]) ls).
Definition hexline (l : list Z) : Prop := l <> [] /\ Forall (fun c => is_hex c = true /\ c <> NL) l.
Lemma hexn_line n v : (0 < n)%nat -> hexline (hexn n v).
Proof.
  intros N. split; [|apply hexn_chars]. intros E. pose proof (hexn_length n v) as L. rewrite E in L. cbn in L. lia.
Qed.
Lemma split_nl_line l r : Forall (fun c => is_hex c = true /\ c <> NL) l -> split_nl (l ++ NL :: r) = l :: split_nl r.
Proof.
  induction 1 as [|c l [_ H] F IH]; [reflexivity|]. cbn [app split_nl]. replace (c =? NL) with false by lia. now rewrite IH.
Qed.
Lemma split_nl_last l : Forall (fun c => is_hex c = true /\ c <> NL) l -> split_nl l = [l].
Proof.
  induction 1 as [|c l [_ H] F IH]; [reflexivity|]. cbn [split_nl]. replace (c =? NL) with false by lia. now rewrite IH.
Qed.
Lemma text_cons l ls : text (l :: ls) = l ++ NL :: text ls.
Proof. unfold text. cbn [map concat]. now rewrite <- app_assoc. Qed.
Lemma split_nl_text ls : Forall hexline ls -> split_nl (text ls) = ls ++ [[]].
Proof.
  induction 1 as [|l ls [_ H] F IH]; [reflexivity|]. rewrite text_cons, split_nl_line by assumption. now rewrite IH.
Qed.
Lemma clean_text ls : Forall hexline ls -> clean (text ls) = true.
Proof.
  induction 1 as [|l ls [_ H] F IH]; [reflexivity|]. rewrite text_cons. unfold clean in *. rewrite forallb_app. cbn [forallb].
  rewrite IH, orb_true_r, !andb_true_r. apply forallb_forall. intros c I. rewrite Forall_forall in H.
  destruct (H c I) as [-> _]. reflexivity.
Qed.
Lemma filter_nonempty ls : Forall hexline ls ->
  filter (fun l => match l with [] => false | _ :: _ => true end) (ls ++ [@nil Z]) = ls.
Proof.
  induction 1 as [|l ls [H _] F IH]; [reflexivity|]. cbn [app filter]. destruct l; [congruence|]. now rewrite IH.
Qed.
Lemma genfromtxt_text w ls : Forall hexline ls -> Forall (fun l => len l <= w) ls -> length ls <> 1%nat ->
  genfromtxt w (text ls) = Ok ls.
Proof.
  intros H L N. unfold genfromtxt. rewrite clean_text, split_nl_text, filter_nonempty by assumption.
  assert (M : map (take w) ls = ls).
  { rewrite <- map_id. apply map_ext_Forall. eapply Forall_impl; [|exact L]. intros l Hl. now apply take_all. }
  destruct ls as [|a [|b ls]]; [reflexivity|cbn in N; lia|]. now rewrite M.
Qed.
Lemma genfromtxt_single w l : hexline l -> genfromtxt w (text [l]) = Err TypeError.
Proof.
  intros H. unfold genfromtxt. assert (F : Forall hexline [l]) by (repeat constructor; apply H).
  rewrite clean_text, split_nl_text, filter_nonempty by assumption. reflexivity.
Qed.
Lemma strip_text ls l : Forall hexline ls -> hexline l -> strip_nl (text (ls ++ [l])) = text ls ++ l.
Proof.
  intros F [N H]. unfold strip_nl.
  assert (A : lstrip_nl (text (ls ++ [l])) = text (ls ++ [l])).
  { destruct ls as [|m ls].
    - cbn [app]. rewrite text_cons. destruct l as [|c l]; [congruence|]. cbn. inv H. replace (c =? NL) with false by lia. reflexivity.
    - inv F. destruct H2 as [N2 H2]. cbn [app]. rewrite text_cons. destruct m as [|c m]; [congruence|]. inv H2. cbn.
      replace (c =? NL) with false by lia. reflexivity. }
  rewrite A. unfold text. rewrite map_app, concat_app. cbn [map concat]. rewrite app_nil_r, app_assoc, rev_app_distr. cbn [rev app].
  match goal with |- context [lstrip_nl (NL :: ?x)] => change (lstrip_nl (NL :: x)) with (lstrip_nl x) end.
  rewrite rev_app_distr.
  assert (B : lstrip_nl (rev l ++ rev (concat (map (fun l => l ++ [NL]) ls))) = rev l ++ rev (concat (map (fun l => l ++ [NL]) ls))).
  { destruct (rev l) as [|c q] eqn:E.
    - apply (f_equal (@rev Z)) in E. rewrite rev_involutive in E. cbn in E. congruence.
    - cbn [app lstrip_nl]. assert (I : In c l) by (apply in_rev; rewrite E; now left).
      rewrite Forall_forall in H. destruct (H c I). replace (c =? NL) with false by lia. reflexivity. }
  rewrite B, <- rev_app_distr. apply rev_involutive.
Qed.
Lemma split_text_last ls l : Forall hexline ls -> hexline l -> split_nl (text ls ++ l) = ls ++ [l].
Proof.
  intros F [_ H]. induction F as [|m ls [_ M] F IH].
  - cbn. now apply split_nl_last.
  - rewrite text_cons, <- app_assoc. cbn [app]. rewrite split_nl_line by assumption. now rewrite IH.
Qed.
Lemma parse_lines_text ls : Forall hexline ls -> ls <> [] -> parse_lines (text ls) = mapM int16 ls.
Proof.
  intros F N. unfold parse_lines. rewrite clean_text by assumption.
  destruct (exists_last N) as (ms & l & ->). apply Forall_app in F as [F1 F2]. inv F2.
  now rewrite strip_text, split_text_last by assumption.
Qed.
