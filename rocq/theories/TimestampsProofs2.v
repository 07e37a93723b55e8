(** Readers of whole files, streaming readers, writers. *)
From Coq Require Import QArith Lqa ZifyBool.
From Verif Require Import Float Base TimestampsModel TimestampsSpec TimestampsProofs.
Local Open Scope Z_scope.
Ltac Zify.zify_post_hook ::= Z.div_mod_to_equations.

(** ** Text files as lines *)
Lemma encode_a2_text vs : encode A2 vs = text (map (hexn 16) vs).
Proof. unfold encode, text. rewrite map_map. f_equal. apply map_ext. intros v. cbn [encode1]. now rewrite hexn_hex. Qed.
Definition a0_lines (vs : list Z) : list (list Z) := concat (map (fun v => [hexn 8 (low v); hexn 8 (high v)]) vs).
Lemma encode_a0_text vs : encode A0 vs = text (a0_lines vs).
Proof.
  unfold encode, text, a0_lines. induction vs as [|v vs IH]; [reflexivity|]. cbn [map concat encode1 app].
  rewrite IH, !hexn_hex. rewrite <- !app_assoc. reflexivity.
Qed.
Lemma a0_lines_ok vs : Forall hexline (a0_lines vs) /\ Forall (fun l => len l <= 8) (a0_lines vs).
Proof.
  unfold a0_lines. induction vs as [|v vs [IH1 IH2]]; [split; constructor|]. cbn [map concat app].
  split; (constructor; [|constructor; [|assumption]]); try (apply hexn_line; lia); unfold len; rewrite hexn_length; lia.
Qed.
Lemma a2_lines_ok vs : Forall hexline (map (hexn 16) vs) /\ Forall (fun l => len l <= 16) (map (hexn 16) vs).
Proof.
  induction vs as [|v vs [IH1 IH2]]; [split; constructor|]. cbn [map].
  split; constructor; auto; try (apply hexn_line; lia). unfold len; rewrite hexn_length; lia.
Qed.
Lemma mapM_app {E A B} (f : A -> res E B) l m : mapM f (l ++ m) = let* a := mapM f l in let* b := mapM f m in Ok (a ++ b).
Proof.
  induction l as [|x l IH]; cbn [app mapM].
  - cbn [bind]. destruct (mapM f m); reflexivity.
  - rewrite IH. destruct (f x); [|reflexivity]. cbn [bind]. destruct (mapM f l); [|reflexivity]. cbn [bind].
    destruct (mapM f m); reflexivity.
Qed.
Lemma mapM_a2 vs : Forall word_ok vs -> mapM int16 (map (hexn 16) vs) = Ok vs.
Proof.
  induction 1 as [|v vs H F IH]; [reflexivity|]. cbn [map mapM].
  rewrite int16_hexn by (try exact H; lia). cbn [bind]. now rewrite IH.
Qed.
Definition a0_ints (vs : list Z) : list Z := concat (map (fun v => [low v; high v]) vs).
Lemma mapM_a0 vs : Forall word_ok vs -> mapM int16 (a0_lines vs) = Ok (a0_ints vs).
Proof.
  unfold a0_lines, a0_ints. induction 1 as [|v vs H F IH]; [reflexivity|]. cbn [map concat app mapM].
  pose proof (high_range v H). pose proof (low_range v).
  rewrite !int16_hexn by (change (16 ^ Z.of_nat 8) with (2 ^ 32); lia). cbn [bind]. now rewrite IH.
Qed.

(** ** Decoding *)
Lemma forallb_Forall {A} (f : A -> bool) l : forallb f l = true <-> Forall (fun x => f x = true) l.
Proof. rewrite forallb_forall, Forall_forall. reflexivity. Qed.
Lemma a0_value v : word_ok v ->
  (fl 53 (fl 53 (inject_Z (u64 (Z.shiftl (high v) 22))) + fl 53 (inject_Z (Z.shiftr (low v) 10))))%Q
  = fl 53 (inject_Z (time_of v)).
Proof.
  intros H. apply fl_eq. pose proof (high_range v H). pose proof (low_range v).
  rewrite Z.shiftl_mul_pow2, Z.shiftr_div_pow2 by lia. unfold u64. rewrite Z.mod_small by lia.
  rewrite inject_Z_mult. rewrite <- (pow2_Z 22) by lia. rewrite (fl_exact 53 (high v) 22) by lia.
  rewrite (fl_int 53 (low v / 2 ^ 10)) by lia. rewrite pow2_Z by lia. rewrite <- inject_Z_mult, <- inject_Z_plus.
  apply inject_Z_injective. unfold high, low, time_of. unfold word_ok in H. lia.
Qed.
Lemma decode_a0_ints p r fr vs : Forall word_ok vs -> vs <> [] -> decode_a0 p r fr (a0_ints vs) = Ok (out p A0 r fr vs).
Proof.
  intros F N. unfold decode_a0, a0_ints. rewrite reshape2_pairs. cbn [bind].
  assert (A : np_array (concat (map (fun v => [low v; high v]) vs)) = AI64 (concat (map (fun v => [low v; high v]) vs))).
  { unfold np_array. destruct vs as [|v vs]; [congruence|]. cbn [map concat app].
    match goal with |- (if ?b then _ else _) = _ => replace b with true; [reflexivity|] end. symmetry.
    change (forallb (fun v => v <? 2 ^ 63) (concat (map (fun v => [low v; high v]) (v :: vs))) = true).
    apply forallb_Forall. apply Forall_concat, Forall_map. eapply Forall_impl; [|exact F]. intros w H.
    pose proof (high_range w H). pose proof (low_range w). repeat constructor; lia. }
  rewrite A. rewrite !map_map. cbn [fst snd]. unfold out, raw_t. do 2 f_equal.
  - f_equal. f_equal. apply map_ext_Forall. eapply Forall_impl; [|exact F]. intros v. apply a0_value.
  - apply map_ext. apply low_pattern.
Qed.
Lemma one_side_dec vs : Forall word_ok vs -> {one_side vs} + {~ one_side vs}.
Proof.
  intros _. unfold one_side.
  destruct (forallb (fun v => v <? 2 ^ 63) vs) eqn:A.
  - left. left. apply forallb_Forall in A. eapply Forall_impl; [|exact A]. cbn. lia.
  - destruct (forallb (fun v => 2 ^ 63 <=? v) vs) eqn:B.
    + left. right. apply forallb_Forall in B. eapply Forall_impl; [|exact B]. cbn. lia.
    + right. intros [H|H].
      * assert (forallb (fun v => v <? 2 ^ 63) vs = true); [|congruence]. apply forallb_Forall. eapply Forall_impl; [|exact H]. cbn. lia.
      * assert (forallb (fun v => 2 ^ 63 <=? v) vs = true); [|congruence]. apply forallb_Forall. eapply Forall_impl; [|exact H]. cbn. lia.
Qed.
Lemma np_array_ok vs : Forall word_ok vs -> vs <> [] -> one_side vs -> np_array vs = AI64 vs \/ np_array vs = AU64 vs.
Proof.
  intros F N S. unfold np_array. destruct vs as [|v0 vs0] eqn:EV; [congruence|]. rewrite <- EV in *. clear N.
  destruct (forallb (fun v => v <? 2 ^ 63) vs) eqn:A; [now left|]. destruct S as [S|S].
  - assert (forallb (fun v => v <? 2 ^ 63) vs = true); [|congruence]. apply forallb_Forall. eapply Forall_impl; [|exact S]. cbn. lia.
  - right. replace (forallb (fun v => (2 ^ 63 <=? v) && (v <? 2 ^ 64)) vs) with true; [reflexivity|]. symmetry.
    apply forallb_Forall. apply Forall_forall. intros x I. rewrite Forall_forall in F, S. specialize (F x I). specialize (S x I).
    unfold word_ok in F. lia.
Qed.
Lemma np_array_mixed vs : Forall word_ok vs -> ~ one_side vs -> exists l, np_array vs = AF64 l.
Proof.
  intros F S. unfold np_array. destruct vs as [|v0 vs0] eqn:EV; [eauto|]. rewrite <- EV in *.
  destruct (forallb (fun v => v <? 2 ^ 63) vs) eqn:A.
  { exfalso. apply S. left. apply forallb_Forall in A. eapply Forall_impl; [|exact A]. cbn. lia. }
  destruct (forallb (fun v => (2 ^ 63 <=? v) && (v <? 2 ^ 64)) vs) eqn:B.
  { exfalso. apply S. right. apply forallb_Forall in B. eapply Forall_impl; [|exact B]. cbn. lia. }
  replace (forallb (fun v => v <? 2 ^ 64) vs) with true; [eauto|]. symmetry. apply forallb_Forall.
  eapply Forall_impl; [|exact F]. unfold word_ok. cbn. lia.
Qed.
Lemma decode_a2_ok p r fr vs : Forall word_ok vs -> vs <> [] -> one_side vs -> decode_a2 p r fr vs = Ok (out p A2 r fr vs).
Proof.
  intros F N S. unfold decode_a2, out, raw_t.
  assert (T : map (fun v => Z.shiftr v 10) vs = map time_of vs).
  { apply map_ext. intros v. apply Z.shiftr_div_pow2. lia. }
  assert (P : map (fun v => Z.land v 15) vs = map pattern_of vs) by (apply map_ext; intros v; apply land15).
  destruct (np_array_ok vs F N S) as [-> | ->]; now rewrite T, P.
Qed.
Lemma decode_a2_mixed p r fr vs : Forall word_ok vs -> ~ one_side vs -> decode_a2 p r fr vs = Err TypeError.
Proof. intros F S. unfold decode_a2. destruct (np_array_mixed vs F S) as [l ->]. reflexivity. Qed.

(** ** In-memory readers on well-formed files *)
Lemma read_a1_encode p lg r fr vs : Forall word_ok vs -> read_a1 p (encode (A1 lg) vs) lg r fr = Ok (out p (A1 lg) r fr vs).
Proof. apply decode_a1_words. Qed.
Lemma a0_lines_length vs : length (a0_lines vs) = (2 * length vs)%nat.
Proof. unfold a0_lines. induction vs as [|v vs IH]; [reflexivity|]. cbn [map concat app length]. rewrite IH. lia. Qed.
Lemma read_a0_encode p r fr vs : Forall word_ok vs ->
  read_a0 p (encode A0 vs) r fr = match vs with [] => Err TypeError | _ => Ok (out p A0 r fr vs) end.
Proof.
  intros F. unfold read_a0. rewrite encode_a0_text. destruct (a0_lines_ok vs) as [L1 L2].
  rewrite genfromtxt_text by (try assumption; rewrite a0_lines_length; lia). cbn [bind].
  rewrite mapM_a0 by assumption. cbn [bind]. destruct vs as [|v vs]; [reflexivity|].
  apply decode_a0_ints; [assumption|discriminate].
Qed.
Lemma read_a2_encode p r fr vs : Forall word_ok vs -> (2 <= length vs)%nat -> one_side vs ->
  read_a2 p (encode A2 vs) r fr = Ok (out p A2 r fr vs).
Proof.
  intros F N S. unfold read_a2. rewrite encode_a2_text. destruct (a2_lines_ok vs) as [L1 L2].
  rewrite genfromtxt_text by (try assumption; rewrite map_length; lia). cbn [bind].
  rewrite mapM_a2 by assumption. cbn [bind]. apply decode_a2_ok; auto. destruct vs; [cbn in N; lia|discriminate].
Qed.
Lemma read_a2_bad p r fr vs : Forall word_ok vs -> ~ ((2 <= length vs)%nat /\ one_side vs) ->
  read_a2 p (encode A2 vs) r fr = Err TypeError.
Proof.
  intros F N. unfold read_a2. rewrite encode_a2_text. destruct (a2_lines_ok vs) as [L1 L2].
  destruct (Nat.eq_dec (length vs) 1) as [E|E].
  { destruct vs as [|v [|]]; try discriminate E. cbn [map] in *. inv L1. rewrite genfromtxt_single by assumption. reflexivity. }
  rewrite genfromtxt_text by (try assumption; rewrite map_length; lia). cbn [bind].
  rewrite mapM_a2 by assumption. cbn [bind]. destruct vs as [|v vs]; [reflexivity|].
  apply decode_a2_mixed; [assumption|]. intros S. apply N. split; [cbn in *; lia|assumption].
Qed.
(** when a reader succeeds *)
Definition readable (f : fmt) (vs : list Z) : Prop :=
  match f with A0 => vs <> [] | A1 _ => True | A2 => (2 <= length vs)%nat /\ one_side vs end.
Lemma readable_dec f vs : Forall word_ok vs -> {readable f vs} + {~ readable f vs}.
Proof.
  intros F. destruct f; cbn; [destruct vs; [right; congruence|left; discriminate]|now left|].
  destruct (le_lt_dec 2 (length vs)); [|right; intros [A _]; lia]. destruct (one_side_dec vs F); [now left|right; tauto].
Qed.
Lemma read_encode p f r fr vs : Forall word_ok vs ->
  (readable f vs -> read p f (encode f vs) r fr = Ok (out p f r fr vs)) /\
  (~ readable f vs -> read p f (encode f vs) r fr = Err TypeError).
Proof.
  intros F. destruct f; cbn [readable read].
  - rewrite read_a0_encode by assumption. destruct vs; split; intros H; try reflexivity; try congruence; exfalso; apply H; discriminate.
  - split; [intros _; now apply read_a1_encode|tauto].
  - split; [intros [N S]; now apply read_a2_encode|intros N; now apply read_a2_bad].
Qed.

(** ** Streaming *)
Definition esize (f : fmt) : Z := match f with A0 => 18 | A1 _ => 8 | A2 => 17 end.
Lemma encode1_len f v : len (encode1 f v) = esize f.
Proof.
  destruct f as [|[]|]; cbn [encode1 esize]; rewrite <- ?hexn_hex; autorewrite with lens; rewrite ?le_enc_len;
    unfold len; rewrite ?hexn_length; reflexivity.
Qed.
Lemma encode_len f vs : len (encode f vs) = esize f * len vs.
Proof.
  unfold encode. induction vs as [|v vs IH]; [cbn [map concat]; unfold len; cbn [length]; lia|].
  cbn [map concat]. rewrite len_app, len_cons, IH, encode1_len. lia.
Qed.
Lemma esize_pos f : 0 < esize f. Proof. destruct f; reflexivity. Qed.
Lemma take_encode f n vs : 0 <= n -> take (n * esize f) (encode f vs) = encode f (take n vs).
Proof.
  intros N. pose proof (esize_pos f). destruct (Z.le_gt_cases (len vs) n).
  - rewrite (take_all n vs), take_all by (rewrite ?encode_len; nia). reflexivity.
  - rewrite <- (take_drop n vs) at 1. unfold encode at 1. rewrite map_app, concat_app. fold (encode f (take n vs)).
    apply take_app_exact. rewrite encode_len, len_take by lia. nia.
Qed.
Lemma drop_encode f n vs : 0 <= n -> drop (n * esize f) (encode f vs) = encode f (drop n vs).
Proof.
  intros N. pose proof (esize_pos f). destruct (Z.le_gt_cases (len vs) n).
  - rewrite (drop_all n vs), drop_all by (rewrite ?encode_len; nia). reflexivity.
  - rewrite <- (take_drop n vs) at 1. unfold encode at 1. rewrite map_app, concat_app. fold (encode f (take n vs)).
    apply drop_app_exact. rewrite encode_len, len_take by lia. nia.
Qed.
(** batches of [b] words *)
Fixpoint pieces (fuel : nat) (b : Z) (vs : list Z) : list (list Z) :=
  match fuel with
  | O => []
  | S k => match take b vs with [] => [] | c => c :: pieces k b (drop b vs) end
  end.
Lemma reads_encode f b : 0 < b -> forall fuel vs, reads fuel (b * esize f) (encode f vs) = map (encode f) (pieces fuel b vs).
Proof.
  intros B. induction fuel as [|fuel IH]; intros vs; [reflexivity|]. cbn [reads pieces].
  rewrite take_encode, drop_encode by lia. rewrite IH. pose proof (esize_pos f).
  destruct (take b vs) as [|v r] eqn:T; [reflexivity|]. cbn [map].
  destruct (encode f (v :: r)) eqn:E; [|reflexivity].
  exfalso. apply (f_equal len) in E. rewrite encode_len, len_cons, len_nil in E. pose proof (len_nonneg r). nia.
Qed.
Lemma pieces_spec b : 0 < b -> forall fuel vs, (length vs < fuel)%nat ->
  concat (pieces fuel b vs) = vs /\
  len (pieces fuel b vs) = (len vs - 1) / b + 1 /\
  Forall (fun c => 0 < len c <= b) (pieces fuel b vs) /\
  (forall cs c, pieces fuel b vs = cs ++ [c] -> Forall (fun x => len x = b) cs).
Proof.
  intros B. induction fuel as [|fuel IH]; intros vs L; [lia|]. cbn [pieces].
  destruct vs as [|v vs'].
  - replace (take b (@nil Z)) with (@nil Z) by (symmetry; apply take_all; rewrite len_nil; lia).
    split; [reflexivity|]. split; [|split; [constructor|]].
    { unfold len; cbn [length Z.of_nat]. replace ((0 - 1) / b) with (-1) by (apply Z.div_unique with (b - 1); lia). reflexivity. }
    intros cs c E. destruct cs; discriminate E.
  - set (vs := v :: vs') in *. destruct (take b vs) as [|x r] eqn:T.
    { unfold vs in T. rewrite take_cons in T by lia. discriminate T. }
    rewrite <- T. pose proof (len_cons v vs') as LV. fold vs in LV. pose proof (len_nonneg vs').
    assert (LD : len (drop b vs) = Z.max 0 (len vs - b)) by (apply len_drop; lia).
    destruct (IH (drop b vs)) as (C & N & F & Q). { unfold len in LD, LV. lia. }
    split; [cbn [concat]; rewrite C; apply take_drop|]. split; [|split].
    + rewrite len_cons, N, LD. destruct (Z.le_gt_cases (len vs) b).
      * rewrite Z.max_l by lia. replace ((0 - 1) / b) with (-1) by (apply Z.div_unique with (b - 1); lia).
        rewrite Z.div_small by lia. lia.
      * rewrite Z.max_r by lia. replace (len vs - 1) with ((len vs - b - 1) + 1 * b) by lia. rewrite Z.div_add by lia. lia.
    + constructor; [rewrite len_take by lia; lia|assumption].
    + intros [|c0 cs] c E; [constructor|]. cbn [app] in E. injection E as E1 E2. constructor; [|eapply Q; exact E2].
      subst c0. rewrite len_take by lia.
      destruct (Z.le_gt_cases (len vs) b); [|lia]. exfalso.
      destruct (drop b vs) as [|y d] eqn:D; [|rewrite len_cons in LD; pose proof (len_nonneg d); lia].
      destruct fuel; [destruct cs; discriminate E2|]. cbn [pieces] in E2.
      replace (take b (@nil Z)) with (@nil Z) in E2 by (symmetry; apply take_all; rewrite len_nil; lia).
      destruct cs; discriminate E2.
Qed.
Lemma sread_eq p f file r fr b : sread p f file r fr b =
  let* n := num_batches (esize f) (len file) b in
  Ok (run_stream (match f with
                  | A0 => fun x => let* vs := parse_lines x in decode_a0 p r fr vs
                  | A1 lg => fun x => let* ws := frombuffer x in decode_a1 p lg r fr ws
                  | A2 => fun x => let* vs := parse_lines x in decode_a2 p r fr vs
                  end) (file_reads (b * esize f) file), n).
Proof. destruct f; reflexivity. Qed.
Definition decode_buf (p : Z) (f : fmt) (r : TSRES) (fr : bool) (x : list Z) : pyres (tarr * list Z) :=
  match f with
  | A0 => let* vs := parse_lines x in decode_a0 p r fr vs
  | A1 lg => let* ws := frombuffer x in decode_a1 p lg r fr ws
  | A2 => let* vs := parse_lines x in decode_a2 p r fr vs
  end.
(** when a buffer of whole events decodes *)
Definition bufferable (f : fmt) (vs : list Z) : Prop := match f with A2 => one_side vs | _ => True end.
Lemma decode_buf_ok p f r fr vs : Forall word_ok vs -> vs <> [] -> bufferable f vs ->
  decode_buf p f r fr (encode f vs) = Ok (out p f r fr vs).
Proof.
  intros F N B. destruct f; cbn [decode_buf].
  - rewrite encode_a0_text. destruct (a0_lines_ok vs) as [L1 _]. rewrite parse_lines_text; [|assumption|].
    + rewrite mapM_a0 by assumption. cbn [bind]. now apply decode_a0_ints.
    + intros E. apply (f_equal (@length _)) in E. rewrite a0_lines_length in E. destruct vs; [congruence|cbn in E; lia].
  - unfold frombuffer. rewrite encode_len. cbn [esize]. replace ((8 * len vs) mod 4 =? 0) with true by lia.
    cbn [bind]. now apply decode_a1_words.
  - rewrite encode_a2_text. destruct (a2_lines_ok vs) as [L1 _]. rewrite parse_lines_text; [|assumption|].
    + rewrite mapM_a2 by assumption. cbn [bind]. now apply decode_a2_ok.
    + destruct vs; [congruence|discriminate].
Qed.
Lemma decode_buf_mixed p r fr vs : Forall word_ok vs -> vs <> [] -> ~ one_side vs ->
  decode_buf p A2 r fr (encode A2 vs) = Err TypeError.
Proof.
  intros F N B. cbn [decode_buf]. rewrite encode_a2_text. destruct (a2_lines_ok vs) as [L1 _]. rewrite parse_lines_text; [|assumption|].
  - rewrite mapM_a2 by assumption. cbn [bind]. now apply decode_a2_mixed.
  - destruct vs; [congruence|discriminate].
Qed.
Lemma sread_encode p f r fr b vs : Forall word_ok vs -> 0 < b ->
  sread p f (encode f vs) r fr b =
  Ok (run_stream (decode_buf p f r fr) (map (encode f) (pieces (S (length (encode f vs))) b vs)), (len vs - 1) / b + 1).
Proof.
  intros F B. rewrite sread_eq. unfold num_batches. replace (b =? 0) with false by lia. cbn [bind].
  pose proof (esize_pos f) as P. do 2 f_equal.
  - unfold file_reads. replace (b * esize f <? 0) with false by nia. rewrite reads_encode by lia. destruct f; reflexivity.
  - f_equal. rewrite encode_len. destruct (Z.eq_dec (len vs) 0) as [->|N].
    + rewrite Z.mul_0_r. replace ((0 - 1) / (b * esize f)) with (-1) by (apply Z.div_unique with (b * esize f - 1); nia).
      apply Z.div_unique with (b - 1); lia.
    + pose proof (len_nonneg vs). rewrite (Z.mul_comm b), <- Z.div_div by lia. f_equal.
      symmetry. apply Z.div_unique with (esize f - 1); lia.
Qed.
Lemma run_stream_ok p f r fr cs : Forall (fun c => Forall word_ok c /\ c <> [] /\ bufferable f c) cs ->
  run_stream (decode_buf p f r fr) (map (encode f) cs) = mkS (map (out p f r fr) cs) None.
Proof.
  induction 1 as [|c cs (F & N & B) FF IH]; [reflexivity|]. cbn [map run_stream].
  now rewrite decode_buf_ok, IH by assumption.
Qed.
Lemma pieces_fuel f vs : (length vs < S (length (encode f vs)))%nat.
Proof. pose proof (encode_len f vs) as L. pose proof (esize_pos f). unfold len in L. nia. Qed.
Lemma Forall_concat_inv {A} (P : A -> Prop) ls : Forall P (concat ls) -> Forall (Forall P) ls.
Proof. induction ls as [|l ls IH]; intros H; [constructor|]. cbn in H. apply Forall_app in H as [H1 H2]. constructor; auto. Qed.
Lemma one_side_concat ls : one_side (concat ls) -> Forall one_side ls.
Proof.
  intros [H|H]; apply Forall_concat_inv in H; (eapply Forall_impl; [|exact H]); intros l Hl; [now left|now right].
Qed.
Lemma sread_good p f r fr b vs : Forall word_ok vs -> 0 < b -> bufferable f vs ->
  exists cs, sread p f (encode f vs) r fr b = Ok (mkS (map (out p f r fr) cs) None, len cs) /\
    concat cs = vs /\ Forall (fun c => 0 < len c <= b) cs /\ (forall cs' c, cs = cs' ++ [c] -> Forall (fun x => len x = b) cs').
Proof.
  intros F B S. destruct (pieces_spec b B _ _ (pieces_fuel f vs)) as (C & N & L & Q).
  exists (pieces (Datatypes.S (length (encode f vs))) b vs). split; [|auto].
  rewrite sread_encode by assumption. rewrite run_stream_ok; [now rewrite N|].
  assert (FW : Forall (Forall word_ok) (pieces (Datatypes.S (length (encode f vs))) b vs)) by (apply Forall_concat_inv; now rewrite C).
  assert (FB : Forall (bufferable f) (pieces (Datatypes.S (length (encode f vs))) b vs)).
  { destruct f; cbn in *; try (apply Forall_forall; auto; fail). apply one_side_concat. now rewrite C. }
  rewrite Forall_forall in *. intros c I. split; [now apply FW|]. split; [|now apply FB].
  intros ->. specialize (L [] I). unfold len in L. cbn in L. lia.
Qed.
