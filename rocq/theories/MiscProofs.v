(** Proofs for MiscModel. *)
From Coq Require Import QArith Qabs Qround Lqa Sorted.
From Verif Require Import Float Base TimestampsModel TimestampsSpec TimestampsProofs TimestampsProofs2 TimestampsProofs5 TimestampsProofs6 EpochsModel UtilsModel UtilsSpec UtilsProofs MiscModel MiscSpec.
Local Open Scope Z_scope.

(** ** Test events *)
Lemma mask54 t : 0 <= t -> (if Z.shiftl 1 54 <=? t then Z.land t 18014398509481983 else t) = t mod 2 ^ 54.
Proof.
  intros T. change (Z.shiftl 1 54) with (2 ^ 54). destruct (2 ^ 54 <=? t) eqn:E.
  - change 18014398509481983 with (Z.ones 54). apply Z.land_ones. lia.
  - symmetry. apply Z.mod_small. lia.
Qed.
Lemma legacy_word v : word_ok v -> le_enc 8 (Z.shiftl (Z.land v 4294967295) 32 + Z.shiftr v 32) = encode1 (A1 true) v.
Proof.
  intros W. change 4294967295 with (Z.ones 32). rewrite Z.land_ones, Z.shiftl_mul_pow2, Z.shiftr_div_pow2 by lia.
  unfold word_ok in W. change (2 ^ 64) with 18446744073709551616 in W. change (2 ^ 32) with 4294967296.
  assert (H : 0 <= v / 4294967296 < 4294967296) by (split; [apply Z.div_pos; lia|apply Z.div_lt_upper_bound; lia]).
  pose proof (Z.mod_pos_bound v 4294967296 eq_refl) as L.
  rewrite le_enc8_split by (change (2 ^ 64) with 18446744073709551616; lia).
  cbn [encode1]. unfold low, high. change (2 ^ 32) with 4294967296.
  f_equal; f_equal.
  - rewrite Z.add_comm, Z.mod_add by lia. apply Z.mod_small; lia.
  - rewrite Z.add_comm, Z.div_add by lia. rewrite (Z.div_small (v / 4294967296)) by lia. lia.
Qed.
Lemma get_event_word lg t d : 0 <= t -> 0 <= d < 16 -> get_event lg t d = Ok (encode1 (A1 lg) (word_of (t mod 2 ^ 54, d))).
Proof.
  intros T D. unfold get_event. replace (t <? 0) with false by lia. rewrite mask54 by assumption. cbv zeta.
  replace ((0 <=? d) && (d <? 16)) with true by lia. cbn [negb].
  assert (W : word_ok (word_of (t mod 2 ^ 54, d))).
  { unfold word_ok, word_of. cbn [fst snd]. pose proof (Z.mod_pos_bound t (2 ^ 54) eq_refl) as B.
    change (2 ^ 54) with 18014398509481984 in *. change (2 ^ 64) with 18446744073709551616. change (2 ^ 10) with 1024. lia. }
  replace (Z.shiftl (t mod 2 ^ 54) 10 + d) with (word_of (t mod 2 ^ 54, d)) by (unfold word_of; cbn [fst snd]; now rewrite Z.shiftl_mul_pow2 by lia).
  f_equal. destruct lg; [now apply legacy_word|]. now rewrite le_enc8_split.
Qed.
Lemma event_words_ok ts : Forall (fun t => 0 <= t) ts -> Forall word_ok (event_words ts).
Proof.
  intros F. unfold event_words. apply Forall_map. eapply Forall_impl; [|exact F]. intros t T. unfold word_ok, word_of. cbn [fst snd].
  pose proof (Z.mod_pos_bound t (2 ^ 54) eq_refl) as B.
  change (2 ^ 54) with 18014398509481984 in *. change (2 ^ 64) with 18446744073709551616. change (2 ^ 10) with 1024. lia.
Qed.
Lemma write_all_ok lg ts : Forall (fun t => 0 <= t) ts -> write_all lg ts = (encode (A1 lg) (event_words ts), None).
Proof.
  induction 1 as [|t ts T F IH]; [reflexivity|]. cbn [write_all]. rewrite get_event_word by lia. rewrite IH. reflexivity.
Qed.
Lemma words_events ts : Forall (fun t => 0 <= t) ts ->
  map time_of (event_words ts) = map (fun t => t mod 2 ^ 54) ts /\ map pattern_of (event_words ts) = map (fun _ => 1) ts.
Proof.
  intros F. unfold event_words. rewrite !map_map. split; apply map_ext; intros t; unfold time_of, pattern_of, word_of; cbn [fst snd];
    pose proof (Z.mod_pos_bound t (2 ^ 54) eq_refl) as B; change (2 ^ 10) with 1024; change (2 ^ 4) with 16; set (x := t mod 2 ^ 54) in *.
  - rewrite Z.add_comm, Z.div_add by lia. reflexivity.
  - replace (x * 1024 + 1) with (1 + (x * 64) * 16) by lia. now rewrite Z.mod_add by lia.
Qed.
Lemma c63_bad lg t d : t < 0 \/ d < 0 \/ 16 <= d -> get_event lg t d = Err AssertionError.
Proof.
  intros H. unfold get_event. destruct (t <? 0) eqn:E; [reflexivity|]. cbv zeta.
  replace ((0 <=? d) && (d <? 16)) with false by lia. reflexivity.
Qed.
Lemma c63_file p x ts : Forall (fun t => 0 <= t) ts -> exists file, generate x ts = (file, None) /\
  read_a1 p file false PS4 false = Ok (TU64 (map (fun t => t mod 2 ^ 54) ts), map (fun _ => 1) ts).
Proof.
  intros F. exists (encode (A1 false) (event_words ts)). split; [unfold generate; now apply write_all_ok|].
  rewrite read_a1_encode by now apply event_words_ok. destruct (words_events ts F) as [A B].
  unfold out, raw_t. cbn [format_timestamps]. now rewrite A, B.
Qed.
Lemma print_exact p t : 54 <= p -> 0 <= t < 2 ^ 54 ->
  print_time p (fl p (fl p (inject_Z t) / (inject_Z 256 / inject_Z (rvalue NS1))))%Q = t.
Proof.
  intros P T. unfold print_time. apply qtrunc_int.
  assert (U : (fl p (fl p (inject_Z t) / (inject_Z 256 / inject_Z (rvalue NS1))) == in_units NS1 t)%Q).
  { rewrite (fl_eq p _ (in_units NS1 t)); [now apply fl_units|]. rewrite (fl_time p t P T). apply in_units_div. }
  rewrite (fl_eq p _ (inject_Z t)); [now apply fl_time|]. rewrite U. apply (units_scaled NS1 t).
Qed.
Lemma c65 p x file evs : 54 <= p -> Forall event_ok evs -> let stdin := encode (A1 x) (map word_of evs) in
  decode_file p x file stdin = (Some stdin, Ok (map fst evs)).
Proof.
  intros P O. cbv zeta. unfold decode_file. f_equal.
  assert (W : Forall word_ok (map word_of evs)) by now apply words_of_ok.
  rewrite read_a1_encode by assumption. unfold out, raw_t. cbn [bind format_timestamps tvalues]. f_equal.
  rewrite !map_map. apply map_ext_Forall. eapply Forall_impl; [|exact O]. intros e E.
  rewrite (proj1 (time_word e E)). destruct E as [E _]. now apply print_exact.
Qed.

(** ** Log levels *)
Lemma c66 v : 0 <= v -> verbosity2level v = Ok (if v =? 0 then WARNING else if v =? 1 then INFO else DEBUG).
Proof.
  intros H. unfold verbosity2level. change (len [WARNING; INFO; DEBUG] - 1) with 2. cbv zeta.
  destruct (v =? 0) eqn:A; [replace v with 0 by lia; reflexivity|].
  destruct (v =? 1) eqn:B; [replace v with 1 by lia; reflexivity|]. replace (Z.min v 2) with 2 by lia. reflexivity.
Qed.

(** ** Log lines *)
Lemma prefix_of_spec d : forall s r, prefix_of d s = Some r <-> s = d ++ r.
Proof.
  induction d as [|x d IH]; intros [|y s] r; cbn [prefix_of app]; split; intros H; try congruence.
  - destruct (x =? y) eqn:E; [|congruence]. apply IH in H. subst s. f_equal. lia.
  - inv H. rewrite Z.eqb_refl. now apply IH.
Qed.
Lemma partition_parts delim : forall message pre text, parts delim message pre text -> partition delim message = (pre, text).
Proof.
  induction message as [|c m IH]; intros pre text [E U].
  - destruct pre; [|cbn in E; congruence]. destruct delim; [|cbn in E; congruence]. cbn in E. subst text. reflexivity.
  - assert (PO : prefix_of delim (c :: m) = Some text \/ prefix_of delim (c :: m) = None /\ pre <> []).
    { destruct (prefix_of delim (c :: m)) as [r|] eqn:F.
      - left. f_equal. apply prefix_of_spec in F. specialize (U [] r F). destruct pre; [|cbn in U; lia]. cbn in E. rewrite F in E. now apply app_inv_head in E.
      - right. split; [reflexivity|]. intros ->. cbn [app] in E. assert (prefix_of delim (c :: m) = Some text) by now apply prefix_of_spec. congruence. }
    destruct PO as [F|[F N]].
    + assert (pre = []). { apply prefix_of_spec in F. specialize (U [] text F). destruct pre; [reflexivity|cbn in U; lia]. }
      subst pre. cbn [partition]. rewrite F. reflexivity.
    + destruct pre as [|c' pre]; [congruence|]. cbn [app] in E. inv E. cbn [partition]. rewrite F.
      rewrite (IH pre text); [reflexivity|]. split; [reflexivity|]. intros pre' text' E.
      specialize (U (c' :: pre') text'). cbn [app length] in U. rewrite E in U. specialize (U eq_refl). lia.
Qed.
Lemma join_lines_lines x l : join_lines (x :: l) = lines x l.
Proof.
  unfold lines. revert x. induction l as [|y l IH]; intros x; [cbn; now rewrite app_nil_r|].
  cbn [map concat]. change (join_lines (x :: y :: l)) with (x ++ 10 :: join_lines (y :: l)). rewrite IH. cbn [app]. reflexivity.
Qed.
Lemma strip_spec n body : hd 0 body <> 32 -> strip_spaces (repeat 32 n ++ body) = body.
Proof.
  intros H. induction n as [|n IH]; [|exact IH]. cbn [repeat app]. destruct body as [|c b]; [reflexivity|].
  cbn [strip_spaces hd] in *. replace (c =? 32) with false by lia. reflexivity.
Qed.
Lemma blanked_map isspace pre : blanked isspace pre (map (fun c => if isspace c then c else 32) pre).
Proof. unfold blanked. induction pre as [|c pre IH]; constructor; [|exact IH]. destruct (isspace c); auto. Qed.
Lemma c74 isspace delim message d shown pre n body : parts delim message pre (repeat 32 n ++ body) -> hd 0 body <> 32 ->
  exists blank, blanked isspace pre blank /\
  let line := fun head t => head ++ delim ++ repeat 32 (n + 2) ++ t in
  match detail_lines d with
  | [] => format_record isspace true delim message d shown = message
  | t1 :: ts => format_record isspace true delim message d shown =
                match body with
                | [] => lines (line pre t1) (map (line blank) ts)
                | _ => lines message (map (line blank) (t1 :: ts))
                end
  end.
Proof.
  intros P B. exists (map (fun c => if isspace c then c else 32) pre). split; [apply blanked_map|]. cbv zeta.
  assert (L : match d with DetailList l => l | DetailDict l => map (fun kv => fst kv ++ 58 :: 32 :: snd kv) l | _ => [] end = detail_lines d) by (destruct d; reflexivity).
  assert (NP : (length (repeat 32%Z n ++ body) - length body)%nat = n) by (rewrite app_length, repeat_length; lia).
  assert (PAD : forall t : list Z, repeat 32 n ++ [32; 32] ++ t = repeat 32 (n + 2) ++ t).
  { intros t. rewrite (repeat_app 32 n 2), <- app_assoc. reflexivity. }
  destruct (detail_lines d) as [|t1 ts] eqn:DL.
  - unfold format_record. cbn [negb]. rewrite L. destruct d; reflexivity.
  - unfold format_record. cbn [negb]. rewrite L. rewrite (partition_parts _ _ _ _ P). rewrite strip_spec by assumption. rewrite NP.
    assert (R : forall head l, map (fun t : list Z => head ++ delim ++ repeat 32 n ++ [32; 32] ++ t) l = map (fun t => head ++ delim ++ repeat 32 (n + 2) ++ t) l).
    { intros head l. apply map_ext. intros t. now rewrite PAD. }
    assert (G : match body with
                | [] => join_lines ((pre ++ delim ++ repeat 32 n ++ [32; 32] ++ t1) ::
                         map (fun t => map (fun c => if isspace c then c else 32) pre ++ delim ++ repeat 32 n ++ [32; 32] ++ t) ts)
                | _ :: _ => join_lines (message :: map (fun t => map (fun c => if isspace c then c else 32) pre ++ delim ++ repeat 32 n ++ [32; 32] ++ t) (t1 :: ts))
                end = match body with
                | [] => lines (pre ++ delim ++ repeat 32 (n + 2) ++ t1) (map (fun t => map (fun c => if isspace c then c else 32) pre ++ delim ++ repeat 32 (n + 2) ++ t) ts)
                | _ :: _ => lines message (map (fun t => map (fun c => if isspace c then c else 32) pre ++ delim ++ repeat 32 (n + 2) ++ t) (t1 :: ts))
                end).
    { rewrite !R, PAD. destruct body; apply join_lines_lines. }
    destruct d; [discriminate DL|exact G|exact G|discriminate DL].
Qed.
Lemma c74_plain isspace delim message d shown : format_record isspace false delim message d shown =
  match d with NoDetails => message | _ => message ++ [9] ++ shown end.
Proof. destruct d; reflexivity. Qed.
