(** Files: line endings, batches, remarks and malformed lines. *)
From Coq Require Import QArith Lia ZifyBool.
From Verif Require Import Float Base TimestampsModel TimestampsSpec TimestampsProofs TimestampsProofs2 TextModel TextSpec TextProofs.
Local Open Scope Z_scope.

Lemma plain_file f vs : text_format f -> file_of (plain_lines f vs) = encode f vs /\ Forall hexline (plain_lines f vs) /\ Forall (fun l => len l <= Z.of_nat (line_digits f)) (plain_lines f vs).
Proof.
  intros [-> | ->].
  - assert (E : plain_lines A0 vs = a0_lines vs) by (unfold plain_lines, a0_lines; f_equal; apply map_ext; intros v; now rewrite !hexn_hex).
    rewrite E, encode_a0_text. split; [reflexivity|]. apply a0_lines_ok.
  - assert (E : plain_lines A2 vs = map (hexn 16) vs) by (unfold plain_lines; induction vs as [|v vs IH]; [reflexivity|]; cbn [map concat app]; now rewrite IH, hexn_hex).
    rewrite E, encode_a2_text. split; [reflexivity|]. apply a2_lines_ok.
Qed.
Lemma encode_clean f vs : text_format f -> clean (encode f vs) = true.
Proof. intros T. destruct (plain_file f vs T) as (<- & H & _). now apply clean_text. Qed.

(** ** C160 *)
Lemma text_read_same p f a b r fr : text_format f -> universal a = universal b -> ascii a = ascii b -> text_read p f a r fr = text_read p f b r fr.
Proof. intros [-> | ->] U A; cbn [text_read]; unfold gen_lines; now rewrite U, A. Qed.
Lemma c160 p f r fr b vs file : text_format f -> endings file (encode f vs) ->
  text_read p f file r fr = read p f (encode f vs) r fr /\
  match sread p f (encode f vs) r fr b with
  | Ok (s, n) => exists m, text_sread p f file r fr b = Ok (s, m) /\ (0 < b -> n <= m)
  | Err e => text_sread p f file r fr b = Err e
  end.
Proof.
  intros T E. pose proof (encode_clean f vs T) as CL. destruct (endings_universal _ _ E) as (U1 & U2 & A & L). split.
  - rewrite (text_read_same p f file (encode f vs)) by congruence. now apply text_read_clean.
  - rewrite <- text_sread_clean by assumption. assert (AB : ascii (encode f vs) = true) by now apply clean_ascii.
    destruct T as [-> | ->]; cbn [text_sread]; rewrite A, AB, U1, U2; unfold num_batches; (destruct (b =? 0) eqn:Z0; [reflexivity|]); cbn [bind]; eexists; (split; [reflexivity|]); intros P; apply Z.add_le_mono_r, Z.div_le_mono; lia.
Qed.

Lemma c160_plain p f file r fr b : clean file = true -> text_read p f file r fr = read p f file r fr /\ text_sread p f file r fr b = sread p f file r fr b.
Proof. intros H. split; [now apply text_read_clean|now apply text_sread_clean]. Qed.

(** ** C161 *)
Lemma reads_props n : 0 < n -> forall fuel l, (length l < fuel)%nat -> concat (reads fuel n l) = l /\ len (reads fuel n l) = (len l - 1) / n + 1.
Proof.
  intros N. induction fuel as [|fuel IH]; intros l L; [lia|]. cbn [reads]. destruct (take n l) as [|c t] eqn:E.
  - assert (LT : len (take n l) = 0) by now rewrite E. rewrite len_take in LT by lia. pose proof (len_nonneg l). assert (l = []) by (apply len_0_nil; lia). subst l.
    split; [reflexivity|]. change (@len (list Z) []) with 0. change (len (@nil Z) - 1) with (-1). assert (E1 : (-1) / n = -1) by (symmetry; apply Z.div_unique with (r := n - 1); lia). rewrite E1. reflexivity.
  - assert (LT : len (take n l) = len (c :: t)) by now rewrite E. rewrite len_take, len_cons in LT by lia. pose proof (len_nonneg t).
    assert (LD : len (drop n l) = Z.max 0 (len l - n)) by (apply len_drop; lia).
    destruct (IH (drop n l)) as [I1 I2]; [unfold len in *; lia|]. split.
    + cbn [concat]. rewrite I1, <- E. apply take_drop.
    + rewrite len_cons, I2, LD. destruct (Z_lt_le_dec n (len l)).
      * rewrite Z.max_r by lia. replace (len l - 1) with (len l - n - 1 + 1 * n) by lia. rewrite Z.div_add by lia. lia.
      * rewrite Z.max_l by lia. change (0 - 1) with (-1). assert (E1 : (-1) / n = -1) by (symmetry; apply Z.div_unique with (r := n - 1); lia). assert (E2 : (len l - 1) / n = 0) by (apply Z.div_small; lia). rewrite E1, E2. reflexivity.
Qed.
Lemma file_reads_props n l : 0 < n -> concat (file_reads n l) = l /\ len (file_reads n l) = (len l - 1) / n + 1.
Proof. intros N. unfold file_reads. replace (n <? 0) with false by lia. apply reads_props; lia. Qed.
Lemma run_stream_all g bufs : fails (run_stream g bufs) = None -> len (batches (run_stream g bufs)) = len bufs.
Proof.
  induction bufs as [|b bufs IH]; [reflexivity|]. cbn [run_stream]. destruct (g b) as [x|e]; [|discriminate]. cbn [fails batches]. intros H. rewrite !len_cons. now rewrite IH.
Qed.
Lemma c161_actual p f file r fr b s n : text_format f -> 0 < b -> text_sread p f file r fr b = Ok (s, n) -> fails s = None ->
  n = (len file - 1) / (b * unit_size f) + 1 /\ len (batches s) = (len (universal file) - 1) / (b * unit_size f) + 1.
Proof.
  intros T B H F. destruct T as [-> | ->]; cbn [text_sread unit_size] in *; (destruct (ascii file); [|discriminate]); unfold num_batches in H; replace (b =? 0) with false in H by lia; cbn [bind] in H; injection H as <- <-;
    (split; [reflexivity|]); rewrite run_stream_all by assumption; apply file_reads_props; lia.
Qed.
Lemma c161_endings p f file plain r fr b s n : text_format f -> endings file plain -> 0 < b -> text_sread p f file r fr b = Ok (s, n) -> fails s = None ->
  n = (len file - 1) / (b * unit_size f) + 1 /\ len (batches s) = (len plain - 1) / (b * unit_size f) + 1.
Proof. intros T E. destruct (endings_universal _ _ E) as (<- & _). now apply c161_actual. Qed.
Lemma universal_id file : ~ In 13 file -> universal file = file.
Proof. induction file as [|c file IH]; intros H; [reflexivity|]. cbn [universal]. replace (c =? CR) with false; [|symmetry; unfold CR; apply Z.eqb_neq; intros ->; apply H; now left]. f_equal. apply IH. intros I. apply H. now right. Qed.
Lemma c161_partial p f file r fr b s n : (text_format f -> ~ In 13 file) -> 0 < b -> text_sread p f file r fr b = Ok (s, n) -> fails s = None -> len (batches s) = n.
Proof.
  intros NC B H F. destruct f as [|lg|].
  - destruct (c161_actual p A0 file r fr b s n (or_introl eq_refl) B H F) as [-> ->]. rewrite universal_id by (apply NC; now left). reflexivity.
  - cbn [text_sread] in H. unfold sread_a1, num_batches in H. replace (b =? 0) with false in H by lia. cbn [bind] in H. injection H as <- <-. rewrite run_stream_all by assumption. apply file_reads_props. lia.
  - destruct (c161_actual p A2 file r fr b s n (or_intror eq_refl) B H F) as [-> ->]. rewrite universal_id by (apply NC; now right). reflexivity.
Qed.
Lemma universal_len file : len (universal file) <= len file.
Proof.
  enough (G : forall k file, (length file <= k)%nat -> len (universal file) <= len file) by now apply (G (length file)).
  induction k as [|k IH]; intros [|c f] L; cbn [length] in L; try lia; try (cbn [universal]; lia). cbn [universal]. destruct (c =? CR).
  - rewrite !len_cons. destruct f as [|d f]; [rewrite len_nil; lia|]. cbn [length] in L. destruct (d =? NL).
    + specialize (IH f ltac:(lia)). rewrite len_cons. lia.
    + specialize (IH (d :: f) ltac:(cbn [length]; lia)). lia.
  - specialize (IH f ltac:(lia)). rewrite !len_cons. lia.
Qed.

(** ** Lines *)
Definition inline (l : list Z) : Prop := Forall (fun c => 1 <= c <= 127 /\ c <> 10 /\ c <> 13) l.
Lemma universal_line l f : inline l -> universal (l ++ 10 :: f) = l ++ 10 :: universal f.
Proof. induction 1 as [|c l (_ & _ & C) F IH]; [reflexivity|]. cbn [app universal]. replace (c =? CR) with false by (unfold CR; lia). now rewrite IH. Qed.
Lemma split_line l f : inline l -> split_nl (l ++ 10 :: f) = l :: split_nl f.
Proof. induction 1 as [|c l (_ & C & _) F IH]; [reflexivity|]. cbn [app split_nl]. replace (c =? NL) with false by (unfold NL; lia). now rewrite IH. Qed.
Lemma ascii_line l f : inline l -> ascii (l ++ 10 :: f) = ascii f.
Proof. unfold ascii. intros H. rewrite forallb_app. replace (forallb (fun c => (1 <=? c) && (c <=? 127)) l) with true; [reflexivity|]. symmetry. apply forallb_forall. intros c C. unfold inline in H. rewrite Forall_forall in H. specialize (H c C). lia. Qed.
Lemma inline_spaces n : inline (repeat 32 n).
Proof. induction n as [|n IH]; [constructor|]. constructor; [lia|exact IH]. Qed.
Lemma inline_hex l : hexline l -> inline l.
Proof. intros [_ F]. eapply Forall_impl; [|exact F]. intros c [C _]. apply is_hex_digit in C as [d C]. unfold digit in C. lia. Qed.
Lemma remark_inline s : remark s -> inline s.
Proof. intros (n & t & -> & [-> | (u & -> & U)]); [rewrite app_nil_r; apply inline_spaces|]. apply Forall_app. split; [apply inline_spaces|]. constructor; [lia|exact U]. Qed.
Lemma before_hash_app l s : Forall (fun c => c <> 35) l -> before_hash (l ++ s) = l ++ before_hash s.
Proof. induction 1 as [|c l C F IH]; [reflexivity|]. cbn [app before_hash]. replace (c =? 35) with false by lia. now rewrite IH. Qed.
Lemma spaces_nohash n : Forall (fun c => c <> 35) (repeat 32 n).
Proof. induction n; constructor; [lia|assumption]. Qed.
Lemma remark_before s : remark s -> exists n, before_hash s = repeat 32 n.
Proof.
  intros (n & t & -> & T). exists n. rewrite before_hash_app by apply spaces_nohash. replace (before_hash t) with (@nil Z); [apply app_nil_r|]. destruct T as [-> | (u & -> & _)]; reflexivity.
Qed.
Lemma spaces_blank n : Forall (fun c => is_blank c = true) (repeat 32 n).
Proof. induction n; constructor; [reflexivity|assumption]. Qed.
Lemma rev_spaces n : rev (repeat 32 n) = repeat 32 n.
Proof. induction n as [|n IH]; [reflexivity|]. cbn [repeat rev]. rewrite IH. now rewrite <- repeat_cons. Qed.
Lemma strip_spaces n l k : Forall (fun c => is_blank c = false) l -> strip is_blank (repeat 32 n ++ l ++ repeat 32 k) = l.
Proof.
  intros F. unfold strip. rewrite lstrip_app by apply spaces_blank. destruct l as [|c l].
  - cbn [app]. rewrite <- (app_nil_r (repeat 32 k)), lstrip_app by apply spaces_blank. reflexivity.
  - inversion F as [|? ? C F']; subst. rewrite (lstrip_keep is_blank ((c :: l) ++ repeat 32 k)) by (cbn [app]; exact C). rewrite rev_app_distr, rev_spaces, lstrip_app by apply spaces_blank.
    rewrite (lstrip_keep is_blank (rev (c :: l))); [apply rev_involutive|]. pose proof (Forall_rev F) as FR. destruct (rev (c :: l)); [exact I|]. now inv FR.
Qed.
Definition nonempty_line (l : list Z) : bool := match l with [] => false | _ => true end.
Definition file_lines (file : list Z) : list (list Z) := filter (fun l => match l with [] => false | _ => true end) (map (fun l => strip is_blank (before_hash l)) (split_nl (universal file))).
Lemma annotated_lines ls file : annotated ls file -> Forall hexline ls -> ascii file = true /\ file_lines file = ls.
Proof.
  unfold file_lines. induction 1 as [|s ls f R A IH|n l s ls f R A IH]; intros H.
  - split; reflexivity.
  - destruct (IH H) as [I1 I2]. pose proof (remark_inline s R) as RI. cbn [app]. rewrite ascii_line, universal_line, split_line by assumption. split; [assumption|]. cbn [map filter].
    destruct (remark_before s R) as [k ->]. pose proof (strip_spaces k [] 0 ltac:(constructor)) as E. cbn [app repeat] in E. rewrite app_nil_r in E. now rewrite E.
  - inversion H as [|? ? HL HR]; subst. destruct (IH HR) as [I1 I2]. pose proof (remark_inline s R) as RI.
    assert (LI : inline (repeat 32 n ++ l ++ s)) by (apply Forall_app; split; [apply inline_spaces|]; apply Forall_app; split; [now apply inline_hex|assumption]).
    replace (repeat 32 n ++ l ++ s ++ [10] ++ f) with ((repeat 32 n ++ l ++ s) ++ 10 :: f) by (rewrite <- !app_assoc; reflexivity).
    rewrite ascii_line, universal_line, split_line by assumption. split; [assumption|]. cbn [map filter]. destruct HL as [HN HF].
    rewrite before_hash_app by apply spaces_nohash. rewrite before_hash_app by (eapply Forall_impl; [|exact HF]; intros c [C _]; now apply hex_not).
    destruct (remark_before s R) as [k ->]. rewrite strip_spaces by (eapply Forall_impl; [|exact HF]; intros c [C _]; now apply hex_not). rewrite I2. destruct l; [congruence|reflexivity].
Qed.
Lemma annotated_plain ls : annotated ls (file_of ls).
Proof.
  unfold file_of. induction ls as [|l ls IH]; [constructor|]. cbn [map concat].
  replace ((l ++ [10]) ++ concat (map (fun l0 => l0 ++ [10]) ls)) with (repeat 32 0 ++ l ++ [] ++ [10] ++ concat (map (fun l0 => l0 ++ [10]) ls)) by (cbn [repeat app]; now rewrite <- app_assoc).
  constructor; [|assumption]. exists 0%nat, []. split; [reflexivity|now left].
Qed.
Lemma text_read_lines p f a b r fr : text_format f -> file_lines a = file_lines b -> ascii a = ascii b -> text_read p f a r fr = text_read p f b r fr.
Proof. intros T L A. unfold file_lines in L. destruct T as [-> | ->]; cbn [text_read]; unfold gen_lines; now rewrite L, A. Qed.
Lemma c162_partial p f r fr vs file : text_format f -> annotated (plain_lines f vs) file -> text_read p f file r fr = read p f (encode f vs) r fr.
Proof.
  intros T A. destruct (plain_file f vs T) as (E & H & _). destruct (annotated_lines _ _ A H) as [A1 L1]. destruct (annotated_lines _ _ (annotated_plain (plain_lines f vs)) H) as [A2 L2]. rewrite E in A2, L2.
  rewrite (text_read_lines p f file (encode f vs)) by congruence. apply text_read_clean. now apply encode_clean.
Qed.

(** ** Foreign characters *)
Lemma numeral_chars s v : numeral s v -> Forall (fun c => ~ foreign c) s.
Proof.
  intros (w1 & sg & m & pre & gs & ds & w2 & -> & W1 & W2 & IS & IP & _ & _ & D & _).
  assert (W : forall w, Forall blank w -> Forall (fun c => ~ foreign c) w) by (intros w B; eapply Forall_impl; [|exact B]; intros c C (_ & N & _); contradiction).
  repeat (apply Forall_app; split); [now apply W| | | |now apply W].
  - cbn [In] in IS. destruct IS as [E|[E|[E|[]]]]; inv E; repeat constructor; intros (_ & _ & _ & N); apply N; cbn [In]; tauto.
  - cbn [In] in IP. assert (Z0 : ~ foreign 48) by (intros (N & _); apply N; exists 0; left; lia).
    assert (ZX : forall c, In c [43; 45; 95; 120; 88] -> ~ foreign c) by (intros c C (_ & _ & _ & N); contradiction).
    destruct IP as [<-|[<-|[<-|[<-|[<-|[]]]]]]; repeat (constructor; [first [exact Z0|apply ZX; cbn [In]; tauto]|]); constructor.
  - assert (G : Forall (fun c => ~ foreign c) (concat gs)).
    { clear - D. remember (concat gs) as l eqn:E. clear E gs. induction D as [|c d l ds C F IH]; constructor; [|assumption]. intros (N & _). apply N. now exists d. }
    assert (ZU : ~ foreign 95) by (intros (_ & _ & _ & N); apply N; cbn [In]; tauto).
    destruct gs as [|g gs]; [constructor|]. cbn [grouped]. cbn [concat] in G. apply Forall_app in G as [G1 G2]. apply Forall_app. split; [assumption|]. clear - G2 ZU.
    induction gs as [|h gs IH]; [constructor|]. cbn [map concat app] in *. apply Forall_app in G2 as [G2 G3]. constructor; [assumption|]. apply Forall_app. split; [assumption|now apply IH].
Qed.
Lemma foreign_number c s : foreign c -> In c s -> int16_text s = Err ValueError.
Proof.
  intros F I. destruct (int16_text s) as [v|e] eqn:E; [|now rewrite (int16_text_err s e E)]. apply int16_text_sound, numeral_chars in E. rewrite Forall_forall in E. now apply E in I.
Qed.
Lemma mapM_foreign c ls : foreign c -> In c (concat ls) -> ints ls = Err ValueError.
Proof.
  intros F I. unfold ints. enough (E : mapM int16_text ls = Err ValueError) by now rewrite E.
  induction ls as [|l ls IH]; [contradiction|]. cbn [concat] in I. cbn [mapM]. destruct (int16_text l) as [v|e] eqn:E; cbn [bind].
  - apply in_app_or in I as [I|I]; [rewrite (foreign_number c l F I) in E; discriminate|]. now rewrite IH.
  - now rewrite (int16_text_err l e E).
Qed.
Lemma in_universal c file : c <> 10 -> c <> 13 -> In c file -> In c (universal file).
Proof.
  intros N R. enough (G : forall k file, (length file <= k)%nat -> In c file -> In c (universal file)) by now apply (G (length file)).
  induction k as [|k IH]; intros [|d f] L I; cbn [length] in L; try contradiction; try lia. cbn [universal]. destruct (d =? CR) eqn:E.
  - destruct I as [->|I]; [unfold CR in E; lia|]. right. destruct f as [|e f]; [contradiction|]. cbn [length] in L. destruct (e =? NL) eqn:EN.
    + destruct I as [->|I]; [unfold NL in EN; lia|]. apply IH; [lia|assumption].
    + apply IH; [cbn [length]; lia|assumption].
  - destruct I as [->|I]; [now left|]. right. apply IH; [lia|assumption].
Qed.
Lemma in_split c s : c <> 10 -> In c s -> In c (concat (split_nl s)).
Proof.
  intros N. induction s as [|d s IH]; intros I; [contradiction|]. cbn [split_nl]. destruct (d =? NL) eqn:E.
  - destruct I as [->|I]; [unfold NL in E; lia|]. cbn [concat app]. now apply IH.
  - destruct (split_nl s) as [|l ls]; destruct I as [->|I]; cbn [concat app].
    + now left.
    + now apply IH in I.
    + now left.
    + right. now apply IH.
Qed.
Lemma in_lstrip f c s : f c = false -> In c s -> In c (lstrip f s).
Proof. intros F I. destruct (lstrip_split f s) as (w & E & W & _). rewrite E in I. apply in_app_or in I as [I|I]; [|assumption]. rewrite Forall_forall in W. rewrite (W c I) in F. discriminate. Qed.
Lemma in_strip f c s : f c = false -> In c s -> In c (strip f s).
Proof. intros F I. unfold strip. apply -> in_rev. apply in_lstrip; [assumption|]. apply -> in_rev. now apply in_lstrip. Qed.
Lemma foreign_facts c : foreign c -> c <> 10 /\ c <> 13 /\ is_uspace c = false.
Proof. intros (_ & B & R & _). unfold blank in B. unfold is_uspace, is_space. lia. Qed.
Lemma buffer_foreign c buf : foreign c -> In c buf -> buffer_ints buf = Err ValueError.
Proof. intros F I. destruct (foreign_facts c F) as (N & R & U). unfold buffer_ints. apply (mapM_foreign c); [assumption|]. apply in_split; [assumption|]. now apply in_strip. Qed.
Lemma run_stream_fails g bufs c : foreign c -> In c (concat bufs) -> fails (run_stream (fun b => let* vs := buffer_ints b in g vs) bufs) <> None.
Proof.
  intros F. induction bufs as [|b bufs IH]; intros I; [contradiction|]. cbn [run_stream]. cbn [concat] in I. apply in_app_or in I as [I|I].
  - rewrite (buffer_foreign c b F I). cbn [bind fails]. discriminate.
  - destruct (let* vs := buffer_ints b in g vs) as [x|e]; cbn [fails]; [now apply IH|discriminate].
Qed.
Lemma c162_actual p f file r fr b s n c : text_format f -> foreign c -> In c file -> text_sread p f file r fr b = Ok (s, n) -> fails s <> None.
Proof.
  intros T F I H. destruct (foreign_facts c F) as (N & R & _). apply (in_universal c file N R) in I.
  assert (FR : forall k, k <> 0 -> concat (file_reads k (universal file)) = universal file).
  { intros k K. unfold file_reads. destruct (k <? 0) eqn:E; [destruct (universal file); [reflexivity|cbn [concat]; apply app_nil_r]|]. apply reads_props; lia. }
  destruct T as [-> | ->]; cbn [text_sread] in H; (destruct (ascii file); [|discriminate]); unfold num_batches in H; (destruct (b =? 0) eqn:B; [discriminate|]); cbn [bind] in H; injection H as <- _;
    (eapply run_stream_fails; [exact F|]); rewrite FR by lia; exact I.
Qed.

(** ** Malformed lines *)
Lemma single_file ls : Forall single_line ls -> ascii (file_of ls) = true /\ file_lines (file_of ls) = ls.
Proof.
  unfold file_lines, file_of. induction 1 as [|l ls (N & C & H & L) F [I1 I2]]; [split; reflexivity|]. cbn [map concat].
  assert (LI : inline l) by (eapply Forall_impl; [|exact C]; cbv beta; intros c X; lia). rewrite <- app_assoc. cbn [app]. rewrite ascii_line, universal_line, split_line by assumption. split; [assumption|]. cbn [map filter].
  rewrite before_hash_id by (eapply Forall_impl; [|exact C]; cbv beta; intros c X; lia).
  assert (ST : strip is_blank l = l).
  { unfold strip. assert (NB : forall c, In c l -> c <> 32 -> is_blank c = false) by (intros c X Y; rewrite Forall_forall in C; specialize (C c X); unfold is_blank, CR, NL; lia).
    rewrite (lstrip_keep is_blank l) by (destruct l as [|c l]; [exact I|]; apply NB; [now left|exact H]).
    rewrite (lstrip_keep is_blank (rev l)); [apply rev_involutive|]. destruct (exists_last N) as (l' & x & ->). rewrite last_last in L. rewrite rev_app_distr. cbn [rev app]. apply NB; [apply in_or_app; right; now left|exact L]. }
  rewrite ST, I2. destruct l; [congruence|reflexivity].
Qed.
Lemma val_bound s ds : Forall2 digit s ds -> forall acc, val ds acc < (acc + 1) * 16 ^ len s.
Proof.
  induction 1 as [|c d s ds D F IH]; intros acc; [cbn [val fold_left]; rewrite len_nil; lia|]. cbn [val fold_left]. specialize (IH (16 * acc + d)). unfold val in IH. rewrite len_cons.
  replace (16 ^ (1 + len s)) with (16 * 16 ^ len s) by (rewrite Z.pow_add_r by (pose proof (len_nonneg s); lia); reflexivity).
  assert (0 < 16 ^ len s) by (apply Z.pow_pos_nonneg; [lia|apply len_nonneg]). unfold digit in D. nia.
Qed.
Lemma grouped_len gs : len (concat gs) <= len (grouped gs).
Proof.
  destruct gs as [|g gs]; [reflexivity|]. cbn [grouped concat]. rewrite !len_app. enough (len (concat gs) <= len (concat (map (cons 95) gs))) by lia.
  induction gs as [|h gs IH]; [reflexivity|]. cbn [map concat app]. rewrite len_cons, !len_app. lia.
Qed.
Lemma numeral_bound s v : numeral s v -> v < 16 ^ len s.
Proof.
  intros (w1 & sg & m & pre & gs & ds & w2 & -> & W1 & W2 & IS & IP & _ & _ & D & ->). fold (val ds 0). pose proof (val_bound _ _ D 0) as B. pose proof (val_nonneg _ _ D 0 ltac:(lia)) as P.
  pose proof (grouped_len gs) as G. rewrite !len_app. pose proof (len_nonneg w1); pose proof (len_nonneg sg); pose proof (len_nonneg pre); pose proof (len_nonneg w2); pose proof (len_nonneg (concat gs)).
  assert (16 ^ len (concat gs) <= 16 ^ (len w1 + (len sg + (len pre + (len (grouped gs) + len w2))))) by (apply Z.pow_le_mono_r; lia).
  cbn [In] in IS. destruct IS as [E|[E|[E|[]]]]; inv E; lia.
Qed.
Lemma ints_numerals ls ns : Forall2 numeral ls ns -> Forall (fun n => 0 <= n) ns -> ints ls = Ok ns.
Proof.
  intros F P. unfold ints. assert (E : mapM int16_text ls = Ok ns) by (clear P; induction F as [|l n ls ns L F IH]; [reflexivity|]; cbn [mapM]; rewrite (int16_text_complete _ _ L), IH; reflexivity).
  rewrite E. cbn [bind]. replace (forallb (fun n => 0 <=? n) ns) with true; [reflexivity|]. symmetry. apply forallb_forall. intros n N. rewrite Forall_forall in P. specialize (P n N). lia.
Qed.
Lemma hex_numeral w n : (0 < w)%nat -> 0 <= n < 16 ^ Z.of_nat w -> numeral (hex w n) n /\ single_line (hex w n) /\ len (hex w n) = Z.of_nat w.
Proof.
  intros W N. pose proof (int16_hexn w n W N) as E. pose proof (hexn_line w n W) as H. rewrite hexn_hex in E, H. pose proof (hexn_length w n) as L. rewrite hexn_hex in L. destruct H as [HN HF].
  assert (A : Forall (fun c => is_hex c = true) (hex w n)) by (eapply Forall_impl; [|exact HF]; now intros c [C _]).
  assert (R : forall c, In c (hex w n) -> 48 <= c <= 102) by (intros c C; rewrite Forall_forall in A; specialize (A c C); apply is_hex_digit in A as [d A]; apply digit_range in A; lia).
  split; [apply int16_text_sound; destruct (int16_text_hex _ A) as [-> _]; exact E|]. split; [|unfold len; now rewrite L]. split; [assumption|]. split; [apply Forall_forall; intros c C; specialize (R c C); lia|].
  split; [destruct (hex w n) as [|c l]; [congruence|]; specialize (R c (or_introl eq_refl)); cbn [hd]; lia|]. destruct (exists_last HN) as (l' & x & EL). rewrite EL, last_last. specialize (R x). rewrite EL in R. assert (IX : In x (l' ++ [x])) by (apply in_or_app; right; now left). specialize (R IX). lia.
Qed.
Lemma text_read_file p f r fr ls : text_format f -> Forall single_line ls -> length ls <> 1%nat ->
  text_read p f (file_of ls) r fr = let* vs := ints (map (take (Z.of_nat (line_digits f))) ls) in match f with A0 => decode_a0 p r fr vs | _ => decode_a2 p r fr vs end.
Proof.
  intros T F N. destruct (single_file ls F) as [A L]. unfold file_lines in L. destruct T as [-> | ->]; cbn [text_read line_digits]; rewrite A; unfold gen_lines; rewrite L;
    (destruct ls as [|x [|y ls]]; [reflexivity|cbn [length] in N; lia|reflexivity]).
Qed.
Lemma text_read_one p f r fr l : text_format f -> single_line l -> text_read p f (file_of [l]) r fr = Err TypeError.
Proof.
  intros T F. destruct (single_file [l]) as [A L]; [constructor; [assumption|constructor]|]. unfold file_lines in L. destruct T as [-> | ->]; cbn [text_read]; rewrite A; unfold gen_lines; rewrite L; reflexivity.
Qed.
Lemma forall2_len {A B} (R : A -> B -> Prop) l m : Forall2 R l m -> length l = length m.
Proof. induction 1 as [|x y l m H F IH]; [reflexivity|]. cbn [length]. now rewrite IH. Qed.
Lemma c163_actual p f r fr ls : text_format f -> Forall single_line ls ->
  (forall ns, Forall2 numeral (map (take (Z.of_nat (line_digits f))) ls) ns -> Forall (fun n => 0 <= n) ns ->
     text_read p f (file_of ls) r fr = text_read p f (file_of (map (hex (line_digits f)) ns)) r fr) /\
  (length ls <> 1%nat -> Exists (fun l => forall n, ~ numeral (take (Z.of_nat (line_digits f)) l) n) ls -> text_read p f (file_of ls) r fr = Err ValueError).
Proof.
  intros T F. set (w := line_digits f). assert (W : (0 < w)%nat) by (unfold w; destruct f; cbn [line_digits]; lia). split.
  - intros ns N P. assert (B : Forall (fun n => 0 <= n < 16 ^ Z.of_nat w) ns).
    { remember (map (take (Z.of_nat w)) ls) as ms eqn:E. assert (LM : Forall (fun m => len m <= Z.of_nat w) ms) by (subst ms; apply Forall_map, Forall_forall; intros l _; rewrite len_take by lia; lia).
      clear E. induction N as [|m n ms ns M N IH]; [constructor|]. inv P. inv LM. constructor; [|now apply IH]. split; [assumption|]. pose proof (numeral_bound _ _ M). assert (16 ^ len m <= 16 ^ Z.of_nat w) by (apply Z.pow_le_mono_r; lia). lia. }
    assert (SL : Forall single_line (map (hex w) ns)) by (apply Forall_map; eapply Forall_impl; [|exact B]; intros n X; now apply hex_numeral).
    assert (LE : length ns = length ls) by (rewrite <- (forall2_len _ _ _ N); apply map_length).
    destruct (Nat.eq_dec (length ls) 1) as [E1|E1].
    + destruct ls as [|l [|]]; try discriminate E1. destruct ns as [|n [|]]; try discriminate LE. cbn [map] in *. inv F. inv SL. now rewrite !text_read_one.
    + rewrite (text_read_file p f r fr ls T F E1), (text_read_file p f r fr _ T SL) by (rewrite map_length; lia). fold w. rewrite (ints_numerals _ _ N P).
      assert (NH : Forall2 numeral (map (take (Z.of_nat w)) (map (hex w) ns)) ns).
      { clear - B W. induction B as [|n ns X B IH]; [constructor|]. cbn [map]. destruct (hex_numeral w n W X) as (H1 & _ & H3). rewrite take_all by lia. now constructor. }
      now rewrite (ints_numerals _ _ NH P).
  - intros N1 E. rewrite (text_read_file p f r fr ls T F N1). fold w. clear F N1. unfold ints. enough (M : mapM int16_text (map (take (Z.of_nat w)) ls) = Err ValueError) by now rewrite M.
    induction E as [l ls X|l ls E IH]; cbn [map mapM].
    + destruct (int16_text (take (Z.of_nat w) l)) as [v|e] eqn:V; cbn [bind]; [apply int16_text_sound in V; now apply X in V|]. now rewrite (int16_text_err _ _ V).
    + destruct (int16_text (take (Z.of_nat w) l)) as [v|e] eqn:V; cbn [bind]; [now rewrite IH|]. now rewrite (int16_text_err _ _ V).
Qed.
Lemma c163_partial p f r fr ls c : text_format f -> Forall single_line ls -> foreign c -> In c (concat (map (take (Z.of_nat (line_digits f))) ls)) ->
  exists e, text_read p f (file_of ls) r fr = Err e.
Proof.
  intros T F FC I. destruct (Nat.eq_dec (length ls) 1) as [E1|E1].
  - destruct ls as [|l [|]]; try discriminate E1. inv F. exists TypeError. now apply text_read_one.
  - exists ValueError. rewrite (text_read_file p f r fr ls T F E1), (mapM_foreign c _ FC I). reflexivity.
Qed.

(** ** Refutations *)
Definition two_words : list Z := [1024; 2049].
Lemma c161_refuted : ~ C161_statement.
Proof.
  intros H. specialize (H 64 A2 (hex 16 1024 ++ [13; 10]) PS4 false 1 _ _ ltac:(lia) eq_refl eq_refl). vm_compute in H. discriminate H.
Qed.
Lemma two_words_ok : Forall word_ok two_words.
Proof. unfold two_words. repeat constructor; unfold word_ok; lia. Qed.
Definition remarked : list Z := [35; 32; 116; 10] ++ encode A2 two_words.
Lemma remarked_ok : annotated (plain_lines A2 two_words) remarked.
Proof.
  unfold remarked. change ([35; 32; 116; 10] ++ encode A2 two_words) with ([35; 32; 116] ++ [10] ++ encode A2 two_words). constructor.
  - exists 0%nat, [35; 32; 116]. split; [reflexivity|]. right. exists [32; 116]. split; [reflexivity|]. repeat constructor; lia.
  - destruct (plain_file A2 two_words (or_intror eq_refl)) as (<- & _). apply annotated_plain.
Qed.
Lemma c162_refuted : ~ C162_statement.
Proof.
  intros H. destruct (H 64 A2 PS4 false 10 two_words remarked (or_intror eq_refl) two_words_ok ltac:(lia) remarked_ok) as [_ K].
  destruct (K _ _ eq_refl) as [n E]. vm_compute in E. discriminate E.
Qed.
Definition long_lines : list (list Z) := [hex 17 1024; hex 17 2048].
Lemma long_lines_ok : Forall single_line long_lines /\ Exists (fun l => ~ (length l = line_digits A2 /\ Forall hex_digit l)) long_lines.
Proof.
  split.
  - unfold long_lines. constructor; [apply hex_numeral; [lia|split; [lia|reflexivity]]|]. constructor; [apply hex_numeral; [lia|split; [lia|reflexivity]]|constructor].
  - constructor. intros [L _]. discriminate L.
Qed.
Lemma c163_refuted : ~ C163_statement.
Proof.
  intros H. destruct long_lines_ok as [S1 S2]. destruct (H 64 A2 PS4 false long_lines (or_intror eq_refl) S1 S2) as [e E]. vm_compute in E. discriminate E.
Qed.
