(** Numbers and lines of text files. *)
From Coq Require Import QArith Lia ZifyBool.
From Verif Require Import Float Base TimestampsModel TimestampsSpec TimestampsProofs TimestampsProofs2 TextModel TextSpec.
Local Open Scope Z_scope.

(** ** Characters *)
Lemma hexval_digit c d : hexval c = Some d <-> digit c d.
Proof.
  unfold hexval, digit. destruct ((48 <=? c) && (c <=? 57)) eqn:A; [split; [intros E; inv E; left; lia|intros H; f_equal; lia]|].
  destruct ((97 <=? c) && (c <=? 102)) eqn:B; [split; [intros E; inv E; right; left; lia|intros H; f_equal; lia]|].
  destruct ((65 <=? c) && (c <=? 70)) eqn:D; [split; [intros E; inv E; right; right; lia|intros H; f_equal; lia]|]. split; [discriminate|intros H; exfalso; lia].
Qed.
Lemma is_hex_digit c : is_hex c = true <-> hex_digit c.
Proof.
  unfold is_hex, hex_digit. destruct (hexval c) as [d|] eqn:E.
  - split; [intros _; exists d; now apply hexval_digit|reflexivity].
  - split; [discriminate|]. intros [d D]. apply hexval_digit in D. congruence.
Qed.
Lemma digit_range c d : digit c d -> 48 <= c <= 102 /\ c <> 95 /\ c <> 88.
Proof. unfold digit. lia. Qed.
Lemma is_space_blank c : is_space c = true <-> blank c.
Proof. unfold is_space, blank. lia. Qed.
(** ** Stripping *)
Lemma lstrip_split f s : exists w, s = w ++ lstrip f s /\ Forall (fun c => f c = true) w /\ match lstrip f s with [] => True | c :: _ => f c = false end.
Proof.
  induction s as [|c s (w & E & W & H)]; [exists []; repeat split; constructor|]. cbn [lstrip]. destruct (f c) eqn:F.
  - exists (c :: w). cbn [app]. rewrite <- E. repeat split; [now constructor|assumption].
  - exists []. repeat split; [constructor|assumption].
Qed.
Lemma lstrip_app f w s : Forall (fun c => f c = true) w -> lstrip f (w ++ s) = lstrip f s.
Proof. induction 1 as [|c w H W IH]; [reflexivity|]. cbn [app lstrip]. now rewrite H. Qed.
Lemma lstrip_keep f s : match s with [] => True | c :: _ => f c = false end -> lstrip f s = s.
Proof. destruct s as [|c s]; [reflexivity|]. cbn [lstrip]. now intros ->. Qed.
(** ** int(v, 16) *)
Definition val (ds : list Z) (acc : Z) : Z := fold_left (fun n d => 16 * n + d) ds acc.
Lemma scan_sound : forall s acc prev n rest, scan acc prev s = Some (n, rest) ->
  exists g gs ds, s = g ++ concat (map (cons 95) gs) ++ rest /\ (prev = true -> g <> []) /\ Forall (fun g => g <> []) gs /\ Forall2 digit (g ++ concat gs) ds /\ n = val ds acc.
Proof.
  induction s as [|c s IH]; intros acc prev n rest H; cbn [scan] in H.
  - destruct prev; [discriminate|]. inv H. exists [], [], []. split; [reflexivity|]. split; [discriminate|]. split; [constructor|]. split; [constructor|reflexivity].
  - destruct (hexval c) as [d|] eqn:E.
    + destruct (IH _ _ _ _ H) as (g & gs & ds & -> & _ & G & D & ->). exists (c :: g), gs, (d :: ds). split; [reflexivity|]. split; [discriminate|]. split; [assumption|]. split; [|reflexivity].
      cbn [app]. constructor; [now apply hexval_digit|assumption].
    + destruct (c =? 95) eqn:U.
      * destruct prev; [discriminate|]. destruct (IH _ _ _ _ H) as (g & gs & ds & -> & P & G & D & ->). assert (c = 95) by lia. subst c.
        exists [], (g :: gs), ds. split; [cbn [map concat app]; now rewrite <- app_assoc|]. split; [discriminate|]. split; [constructor; [now apply P|assumption]|]. split; [exact D|reflexivity].
      * destruct prev; [discriminate|]. inv H. exists [], [], []. split; [reflexivity|]. split; [discriminate|]. split; [constructor|]. split; [constructor|reflexivity].
Qed.
Definition stops (rest : list Z) : Prop := match rest with [] => True | c :: _ => hexval c = None /\ c <> 95 end.
Lemma scan_complete gs : Forall (fun g => g <> []) gs -> forall g acc prev ds rest, Forall2 digit (g ++ concat gs) ds -> (prev = true -> g <> []) -> stops rest ->
  scan acc prev (g ++ concat (map (cons 95) gs) ++ rest) = Some (val ds acc, rest).
Proof.
  induction 1 as [|h gs H G IH].
  - intros g. induction g as [|c g IHg]; intros acc prev ds rest D P R.
    + inv D. destruct prev; [now contradiction P|]. cbn [app map concat]. destruct rest as [|c rest]; [reflexivity|]. destruct R as [R1 R2]. cbn [scan]. rewrite R1. replace (c =? 95) with false by lia. reflexivity.
    + inv D. apply hexval_digit in H1. cbn [app scan]. rewrite H1. match goal with |- _ = Some (val (?y :: ?l) _, _) => change (val (y :: l) acc) with (val l (16 * acc + y)) end. apply IHg; [assumption|discriminate|assumption].
  - intros g. induction g as [|c g IHg]; intros acc prev ds rest D P R.
    + destruct prev; [now contradiction P|]. cbn [app map concat]. cbn [app concat] in D. cbn [scan app]. change (hexval 95) with (@None Z). change (95 =? 95) with true. cbv iota.
      rewrite <- app_assoc. now apply IH.
    + inv D. apply hexval_digit in H2. cbn [app scan]. rewrite H2. match goal with |- _ = Some (val (?y :: ?l) _, _) => change (val (y :: l) acc) with (val l (16 * acc + y)) end. apply IHg; [assumption|discriminate|assumption].
Qed.
Lemma grouped_eq g gs : grouped (g :: gs) = g ++ concat (map (cons 95) gs).
Proof. reflexivity. Qed.
Lemma prefix_split s : exists pre, s = pre ++ prefix s /\ In pre [[]; [48; 120]; [48; 88]; [48; 120; 95]; [48; 88; 95]].
Proof.
  destruct s as [|z [|x r]]; [exists []; split; [reflexivity|now left]|exists []; split; [reflexivity|now left]|]. cbn [prefix].
  destruct ((z =? 48) && ((x =? 120) || (x =? 88))) eqn:E; [|exists []; split; [reflexivity|now left]]. assert (z = 48) by lia. subst z.
  assert (X : x = 120 \/ x = 88) by lia. destruct r as [|u r].
  - exists [48; x]. split; [reflexivity|]. destruct X as [-> | ->]; cbn [In]; tauto.
  - destruct (u =? 95) eqn:U.
    + assert (u = 95) by lia. subst u. exists [48; x; 95]. split; [reflexivity|]. destruct X as [-> | ->]; cbn [In]; tauto.
    + exists [48; x]. split; [reflexivity|]. destruct X as [-> | ->]; cbn [In]; tauto.
Qed.
Lemma prefix_app pre c r : In pre [[]; [48; 120]; [48; 88]; [48; 120; 95]; [48; 88; 95]] -> hexval c <> None -> (match r with x :: _ => x <> 120 /\ x <> 88 | [] => True end) -> prefix (pre ++ c :: r) = c :: r.
Proof.
  intros P C R. assert (C1 : c <> 95) by (intros ->; now apply C). cbn [In] in P. destruct P as [<-|[<-|[<-|[<-|[<-|[]]]]]]; cbn [app].
  - destruct r as [|x r]; [reflexivity|]. cbn [prefix]. replace ((x =? 120) || (x =? 88)) with false by lia. now rewrite andb_false_r.
  - cbn [prefix]. change ((48 =? 48) && ((120 =? 120) || (120 =? 88))) with true. cbv iota. replace (c =? 95) with false by lia. reflexivity.
  - cbn [prefix]. change ((48 =? 48) && ((88 =? 120) || (88 =? 88))) with true. cbv iota. replace (c =? 95) with false by lia. reflexivity.
  - reflexivity.
  - reflexivity.
Qed.
Lemma sign_split s : exists sg (m : Z), s = sg ++ snd (sign s) /\ In (sg, m) [([], 1); ([43], 1); ([45], -1)] /\ forall n, (if fst (sign s) then - n else n) = m * n.
Proof.
  destruct s as [|c r]; [exists [], 1; split; [reflexivity|]; split; [now left|]; intros n; cbn [sign fst]; lia|]. cbn [sign]. destruct (c =? 43) eqn:A; [|destruct (c =? 45) eqn:B].
  - assert (c = 43) by lia. subst c. exists [43], 1. split; [reflexivity|]. split; [cbn [In]; tauto|]. intros n. cbn [fst]. lia.
  - assert (c = 45) by lia. subst c. exists [45], (-1). split; [reflexivity|]. split; [cbn [In]; tauto|]. intros n. cbn [fst]. lia.
  - exists [], 1. split; [reflexivity|]. split; [now left|]. intros n. cbn [fst]. lia.
Qed.
Lemma int16_text_sound s v : int16_text s = Ok v -> numeral s v.
Proof.
  intros H. unfold int16_text in H. destruct (lstrip_split is_space s) as (w1 & E & W & _). destruct (sign_split (lstrip is_space s)) as (sg & m & ES & IS & M).
  destruct (sign (lstrip is_space s)) as [neg t]. cbn [fst snd] in *. destruct (prefix_split t) as (pre & EP & IP). destruct (prefix t) as [|c r] eqn:PF; [discriminate|].
  destruct (is_hex c) eqn:HC; [|discriminate]. destruct (scan 0 false (c :: r)) as [[n rest]|] eqn:SC; [|discriminate]. destruct (forallb is_space rest) eqn:SP; [|discriminate]. inv H.
  destruct (scan_sound _ _ _ _ _ SC) as (g & gs & ds & EG & _ & G & D & ->). exists w1, sg, m, pre, (g :: gs), ds, rest.
  rewrite grouped_eq, <- app_assoc, <- EG, <- ES. split; [exact E|].
  split; [eapply Forall_impl; [|exact W]; intros x; apply is_space_blank|]. split; [apply Forall_forall; intros x X; apply is_space_blank; now apply (proj1 (forallb_forall _ _) SP)|].
  split; [exact IS|]. split; [exact IP|]. split; [discriminate|]. split; [|split; [exact D|apply M]].
  constructor; [|exact G]. intros ->. cbn [app] in EG. destruct gs as [|h gs]; cbn [map concat app] in EG.
  - subst rest. apply (forallb_forall is_space) with (x := c) in SP; [|now left]. apply is_hex_digit in HC as [d HC]. apply digit_range in HC. unfold is_space in SP. lia.
  - injection EG as -> _. discriminate HC.
Qed.
Lemma blank_stops w : Forall blank w -> stops w.
Proof. destruct 1 as [|c w B]; [exact I|]. split; [|unfold blank in B; lia]. destruct (hexval c) as [d|] eqn:E; [|reflexivity]. apply hexval_digit in E. apply digit_range in E. unfold blank in B. lia. Qed.
Lemma int16_text_complete s v : numeral s v -> int16_text s = Ok v.
Proof.
  intros (w1 & sg & m & pre & gs & ds & w2 & -> & W1 & W2 & IS & IP & N & G & D & ->). destruct gs as [|g gs]; [congruence|]. inv G. destruct g as [|c g]; [congruence|].
  cbn [concat app] in D. inversion D as [|c' d g' ds' DC DD]; subst. pose proof DC as HC. apply hexval_digit in HC. pose proof (digit_range _ _ DC) as RC.
  unfold int16_text. rewrite lstrip_app by (eapply Forall_impl; [|exact W1]; intros x; apply is_space_blank).
  set (tail := pre ++ grouped ((c :: g) :: gs) ++ w2).
  assert (HT : match tail with [] => False | x :: _ => is_space x = false /\ x <> 43 /\ x <> 45 end).
  { unfold tail. rewrite grouped_eq. cbn [In] in IP. destruct IP as [<-|[<-|[<-|[<-|[<-|[]]]]]]; cbn [app]; repeat split; unfold is_space; lia. }
  assert (SG : sign (lstrip is_space (sg ++ tail)) = (if m <? 0 then true else false, tail)).
  { destruct tail as [|x tl]; [contradiction|]. destruct HT as (HT1 & HT2 & HT3). cbn [In] in IS. destruct IS as [E|[E|[E|[]]]]; inv E; cbn [app]; rewrite lstrip_keep by (reflexivity || assumption); cbn [sign].
    - replace (x =? 43) with false by lia. replace (x =? 45) with false by lia. reflexivity.
    - reflexivity.
    - reflexivity. }
  rewrite SG. cbv iota beta. unfold tail. rewrite grouped_eq. cbn [app].
  rewrite prefix_app; [|assumption|congruence|].
  2: { destruct g as [|x g]; cbn [app].
       - destruct gs as [|h gs]; cbn [map concat app]; [|lia]. destruct w2 as [|x w2]; [exact I|]. inv W2. unfold blank in *. lia.
       - inversion DD as [|? ? ? ? DX ?]; subst. apply digit_range in DX. lia. }
  replace (is_hex c) with true by (symmetry; apply is_hex_digit; now exists d).
  pose proof (scan_complete gs H2 (c :: g) 0 false (d :: ds') w2 D ltac:(discriminate) (blank_stops w2 W2)) as SC. cbn [app] in SC. rewrite <- app_assoc, SC.
  replace (forallb is_space w2) with true by (symmetry; apply forallb_forall; intros x X; apply is_space_blank; revert x X; now apply Forall_forall).
  f_equal. fold (val (d :: ds') 0). generalize (val (d :: ds') 0). intros k. cbn [In] in IS. destruct IS as [E|[E|[E|[]]]]; inv E; [change (1 <? 0) with false|change (1 <? 0) with false|change (-1 <? 0) with true]; cbv iota; lia.
Qed.
Lemma int16_text_iff s v : int16_text s = Ok v <-> numeral s v.
Proof. split; [apply int16_text_sound|apply int16_text_complete]. Qed.
Lemma int16_text_err s e : int16_text s = Err e -> e = ValueError.
Proof.
  unfold int16_text. destruct (sign (lstrip is_space s)) as [neg t]. destruct (prefix t) as [|c r]; [intros H; now inv H|]. destruct (is_hex c); [|intros H; now inv H].
  destruct (scan 0 false (c :: r)) as [[n rest]|]; [|intros H; now inv H]. destruct (forallb is_space rest); [discriminate|intros H; now inv H].
Qed.
(** plain digits *)
Lemma val_fold s : Forall (fun c => is_hex c = true) s -> forall acc, exists ds, Forall2 digit s ds /\ fold_left (fun n c => 16 * n + match hexval c with Some d => d | None => 0 end) s acc = val ds acc.
Proof.
  induction 1 as [|c s C F IH]; intros acc; [exists []; split; [constructor|reflexivity]|]. apply is_hex_digit in C as [d C]. destruct (IH (16 * acc + d)) as (ds & D & E). exists (d :: ds).
  split; [now constructor|]. apply hexval_digit in C. cbn [fold_left]. rewrite C. exact E.
Qed.
Lemma val_nonneg s ds : Forall2 digit s ds -> forall acc, 0 <= acc -> 0 <= val ds acc.
Proof. induction 1 as [|c d s ds D F IH]; intros acc A; [assumption|]. unfold digit in D. cbn [val fold_left]. apply IH. lia. Qed.
Lemma int16_text_hex s : Forall (fun c => is_hex c = true) s -> int16_text s = int16 s /\ forall v, int16 s = Ok v -> 0 <= v.
Proof.
  intros F. destruct s as [|c s]; [split; [reflexivity|discriminate]|]. destruct (val_fold _ F 0) as (ds & D & E).
  assert (I : int16 (c :: s) = Ok (val ds 0)).
  { unfold int16. replace (forallb is_hex (c :: s)) with true; [now rewrite E|]. symmetry. apply forallb_forall. now apply Forall_forall. }
  split; [|intros v V; rewrite I in V; inv V; now apply (val_nonneg _ _ D)].
  rewrite I. apply int16_text_complete. exists [], [], 1, [], [c :: s], ds, []. cbn [grouped map concat app In]. rewrite !app_nil_r. repeat split; auto; try constructor; try discriminate; [constructor|].
  unfold val. lia.
Qed.
Lemma mapM_hex ls : Forall (Forall (fun c => is_hex c = true)) ls -> ints ls = mapM int16 ls.
Proof.
  intros F. unfold ints. assert (E : mapM int16_text ls = mapM int16 ls).
  { induction F as [|l ls L F IH]; [reflexivity|]. cbn [mapM]. destruct (int16_text_hex l L) as [-> _]. now rewrite IH. }
  rewrite E. destruct (mapM int16 ls) as [ns|e] eqn:M; [|reflexivity]. cbn [bind]. replace (forallb (fun n => 0 <=? n) ns) with true; [reflexivity|]. symmetry.
  clear E. revert ns M. induction F as [|l ls L F IH]; intros ns M; cbn [mapM] in M; [inv M; reflexivity|].
  destruct (int16 l) as [n|] eqn:IL; [|discriminate]. cbn [bind] in M. destruct (mapM int16 ls) as [ms|]; [|discriminate]. cbn [bind] in M. inv M.
  cbn [forallb]. rewrite (IH ms eq_refl), andb_true_r. destruct (int16_text_hex l L) as [_ P]. specialize (P n IL). lia.
Qed.

(** ** Line endings *)
Lemma endings_universal a b : endings a b -> universal a = b /\ universal b = b /\ ascii a = ascii b /\ len b <= len a.
Proof.
  induction 1 as [|c a b N R E (I1 & I2 & I3 & I4)|a b E (I1 & I2 & I3 & I4)|a b E (I1 & I2 & I3 & I4)|a b E (I1 & I2 & I3 & I4) H].
  - repeat split; lia.
  - cbn [universal]. replace (c =? CR) with false by (unfold CR; lia). rewrite I1, I2. unfold ascii in *. cbn [forallb]. rewrite I3, !len_cons. repeat split; lia.
  - cbn [universal]. change (10 =? CR) with false. cbv iota. rewrite I1, I2. unfold ascii in *. cbn [forallb]. rewrite I3, !len_cons. repeat split; lia.
  - cbn [universal]. change (13 =? CR) with true. change (10 =? CR) with false. change (10 =? NL) with true. cbv iota. rewrite I1, I2. unfold ascii in *. cbn [forallb].
    rewrite I3, !len_cons. repeat split; try lia. 
  - cbn [universal]. change (13 =? CR) with true. change (10 =? CR) with false. cbv iota. rewrite I2. unfold ascii in *. cbn [forallb]. rewrite I3, !len_cons. repeat split; try lia.
    destruct a as [|d a]; [inv E; reflexivity|]. cbn [hd] in H. replace (d =? NL) with false by (unfold NL; lia). now rewrite I1.
Qed.
(** ** Text of digits and newlines: the model of TimestampsModel *)
Lemma clean_chars file : clean file = true -> Forall (fun c => is_hex c = true \/ c = NL) file.
Proof. unfold clean. intros H. apply Forall_forall. intros c C. apply (proj1 (forallb_forall _ _) H) in C. destruct (is_hex c); [now left|right; cbn [orb] in C; lia]. Qed.
Lemma clean_ascii file : clean file = true -> ascii file = true.
Proof.
  intros H. apply clean_chars in H. unfold ascii. apply forallb_forall. intros c C. rewrite Forall_forall in H. destruct (H c C) as [X| ->]; [|reflexivity].
  apply is_hex_digit in X as [d X]. apply digit_range in X. lia.
Qed.
Lemma clean_universal file : clean file = true -> universal file = file.
Proof.
  intros H. apply clean_chars in H. induction H as [|c file C F IH]; [reflexivity|]. cbn [universal]. rewrite IH. replace (c =? CR) with false; [reflexivity|]. symmetry.
  destruct C as [X| ->]; [|reflexivity]. apply is_hex_digit in X as [d X]. apply digit_range in X. unfold CR. lia.
Qed.
Lemma split_nl_all P s : Forall (fun c => P c \/ c = NL) s -> Forall (Forall (fun c => P c /\ c <> NL)) (split_nl s).
Proof.
  induction 1 as [|c s C F IH]; [repeat constructor|]. cbn [split_nl]. destruct (c =? NL) eqn:E; [constructor; [constructor|assumption]|].
  destruct (split_nl s) as [|l ls]; [repeat constructor; [destruct C; [assumption|lia]|lia]|]. inv IH. constructor; [|assumption]. constructor; [|assumption]. split; [destruct C; [assumption|lia]|lia].
Qed.
Lemma hex_not c : is_hex c = true -> c <> 35 /\ is_blank c = false /\ is_uspace c = false /\ is_space c = false.
Proof. intros X. apply is_hex_digit in X as [d X]. apply digit_range in X. unfold is_blank, is_uspace, is_space, CR, NL. repeat split; lia. Qed.
Lemma before_hash_id l : Forall (fun c => c <> 35) l -> before_hash l = l.
Proof. induction 1 as [|c l C F IH]; [reflexivity|]. cbn [before_hash]. rewrite IH. replace (c =? 35) with false by lia. reflexivity. Qed.
Lemma strip_id f l : Forall (fun c => f c = false) l -> strip f l = l.
Proof.
  intros F. unfold strip. assert (G : forall m, Forall (fun c => f c = false) m -> lstrip f m = m) by (intros m [|c m' C _]; [reflexivity|]; cbn [lstrip]; now rewrite C).
  rewrite (G l F), G by now apply Forall_rev. apply rev_involutive.
Qed.
Lemma gen_lines_clean w file : clean file = true -> gen_lines w file = genfromtxt w file.
Proof.
  intros H. unfold gen_lines, genfromtxt. rewrite H, clean_universal by assumption.
  assert (E : map (fun l => strip is_blank (before_hash l)) (split_nl file) = split_nl file).
  { pose proof (split_nl_all (fun c => is_hex c = true) file (clean_chars file H)) as F. rewrite <- (map_id (split_nl file)) at 2. apply map_ext_Forall.
    eapply Forall_impl; [|exact F]. intros l L. rewrite before_hash_id; [apply strip_id|]; (eapply Forall_impl; [|exact L]; intros c [C _]; now apply hex_not). }
  now rewrite E.
Qed.
Lemma mapM_ints_clean w file ls : genfromtxt w file = Ok ls -> ints ls = mapM int16 ls.
Proof.
  unfold genfromtxt. destruct (clean file) eqn:H; [|discriminate]. intros G. apply mapM_hex.
  pose proof (split_nl_all (fun c => is_hex c = true) file (clean_chars file H)) as F.
  assert (F2 : forall (q : list (list Z)), Forall (Forall (fun c => is_hex c = true /\ c <> NL)) q -> Forall (Forall (fun c => is_hex c = true)) (map (take w) q)).
  { intros q Q'. apply Forall_map. eapply Forall_impl; [|exact Q']. intros l L. apply Forall_forall. intros c C. unfold take in C. assert (C' : In c l) by (rewrite <- (firstn_skipn (Z.to_nat w) l); apply in_or_app; now left). rewrite Forall_forall in L. now apply L. }
  assert (F3 : Forall (Forall (fun c => is_hex c = true /\ c <> NL)) (filter (fun l => match l with [] => false | _ :: _ => true end) (split_nl file))).
  { apply Forall_forall. intros l L. apply filter_In in L as [L _]. revert l L. now apply Forall_forall. }
  destruct (filter (fun l => match l with [] => false | _ :: _ => true end) (split_nl file)) as [|x [|y q]]; inv G; [constructor|]. now apply (F2 (x :: y :: q)).
Qed.
Lemma strip_nl_clean s : clean s = true -> strip is_uspace s = strip_nl s /\ clean (strip_nl s) = true.
Proof.
  intros H. apply clean_chars in H.
  assert (G : forall s, Forall (fun c => is_hex c = true \/ c = NL) s -> lstrip is_uspace s = lstrip_nl s /\ Forall (fun c => is_hex c = true \/ c = NL) (lstrip_nl s)).
  { clear. induction 1 as [|c s C F [IH1 IH2]]; [split; [reflexivity|constructor]|]. cbn [lstrip lstrip_nl]. destruct (c =? NL) eqn:E.
    - assert (c = NL) by lia. subst c. change (is_uspace NL) with true. cbv iota. now split.
    - destruct C as [C|C]; [|lia]. destruct (hex_not c C) as (_ & _ & -> & _). split; [reflexivity|constructor; [now left|assumption]]. }
  unfold strip, strip_nl. destruct (G s H) as [-> K]. destruct (G _ (Forall_rev K)) as [-> L]. split; [reflexivity|]. apply Forall_rev in L. unfold clean. apply forallb_forall. intros c C. rewrite Forall_forall in L.
  destruct (L c C) as [-> | ->]; [reflexivity|apply orb_true_r].
Qed.
Lemma buffer_ints_clean s : clean s = true -> buffer_ints s = parse_lines s.
Proof.
  intros H. unfold buffer_ints, parse_lines. rewrite H. destruct (strip_nl_clean s H) as [-> K]. apply mapM_hex.
  pose proof (split_nl_all (fun c => is_hex c = true) _ (clean_chars _ K)) as F. eapply Forall_impl; [|exact F]. intros l L. eapply Forall_impl; [|exact L]. now intros c [C _].
Qed.
Lemma text_read_clean p f file r fr : clean file = true -> text_read p f file r fr = read p f file r fr.
Proof.
  intros H. destruct f; [|reflexivity|]; cbn [text_read read]; unfold read_a0, read_a2; rewrite clean_ascii, gen_lines_clean by assumption;
    (destruct (genfromtxt _ file) as [ls|e] eqn:G; [|reflexivity]; cbn [bind]; now rewrite (mapM_ints_clean _ _ _ G)).
Qed.
Lemma reads_clean n : forall fuel file, clean file = true -> Forall (fun b => clean b = true) (reads fuel n file).
Proof.
  induction fuel as [|fuel IH]; intros file H; cbn [reads]; [constructor|].
  assert (CT : clean (take n file) = true) by (unfold clean, take in *; apply forallb_forall; intros c C; apply (proj1 (forallb_forall _ _) H); rewrite <- (firstn_skipn (Z.to_nat n) file); apply in_or_app; now left).
  assert (CD : clean (drop n file) = true) by (unfold clean, drop in *; apply forallb_forall; intros c C; apply (proj1 (forallb_forall _ _) H); rewrite <- (firstn_skipn (Z.to_nat n) file); apply in_or_app; now right).
  destruct (take n file) as [|c t]; [constructor|]. constructor; [assumption|]. now apply IH.
Qed.
Lemma file_reads_clean n file : clean file = true -> Forall (fun b => clean b = true) (file_reads n file).
Proof. intros H. unfold file_reads. destruct (n <? 0); [destruct file; repeat constructor; assumption|]. now apply reads_clean. Qed.
Lemma run_stream_ext f g bufs : Forall (fun b => f b = g b) bufs -> run_stream f bufs = run_stream g bufs.
Proof. induction 1 as [|b bufs B F IH]; [reflexivity|]. cbn [run_stream]. rewrite B, IH. reflexivity. Qed.
Lemma text_sread_clean p f file r fr b : clean file = true -> text_sread p f file r fr b = sread p f file r fr b.
Proof.
  intros H. destruct f; [|reflexivity|]; cbn [text_sread sread]; unfold sread_a0, sread_a2; rewrite clean_ascii by assumption;
    (destruct (num_batches _ (len file) b) as [n|e]; [|reflexivity]; cbn [bind]; rewrite clean_universal by assumption; do 2 f_equal;
     apply run_stream_ext; eapply Forall_impl; [|now apply file_reads_clean]; intros s S'; cbv beta; now rewrite buffer_ints_clean).
Qed.
