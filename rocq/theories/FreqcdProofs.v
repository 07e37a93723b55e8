(** Proofs about the freqcd main loop: memory safety and refinement to [FreqcdSpec]. *)
From Verif Require Import Base FreqcdModel FreqcdSpec.
From Coq Require Import ZifyBool.
Ltac Zify.zify_post_hook ::= Z.div_mod_to_equations.

(** ** Buffers *)
Lemma load_at a b c off n : off = len a -> n = len b ->
  load (a ++ b ++ c) off n = Ok b.
Proof.
  intros -> ->. unfold load. rewrite !len_app.
  pose proof (len_nonneg a); pose proof (len_nonneg b); pose proof (len_nonneg c).
  replace (_ && _ && _) with true by lia.
  rewrite drop_app_exact by reflexivity. now rewrite take_app_exact.
Qed.
Lemma store_at a b c d off : off = len a -> len b = len d ->
  store (a ++ b ++ c) off d = Ok (a ++ d ++ c).
Proof.
  intros -> E. unfold store. rewrite !len_app.
  pose proof (len_nonneg a); pose proof (len_nonneg b); pose proof (len_nonneg c).
  replace (_ && _) with true by lia.
  rewrite take_app_exact by reflexivity.
  replace (drop (len a + len d) (a ++ b ++ c)) with c; [reflexivity|].
  rewrite app_assoc, drop_app_exact; [reflexivity|]. rewrite len_app; lia.
Qed.
Lemma split_at {A} n (l : list A) : 0 <= n <= len l ->
  exists a b, l = a ++ b /\ len a = n.
Proof.
  intros H. exists (take n l), (drop n l). split; [now rewrite take_drop|].
  rewrite len_take by lia. lia.
Qed.
Lemma store_len buf off d buf' : store buf off d = Ok buf' -> len buf' = len buf.
Proof.
  unfold store. destruct (_ && _) eqn:E; [|discriminate]. intros H; inv H.
  rewrite !len_app, len_take, len_drop by (pose proof (len_nonneg d); lia).
  pose proof (len_nonneg d). lia.
Qed.

(** The copy loop when source and destination do not overlap. *)
Lemma copy_loop_disjoint : forall (src d0 mid tl done : list Z) i j,
  length src = length d0 -> j = len done -> i = len done + len d0 + len mid ->
  copy_loop (length src) i j (done ++ d0 ++ mid ++ src ++ tl)
  = Ok (done ++ src ++ mid ++ src ++ tl).
Proof.
  assert (G : forall (src1 src2 d0 mid tl done : list Z) i j,
    length src2 = length d0 -> j = len done ->
    i = len done + len d0 + len mid + len src1 ->
    copy_loop (length src2) i j (done ++ d0 ++ mid ++ src1 ++ src2 ++ tl)
    = Ok (done ++ src2 ++ mid ++ src1 ++ src2 ++ tl)).
  { intros src1 src2. revert src1. induction src2 as [|x s IH]; intros src1 d0 mid tl done i j L J I.
    - destruct d0; [|discriminate]. reflexivity.
    - destruct d0 as [|y d0]; [discriminate|]. cbn [length copy_loop].
      replace (done ++ (y :: d0) ++ mid ++ src1 ++ (x :: s) ++ tl)
        with ((done ++ (y :: d0) ++ mid ++ src1) ++ [x] ++ (s ++ tl))
        by (cbn [app]; rewrite <- !app_assoc; cbn [app]; now rewrite <- !app_assoc).
      rewrite load_at; [|rewrite !len_app; lia|reflexivity]. cbn [bind].
      replace ((done ++ (y :: d0) ++ mid ++ src1) ++ [x] ++ (s ++ tl))
        with (done ++ [y] ++ (d0 ++ mid ++ src1 ++ x :: s ++ tl))
        by (cbn [app]; rewrite <- !app_assoc; cbn [app]; now rewrite <- !app_assoc).
      rewrite store_at; [|lia|reflexivity]. cbn [bind].
      specialize (IH (src1 ++ [x]) d0 mid tl (done ++ [x]) (i + 1) (j + 1)).
      cbn [app] in *.
      replace (done ++ x :: d0 ++ mid ++ src1 ++ x :: s ++ tl)
        with ((done ++ [x]) ++ d0 ++ mid ++ (src1 ++ [x]) ++ s ++ tl)
        by (rewrite <- !app_assoc; cbn [app]; reflexivity).
      rewrite IH.
      + rewrite <- !app_assoc; cbn [app]. reflexivity.
      + cbn in L; lia.
      + rewrite len_app. change (len [x]) with 1. lia.
      + rewrite !len_app. rewrite len_cons in I. change (len [x]) with 1. lia. }
  intros src d0 mid tl done i j L J I.
  specialize (G [] src d0 mid tl done i j L J). cbn [app] in G. apply G.
  rewrite len_nil. lia.
Qed.
(** ... and when they coincide. *)
Lemma copy_loop_same : forall (src done tl : list Z) i,
  i = len done -> copy_loop (length src) i i (done ++ src ++ tl) = Ok (done ++ src ++ tl).
Proof.
  induction src as [|x s IH]; intros done tl i ->; [reflexivity|]. cbn [length copy_loop].
  change ((x :: s) ++ tl) with ([x] ++ s ++ tl).
  rewrite load_at; try reflexivity. cbn [bind].
  rewrite store_at; try reflexivity. cbn [bind].
  replace (done ++ [x] ++ s ++ tl) with ((done ++ [x]) ++ s ++ tl) by now rewrite <- app_assoc.
  apply IH. rewrite len_app. reflexivity.
Qed.

(** ** Groups of eight *)
Lemma groups_ind (P : list Z -> Prop) :
  (forall l, len l < 8 -> P l) ->
  (forall ev r, len ev = 8 -> P r -> P (ev ++ r)) -> forall l, P l.
Proof.
  intros H0 H1. assert (G : forall n l, (length l <= n)%nat -> P l).
  { induction n; intros l L.
    - apply H0. unfold len; lia.
    - destruct (Z.lt_ge_cases (len l) 8); [now apply H0|].
      destruct (split_at 8 l) as (a & b & -> & La); [lia|].
      apply H1; [assumption|]. apply IHn. rewrite app_length in L. unfold len in La. lia. }
  intros l. now apply (G (length l)).
Qed.
Ltac eight ev H :=
  destruct ev as [|?b0 [|?b1 [|?b2 [|?b3 [|?b4 [|?b5 [|?b6 [|?b7 [|? ?]]]]]]]]];
  unfold len in H; cbn [length] in H; try lia; clear H.
Lemma groups_app ev r : len ev = 8 -> groups (ev ++ r) = ev :: groups r.
Proof. intros H. eight ev H. reflexivity. Qed.
Lemma leftover_app ev r : len ev = 8 -> leftover (ev ++ r) = leftover r.
Proof. intros H. eight ev H. reflexivity. Qed.
Lemma groups_short l : len l < 8 -> groups l = [].
Proof.
  intros H. do 8 (destruct l as [|? l]; [reflexivity|]). unfold len in H; cbn [length] in H. lia.
Qed.
Lemma leftover_short l : len l < 8 -> leftover l = l.
Proof.
  intros H. do 8 (destruct l as [|? l]; [reflexivity|]). unfold len in H; cbn [length] in H. lia.
Qed.
Lemma groups_leftover l : concat (groups l) ++ leftover l = l.
Proof.
  induction l as [l H|ev r H IH] using groups_ind.
  - now rewrite groups_short, leftover_short.
  - rewrite groups_app, leftover_app by assumption. cbn. now rewrite <- app_assoc, IH.
Qed.
Lemma groups_8 l : Forall (fun ev => len ev = 8) (groups l).
Proof.
  induction l as [l H|ev r H IH] using groups_ind.
  - rewrite groups_short by assumption. constructor.
  - rewrite groups_app by assumption. now constructor.
Qed.
Lemma len_leftover l : len (leftover l) = len l mod 8.
Proof.
  induction l as [l H|ev r H IH] using groups_ind.
  - rewrite leftover_short by assumption. pose proof (len_nonneg l). lia.
  - rewrite leftover_app, len_app by assumption. lia.
Qed.
Lemma len_groups l : len (groups l) = len l / 8.
Proof.
  induction l as [l H|ev r H IH] using groups_ind.
  - rewrite groups_short by assumption. pose proof (len_nonneg l). rewrite len_nil. lia.
  - rewrite groups_app, len_cons, len_app by assumption. lia.
Qed.
Lemma groups_concat evs r : Forall (fun ev => len ev = 8) evs ->
  groups (concat evs ++ r) = evs ++ groups r.
Proof.
  induction 1; cbn; [reflexivity|]. rewrite <- app_assoc, groups_app by assumption. now f_equal.
Qed.
Lemma groups_concat' evs : Forall (fun ev => len ev = 8) evs -> groups (concat evs) = evs.
Proof.
  intros H. rewrite <- (app_nil_r (concat evs)), groups_concat by assumption.
  cbn. apply app_nil_r.
Qed.
Lemma leftover_concat evs r : Forall (fun ev => len ev = 8) evs ->
  leftover (concat evs ++ r) = leftover r.
Proof.
  induction 1; cbn; [reflexivity|]. rewrite <- app_assoc, leftover_app by assumption. assumption.
Qed.
Lemma groups_split a b : groups (a ++ b) = groups a ++ groups (leftover a ++ b).
Proof.
  rewrite <- (groups_leftover a) at 1. rewrite <- app_assoc, groups_concat by apply groups_8.
  reflexivity.
Qed.
Lemma leftover_split a b : leftover (a ++ b) = leftover (leftover a ++ b).
Proof.
  rewrite <- (groups_leftover a) at 1. now rewrite <- app_assoc, leftover_concat by apply groups_8.
Qed.
Lemma concat_batches : forall chunks p,
  len p < 8 -> concat (batches p chunks) = groups (p ++ concat chunks).
Proof.
  induction chunks as [|c r IH]; intros p H; cbn.
  - now rewrite app_nil_r, groups_short.
  - rewrite app_assoc, (groups_split (p ++ c)). f_equal. apply IH.
    rewrite len_leftover. lia.
Qed.
Lemma concat_len_8 evs : Forall (fun ev : list Z => len ev = 8) evs -> len (concat evs) = 8 * len evs.
Proof.
  induction 1; cbn [concat]; [reflexivity|]. rewrite len_app, len_cons. lia.
Qed.
Lemma Forall_groups (P : Z -> Prop) l : Forall P l -> Forall (Forall P) (groups l).
Proof.
  intros H. rewrite <- (groups_leftover l) in H. apply Forall_app in H as [H _].
  revert H. generalize (groups l). induction l0; cbn; intros H; constructor;
  apply Forall_app in H as [? ?]; auto.
Qed.
Lemma Forall_leftover (P : Z -> Prop) l : Forall P l -> Forall P (leftover l).
Proof.
  intros H. rewrite <- (groups_leftover l) in H. now apply Forall_app in H as [_ H].
Qed.

(** ** One event *)
Definition correct_all (strict islegacy : bool) (fc ref ovf : Z) :=
  fix go (evs : list (list Z)) (lst : option (Z * Z)) : cres (list (list Z) * option (Z * Z)) :=
  match evs with
  | [] => Ok ([], lst)
  | ev :: r => let* (ev', m, c) := correct_event strict islegacy fc ref ovf ev in
               let* (r', lst') := go r (Some (m, c)) in Ok (ev' :: r', lst')
  end.

Lemma correct_event_len strict lg fc ref ovf ev ev' m c :
  correct_event strict lg fc ref ovf ev = Ok (ev', m, c) -> len ev' = 8.
Proof.
  unfold correct_event. destruct (event_words lg ev).
  unfold bind. destruct (signed64 _ _); [|discriminate]. intros H.
  apply (f_equal (fun r => match r with Ok (e, _, _) => len e | _ => 0 end)) in H.
  destruct lg; cbv beta iota zeta in H; rewrite <- H, len_app, !le_enc_len; reflexivity.
Qed.

Lemma digest_spec strict lg fc ref ovf : forall evs done rest orest lst i oe,
  Forall (fun ev => len ev = 8) evs ->
  8 * i = len done -> 8 * oe = len done -> len (concat evs) <= len orest ->
  digest strict lg fc ref ovf (length evs) i (done ++ concat evs ++ rest)
    (done ++ orest) oe lst =
  (let* (evs', lst') := correct_all strict lg fc ref ovf evs lst in
   Ok (done ++ concat evs' ++ rest,
       done ++ concat evs' ++ drop (len (concat evs)) orest, oe + len evs, lst')).
Proof.
  induction evs as [|ev r IH]; intros done rest orest lst i oe H8 Hi Ho Hl.
  - cbn. rewrite drop_0 by reflexivity. change (@len (list Z) []) with 0. now rewrite Z.add_0_r.
  - inv H8. cbn [length digest concat correct_all].
    rewrite <- app_assoc, load_at; [|unfold SIZEOF_RAWEVENT; lia|unfold SIZEOF_RAWEVENT; lia].
    cbn [bind]. destruct (correct_event strict lg fc ref ovf ev) as [[[ev' m] c]|e] eqn:E; [|reflexivity].
    cbn [bind]. pose proof (correct_event_len _ _ _ _ _ _ _ _ _ E) as L8.
    rewrite store_at; [|unfold SIZEOF_RAWEVENT; lia|lia]. cbn [bind].
    cbn [concat] in Hl. rewrite len_app in Hl. pose proof (len_nonneg (concat r)).
    destruct (split_at 8 orest) as (o1 & o2 & -> & Lo1); [lia|].
    rewrite store_at; [|unfold SIZEOF_RAWEVENT; lia|lia]. cbn [bind].
    rewrite len_app in Hl.
    replace (done ++ ev' ++ concat r ++ rest) with ((done ++ ev') ++ concat r ++ rest) by (rewrite <- app_assoc; reflexivity).
    replace (done ++ ev' ++ o2) with ((done ++ ev') ++ o2) by (rewrite <- app_assoc; reflexivity).
    rewrite (IH (done ++ ev') rest o2 (Some (m, c)) (i + 1) (oe + 1)); auto;
      try (rewrite len_app; lia); try lia.
    fold (correct_all strict lg fc ref ovf).
    destruct (correct_all strict lg fc ref ovf r (Some (m, c))) as [[evs' lst']|e]; [|reflexivity].
    cbn [bind concat]. rewrite len_app, len_cons, drop_app_ge by lia.
    rewrite <- !app_assoc. replace (len ev + len (concat r) - len o1) with (len (concat r)) by lia.
    now replace (oe + (1 + len r)) with (oe + 1 + len r) by lia.
Qed.

Lemma land_1023 x : Z.land x 1023 = x mod 2 ^ 10.
Proof. change 1023 with (Z.ones 10). now rewrite Z.land_ones. Qed.
Lemma enc8_words v : le_enc 4 (v mod 2 ^ 32) ++ le_enc 4 (v / 2 ^ 32) = le_enc 8 v.
Proof.
  change (le_enc 8 v) with (le_enc (4 + 4) v). rewrite le_enc_app.
  rewrite le_enc_mod by (try reflexivity; exists 1; reflexivity). reflexivity.
Qed.
Lemma ev_value_words lg ev low high : bytes_ok ev -> len ev = 8 ->
  event_words lg ev = (low, high) ->
  ev_value lg ev = low + 2 ^ 32 * high /\ 0 <= low < 2 ^ 32 /\ 0 <= high < 2 ^ 32.
Proof.
  intros B L E. unfold event_words in E. unfold ev_value, swap_words.
  assert (Bt : bytes_ok (take 4 ev)) by now apply Forall_take.
  assert (Bd : bytes_ok (drop 4 ev)) by now apply Forall_drop.
  apply le_dec_bound in Bt, Bd. rewrite len_take, L in Bt by lia. rewrite len_drop, L in Bd by lia.
  change (256 ^ Z.min 4 8) with (2 ^ 32) in Bt. change (256 ^ Z.max 0 (8 - 4)) with (2 ^ 32) in Bd.
  destruct lg; injection E as <- <-; split; try (split; assumption).
  - rewrite le_dec_app, len_drop, L by lia. reflexivity.
  - rewrite <- (take_drop 4 ev) at 1. rewrite le_dec_app, len_take, L by lia. reflexivity.
Qed.

Lemma signed64_ok strict x y : signed64 strict x = Ok y -> y = x \/ (strict = false /\ y = s64 x).
Proof.
  unfold signed64. destruct (fits_s64 x); [intros H; inv H; auto|].
  destruct strict; intros H; inv H; auto.
Qed.

Lemma correct_event_spec strict lg f ref ovf ev : bytes_ok ev -> len ev = 8 ->
  correct_event strict lg f ref ovf ev =
  (let* prod := signed64 strict (elapsed ref (ev_time lg ev) / 2 ^ 12 * f) in
   Ok (mk_event lg (ev_time lg ev + prod / 2 ^ 22 + ovf) (ev_flags lg ev),
       ev_time lg ev, prod / 2 ^ 22)).
Proof.
  intros B L. unfold correct_event. destruct (event_words lg ev) as [low high] eqn:E.
  destruct (ev_value_words _ _ _ _ B L E) as (V & Hl & Hh).
  assert (T : event_tsmeas low high = ev_time lg ev).
  { unfold event_tsmeas, ev_time. rewrite V. rewrite Z.shiftl_mul_pow2, Z.shiftr_div_pow2 by lia.
    unfold u64. rewrite Z.mod_small by lia. rewrite lor_add by lia. lia. }
  rewrite T.
  change FCORR_TBITS1 with 12. change FCORR_TBITS2 with 22.
  change (u64 (ev_time lg ev - ref)) with (elapsed ref (ev_time lg ev)).
  rewrite (Z.shiftr_div_pow2 (elapsed _ _)) by lia.
  destruct (signed64 strict _) as [prod|e]; [|reflexivity]. cbn [bind]. cbv zeta.
  rewrite (Z.shiftr_div_pow2 prod) by lia.
  set (t := ev_time lg ev + prod / 2 ^ 22 + ovf).
  assert (F : Z.land low 1023 = ev_flags lg ev).
  { rewrite land_1023. unfold ev_flags. rewrite V. lia. }
  rewrite F. assert (Bf : 0 <= ev_flags lg ev < 2 ^ 10) by (unfold ev_flags; lia).
  set (fl := ev_flags lg ev) in *.
  rewrite Z.shiftr_div_pow2, Z.shiftl_mul_pow2 by lia.
  assert (HH : u32 (u64 t / 2 ^ 22) = ((t * 2 ^ 10 + fl) / 2 ^ 32) mod 2 ^ 32)
    by (unfold u32, u64; lia).
  assert (HL : u32 (Z.lor (u64 (u64 t * 2 ^ 10)) fl) = (t * 2 ^ 10 + fl) mod 2 ^ 32).
  { unfold u32, u64.
    replace ((t mod 2 ^ 64 * 2 ^ 10) mod 2 ^ 64) with ((t mod 2 ^ 54) * 2 ^ 10) by lia.
    rewrite lor_add by lia. lia. }
  rewrite HH, HL. unfold mk_event.
  rewrite <- (enc8_words (t * 2 ^ 10 + fl)).
  assert (HM : le_enc 4 (((t * 2 ^ 10 + fl) / 2 ^ 32) mod 2 ^ 32) = le_enc 4 ((t * 2 ^ 10 + fl) / 2 ^ 32))
    by (apply le_enc_mod; try reflexivity; exists 1; reflexivity).
  destruct lg; cbv beta iota; rewrite HM; [|reflexivity].
  unfold swap_words. rewrite drop_app_exact, take_app_exact by (rewrite le_enc_len; reflexivity).
  reflexivity.
Qed.

(** ** The frequency buffer *)
(** A forward copy towards the front of the buffer, overlapping or not. *)
Lemma copy_loop_forward : forall (src X D tl : list Z) i j,
  j = len D -> i = len D + len X -> 0 < len X ->
  exists Y, copy_loop (length src) i j (D ++ X ++ src ++ tl) = Ok (D ++ src ++ Y)
            /\ len Y = len X + len tl.
Proof.
  induction src as [|x s IH]; intros X D tl i j -> -> HX.
  - cbn. exists (X ++ tl). now rewrite len_app.
  - destruct X as [|y X']; [unfold len in HX; cbn in HX; lia|]. cbn [length copy_loop].
    replace (D ++ (y :: X') ++ (x :: s) ++ tl) with ((D ++ y :: X') ++ [x] ++ (s ++ tl))
      by (rewrite <- !app_assoc; reflexivity).
    rewrite load_at; [|rewrite len_app; lia|reflexivity]. cbn [bind].
    replace ((D ++ y :: X') ++ [x] ++ (s ++ tl)) with (D ++ [y] ++ (X' ++ x :: s ++ tl))
      by (rewrite <- !app_assoc; reflexivity).
    rewrite store_at by reflexivity. cbn [bind].
    destruct (IH (X' ++ [x]) (D ++ [x]) tl (len D + len (y :: X') + 1) (len D + 1)) as (Y & E & LY).
    + rewrite len_app. reflexivity.
    + autorewrite with lens. lia.
    + autorewrite with lens. pose proof (len_nonneg X'). lia.
    + exists Y. split.
      * replace (D ++ [x] ++ X' ++ x :: s ++ tl) with ((D ++ [x]) ++ (X' ++ [x]) ++ s ++ tl)
          by (rewrite <- !app_assoc; reflexivity).
        rewrite E. rewrite <- !app_assoc. reflexivity.
      * rewrite LY. autorewrite with lens. lia.
Qed.

Lemma cstring_upto0 l r : cstring (l ++ 0 :: r) = Ok (upto0 l).
Proof. induction l as [|c l IH]; cbn; [reflexivity|]. destruct (c =? 0); [reflexivity|]. now rewrite IH. Qed.

(** What freqcd does with one line. *)
Definition line_update (f : Z) (line : list Z) : Z :=
  let v := readint (upto0 line) in if abs32 v <? FCORR_MAX then v else f.

Lemma freq_scan_spec : forall R A L T f,
  exists A', freq_scan (length R) (len A + len L) (A ++ L ++ R ++ T) (len A) f
    = Ok (A' ++ snd (split_lines L R) ++ T, len A', fold_left line_update (fst (split_lines L R)) f)
  /\ len A' + len (snd (split_lines L R)) = len A + len L + len R
  /\ (if has_newline R then len A < len A' else A' = A).
Proof.
  induction R as [|c r IH]; intros A L T f.
  - exists A. cbn. split; [reflexivity|]. split; [|reflexivity]. change (@len Z []) with 0; lia.
  - cbn [length freq_scan split_lines has_newline existsb].
    replace (A ++ L ++ (c :: r) ++ T) with ((A ++ L) ++ [c] ++ (r ++ T)) by (rewrite <- !app_assoc; reflexivity).
    rewrite load_at; [|rewrite len_app; lia|reflexivity]. cbn [bind].
    rewrite (Z.eqb_sym c 10). change (10 =? c) with (newline =? c).
    destruct (newline =? c) eqn:E.
    + rewrite store_at; [|rewrite len_app; lia|reflexivity]. cbn [bind].
      replace (drop (len A) ((A ++ L) ++ [0] ++ r ++ T)) with (L ++ 0 :: (r ++ T))
        by (rewrite <- app_assoc, drop_app_exact; reflexivity).
      rewrite cstring_upto0. cbn [bind]. fold (line_update f L).
      specialize (IH ((A ++ L) ++ [0]) [] T (line_update f L)).
      destruct (split_lines [] r) as [ls rest] eqn:S. cbn [fst snd] in *.
      destruct IH as (A' & E1 & E2 & E3). exists A'.
      rewrite !len_app in E1, E2, E3. change (len [0]) with 1 in *. change (@len Z []) with 0 in *.
      replace (len A + len L + 1 + 0) with (len A + len L + 1) in E1 by lia. cbn [app] in E1.
      replace ((A ++ L) ++ [0] ++ r ++ T) with (((A ++ L) ++ [0]) ++ r ++ T) by (rewrite <- !app_assoc; reflexivity).
      cbn [fold_left]. fold (line_update f L). rewrite E1. split; [reflexivity|].
      rewrite len_cons. pose proof (len_nonneg L). split; [lia|].
      cbn [orb]. destruct (has_newline r); [lia|]. subst A'. autorewrite with lens. lia.
    + specialize (IH A (L ++ [c]) T f). rewrite len_app in IH. change (len [c]) with 1 in IH.
      destruct IH as (A' & E1 & E2 & E3). exists A'.
      replace (len A + (len L + 1)) with (len A + len L + 1) in E1 by lia.
      replace ((A ++ L) ++ [c] ++ r ++ T) with (A ++ (L ++ [c]) ++ r ++ T) by (rewrite <- !app_assoc; reflexivity).
      rewrite E1. split; [reflexivity|]. rewrite len_cons. split; [lia|]. exact E3.
Qed.

(** State of the frequency parser: pending fragment and correction in force. *)
Definition feed (p : list Z * Z) (data : list Z) : list Z * Z :=
  if has_newline data then
    let '(ls, rest) := split_lines [] (fst p ++ data) in (rest, fold_left line_update ls (snd p))
  else p.

Lemma split_lines_none : forall r cur, has_newline r = false -> split_lines cur r = ([], cur ++ r).
Proof.
  induction r as [|c r IH]; intros cur H;
    cbn [has_newline existsb split_lines] in *; [now rewrite app_nil_r|].
  destruct (newline =? c) eqn:E; [discriminate|]. rewrite IH by assumption.
  rewrite <- app_assoc. reflexivity.
Qed.
Lemma split_lines_app : forall a cur b, has_newline a = false ->
  split_lines cur (a ++ b) = split_lines (cur ++ a) b.
Proof.
  induction a as [|c r IH]; intros cur b H;
    cbn [has_newline existsb split_lines app] in *; [now rewrite app_nil_r|].
  destruct (newline =? c) eqn:E; [discriminate|]. rewrite IH by assumption.
  rewrite <- app_assoc. reflexivity.
Qed.
Lemma has_newline_app a b : has_newline (a ++ b) = has_newline a || has_newline b.
Proof. unfold has_newline. apply existsb_app. Qed.
Lemma split_lines_rest : forall l cur, has_newline cur = false -> has_newline (snd (split_lines cur l)) = false.
Proof.
  induction l as [|c r IH]; intros cur H; cbn [split_lines]; [assumption|].
  destruct (newline =? c) eqn:E.
  - specialize (IH [] eq_refl). destruct (split_lines [] r). assumption.
  - apply IH. rewrite has_newline_app, H. cbn [has_newline existsb]. rewrite E. reflexivity.
Qed.

Definition with_freq (s : fstate) (op : bool) (fb : list Z) (part f : Z) : fstate :=
  {| inbuf := inbuf s; inbytesread := inbytesread s; outbuf := outbuf s;
     eventnum := eventnum s; outevents := outevents s; freqopen := op;
     freqbuf := fb; freqpartial := part; freqnext := part; fcorr := f;
     tsref := tsref s; isset_tsref := isset_tsref s;
     tsoverflowcorr := tsoverflowcorr s; last := last s |}.

Record FInv (s : fstate) (pf : list Z) : Prop := {
  F_len : len (freqbuf s) = FREQBUFSIZE;
  F_buf : exists T, freqbuf s = pf ++ T;
  F_part : freqpartial s = len pf;
  F_next : freqnext s = len pf;
  F_small : len pf <= 98;
  F_nonl : has_newline pf = false }.

Lemma digest_freq_spec s pf data : FInv s pf -> len data <= FREQBUFSIZE - freqpartial s - 1 ->
  exists fb, digest_freq s data =
    Ok (with_freq s (match data with [] => false | _ => freqopen s end) fb
          (len (fst (feed (pf, fcorr s) data))) (snd (feed (pf, fcorr s) data)))
  /\ len fb = FREQBUFSIZE /\ (exists T, fb = fst (feed (pf, fcorr s) data) ++ T)
  /\ len (fst (feed (pf, fcorr s) data)) <= 98
  /\ has_newline (fst (feed (pf, fcorr s) data)) = false.
Proof.
  intros [FL [T FB] FP FN FS FNL] HD. rewrite FP in HD. unfold digest_freq. rewrite FN, FP.
  pose proof (len_nonneg data). unfold FREQBUFSIZE in *.
  rewrite FB in *. rewrite len_app in FL.
  destruct (split_at (len data) T) as (T1 & T2 & -> & LT1); [lia|].
  rewrite len_app in FL.
  rewrite store_at by (reflexivity || assumption). cbn [bind].
  destruct (freq_scan_spec (pf ++ data) [] [] T2 (fcorr s)) as (A' & E1 & E2 & E3).
  cbn [app] in E1. change (@len Z []) with 0 in *. rewrite Z.add_0_r in E1.
  replace (Z.to_nat (len pf + len data)) with (length (pf ++ data))
    by (unfold len; rewrite app_length; lia).
  rewrite <- app_assoc in E1. rewrite E1. cbn [bind]. clear E1.
  rewrite has_newline_app, FNL in E3. cbn [orb] in E3.
  unfold feed. cbn [fst snd]. rewrite len_app in E2.
  destruct (has_newline data) eqn:HN.
  - destruct (split_lines [] (pf ++ data)) as [ls rest] eqn:S. cbn [fst snd] in *.
    replace (0 <? len A') with true by lia.
    replace (len pf + len data - len A') with (len rest) by lia.
    replace (len pf + len data - len rest) with (len A') by lia.
    destruct (copy_loop_forward rest A' [] T2 (len A') 0) as (Y & EY & LY); try reflexivity; [lia|].
    cbn [app] in EY. replace (Z.to_nat (len rest)) with (length rest) by (unfold len; lia).
    rewrite EY. cbn [bind]. exists (rest ++ Y). split; [reflexivity|].
    rewrite len_app, LY. split; [lia|]. split; [now exists Y|]. split; [lia|].
    pose proof (split_lines_rest (pf ++ data) [] eq_refl) as HR. now rewrite S in HR.
  - subst A'. rewrite split_lines_none by (now rewrite has_newline_app, FNL, HN). cbn [fst snd app fold_left].
    change (@len Z []) with 0. cbn [Z.ltb Z.compare].
    exists ((pf ++ data) ++ T2). unfold with_freq. rewrite <- app_assoc. split.
    + reflexivity.
    + rewrite !len_app. split; [lia|]. split; [now eexists|]. split; assumption.
Qed.

(** ** The main loop *)
Definition clk : Type := Z * bool * Z * option (Z * Z).
Definition clk_of (s : fstate) : clk := (tsref s, isset_tsref s, tsoverflowcorr s, last s).

(** What digesting a batch of events does, abstracting from the buffers. *)
Definition input_clock (strict lg : bool) (f : Z) (k : clk) (evs : list (list Z))
  : cres (list (list Z) * clk) :=
  let '(ref, isset, ovf, lst) := k in
  let '(ref', isset') :=
    match evs with
    | ev :: _ => if isset : bool then (ref, isset) else (ev_time lg ev, true)
    | [] => (ref, isset)
    end in
  let* (evs', lst') := correct_all strict lg f ref' ovf evs lst in
  match lst' with
  | None => Err Uninitialised
  | Some (m, c) => let* ovf' := signed64 strict (ovf + c) in Ok (evs', (m, isset', ovf', lst'))
  end.

Lemma event_time lg ev : bytes_ok ev -> len ev = 8 ->
  (let '(low, high) := event_words lg ev in event_tsmeas low high) = ev_time lg ev.
Proof.
  intros B L. destruct (event_words lg ev) as [low high] eqn:E.
  destruct (ev_value_words _ _ _ _ B L E) as (V & Hl & Hh).
  unfold event_tsmeas, ev_time. rewrite V. rewrite Z.shiftl_mul_pow2, Z.shiftr_div_pow2 by lia.
  unfold u64. rewrite Z.mod_small by lia. rewrite lor_add by lia. lia.
Qed.

Lemma correct_all_len strict lg f ref ovf : forall evs lst evs' lst',
  correct_all strict lg f ref ovf evs lst = Ok (evs', lst') ->
  Forall (fun ev => len ev = 8) evs' /\ len evs' = len evs.
Proof.
  induction evs as [|ev r IH]; intros lst evs' lst' H; cbn in H.
  - inv H. split; [constructor|reflexivity].
  - destruct (correct_event strict lg f ref ovf ev) as [[[ev' m] c]|] eqn:E; [|discriminate].
    cbn [bind] in H. fold (correct_all strict lg f ref ovf) in H.
    destruct (correct_all strict lg f ref ovf r (Some (m, c))) as [[r' l']|] eqn:E2; [|discriminate].
    inv H. destruct (IH _ _ _ E2) as [A B]. split.
    + constructor; [now apply correct_event_len in E|assumption].
    + rewrite !len_cons. lia.
Qed.

Record Inv (s : fstate) (pend pf : list Z) : Prop := {
  I_in : exists A B, inbuf s = A ++ pend ++ B /\ len A = inbytesread s - inbytesread s mod 8;
  I_pend : len pend = inbytesread s mod 8;
  I_inlen : len (inbuf s) = INBUFSIZE;
  I_read : 0 <= inbytesread s <= INBUFSIZE;
  I_outlen : len (outbuf s) = OUTBUFSIZE;
  I_num : eventnum s = 0;
  I_oe : outevents s = 0;
  I_bytes : bytes_ok pend;
  I_f : FInv s pf }.

(** Compaction (289-291). *)
Lemma compact_spec s pend pf : Inv s pend pf ->
  exists ib, copy_loop (Z.to_nat (inbytesread s mod SIZEOF_RAWEVENT))
     (inbytesread s - inbytesread s mod SIZEOF_RAWEVENT) 0 (inbuf s) = Ok ib
  /\ (exists B, ib = pend ++ B) /\ Inv (with_inbuf s ib) pend pf.
Proof.
  intros I. destruct I as [[A [B [EI LA]]] LP LI LR LO EN OE BP FI].
  change SIZEOF_RAWEVENT with 8. pose proof (len_nonneg A).
  replace (Z.to_nat (inbytesread s mod 8)) with (length pend) by (unfold len in LP; lia).
  assert (len A = 0 \/ 8 <= len A) as [Z0|G] by lia.
  - apply len_0_nil in Z0. subst A. cbn [app] in EI. change (@len Z []) with 0 in LA.
    exists (inbuf s). rewrite EI. split.
    + replace (inbytesread s - inbytesread s mod 8) with 0 by lia.
      exact (copy_loop_same pend [] B 0 eq_refl).
    + split; [now exists B|]. constructor; cbn; try assumption.
      * exists [], B. split; [reflexivity|]. assumption.
      * now rewrite <- EI.
      * destruct FI; now constructor.
  - destruct (split_at (len pend) A) as (D & M & -> & LD); [lia|].
    rewrite len_app in *.
    assert (copy_loop (length pend) (inbytesread s - inbytesread s mod 8) 0 (inbuf s)
            = Ok (pend ++ M ++ pend ++ B)) as C.
    { rewrite EI. pose proof (copy_loop_disjoint pend D M B []) as C. cbn [app] in C.
      rewrite <- app_assoc. apply C; [unfold len in *; lia|reflexivity|].
      change (@len Z []) with 0. lia. }
    exists (pend ++ M ++ pend ++ B). split; [assumption|]. split; [now exists (M ++ pend ++ B)|].
    assert (len (pend ++ M ++ pend ++ B) = INBUFSIZE) as L2
      by (rewrite <- LI, EI; autorewrite with lens; lia).
    constructor; cbn; try assumption.
    + exists (pend ++ M), B. rewrite <- app_assoc. split; [reflexivity|]. rewrite len_app. lia.
    + destruct FI; now constructor.
Qed.

Lemma digest_input_spec strict lg s pend pf B data :
  Inv s pend pf -> inbuf s = pend ++ B -> bytes_ok data -> 
  len data <= INBUFSIZE - len pend ->
  match input_clock strict lg (fcorr s) (clk_of s) (groups (pend ++ data)) with
  | Err e => digest_input strict lg s (len pend) data = Err e
  | Ok (evs', k') => exists s1,
      digest_input strict lg s (len pend) data = Ok s1 /\ clk_of s1 = k' /\
      fcorr s1 = fcorr s /\ freqopen s1 = freqopen s /\
      eventnum s1 = len evs' /\ (exists O, outbuf s1 = concat evs' ++ O) /\
      Forall (fun ev => len ev = 8) evs' /\
      FInv s1 pf /\
      Inv (clear_events s1) (leftover (pend ++ data)) pf
  end.
Proof.
  intros I EB BD LD. destruct I as [[A [B0 [EI LA]]] LP LI LR LO EN OE BP FI].
  pose proof (len_nonneg data). pose proof (len_nonneg pend).
  unfold INBUFSIZE, OUTBUFSIZE, INBUFENTRIES, OUTBUFENTRIES, SIZEOF_RAWEVENT in *.
  cbn [Z.mul Pos.mul] in *.
  rewrite EB, len_app in LI.
  destruct (split_at (len data) B) as (B1 & B2 & -> & LB1); [lia|]. rewrite len_app in LI.
  unfold digest_input. rewrite EB. rewrite store_at by (reflexivity || assumption). cbn [bind].
  set (evs := groups (pend ++ data)). set (lo := leftover (pend ++ data)).
  assert (GL : concat evs ++ lo = pend ++ data) by apply groups_leftover.
  assert (G8 : Forall (fun ev => len ev = 8) evs) by apply groups_8.
  assert (LE : len evs = (len pend + len data) / 8) by (unfold evs; rewrite len_groups, len_app; reflexivity).
  assert (LL : len lo = (len pend + len data) mod 8) by (unfold lo; rewrite len_leftover, len_app; reflexivity).
  assert (BA : bytes_ok (pend ++ data)) by (apply Forall_app; auto).
  assert (GB : Forall bytes_ok evs) by (now apply Forall_groups).
  change SIZEOF_RAWEVENT with 8. rewrite <- LE.
  unfold input_clock, clk_of.
  replace (pend ++ data ++ B2) with (concat evs ++ lo ++ B2)
    by (rewrite app_assoc, GL; rewrite <- app_assoc; reflexivity).
  (* reference *)
  set (refpair := match evs with
    | ev :: _ => if isset_tsref s then (tsref s, isset_tsref s) else (ev_time lg ev, true)
    | [] => (tsref s, isset_tsref s) end).
  assert (RP : (if negb (isset_tsref s) && (0 <? len evs)
     then let* ev := load (concat evs ++ lo ++ B2) 0 8 in
          (let '(low, high) := event_words lg ev in Ok (event_tsmeas low high, true))
     else Ok (tsref s, isset_tsref s)) = Ok refpair :> cres (Z * bool)).
  { unfold refpair. destruct evs as [|ev r]; [cbn; now rewrite andb_false_r|].
    destruct (isset_tsref s); cbn [negb andb]; [reflexivity|].
    rewrite len_cons. pose proof (len_nonneg r). replace (0 <? 1 + len r) with true by lia.
    pose proof (Forall_inv G8) as L8. pose proof (Forall_inv GB) as BV.
    cbn beta in L8. cbn [concat]. rewrite <- app_assoc.
    pose proof (load_at [] ev (concat r ++ lo ++ B2) 0 8 eq_refl (eq_sym L8)) as LD0.
    cbn [app] in LD0. rewrite LD0. cbn [bind]. rewrite <- (event_time lg ev) by assumption.
    now destruct (event_words lg ev). }
  rewrite RP. cbn [bind]. clear RP. destruct refpair as [ref' isset'].
  pose proof (digest_spec strict lg (fcorr s) ref' (tsoverflowcorr s) evs [] (lo ++ B2) (outbuf s) (last s) 0 0 G8 eq_refl eq_refl) as DS.
  cbn [app] in DS. replace (Z.to_nat (len evs)) with (length evs) by (unfold len; lia).
  rewrite OE. rewrite DS by (rewrite concat_len_8 by assumption; lia). clear DS.
  destruct (correct_all strict lg (fcorr s) ref' (tsoverflowcorr s) evs (last s)) as [[evs' lst']|e] eqn:CA; [|reflexivity].
  cbn [bind]. destruct lst' as [[m c]|]; [|reflexivity].
  destruct (signed64 strict (tsoverflowcorr s + c)) as [ovf'|e]; [|reflexivity]. cbn [bind].
  destruct (correct_all_len _ _ _ _ _ _ _ _ _ CA) as [E8 EL].
  eexists. split; [reflexivity|]. cbn [clk_of tsref isset_tsref tsoverflowcorr last fcorr freqopen eventnum outbuf].
  split; [reflexivity|]. split; [reflexivity|]. split; [reflexivity|]. split; [lia|].
  split; [now eexists|]. split; [assumption|].
  assert (FInv {| inbuf := concat evs' ++ lo ++ B2; inbytesread := len pend + len data;
       outbuf := concat evs' ++ drop (len (concat evs)) (outbuf s); eventnum := len evs;
       outevents := 0 + len evs; freqopen := freqopen s; freqbuf := freqbuf s;
       freqpartial := freqpartial s; freqnext := freqnext s; fcorr := fcorr s; tsref := m;
       isset_tsref := isset'; tsoverflowcorr := ovf'; last := Some (m, c) |} pf) as FI'
   by (destruct FI; now constructor).
  split; [assumption|].
  pose proof (concat_len_8 _ E8). pose proof (concat_len_8 _ G8).
  constructor; cbn; unfold INBUFSIZE, OUTBUFSIZE, INBUFENTRIES, OUTBUFENTRIES, SIZEOF_RAWEVENT;
   cbn [Z.mul Pos.mul]; try reflexivity; try assumption.
  - exists (concat evs'), B2. split; [reflexivity|]. lia.
  - autorewrite with lens. lia.
  - lia.
  - autorewrite with lens. rewrite len_drop by lia. lia.
  - now apply Forall_leftover.
  - destruct FI; now constructor.
Qed.

Lemma correct_all_err strict lg f ref ovf : forall evs lst e,
  correct_all strict lg f ref ovf evs lst = Err e -> e = SignedOverflow /\ strict = true.
Proof.
  induction evs as [|ev r IH]; intros lst e H; cbn in H; [discriminate|].
  destruct (correct_event strict lg f ref ovf ev) as [[[ev' m] c]|] eqn:E; cbn [bind] in H.
  - fold (correct_all strict lg f ref ovf) in H.
    destruct (correct_all strict lg f ref ovf r (Some (m, c))) as [[r' l']|] eqn:E2; [discriminate|].
    apply IH in E2. cbn in H. now inv H.
  - inv H. unfold correct_event in E. destruct (event_words lg ev). unfold signed64 in E.
    destruct (fits_s64 _); [destruct lg; discriminate|]. destruct strict; [|destruct lg; discriminate].
    cbn in E. now inv E.
Qed.
Lemma input_clock_err strict lg f k evs e : input_clock strict lg f k evs = Err e ->
  (e = SignedOverflow /\ strict = true) \/ (e = Uninitialised /\ snd k = None).
Proof.
  unfold input_clock. destruct k as [[[ref isset] ovf] lst]. cbn [snd].
  destruct (match evs with [] => _ | _ => _ end) as [ref' isset'].
  destruct (correct_all _ _ _ _ _ _ _) as [[evs' lst']|e'] eqn:E; cbn [bind].
  - destruct lst' as [[m c]|].
    + unfold signed64. destruct (fits_s64 _); [discriminate|]. destruct strict; [|discriminate].
      cbn. intros H; inv H. auto.
    + intros H; inv H. right. split; [reflexivity|].
      destruct evs as [|ev r]; cbn in E; [now inv E|].
      destruct (correct_event _ _ _ _ _ _) as [[[ev' m] c]|] in E; [|discriminate]. cbn [bind] in E.
      fold (correct_all strict lg f ref' ovf) in E. exfalso.
      assert (G : forall r x evs1, correct_all strict lg f ref' ovf r (Some x) <> Ok (evs1, None)).
      { clear. induction r as [|ev r IH]; intros x evs1 H; cbn in H; [discriminate|].
        destruct (correct_event _ _ _ _ _ _) as [[[ev' m] c]|] in H; [|discriminate]. cbn [bind] in H.
        fold (correct_all strict lg f ref' ovf) in H.
        destruct (correct_all strict lg f ref' ovf r (Some (m, c))) as [[r' l']|] eqn:E; [|discriminate].
        inv H. now apply IH in E. }
      destruct (correct_all strict lg f ref' ovf r (Some (m, c))) as [[r' l']|] eqn:E2; [|discriminate].
      inv E. now apply G in E2.
  - intros H; inv H. left. now apply correct_all_err in E.
Qed.

Lemma prefix_refl {A} (l : list A) : prefix l l.
Proof. exists []. now rewrite app_nil_r. Qed.
Lemma prefix_nil {A} (l : list A) : prefix [] l.
Proof. now exists l. Qed.
Lemma prefix_take {A} n (l : list A) : prefix (take n l) l.
Proof. exists (drop n l). now rewrite take_drop. Qed.

Lemma write_phase_spec s wr got gotf evs' pend pf :
  eventnum s = len evs' -> (exists O, outbuf s = concat evs' ++ O) ->
  Forall (fun ev => len ev = 8) evs' -> Inv (clear_events s) pend pf ->
  exists s' o st, write_phase s wr got gotf = Ok (s', o, st) /\
    rx o = got /\ rx_freq o = gotf /\ prefix (tx o) (concat evs') /\
    (st = Running -> tx o = concat evs' /\ Inv s' pend pf) /\
    clk_of s' = clk_of s /\ fcorr s' = fcorr s /\ freqopen s' = freqopen s.
Proof.
  intros EN [O EO] E8 I. unfold write_phase. rewrite EN, EO.
  pose proof (concat_len_8 _ E8) as LC.
  pose proof (load_at [] (concat evs') O 0 (len evs' * SIZEOF_RAWEVENT) eq_refl) as LD.
  cbn [app] in LD. rewrite LD by (unfold SIZEOF_RAWEVENT; lia). cbn [bind].
  set (retval := match wr with None => _ | _ => _ end).
  destruct (retval =? len evs' * SIZEOF_RAWEVENT) eqn:E.
  - eexists _, _, _. split; [reflexivity|]. cbn [rx rx_freq tx].
    assert (take retval (concat evs') = concat evs') as ->
      by (apply take_all; unfold SIZEOF_RAWEVENT in E; lia).
    split; [reflexivity|]. split; [reflexivity|]. split; [apply prefix_refl|]. now auto.
  - eexists _, _, _. split; [reflexivity|]. cbn [rx rx_freq tx].
    split; [reflexivity|]. split; [reflexivity|]. split; [apply prefix_take|].
    split; [discriminate|]. now auto.
Qed.

Lemma freq_phase_spec s fr wr got evs' pend pf :
  eventnum s = len evs' -> (exists O, outbuf s = concat evs' ++ O) ->
  Forall (fun ev => len ev = 8) evs' -> Inv (clear_events s) pend pf -> FInv s pf -> rd_ok fr ->
  exists s' o st, freq_phase s fr wr got = Ok (s', o, st) /\
    rx o = got /\ bytes_ok (rx_freq o) /\ prefix (tx o) (concat evs') /\
    (st = Running -> tx o = concat evs' /\ Inv s' pend (fst (feed (pf, fcorr s) (rx_freq o)))) /\
    clk_of s' = clk_of s /\ fcorr s' = snd (feed (pf, fcorr s) (rx_freq o)) /\
    (freqopen s = false -> freqopen s' = false /\ rx_freq o = []).
Proof.
  intros EN EO E8 I FI RO. unfold freq_phase.
  destruct (freqopen s) eqn:FO.
  - destruct fr as [[|offered]|].
    + eexists _, _, _. split; [reflexivity|]. cbn [rx rx_freq tx].
      repeat split; try reflexivity; try apply prefix_nil; try discriminate. constructor.
    + set (data := take _ offered).
      assert (LD : len data <= FREQBUFSIZE - freqpartial s - 1).
      { unfold data. destruct FI as [_ _ FP _ FS _]. rewrite len_take; unfold FREQBUFSIZE; lia. }
      destruct (digest_freq_spec s pf data FI LD) as (fb & E & L1 & T1 & L2 & N2).
      rewrite E. cbn [bind].
      match goal with |- context [write_phase ?x _ _ _] => set (s1 := x) end.
      assert (I1 : Inv (clear_events s1) pend (fst (feed (pf, fcorr s) data))).
      { destruct I. constructor; cbn in *; try assumption. constructor; cbn; auto. }
      destruct (write_phase_spec s1 wr got data evs' pend _ EN EO E8 I1)
        as (s' & o & st & W & R1 & R2 & R3 & R4 & R5 & R6 & R7).
      rewrite W. eexists _, _, _. split; [reflexivity|]. rewrite R2.
      split; [assumption|]. split; [now apply Forall_take|]. split; [assumption|].
      split; [assumption|]. split; [now rewrite R5|]. split; [now rewrite R6|]. discriminate.
    + destruct (write_phase_spec s wr got [] evs' pend _ EN EO E8 I)
        as (s' & o & st & W & R1 & R2 & R3 & R4 & R5 & R6 & R7).
      rewrite W. eexists _, _, _. split; [reflexivity|]. rewrite R2. cbn [feed has_newline existsb].
      split; [assumption|]. split; [constructor|]. split; [assumption|].
      split; [assumption|]. split; [assumption|]. split; [assumption|]. discriminate.
  - destruct (write_phase_spec s wr got [] evs' pend _ EN EO E8 I)
        as (s' & o & st & W & R1 & R2 & R3 & R4 & R5 & R6 & R7).
    rewrite W. eexists _, _, _. split; [reflexivity|]. rewrite R2. cbn [feed has_newline existsb].
    split; [assumption|]. split; [constructor|]. split; [assumption|].
    split; [assumption|]. split; [assumption|]. split; [assumption|]. now rewrite R7.
Qed.

Lemma step_spec strict lg s pend pf t : Inv s pend pf -> tick_ok t ->
  match step strict lg s t with
  | Err e => exists data, delivered (len pend) [t] = [data] /\ bytes_ok data /\
      input_clock strict lg (fcorr s) (clk_of s) (groups (pend ++ data)) = Err e
  | Ok (s', o, st) =>
      bytes_ok (rx o) /\ bytes_ok (rx_freq o) /\
      delivered (len pend) [t] = (match rx o with [] => [] | c => [c] end) /\
      (exists evs',
        match rx o with
        | [] => evs' = [] /\ clk_of s' = clk_of s
        | _ => input_clock strict lg (fcorr s) (clk_of s) (groups (pend ++ rx o)) = Ok (evs', clk_of s')
        end /\ prefix (tx o) (concat evs') /\ (st = Running -> tx o = concat evs')) /\
      fcorr s' = snd (feed (pf, fcorr s) (rx_freq o)) /\
      (st = Running -> Inv s' (leftover (pend ++ rx o)) (fst (feed (pf, fcorr s) (rx_freq o)))) /\
      (freqopen s = false -> freqopen s' = false /\ rx_freq o = []) /\
      (rx o = [] -> st = Running -> exists f w, t = Tick None f w)
  end.
Proof.
  intros I TO. unfold step.
  destruct (compact_spec s pend pf I) as (ib & CL & [B EB] & I0). rewrite CL. cbn [bind].
  set (s0 := with_inbuf s ib) in *.
  assert (LP8 : len pend < 8) by (destruct I as [_ LP _ _ _ _ _ _ _]; lia).
  assert (LO : leftover pend = pend) by now apply leftover_short.
  assert (LP : len pend = inbytesread s mod SIZEOF_RAWEVENT) by (destruct I; assumption).
  assert (C0 : clk_of s0 = clk_of s) by reflexivity.
  destruct t as [|ir fr wr].
  - cbn. repeat split; try constructor; auto; try discriminate.
    exists []. repeat split; auto; apply prefix_refl.
  - destruct TO as [TI TF]. destruct ir as [[|offered]|].
    + cbn. repeat split; try constructor; auto; try discriminate.
      exists []. repeat split; auto; apply prefix_refl.
    + cbn [delivered]. rewrite <- LP. cbn in TI.
      assert (BD : bytes_ok (take (INBUFSIZE - len pend) offered)) by now apply Forall_take.
      assert (LD : len (take (INBUFSIZE - len pend) offered) <= INBUFSIZE - len pend).
      { rewrite len_take; unfold INBUFSIZE, INBUFENTRIES, SIZEOF_RAWEVENT; lia. }
      destruct (take (INBUFSIZE - len pend) offered) as [|d0 dr] eqn:ED.
      * cbn. rewrite LO || rewrite app_nil_r, LO. repeat split; try constructor; auto; try discriminate.
        exists []. repeat split; auto; apply prefix_refl.
      * set (data := d0 :: dr) in *.
        pose proof (digest_input_spec strict lg s0 pend pf B data I0 EB BD LD) as DI.
        change (fcorr s0) with (fcorr s) in DI. rewrite C0 in DI.
        destruct (input_clock strict lg (fcorr s) (clk_of s) (groups (pend ++ data))) as [[evs' k']|e] eqn:IC.
        -- destruct DI as (s1 & E & K1 & F1 & O1 & N1 & OB & E8 & FI1 & I1). rewrite E. cbn [bind].
           destruct (freq_phase_spec s1 fr wr data evs' _ pf N1 OB E8 I1 FI1 TF)
             as (s' & o & st & W & R1 & R2 & R3 & R4 & R5 & R6 & R7).
           rewrite W, R1. split; [assumption|]. split; [assumption|]. split; [reflexivity|].
           rewrite F1 in *. rewrite O1 in R7.
           split; [exists evs'; rewrite R5, K1; unfold data at 1; cbn iota; repeat split; auto; apply R4|].
           split; [assumption|]. split; [apply R4|]. split; [assumption|].
           unfold data; discriminate.
        -- rewrite DI. cbn [bind]. exists data. auto.
    + destruct (freq_phase_spec s0 fr wr [] [] pend pf) as (s' & o & st & W & R1 & R2 & R3 & R4 & R5 & R6 & R7); auto.
      * destruct I; assumption.
      * now exists (outbuf s0).
      * destruct I0 as [? ? ? ? ? ? ? ? FI0]. constructor; cbn in *; auto.
        destruct FI0; now constructor.
      * now destruct I0.
      * rewrite W, R1. change (fcorr s0) with (fcorr s) in *. rewrite app_nil_r, LO.
        split; [constructor|]. split; [assumption|]. split; [reflexivity|].
        split; [exists []; cbn iota; rewrite R5, C0; repeat split; auto; apply R4|].
        split; [assumption|]. split; [apply R4|]. split; [assumption|].
        intros _ _. now exists fr, wr.
Qed.

(** ** Runs *)
Fixpoint corrections (p : list Z * Z) (os : list obs) : list Z :=
  match os with
  | [] => []
  | o :: r => let rest := corrections (feed p (rx_freq o)) r in
              match rx o with [] => rest | _ => snd p :: rest end
  end.
Fixpoint clock_run (strict lg : bool) (fs : list Z) (k : clk) (bs : list (list (list Z)))
  : cres (list (list (list Z)) * clk) :=
  match fs, bs with
  | f :: fs', b :: bs' =>
      let* (evs', k') := input_clock strict lg f k b in
      let* (outs, k'') := clock_run strict lg fs' k' bs' in Ok (evs' :: outs, k'')
  | _, _ => Ok ([], k)
  end.
Definition freq_after (p : list Z * Z) (os : list obs) : list Z * Z := fold_left feed (map rx_freq os) p.

Lemma corrections_length : forall os p, length (corrections p os) = length (chunks os).
Proof.
  induction os as [|o r IH]; intros p; [reflexivity|]. cbn. unfold chunks, rxs in *. cbn [map filter].
  destruct (rx o); cbn [nonempty length]; now rewrite IH.
Qed.

Lemma delivered_cons n t r c : delivered n [t] = [c] ->
  delivered n (t :: r) = c :: delivered ((n + len c) mod 8) r.
Proof.
  destruct t as [|[[|off]|] f w]; cbn [delivered]; try discriminate.
  destruct (take (INBUFSIZE - n) off); [discriminate|]. intros H.
  now injection H as <-.
Qed.

Lemma run_spec strict lg : forall ts s pend pf, Inv s pend pf -> Forall tick_ok ts ->
  match run strict lg s ts with
  | Err e => (e = SignedOverflow /\ strict = true) \/ (e = Uninitialised /\ last s = None)
  | Ok (s', os, st) =>
      (exists outs, clock_run strict lg (corrections (pf, fcorr s) os) (clk_of s) (batches pend (chunks os))
                    = Ok (outs, clk_of s')
        /\ prefix (written os) (concat (concat outs))
        /\ (st = Running -> written os = concat (concat outs))) /\
      (fcorr s' = snd (freq_after (pf, fcorr s) os)) /\
      (st = Running -> Inv s' (leftover (pend ++ received os)) (fst (freq_after (pf, fcorr s) os))) /\
      (st = Running -> forall r, delivered (len pend) (ts ++ r)
          = chunks os ++ delivered (len (leftover (pend ++ received os))) r) /\
      prefix (chunks os) (delivered (len pend) ts) /\
      (freqopen s = false -> freqopen s' = false /\ Forall (fun o => rx_freq o = []) os) /\
      Forall (fun o => bytes_ok (rx o) /\ bytes_ok (rx_freq o)) os
  end.
Proof.
  induction ts as [|t r IH]; intros s pend pf I TO; cbn [run].
  - cbn. rewrite app_nil_r. assert (L : leftover pend = pend) by (apply leftover_short; destruct I; lia).
    rewrite L. split; [exists []; repeat split; apply prefix_refl|].
    split; [reflexivity|]. split; [auto|]. split; [reflexivity|]. split; [apply prefix_refl|]. auto.
  - inv TO. pose proof (step_spec strict lg s pend pf t I H1) as S.
    destruct (step strict lg s t) as [[[s1 o] st1]|e]; cbn [bind].
    + destruct S as (B1 & B2 & DL & (evs' & EV & PX & TX) & F1 & I1 & O1 & T1).
      destruct st1.
      * specialize (I1 eq_refl). specialize (TX eq_refl).
        specialize (IH s1 _ _ I1 H2).
        destruct (run strict lg s1 r) as [[[s2 os] st2]|e].
        -- cbn [bind]. destruct IH as ((outs & CR & P & W) & F2 & I2 & D2 & DP & O2 & B3).
           replace (fst (feed (pf, fcorr s) (rx_freq o)), fcorr s1) with (feed (pf, fcorr s) (rx_freq o)) in *
             by (rewrite F1; now destruct (feed (pf, fcorr s) (rx_freq o))).
           assert (RX : received (o :: os) = rx o ++ received os) by reflexivity.
           rewrite RX, app_assoc, leftover_split.
           assert (WX : written (o :: os) = tx o ++ written os) by reflexivity. rewrite WX.
           assert (FA : freq_after (pf, fcorr s) (o :: os) = freq_after (feed (pf, fcorr s) (rx_freq o)) os) by reflexivity.
           rewrite FA.
           assert (CH : chunks (o :: os) = match rx o with [] => chunks os | c => c :: chunks os end)
             by (unfold chunks, rxs; cbn; now destruct (rx o)).
           assert (DC : forall q, delivered (len pend) (t :: q) =
             match rx o with [] => delivered (len (leftover (pend ++ rx o))) q
             | c => c :: delivered (len (leftover (pend ++ rx o))) q end).
           { intros q. destruct (rx o) as [|d0 dr] eqn:RO.
             - destruct (T1 eq_refl eq_refl) as (f & w & ->). cbn. rewrite app_nil_r, leftover_short; [reflexivity|].
               destruct I; lia.
             - rewrite (delivered_cons _ _ _ _ DL). rewrite len_leftover, len_app. reflexivity. }
           split.
           { cbn [corrections]. rewrite CH. destruct (rx o) as [|d0 dr] eqn:RO.
             - destruct EV as [-> CK]. rewrite CK in CR.
               rewrite app_nil_r, leftover_short in CR by (destruct I; lia).
               exists outs. split; [assumption|]. cbn in PX, TX. rewrite TX. cbn [app].
               split; assumption.
             - exists (evs' :: outs). cbn [clock_run batches snd]. rewrite EV. cbn [bind].
               rewrite CR. cbn [bind]. split; [reflexivity|]. cbn [concat]. rewrite TX, concat_app. split.
               + destruct P as [q ->]. exists q. now rewrite app_assoc.
               + intros ->. now rewrite W. }
           split; [assumption|]. split; [assumption|]. split.
           { intros E q. cbn [app]. rewrite DC, CH, (D2 E). now destruct (rx o). }
           split.
           { rewrite DC, CH. destruct DP as [q E]. exists q. rewrite E. now destruct (rx o). }
           split.
           { intros E. destruct (O1 E) as [E1 E2]. destruct (O2 E1) as [E3 E4]. split; [assumption|]. now constructor. }
           now constructor.
        -- cbn [bind]. destruct IH as [IH|[-> IH]]; [now left|]. right. split; [reflexivity|].
           destruct (rx o).
           ++ destruct EV as [_ CK]. unfold clk_of in CK. congruence.
           ++ unfold input_clock, clk_of in EV. destruct (match groups _ with [] => _ | _ => _ end) in EV.
              destruct (correct_all _ _ _ _ _ _ _) as [[? [[? ?]|]]|] in EV; cbn [bind] in EV; try discriminate.
              destruct (signed64 _ _) in EV; [|discriminate]. cbn in EV. injection EV as _ _ _ _ EV. congruence.
      * cbv beta iota. assert (CH : chunks [o] = match rx o with [] => [] | c => [c] end)
          by (unfold chunks, rxs; cbn; now destruct (rx o)).
        split.
        { rewrite CH. destruct (rx o) as [|d0 dr] eqn:RO.
          - destruct EV as [-> CK]. exists []. cbn [corrections batches snd]. rewrite CK, RO. split; [reflexivity|].
            unfold written; cbn. rewrite app_nil_r. split; [assumption|discriminate].
          - exists [evs']. cbn [corrections snd]. rewrite RO. cbn [batches clock_run]. rewrite EV. cbn [bind]. split; [reflexivity|].
            unfold written; cbn. rewrite !app_nil_r. split; [assumption|discriminate]. }
        split; [assumption|]. split; [discriminate|]. split; [discriminate|].
        split.
        { rewrite CH. destruct (rx o) as [|d0 dr] eqn:RO; [apply prefix_nil|].
          rewrite (delivered_cons _ _ _ _ DL). eexists. reflexivity. }
        split; [|auto]. intros E. destruct (O1 E). auto.
    + destruct S as (data & _ & _ & E). apply input_clock_err in E. cbn in E. exact E.
Qed.
