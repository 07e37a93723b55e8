(** The messages of a search: agreement with the search without messages, and the lines. *)
From Coq Require Import QArith Qabs String Lia Lqa.
From Coq Require Import ZifyBool.
From Verif Require Import Float Base TimestampsModel TimestampsSpec TimestampsProofs2 UtilsModel FpfindModel FpfindSpec FpfindProofs FpfindProofs2 FpfindProofs3 ReportModel ReportSpec ReportProofs ReportProofs2 ReportProofs3 ScanLogModel ScanLogSpec.
Local Open Scope Z_scope.

(** ** Forgetting the messages *)
Definition forget {A} (m : logged A) : pyres A := match m with Ok a => Ok a | Err e => Err (erased e) end.
Lemma forget_lift {A} (m : pyres A) : forget (lift m) = m.
Proof. now destruct m. Qed.
Lemma forget_bind {A B} (m : logged A) (k : A -> logged B) : forget (bind m k) = bind (forget m) (fun a => forget (k a)).
Proof. now destruct m. Qed.
Lemma bind_ext {A B} (m : pyres A) (k k' : A -> pyres B) : (forall a, k a = k' a) -> bind m k = bind m k'.
Proof. intros H. destruct m; cbn [bind]; [apply H|reflexivity]. Qed.
Definition first2 (x : Q * Q * Q) : Q * Q := fst x.
Lemma confirm_forget M P : forall fuel ys res dt1 sig,
  bind (forget (confirm_log fuel M P ys res dt1 sig)) (fun x => Ok (first2 x)) = confirm fuel M P ys res dt1 sig.
Proof.
  induction fuel as [|k IH]; intros; [reflexivity|]. cbn [confirm_log confirm].
  destruct (Qeq_bool sig 0); [reflexivity|]. destruct (Qle_bool (threshold P) sig); [reflexivity|].
  destruct (merge M ys) as [zs|e]; cbn [lift bind]; [|reflexivity]. destruct (Qltb 10000 _); [reflexivity|].
  destruct (delay_of M (len zs) zs _) as [d|e]; cbn [lift bind]; [|reflexivity].
  destruct (sig_of M zs _) as [s|e]; cbn [lift bind]; [apply IH|reflexivity].
Qed.
Lemma iteration_forget M P ats e d s : forget (iteration_log M P ats e d s) = iteration M P ats e d s.
Proof.
  unfold iteration_log, iteration. cbv zeta.
  destruct (correlate M P ats (bts s) 0 _ _) as [ys|x]; cbn [lift bind]; [|reflexivity].
  destruct (delay_of M _ ys _) as [d1|x]; cbn [lift bind]; [|reflexivity].
  destruct (sig_of M ys _) as [sg|x]; cbn [lift bind]; [|reflexivity].
  rewrite forget_bind.
  replace (if is_first s then confirm (Datatypes.S (length ys)) M P ys (resolution s) d1 sg else Ok (resolution s, d1))
    with (bind (forget (if is_first s then confirm_log (Datatypes.S (length ys)) M P ys (resolution s) d1 sg else Ok (resolution s, d1, sg))) (fun x => Ok (first2 x)))
    by (destruct (is_first s); [apply confirm_forget|reflexivity]).
  destruct (if is_first s then _ else _) as [((r, d1'), sg')|x]; cbn [forget bind first2 fst]; [|reflexivity].
  destruct (Qltb NTP_MAXDELAY_NS _); [reflexivity|].
  destruct (correlate M P ats (bts s) _ _ r) as [ys2|x]; cbn [lift bind]; [|reflexivity].
  destruct (delay_of M _ ys2 r) as [d2|x]; cbn [lift bind]; [|reflexivity].
  destruct (_ && _)%bool; [reflexivity|]. destruct (Qle_bool MAX_FCORR _); [reflexivity|]. now destruct (Qeq_bool r _).
Qed.
Lemma iterate_forget M P ats e d : forall fuel s, forget (iterate_log fuel M P ats e d s) = iterate fuel M P ats e d s.
Proof.
  induction fuel as [|k IH]; intros s; [reflexivity|]. cbn [iterate_log iterate]. rewrite forget_bind, iteration_forget.
  apply bind_ext. intros [x y|s']; [reflexivity|apply IH].
Qed.
Lemma time_freq_forget fuel M P ats bts res : forget (time_freq_log fuel M P ats bts res) = time_freq fuel M P ats bts res.
Proof.
  unfold time_freq_log, time_freq. rewrite forget_bind, forget_lift. apply bind_ext. intros a.
  rewrite forget_bind, forget_lift. apply bind_ext. intros b. apply iterate_forget.
Qed.
Lemma scan_forget rt rs target other search bob full : forall df0s,
  snd (scan_log rt rs target other search bob df0s full) = scan rt rs (fun b => forget (search b)) bob df0s full.
Proof.
  induction df0s as [|x l IH]; [reflexivity|]. cbn [scan_log scan]. cbv zeta.
  destruct (scan_log rt rs target other search bob l full) as (ls, r) eqn:E. cbn [snd] in IH.
  destruct (search _) as [(d1, f1)|[p|e]]; cbn [forget erased].
  - destruct full; [exact IH|reflexivity].
  - exact IH.
  - destruct e; try reflexivity. exact IH.
Qed.
Lemma scan_ext rt rs f g bob full : (forall b, f b = g b) -> forall df0s, scan rt rs f bob df0s full = scan rt rs g bob df0s full.
Proof.
  intros H. induction df0s as [|x l IH]; [reflexivity|]. cbn [scan]. rewrite H, IH. reflexivity.
Qed.
Lemma fpfind_forget fuel M P other alice bob res df0s full :
  snd (fpfind_log fuel M P other alice bob res df0s full) = fpfind fuel M P alice bob res df0s full.
Proof. unfold fpfind_log, fpfind. rewrite scan_forget. apply scan_ext. intros b. apply time_freq_forget. Qed.

(** ** Numbers *)
Lemma fixed0_shows v : shows0 (units 0 v) (fixed0 v).
Proof.
  unfold fixed0, units. change (10 ^ Z.of_nat 0) with 1.
  assert (E : rneQ (Qabs v * inject_Z 1) = rneQ (Qabs v)) by (apply rneQ_comp; ring). rewrite E.
  pose proof (rneQ_nonneg (Qabs v) (Qabs_nonneg v)) as N. destruct (dec_spec (rneQ (Qabs v))) as (ds & D & NE & F & V & _).
  replace (rneQ (Qabs v) <? 0) with false in D by lia. cbn [app] in D. exists (if Qltb v 0 then [45] else []), ds. rewrite D.
  split; [reflexivity|]. split; [destruct (Qltb v 0); [right|left]; split; (reflexivity || lia)|]. split; [exact NE|]. split; [exact F|].
  rewrite V. destruct (Qltb v 0); lia.
Qed.
Lemma rounded_near v w k n : nearest (w * inject_Z k) n -> 0 < k -> (Qabs (w - v) <= (1 # 9007199254740992) * Qabs v)%Q ->
  (Qabs (inject_Z n - v * inject_Z k) <= (1 # 2) + (1 # 9007199254740992) * Qabs (v * inject_Z k))%Q.
Proof.
  intros N K H. unfold nearest in N.
  assert (KQ : (0 < inject_Z k)%Q) by (change 0%Q with (inject_Z 0); rewrite <- Zlt_Qlt; exact K).
  assert (A : (Qabs ((w - v) * inject_Z k) <= (1 # 9007199254740992) * Qabs (v * inject_Z k))%Q).
  { rewrite !Qabs_Qmult, (Qabs_pos (inject_Z k)) by lra.
    setoid_replace ((1 # 9007199254740992) * (Qabs v * inject_Z k))%Q with (((1 # 9007199254740992) * Qabs v) * inject_Z k)%Q by ring. apply Qmult_le_compat_r; [exact H|lra]. }
  setoid_replace (inject_Z n - v * inject_Z k)%Q with ((inject_Z n - w * inject_Z k) + (w - v) * inject_Z k)%Q by ring.
  eapply Qle_trans; [apply Qabs_triangle|]. lra.
Qed.
Definition near (v w : Q) : Prop := (Qabs (w - v) <= (1 # 9007199254740992) * Qabs v)%Q.
Lemma near_refl v w : (w == v)%Q -> near v w.
Proof.
  intros E. unfold near. setoid_replace (w - v)%Q with 0%Q by lra. pose proof (Qabs_nonneg v). change (Qabs 0) with 0%Q. lra.
Qed.
Lemma near_fl v : near v (fl 53 v).
Proof. unfold near. exact (fl_err 53 v). Qed.
Lemma written_fixed d v w m : near v w -> (d <> 0)%nat -> written d v (pad m (fixed d w)).
Proof.
  intros N D. unfold pad. eexists _, (units d w), _. split; [reflexivity|]. destruct (Nat.eqb_spec d 0) as [E|_]; [congruence|].
  split; [apply fixed_shows|]. cbv zeta. apply (rounded_near v w); [apply units_nearest|apply Z.pow_pos_nonneg; lia|exact N].
Qed.
Lemma written_unpadded d v w : near v w -> (d <> 0)%nat -> written d v (fixed d w).
Proof. intros N D. pose proof (written_fixed d v w 0 N D) as H. unfold pad in H. pose proof (len_nonneg (fixed d w)). now replace (Z.to_nat (0 - len (fixed d w))) with 0%nat in H by lia. Qed.
Lemma written_fixed0 v w m : near v w -> written 0 v (pad m (fixed0 w)).
Proof.
  intros N. unfold pad. eexists _, (units 0 w), _. split; [reflexivity|]. cbn [Nat.eqb]. split; [apply fixed0_shows|]. cbv zeta.
  apply (rounded_near v w); [apply units_nearest|reflexivity|exact N].
Qed.
Lemma near_one v : near (v * 1) v.
Proof. apply near_refl. ring. Qed.

(** ** Texts *)
Lemma quantity_of name d unit v s t : written d v s -> t = text name ++ s ++ text unit -> quantity name d unit v t.
Proof. intros W ->. now constructor. Qed.
Lemma quantities_app o name d unit k show l ss :
  (forall v, quantity name d unit (v * k)%Q (show v)) -> quantities l ss -> quantities ((o, name, d, unit, k) :: l) (given o show ++ ss).
Proof. intros H L. destruct o as [v|]; cbn [given app]; constructor; [apply H|exact L|exact L]. Qed.
Lemma supplement_known e : quantities (known e) (supplement (fl 53) e).
Proof.
  unfold known, supplement.
  repeat (apply quantities_app; [intros v|]); [| | | | |rewrite <- (app_nil_r (given (f_df e) _)); apply quantities_app; [intros v|constructor]].
  - eapply quantity_of; [apply (written_fixed 3 (v * 1) v 8); [apply near_one|discriminate]|cbn [text]; now rewrite app_nil_r].
  - eapply quantity_of; [apply (written_fixed0 (v * 1) v 5), near_one|cbn [text]; now rewrite app_nil_r].
  - eapply quantity_of; [apply (written_fixed0 (v * 1) v 11), near_one|cbn [text]; now rewrite app_nil_r].
  - eapply quantity_of; [apply (written_fixed0 (v * 1) v 11), near_one|cbn [text]; now rewrite app_nil_r].
  - eapply quantity_of; [apply (written_fixed0 (v * 1) v 11), near_one|cbn [text]; now rewrite app_nil_r].
  - eapply quantity_of; [apply (written_unpadded 4); [apply near_fl|discriminate]|reflexivity].
Qed.
Lemma describes_str e : describes e (pff_str (fl 53) e).
Proof.
  exists (supplement (fl 53) e). split; [apply supplement_known|]. unfold pff_str. destruct (supplement (fl 53) e) as [|x l]; [now left|right].
  split; [discriminate|reflexivity].
Qed.
Lemma failed_text_line df0 why : failed_line df0 why (failed_text (fl 53) df0 why).
Proof. exists (ppm_text (fl 53) df0). split; [apply written_fixed; [apply near_fl|discriminate]|reflexivity]. Qed.
Lemma found_text_line df0 target dt df : found_line df0 target dt df (found_text (fl 53) df0 target dt df).
Proof.
  exists (ppm_text (fl 53) df0), (pad 5 (fixed0 target)), (pad 11 (fixed0 dt)), (fixed 4 (fl 53 (df * 1000000))).
  split; [apply written_fixed; [apply near_fl|discriminate]|]. split; [apply written_fixed0, near_refl; reflexivity|].
  split; [apply written_fixed0, near_refl; reflexivity|]. split; [apply written_unpadded; [apply near_fl|discriminate]|].
  unfold found_text, pff_str, supplement. cbn [f_s f_r f_dt1 f_dt2 f_dt f_df message given app joined_by text].
  repeat rewrite <- ?app_assoc, <- ?app_comm_cons. cbn [app]. reflexivity.
Qed.

(** ** A scan *)
Lemma c153 rt target other search bob full : forall df0s lines r,
  scan_log rt (fl 53) target other search bob df0s full = (lines, r) ->
  let outcome df0 := search (attempt rt (fl 53) df0 bob) in
  Forall2 (fun df0 line => line_for (fl 53) target other df0 (outcome df0) line) (firstn (length lines) df0s) lines /\ ends outcome (fl 53) df0s full (length lines) r.
Proof.
  intros df0s. cbv zeta. induction df0s as [|x l IH]; intros lines r H.
  - cbn [scan_log] in H. injection H as <- <-. split; [constructor|]. split; [reflexivity|]. intros _. constructor.
  - cbn [scan_log] in H. cbv zeta in H. fold (attempt rt (fl 53) x bob) in H.
    destruct (scan_log rt (fl 53) target other search bob l full) as (ls, r0) eqn:E. specialize (IH ls r0 eq_refl). destruct IH as [F2 N].
    assert (G : forall line, line_for (fl 53) target other x (search (attempt rt (fl 53) x bob)) line -> (full = false -> fails (search (attempt rt (fl 53) x bob))) ->
      lines = line :: ls -> r = r0 ->
      Forall2 (fun df0 line => line_for (fl 53) target other df0 (search (attempt rt (fl 53) df0 bob)) line) (firstn (length lines) (x :: l)) lines /\
      ends (fun df0 => search (attempt rt (fl 53) df0 bob)) (fl 53) (x :: l) full (length lines) r).
    { intros line L1 FX -> ->. cbn [length firstn]. split; [now constructor|]. unfold ends in N |- *. destruct r0 as [p|e].
      - destruct N as (FF & k & y & dt1 & df1 & NK & NE & O & EP & AF). split; [exact FF|]. exists (S k), y, dt1, df1.
        split; [now rewrite NK|]. split; [exact NE|]. split; [exact O|]. split; [exact EP|]. cbn [firstn]. constructor; [now apply FX|exact AF].
      - destruct e; try (destruct N as (y & NE & O); exists y; now split). destruct N as [NL AF]. split; [now rewrite NL|]. intros FF. constructor; [now apply FX|now apply AF]. }
    destruct (search (attempt rt (fl 53) x bob)) as [(d1, f1)|[p|e]] eqn:S1.
    + destruct full.
      * injection H as <- <-. eapply G; [|discriminate|reflexivity|reflexivity]. cbn [line_for]. apply found_text_line.
      * injection H as <- <-. split; [constructor; [|constructor]|].
        -- rewrite S1. cbn [line_for]. apply found_text_line.
        -- split; [reflexivity|]. exists 0%nat, x, d1, f1. split; [reflexivity|]. split; [reflexivity|]. split; [exact S1|]. split; [reflexivity|constructor].
    + injection H as <- <-. eapply G; [|intros; reflexivity|reflexivity|reflexivity]. cbn [line_for]. eexists. split; [apply describes_str|apply failed_text_line].
    + assert (D : e = ValueError \/ e <> ValueError) by (destruct e; (now left) || (right; discriminate)). destruct D as [->|NV].
      * injection H as <- <-. eapply G; [|intros; reflexivity|reflexivity|reflexivity]. cbn [line_for]. apply failed_text_line.
      * assert (lines = [] /\ r = Err e) as [-> ->] by (destruct e; try congruence; injection H as <- <-; now split).
        split; [constructor|]. unfold ends. destruct e; try congruence; exists x; (split; [reflexivity|exact S1]).
Qed.
