(** The messages of a search: the reasons, and where the numbers come from. *)
From Coq Require Import QArith Qabs String Lia Lqa.
From Coq Require Import ZifyBool.
From Verif Require Import Float Base TimestampsModel TimestampsSpec UtilsModel FpfindModel FpfindSpec FpfindProofs FpfindProofs2 ReportModel ReportProofs3 ScanLogModel ScanLogSpec ScanLogProofs.
Local Open Scope Z_scope.

Definition at_width (M : fpu) (ys : list Q) (r0 sig r d1 : Q) : Prop :=
  exists zs, widened (rs M) ys r0 zs r /\ sig_of M zs r = Ok sig /\ delay_of M (len zs) zs r = Ok d1.
Lemma merge_paired M : forall n ys zs, (length ys <= n)%nat -> merge M ys = Ok zs -> paired (rs M) ys zs.
Proof.
  induction n as [|n IH]; intros [|a [|b ys]] zs L H; cbn [length] in L; try lia; cbn [merge] in H; try discriminate.
  - injection H as <-. constructor.
  - injection H as <-. constructor.
  - destruct (merge M ys) as [m|] eqn:E; cbn [bind] in H; [|discriminate]. injection H as <-. constructor. apply IH; [lia|exact E].
Qed.
Lemma Qlt_of x y : Qle_bool x y = false -> (y < x)%Q.
Proof. intros H. destruct (Qlt_le_dec y x) as [L|L]; [exact L|]. apply Qle_bool_iff in L. congruence. Qed.
(** what the confirmation of the resolution may give *)
Definition rejected (M : fpu) (P : params) (ys : list Q) (r0 : Q) (e : pff) : Prop :=
  exists s r d1, only3 e /\
    (says e "Bin saturation  " s r d1 /\ (s == 0)%Q /\ at_width M ys r0 s r d1 \/
     says e "Resolution OOB  " s r d1 /\ (s < threshold P)%Q /\ (10000 < r)%Q /\ exists w, r = rs M (w * 2)%Q /\ at_width M ys r0 s w d1).
Lemma confirm_gives M P ys0 r0 : forall fuel ys res dt1 sig, widened (rs M) ys0 r0 ys res -> sig_of M ys res = Ok sig -> delay_of M (len ys) ys res = Ok dt1 ->
  match confirm_log fuel M P ys res dt1 sig with
  | Ok (r, d1, s) => at_width M ys0 r0 s r d1
  | Err (Failed e) => rejected M P ys0 r0 e
  | Err (Raised _) => True
  end.
Proof.
  induction fuel as [|k IH]; intros ys res dt1 sig W S1 D1; cbn [confirm_log]; [exact I|].
  assert (A : at_width M ys0 r0 sig res dt1) by (exists ys; split; [exact W|split; assumption]).
  destruct (Qeq_bool sig 0) eqn:Z0.
  { cbn [failed]. exists sig, res, dt1. split; [repeat split|]. left. split; [repeat split|]. split; [now apply Qeq_bool_iff|exact A]. }
  destruct (Qle_bool (threshold P) sig) eqn:T; [exact A|].
  destruct (merge M ys) as [zs|] eqn:EM; cbn [lift bind]; [|exact I].
  destruct (Qltb 10000 (rs M (res * 2))) eqn:OO.
  { cbn [failed]. exists sig, (rs M (res * 2)%Q), dt1. split; [repeat split|]. right. split; [repeat split|]. split; [now apply Qlt_of|].
    split; [now apply Qltb_spec|]. exists res. now split. }
  destruct (delay_of M (len zs) zs _) as [d|] eqn:D; cbn [lift bind]; [|exact I].
  destruct (sig_of M zs _) as [s|] eqn:S2; cbn [lift bind]; [|exact I].
  apply IH; [|exact S2|exact D]. apply (widened_more _ _ _ ys); [exact W|]. apply (merge_paired M (length ys)); [lia|exact EM].
Qed.
(** [r] is the width shown, [w] the width of what is shown *)
Definition shown (M : fpu) (P : params) (ats : list Q) (e d : Q) (st : fstate) (p : pff) : Prop :=
  exists s r d1 w, f_s p = Some s /\ f_r p = Some r /\ f_dt1 p = Some d1 /\ measured M P ats e d st s w d1 /\
    (message p <> text "Resolution OOB  " /\ w = r \/ message p = text "Resolution OOB  " /\ r = rs M (w * 2)%Q).
Lemma iteration_gives M P ats e d s p : good_xc M -> iteration_log M P ats e d s = Err (Failed p) -> truthful P p /\ shown M P ats e d s p.
Proof.
  intros GX. unfold iteration_log. cbv zeta.
  destruct (correlate M P ats (bts s) 0 _ _) as [ys|x] eqn:C; cbn [lift bind]; [|discriminate].
  destruct (correlate_len _ _ _ _ _ _ _ _ GX C) as [LY _].
  destruct (delay_of M _ ys _) as [d1|x] eqn:D; cbn [lift bind]; [|discriminate]. rewrite <- LY in D.
  destruct (sig_of M ys _) as [sg|x] eqn:S1; cbn [lift bind]; [|discriminate].
  set (c := if is_first s then _ else _).
  assert (G : match c with Ok (r, d1, s1) => at_width M ys (resolution s) s1 r d1 | Err (Failed p) => rejected M P ys (resolution s) p | Err (Raised _) => True end).
  { subst c. destruct (is_first s).
    - pose proof (confirm_gives M P ys (resolution s) (S (length ys)) ys (resolution s) d1 sg (widened_same _ _ _) S1 D) as H.
      destruct (confirm_log _ _ _ _ _ _ _) as [((r & d2) & s1)|[q|y]]; exact H.
    - exists ys. split; [constructor|]. split; assumption. }
  clearbody c. destruct c as [((r, d1'), sg')|[q|y]]; cbn [bind]; [| |discriminate].
  - assert (MS : measured M P ats e d s sg' r d1') by (destruct G as (zs & W & S2 & D2); exists ys, zs; split; [exact C|split; [exact W|split; assumption]]).
    destruct (Qltb NTP_MAXDELAY_NS (Qabs d1')) eqn:T.
    { cbn [failed]. intros H. injection H as <-. apply Qltb_spec in T. split.
      - exists sg', r, d1'. right. right. left. split; [repeat split|]. split; [repeat split|exact T].
      - exists sg', r, d1', r. split; [reflexivity|]. split; [reflexivity|]. split; [reflexivity|]. split; [exact MS|]. left. split; [discriminate|reflexivity]. }
    destruct (correlate M P ats (bts s) _ _ r) as [ys2|x]; cbn [lift bind]; [|discriminate].
    destruct (delay_of M _ ys2 r) as [d2|x]; cbn [lift bind]; [|discriminate].
    destruct (_ && _)%bool; [discriminate|]. destruct (Qle_bool MAX_FCORR _) eqn:O; [|destruct (Qeq_bool r _); discriminate].
    intros H. injection H as <-. apply Qle_bool_iff in O. split.
    + exists sg', r, d1'. right. right. right. split; [repeat split|]. split.
      * destruct (Qlt_le_dec 100000000 (Qabs d1')) as [L|L]; [|exact L]. apply Qltb_spec in L. change 100000000%Q with NTP_MAXDELAY_NS in L. congruence.
      * eexists _, _, _. split; [reflexivity|]. split; [reflexivity|]. split; [reflexivity|exact O].
    + exists sg', r, d1', r. split; [reflexivity|]. split; [reflexivity|]. split; [reflexivity|]. split; [exact MS|]. left. split; [discriminate|reflexivity].
  - intros H. injection H as <-. destruct G as (s1 & r & d2 & O3 & [(SA & Z0 & zs & W & A)|(SA & T & R & w & E & zs & W & A)]).
    + split; [exists s1, r, d2; left; split; [exact SA|split; [exact O3|exact Z0]]|]. destruct SA as (M1 & M2 & M3 & M4).
      exists s1, r, d2, r. split; [exact M2|]. split; [exact M3|]. split; [exact M4|]. split; [exists ys, zs; split; [exact C|split; [exact W|exact A]]|].
      left. split; [rewrite M1; discriminate|reflexivity].
    + split; [exists s1, r, d2; right; left; split; [exact SA|split; [exact O3|split; assumption]]|]. destruct SA as (M1 & M2 & M3 & M4).
      exists s1, r, d2, w. split; [exact M2|]. split; [exact M3|]. split; [exact M4|]. split; [exists ys, zs; split; [exact C|split; [exact W|exact A]]|].
      right. now split.
Qed.
Lemma iterate_gives M P ats e d p s0 : good_xc M -> forall fuel s, later M P ats e d s0 s -> iterate_log fuel M P ats e d s = Err (Failed p) ->
  truthful P p /\ exists s', later M P ats e d s0 s' /\ shown M P ats e d s' p.
Proof.
  intros GX. induction fuel as [|k IH]; intros s L H; [discriminate|]. cbn [iterate_log] in H.
  destruct (iteration_log M P ats e d s) as [n|y] eqn:E; cbn [bind] in H.
  - destruct n as [x y|s']; [discriminate|]. apply (IH s'); [|exact H]. apply (later_more _ _ _ _ _ _ s); [exact L|]. rewrite <- iteration_forget, E. reflexivity.
  - injection H as ->. destruct (iteration_gives M P ats e d s p GX E) as [T W]. split; [exact T|]. now exists s.
Qed.
Lemma time_freq_gives n M P ats bts res p : good_xc M -> time_freq_log n M P ats bts res = Err (Failed p) ->
  truthful P p /\ exists s r d1 w, f_s p = Some s /\ f_r p = Some r /\ f_dt1 p = Some d1 /\ measured_in M P ats bts res s w d1 /\
    (message p <> text "Resolution OOB  " /\ w = r \/ message p = text "Resolution OOB  " /\ r = rs M (w * 2)%Q).
Proof.
  intros GX. unfold time_freq_log. destruct (getitem ats (-1)) as [a|] eqn:GA; cbn [lift bind]; [|discriminate].
  destruct (getitem bts (-1)) as [b|] eqn:GB; cbn [lift bind]; [|discriminate]. cbv zeta. intros H.
  destruct (iterate_gives M P ats _ _ p _ GX n _ (later_same _ _ _ _ _ _) H) as (T & st & L & s & r & d1 & w & F1 & F2 & F3 & ME & C).
  split; [exact T|]. exists s, r, d1, w. split; [exact F1|]. split; [exact F2|]. split; [exact F3|]. split; [|exact C].
  exists a, b, st. split; [exact GA|]. split; [exact GB|]. cbv zeta. now split.
Qed.
Lemma c154 n M P ats bts res p : good_xc M -> time_freq_log n M P ats bts res = Err (Failed p) -> truthful P p.
Proof. intros GX H. now destruct (time_freq_gives _ _ _ _ _ _ _ GX H). Qed.
Lemma c155_partial n M P ats bts res p : good_xc M -> time_freq_log n M P ats bts res = Err (Failed p) -> message p <> text "Resolution OOB  " ->
  exists s r d1, f_s p = Some s /\ f_r p = Some r /\ f_dt1 p = Some d1 /\ measured_in M P ats bts res s r d1.
Proof.
  intros GX H NM. destruct (time_freq_gives _ _ _ _ _ _ _ GX H) as (_ & s & r & d1 & w & F1 & F2 & F3 & ME & [(_ & ->)|(E & _)]); [|contradiction].
  exists s, r, d1. repeat (split; [assumption|]). exact ME.
Qed.
Lemma c155_actual n M P ats bts res p : good_xc M -> time_freq_log n M P ats bts res = Err (Failed p) -> message p = text "Resolution OOB  " ->
  exists s d1 w, f_s p = Some s /\ f_r p = Some (rs M (w * 2)%Q) /\ f_dt1 p = Some d1 /\ measured_in M P ats bts res s w d1.
Proof.
  intros GX H NM. destruct (time_freq_gives _ _ _ _ _ _ _ GX H) as (_ & s & r & d1 & w & F1 & F2 & F3 & ME & [(N & _)|(_ & ->)]); [contradiction|].
  exists s, d1, w. split; [exact F1|]. split; [exact F2|]. split; [exact F3|exact ME].
Qed.
Lemma c153_run fuel M P other alice bob res df0s full lines r : rs M = fl 53 -> fpfind_log fuel M P other alice bob res df0s full = (lines, r) ->
  let outcome df0 := time_freq_log fuel M P alice (attempt (rt M) (rs M) df0 bob) res in
  r = fpfind fuel M P alice bob res df0s full /\
  Forall2 (fun df0 line => line_for (rs M) (target_resolution P) other df0 (outcome df0) line) (firstn (length lines) df0s) lines /\
  ends outcome (rs M) df0s full (length lines) r.
Proof.
  intros R H. cbv zeta. split; [now rewrite <- (fpfind_forget fuel M P other alice bob res df0s full), H|].
  unfold fpfind_log in H. rewrite R in H |- *. exact (c153 _ _ _ _ _ _ _ _ _ H).
Qed.
Lemma outcome_of fuel M P ats bts res : time_freq fuel M P ats bts res =
  match time_freq_log fuel M P ats bts res with Ok p => Ok p | Err (Failed _) => Err ValueError | Err (Raised e) => Err e end.
Proof. rewrite <- time_freq_forget. now destruct (time_freq_log fuel M P ats bts res) as [p|[e|e]]. Qed.
