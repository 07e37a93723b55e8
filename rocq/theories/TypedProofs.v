(** Proof of C200. *)
From Coq Require Import QArith String List.
From Verif Require Import Float Base TimestampsModel TimestampsSpec FpfindModel FpfindSpec MiscModel MiscSpec MiscProofs CdRunModel ArgModel FpCliSpec CliSpec TsCliModel TsCliSpec GenCliModel GenCliSpec GenCliProofs GenCliProofs2 GenCliProofs3 GenRefuseSpec GenRefuseProofs TypedSpec.
From Coq Require Import ZifyBool.
Import ListNotations. Local Open Scope list_scope. Local Open Scope Z_scope.

Lemma text_lines_line l : Forall (fun c => c <> 10) l -> forall acc s, text_lines acc (l ++ 10 :: s) = (rev acc ++ l) :: text_lines [] s.
Proof.
  induction 1 as [|c l N _ IH]; intros acc s; cbn [app text_lines].
  - now rewrite app_nil_r.
  - replace (c =? 10) with false by lia. rewrite IH. cbn [rev]. now rewrite <- app_assoc.
Qed.
Lemma text_lines_open l : Forall (fun c => c <> 10) l -> forall acc, rev acc ++ l <> [] -> text_lines acc l = [rev acc ++ l].
Proof.
  induction 1 as [|c l N _ IH]; intros acc NE; cbn [text_lines].
  - rewrite app_nil_r in *. destruct acc; [contradiction|reflexivity].
  - replace (c =? 10) with false by lia. rewrite IH; cbn [rev]; rewrite <- app_assoc; [reflexivity|exact NE].
Qed.
Lemma has_lines_text s ls : has_lines s ls -> text_lines [] s = ls.
Proof.
  induction 1 as [|l NE F|l s ls F H IH]; [reflexivity|exact (text_lines_open l F [] NE)|]. rewrite (text_lines_line l F [] s), IH. reflexivity.
Qed.
Lemma entered_answers ls zs : entered ls zs -> answered ls = events_at false zs.
Proof.
  induction 1 as [|l z ls zs W N H IH|l z ls W N|l ls zs W H IH]; [reflexivity| | |]; cbn [answered].
  - rewrite (word_int_of l z W), get_event_word, IH by lia. reflexivity.
  - rewrite (word_int_of l z W). unfold get_event. replace (z <? 0) with true by lia. reflexivity.
  - rewrite (no_number_int l W). exact IH.
Qed.
Lemma c200 p tmp args ss fs s ls zs : gcommand args ss -> args <> [] -> Forall ggood ss -> ~ In GHelp ss -> last_given gtimes_of ss = None ->
  plain_text s -> has_lines s ls -> entered ls zs -> delivers (grun p tmp args fs s) 1 fs (last_given gout_of ss) greeting (events_at false zs).
Proof.
  intros C NE G NH LT PT HL EN. destruct (run_means p tmp args ss None fs s C G NE) as [_ R]. destruct (R NH) as (n & M & ->). pose proof (means_out ss None n G M) as MO.
  destruct M as (_ & MT & _ & MI). rewrite LT in MT. unfold gproceed. rewrite MO, MT, MI.
  assert (PL : forallb plain s = true).
  { apply forallb_forall. intros c I. unfold plain_text in PT. rewrite Forall_forall in PT. specialize (PT c I). cbn beta in PT. unfold plain. lia. }
  rewrite PL. cbn [negb]. rewrite (has_lines_text s ls HL), (entered_answers ls zs EN).
  pose proof (written_delivers 1 fs (last_given gout_of ss) greeting (events_at false zs)) as D. destruct (last_given gout_of ss); [|exact D].
  change prompt with greeting. rewrite app_nil_r. exact D.
Qed.
Lemma entered_all ls : exists zs, entered ls zs.
Proof.
  induction ls as [|l ls [zs IH]]; [exists []; constructor|]. destruct (int_of l) as [z|] eqn:E.
  - apply int_of_word in E. destruct (Z_lt_le_dec z 0); [exists []; eapply E_negative; eassumption|exists (z :: zs); now apply E_number].
  - exists zs. apply E_other; [|exact IH]. intros z W. apply word_int_of in W. congruence.
Qed.
Lemma has_lines_all : forall s, exists ls, has_lines s ls.
Proof.
  assert (G : forall s, Forall (fun c => c <> 10) s \/ exists l r, s = l ++ 10 :: r /\ Forall (fun c => c <> 10) l).
  { induction s as [|c s [F|(l & r & -> & F)]]; [left; constructor| |]; (destruct (Z.eq_dec c 10) as [->|N]; [right|]).
    - exists [], s. split; [reflexivity|constructor].
    - left. now constructor.
    - exists [], (l ++ 10 :: r). split; [reflexivity|constructor].
    - right. exists (c :: l), r. split; [reflexivity|now constructor]. }
  intros s. remember (length s) as n eqn:E. assert (L : (length s <= n)%nat) by lia. clear E. revert s L.
  induction n as [|n IH]; intros s L; [destruct s; [exists []; constructor|cbn in L; lia]|].
  destruct (G s) as [F|(l & r & -> & F)].
  - destruct s as [|c s]; [exists []; constructor|]. exists [c :: s]. constructor; [discriminate|exact F].
  - rewrite app_length in L. cbn [length] in L. destruct (IH r ltac:(lia)) as [ls H]. exists (l :: ls). now constructor.
Qed.
Lemma c200_all s : exists ls zs, has_lines s ls /\ entered ls zs.
Proof. destruct (has_lines_all s) as [ls H]. destruct (entered_all ls) as [zs E]. now exists ls, zs. Qed.
