(** Proofs about whole runs of parse_timestamps. *)
From Coq Require Import QArith String Lia.
From Coq Require Import ZifyBool.
From Verif Require Import Float Base TimestampsModel ReportModel CdRunModel ArgModel FpCliSpec CliSpec FpCliProofs CliProofs TsCliModel TsCliSpec TsCliProofs.
Import ListNotations. Local Open Scope string_scope. Local Open Scope list_scope. Local Open Scope Z_scope.

Notation updates := (fold_left (fun n a => upd a n)).
Definition files_in (i : list Z) (o : option (list Z)) (n : named) : named :=
  mkN (n_from n) (n_legacy_in n) (n_to n) (n_legacy_out n) (n_print n) (n_inmemory n) (n_pattern n) (n_mask n) (n_invert n) (n_start n) (n_end n) (Some i) o.
Lemma upd_files a i o n : upd a (files_in i o n) = files_in i o (upd a n). Proof. destruct a; reflexivity. Qed.
Lemma updates_files ss i o n : updates ss (files_in i o n) = files_in i o (updates ss n).
Proof. revert n. induction ss as [|a ss IH]; intros n; [reflexivity|]. cbn [fold_left]. rewrite upd_files. apply IH. Qed.
Lemma act_placed i o r n : act (placed i o ++ r) n = act r (files_in i o n).
Proof. destruct o; reflexivity. Qed.
Lemma act_command s1 s2 i o : Forall accepted (s1 ++ s2) -> ~ In WHelp (s1 ++ s2) -> act (map tgiven s1 ++ placed i o ++ map tgiven s2) nothing = Parsed (files_in i o (updates (s1 ++ s2) nothing)).
Proof.
  intros A H. apply Forall_app in A as [A1 A2]. rewrite act_all; [|exact A1|intros I; apply H, in_or_app; now left]. rewrite act_placed, <- (app_nil_r (map tgiven s2)), act_all; [|exact A2|intros I; apply H, in_or_app; now right].
  cbn [act]. rewrite updates_files, <- fold_left_app. reflexivity.
Qed.
Lemma want_dec (a b : want) : {a = b} + {a <> b}.
Proof. decide equality; apply list_eq_dec, Z.eq_dec. Defined.
Section Whole.
Variables (lg : Z -> Z) (p : Z) (path : list Z -> list Z) (args : list (list Z)) (ss : list want) (i : list Z) (o : option (list Z)) (fs : filesys).
Hypothesis C : command args ss i o.
Let N := updates ss nothing.
Lemma not_empty : args <> [].
Proof. destruct C as (a1 & s1 & a2 & s2 & _ & _ & _ & _ & _ & ->). destruct a1; discriminate. Qed.
Lemma trun_acts : exists s1 s2, ss = s1 ++ s2 /\ trun lg p path args fs =
  match act (map tgiven s1 ++ placed i o ++ map tgiven s2) nothing with
  | Helped => Shows_help | Refused => Ends (mkEnd 2 fs [])
  | Parsed n => match n_from n with None => Ends (mkEnd 2 fs []) | Some _ => tproceed lg p path n fs end
  end.
Proof.
  destruct (tparse args ss i o C) as (O & s1 & s2 & E & P). exists s1, s2. split; [exact E|]. unfold trun. pose proof not_empty. destruct args as [|w r]; [congruence|]. rewrite O, P.
  destruct (act _ nothing) as [| |n]; try reflexivity. cbn [orb]. destruct (n_from n); reflexivity.
Qed.
Lemma trun_parsed : Forall accepted ss -> ~ In WHelp ss -> trun lg p path args fs = match n_from N with None => Ends (mkEnd 2 fs []) | Some _ => tproceed lg p path (files_in i o N) fs end.
Proof. intros A H. destruct trun_acts as (s1 & s2 & E & ->). unfold N. rewrite E in *. rewrite act_command by assumption. reflexivity. Qed.
Lemma trun_help : Forall accepted ss -> In WHelp ss -> trun lg p path args fs = Shows_help.
Proof.
  intros A H. destruct trun_acts as (s1 & s2 & E & ->). assert (X : act (map tgiven s1 ++ placed i o ++ map tgiven s2) nothing = Helped); [|rewrite X; reflexivity].
  rewrite E in *. apply Forall_app in A as [A1 A2].
  destruct (in_dec want_dec WHelp s1) as [I|I].
  - apply in_split in I as (x & y & ->). apply Forall_app in A1 as [A1 _]. now rewrite act_help.
  - rewrite act_all by assumption. rewrite act_placed. apply in_app_or in H as [H|H]; [contradiction|]. apply in_split in H as (x & y & ->). apply Forall_app in A2 as [A2 _].
    rewrite <- (app_nil_r (map _ _)). now rewrite act_help.
Qed.
Lemma trun_refused : ~ In WHelp ss -> ~ Forall accepted ss -> trun lg p path args fs = Ends (mkEnd 2 fs []).
Proof.
  intros H A. destruct trun_acts as (s1 & s2 & E & ->). assert (X : act (map tgiven s1 ++ placed i o ++ map tgiven s2) nothing = Refused); [|rewrite X; reflexivity].
  rewrite E in *. assert (H1 : ~ In WHelp s1) by (intros I; apply H, in_or_app; now left). assert (H2 : ~ In WHelp s2) by (intros I; apply H, in_or_app; now right).
  destruct (first_refused s1) as [A1|(x & a & y & -> & F & B)].
  - rewrite act_all by assumption. rewrite act_placed. destruct (first_refused s2) as [A2|(x & a & y & -> & F & B)]; [exfalso; apply A; apply Forall_app; now split|].
    rewrite <- (app_nil_r (map _ _)). apply act_refused; [exact F| |exact B]. intros I. apply H2, in_or_app. now left.
  - apply act_refused; [exact F| |exact B]. intros I. apply H1, in_or_app. now left.
Qed.
(** ** The values *)
Lemma from_last : n_from N = match last_given from_of ss with Some t => choice t | None => None end.
Proof. unfold N. rewrite (fold_pick n_from from_of choice ss nothing) by (intros a n; destruct a; reflexivity). reflexivity. Qed.
Lemma to_last : n_to N = match last_given to_of ss with Some t => match choice t with Some z => z | None => 0 end | None => 1 end.
Proof. unfold N. rewrite (fold_pick n_to to_of (fun t => match choice t with Some z => z | None => 0 end) ss nothing) by (intros a n; destruct a; reflexivity). reflexivity. Qed.
Lemma pattern_last : n_pattern N = match last_given asked_pattern ss with Some t => int_of t | None => None end.
Proof. unfold N. rewrite (fold_pick n_pattern asked_pattern int_of ss nothing) by (intros a n; destruct a; reflexivity). reflexivity. Qed.
Lemma start_last : n_start N = match last_given tstart_of ss with Some t => float_of t | None => None end.
Proof. unfold N. rewrite (fold_pick n_start tstart_of float_of ss nothing) by (intros a n; destruct a; reflexivity). reflexivity. Qed.
Lemma end_last : n_end N = match last_given tend_of ss with Some t => float_of t | None => None end.
Proof. unfold N. rewrite (fold_pick n_end tend_of float_of ss nothing) by (intros a n; destruct a; reflexivity). reflexivity. Qed.
Lemma flag_last (pr : named -> bool) f b : (forall a n, a <> f -> pr (upd a n) = pr n) -> (forall n, pr (upd f n) = true) -> (forall a, a = f \/ a <> f) -> pr nothing = false -> wanted f ss b -> pr N = b.
Proof.
  intros H1 H2 D Z W. pose proof (fold_flag pr f ss nothing H1 H2 D) as F. rewrite Z in F. fold N in F. unfold wanted in W. destruct b; [apply F; right; now apply W|].
  destruct (pr N); [|reflexivity]. destruct (proj1 F eq_refl) as [X|X]; [discriminate|]. apply W in X. discriminate.
Qed.
Ltac one_flag := first [intros a n X; destruct a; try reflexivity; congruence|intros n; reflexivity|intros a; destruct a; try (left; reflexivity); right; discriminate|reflexivity].
Lemma legacy_in_flag b : wanted WLegacyIn ss b -> n_legacy_in N = b. Proof. apply flag_last; one_flag. Qed.
Lemma legacy_out_flag b : wanted WLegacyOut ss b -> n_legacy_out N = b. Proof. apply flag_last; one_flag. Qed.
Lemma print_flag b : wanted WPrint ss b -> n_print N = b. Proof. apply flag_last; one_flag. Qed.
Lemma memory_flag b : wanted WMemory ss b -> n_inmemory N = b. Proof. apply flag_last; one_flag. Qed.
Lemma mask_flag b : wanted WMask ss b -> n_mask N = b. Proof. apply flag_last; one_flag. Qed.
Lemma invert_flag b : wanted WInvert ss b -> n_invert N = b. Proof. apply flag_last; one_flag. Qed.
Lemma named_format_of t b f : named_format t b f -> exists z, choice t = Some z /\ format_of z b = f.
Proof. intros [[-> ->]|[[-> ->]|[-> ->]]]; eexists; (split; [reflexivity|reflexivity]). Qed.
Lemma fin_ok fin : input_format ss fin -> exists z, n_from N = Some z /\ format_of z (n_legacy_in N) = fin.
Proof. intros (t & b & L & W & F). rewrite from_last, L, (legacy_in_flag b W). now apply named_format_of. Qed.
Lemma fout_ok fout : output_format ss fout -> format_of (n_to N) (n_legacy_out N) = fout.
Proof.
  intros (t & b & L & W & F). rewrite to_last, (legacy_out_flag b W). destruct (last_given to_of ss) as [u|]; subst t; destruct (named_format_of _ _ _ F) as (z & Z & E); [now rewrite Z|]. injection Z as <-. exact E.
Qed.
Lemma filter_is f : filter_asked ss f -> n_pattern N = f_pattern f /\ n_mask N = f_mask f /\ n_invert N = f_invert f /\ optional (n_start N) = Some (f_start f) /\ optional (n_end N) = Some (f_end f).
Proof.
  intros (A & B & C' & D & E). rewrite pattern_last, (mask_flag _ B), (invert_flag _ C'), start_last, end_last.
  split; [|split; [reflexivity|split; [reflexivity|split]]].
  - destruct (last_given asked_pattern ss), (f_pattern f); cbn [maybe] in A; try contradiction; [now apply int_whole|reflexivity].
  - destruct (last_given tstart_of ss), (f_start f); cbn [maybe] in D; try contradiction; [rewrite (float_decimal _ _ D)|]; reflexivity.
  - destruct (last_given tend_of ss), (f_end f); cbn [maybe] in E; try contradiction; [rewrite (float_decimal _ _ E)|]; reflexivity.
Qed.
Section Asked.
Hypothesis G : Forall tgood ss.
Hypothesis H : ~ In WHelp ss.
Variables (fin fout : fmt) (f : filters) (mem pr : bool).
Hypothesis HI : input_format ss fin.
Hypothesis HO : output_format ss fout.
Hypothesis HF : filter_asked ss f.
Hypothesis HM : wanted WMemory ss mem.
Hypothesis HP : wanted WPrint ss pr.
Lemma accepted_all : Forall accepted ss. Proof. eapply Forall_impl; [exact good_accepted|exact G]. Qed.
Lemma trun_asked : trun lg p path args fs =
  match pr, o with
  | false, None | false, Some [] => Ends (mkEnd 1 fs [])
  | _, _ =>
      match i, fs i with
      | [], _ | _, None => Ends (mkEnd 1 fs [])
      | _, Some file =>
          if pr then
            let (lines, x) := print_main lg p mem fin f (path i) file in
            if unspecified x then Beyond else Ends (mkEnd (exit_code x) fs (print_lines lines))
          else
            match o with
            | None => Beyond
            | Some name =>
                if mem then
                  match convert p true fin fout f file with
                  | (out, None) => Ends (mkEnd 0 (put fs name out) [])
                  | (_, x) => if unspecified x then Beyond else Ends (mkEnd 1 fs [])
                  end
                else
                  let opened := put fs name [] in
                  let (out, x) := convert p false fin fout f (match opened i with Some file => file | None => [] end) in
                  if unspecified x then Beyond else Ends (mkEnd (exit_code x) (put fs name out) [])
            end
      end
  end.
Proof.
  rewrite (trun_parsed accepted_all H). destruct (fin_ok fin HI) as (z & Z & FI). rewrite Z. unfold tproceed, files_in.
  cbn [n_from n_legacy_in n_to n_legacy_out n_print n_inmemory n_pattern n_mask n_invert n_start n_end n_in n_out].
  destruct (filter_is f HF) as (E1 & E2 & E3 & E4 & E5). rewrite E1, E2, E3, E4, E5, Z, FI, (fout_ok fout HO), (print_flag pr HP), (memory_flag mem HM).
  replace (mkF (f_pattern f) (f_mask f) (f_invert f) (f_start f) (f_end f)) with f by (destruct f; reflexivity).
  destruct pr, o as [[|? ?]|], i; reflexivity.
Qed.
End Asked.
End Whole.
