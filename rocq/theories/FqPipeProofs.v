(** Proof of C186. *)
From Verif Require Import Base FreqcdModel FreqcdSpec FreqcdProofs FreqcdProps FqPipeSpec.
Import ListNotations.
Local Open Scope Z_scope.

Lemma split_app : forall a cur b, split_lines cur (a ++ b) =
  let (l1, r1) := split_lines cur a in let (l2, r2) := split_lines r1 b in (l1 ++ l2, r2).
Proof.
  induction a as [|c a IH]; intros cur b; cbn [app split_lines]; [destruct (split_lines cur b); reflexivity|].
  destruct (newline =? c); [|apply IH]. rewrite IH. destruct (split_lines [] a) as [l1 r1]. destruct (split_lines r1 b) as [l2 r2]. reflexivity.
Qed.
Lemma first_len : forall b cur, match fst (split_lines cur b) with [] => len cur <= len (snd (split_lines cur b)) | l :: _ => len cur <= len l end.
Proof.
  induction b as [|c b IH]; intros cur; cbn [split_lines fst snd]; [lia|]. destruct (newline =? c).
  - destruct (split_lines [] b). cbn [fst]. lia.
  - specialize (IH (cur ++ [c])). destruct (split_lines (cur ++ [c]) b) as [[|l ls] r]; cbn [fst snd] in *; rewrite len_app in IH; change (len [c]) with 1 in IH; lia.
Qed.
Lemma nil_len (l : list Z) : len l <= 0 -> l = [].
Proof. destruct l; [reflexivity|]. unfold len. cbn [length]. lia. Qed.
Lemma piece p R : text_of_lines 98 (p ++ R) -> has_newline p = false -> take (99 - len p) R = [] \/ has_newline (take (99 - len p) R) = true.
Proof.
  intros [LL SH] NP. set (d := take (99 - len p) R). destruct (has_newline d) eqn:ND; [now right|]. left.
  assert (E : R = d ++ drop (99 - len p) R) by (unfold d, take, drop; symmetry; apply firstn_skipn).
  set (b := drop (99 - len p) R) in *.
  assert (S : split_lines [] (p ++ R) = split_lines (p ++ d) b).
  { rewrite E, app_assoc. rewrite (split_lines_app (p ++ d) [] b) by (rewrite has_newline_app, NP, ND; reflexivity). reflexivity. }
  unfold last_line, lines in *. rewrite S in *. pose proof (first_len b (p ++ d)) as FL. destruct (split_lines (p ++ d) b) as [ls r]. cbn [fst snd] in *. subst r.
  assert (LD : len d = Z.min (Z.max 0 (99 - len p)) (len R)).
  { unfold d, take, len. rewrite firstn_length. lia. }
  assert (Z : forall l : list Z, 0 <= len l) by (intros; unfold len; lia). pose proof (Z p). pose proof (Z R). pose proof (Z d).
  rewrite len_app in FL. destruct ls as [|l ls].
  - change (len []) with 0 in FL. apply nil_len. lia.
  - apply Forall_inv in SH. assert (D0 : len d = 0 \/ len d = len R \/ len d = 99 - len p) by lia. destruct D0 as [D0|[D0|D0]]; [| |lia].
    + apply nil_len. lia.
    + (* everything was read: nothing is left for the newline *)
      assert (B0 : b = []). { apply nil_len. assert (LE : len R = len d + len b) by (rewrite E at 1; apply len_app). lia. }
      rewrite B0, app_nil_r in E. rewrite E in S. rewrite split_lines_none in S by (rewrite has_newline_app, NP, ND; reflexivity). congruence.
Qed.
Lemma keep p R n : text_of_lines n (p ++ R) -> has_newline p = false -> forall k,
  text_of_lines n (last_line (p ++ take k R) ++ drop k R) /\ has_newline (last_line (p ++ take k R)) = false.
Proof.
  intros [LL SH] NP k.
  assert (E : p ++ R = (p ++ take k R) ++ drop k R) by (rewrite <- app_assoc; f_equal; unfold take, drop; symmetry; apply firstn_skipn).
  assert (NR : has_newline (last_line (p ++ take k R)) = false) by (unfold last_line; apply split_lines_rest; reflexivity). split; [|exact NR].
  unfold text_of_lines. unfold lines in *. unfold last_line at 1. unfold last_line in LL. rewrite E, split_app in LL, SH.
  rewrite (split_lines_app _ [] (drop k R) NR). cbn [app]. unfold last_line in *.
  destruct (split_lines [] (p ++ take k R)) as [l1 r1]. cbn [snd] in *. destruct (split_lines r1 (drop k R)) as [l2 r2]. cbn [fst snd] in *.
  split; [exact LL|]. now apply Forall_app in SH.
Qed.
Lemma greedy_newlines : forall os p R, text_of_lines 98 (p ++ R) -> has_newline p = false -> greedy p R os ->
  Forall (fun o => rx_freq o = [] \/ has_newline (rx_freq o) = true) os.
Proof.
  induction os as [|o os IH]; intros p R T NP G; constructor; cbn [greedy] in G.
  - destruct G as [[E _]|[E _]]; [now left|]. rewrite E. now apply piece.
  - destruct G as [[_ G]|[E G]]; [now apply (IH p R)|]. rewrite E in G. destruct (keep p R 98 T NP (99 - len p)) as [T' NP']. now apply (IH _ _ T' NP').
Qed.
Lemma c186 strict lg junk ib ob fb fc ts s' os st F : alloc_ok ib ob fb -> Forall tick_ok ts ->
  freqcd strict lg junk ib ob fb true fc ts = Ok (s', os, st) -> text_of_lines 98 F -> Forall plain_line (lines F) -> greedy [] F os -> received_freq os = F ->
  after_lines fc (lines F) (fcorr s').
Proof.
  intros A K R T PL G RF. rewrite <- RF. apply (C11_partial strict lg junk ib ob fb true fc ts s' os st A K R); [now apply (greedy_newlines os [] F)|now rewrite RF].
Qed.
