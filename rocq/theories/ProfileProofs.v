(** Proof of C183. *)
From Coq Require Import QArith String.
From Verif Require Import Base Float ReportModel ProfileModel ProfileSpec.
Import ListNotations.
Local Open Scope Z_scope.

Lemma padding_blanks l : 0 <= l -> padding l = repeat 32 (Z.to_nat (2 * l)).
Proof.
  intros L. unfold padding. replace (Z.to_nat (2 * l)) with (2 * Z.to_nat l)%nat by lia.
  generalize (Z.to_nat l) as n. induction n as [|n IH]; [reflexivity|].
  replace (2 * S n)%nat with (S (S (2 * n))) by lia. cbn [repeat concat]. rewrite IH. reflexivity.
Qed.
Lemma own_app a b : own (a ++ b) = own a ++ own b.
Proof. induction a as [|[m|f t|f t q] a IH]; cbn [own app]; rewrite ?IH; reflexivity. Qed.
Lemma c183 {V E} clock (p : prog V E) s : 0 <= level s ->
  exists n rs, run clock p s = (mkState (level s) n (records s ++ rs), snd (plain p)) /\ own rs = fst (plain p) /\
    nested clock (level s) (ticks s) n rs.
Proof.
  revert s. induction p as [o|m p IH|f body IHb k IHk]; intros s L.
  - exists (ticks s), []. rewrite app_nil_r. cbn [run plain fst snd own]. destruct s as [a b c]; cbn [level ticks records]. repeat split. constructor.
  - destruct (IH (log (Line m) s) L) as (n & rs & R & O & N). cbn [run plain]. destruct (plain p) as [l o]. cbn [fst snd] in *.
    exists n, (Line m :: rs). cbn [log level ticks records] in *. rewrite <- app_assoc in R. split; [exact R|]. cbn [own]. rewrite O. split; [reflexivity|now constructor].
  - cbn [run plain log level ticks records].
    destruct (IHb (mkState (level s + 1) (ticks s + 1) (records s ++ [Start f (padding (level s) ++ text "START PROFILING")]))) as (n & rs & R & O & N);
      [cbn [level]; lia|].
    rewrite R. destruct (plain body) as [l o]. cbn [fst snd level ticks records] in *.
    match goal with |- context [run clock (k o) ?S] => destruct (IHk o S) as (n' & rs' & R' & O' & N'); [cbn [level]; lia|] end.
    rewrite R'. destruct (plain (k o)) as [l' o']. cbn [fst snd level ticks records] in *.
    replace (level s + 1 - 1) with (level s) in * by lia.
    eexists n', _. split; [f_equal; f_equal; rewrite <- !app_assoc; reflexivity|]. cbn [app]. split.
    + cbn [own]. rewrite !own_app. cbn [own]. now rewrite O, O'.
    + rewrite !(padding_blanks _ L). now apply nested_call.
Qed.
