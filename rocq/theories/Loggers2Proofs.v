(** Proofs about loggers below those obtained by get_logger. *)
From Coq Require Import String Lia.
From Coq Require Import ZifyBool.
From Verif Require Import Base TimestampsModel MiscModel ReportModel LoggersModel LoggersSpec LoggersProofs Loggers2Spec.
Local Open Scope Z_scope.

(** ** The names above a name *)
Lemma dotted_in s : forall pre b, In b (dotted pre s) <-> exists u v, s = u ++ 46 :: v /\ b = pre ++ u.
Proof.
  induction s as [|c s IH]; intros pre b; cbn [dotted].
  - split; [intros []|]. intros (u & v & E & _). destruct u; discriminate.
  - rewrite in_app_iff, IH. split.
    + intros [H|(u & v & -> & ->)].
      * destruct (Z.eqb_spec c 46) as [->|]; [destruct H as [<-|[]]|destruct H]. exists [], s. now rewrite app_nil_r.
      * exists (c :: u), v. now rewrite <- app_assoc.
    + intros (u & v & E & ->). destruct u as [|x u]; injection E as -> E.
      * left. rewrite app_nil_r. now left.
      * right. exists u, v. split; [exact E|]. now rewrite <- app_assoc.
Qed.
Lemma dotted_order s : forall pre l1 b l2, dotted pre s = l1 ++ b :: l2 -> forall c, In c l2 -> exists rest, c = b ++ 46 :: rest.
Proof.
  induction s as [|x s IH]; intros pre l1 b l2 E c I; cbn [dotted] in E; [destruct l1; discriminate|].
  destruct (Z.eqb_spec x 46) as [->|N]; cbn [app] in E.
  - destruct l1 as [|y l1]; injection E as -> E.
    + subst l2. apply dotted_in in I as (u & v & _ & ->). exists u. now rewrite <- app_assoc.
    + exact (IH _ _ _ _ E c I).
  - exact (IH _ _ _ _ E c I).
Qed.
Lemma above_split n a : proper n -> over a n -> exists l1 l2, above n = l1 ++ a :: l2 /\ forall c, In c l1 -> over c n /\ over a c.
Proof.
  intros [P _] O. assert (N : n <> []) by (destruct O as [[_ N]|(r & ->)]; [exact N|now destruct a]).
  assert (AB : above n = rev (dotted [] n) ++ [[]]) by (unfold above; destruct n; [congruence|reflexivity]).
  assert (NE : forall c, In c (dotted [] n) -> c <> []).
  { intros c I ->. apply dotted_in in I as (u & v & E & X). destruct u; [|discriminate]. exact (P v E). }
  assert (OV : forall c, In c (dotted [] n) -> over c n).
  { intros c I. apply dotted_in in I as (u & v & E & ->). right. exists v. exact E. }
  destruct O as [[-> _]|(rest & E)].
  - exists (rev (dotted [] n)), []. split; [exact AB|]. intros c I. apply in_rev in I. split; [now apply OV|]. left. split; [reflexivity|now apply NE].
  - assert (I : In a (dotted [] n)) by (apply dotted_in; exists a, rest; split; [exact E|reflexivity]).
    destruct (in_split _ _ I) as (l1 & l2 & S). exists (rev l2), (rev l1 ++ [[]]). split.
    + rewrite AB, S, rev_app_distr. cbn [rev]. now rewrite <- !app_assoc.
    + intros c J. apply in_rev in J. split; [apply OV; rewrite S, in_app_iff; right; now right|]. right. exact (dotted_order _ _ _ _ _ S c J).
Qed.

(** ** The loggers *)
Lemma asked_for n cs : asked n cs <-> for_name n cs <> [].
Proof.
  unfold asked. split.
  - intros (lv & h & I) E. assert (X : In (n, lv, h) (for_name n cs)) by (apply filter_In; split; [exact I|apply same_refl]). rewrite E in X. exact X.
  - intros N. destruct (for_name n cs) as [|[[m lv] h] l] eqn:E; [congruence|].
    assert (I : In (m, lv, h) (for_name n cs)) by (rewrite E; now left).
    apply filter_In in I as [I S]. apply same_spec in S. cbn in S. subst m. exists lv, h. exact I.
Qed.
Lemma not_asked n cs : ~ asked n cs -> calls fresh cs n = fresh n.
Proof.
  intros N. assert (E : for_name n cs = []) by (destruct (for_name n cs) eqn:E; [reflexivity|]; exfalso; apply N, asked_for; rewrite E; discriminate).
  pose proof (got_calls n cs None fresh eq_refl) as G. rewrite track_first, E in G. exact G.
Qed.
Lemma level_nonzero lv : label2level lv <> 0.
Proof. destruct lv as [s| |]; cbn [label2level]; [|discriminate..]. repeat (destruct (same s _); [discriminate|]). discriminate. Qed.
Lemma was_asked n cs : asked n cs -> exists lv h, lv <> 0 /\ calls fresh cs n = mkLogger lv [mkH Stderr h] false.
Proof.
  intros A. apply asked_for in A. pose proof (got_calls n cs None fresh eq_refl) as G. rewrite track_first in G.
  destruct (for_name n cs) as [|[[m lv] h] l]; [congruence|]. cbn [got] in G. eexists _, h. split; [|exact G].
  clear - l. assert (H : forall d, d <> 0 -> last (map (fun c : call => label2level (snd (fst c))) l) d <> 0).
  { induction l as [|x l IH]; intros d D; [exact D|]. cbn [map]. rewrite last_first. apply IH, level_nonzero. }
  apply H, level_nonzero.
Qed.
Lemma skip_fresh W l1 l2 : (forall c, In c l1 -> W c = mkLogger 0 [] true) ->
  first_level W (l1 ++ l2) = first_level W l2 /\ all_handlers W (l1 ++ l2) = all_handlers W l2.
Proof.
  induction l1 as [|c l1 IH]; intros H; [split; reflexivity|]. cbn [app first_level all_handlers]. rewrite (H c (or_introl eq_refl)). apply IH. intros d I. apply H. now right.
Qed.
Lemma fresh_named c : c <> [] -> fresh c = mkLogger 0 [] true.
Proof. destruct c; [congruence|reflexivity]. Qed.
Lemma over_named a c : over a c -> c <> [].
Proof. intros [[_ N]|(r & ->)]; [exact N|now destruct a]. Qed.
Lemma c179 isspace cs n a r : proper n -> ~ asked n cs -> over a n -> asked a cs -> (forall b, over b n -> over a b -> ~ asked b cs) ->
  emit isspace (calls fresh cs) n r = emit isspace (calls fresh cs) a r.
Proof.
  intros P NA O A B. destruct (above_split n a P O) as (l1 & l2 & S & H). destruct (was_asked a cs A) as (lv & h & L & E).
  rewrite (emit_own isspace _ a r _ _ E L) by discriminate. unfold emit. rewrite S. change (n :: l1 ++ a :: l2) with ((n :: l1) ++ a :: l2).
  destruct (skip_fresh (calls fresh cs) (n :: l1) (a :: l2)) as [-> ->].
  { intros c [<-|I]; [rewrite (not_asked n cs NA); apply fresh_named; exact (over_named _ _ O)|]. destruct (H c I) as [X Y].
    rewrite (not_asked c cs (B c X Y)). apply fresh_named. exact (over_named _ _ Y). }
  cbn [first_level all_handlers]. rewrite E. cbn [level handlers propagate]. replace (lv =? 0) with false by lia. cbn [app map].
  destruct (Z.ltb_spec (r_level r) lv); destruct (Z.leb_spec lv (r_level r)); try lia; reflexivity.
Qed.
Lemma c179_none isspace cs n r : proper n -> ~ asked n cs -> (forall b, over b n -> ~ asked b cs) ->
  emit isspace (calls fresh cs) n r = if 30 <=? r_level r then [(Stderr, body r)] else [].
Proof.
  intros P NA B. unfold emit.
  assert (X : first_level (calls fresh cs) (n :: above n) = 30 /\ all_handlers (calls fresh cs) (n :: above n) = []).
  { destruct n as [|x n0]; [cbn [above first_level all_handlers]; rewrite (not_asked [] cs NA); split; reflexivity|]. set (n := x :: n0) in *.
    assert (AB : n :: above n = (n :: rev (dotted [] n)) ++ [[]]) by reflexivity. rewrite AB.
    destruct (skip_fresh (calls fresh cs) (n :: rev (dotted [] n)) [[]]) as [-> ->].
    - intros c [<-|I]; [rewrite (not_asked n cs NA); reflexivity|]. apply in_rev in I. apply dotted_in in I as (u & v & E & ->). cbn [app].
      rewrite (not_asked u cs (B u (or_intror (ex_intro _ v E)))). apply fresh_named. intros ->. exact (proj1 P v E).
    - assert (O : over [] n) by (left; split; [reflexivity|discriminate]).
      cbn [first_level all_handlers]. rewrite (not_asked [] cs (B [] O)). split; reflexivity. }
  destruct X as [-> ->]. change WARNING with 30. destruct (Z.ltb_spec (r_level r) 30); destruct (Z.leb_spec 30 (r_level r)); try lia; reflexivity.
Qed.
