(** Proof of C204. *)
From Coq Require Import QArith String List Lia.
From Verif Require Import Float Base TimestampsModel TimestampsSpec TimestampsProofs5 FpfindModel FpfindSpec MiscModel MiscSpec CdRunModel CdRunProofs ArgModel FpCliSpec CliSpec FpCliProofs FpCliCase TsCliModel TsCliSpec TsCliProofs3 TsCliCase
  GenCliModel GenCliSpec GenCliCase GenRefuseSpec GenRefuseProofs AnyTimeSpec AnyTimeProofs.
Import ListNotations. Local Open Scope string_scope. Local Open Scope list_scope. Local Open Scope Z_scope.

Lemma events_ok zs : Forall event_ok (map (fun t => (t mod 2 ^ 54, 1)) zs).
Proof. apply Forall_map. apply Forall_forall. intros t _. unfold event_ok. cbn [fst snd]. pose proof (Z.mod_pos_bound t (2 ^ 54) ltac:(lia)). lia. Qed.
Lemma c204 lg p path tmp args1 ss1 fs in1 ws zs a args2 ss2 b fout f memory : 54 <= p ->
  gcommand args1 ss1 -> Forall fine ss1 -> ~ In GHelp ss1 -> last_given gtimes_of ss1 = Some ws -> Forall2 int_word ws zs -> Forall (fun t => 0 <= t) zs -> out_chosen ss1 = Some a ->
  command args2 ss2 a (Some b) -> Forall tgood ss2 -> ~ In WHelp ss2 -> ~ In WPrint ss2 -> wanted WMemory ss2 memory -> input_format ss2 (A1 false) -> output_format ss2 fout -> filterless ss2 -> filter_asked ss2 f ->
  b <> [] -> memory = true \/ b <> a ->
  exists e, grun p tmp args1 fs in1 = Ends e /\ code e = 0 /\ stdout e = [] /\ (forall m, m <> a -> files e m = fs m) /\
    wrote (trun lg p path args2 (files e)) 0 (files e) b (encode fout (map word_of (map (fun t => (t mod 2 ^ 54, 1)) zs))).
Proof.
  intros P C1 G1 H1 T1 W1 N1 O1 C2 G2 H2 Q2 M2 I2 F2 U2 A2 B2 D2. destruct (c201 p tmp args1 ss1 fs in1 ws zs C1 G1 T1 W1) as (_ & R & _). specialize (R H1 N1). rewrite O1 in R. cbn [delivers] in R.
  destruct R as (e & -> & CE & SE & FE & OE). exists e. split; [reflexivity|]. split; [exact CE|]. split; [exact SE|]. split; [exact OE|].
  destruct (filterless_is ss2 f U2 A2) as (P2 & S2 & E2). pose proof (events_ok zs) as EV. rewrite <- (unfiltered f _ P2 S2 E2 EV).
  apply (c119 lg p path args2 ss2 a b (files e) (A1 false) fout f memory (map word_of (map (fun t => (t mod 2 ^ 54, 1)) zs)) P); [|exact D2].
  assert (NA : a <> []) by (intros ->; unfold out_chosen in O1; destruct (last_given gout_of ss1) as [[|? ?]|]; discriminate O1).
  split; [exact C2|]. split; [exact G2|]. split; [exact H2|]. split; [exact Q2|]. split; [exact M2|]. split; [exact I2|]. split; [exact F2|]. split; [exact A2|]. split; [exact NA|]. split; [exact B2|].
  split; [unfold events_at in FE; rewrite map_map; exact FE|]. split; [apply TimestampsProofs5.words_of_ok; exact EV|]. split; [unfold filter_ok; now rewrite P2|]. assert (TF : timed f = false) by (unfold timed; now rewrite S2, E2).
  split; [rewrite TF; discriminate|]. split; [rewrite TF; intros [X|[_ X]]; discriminate X|exact I].
Qed.
