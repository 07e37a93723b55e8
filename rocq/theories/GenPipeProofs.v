(** Proof of C208. *)
From Coq Require Import QArith String List Lia.
From Verif Require Import Float Base TimestampsModel TimestampsSpec TimestampsProofs TimestampsProofs2 TimestampsProofs5 TimestampsProofs6 FpfindModel FpfindSpec MiscModel MiscSpec MiscProofs CdRunModel CdRunProofs ArgModel FpCliSpec CliSpec FpCliProofs FpCliCase
  TsCliModel TsCliSpec GenCliModel GenCliSpec GenCliProofs GenCliProofs2 GenCliProofs3 GenCliCase GenRefuseSpec GenRefuseProofs AnyTimeSpec AnyTimeProofs TypedSpec TypedProofs GenBackSpec GenBackProofs GenPipeSpec.
Import ListNotations. Local Open Scope string_scope. Local Open Scope list_scope. Local Open Scope Z_scope.

Lemma reads_bad p tmp args ss fs X : reading args ss -> fs tmp = None -> 4 <= len X mod 8 -> said (grun p tmp args fs X) 1 fs [].
Proof.
  intros (C & G & NH & LT & LO) FT H. assert (NE : args <> []) by (destruct C as (a1 & s1 & a2 & s2 & _ & _ & _ & _ & _ & ->); destruct a1; discriminate).
  destruct (run_means p tmp args ss (Some [45]) fs X C G NE) as [_ R]. destruct (R NH) as (n & M & ->). pose proof (means_out ss _ n G M) as MO. destruct M as (_ & MT & ML & MI). rewrite LT in MT.
  unfold gproceed. rewrite MO, LO, MT, MI. change (same [45] [45]) with true. cbv iota. unfold decode_file. rewrite (proj1 (read_a1_size p X (g_legacy n) NS1 true) H). cbn [bind].
  eexists. split; [reflexivity|]. split; [reflexivity|]. split; [reflexivity|]. intros m. cbn [files]. unfold unlink, put. rewrite same_same. destruct (same_name m tmp) eqn:S; [apply same_ok in S; congruence|reflexivity].
Qed.
Lemma encode_len lg vs : len (encode (A1 lg) vs) = 8 * len vs.
Proof. unfold encode. induction vs as [|v vs IH]; [reflexivity|]. cbn [map concat]. rewrite len_app, encode1_len, IH. cbn [esize]. rewrite len_cons. lia. Qed.
Lemma entered_pos ls zs : entered ls zs -> Forall (fun t => 0 <= t) zs. Proof. induction 1; auto. Qed.
Lemma types p tmp args ss fs s zs : typing args ss s zs -> delivers (grun p tmp args fs s) 1 fs (last_given gout_of ss) greeting (events_at false zs) /\ Forall (fun t => 0 <= t) zs.
Proof. intros (C & NE & G & H & T & PT & ls & HL & EN). split; [now apply (c200 p tmp args ss fs s ls zs)|exact (entered_pos ls zs EN)]. Qed.
Lemma c208_actual p tmp1 args1 ss1 fs1 s zs tmp2 args2 ss2 fs2 : typing args1 ss1 s zs -> last_given gout_of ss1 = None -> reading args2 ss2 -> fs2 tmp2 = None ->
  exists e, grun p tmp1 args1 fs1 s = Ends e /\ said (grun p tmp2 args2 fs2 (CdRunModel.stdout e)) 1 fs2 [].
Proof.
  intros T O R FT. destruct (types p tmp1 args1 ss1 fs1 s zs T) as [D _]. rewrite O in D. cbn [delivers] in D. destruct D as (e & A & _ & S & _). exists e. split; [exact A|]. rewrite S.
  apply (reads_bad p tmp2 args2 ss2 fs2 _ R FT). rewrite len_app, events_words, encode_len. change (len greeting) with 79. replace (79 + 8 * len (event_words zs)) with (7 + (9 + len (event_words zs)) * 8) by lia. rewrite Z.mod_add by lia. discriminate.
Qed.
Lemma c208_file p tmp1 args1 ss1 fs1 s zs a tmp2 args2 ss2 fs2 : 54 <= p -> typing args1 ss1 s zs -> last_given gout_of ss1 = Some a -> reading args2 ss2 -> ~ In GLegacy ss2 -> fs2 tmp2 = None ->
  exists e X out, grun p tmp1 args1 fs1 s = Ends e /\ files e a = Some X /\ numbers (map (fun t => t mod 2 ^ 54) zs) out /\ said (grun p tmp2 args2 fs2 X) 0 fs2 out.
Proof.
  intros P T O R L FT. destruct (types p tmp1 args1 ss1 fs1 s zs T) as [D N]. rewrite O in D. cbn [delivers] in D. destruct D as (e & A & _ & _ & F & _). exists e.
  assert (GL : gasked GLegacy ss2 false) by (split; [discriminate|contradiction]). destruct (reads_words p tmp2 args2 ss2 fs2 false _ P R GL FT (event_words_ok zs N)) as (o & NU & SA). rewrite (proj1 (words_events zs N)) in NU.
  exists (events_at false zs), o. split; [exact A|]. split; [exact F|]. split; [exact NU|]. rewrite events_words. exact SA.
Qed.
(** -x, 5 typed in *)
Lemma typed5 : plain_text (codes "5" ++ [10]) /\ exists ls, has_lines (codes "5" ++ [10]) ls /\ entered ls [5].
Proof.
  split; [repeat constructor; discriminate|]. exists [codes "5"]. split; [apply (H_line (codes "5") [] []); [repeat constructor; discriminate|constructor]|].
  apply E_number; [apply int_of_word; vm_compute; reflexivity|discriminate|constructor].
Qed.
Lemma typing208 : typing [codes "-x"] [GLegacy] (codes "5" ++ [10]) [5].
Proof. split; [exact x_command|]. split; [discriminate|]. split; [repeat constructor|]. split; [intros [X|[]]; discriminate X|]. split; [reflexivity|exact typed5]. Qed.
Lemma typing208_file : typing ([codes "-o"; codes "a"] ++ []) ([GOut (codes "a")] ++ []) (codes "5" ++ [10]) [5].
Proof.
  split; [apply G_more; [apply (P_detached _ _ _ _ [] [] (GOut (codes "a")) 111 (codes "a") [] []); [constructor|reflexivity|reflexivity|left; discriminate|repeat constructor; cbn; try lia; try discriminate|constructor]|constructor]|].
  split; [discriminate|]. split; [repeat constructor; discriminate|]. split; [intros [X|[]]; discriminate X|]. split; [reflexivity|exact typed5].
Qed.
Lemma reading208 : reading [[45]] [].
Proof. split; [apply input_alone; [right; now left|repeat constructor; discriminate]|]. split; [constructor|]. split; [intros []|]. split; reflexivity. Qed.
Lemma c208_refuted : ~ C208_statement.
Proof.
  intros H. destruct (H 54 tmpname _ _ none_fs _ _ tmpname _ _ none_fs ltac:(lia) typing208 eq_refl reading208 ltac:(intros []) eq_refl) as (e & o & A & _ & e2 & B & C & _).
  destruct (c208_actual 54 tmpname _ _ none_fs _ _ tmpname _ _ none_fs typing208 eq_refl reading208 eq_refl) as (e' & A' & e2' & B' & C' & _). rewrite A in A'. injection A' as <-. rewrite B in B'. injection B' as <-. rewrite C in C'. discriminate C'.
Qed.
