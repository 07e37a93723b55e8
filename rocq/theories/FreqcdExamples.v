(** Concrete freqcd runs, used by the refutations and the non-vacuity examples. *)
From Verif Require Import Base FreqcdModel FreqcdSpec.
From Coq Require Import String Ascii ZifyBool.
Local Open Scope Z_scope.
Import List ListNotations.

(** The bytes of a string literal; [\n] is added by [line]. *)
Fixpoint str (s : string) : list Z :=
  match s with EmptyString => [] | String a r => Z.of_N (N_of_ascii a) :: str r end.
Definition line (s : string) : list Z := str s ++ [10].

Definition IB : list Z := repeat 0 (Z.to_nat 8192).
Definition FB : list Z := repeat 0 (Z.to_nat 100).
Definition rdin (c : list Z) : tick := Tick (Some (RdBytes c)) None None.
Definition rdfq (c : list Z) : tick := Tick None (Some (RdBytes c)) None.
Definition timeout : tick := Tick None None None.
Definition ev (t : Z) (fl : Z) : list Z := mk_event false t fl.

Lemma alloc_example : alloc_ok IB IB FB.
Proof. repeat split; vm_compute; reflexivity. Qed.

Definition byteb (x : Z) : bool := (0 <=? x) && (x <? 256).
Definition rd_okb (r : option rd) : bool :=
  match r with Some (RdBytes l) => forallb byteb l | _ => true end.
Definition tick_okb (t : tick) : bool :=
  match t with SelectError => true | Tick i f _ => rd_okb i && rd_okb f end.
Lemma bytes_okb l : forallb byteb l = true -> bytes_ok l.
Proof.
  intros H. apply Forall_forall. intros x I. rewrite forallb_forall in H. specialize (H x I).
  unfold byteb in H. unfold is_byte. lia.
Qed.
Lemma ticks_okb ts : forallb tick_okb ts = true -> Forall tick_ok ts.
Proof.
  intros H. apply Forall_forall. intros t I. rewrite forallb_forall in H. specialize (H t I).
  destruct t as [|i f w]; [exact Logic.I|]. cbn in *. apply andb_prop in H as [H1 H2].
  split; unfold rd_ok, rd_okb in *; [destruct i as [[]|]|destruct f as [[]|]]; try exact Logic.I; now apply bytes_okb.
Qed.

(** The result of a run seen from outside: bytes written, correction in force, status. *)
Definition outcome (r : cres (fstate * list obs * status)) : cres (list Z * Z * status) :=
  match r with Ok (s, os, st) => Ok (written os, fcorr s, st) | Err e => Err e end.
Notation run0 f ts := (freqcd true false None IB IB FB false f ts) (only parsing).
Notation runF f ts := (freqcd true false None IB IB FB true f ts) (only parsing).
Lemma outcome_inv r w f st : outcome r = Ok (w, f, st) ->
  exists s os, r = Ok (s, os, st) /\ written os = w /\ fcorr s = f.
Proof. destruct r as [[[s os] st']|]; cbn; [|discriminate]. intros H. injection H as <- <- <-. eauto. Qed.
(** ... and everything that was received, too. *)
Definition outcome2 (r : cres (fstate * list obs * status)) : cres (list (list Z) * list Z * list Z * Z * status) :=
  match r with Ok (s, os, st) => Ok (chunks os, received_freq os, written os, fcorr s, st) | Err e => Err e end.
Lemma outcome2_inv r c q w f st : outcome2 r = Ok (c, q, w, f, st) ->
  exists s os, r = Ok (s, os, st) /\ chunks os = c /\ received_freq os = q /\ written os = w /\ fcorr s = f.
Proof.
  destruct r as [[[s os] st']|]; cbn; [|discriminate]. intros H.
  injection H as <- <- <- <- <-. eexists _, _. eauto.
Qed.
Ltac demo1 := match goal with |- ?a = ?b => vm_cast_no_check (@eq_refl _ b) end.
Ltac demo := cbv zeta; split; [exact alloc_example|split; [apply ticks_okb; vm_compute; reflexivity|demo1]].
