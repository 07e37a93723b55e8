(** Statements about runs of freqcd on files: C101, C103, C104. *)
From Verif Require Import Base FreqcdModel FreqcdSpec FreqcdCliSpec CdRunModel CdRunSpec.
Local Open Scope Z_scope.

(** C101: the correction in a frequency file is the one applied. *)
Definition C101_statement : Prop := forall junk ib ob fb prog args ss f fs stdin X t Zf g, alloc_ok ib ob fb -> asks args ss f ->
  input_of fs stdin ss = Some X -> event_file (legacy_of ss) X -> last_of freq_of ss = Some t -> fs t = Some Zf -> bytes_ok Zf -> len Zf <= 99 -> Forall plain_line (lines Zf) ->
  after_lines f (lines Zf) g -> separate (last_of in_of ss) (last_of out_of ss) -> separate (last_of freq_of ss) (last_of out_of ss) ->
  exists e times, freqcd_main true junk ib ob fb (prog :: args) fs stdin = Some (Ok e) /\ code e = 0 /\ retimed_file fs (files e) (stdout e) ss X times /\
    forall i t0 t t', event_time (legacy_of ss) X 0 t0 -> event_time (legacy_of ss) X i t -> nth_error times i = Some t' -> accurate g t0 (Z.of_nat i / 1024 + 1) t t'.
(** C103: freqcd does not change its input file. *)
Definition C103_statement : Prop := forall strict junk ib ob fb prog args ss f fs stdin t e, alloc_ok ib ob fb -> asks args ss f ->
  last_of in_of ss = Some t -> freqcd_main strict junk ib ob fb (prog :: args) fs stdin = Some (Ok e) -> files e t = fs t.
(** C104: a run that ends with an error changes no file. *)
Definition C104_statement : Prop := forall strict junk ib ob fb argv fs stdin e,
  freqcd_main strict junk ib ob fb argv fs stdin = Some (Ok e) -> code e <> 0 -> (forall m, files e m = fs m) /\ stdout e = [].
