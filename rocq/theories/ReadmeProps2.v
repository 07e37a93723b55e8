(** freqcd with -d, and as the README writes it: C129. *)
From Coq Require Import QArith Qabs String List Lia.
From Verif Require Import Float Base FreqcdModel FreqcdSpec FreqcdProofs6 FreqcdExamples FreqcdRefute FreqcdCliSpec FreqcdCliRefute CdRunModel CdRunSpec CdRunRefute ReadmeSpec ReadmeProofs2.
Import ListNotations. Local Open Scope string_scope. Local Open Scope list_scope. Local Open Scope Z_scope.

(** C129 *)
Theorem C129 : forall junk ib ob fb prog args ss txt n fs stdin X, alloc_ok ib ob fb -> writes args ss -> Forall good ss -> ~ In Help ss -> In Decimal ss ->
  last_of corr_of ss = Some txt -> good_number txt n -> Z.abs n <= 1220703 -> input_of fs stdin ss = Some X -> event_file (legacy_of ss) X ->
  last_of freq_of ss = None -> separate (last_of in_of ss) (last_of out_of ss) ->
  exists e times, freqcd_main true junk ib ob fb (prog :: args) fs stdin = Some (Ok e) /\ code e = 0 /\ retimed_file fs (files e) (CdRunModel.stdout e) ss X times /\
    forall i t0 t t', event_time (legacy_of ss) X 0 t0 -> event_time (legacy_of ss) X i t -> nth_error times i = Some t' -> decimal_accurate n t0 (Z.of_nat i / 1024 + 1) t t'.
Proof. exact c129. Qed.
Print Assumptions C129.
(** the README's command *)
Theorem C129_readme : forall junk ib ob fb prog fs X, alloc_ok ib ob fb -> event_file true X ->
  exists e times, freqcd_main true junk ib ob fb (prog :: readme_freqcd) fs X = Some (Ok e) /\ code e = 0 /\ retimed_file fs (files e) (CdRunModel.stdout e) [Legacy] X times /\
    forall i t0 t t', event_time true X 0 t0 -> event_time true X i t -> nth_error times i = Some t' -> decimal_accurate 568 t0 (Z.of_nat i / 1024 + 1) t t'.
Proof. exact c129_readme. Qed.
Print Assumptions C129_readme.
(** words of a legacy file: the high half first *)
Definition legacy (e : list Z) : list Z := drop 4 e ++ take 4 e.
Example C129_case : event_file true (legacy (ev 0 1) ++ legacy (ev far 2)) /\
  seen_run (freqcd_main true None IB IB FB (str "freqcd" :: readme_freqcd) disk (legacy (ev 0 1) ++ legacy (ev far 2))) (str "z") = Some (0, None, legacy (ev 0 1) ++ legacy (ev (far + 1996800) 2)) /\
  decimal_accurate 568 0 1 far (far + 1996800).
Proof.
  split; [split; [apply bytes_okb; vm_compute; reflexivity|split; [reflexivity|vm_compute; repeat split; discriminate]]|].
  split; [vm_compute; reflexivity|]. vm_compute. congruence.
Qed.
