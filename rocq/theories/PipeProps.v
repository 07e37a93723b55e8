(** fpfind's output used by freqcd: C86. *)
From Coq Require Import QArith Qabs String List.
From Verif Require Import Float Base FreqcdModel FreqcdSpec FreqcdExamples FreqcdCliSpec FpfindModel FpfindSpec FpfindProofs3 FpfindPipe PipeSpec PipeProofs.
Import ListNotations. Local Open Scope Z_scope.

(** C86.  [df] is the frequency offset found, [F] the true one; C81 bounds their difference. *)
Theorem C86 : forall prog repr dt df, (forall x, field_ok (repr x)) -> (Qabs df <= (1 # 2 ^ 13) - (1 # 2 ^ 25))%Q ->
  exists f, accepted prog (printed true (fl 53) repr dt df) f /\
  forall F lg junk ib ob fb ts s' os st, (Qabs (df - F) <= 1 # 2 ^ 51)%Q -> alloc_ok ib ob fb -> Forall tick_ok ts ->
    freqcd true lg junk ib ob fb false f ts = Ok (s', os, st) -> every_read_completes [] (chunks os) ->
    nondecr (map (ev_time lg) (groups (received os))) ->
    let bs := map (map (ev_time lg)) (FreqcdSpec.batches [] (chunks os)) in
    exists tss, length tss = length bs /\
      (forall i t0, hd_error (concat bs) = Some t0 ->
         Forall2 (in_step ((1 # 2 ^ 35) + (1 # 2 ^ 49)) F t0 (Z.of_nat i + 1)) (nth i bs []) (nth i tss [])) /\
      prefix (written os) (concat (retime lg (groups (received os)) (concat tss))) /\
      (st = Running -> written os = concat (retime lg (groups (received os)) (concat tss))).
Proof. exact pipe. Qed.
Print Assumptions C86.
(** A target clock fast by 1.2e-4: three events 2^40 units (4.3 s) apart, as the fast clock shows them, come out 2^40 apart to
    within 20 units (0.08 ns). *)
Example C86_case : let df := fl 53 (12 # 100000) in (Qabs df <= (1 # 2 ^ 13) - (1 # 2 ^ 25))%Q /\
  accepted [102] (printed true (fl 53) (fun _ => [48]) 0 df) (-2061337) /\
  let ts := [rdin (ev 1000 0 ++ ev (1000 + 1099643569155) 1); rdin (ev (1000 + 2199287138310) 2)] in
  Forall tick_ok ts /\
  outcome2 (run0 (-2061337) ts) = Ok ([ev 1000 0 ++ ev (1000 + 1099643569155) 1; ev (1000 + 2199287138310) 2], [],
    ev 1000 0 ++ ev (1000 + 2 ^ 40 - 20) 1 ++ ev (1000 + 2 ^ 41 - 40) 2, -2061337, Running).
Proof.
  cbv zeta. split; [vm_compute; discriminate|]. split; [eexists; split; vm_compute; reflexivity|].
  split; [apply ticks_okb; vm_compute; reflexivity|demo1].
Qed.
