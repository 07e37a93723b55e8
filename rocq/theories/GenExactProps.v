(** The exact times printed by generator, freqcd and decoder one after another: C207. *)
From Coq Require Import QArith String List Lia.
From Verif Require Import Float Base FreqcdModel FreqcdSpec FreqcdCliSpec FreqcdExamples FpfindModel MiscModel CdRunModel CdRunSpec TimestampsModel TimestampsSpec ChainCase FpCliSpec CliSpec TsCliModel TsCliSpec
  GenCliModel GenCliSpec GenCliCase ChainSpec CdExactSpec GenRefuseSpec GenRefuseProofs AnyTimeSpec AnyTimeProofs GenBackSpec GenExactProofs.
Import ListNotations. Local Open Scope string_scope. Local Open Scope list_scope. Local Open Scope Z_scope.

(** C207 *)
Theorem C207 : forall p tmp1 args1 ss1 fs1 in1 zs junk ib ob fb prog args2 ss2 f fs2 tmp3 args3 ss3 fs3, 54 <= p -> generating args1 ss1 zs -> let ts := map (fun t => t mod 2 ^ 54) zs in nondecr ts ->
  alloc_ok ib ob fb -> asks args2 ss2 f -> static false ss2 -> FreqcdCliSpec.last_of FreqcdCliSpec.in_of ss2 = None -> FreqcdCliSpec.last_of FreqcdCliSpec.out_of ss2 = None ->
  reading args3 ss3 -> ~ In GLegacy ss3 -> fs3 tmp3 = None ->
  exists e1 e2 out, grun p tmp1 args1 fs1 in1 = Ends e1 /\ code e1 = 0 /\ freqcd_main true junk ib ob fb (prog :: args2) fs2 (CdRunModel.stdout e1) = Some (Ok e2) /\ code e2 = 0 /\
    said (grun p tmp3 args3 fs3 (CdRunModel.stdout e2)) 0 fs3 out /\ numbers (map (fun i => exact_time f ts i mod 2 ^ 54) (seq 0 (length ts))) out.
Proof. exact c207. Qed.
Print Assumptions C207.
(** -t 0 1_000_000_000 +18014400509481984 (2000000000 beyond the rollover), freqcd -f 1000000 *)
Definition ws207 : list (list Z) := map codes ["0"; "1_000_000_000"; "+18014400509481984"].
Definition zs207 : list Z := [0; 1000000000; 18014400509481984].
Example C207_case : generating (codes "-t" :: ws207 ++ []) ([] ++ GTimes ws207 :: []) zs207 /\ nondecr (map (fun t => t mod 2 ^ 54) zs207) /\ asks (args_f 1000000) (ss_f 1000000) 1000000 /\ reading [[45]] [] /\
  map (fun i => exact_time 1000000 (map (fun t => t mod 2 ^ 54) zs207) i mod 2 ^ 54) (seq 0 3) = [0; 1000058207; 2000116415] /\
  match grun 64 tmpname (codes "-t" :: ws207 ++ []) none_fs [] with
  | Ends e => shown (grun 64 tmpname [[45]] none_fs (ChainCase.piped 1000000 (CdRunModel.stdout e)))
  | _ => None
  end = Some (0, lines_text (map codes ["0"; "1000058207"; "2000116415"])).
Proof.
  assert (W : Forall2 int_word ws207 zs207) by (repeat (constructor; [apply int_of_word; vm_compute; reflexivity|]); constructor). split.
  { split; [apply (G_times [] [] ws207 [] []); [constructor|discriminate| |constructor]; repeat constructor; cbn; try lia; try discriminate|].
    split; [constructor; [|constructor]; cbn [fine]; clear -W; induction W; constructor; [now exists y|assumption]|]. split; [intros [X|[]]; discriminate X|]. split; [reflexivity|]. split; [unfold zs207; repeat constructor; lia|].
    exists ws207. split; [reflexivity|exact W]. }
  split; [vm_compute; repeat split; discriminate|]. split; [apply asks_f; discriminate|].
  split; [split; [apply input_alone; [right; now left|repeat constructor; discriminate]|]; split; [constructor|]; split; [intros []|]; split; reflexivity|]. split; vm_compute; reflexivity.
Qed.
