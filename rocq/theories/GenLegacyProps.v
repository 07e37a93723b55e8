(** Generated events converted to the legacy order, corrected by freqcd and printed: C210. *)
From Coq Require Import QArith String List Lia.
From Verif Require Import Float Base FreqcdModel FreqcdSpec FreqcdCliSpec FreqcdExamples FpfindModel FpfindProofs3 FpfindPipe MiscModel CdRunModel CdRunSpec FreqcdCliRefute TimestampsModel TimestampsSpec TimestampsExamples ChainCase FpCliSpec CliSpec FpCliCase TsCliModel TsCliSpec TsCliCase
  GenCliModel GenCliSpec GenCliCase ChainSpec CdExactSpec GenRefuseSpec AnyTimeSpec GenBackSpec GenBackProofs GenOldSpec GenOldProofs GenLegacyProofs.
Import ListNotations. Local Open Scope string_scope. Local Open Scope list_scope. Local Open Scope Z_scope.

(** C210 *)
Theorem C210 : forall lg p path tmp1 args1 ss1 fs1 in1 zs a args2 ss2 b old memory junk ib ob fb prog args3 ss3 f in3 tmp4 args4 ss4 fs4, 54 <= p -> generating_to args1 ss1 zs a -> let ts := map (fun t => t mod 2 ^ 54) zs in nondecr ts ->
  plainly args2 ss2 a b (A1 false) (A1 old) memory ->
  alloc_ok ib ob fb -> asks args3 ss3 f -> static old ss3 -> FreqcdCliSpec.last_of FreqcdCliSpec.in_of ss3 = Some b -> FreqcdCliSpec.last_of FreqcdCliSpec.out_of ss3 = None ->
  reading args4 ss4 -> gasked GLegacy ss4 old -> fs4 tmp4 = None ->
  exists e1 e2 e3 out, grun p tmp1 args1 fs1 in1 = Ends e1 /\ code e1 = 0 /\ trun lg p path args2 (files e1) = Ends e2 /\ code e2 = 0 /\
    freqcd_main true junk ib ob fb (prog :: args3) (files e2) in3 = Some (Ok e3) /\ code e3 = 0 /\
    said (grun p tmp4 args4 fs4 (CdRunModel.stdout e3)) 0 fs4 out /\ numbers (map (fun i => exact_time f ts i mod 2 ^ 54) (seq 0 (length ts))) out.
Proof. exact c210. Qed.
Print Assumptions C210.
(** generate_freqcd_testcase -x -o a -t 1 1_000; parse_timestamps -xA1 a b; freqcd -xib -f 1000000 | generate_freqcd_testcase -x - *)
Definition ss210 : list setting := [Legacy; InName (str "b"); Corr (dec 1000000)].
Definition args210 : list (list Z) := [str "-xib"; str "-f"; dec 1000000].
Example C210_case : generating_to args206 ss206 [1; 1000] (str "a") /\ plainly (map str ["-xA1"; "a"; "b"]) [WLegacyOut; WFrom (str "1")] (str "a") (str "b") (A1 false) (A1 true) false /\
  asks args210 ss210 1000000 /\ static true ss210 /\ reading [codes "-x"; codes "-"] [GLegacy] /\ gasked GLegacy [GLegacy] true /\
  match grun 64 tmpname args206 none_fs [] with
  | Ends e => match trun (fun _ => 0) 64 (fun n => n) (map str ["-xA1"; "a"; "b"]) (files e) with
              | Ends e2 => match freqcd_main true None IB IB FB (str "freqcd" :: args210) (files e2) [] with
                           | Some (Ok e3) => shown (grun 64 tmpname [codes "-x"; codes "-"] none_fs (CdRunModel.stdout e3))
                           | _ => None
                           end
              | _ => None
              end
  | _ => None
  end = Some (0, lines_text (map codes ["1"; "1000"])).
Proof.
  split; [exact generating206|]. split; [|split; [|split; [split; [reflexivity|]; split; [reflexivity|right; discriminate]|split; [exact reading205|split; [split; [intros _; now left|reflexivity]|vm_compute; reflexivity]]]]].
  - split. { exists [str "-xA1"], [WLegacyOut; WFrom (str "1")], [], [].
      split; [apply (P_attached _ _ _ _ [WLegacyOut] [120] (WFrom [49]) 65 [49] [] []); [repeat constructor|reflexivity|reflexivity|split; [discriminate|intros [X|[]]; discriminate]|ascii|]; constructor|]. split; [constructor|]. split; [reflexivity|]. split; [now apply name_simple|].
      split; [intros o X; injection X as <-; now apply name_simple|reflexivity]. }
    split; [goods|]. split; [nowhere|]. split; [nowhere|]. split; [decide_wanted|].
    split; [exists (str "1"), false; split; [reflexivity|]; split; [decide_wanted|right; left; now split]|].
    split; [exists (str "1"), true; split; [reflexivity|]; split; [decide_wanted|right; left; now split]|]. split; [repeat split|].
    split; [exists plain_filter; split; [exact I|]; split; [decide_wanted|]; split; [decide_wanted|]; split; exact I|]. split; [discriminate|right; discriminate].
  - assert (G : good_number (dec 1000000) 1000000) by (split; [apply decimal_denotes, dec_spec|lia]). split; [|split; [|split]].
    + apply (FreqcdCliSpec.W_attached [Legacy] (InName (str "b")) (str "b") (skipn 1 args210) (skipn 2 ss210)); [repeat constructor|reflexivity|discriminate|]. apply (FreqcdCliSpec.W_detached [] (Corr (dec 1000000)) (dec 1000000) [] []); [constructor|reflexivity|]. constructor. exact I.
    + constructor; [exact I|]. apply Forall_cons; [exact FreqcdCliRefute.good_b|]. constructor; [|constructor]. exists 1000000. exact G.
    + intros [E|[E|[E|[]]]]; discriminate E.
    + exists 1000000. split; [exact G|]. reflexivity.
Qed.
