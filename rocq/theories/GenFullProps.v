(** Generator, freqcd and parse_timestamps one after another: C209. *)
From Coq Require Import QArith String List Lia.
From Verif Require Import Float Base FreqcdModel FreqcdSpec FreqcdCliSpec FreqcdExamples FpfindModel FpfindProofs3 FpfindPipe MiscModel CdRunModel CdRunSpec FreqcdCliRefute CdRunRefute TimestampsModel TimestampsSpec ChainCase FpCliSpec CliSpec TsCliModel TsCliSpec TsCliCase
  GenCliModel GenCliSpec GenCliCase ChainSpec CdExactSpec GenRefuseSpec AnyTimeSpec GenBackSpec GenBackProofs GenOldSpec GenFullProofs.
Import ListNotations. Local Open Scope string_scope. Local Open Scope list_scope. Local Open Scope Z_scope.

(** C209 *)
Theorem C209 : forall lg p path tmp1 args1 ss1 fs1 in1 zs junk ib ob fb prog args2 ss2 f fs2 a args3 ss3 b fout memory, 54 <= p -> generating args1 ss1 zs -> let ts := map (fun t => t mod 2 ^ 54) zs in nondecr ts ->
  alloc_ok ib ob fb -> asks args2 ss2 f -> static false ss2 -> FreqcdCliSpec.last_of FreqcdCliSpec.in_of ss2 = None -> FreqcdCliSpec.last_of FreqcdCliSpec.out_of ss2 = Some a -> a <> [] ->
  plainly args3 ss3 a b (A1 false) fout memory ->
  exists e1 e2, grun p tmp1 args1 fs1 in1 = Ends e1 /\ code e1 = 0 /\ freqcd_main true junk ib ob fb (prog :: args2) fs2 (CdRunModel.stdout e1) = Some (Ok e2) /\ code e2 = 0 /\
    wrote (trun lg p path args3 (files e2)) 0 (files e2) b (encode fout (map (fun i => word_of (exact_time f ts i mod 2 ^ 54, 1)) (seq 0 (length ts)))).
Proof. exact c209. Qed.
Print Assumptions C209.
(** -x -t 1 1_000 | freqcd -oa -f 1000000, then parse_timestamps -A1 -a2 a b *)
Definition ss209 : list setting := [OutName (str "a"); Corr (dec 1000000)].
Definition args209 : list (list Z) := [str "-oa"; str "-f"; dec 1000000].
Example C209_case : generating [codes "-x"; codes "-t"; codes "1"; codes "1_000"] [GLegacy; GTimes [codes "1"; codes "1_000"]] [1; 1000] /\ asks args209 ss209 1000000 /\ static false ss209 /\
  plainly (map str ["-A1"; "-a2"; "a"; "b"]) [WFrom (str "1"); WTo (str "2")] (str "a") (str "b") (A1 false) A2 false /\ exact_time 1000000 [1; 1000000001] 1 = 1000058208.
Proof.
  split; [exact generating205|]. split; [|split; [split; [reflexivity|]; split; [reflexivity|left; reflexivity]|split; [|vm_compute; reflexivity]]].
  - assert (G : good_number (dec 1000000) 1000000) by (split; [apply decimal_denotes, dec_spec|lia]). split; [|split; [|split]].
    + apply (FreqcdCliSpec.W_attached [] (OutName (str "a")) (str "a") (skipn 1 args209) (skipn 1 ss209)); [constructor|reflexivity|discriminate|]. apply (FreqcdCliSpec.W_detached [] (Corr (dec 1000000)) (dec 1000000) [] []); [constructor|reflexivity|]. constructor. exact I.
    + apply Forall_cons; [exact FreqcdCliRefute.good_a|]. constructor; [|constructor]. exists 1000000. exact G.
    + intros [E|[E|[]]]; discriminate E.
    + exists 1000000. split; [exact G|]. reflexivity.
  - destruct converting_there as (A & B & C & D & E & F & G & H & _ & K & _). split; [exact A|]. split; [exact B|]. split; [exact C|]. split; [exact D|]. split; [exact E|]. split; [exact F|]. split; [exact G|].
    split; [repeat split|]. split; [eexists; exact H|]. split; [exact K|right; discriminate].
Qed.
