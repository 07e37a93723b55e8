(** Events written by generate_freqcd_testcase and converted by parse_timestamps: C204. *)
From Coq Require Import QArith String List Lia.
From Verif Require Import Float Base FreqcdExamples TimestampsModel TimestampsSpec TimestampsExamples ReportModel CdRunModel ArgModel FpCliSpec CliSpec TsCliModel TsCliSpec TsCliCase
  GenCliModel GenCliSpec GenCliCase GenRefuseSpec GenRefuseProofs AnyTimeSpec AnyTimeProofs GenTsProofs.
Import ListNotations. Local Open Scope string_scope. Local Open Scope list_scope. Local Open Scope Z_scope.

(** C204 *)
Theorem C204 : forall lg p path tmp args1 ss1 fs in1 ws zs a args2 ss2 b fout f memory, 54 <= p ->
  gcommand args1 ss1 -> Forall fine ss1 -> ~ In GHelp ss1 -> last_given gtimes_of ss1 = Some ws -> Forall2 int_word ws zs -> Forall (fun t => 0 <= t) zs -> out_chosen ss1 = Some a ->
  command args2 ss2 a (Some b) -> Forall tgood ss2 -> ~ In WHelp ss2 -> ~ In WPrint ss2 -> wanted WMemory ss2 memory -> input_format ss2 (A1 false) -> output_format ss2 fout -> filterless ss2 -> filter_asked ss2 f ->
  b <> [] -> memory = true \/ b <> a ->
  exists e, grun p tmp args1 fs in1 = Ends e /\ code e = 0 /\ stdout e = [] /\ (forall m, m <> a -> files e m = fs m) /\
    wrote (trun lg p path args2 (files e)) 0 (files e) b (encode fout (map word_of (map (fun t => (t mod 2 ^ 54, 1)) zs))).
Proof. exact c204. Qed.
Print Assumptions C204.
(** generate_freqcd_testcase -o a -t 1_0 +7 ' 3', then parse_timestamps -A1 -a2 a b *)
Definition ws204 : list (list Z) := map codes ["1_0"; "+7"; " 3"].
Definition args204 : list (list Z) := [codes "-o"; codes "a"] ++ codes "-t" :: ws204 ++ [].
Definition ss204 : list gask := [GOut (codes "a")] ++ [] ++ GTimes ws204 :: [].
Example C204_case : gcommand args204 ss204 /\ Forall fine ss204 /\ ~ In GHelp ss204 /\ last_given gtimes_of ss204 = Some ws204 /\ Forall2 int_word ws204 [10; 7; 3] /\ out_chosen ss204 = Some (str "a") /\
  (exists fs', converting (map str ["-A1"; "-a2"; "a"; "b"]) [WFrom (str "1"); WTo (str "2")] (str "a") (str "b") fs' (A1 false) A2 plain_filter false (map word_of evs122)) /\
  filterless [WFrom (str "1"); WTo (str "2")] /\
  exists e, grun 64 tmpname args204 none_fs [] = Ends e /\
    match trun (fun n => len (FpfindModel.dec n) - 1) 64 (fun n => n) (map str ["-A1"; "-a2"; "a"; "b"]) (files e) with
    | Ends e2 => files e2 (str "b") = Some (encode A2 (map word_of [(10, 1); (7, 1); (3, 1)]))
    | _ => False
    end.
Proof.
  assert (W : Forall2 int_word ws204 [10; 7; 3]) by (repeat (constructor; [apply int_of_word; vm_compute; reflexivity|]); constructor).
  split. { apply G_more; [apply (P_detached _ _ _ _ [] [] (GOut (codes "a")) 111 (codes "a") [] []); [constructor|reflexivity|reflexivity|left; discriminate|repeat constructor; cbn; try lia; try discriminate|constructor]|].
    apply (G_times [] [] ws204 [] []); [constructor|discriminate| |constructor]; repeat constructor; cbn; try lia; try discriminate. }
  split. { constructor; [exact I|]. constructor; [|constructor]. cbn [fine]. clear -W. induction W; constructor; [now exists y|assumption]. }
  split; [intros [X|[X|[]]]; discriminate X|]. split; [reflexivity|]. split; [exact W|]. split; [reflexivity|]. split; [exists fs122; exact converting_there|]. split; [repeat split|].
  eexists. split; [vm_compute; reflexivity|]. vm_compute. reflexivity.
Qed.
