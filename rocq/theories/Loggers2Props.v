(** Property theorem about loggers below those obtained by get_logger. *)
From Coq Require Import String.
From Verif Require Import Base FreqcdExamples TimestampsModel MiscModel ReportModel LoggersModel LoggersSpec LoggersProofs Loggers2Spec Loggers2Proofs.
Import ListNotations.
Local Open Scope Z_scope.

(** C179 *)
Theorem C179 : forall isspace cs n a r, proper n -> ~ asked n cs -> over a n -> asked a cs -> (forall b, over b n -> over a b -> ~ asked b cs) ->
  emit isspace (calls fresh cs) n r = emit isspace (calls fresh cs) a r.
Proof. exact c179. Qed.
Print Assumptions C179.
Theorem C179_none : forall isspace cs n r, proper n -> ~ asked n cs -> (forall b, over b n -> ~ asked b cs) ->
  emit isspace (calls fresh cs) n r = if 30 <=? r_level r then [(Stderr, body r)] else [].
Proof. exact c179_none. Qed.
Print Assumptions C179_none.
Example C179_case : let cs := [(str "a", Label (str "info"), true); (str "a.b", Label (str "error"), false)] in
  over (str "a") (str "a.c.d") /\ over (str "a.c") (str "a.c.d") /\ over (str "a.b") (str "a.b.x") /\ ~ over (str "a.b") (str "a.bc") /\
  emit tabs (calls fresh cs) (str "a.c.d") warn156 = [(Stderr, str "20240123_075924| aabbccdd is not a Type2 header file")] /\
  emit tabs (calls fresh cs) (str "a.b.x") warn156 = [] /\
  emit tabs (calls fresh cs) (str "b") warn156 = [(Stderr, str "aabbccdd is not a Type2 header file")].
Proof.
  cbv zeta. split; [right; exists (str "c.d"); reflexivity|]. split; [right; exists (str "d"); reflexivity|]. split; [right; exists (str "x"); reflexivity|].
  split; [intros [[X _]|(r & X)]; vm_compute in X; discriminate X|]. split; [|split]; vm_compute; reflexivity.
Qed.
