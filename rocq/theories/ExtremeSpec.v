(** Full statement of C196. *)
From Verif Require Import Base FreqcdModel FreqcdSpec FreqcdCliSpec FreqcdCliStatements CdRunModel CdRunSpec.
Import ListNotations.
Local Open Scope Z_scope.

(** Whatever number follows -f, freqcd processes or refuses every event file without undefined behaviour. *)
Definition C196_statement : Prop := forall junk ib ob fb prog t n fs X, alloc_ok ib ob fb -> good_number t n -> event_file false X ->
  exists e, freqcd_main true junk ib ob fb [prog; dash_f; t] fs X = Some (Ok e).
