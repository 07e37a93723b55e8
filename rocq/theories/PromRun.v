(** fpfind from the command line on two recordings whose common events are a prominent peak. *)
From Coq Require Import QArith Qabs Lqa.
From Verif Require Import Float Base TimestampsModel TimestampsSpec UtilsModel FpfindModel FpfindSpec FpfindPipe AccuracySpec PairSpec MainModel MainSpec2 RoundedSpec WholeSpec WholeProofs SwapSpec ExistSpec ExistProofs
  CdRunModel ArgModel FpCliModel FpCliSpec SkipSpec SkipProofs GroundSpec GroundProofs2 GroundRun PromSpec PromProofs2.
Import ListNotations. Local Open Scope Z_scope.

Lemma c146 e fuel2 M p repr o lg evA evB skip k D F j0 j W T args ss fs dirs a b :
  writes args ss -> Forall good ss -> ~ In AHelp ss -> search_asked ss o -> last_of sendfiles_of ss = None \/ last_of t1files_of ss = None ->
  last_of reference_of ss = Some a -> last_of target_of ss = Some b -> decimal_or (last_of skip_of ss) 0 skip -> requested ALegacy ss lg ->
  fs a = Some (encode (A1 lg) (map word_of evA)) -> fs b = Some (encode (A1 lg) (map word_of evB)) ->
  computes e o evA evB M p -> (forall x, field_ok (repr x)) -> plain_search o -> 0 < buffer_order o ->
  recordings evA evB skip k -> let P := told_search o in let res := inject_Z (initial_res o) in let S := common_start evA evB + k in let A := since S evA in let B := since S evB in
  ends_surely M P res -> recorded_well e M P A B res D F j0 j W T -> fair_zs (num_bins P) M -> prominent e M P A B res D F j0 j W T -> steady P res D F j W ->
  exists n line ws dt df, (forall m, (n <= m)%nat -> run m fuel2 M p repr args fs dirs = Exit 0 (line ++ [10])) /\ shows_offsets repr (MainModel.flag o) dt df line /\
    to_the_end P res ws /\ (Qabs (df - F) <= freq_off P F j W ws)%Q /\ (Qabs (dt - D) <= time_off P D F j W ws dt)%Q.
Proof.
  intros WR G NH SO ND RA TB SK LG FA FB CM RP PL BO RC P res S A B ES RW FZ PR SY. apply (c142 e fuel2 M p repr o lg evA evB skip k D F j0 j W T args ss fs dirs a b); try assumption. fold P res S A B.
  pose proof CM as (RT & RS & AC & E0 & PP & _ & _). pose proof PL as (Z0 & FR & Q1 & WR0 & T53 & PC & FS & SP).
  assert (PT : 0 < num_bins P) by (cbn [P told_search num_bins]; apply Z.pow_pos_nonneg; lia).
  assert (TR : (0 < target_resolution P)%Q) by (cbn [P told_search target_resolution]; change 0%Q with (inject_Z 0); rewrite <- Zlt_Qlt; lia).
  assert (R0 : (0 < res)%Q) by (unfold res; change 0%Q with (inject_Z 0); rewrite <- Zlt_Qlt; lia).
  assert (EV : Z.odd (num_bins P) = false). { cbn [P told_search num_bins]. rewrite <- Z.negb_even, Z.even_pow by lia. reflexivity. }
  exact (prominent_significant e M p P A B res D F j0 j W T RT RS (accurate_since _ _ _ _ _ _ AC) E0 PP FZ PT EV TR R0 SP RW PR).
Qed.
