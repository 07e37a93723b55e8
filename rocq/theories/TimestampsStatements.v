(** Full statements of the timestamp-file properties that the code does not satisfy. *)
From Coq Require Import QArith.
From Verif Require Import Float Base TimestampsModel TimestampsSpec.
Local Open Scope Z_scope.

(** writing with [f] then reading gives back the events, in units of [r] and in raw units *)
Definition round_trips (p : Z) (f : fmt) (r : TSRES) (T : tarr) (evs : list event) : Prop :=
  exists file, write p f T (map snd evs) r = Ok file /\
    (exists T', read p f file r true = Ok (T', map snd evs) /\ same_values (tvalues T') (times_in r evs)) /\
    (exists T', read p f file PS4 false = Ok (T', map snd evs) /\ same_values (tvalues T') (times_in PS4 evs)).
Definition C20_statement : Prop := forall p r T evs, 54 <= p -> Forall event_ok evs ->
  same_values (tvalues T) (times_in r evs) -> round_trips p A2 r T evs.
Definition C21_statement : Prop := forall p r T evs, 54 <= p -> Forall event_ok evs ->
  same_values (tvalues T) (times_in r evs) -> round_trips p A0 r T evs.

(** streaming and in-memory reading of a file of whole events agree *)
Definition streams_like (res : pyres (tarr * list Z)) (str : pyres (stream * Z)) (b : Z) : Prop :=
  exists s T P, res = Ok (T, P) /\ str = Ok (s, len (batches s)) /\ fails s = None /\
    joined (map fst (batches s)) T /\ concat (map snd (batches s)) = P /\ Forall batch_ok (batches s) /\
    (forall bs x, batches s = bs ++ [x] -> Forall (fun y => len (snd y) = b) bs /\ 0 < len (snd x) <= b).
Definition C23_statement : Prop := forall p f r fr b vs, Forall word_ok vs -> 0 < b ->
  streams_like (read p f (encode f vs) r fr) (sread p f (encode f vs) r fr b) b.

(** seconds to units of [r], exactly *)
Definition seconds (r : TSRES) (o : option Q) : option Q := option_map (fun x => x * inject_Z (10 ^ 9 * rvalue r))%Q o.
Definition C27_statement : Prop := forall t s e r, sortedQ (tvalues t) ->
  get_timing_mask t s e r = Ok (map (within (seconds r s) (seconds r e)) (tvalues t)).

Definition C29_statement : Prop := forall p inmemory fin fout f vs, 54 <= p -> Forall word_ok vs -> in_order vs -> filter_ok f ->
  convert p inmemory fin fout f (encode fin vs) = (encode fout (map (converted f) (filter (kept f) vs)), None).

(** rejected: no result, and the stream ends with ValueError *)
Definition C30_statement : Prop := forall p file lg r fr b, 0 < b -> len file mod 8 <> 0 ->
  read_a1 p file lg r fr = Err ValueError /\ exists s n, sread_a1 p file lg r fr b = Ok (s, n) /\ fails s = Some ValueError.
