(** SpecStop.v -- where a failed read of a field, of a property or of a property section leaves
    the buffer: SpecErrors.v with the bytes that are left. *)
From Verif Require Import Base SpecWire SpecProps SpecErrors.

(** [stops w s e s']: the bytes [s] do not start with the wanted field, the error is [e] and [s']
    is left *)
Inductive stops : want -> bytes -> Error -> bytes -> Prop :=
(* too few bytes for an integer or a length: nothing is removed *)
| stops_byte : stops WByte [] MalformedPacket []
| stops_two s : blen s < 2 -> stops WTwo s MalformedPacket s
| stops_four s : blen s < 4 -> stops WFour s MalformedPacket s
| stops_size w s : w = WBytes \/ w = WString -> blen s < 2 -> stops w s MalformedPacket s
(* the length runs over the end: only the length is removed *)
| stops_content w n s : w = WBytes \/ w = WString -> u16 n -> blen s < n ->
    stops w (be16 n ++ s) (BoundaryCrossed n) s
(* not UTF-8: the string is removed *)
| stops_utf8 v s : short v -> ~ is_utf8 v -> stops WString (field v ++ s) TopicNotUtf8 s
(* a bad variable-byte integer: nothing is removed *)
| stops_end s : blen s < 4 -> Forall has_cont s -> stops WLen s (InsufficientBytes 1) s
| stops_long a b c d s : Forall has_cont [a; b; c; d] ->
    stops WLen (a :: b :: c :: d :: s) MalformedRemainingLength (a :: b :: c :: d :: s).

(** the same for the value of a property *)
Inductive value_stops : ptype -> bytes -> Error -> bytes -> Prop :=
| vs_byte s e s' : stops WByte s e s' -> value_stops TByte s e s'
| vs_two s e s' : stops WTwo s e s' -> value_stops TTwo s e s'
| vs_four s e s' : stops WFour s e s' -> value_stops TFour s e s'
| vs_var s e s' : stops WLen s e s' -> value_stops TVar s e s'
| vs_str s e s' : stops WString s e s' -> value_stops TStr s e s'
| vs_bin s e s' : stops WBytes s e s' -> value_stops TBin s e s'
| vs_key s e s' : stops WString s e s' -> value_stops TPair s e s'
| vs_value k s e s' : is_utf8 k -> short k -> stops WString s e s' -> value_stops TPair (field k ++ s) e s'.

(** the same for a property section *)
Inductive section_stops (allowed : list N) : bytes -> Error -> bytes -> Prop :=
(* no property length: nothing is removed *)
| st_len s e s' : stops WLen s e s' -> section_stops allowed s e s'
(* the body ends: everything is removed *)
| st_end f plen its bs c : lenfield f plen -> blen f <= 4 ->
    reads allowed plen 0 its bs c -> c < plen ->
    section_stops allowed (f ++ bs) MalformedPacket []
(* a bad identifier: removed with everything before it *)
| st_id f plen its bs c id s : lenfield f plen -> blen f <= 4 ->
    reads allowed plen 0 its bs c -> c < plen -> ~ In id allowed ->
    section_stops allowed (f ++ bs ++ id :: s) (InvalidPropertyType id) s
(* a property without its value: removed up to where the value stops *)
| st_value f plen its bs c id t s e s' : lenfield f plen -> blen f <= 4 ->
    reads allowed plen 0 its bs c -> c < plen -> In id allowed -> ptype_of id = Some t ->
    value_stops t s e s' ->
    section_stops allowed (f ++ bs ++ id :: s) e s'.
