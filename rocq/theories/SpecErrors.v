(** SpecErrors.v -- what goes wrong when a field of a packet cannot be read: the field a
    decoder wants next and the error determined by the bytes that are left. *)
From Verif Require Import Base SpecWire SpecProps.

(** a one-, two- or four-byte integer, binary data, a UTF-8 string, a variable-byte
    integer *)
Inductive want := WByte | WTwo | WFour | WBytes | WString | WLen.

(** [lacks w s e]: the bytes [s], all that is left of the body, do not start with the
    wanted field, and the error for that is [e] *)
Inductive lacks : want -> bytes -> Error -> Prop :=
| lacks_byte : lacks WByte [] MalformedPacket
| lacks_two s : blen s < 2 -> lacks WTwo s MalformedPacket
| lacks_four s : blen s < 4 -> lacks WFour s MalformedPacket
(* no room for the two-byte length *)
| lacks_size w s : w = WBytes \/ w = WString -> blen s < 2 -> lacks w s MalformedPacket
(* the length [n] runs over the end *)
| lacks_content w n s : w = WBytes \/ w = WString -> u16 n -> blen s < n ->
    lacks w (be16 n ++ s) (BoundaryCrossed n)
(* not UTF-8 *)
| lacks_utf8 v s : short v -> ~ is_utf8 v -> lacks WString (field v ++ s) TopicNotUtf8
(* the integer is not finished at the end of the body *)
| lacks_end s : blen s < 4 -> Forall has_cont s -> lacks WLen s (InsufficientBytes 1)
(* the integer is longer than four bytes *)
| lacks_long a b c d s : Forall has_cont [a; b; c; d] ->
    lacks WLen (a :: b :: c :: d :: s) MalformedRemainingLength.

(** ** MQTT 5 property sections *)

(** [value_lacks t s e]: the bytes [s] do not start with a value of type [t] *)
Inductive value_lacks : ptype -> bytes -> Error -> Prop :=
| vl_byte s e : lacks WByte s e -> value_lacks TByte s e
| vl_two s e : lacks WTwo s e -> value_lacks TTwo s e
| vl_four s e : lacks WFour s e -> value_lacks TFour s e
| vl_var s e : lacks WLen s e -> value_lacks TVar s e
| vl_str s e : lacks WString s e -> value_lacks TStr s e
| vl_bin s e : lacks WBytes s e -> value_lacks TBin s e
| vl_key s e : lacks WString s e -> value_lacks TPair s e
| vl_value k s e : is_utf8 k -> short k -> lacks WString s e -> value_lacks TPair (field k ++ s) e.

(** [section_fails allowed s e]: the bytes [s] do not start with a property section *)
Inductive section_fails (allowed : list N) : bytes -> Error -> Prop :=
(* no property length *)
| sf_len s e : lacks WLen s e -> section_fails allowed s e
(* behind any number of properties, within the declared length [plen]: the body ends, *)
| sf_end f plen its bs c : lenfield f plen -> blen f <= 4 ->
    reads allowed plen 0 its bs c -> c < plen ->
    section_fails allowed (f ++ bs) MalformedPacket
(* or an identifier that does not belong there, *)
| sf_id f plen its bs c id s : lenfield f plen -> blen f <= 4 ->
    reads allowed plen 0 its bs c -> c < plen -> ~ In id allowed ->
    section_fails allowed (f ++ bs ++ id :: s) (InvalidPropertyType id)
(* or a property without its value *)
| sf_value f plen its bs c id t s e : lenfield f plen -> blen f <= 4 ->
    reads allowed plen 0 its bs c -> c < plen -> In id allowed -> ptype_of id = Some t ->
    value_lacks t s e ->
    section_fails allowed (f ++ bs ++ id :: s) e.
