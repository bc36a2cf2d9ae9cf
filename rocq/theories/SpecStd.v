(** SpecStd.v -- what both versions of the MQTT standard say about the values in a
    message. *)
From Verif Require Import Base SpecWire SpecTopic.

(** ** Values *)
(** section 1.5.3: well-formed UTF-8, at most 65535 bytes, without U+0000 *)
Definition text (s : bytes) : Prop := is_string s /\ short s /\ ~ In 0 s.
(** section 4.7: a topic name has at least one character and no wildcard *)
Definition topic_name (s : bytes) : Prop := text s /\ s <> [] /\ ~ In PLUS s /\ ~ In HASH s.
(** section 4.7: a topic filter has at least one character, '#' and '+' occupy levels *)
Definition topic_filter (s : bytes) : Prop :=
  text s /\ s <> [] /\ hash_only_last s /\ plus_whole_level s.
(** binary data with a two-byte length *)
Definition binary (s : bytes) : Prop := bytes_ok s /\ short s.
(** section 2.3.1: packet identifiers are not zero *)
Definition identifier (n : N) : Prop := 0 < n /\ u16 n.

(** an optional field is there *)
Definition present {A} (o : option A) : bool := match o with Some _ => true | None => false end.
(** absent and empty *)
Definition or_empty (o : option bytes) : bytes := match o with Some s => s | None => [] end.
(** byte number i of the body *)
Definition byte_at (i : nat) (bd : bytes) : N := nth i bd 0.
