(** SpecForward4.v -- what becomes of an MQTT 3.1.1 message that is read and written again. *)
From Verif Require Import Base SpecWire SpecStd311.

(** an empty user name or password counts as none *)
Definition unless_empty (o : option bytes) : option bytes := match o with Some [] => None | o => o end.
(** the message that arrives behind the relay *)
Definition relayed (m : Message) : Message :=
  match m with
  | M_CONNECT cl ka id w u pw => M_CONNECT cl ka id w (unless_empty u) (unless_empty pw)
  | m => m
  end.
(** a password with an empty user name *)
Definition nameless (m : Message) : Prop :=
  exists cl ka id w u pw, m = M_CONNECT cl ka id w u (Some pw) /\ or_empty u = [] /\ pw <> [].

(** the bytes [x] are the message [m], with any legal length field *)
Definition sent_as (m : Message) (x : bytes) : Prop :=
  bytes_ok x /\ starts_with_frame x (header_byte m) (content m) [].
Definition text_password (m : Message) : Prop :=
  forall cl ka id w u pw, m = M_CONNECT cl ka id w u (Some pw) -> is_string pw.
