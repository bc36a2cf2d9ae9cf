(** SpecStd5Mean.v -- when two messages of MQTT 5 say the same, although they differ in bytes. *)
From Verif Require Import Base SpecWire SpecProps SpecStd5.
From Verif Require V5PubAck V5PubRec V5PubRel V5PubComp V5Disconnect.

(** the order of different properties has no meaning (section 2.2.2.2), that of equal ones has
    (user properties, section 3.1.2.11.8): every identifier occurs with the same values in the same order *)
Definition same_properties (a b : list item) : Prop :=
  forall id, filter (fun it => fst it =? id) a = filter (fun it => fst it =? id) b.
(** a reason code left out is 0, properties left out are none (section 3.4.2.1, 3.14.2.1) *)
Definition same_ending {C} (zero : C) (e e' : ending C) : Prop :=
  code_of zero e = code_of zero e' /\ same_properties (props_in e) (props_in e').
Definition same_will (w w' : option Will) : Prop :=
  match w, w' with
  | None, None => True
  | Some w, Some w' =>
      w_topic w = w_topic w' /\ w_message w = w_message w' /\ w_qos w = w_qos w' /\ w_retain w = w_retain w' /\
      same_properties (w_props w) (w_props w')
  | _, _ => False
  end.
(** an empty user name or password is taken for none (this is the crate's reading, the standard tells them apart) *)
Definition same_text (o o' : option bytes) : Prop := or_empty o = or_empty o'.
Definition same_message (m m' : Message) : Prop :=
  match m, m' with
  | M_CONNECT cl ka ps id w u pw, M_CONNECT cl' ka' ps' id' w' u' pw' =>
      cl = cl' /\ ka = ka' /\ same_properties ps ps' /\ id = id' /\ same_will w w' /\ same_text u u' /\ same_text pw pw'
  | M_CONNACK sp c ps, M_CONNACK sp' c' ps' => sp = sp' /\ c = c' /\ same_properties ps ps'
  | M_PUBLISH0 r t ps pl, M_PUBLISH0 r' t' ps' pl' => r = r' /\ t = t' /\ same_properties ps ps' /\ pl = pl'
  | M_PUBLISH tw d r t id ps pl, M_PUBLISH tw' d' r' t' id' ps' pl' =>
      tw = tw' /\ d = d' /\ r = r' /\ t = t' /\ id = id' /\ same_properties ps ps' /\ pl = pl'
  | M_PUBACK id e, M_PUBACK id' e' => id = id' /\ same_ending V5PubAck.Success e e'
  | M_PUBREC id e, M_PUBREC id' e' => id = id' /\ same_ending V5PubRec.Success e e'
  | M_PUBREL id e, M_PUBREL id' e' => id = id' /\ same_ending V5PubRel.Success e e'
  | M_PUBCOMP id e, M_PUBCOMP id' e' => id = id' /\ same_ending V5PubComp.Success e e'
  | M_SUBSCRIBE id ps fs, M_SUBSCRIBE id' ps' fs' => id = id' /\ same_properties ps ps' /\ fs = fs'
  | M_SUBACK id ps cs, M_SUBACK id' ps' cs' => id = id' /\ same_properties ps ps' /\ cs = cs'
  | M_UNSUBSCRIBE id ps fs, M_UNSUBSCRIBE id' ps' fs' => id = id' /\ same_properties ps ps' /\ fs = fs'
  | M_UNSUBACK id ps cs, M_UNSUBACK id' ps' cs' => id = id' /\ same_properties ps ps' /\ cs = cs'
  | M_PINGREQ, M_PINGREQ | M_PINGRESP, M_PINGRESP => True
  | M_DISCONNECT e, M_DISCONNECT e' => same_ending V5Disconnect.NormalDisconnection e e'
  | _, _ => False                                     (* AUTH does not become a packet *)
  end.

(** the bytes [x] are the message [m], with any legal length field *)
Definition sent_as (m : Message) (x : bytes) : Prop :=
  bytes_ok x /\ starts_with_frame x (header_byte m) (content m) [].
