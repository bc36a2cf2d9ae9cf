(** SpecDebug.v -- vocabulary for C55 and C69-C70: what is assumed of Rust's quoting of strings and
    what two packets that are logged alike have in common.  No proofs in this file. *)
From Coq Require Import String.
From Verif Require Import Base Debug.
From Verif Require V4Publish V4Subscribe V4Mod V5Publish V5Subscribe V5Mod.

(** What `{:?}` of a string writes between the double quotes can be read back up to the
    closing quote: special characters, among them the double quote and the backslash, are written as
    escape sequences.  (Rust strings are UTF-8; on other byte strings `esc` is
    immaterial and may be chosen to fit.) *)
Definition quoting (esc : bytes -> bytes) : Prop :=
  forall s t a b, esc s ++ [34] ++ a = esc t ++ [34] ++ b -> s = t /\ a = b.

(** Plain text -- printable ASCII without quotes and backslash -- is written as it is. *)
Definition plain_char (c : N) : Prop := 32 <= c < 127 /\ c <> 34 /\ c <> 39 /\ c <> 92.
Definition verbatim (esc : bytes -> bytes) : Prop := forall s, Forall plain_char s -> esc s = s.

(** an example of such a quoting: backslash before quote and backslash *)
Definition simple_esc (s : bytes) : bytes := flat_map (fun c => if (c =? 34) || (c =? 92) then [92; c] else [c]) s.

(** text [t] contains text [s] *)
Definition contains (t s : bytes) : Prop := exists before after, t = before ++ s ++ after.

(** no filter of the packet contains a comma *)
Definition free_of_commas (s : bytes) : Prop := ~ In 44 s.

(** two packets about which the log says the same *)
Definition v4_logged_alike (p q : V4Mod.Packet) : Prop :=
  match p, q with
  | V4Mod.Publish a, V4Mod.Publish b =>
      V4Publish.topic a = V4Publish.topic b /\ V4Publish.qos a = V4Publish.qos b /\
      V4Publish.retain a = V4Publish.retain b /\ V4Publish.pkid a = V4Publish.pkid b /\
      blen (V4Publish.payload a) = blen (V4Publish.payload b)
  | _, _ => p = q
  end.
Definition v5_logged_alike (p q : V5Mod.Packet) : Prop :=
  match p, q with
  | V5Mod.Publish a, V5Mod.Publish b =>
      V5Publish.topic a = V5Publish.topic b /\ V5Publish.qos a = V5Publish.qos b /\
      V5Publish.retain a = V5Publish.retain b /\ V5Publish.pkid a = V5Publish.pkid b /\
      blen (V5Publish.payload a) = blen (V5Publish.payload b)
  | V5Mod.Subscribe a, V5Mod.Subscribe b =>
      V5Subscribe.pkid a = V5Subscribe.pkid b /\ V5Subscribe.filters a = V5Subscribe.filters b
  | _, _ => p = q
  end.

(** the filters of a SUBSCRIBE contain no comma *)
Definition v4_no_commas (p : V4Mod.Packet) : Prop :=
  match p with
  | V4Mod.Subscribe s => Forall (fun f => free_of_commas (V4Subscribe.path f)) (V4Subscribe.filters s)
  | _ => True
  end.
Definition v5_no_commas (p : V5Mod.Packet) : Prop :=
  match p with
  | V5Mod.Subscribe s => Forall (fun f => free_of_commas (V5Subscribe.path f)) (V5Subscribe.filters s)
  | _ => True
  end.

(** the kind of a packet *)
Definition v4_kind (p : V4Mod.Packet) : PacketType :=
  match p with
  | V4Mod.Connect _ => PT_Connect | V4Mod.ConnAck _ => PT_ConnAck | V4Mod.Publish _ => PT_Publish
  | V4Mod.PubAck _ => PT_PubAck | V4Mod.PubRec _ => PT_PubRec | V4Mod.PubRel _ => PT_PubRel
  | V4Mod.PubComp _ => PT_PubComp | V4Mod.Subscribe _ => PT_Subscribe | V4Mod.SubAck _ => PT_SubAck
  | V4Mod.Unsubscribe _ => PT_Unsubscribe | V4Mod.UnsubAck _ => PT_UnsubAck
  | V4Mod.PingReq => PT_PingReq | V4Mod.PingResp => PT_PingResp | V4Mod.Disconnect => PT_Disconnect
  end.
Definition v5_kind (p : V5Mod.Packet) : PacketType :=
  match p with
  | V5Mod.Connect _ => PT_Connect | V5Mod.ConnAck _ => PT_ConnAck | V5Mod.Publish _ => PT_Publish
  | V5Mod.PubAck _ => PT_PubAck | V5Mod.PubRec _ => PT_PubRec | V5Mod.PubRel _ => PT_PubRel
  | V5Mod.PubComp _ => PT_PubComp | V5Mod.Subscribe _ => PT_Subscribe | V5Mod.SubAck _ => PT_SubAck
  | V5Mod.Unsubscribe _ => PT_Unsubscribe | V5Mod.UnsubAck _ => PT_UnsubAck
  | V5Mod.PingReq => PT_PingReq | V5Mod.PingResp => PT_PingResp | V5Mod.Disconnect _ => PT_Disconnect
  end.
