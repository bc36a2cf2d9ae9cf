(** SpecPlaces.v -- where the property sections of the MQTT 5 packets are: the bytes of a
    frame's body in front of each section. *)
From Verif Require Import Base SpecWire SpecProps SpecPropSets SpecV5.

(** [leads_to pl b1 pre]: in a frame with first byte [b1], the decoder that has read the
    body bytes [pre] goes on with the property section [pl] *)
Definition leads_to (pl : place) (b1 : N) (pre : bytes) : Prop :=
  match pl with
  | InConnect =>
      b1 / 16 = 1 /\ exists flags ka, u8 flags /\ u16 ka /\
        pre = field MQTT ++ [5; flags] ++ be16 ka
  | InWill =>
      b1 / 16 = 1 /\ exists lv flags ka o sec cid,
        u8 flags /\ bit_at 2 flags = true /\ u16 ka /\ is_string cid /\ short cid /\
        (lv = 5 /\ decodes_props (allowed_at InConnect) connect_record o sec
         \/ lv = 4 /\ sec = []) /\
        pre = field MQTT ++ [lv; flags] ++ be16 ka ++ sec ++ field cid
  | InConnAck =>
      b1 / 16 = 2 /\ exists flags c, u8 flags /\ pre = [flags; connack_code c]
  | InPublish =>
      b1 / 16 = 3 /\ exists q t id,
        b1 / 2 mod 4 = qos_num q /\ is_string t /\ short t /\ 0 < id /\ u16 id /\
        pre = field t ++ (if positive_qos q then be16 id else [])
  | InPubAck => b1 / 16 = 4 /\ exists id c, u16 id /\ pre = be16 id ++ [puback_code c]
  | InPubRec => b1 / 16 = 5 /\ exists id c, u16 id /\ pre = be16 id ++ [pubrec_code c]
  | InPubRel => b1 / 16 = 6 /\ exists id c, u16 id /\ pre = be16 id ++ [pubrel_code c]
  | InPubComp => b1 / 16 = 7 /\ exists id c, u16 id /\ pre = be16 id ++ [pubcomp_code c]
  | InSubscribe => b1 / 16 = 8 /\ exists id, u16 id /\ pre = be16 id
  | InSubAck => b1 / 16 = 9 /\ exists id, u16 id /\ pre = be16 id
  | InUnsubscribe => b1 / 16 = 10 /\ exists id, u16 id /\ pre = be16 id
  | InUnsubAck => b1 / 16 = 11 /\ exists id, u16 id /\ pre = be16 id
  | InDisconnect => b1 = 0xE0 /\ exists c, pre = [disconnect_code c]
  end.
