(** SpecCross.v -- a CONNECT of the v4 module as a value of the v5 module. *)
From Verif Require Import Base SpecWire SpecV5.
From Verif Require V4Connect V4Mod SpecV4.

Definition lift_will (w : V4Connect.LastWill) : V5Connect.LastWill :=
  V5Connect.mkLastWill (V4Connect.lw_topic w) (V4Connect.lw_message w) (V4Connect.lw_qos w)
    (V4Connect.lw_retain w) None.
Definition lift_login (l : V4Connect.Login) : V5Connect.Login :=
  V5Connect.mkLogin (V4Connect.username l) (V4Connect.password l).
(** the same field values, no properties *)
Definition lift_connect (c : V4Connect.Connect) : V5Connect.Connect :=
  V5Connect.mkConnect (V4Connect.protocol c) (V4Connect.keep_alive c) (V4Connect.client_id c)
    (V4Connect.clean_session c) (option_map lift_will (V4Connect.last_will c))
    (option_map lift_login (V4Connect.login c)) None.
