(** PortV4Subscribe.v -- GENERATED by tools/rust2coq.py from src/v4/subscribe.rs; do not edit.
    Not translated:
     src/v4/subscribe.rs:146 conditional item #[cfg(test)]
    No proofs in this file. *)
From Verif Require Import Base Lib SrcBase PortBase.
From Verif Require V4Subscribe.
From Verif Require PortLib.

Section Port.
Context {target : Target}.

(** src/v4/subscribe.rs:15-25 `Subscribe::new` *)
Definition Subscribe_new (path : list N) (qos : Base.QoS) : outcome V4Subscribe.Subscribe :=
  run (
    let filter := (V4Subscribe.mkSubscribeFilter path qos) in
    wret (V4Subscribe.mkSubscribe 0 [filter])) [].

(** src/v4/subscribe.rs:27-37 `Subscribe::new_many` *)
Definition Subscribe_new_many (topics : list V4Subscribe.SubscribeFilter) : outcome V4Subscribe.Subscribe :=
  run (
    let filters := topics in
    match (blen filters) with
    | 0 =>
        werr Base.EmptySubscription
    | _ =>
        wret (V4Subscribe.mkSubscribe 0 filters)
    end) [].

(** src/v4/subscribe.rs:39-44 `Subscribe::add` *)
Definition Subscribe_add (self : V4Subscribe.Subscribe) (path : list N) (qos : Base.QoS) : outcome V4Subscribe.Subscribe :=
  run (
    let filter := (V4Subscribe.mkSubscribeFilter path qos) in
    let self := (V4Subscribe.mkSubscribe (V4Subscribe.pkid self) ((V4Subscribe.filters self) ++ [filter])) in
    wret self) [].

(** src/v4/subscribe.rs:109-112 `SubscribeFilter::len` *)
Definition SubscribeFilter_len (self : V4Subscribe.SubscribeFilter) : outcome N :=
  run (
    t1 <-w lift (usize_add 2 (blen (V4Subscribe.path self))) ;;
    t2 <-w lift (usize_add t1 1) ;;
    wret t2) [].

(** src/v4/subscribe.rs:46-49 `Subscribe::len` *)
Definition Subscribe_len (self : V4Subscribe.Subscribe) : outcome N :=
  run (
    t3 <-w (
      fold_ (fun s t =>
        t1 <-w lift (SubscribeFilter_len t) ;;
        t2 <-w lift (usize_add s t1) ;;
        wret t2) (V4Subscribe.filters self) 0) ;;
    len <-w lift (usize_add 2 t3) ;;
    wret len) [].

(** src/v4/subscribe.rs:51-75 `Subscribe::read` *)
Definition Subscribe_read (fuel : nat) (fixed_header : Lib.FixedHeader) (bytes : list N) : outcome V4Subscribe.Subscribe :=
  run (
    let variable_header_index := (Lib.fixed_header_len fixed_header) in
    keep (advance variable_header_index) ;;w
    pkid <-w PortLib.read_u16 ;;
    let filters : list V4Subscribe.SubscribeFilter := [] in
    filters <-w while_ fuel
      (fun filters =>
        t1 <-w get ;;
        wret (has_remaining t1))
      (fun filters =>
        path <-w PortLib.read_mqtt_string ;;
        options <-w PortLib.read_u8 ;;
        let requested_qos := (N.land options 3) in
        t2 <-w lift (PortLib.qos requested_qos) ;;
        let filters := (filters ++ [(V4Subscribe.mkSubscribeFilter path t2)]) in
        wret filters)
      filters ;;
    match (blen filters) with
    | 0 =>
        werr Base.EmptySubscription
    | _ =>
        wret (V4Subscribe.mkSubscribe pkid filters)
    end) bytes.

(** src/v4/subscribe.rs:114-120 `SubscribeFilter::write` *)
Definition SubscribeFilter_write (self : V4Subscribe.SubscribeFilter) : writer unit :=
  let options := 0 in
  let options := (N.lor options (PortLib.QoS_as_u8 (V4Subscribe.qos self))) in
  PortLib.write_mqtt_string (V4Subscribe.path self) ;;w
  put_u8 options ;;w
  wret tt.

(** src/v4/subscribe.rs:77-94 `Subscribe::write` *)
Definition Subscribe_write (fuel : nat) (self : V4Subscribe.Subscribe) : writer N :=
  put_u8 130 ;;w
  remaining_len <-w lift (Subscribe_len self) ;;
  remaining_len_bytes <-w PortLib.write_remaining_length fuel remaining_len ;;
  put_u16 (V4Subscribe.pkid self) ;;w
  for_ (fun filter (_ : unit) =>
      SubscribeFilter_write filter ;;w
      wret tt)
    (V4Subscribe.filters self) tt ;;w
  t1 <-w lift (usize_add 1 remaining_len_bytes) ;;
  t2 <-w lift (usize_add t1 remaining_len) ;;
  wret t2.

(** src/v4/subscribe.rs:105-107 `SubscribeFilter::new` *)
Definition SubscribeFilter_new (path : list N) (qos : Base.QoS) : outcome V4Subscribe.SubscribeFilter :=
  run (
    wret (V4Subscribe.mkSubscribeFilter path qos)) [].

End Port.
