(** SrcV4SubAck.v -- GENERATED by tools/rust2coq.py from src/v4/suback.rs; do not edit.
    Not translated:
     src/v4/suback.rs:83 conditional item #[cfg(test)]
    No proofs in this file. *)
From Verif Require Import Base Lib SrcBase.
From Verif Require V4SubAck.
From Verif Require SrcLib.

(** src/v4/suback.rs:14-16 `SubAck::new` *)
Definition SubAck_new (pkid : N) (return_codes : list V4SubAck.SubscribeReasonCode) : outcome V4SubAck.SubAck :=
  run (
    wret (V4SubAck.mkSubAck pkid return_codes)) [].

(** src/v4/suback.rs:18-21 `SubAck::len` *)
Definition SubAck_len (self : V4SubAck.SubAck) : outcome N :=
  run (
    len <-w lift (usize_add 2 (blen (V4SubAck.return_codes self))) ;;
    wret len) [].

(** src/v4/suback.rs:70-80 `SubscribeReasonCode::try_from` *)
Definition SubscribeReasonCode_try_from (value : N) : outcome V4SubAck.SubscribeReasonCode :=
  run (
    v <-w (
      match value with
      | 0 =>
          wret (V4SubAck.Success Base.AtMostOnce)
      | 1 =>
          wret (V4SubAck.Success Base.AtLeastOnce)
      | 2 =>
          wret (V4SubAck.Success Base.ExactlyOnce)
      | 128 =>
          wret V4SubAck.Failure
      | v =>
          werr (Base.InvalidSubscribeReasonCode v)
      end) ;;
    wret v) [].

(** src/v4/suback.rs:23-40 `SubAck::read` *)
Definition SubAck_read (fuel : nat) (fixed_header : Lib.FixedHeader) (bytes : list N) : outcome V4SubAck.SubAck :=
  run (
    let variable_header_index := (Lib.fixed_header_len fixed_header) in
    keep (advance variable_header_index) ;;w
    pkid <-w SrcLib.read_u16 ;;
    t1 <-w get ;;
    (
      if (negb (has_remaining t1)) then (
        werr Base.MalformedPacket)
      else (
        wret tt)) ;;w
    let return_codes : list V4SubAck.SubscribeReasonCode := [] in
    return_codes <-w while_ fuel
      (fun return_codes =>
        t2 <-w get ;;
        wret (has_remaining t2))
      (fun return_codes =>
        return_code <-w SrcLib.read_u8 ;;
        t3 <-w lift (SubscribeReasonCode_try_from return_code) ;;
        let return_codes := (return_codes ++ [t3]) in
        wret return_codes)
      return_codes ;;
    let suback := (V4SubAck.mkSubAck pkid return_codes) in
    wret suback) bytes.

(** src/v4/suback.rs:42-58 `SubAck::write` *)
Definition SubAck_write (fuel : nat) (self : V4SubAck.SubAck) : writer N :=
  put_u8 144 ;;w
  remaining_len <-w lift (SubAck_len self) ;;
  remaining_len_bytes <-w SrcLib.write_remaining_length fuel remaining_len ;;
  put_u16 (V4SubAck.pkid self) ;;w
  p <-w (
    map_ (fun code =>
      let t1 :=
        match code with
        | V4SubAck.Success qos =>
            (SrcLib.QoS_as_u8 qos)
        | V4SubAck.Failure =>
            128
        end in
      wret t1) (V4SubAck.return_codes self)) ;;
  extend_from_slice p ;;w
  t2 <-w lift (usize_add 1 remaining_len_bytes) ;;
  t3 <-w lift (usize_add t2 remaining_len) ;;
  wret t3.
