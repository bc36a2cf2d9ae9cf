(** RelLib.v -- generated by tools/gen_release.py from Lib.v: its definitions that use
    machine integers, without overflow checks (Release.v).  No proofs in this file. *)
From Verif Require Import Base Utf8 Lib Release.

Section WithBuild.
Context {build : Build}.

(** src/lib.rs:108-114 `FixedHeader::new`. *)
Definition new_fixed_header (byte1 remaining_len_len remaining_len : N) : outcome FixedHeader :=
  fixed_header_len <-? usize_add remaining_len_len 1 ;;
  Ok (mkFixedHeader byte1 fixed_header_len remaining_len).

(** src/lib.rs:139-141 `FixedHeader::frame_length`. *)
Definition frame_length (h : FixedHeader) : outcome N :=
  usize_add (fixed_header_len h) (remaining_len h).

(** src/lib.rs:188-225 `length`: the `for byte in stream` loop; the arguments are
    the local variables of the Rust function.  Returns (len_len, len).
    (`len` stays below 2^28 because `shift` is at most 21, so its addition is
    not range-checked.) *)
Fixpoint length_loop (stream : bytes) (len len_len shift : N) : outcome (N * N) :=
  match stream with
  | [] => Err (InsufficientBytes 1)            (* lines 220-222: loop ended, !done *)
  | byte :: rest =>
      let len_len := len_len + 1 in
      let len := len + N.shiftl (N.land byte 0x7F) shift in
      if N.land byte 0x80 =? 0 then Ok (len_len, len)
      else
        let shift := shift + 7 in
        if 21 <? shift then Err MalformedRemainingLength
        else length_loop rest len len_len shift
  end.

(** src/lib.rs:188-225: the call with the initial values of lines 189-192 *)
Definition length (stream : bytes) : outcome (N * N) := length_loop stream 0 0 0.

(** src/lib.rs:172-183 `parse_fixed_header`. *)
Definition parse_fixed_header (stream : bytes) : outcome FixedHeader :=
  let stream_len := blen stream in
  if stream_len <? 2 then
    d <-? usize_sub 2 stream_len ;; Err (InsufficientBytes d)
  else
    match stream with
    | [] => Panic                               (* stream.next().unwrap() *)
    | byte1 :: rest =>
        ll <-? length rest ;;
        new_fixed_header byte1 (fst ll) (snd ll)
    end.

(** src/lib.rs:149-169 `check`. *)
Definition check (stream : bytes) (max_packet_size : N) : outcome FixedHeader :=
  let stream_len := blen stream in
  fixed_header <-? parse_fixed_header stream ;;
  if max_packet_size <? remaining_len fixed_header then
    Err (PayloadSizeLimitExceeded (remaining_len fixed_header))
  else
    frame_length <-? frame_length fixed_header ;;
    if stream_len <? frame_length then
      d <-? usize_sub frame_length stream_len ;; Err (InsufficientBytes d)
    else Ok fixed_header.

(** src/lib.rs:272-282: the `while !done` loop of `write_remaining_length`;
    returns `count`. *)
Fixpoint write_len_loop (fuel : nat) (x count : N) : writer N :=
  match fuel with
  | O => fun b => (Diverge, b)
  | S fuel =>
      let byte := x mod 128 in
      let x := x / 128 in
      let byte := if 0 <? x then N.lor byte 128 else byte in
      put_u8 byte ;;w
      let count := count + 1 in
      if x =? 0 then wret count else write_len_loop fuel x count
  end.

(** src/lib.rs:263-285 `write_remaining_length`.  The fuel is the bit size of
    the length plus one, more than enough iterations of a division by 128. *)
Definition write_remaining_length (len : N) : writer N :=
  if 268435455 <? len then werr PayloadTooLong
  else write_len_loop (S (N.size_nat len)) len 0.

End WithBuild.
