(** Utf8.v -- model of the acceptance test of `String::from_utf8`
    (Rust std, called at src/lib.rs:245): the table in
    core::str::validations::run_utf8_validation.  The code under verification
    only uses whether the bytes are accepted; the accepted `String` has the same
    bytes. *)
From Verif Require Import Base.

(** the byte ranges of the table, src/lib.rs:245 *)
Definition in_range (lo hi b : N) : bool := (lo <=? b) && (b <=? hi).
(** continuation byte 10xxxxxx (src/lib.rs:245). *)
Definition cont (b : N) : bool := in_range 0x80 0xBF b.

(** `String::from_utf8(..).is_ok()`, src/lib.rs:245 *)
Fixpoint utf8_ok (l : bytes) : bool :=
  match l with
  | [] => true
  | b0 :: l1 =>
      if b0 <? 0x80 then utf8_ok l1
      else if in_range 0xC2 0xDF b0 then
        match l1 with
        | b1 :: l2 => cont b1 && utf8_ok l2
        | _ => false
        end
      else if in_range 0xE0 0xEF b0 then
        match l1 with
        | b1 :: b2 :: l3 =>
            (if b0 =? 0xE0 then in_range 0xA0 0xBF b1
             else if b0 =? 0xED then in_range 0x80 0x9F b1
             else cont b1)
            && cont b2 && utf8_ok l3
        | _ => false
        end
      else if in_range 0xF0 0xF4 b0 then
        match l1 with
        | b1 :: b2 :: b3 :: l4 =>
            (if b0 =? 0xF0 then in_range 0x90 0xBF b1
             else if b0 =? 0xF4 then in_range 0x80 0x8F b1
             else cont b1)
            && cont b2 && cont b3 && utf8_ok l4
        | _ => false
        end
      else false
  end.
