(** WrapBase.v -- integer arithmetic when overflow checks are switched off (the default of
    `cargo build --release`).  The generated files Wrap*.v are the text of Src*.v with this file
    imported last, so that `+`, `-`, `<<`, `>>` never panic.  No proofs in this file. *)
From Verif Require Import Base SrcBase.

(** `a + b` on `usize`: modulo 2^64 (e.g. src/lib.rs:140) *)
Definition usize_add (a b : N) : outcome N := Ok ((a + b) mod 2 ^ 64).
(** `a - b` on `usize`: modulo 2^64, both numbers being below 2^64 (e.g. src/lib.rs:165,
    src/v4/unsubscribe.rs:26) *)
Definition usize_sub (a b : N) : outcome N := if b <=? a then Ok (a - b) else Ok (a + 2 ^ 64 - b).
(** `i32` addition; the bit pattern (src/lib.rs:212) *)
Definition i32_add (a b : N) : outcome N := Ok ((a + b) mod 2 ^ 32).
(** `<<`, `>>`: the amount is taken modulo the width (e.g. src/lib.rs:117, 203) *)
Definition u8_shl (a n : N) : outcome N := Ok (N.shiftl a (n mod 8) mod 2 ^ 8).
(** e.g. src/lib.rs:117 *)
Definition u8_shr (a n : N) : outcome N := Ok (N.shiftr a (n mod 8)).
(** src/lib.rs:203 *)
Definition usize_shl (a n : N) : outcome N := Ok (N.shiftl a (n mod 64) mod 2 ^ 64).
