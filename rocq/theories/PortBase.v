(** PortBase.v -- integer arithmetic of an arbitrary compilation target: the width of `usize`, and what
    an operation whose exact result does not fit does (panic, wrap around, or anything else), are
    parameters.  The generated files Port*.v are the text of Src*.v with this file imported last.
    No proofs in this file. *)
From Verif Require Import Base SrcBase.

(** a target: the width of `usize` in bits, and the result of an addition, of a subtraction and of a shift that
    overflows (e.g. src/lib.rs:117, 140, 165, 203) *)
Class Target := {
  bits : N;
  on_add : N -> N -> outcome N;
  on_sub : N -> N -> outcome N;
  on_shl : N -> N -> N -> outcome N;
  on_shr : N -> N -> N -> outcome N
}.

(** at least 32 bits (the standard targets of Rust with `std`) *)
Class Wide {target : Target} : Prop := wide : 32 <= bits.

(** `a + b` on `usize` (e.g. src/lib.rs:140) *)
Definition usize_add {target : Target} (a b : N) : outcome N := if a + b <? 2 ^ bits then Ok (a + b) else on_add a b.
(** `a - b` on `usize` (e.g. src/lib.rs:165, src/v4/unsubscribe.rs:26) *)
Definition usize_sub {target : Target} (a b : N) : outcome N := if b <=? a then Ok (a - b) else on_sub a b.
(** `i32` addition (src/lib.rs:212) *)
Definition i32_add {target : Target} (a b : N) : outcome N := if a + b <? 2 ^ 31 then Ok (a + b) else on_add a b.
(** `<<`, `>>` (e.g. src/lib.rs:117, 203) *)
Definition u8_shl {target : Target} (a n : N) : outcome N := if n <? 8 then Ok (N.shiftl a n mod 2 ^ 8) else on_shl 8 a n.
(** e.g. src/lib.rs:117 *)
Definition u8_shr {target : Target} (a n : N) : outcome N := if n <? 8 then Ok (N.shiftr a n) else on_shr 8 a n.
(** src/lib.rs:203 *)
Definition usize_shl {target : Target} (a n : N) : outcome N := if n <? bits then Ok (N.shiftl a n mod 2 ^ bits) else on_shl bits a n.

(** `cargo build` for a target of that width: overflow panics (e.g. src/lib.rs:140) *)
Definition checked (width : N) : Target :=
  {| bits := width; on_add _ _ := Panic; on_sub _ _ := Panic; on_shl _ _ _ := Panic; on_shr _ _ _ := Panic |}.
(** `cargo build --release`: `usize` wraps around, shift amounts are masked
    (e.g. src/lib.rs:140, 165, 203) *)
Definition unchecked (width : N) : Target :=
  {| bits := width;
     on_add a b := Ok ((a + b) mod 2 ^ width); on_sub a b := Ok (a + 2 ^ width - b);
     on_shl w a n := Ok (N.shiftl a (n mod w) mod 2 ^ w); on_shr w a n := Ok (N.shiftr a (n mod w)) |}.
