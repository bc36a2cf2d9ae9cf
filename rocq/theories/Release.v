(** Release.v -- integer arithmetic when overflow checks are switched off (the
    default of `cargo build --release`): an addition or subtraction whose result
    does not fit returns some other number instead of panicking.  What it
    returns is a parameter; [release] is the one of Rust.
    The Rel*.v files import this file last and repeat the text of the model.
    No proofs in this file. *)
From Verif Require Import Base.

(** what `a + b` and `a - b` return when the exact result is not a `usize`
    (e.g. src/lib.rs:140, 165) *)
Class Build := {
  overflowed : N -> N -> N;
  underflowed : N -> N -> N
}.
(** Rust without overflow checks: results modulo 2^64 (e.g. src/lib.rs:140, 165) *)
Definition release : Build := {|
  overflowed a b := (a + b) mod (usize_max + 1);
  underflowed a b := (a + (usize_max + 1) - b) mod (usize_max + 1)
|}.

(** `a + b` on `usize` (e.g. src/lib.rs:140, src/v5/puback.rs:146) *)
Definition wadd {build : Build} (a b : N) : N :=
  if a + b <=? usize_max then a + b else overflowed a b.
(** `a - b` on `usize` (e.g. src/lib.rs:165, src/v4/unsubscribe.rs:26) *)
Definition wsub {build : Build} (a b : N) : N :=
  if b <=? a then a - b else underflowed a b.

(** the operations the model checks (Base.v), e.g. src/lib.rs:140 *)
Definition usize_add {build : Build} (a b : N) : outcome N := Ok (wadd a b).
(** e.g. src/lib.rs:165, 176; src/v4/unsubscribe.rs:26 *)
Definition usize_sub {build : Build} (a b : N) : outcome N := Ok (wsub a b).

(** every other `+` of the model (e.g. src/v5/puback.rs:44-48) *)
Notation "a + b" := (wadd a b) : N_scope.
