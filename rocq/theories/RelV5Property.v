(** RelV5Property.v -- generated by tools/gen_release.py from V5Property.v: its definitions that use
    machine integers, without overflow checks (Release.v).  No proofs in this file. *)
From Verif Require Import Base Utf8 Lib V5Property Release RelLib.

Section WithBuild.
Context {build : Build}.

(** `length(bytes.iter())?`: looks at the buffer without consuming
    (e.g. src/v5/connack.rs:235). *)
Definition peek_length : reader (N * N) := fun s => rlift (length s) s.

(** The `while cursor < properties_len` loop, copied in every v5 file (e.g.
    src/v5/puback.rs:142-162):
      let prop = read_u8(bytes)?; cursor += 1;
      match property(prop)? { ... cursor += d; }
    [step] is the `match`; it returns the new local variables and [d]. *)
Fixpoint props_loop_fuel {A} (step : PropertyType -> N -> A -> reader (A * N))
    (fuel : nat) (properties_len cursor : N) (acc : A) : reader A :=
  fun bytes =>
    match fuel with
    | O => Diverge
    | S fuel =>
        if cursor <? properties_len then
          (prop <-r read_u8 ;;
           cursor <-r rlift (usize_add cursor 1) ;;
           ty <-r rlift (property prop) ;;
           r <-r step ty prop acc ;;
           cursor <-r rlift (usize_add cursor (snd r)) ;;
           props_loop_fuel step fuel properties_len cursor (fst r)) bytes
        else Ok (acc, bytes)
    end.

(** The loop from `let mut cursor = 0`; each iteration reads at least one byte
    (e.g. src/v5/puback.rs:142-162). *)
Definition props_loop {A} (step : PropertyType -> N -> A -> reader (A * N))
    (properties_len : N) (acc : A) : reader A :=
  fun bytes => props_loop_fuel step (S (List.length bytes)) properties_len 0 acc bytes.

(** The repeated
      let properties_len = properties.len();
      let properties_len_len = len_len(properties_len);
      len += properties_len_len + properties_len;
    (e.g. src/v5/puback.rs:44-48). *)
Definition add_props_len (len properties_len : N) : N :=
  len + (len_len properties_len + properties_len).

End WithBuild.
