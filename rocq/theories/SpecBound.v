(** SpecBound.v -- the largest size of the receive buffer while a receiver of SpecDemand.v is at work. *)
From Verif Require Import Base SpecWire SpecDemand.

Section Peak.
  Context {P : Type}.
  Variable rd : bytes -> N -> outcome P * bytes.
  Variable max : N.
  (** during one request: the same calls as in `pull` *)
  Fixpoint peak (calls : nat) (buffer source : bytes) : N :=
    match calls with
    | O => blen buffer
    | S calls =>
        N.max (blen buffer)
          match rd buffer max with
          | (Err (InsufficientBytes n), buffer) =>
              if blen source <? n then blen buffer
              else peak calls (buffer ++ firstn (N.to_nat n) source) (skipn (N.to_nat n) source)
          | (_, buffer) => blen buffer
          end
    end.
  (** during a connection: the same requests as in `pull_all` *)
  Fixpoint peak_all (packets calls : nat) (buffer source : bytes) : N :=
    match packets with
    | O => blen buffer
    | S packets =>
        N.max (peak calls buffer source)
          match pull rd max calls buffer source with
          | Got _ buffer source => peak_all packets calls buffer source
          | _ => 0
          end
    end.
End Peak.
