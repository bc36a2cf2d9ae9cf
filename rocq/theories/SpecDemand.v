(** SpecDemand.v -- a receiver that takes from its source what `read` asks for: it calls `read`
    on its buffer; when the answer is InsufficientBytes(n) it fetches bytes from the source,
    appends them and calls again; any other answer is handed to the caller.  (Not part of the
    crate; it is the other use of the number in Error::InsufficientBytes, src/lib.rs:38-42.) *)
From Verif Require Import Base.

Section Demand.
  Context {P : Type}.
  (** `read`: result and stream afterwards *)
  Variable rd : bytes -> N -> outcome P * bytes.
  Variable max : N.

  (** how a request for one packet ends: with an answer, or still wanting [n] bytes of which
      the source does not have enough *)
  Inductive demand :=
  | Got (r : outcome P) (buffer source : bytes)
  | Blocks (n : N) (buffer source : bytes)
  | OutOfCalls.

  (** fetch exactly the number asked for; at most [calls] calls of `read` *)
  Fixpoint pull (calls : nat) (buffer source : bytes) : demand :=
    match calls with
    | O => OutOfCalls
    | S calls =>
        match rd buffer max with
        | (Err (InsufficientBytes n), buffer) =>
            if blen source <? n then Blocks n buffer source
            else pull calls (buffer ++ firstn (N.to_nat n) source) (skipn (N.to_nat n) source)
        | (r, buffer) => Got r buffer source
        end
    end.

  (** one packet after the other, until the source cannot satisfy a request *)
  Fixpoint pull_all (packets calls : nat) (buffer source : bytes) : list (outcome P) * demand :=
    match packets with
    | O => ([], OutOfCalls)
    | S packets =>
        match pull calls buffer source with
        | Got r buffer source =>
            let (rs, d) := pull_all packets calls buffer source in (r :: rs, d)
        | d => ([], d)
        end
    end.

  (** fetch at least the number asked for, as a socket does that returns whatever has arrived:
      [fetches buffer source r buffer' source' calls] *)
  Inductive fetches : bytes -> bytes -> outcome P -> bytes -> bytes -> nat -> Prop :=
  | fetch_done buffer source r buffer' :
      rd buffer max = (r, buffer') -> (forall n, r <> Err (InsufficientBytes n)) ->
      fetches buffer source r buffer' source 1
  | fetch_more buffer source n buffer' more source' r buffer'' source'' calls :
      rd buffer max = (Err (InsufficientBytes n), buffer') ->
      source = more ++ source' -> n <= blen more ->
      fetches (buffer' ++ more) source' r buffer'' source'' calls ->
      fetches buffer source r buffer'' source'' (S calls).
End Demand.
Arguments Got {P}. Arguments Blocks {P}. Arguments OutOfCalls {P}.
