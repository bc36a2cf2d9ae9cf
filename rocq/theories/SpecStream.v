(** SpecStream.v -- a receiver that uses the crate: it appends every chunk that
    arrives to a buffer and calls `read` as long as that gives something.  (Not part
    of the crate; it is the usage the documentation of `read` and of
    Error::InsufficientBytes prescribes, src/lib.rs:38-42, src/v4/mod.rs:50.) *)
From Verif Require Import Base.

Definition is_insufficient {P} (r : outcome P) : bool :=
  match r with Err (InsufficientBytes _) => true | _ => false end.

(** Waiting for more bytes, or stopped by an error that consumed nothing. *)
Inductive status := Waiting | Stopped.

Section Receiver.
  Context {P : Type}.
  (** `read`: result and stream afterwards *)
  Variable rd : bytes -> N -> outcome P * bytes.
  (** the limit passed to `read` *)
  Variable max : N.
  (** [false]: take InsufficientBytes at its word and wait.
      [true]: keep reading if the call did remove bytes from the buffer. *)
  Variable careful : bool.

  (** call `read` until it needs more bytes; returns the results in order, the
      status and the buffer.  [fuel] bounds the number of calls. *)
  Fixpoint drain (fuel : nat) (buf : bytes) : list (outcome P) * (status * bytes) :=
    match fuel with
    | O => ([], (Waiting, buf))
    | S fuel =>
        let (r, buf') := rd buf max in
        let moved := blen buf' <? blen buf in
        if is_insufficient r && negb (careful && moved) then ([], (Waiting, buf'))
        else if moved then
               let (evs, st) := drain fuel buf' in (r :: evs, st)
             else ([r], (Stopped, buf'))
    end.

  (** one chunk arrives; every call of `read` that does not stop the loop removes a
      byte, so this many calls are enough *)
  Definition feed (st : status * bytes) (chunk : bytes) : list (outcome P) * (status * bytes) :=
    match st with
    | (Waiting, buf) => drain (S (List.length (buf ++ chunk))) (buf ++ chunk)
    | (Stopped, buf) => ([], (Stopped, buf ++ chunk))
    end.

  Fixpoint receive (st : status * bytes) (chunks : list bytes) : list (outcome P) * (status * bytes) :=
    match chunks with
    | [] => ([], st)
    | c :: cs =>
        let (evs, st) := feed st c in
        let (evs', st) := receive st cs in
        (evs ++ evs', st)
    end.
End Receiver.
