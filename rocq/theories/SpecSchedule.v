(** SpecSchedule.v -- any history of one receive buffer: bytes arrive, and the user calls `read` whenever he likes, with
    whatever limit he likes, whatever earlier calls returned.  (Not part of the crate.) *)
From Verif Require Import Base SpecWire SpecFrame.

Section Schedule.
  Context {P : Type}.
  (** `read`: result and stream afterwards *)
  Variable rd : bytes -> N -> outcome P * bytes.

  Inductive event :=
  | Arrive (chunk : bytes)
  | Call (limit : N).
  (** one call: the buffer before, the limit, the result, the buffer afterwards *)
  Record call := mkCall { before : bytes; limit : N; result : outcome P; after : bytes }.

  Fixpoint history (evs : list event) (buf : bytes) : list call * bytes :=
    match evs with
    | [] => ([], buf)
    | Arrive chunk :: evs => history evs (buf ++ chunk)
    | Call m :: evs =>
        let (r, buf') := rd buf m in
        let (calls, last) := history evs buf' in
        (mkCall buf m r buf' :: calls, last)
    end.
  (** everything that arrived, in order *)
  Definition arrived (evs : list event) : bytes :=
    flat_map (fun e => match e with Arrive chunk => chunk | Call _ => [] end) evs.
  (** the results of the calls that took something out of the buffer *)
  Definition delivered (calls : list call) : list (outcome P) :=
    map result (filter (fun c => blen (after c) <? blen (before c)) calls).
End Schedule.
Arguments before {P}. Arguments limit {P}. Arguments result {P}. Arguments after {P}. Arguments delivered {P}.

(** one complete frame, well-formed or not, of whatever size *)
Definition is_frame (x : bytes) : Prop := bytes_ok x /\ exists b1 bd, starts_with_frame x b1 bd [].
(** "no complete frame is at the head of the buffer" *)
Definition no_frame_yet (buf : bytes) : Prop := forall b1 bd rest, ~ starts_with_frame buf b1 bd rest.
