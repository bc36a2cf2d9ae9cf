(** SpecSession.v -- a sender that uses the crate: it writes its packets into one outgoing
    buffer, cuts the buffer back to its previous length when a write fails (the crate does
    not, see C17), and now and then hands bytes from the front of the buffer to the
    transport.  (Not part of the crate.) *)
From Verif Require Import Base.

Section Sender.
  Context {P : Type}.
  (** `write`: result and buffer afterwards *)
  Variable wr : P -> bytes -> outcome N * bytes.

  Inductive op :=
  | Send (p : P)
  | Flush (k : N).   (* the transport takes up to [k] bytes *)

  (** bytes on the transport, bytes still in the buffer, packets written successfully *)
  Record sender := mkSender { transport : bytes; buffer : bytes; accepted : list P }.

  Definition step (s : sender) (o : op) : sender :=
    match o with
    | Send p =>
        let (r, buf) := wr p (buffer s) in
        match r with
        | Ok _ => mkSender (transport s) buf (accepted s ++ [p])
        | _ => mkSender (transport s) (firstn (List.length (buffer s)) buf) (accepted s)
        end
    | Flush k =>
        mkSender (transport s ++ firstn (N.to_nat k) (buffer s)) (skipn (N.to_nat k) (buffer s)) (accepted s)
    end.
  Definition run (ops : list op) : sender := fold_left step ops (mkSender [] [] []).

  (** the packets of the session, in order *)
  Definition packets (ops : list op) : list P :=
    flat_map (fun o => match o with Send p => [p] | Flush _ => [] end) ops.
  (** "the write succeeds" *)
  Definition succeeds (p : P) : bool := match fst (wr p []) with Ok _ => true | _ => false end.
End Sender.
