(** SpecTrace.v -- what a call of the translation that records the output (Trace*.v) yields: its result, the buffer it
    leaves and what it printed on standard error. *)
From Verif Require Import Base SpecWire.
From Verif Require TraceBase.

Definition result {A} (c : TraceBase.outcome A * bytes) : outcome A := fst (fst c).
Definition left_over {A} (c : TraceBase.outcome A * bytes) : bytes := snd c.
Definition printed {A} (c : TraceBase.outcome A * bytes) : list N := snd (fst c).

(** the call of a function with a `&mut` buffer does on every buffer what [m] does, and prints nothing *)
Definition runs_silently {A} (m : writer A) (m' : TraceBase.writer A) : Prop :=
  forall b, result (m' b) = fst (m b) /\ left_over (m' b) = snd (m b) /\ printed (m' b) = [].
(** the call of any other function has the result [o] and prints nothing *)
Definition returns_silently {A} (o : outcome A) (o' : TraceBase.outcome A) : Prop := fst o' = o /\ snd o' = [].

(** the stream starts with a complete MQTT 5 UNSUBSCRIBE frame within the limit whose body starts with this packet identifier; what
    follows the identifier may be malformed *)
Definition starts_with_unsubscribe (s : bytes) (max id : N) : Prop :=
  exists b1 r rest, starts_with_frame s b1 (be16 id ++ r) rest /\ blen (be16 id ++ r) <= max /\ b1 / 16 = 10 /\ id < 65536.

(** reading [n] times in a row from one buffer: everything that is printed *)
Fixpoint printed_by_reading {A} (read : TraceBase.writer A) (n : nat) (s : bytes) : list N :=
  match n with
  | O => []
  | S n => printed (read s) ++ printed_by_reading read n (left_over (read s))
  end.
