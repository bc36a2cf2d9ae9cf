(** SpecTopic.v -- topic names and topic filters (MQTT 3.1.1 section 4.7), on the
    UTF-8 bytes of the strings. *)
From Verif Require Import Base SpecWire.

Definition SLASH : N := 47.
Definition PLUS : N := 43.
Definition HASH : N := 35.
Definition DOLLAR : N := 36.

(** topic levels: the parts between slashes (4.7.1.1) *)
Definition no_slash (l : bytes) : Prop := ~ In SLASH l.
Fixpoint join (ls : list bytes) : bytes :=
  match ls with
  | [] => []
  | [l] => l
  | l :: ls => l ++ SLASH :: join ls
  end.
Definition levels (s : bytes) (ls : list bytes) : Prop :=
  ls <> [] /\ Forall no_slash ls /\ s = join ls.

(** [accepts filter topic] on levels: '#' stands for the rest, including nothing
    (4.7.1.2); '+' for exactly one level (4.7.1.3); other levels for themselves. *)
Inductive accepts : list bytes -> list bytes -> Prop :=
| a_end : accepts [] []
| a_hash ts : accepts [[HASH]] ts
| a_plus fs t ts : accepts fs ts -> accepts ([PLUS] :: fs) (t :: ts)
| a_same l fs ts : l <> [HASH] -> accepts fs ts -> accepts (l :: fs) (l :: ts).

(** The same for arbitrary strings on both sides: a '#' in the filter cuts it off
    even if something follows, and a '#' level of the topic is only accepted by '#'. *)
Inductive covers : list bytes -> list bytes -> Prop :=
| c_end : covers [] []
| c_hash fs ts : covers ([HASH] :: fs) ts
| c_plus fs t ts : t <> [HASH] -> covers fs ts -> covers ([PLUS] :: fs) (t :: ts)
| c_same l fs ts : l <> [HASH] -> covers fs ts -> covers (l :: fs) (l :: ts).

(** '#' only as the whole last level (4.7.1.2), and at least one character (4.7.3) *)
Definition hash_only_last (f : bytes) : Prop :=
  forall pre post, f = pre ++ HASH :: post ->
    post = [] /\ (pre = [] \/ exists pre', pre = pre' ++ [SLASH]).
(** '+' only as a whole level (4.7.1.3) *)
Definition plus_whole_level (f : bytes) : Prop :=
  forall pre post, f = pre ++ PLUS :: post ->
    (pre = [] \/ exists pre', pre = pre' ++ [SLASH]) /\
    (post = [] \/ exists post', post = SLASH :: post').

(** the first character takes more than one byte *)
Definition multibyte_first (s : bytes) : Prop :=
  exists c rest, scalar c /\ 128 <= c /\ s = utf8_encode c ++ rest.
Definition starts_with_dollar (s : bytes) : Prop := exists rest, s = DOLLAR :: rest.
