(** SrcFmt.v -- the formatting machinery of `core` that SrcDebug.v (generated) is written
    in: what `#[derive(Debug)]` and `{:?}`/`{}` write for structs, variants, options,
    vectors, pairs, strings and byte strings.  No proofs in this file. *)
From Coq Require Import String.
From Verif Require Import Base Lib Debug.

(** `Formatter::debug_struct` (derived, e.g. src/v4/connect.rs:6): `Name { a: x, b: y }`; a struct
    without fields is its name. *)
Fixpoint fmt_fields (fs : list (bytes * bytes)) : bytes :=
  match fs with
  | [] => []
  | [(f, v)] => f ++ txt ": " ++ v
  | (f, v) :: fs => f ++ txt ": " ++ v ++ txt ", " ++ fmt_fields fs
  end.
(** e.g. src/v4/connect.rs:6 *)
Definition fmt_struct (name : bytes) (fs : list (bytes * bytes)) : bytes :=
  match fs with
  | [] => name
  | _ => name ++ txt " { " ++ fmt_fields fs ++ txt " }"
  end.
(** `Formatter::debug_tuple` with one field (derived, e.g. src/v4/mod.rs:33): `Name(x)` *)
Definition fmt_tuple (name : bytes) (v : bytes) : bytes := name ++ txt "(" ++ v ++ txt ")".
(** `Debug for Option` (e.g. src/v4/connect.rs:19) *)
Definition fmt_option {A} (show : A -> bytes) (o : option A) : bytes :=
  match o with
  | None => txt "None"
  | Some x => fmt_tuple (txt "Some") (show x)
  end.
(** `Debug for Vec` (e.g. src/v4/subscribe.rs:9) *)
Definition fmt_vec {A} (show : A -> bytes) (l : list A) : bytes := txt "[" ++ entries show l ++ txt "]".
(** `Debug` of a pair (e.g. src/v5/puback.rs:113) *)
Definition fmt_pair {A B} (f : A -> bytes) (g : B -> bytes) (p : A * B) : bytes :=
  txt "(" ++ f (fst p) ++ txt ", " ++ g (snd p) ++ txt ")".
(** `{}` of a string (e.g. src/v4/publish.rs:114): its bytes *)
Definition fmt_display_str (s : bytes) : bytes := s.
(** `.len()` as a format argument (e.g. src/v4/publish.rs:118) *)
Definition fmt_len {A} (s : list A) : N := N.of_nat (List.length s).
(** `Debug for str` (e.g. src/v4/connect.rs:15): the text between double quotes, with special
    characters escaped.  Which ones depends on Unicode tables of `core`, so the escaping is a
    parameter; what is assumed of it is in SpecDebug.v. *)
Definition fmt_str (esc : bytes -> bytes) (s : bytes) : bytes := 34 :: esc s ++ [34].

(** a hexadecimal digit *)
Definition hexdigit (n : N) : N := if n <? 10 then 48 + n else 87 + n.
(** `Debug for Bytes` of crate `bytes` 1.x (e.g. src/v4/connect.rs:145), one byte *)
Definition byte_esc (b : N) : bytes :=
  if b =? 10 then txt "\n" else if b =? 13 then txt "\r" else if b =? 9 then txt "\t"
  else if (b =? 92) || (b =? 34) then [92; b] else if b =? 0 then txt "\0"
  else if (32 <=? b) && (b <? 127) then [b]
  else [92; 120; hexdigit (b / 16); hexdigit (b mod 16)].
(** `Debug for Bytes` of crate `bytes` 1.x: `b"..."` *)
Definition fmt_bytes (s : bytes) : bytes := 98 :: 34 :: flat_map byte_esc s ++ [34].
