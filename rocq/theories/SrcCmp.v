(** SrcCmp.v -- what `==` and the derived `partial_cmp` do on the types of `core`, `alloc` and `bytes`
    that occur in the packets; SrcEq.v (generated) is written in these.  No proofs in this file. *)
From Verif Require Import Base.

(** `==` of `String` and `Bytes` (e.g. src/v4/connect.rs:15): same length, same bytes *)
Fixpoint eq_bytes (x y : bytes) : bool :=
  match x, y with
  | [], [] => true
  | a :: x, b :: y => (a =? b) && eq_bytes x y
  | _, _ => false
  end.
(** `==` of `Vec` (e.g. src/v4/subscribe.rs:9) *)
Fixpoint eq_vec {A} (eq : A -> A -> bool) (x y : list A) : bool :=
  match x, y with
  | [], [] => true
  | a :: x, b :: y => eq a b && eq_vec eq x y
  | _, _ => false
  end.
(** `==` of `Option` (e.g. src/v4/connect.rs:19) *)
Definition eq_option {A} (eq : A -> A -> bool) (x y : option A) : bool :=
  match x, y with
  | None, None => true
  | Some a, Some b => eq a b
  | _, _ => false
  end.
(** `==` of a pair (e.g. src/v5/puback.rs:113) *)
Definition eq_pair {A B} (eqa : A -> A -> bool) (eqb : B -> B -> bool) (x y : A * B) : bool :=
  eqa (fst x) (fst y) && eqb (snd x) (snd y).
(** `Ordering::then` (derived, e.g. src/lib.rs:93): the next field decides where this one is equal *)
Definition then_cmp (c d : comparison) : comparison := match c with Eq => d | _ => c end.
Infix "then_" := then_cmp (at level 60, right associativity).

(** `clone` of integers and `bool` (e.g. src/v4/connect.rs:16-22, derived): the value *)
Definition clone_scalar {A} (x : A) : A := x.
(** `clone` of `String` and `Bytes` (e.g. src/v4/publish.rs:11-14): the same bytes in the same order *)
Fixpoint clone_bytes (x : bytes) : bytes := match x with [] => [] | a :: x => a :: clone_bytes x end.
(** `clone` of `Vec` (e.g. src/v4/subscribe.rs:11): element by element *)
Fixpoint clone_vec {A} (clone : A -> A) (x : list A) : list A :=
  match x with [] => [] | a :: x => clone a :: clone_vec clone x end.
(** `clone` of `Option` (e.g. src/v4/connect.rs:21) *)
Definition clone_option {A} (clone : A -> A) (x : option A) : option A :=
  match x with None => None | Some a => Some (clone a) end.
(** `clone` of a pair (e.g. src/v5/puback.rs:113) *)
Definition clone_pair {A B} (f : A -> A) (g : B -> B) (x : A * B) : A * B := (f (fst x), g (snd x)).
