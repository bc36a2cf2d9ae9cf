(** SrcBase.v -- the vocabulary of the generated files Src*.v, which
    tools/rust2coq.py translates mechanically from /repo/src.  No proofs here.

    How the translation represents Rust (citations are examples):
    - a function body is a computation in [writer] (Base.v): it threads the one
      buffer the function can mutate (`&mut Bytes`, `&mut BytesMut`, or an owned
      `mut bytes: Bytes`) and returns a value, an error or a panic; the buffer is
      kept in every case.  No function of the crate has two such buffers.
    - `Ok(e)`/`Err(e)` in tail position, `return Err(e)` and `?` are [wret], [werr]
      and [wbind] (src/lib.rs:315-321);
    - a function with a `&mut` buffer parameter becomes a [writer]; one that owns
      its buffer takes it as an argument and becomes [run body buffer]; one without
      a buffer becomes [run body []] (its body never looks at the state);
    - local mutable variables are rebound by [let]; a branch or loop that assigns
      variables of the enclosing scope returns their new values as a tuple, in the
      order of the first assignment in the text (src/lib.rs:188-225);
    - `+`, `-`, `<<`, `>>` are checked in the type rustc infers for the operands
      (overflow panics); the type inference is the translator's;
    - references, `.iter()`, `.into()`, `.clone()`-like conversions between string,
      slice, vector and `Bytes` types are the identity: all are lists of bytes;
    - `while` takes the parameter [fuel] of the enclosing function and gives
      [Diverge] when it runs out; the theorems hold for every large enough fuel;
    - structs and enums are the records and inductives of the hand-written model,
      field by field and variant by variant (the translator checks the names);
    - `x as u8` on an enum and the derived `==` use the declared discriminants. *)
From Verif Require Import Base Utf8.

Notation "' p <-w m ;; k" := (wbind m (fun x => match x with p => k end))
  (at level 61, p pattern, m at next level, right associativity).

(** a call of a function that does not use the caller's buffer (e.g. src/v4/connack.rs:45) *)
Definition lift {A} (o : outcome A) : writer A := fun b => (o, b).
(** the value of a body that owns its buffer, which is dropped at the end
    (e.g. src/v4/puback.rs:20-38) *)
Definition run {A} (m : writer A) (b : bytes) : outcome A := fst (m b).
(** the buffer as a value: `bytes.iter()`, `bytes.len()`, `payload: bytes`
    (e.g. src/lib.rs:316, src/v4/publish.rs:76) *)
Definition get : writer bytes := fun b => (Ok b, b).
(** the consuming operations of `bytes::Buf` (Base.v); when one panics the buffer
    has not moved (e.g. src/lib.rs:239, 320, src/v4/puback.rs:22) *)
Definition keep {A} (m : reader A) : writer A :=
  fun b => match m b with
           | Ok (a, b') => (Ok a, b')
           | Err e => (Err e, b)
           | Panic => (Panic, b)
           | Diverge => (Diverge, b)
           end.

(** `i32` addition: `shift += 7` (src/lib.rs:212; the literal's type is not
    constrained, so it is `i32`) *)
Definition i32_add (a b : N) : outcome N := if a + b <? 2 ^ 31 then Ok (a + b) else Panic.
(** `<<`, `>>`: the amount must be smaller than the width; bits leaving the type
    are lost (e.g. src/lib.rs:117, 203; src/v4/publish.rs:86) *)
Definition shl (width a n : N) : outcome N :=
  if n <? width then Ok (N.shiftl a n mod 2 ^ width) else Panic.
(** e.g. src/lib.rs:117 *)
Definition shr (width a n : N) : outcome N :=
  if n <? width then Ok (N.shiftr a n) else Panic.
(** e.g. src/v4/publish.rs:86 *)
Definition u8_shl : N -> N -> outcome N := shl 8.
(** e.g. src/lib.rs:117 *)
Definition u8_shr : N -> N -> outcome N := shr 8.
(** src/lib.rs:203 *)
Definition usize_shl : N -> N -> outcome N := shl 64.

(** `while cond { body }` over the variables [s] the body assigns
    (e.g. src/lib.rs:272-282) *)
Fixpoint while_ {S} (fuel : nat) (cond : S -> writer bool) (body : S -> writer S) (s : S)
  : writer S :=
  match fuel with
  | O => fun b => (Diverge, b)
  | Datatypes.S fuel =>
      c <-w cond s ;;
      if (c : bool) then s' <-w body s ;; while_ fuel cond body s'
      else wret s
  end.

(** `for x in l { body }` (e.g. src/v5/puback.rs:124-126) *)
Fixpoint for_ {X S} (body : X -> S -> writer S) (l : list X) (s : S) : writer S :=
  match l with
  | [] => wret s
  | x :: l' => s' <-w body x s ;; for_ body l' s'
  end.

(** how an iteration with `break`, `continue` or `return` in it ends
    (src/lib.rs:199-218, src/topic.rs:34-38, 63-80) *)
Inductive ctl (S R : Type) := Next (s : S) | Break (s : S) | Return (r : R).
Arguments Next {S R} s.
Arguments Break {S R} s.
Arguments Return {S R} r.
(** such a `for`: [inl] the variables after the loop, [inr] the value returned
    (src/lib.rs:199-218, src/topic.rs:34-38, 63-80) *)
Fixpoint for_ctl {X S R} (body : X -> S -> writer (ctl S R)) (l : list X) (s : S)
  : writer (S + R) :=
  match l with
  | [] => wret (inl s)
  | x :: l' =>
      c <-w body x s ;;
      match c with
      | Next s' => for_ctl body l' s'
      | Break s' => wret (inl s')
      | Return r => wret (inr r)
      end
  end.

(** `.iter().fold(init, f)` (e.g. src/v4/subscribe.rs:56) *)
Fixpoint fold_ {X S} (f : S -> X -> writer S) (l : list X) (s : S) : writer S :=
  match l with
  | [] => wret s
  | x :: l' => s' <-w f s x ;; fold_ f l' s'
  end.
(** `.iter().map(f).collect()` (e.g. src/v4/suback.rs:48-55) *)
Fixpoint map_ {X Y} (f : X -> writer Y) (l : list X) : writer (list Y) :=
  match l with
  | [] => wret []
  | x :: l' => y <-w f x ;; ys <-w map_ f l' ;; wret (y :: ys)
  end.

(** `iter.next()` on an iterator held in a local variable: the item and the
    iterator afterwards (src/lib.rs:179, src/topic.rs:72, 83) *)
Definition iter_next {X} (l : list X) : option X * list X :=
  match l with [] => (None, []) | x :: l' => (Some x, l') end.
(** `.unwrap()` on an `Option` (src/lib.rs:179) *)
Definition unwrap {A} (o : option A) : outcome A :=
  match o with Some a => Ok a | None => Panic end.
(** `String::from_utf8` (src/lib.rs:245) *)
Definition from_utf8 (s : bytes) : bytes + unit := if utf8_ok s then inl s else inr tt.

(** `s.contains(c)`, an ASCII character (e.g. src/topic.rs:5) *)
Fixpoint contains (c : N) (s : bytes) : bool :=
  match s with [] => false | b :: s' => if b =? c then true else contains c s' end.
(** `s.split(c)`, an ASCII character: the pieces between its occurrences
    (src/topic.rs:29, 60-61) *)
Fixpoint split_go (c : N) (piece s : bytes) : list bytes :=
  match s with
  | [] => [piece]
  | b :: s' => if b =? c then piece :: split_go c [] s' else split_go c (piece ++ [b]) s'
  end.
(** src/topic.rs:29, 60-61 *)
Definition split (c : N) (s : bytes) : list bytes := split_go c [] s.
(** slice `split_last` (src/topic.rs:30) *)
Definition split_last {X} (l : list X) : option (X * list X) :=
  match rev l with [] => None | x :: r => Some (x, rev r) end.
(** `&s[..n]`: panics unless [n] is a character boundary of [s] (src/topic.rs:56) *)
Definition is_char_boundary (s : bytes) (n : N) : bool :=
  (n =? 0) || (n =? blen s)
  || match nth_error s (N.to_nat n) with
     | Some b => negb (N.land b 0xC0 =? 0x80)
     | None => false
     end.
(** src/topic.rs:56 *)
Definition str_to (s : bytes) (n : N) : outcome bytes :=
  if is_char_boundary s n then Ok (firstn (N.to_nat n) s) else Panic.

(** `dbg!(e);` prints to stderr; no other effect (src/v5/unsubscribe.rs:48) *)
Definition dbg {A} (a : A) : writer unit := wret tt.

(** a value an earlier arm of the same `match` has already taken: not reached; it
    only completes the pattern matching (e.g. src/v5/disconnect.rs:287-296) *)
Definition unreachable {A} : writer A := lift Panic.
