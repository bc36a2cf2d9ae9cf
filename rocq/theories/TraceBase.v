(** TraceBase.v -- what the crate prints while it works: the vocabulary of SrcBase.v once more, with the values
    that `dbg!` sends to standard error as a second result.  The generated files Trace*.v are the text of Src*.v
    with this file imported last.  No proofs in this file. *)
From Verif Require Import Base SrcBase.

(** what has been printed, in order: the values given to `dbg!` (src/v5/unsubscribe.rs:45, the only
    output of the crate) *)
Definition output : Type := list N.
(** the result of a call and what it printed (e.g. src/v5/unsubscribe.rs:40-60) *)
Definition outcome (A : Type) : Type := Base.outcome A * output.
(** a computation on a buffer, as in Base.v, that may print *)
Definition writer (A : Type) : Type := bytes -> outcome A * bytes.

(** an operation of Base.v and SrcBase.v on the buffer: prints nothing (crate `bytes` 1.1) *)
Definition silent {A} (m : Base.writer A) : writer A := fun b => ((fst (m b), []), snd (m b)).

(** as in Base.v; `?` stops at an error, what has been printed stays printed (e.g. src/v5/unsubscribe.rs:44-46) *)
Definition wret {A} (a : A) : writer A := silent (Base.wret a).
(** see [wret] *)
Definition werr {A} (e : Error) : writer A := silent (Base.werr e).
(** see [wret] *)
Definition wbind {A B} (m : writer A) (k : A -> writer B) : writer B :=
  fun b =>
    match m b with
    | ((Ok a, out), b') => let '((r, out'), b'') := k a b' in ((r, out ++ out'), b'')
    | ((Err e, out), b') => ((Err e, out), b')
    | ((Panic, out), b') => ((Panic, out), b')
    | ((Diverge, out), b') => ((Diverge, out), b')
    end.
Notation "x <-w m ;; k" := (wbind m (fun x => k))
  (at level 61, m at next level, right associativity).
Notation "m ;;w k" := (wbind m (fun _ => k)) (at level 61, right associativity).
Notation "' p <-w m ;; k" := (wbind m (fun x => match x with p => k end))
  (at level 61, p pattern, m at next level, right associativity).

(** `dbg!(e);` (src/v5/unsubscribe.rs:45) *)
Definition dbg (n : N) : writer unit := fun b => ((Ok tt, [n]), b).

(** as in SrcBase.v (e.g. src/v4/connack.rs:45) *)
Definition lift {A} (o : outcome A) : writer A := fun b => (o, b).
(** see [lift] *)
Definition run {A} (m : writer A) (b : bytes) : outcome A := fst (m b).
(** see [lift] *)
Definition get : writer bytes := silent SrcBase.get.
(** see [lift] *)
Definition keep {A} (m : reader A) : writer A := silent (SrcBase.keep m).
(** see [lift] *)
Definition unreachable {A} : writer A := silent SrcBase.unreachable.

(** the writers of Base.v (`bytes::BufMut`, e.g. src/lib.rs:251-282) *)
Definition extend_from_slice (l : bytes) : writer unit := silent (Base.extend_from_slice l).
(** see [extend_from_slice] *)
Definition put_slice (l : bytes) : writer unit := silent (Base.put_slice l).
(** see [extend_from_slice] *)
Definition put_u8 (n : N) : writer unit := silent (Base.put_u8 n).
(** see [extend_from_slice] *)
Definition put_u16 (n : N) : writer unit := silent (Base.put_u16 n).
(** see [extend_from_slice] *)
Definition put_u32 (n : N) : writer unit := silent (Base.put_u32 n).
(** see [extend_from_slice] *)
Definition set_index (i v : N) : writer unit := silent (Base.set_index i v).

(** arithmetic and partial functions (Base.v, SrcBase.v; e.g. src/lib.rs:117, 140) print nothing *)
Definition usize_add (a b : N) : outcome N := (Base.usize_add a b, []).
(** see [usize_add] *)
Definition usize_sub (a b : N) : outcome N := (Base.usize_sub a b, []).
(** see [usize_add] *)
Definition i32_add (a b : N) : outcome N := (SrcBase.i32_add a b, []).
(** see [usize_add] *)
Definition u8_shl (a n : N) : outcome N := (SrcBase.u8_shl a n, []).
(** see [usize_add] *)
Definition u8_shr (a n : N) : outcome N := (SrcBase.u8_shr a n, []).
(** see [usize_add] *)
Definition usize_shl (a n : N) : outcome N := (SrcBase.usize_shl a n, []).
(** see [usize_add] *)
Definition unwrap {A} (o : option A) : outcome A := (SrcBase.unwrap o, []).
(** see [usize_add] *)
Definition str_to (s : bytes) (n : N) : outcome bytes := (SrcBase.str_to s n, []).

(** the loops, as in SrcBase.v (e.g. src/lib.rs:272-282) *)
Fixpoint while_ {S} (fuel : nat) (cond : S -> writer bool) (body : S -> writer S) (s : S) : writer S :=
  match fuel with
  | O => silent (fun b => (Diverge, b))
  | Datatypes.S fuel =>
      c <-w cond s ;;
      if (c : bool) then s' <-w body s ;; while_ fuel cond body s'
      else wret s
  end.
(** e.g. src/v5/puback.rs:124-126 *)
Fixpoint for_ {X S} (body : X -> S -> writer S) (l : list X) (s : S) : writer S :=
  match l with
  | [] => wret s
  | x :: l' => s' <-w body x s ;; for_ body l' s'
  end.
(** src/lib.rs:199-218, src/topic.rs:34-38, 63-80 *)
Fixpoint for_ctl {X S R} (body : X -> S -> writer (ctl S R)) (l : list X) (s : S) : writer (S + R) :=
  match l with
  | [] => wret (inl s)
  | x :: l' =>
      c <-w body x s ;;
      match c with
      | Next s' => for_ctl body l' s'
      | Break s' => wret (inl s')
      | Return r => wret (inr r)
      end
  end.
(** e.g. src/v4/subscribe.rs:56 *)
Fixpoint fold_ {X S} (f : S -> X -> writer S) (l : list X) (s : S) : writer S :=
  match l with
  | [] => wret s
  | x :: l' => s' <-w f s x ;; fold_ f l' s'
  end.
(** e.g. src/v4/suback.rs:48-55 *)
Fixpoint map_ {X Y} (f : X -> writer Y) (l : list X) : writer (list Y) :=
  match l with
  | [] => wret []
  | x :: l' => y <-w f x ;; ys <-w map_ f l' ;; wret (y :: ys)
  end.
