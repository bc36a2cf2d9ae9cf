(** Topic.v -- model of src/topic.rs.  Strings are their UTF-8 bytes; the
    characters '/', '+', '#', '$' are ASCII, so `contains`/`split` on them is the
    same at byte level.  No proofs in this file. *)
From Verif Require Import Base.

(** src/topic.rs:29, 60-61 *)
Definition ch_slash : N := 0x2F.   (* '/' *)
(** src/topic.rs:5, 10, 75 *)
Definition ch_plus  : N := 0x2B.   (* '+' *)
(** src/topic.rs:5, 14, 35, 42, 65, 74 *)
Definition ch_hash  : N := 0x23.   (* '#' *)
(** src/topic.rs:56 *)
Definition ch_dollar : N := 0x24.  (* '$' *)

(** `s.contains(c)` for an ASCII character (src/topic.rs:5, 10, 14, 35, 42, 56). *)
Definition contains (c : N) (s : bytes) : bool := existsb (fun b => b =? c) s.

(** `s.split('/')` collected; always at least one element (src/topic.rs:29, 60-61). *)
Fixpoint split_slash (s : bytes) : list bytes :=
  match s with
  | [] => [[]]
  | c :: s' =>
      if c =? ch_slash then [] :: split_slash s'
      else match split_slash s' with
           | seg :: segs => (c :: seg) :: segs
           | [] => [[c]]                        (* not reached *)
           end
  end.

(** src/topic.rs:4-6 `has_wildcards`. *)
Definition has_wildcards (s : bytes) : bool :=
  contains ch_plus s || contains ch_hash s.

(** src/topic.rs:9-19 `valid_topic`. *)
Definition valid_topic (topic : bytes) : bool :=
  if contains ch_plus topic then false
  else if contains ch_hash topic then false
  else true.

(** slice `split_last`: (last, all but the last) (src/topic.rs:30). *)
Fixpoint split_last {A} (l : list A) : option (A * list A) :=
  match l with
  | [] => None
  | x :: l' => match split_last l' with
               | None => Some (x, [])
               | Some (last, remaining) => Some (last, x :: remaining)
               end
  end.

(** src/topic.rs:24-48 `valid_filter`. *)
Definition valid_filter (filter : bytes) : bool :=
  if is_empty filter then false
  else
    let hirerarchy := split_slash filter in
    match split_last hirerarchy with
    | Some (last, remaining) =>
        if existsb (fun entry => contains ch_hash entry) remaining then false
        else if negb (blen last =? 1) && contains ch_hash last then false
        else true
    | None => true
    end.

(** src/topic.rs:63-87: the `for f in filters` loop and the final test; the
    iterators are the lists of levels still to be visited. *)
Fixpoint matches_loop (filters topics : list bytes) : bool :=
  match filters with
  | [] => match topics with [] => true | _ :: _ => false end
  | f :: filters' =>
      if bytes_eqb f [ch_hash] then true
      else
        match topics with
        | t :: topics' =>
            if bytes_eqb t [ch_hash] then false
            else if bytes_eqb f [ch_plus] then matches_loop filters' topics'
            else if negb (bytes_eqb f t) then false
            else matches_loop filters' topics'
        | [] => false
        end
  end.

(** `&s[..1]` on a non-empty `&str`: panics unless byte index 1 is a character
    boundary (end of string, or not a UTF-8 continuation byte) (src/topic.rs:56). *)
Definition str_first (s : bytes) : outcome bytes :=
  match s with
  | [] => Panic
  | [b] => Ok [b]
  | b :: b' :: _ =>
      if (0x80 <=? b') && (b' <? 0xC0) then Panic else Ok [b]
  end.

(** src/topic.rs:55-88 `matches`. *)
Definition matches (topic filter : bytes) : outcome bool :=
  starts_dollar <-?
    (if is_empty topic then Ok false
     else first <-? str_first topic ;; Ok (contains ch_dollar first)) ;;
  if starts_dollar : bool then Ok false
  else Ok (matches_loop (split_slash filter) (split_slash topic)).
