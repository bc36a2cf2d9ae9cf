(** Base.v -- machine-level vocabulary of the model: bytes, outcomes, the
    reader/writer shapes and the primitives of the external crate `bytes` 1.1
    (Cargo.lock) that mqttbytes calls.  No proofs in this file. *)
From Coq Require Export NArith List Bool.
Export ListNotations.
Global Open Scope N_scope.
Global Open Scope list_scope.

(** `u8`, `u16`, `u32`, `usize` are all represented by [N]; the range of a Rust
    type is stated by the [_ok] predicates below where a theorem needs it
    (e.g. src/lib.rs:200, 323-329). *)
Notation byte := N (only parsing).
(** `Bytes`, `BytesMut`, `Vec<u8>`, `&[u8]`, `String`, `&str` (the UTF-8 bytes of
    the string): a list of bytes, first byte first (e.g. src/lib.rs:228-240). *)
Definition bytes := list byte.

(** `.len()` of a buffer or string (e.g. src/lib.rs:152, 174, 253). *)
Definition blen {A} (l : list A) : N := N.of_nat (List.length l).

(** src/lib.rs:46-63 `PacketType`. *)
Inductive PacketType :=
| PT_Connect | PT_ConnAck | PT_Publish | PT_PubAck | PT_PubRec | PT_PubRel
| PT_PubComp | PT_Subscribe | PT_SubAck | PT_Unsubscribe | PT_UnsubAck
| PT_PingReq | PT_PingResp | PT_Disconnect.

(** src/lib.rs:66-70 `Protocol`. *)
Inductive Protocol := V4 | V5.

(** src/lib.rs:73-79 `QoS`. *)
Inductive QoS := AtMostOnce | AtLeastOnce | ExactlyOnce.

(** src/lib.rs:14-43 `Error`. *)
Inductive Error :=
| NotConnect (t : PacketType)
| UnexpectedConnect
| InvalidConnectReturnCode (n : N)
| InvalidReason (n : N)
| InvalidProtocol
| InvalidProtocolLevel (n : N)
| IncorrectPacketFormat
| InvalidPacketType (n : N)
| InvalidPropertyType (n : N)
| InvalidRetainForwardRule (n : N)
| InvalidQoS (n : N)
| InvalidSubscribeReasonCode (n : N)
| PacketIdZero
| SubscriptionIdZero
| PayloadSizeIncorrect
| PayloadTooLong
| PayloadSizeLimitExceeded (n : N)
| PayloadRequired
| TopicNotUtf8
| BoundaryCrossed (n : N)
| MalformedPacket
| MalformedRemainingLength
| EmptySubscription
| InsufficientBytes (n : N).

(** Result of running a Rust function: `Ok`, `Err`, a panic, or (loops are
    modelled with explicit fuel) fuel exhausted (the return types of src/lib.rs:149-336). *)
Inductive outcome (A : Type) :=
| Ok (a : A)
| Err (e : Error)
| Panic
| Diverge.
Arguments Ok {A} a.
Arguments Err {A} e.
Arguments Panic {A}.
Arguments Diverge {A}.

(** `?` on a `Result`, e.g. src/lib.rs:153 *)
Definition obind {A B} (m : outcome A) (k : A -> outcome B) : outcome B :=
  match m with
  | Ok a => k a
  | Err e => Err e
  | Panic => Panic
  | Diverge => Diverge
  end.

(** Code that reads from a local `Bytes` through `&mut`: takes the remaining
    bytes, returns a value and the bytes left.  (After an error the local buffer
    is dropped, so its state is not kept.)
    (e.g. src/v4/puback.rs:20-38, src/lib.rs:228-240). *)
Definition reader (A : Type) := bytes -> outcome (A * bytes).

(** `Ok(a)` at the end of a read, e.g. src/lib.rs:320 *)
Definition rret {A} (a : A) : reader A := fun s => Ok (a, s).
(** `return Err(e)` in a read, e.g. src/lib.rs:317 *)
Definition rerr {A} (e : Error) : reader A := fun _ => Err e.
(** `let a = read(..)?;`, e.g. src/lib.rs:229 *)
Definition rbind {A B} (m : reader A) (k : A -> reader B) : reader B :=
  fun s =>
    match m s with
    | Ok (a, s') => k a s'
    | Err e => Err e
    | Panic => Panic
    | Diverge => Diverge
    end.
(** a `Result`-returning call that does not touch the buffer, followed by `?`
    (e.g. src/v4/connack.rs:45). *)
Definition rlift {A} (o : outcome A) : reader A :=
  fun s =>
    match o with
    | Ok a => Ok (a, s)
    | Err e => Err e
    | Panic => Panic
    | Diverge => Diverge
    end.

(** Code that writes to a `&mut BytesMut` owned by the caller: the buffer is
    observable after success and after an error (e.g. src/v4/puback.rs:40-46). *)
Definition writer (A : Type) := bytes -> outcome A * bytes.

(** `Ok(a)` at the end of a write, e.g. src/v4/puback.rs:45 *)
Definition wret {A} (a : A) : writer A := fun b => (Ok a, b).
(** `return Err(e)` in a write, e.g. src/lib.rs:265 *)
Definition werr {A} (e : Error) : writer A := fun b => (Err e, b).
(** `;` and `?` between two writes, e.g. src/v4/puback.rs:42-44 *)
Definition wbind {A B} (m : writer A) (k : A -> writer B) : writer B :=
  fun b =>
    match m b with
    | (Ok a, b') => k a b'
    | (Err e, b') => (Err e, b')
    | (Panic, b') => (Panic, b')
    | (Diverge, b') => (Diverge, b')
    end.

Notation "x <-? m ;; k" := (obind m (fun x => k))
  (at level 61, m at next level, right associativity).
Notation "x <-r m ;; k" := (rbind m (fun x => k))
  (at level 61, m at next level, right associativity).
Notation "' p <-r m ;; k" := (rbind m (fun x => match x with p => k end))
  (at level 61, p pattern, m at next level, right associativity).
Notation "x <-w m ;; k" := (wbind m (fun x => k))
  (at level 61, m at next level, right associativity).
Notation "m ;;w k" := (wbind m (fun _ => k))
  (at level 61, right associativity).
Notation "m ;;r k" := (rbind m (fun _ => k))
  (at level 61, right associativity).

(** `usize` arithmetic where the code could leave the type's range: Rust panics
    in builds with overflow checks.  64-bit `usize` (e.g. src/lib.rs:140). *)
Definition usize_max : N := 2 ^ 64 - 1.
(** e.g. src/lib.rs:140 *)
Definition usize_add (a b : N) : outcome N :=
  if a + b <=? usize_max then Ok (a + b) else Panic.
(** e.g. src/lib.rs:165, 176; src/v4/unsubscribe.rs:26 *)
Definition usize_sub (a b : N) : outcome N :=
  if b <=? a then Ok (a - b) else Panic.

(** ** `bytes::Buf` on `Bytes`: every operation panics when not enough is left. *)

(** `Buf::advance(n)` (e.g. src/v4/puback.rs:22). *)
Definition advance (n : N) : reader unit :=
  fun s => if n <=? blen s then Ok (tt, skipn (N.to_nat n) s) else Panic.

(** `Bytes::split_to(n)`: returns the first [n] bytes, keeps the rest
    (src/lib.rs:239, src/v4/mod.rs:55). *)
Definition split_to (n : N) : reader bytes :=
  fun s => if n <=? blen s
           then Ok (firstn (N.to_nat n) s, skipn (N.to_nat n) s)
           else Panic.

(** `Buf::get_u8`, `get_u16`, `get_u32` (big endian) (src/lib.rs:328). *)
Definition get_u8 : reader N :=
  fun s => match s with b :: s' => Ok (b, s') | _ => Panic end.
(** src/lib.rs:320 *)
Definition get_u16 : reader N :=
  fun s => match s with
           | b0 :: b1 :: s' => Ok (b0 * 256 + b1, s')
           | _ => Panic
           end.
(** src/lib.rs:336 *)
Definition get_u32 : reader N :=
  fun s => match s with
           | b0 :: b1 :: b2 :: b3 :: s' =>
               Ok (((b0 * 256 + b1) * 256 + b2) * 256 + b3, s')
           | _ => Panic
           end.
(** `Buf::has_remaining` (e.g. src/v4/suback.rs:28, 33). *)
Definition has_remaining (s : bytes) : bool :=
  match s with [] => false | _ => true end.

(** ** `bytes::BufMut` on `BytesMut`: appends (the buffer grows as needed). *)
(** e.g. src/lib.rs:254 *)
Definition extend_from_slice (l : bytes) : writer unit := fun b => (Ok tt, b ++ l).
(** e.g. src/v4/ping.rs:8 *)
Definition put_slice (l : bytes) : writer unit := extend_from_slice l.
(** e.g. src/lib.rs:279 *)
Definition put_u8 (n : N) : writer unit := extend_from_slice [n].
(** e.g. src/lib.rs:253 *)
Definition put_u16 (n : N) : writer unit :=
  extend_from_slice [n / 256 mod 256; n mod 256].
(** e.g. src/v5/connack.rs:355 *)
Definition put_u32 (n : N) : writer unit :=
  extend_from_slice [n / 16777216 mod 256; n / 65536 mod 256; n / 256 mod 256; n mod 256].

(** `buffer[i] = v` (IndexMut on the slice): panics when out of bounds
    (src/v4/connect.rs:134, src/v5/connect.rs:164). *)
Fixpoint list_set (l : bytes) (i : nat) (v : N) : option bytes :=
  match l, i with
  | [], _ => None
  | _ :: l', O => Some (v :: l')
  | x :: l', S i' => match list_set l' i' v with
                     | Some l'' => Some (x :: l'')
                     | None => None
                     end
  end.
(** src/v4/connect.rs:134, src/v5/connect.rs:164 *)
Definition set_index (i v : N) : writer unit :=
  fun b => match list_set b (N.to_nat i) v with
           | Some b' => (Ok tt, b')
           | None => (Panic, b)
           end.

(** `expr as u16` (src/lib.rs:253). *)
Definition as_u16 (n : N) : N := n mod 65536.

(** `==` on byte strings (e.g. src/v4/connect.rs:73, src/topic.rs:65-76). *)
Fixpoint bytes_eqb (a b : bytes) : bool :=
  match a, b with
  | [], [] => true
  | x :: a', y :: b' => (x =? y) && bytes_eqb a' b'
  | _, _ => false
  end.

(** `x as u8` for `bool` (e.g. src/v4/connack.rs:59). *)
Definition bool_u8 (b : bool) : N := if b then 1 else 0.

(** `.is_empty()` (e.g. src/lib.rs:324, src/topic.rs:25). *)
Definition is_empty {A} (l : list A) : bool :=
  match l with [] => true | _ => false end.
(** e.g. src/topic.rs:83 *)
Definition is_some {A} (o : option A) : bool :=
  match o with Some _ => true | None => false end.
(** e.g. src/v5/puback.rs:40 *)
Definition is_none {A} (o : option A) : bool := negb (is_some o).

(** `if let Some(v) = o { f(v) }` around writes (e.g. src/v5/connack.rs:353-356). *)
Definition when_some {A} (o : option A) (f : A -> writer unit) : writer unit :=
  match o with Some v => f v | None => wret tt end.

(** `for x in xs.iter() { f(x) }` around writes (e.g. src/v5/puback.rs:178). *)
Fixpoint for_each {A} (l : list A) (f : A -> writer unit) : writer unit :=
  match l with
  | [] => wret tt
  | x :: l' => f x ;;w for_each l' f
  end.

(** `iter().fold(init, f)` is [List.fold_left f l init]. *)
