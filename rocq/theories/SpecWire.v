(** SpecWire.v -- specification vocabulary, independent of the model's functions:
    value ranges, MQTT's elementary encodings written with plain arithmetic, and
    UTF-8 by Unicode scalar values.  (The data types of Base.v are shared.) *)
From Verif Require Import Base.

(** ** Ranges of the Rust types *)
Definition u8 (n : N) : Prop := n < 256.
Definition u16 (n : N) : Prop := n < 65536.
Definition u32 (n : N) : Prop := n < 4294967296.
Definition usize (n : N) : Prop := n < 18446744073709551616.
(** a value of type `Bytes`/`Vec<u8>` *)
Definition bytes_ok (l : bytes) : Prop := Forall u8 l.

(** ** UTF-8 (Unicode chapter 3, table 3-6; RFC 3629) *)
(** Unicode scalar values: code points except the surrogates *)
Definition scalar (c : N) : Prop := c < 0xD800 \/ (0xE000 <= c /\ c <= 0x10FFFF).
Definition utf8_encode (c : N) : bytes :=
  if c <? 0x80 then [c]
  else if c <? 0x800 then [0xC0 + c / 64; 0x80 + c mod 64]
  else if c <? 0x10000 then [0xE0 + c / 4096; 0x80 + c / 64 mod 64; 0x80 + c mod 64]
  else [0xF0 + c / 262144; 0x80 + c / 4096 mod 64; 0x80 + c / 64 mod 64; 0x80 + c mod 64].
(** a value of type `String` *)
Definition is_utf8 (s : bytes) : Prop :=
  exists cs, Forall scalar cs /\ s = flat_map utf8_encode cs.

(** ** Elementary encodings *)
(** big-endian integers (low 16/32 bits) *)
Definition be16 (n : N) : bytes := [n / 256 mod 256; n mod 256].
Definition be32 (n : N) : bytes :=
  [n / 16777216 mod 256; n / 65536 mod 256; n / 256 mod 256; n mod 256].

(** a length-prefixed string or binary field *)
Definition field (s : bytes) : bytes := be16 (blen s) ++ s.
(** ... whose length fits the two-byte prefix *)
Definition short (s : bytes) : Prop := blen s <= 65535.

(** largest remaining length *)
Definition max_len : N := 268435455.

(** MQTT variable-byte integer, minimal form (1 to 4 bytes, base 128, least
    significant digit first, 128 added to every byte but the last) *)
Definition varint (n : N) : bytes :=
  if n <? 128 then [n]
  else if n <? 16384 then [128 + n mod 128; n / 128]
  else if n <? 2097152 then [128 + n mod 128; 128 + n / 128 mod 128; n / 16384]
  else [128 + n mod 128; 128 + n / 128 mod 128; 128 + n / 16384 mod 128; n / 2097152].

(** Any variable-byte integer, also non-minimal: the bytes and the value.  (The
    number of bytes is limited to four separately.) *)
Inductive lenfield : bytes -> N -> Prop :=
| lf_last b : b < 128 -> lenfield [b] b
| lf_more b l n : b < 128 -> lenfield l n -> lenfield (128 + b :: l) (b + 128 * n).

(** "the byte has the continuation bit" *)
Definition has_cont (b : N) : Prop := 128 <= b.

(** a frame: first byte, length field, body *)
Definition frame (b1 : N) (body : bytes) : bytes := b1 :: varint (blen body) ++ body.

(** ** Small helpers for reading flag bytes *)
Definition bit (b : bool) : N := if b then 1 else 0.
(** bit number k of n, by arithmetic *)
Definition bit_at (k n : N) : bool := n / 2 ^ k mod 2 =? 1.
Definition nonempty {A} (l : list A) : bool := match l with [] => false | _ => true end.
Definition qos_num (q : QoS) : N :=
  match q with AtMostOnce => 0 | AtLeastOnce => 1 | ExactlyOnce => 2 end.
(** total length of a list of byte strings *)
Definition opt {A} (f : A -> bytes) (o : option A) : bytes :=
  match o with Some a => f a | None => [] end.

(** ** Vocabulary shared by both protocol versions *)
Definition is_string (s : bytes) : Prop := is_utf8 s.
Definition on_some {A} (P : A -> Prop) (o : option A) : Prop :=
  match o with Some a => P a | None => True end.
Definition level (p : Protocol) : N := match p with V4 => 4 | V5 => 5 end.
(** "MQTT" *)
Definition MQTT : bytes := [77; 81; 84; 84].
Definition positive_qos (q : QoS) : bool :=
  match q with AtMostOnce => false | _ => true end.
(** replace the byte at index [i] *)
Definition overwrite (i v : N) (l : bytes) : bytes :=
  firstn (N.to_nat i) l ++ v :: skipn (S (N.to_nat i)) l.
(** an optional string, present iff the flag says so, empty otherwise *)
Definition decodes_opt_string (present : bool) (s : bytes) (bs : bytes) : Prop :=
  if present then bs = field s /\ is_string s /\ short s else bs = [] /\ s = [].
(** The stream starts with a complete frame (any length field of at most four
    bytes, not necessarily minimal) with first byte [b1] and body [bd], followed
    by [rest]. *)
Definition starts_with_frame (stream : bytes) (b1 : N) (bd rest : bytes) : Prop :=
  exists f, stream = b1 :: f ++ bd ++ rest /\ lenfield f (blen bd) /\ blen f <= 4.
