(** SpecProps.v -- specification of MQTT 5 property sections (MQTT 5, section 2.2.2),
    independent of the model's functions. *)
From Verif Require Import Base SpecWire.

(** ** Properties *)
Inductive ptype := TByte | TTwo | TFour | TVar | TStr | TBin | TPair.

(** a property value: one-, two-, four-byte integer, variable-byte integer, UTF-8
    string, binary data, string pair *)
Inductive pval :=
| VByte (n : N) | VTwo (n : N) | VFour (n : N) | VVar (n : N)
| VStr (s : bytes) | VBin (s : bytes) | VPair (k v : bytes).
(** a property: identifier and value *)
Definition item : Type := N * pval.

(** MQTT 5 table 2-4: identifier and type *)
Definition ptype_of (id : N) : option ptype :=
  match id with
  | 1 => Some TByte    (* Payload Format Indicator *)
  | 2 => Some TFour    (* Message Expiry Interval *)
  | 3 => Some TStr     (* Content Type *)
  | 8 => Some TStr     (* Response Topic *)
  | 9 => Some TBin     (* Correlation Data *)
  | 11 => Some TVar    (* Subscription Identifier *)
  | 17 => Some TFour   (* Session Expiry Interval *)
  | 18 => Some TStr    (* Assigned Client Identifier *)
  | 19 => Some TTwo    (* Server Keep Alive *)
  | 21 => Some TStr    (* Authentication Method *)
  | 22 => Some TBin    (* Authentication Data *)
  | 23 => Some TByte   (* Request Problem Information *)
  | 24 => Some TFour   (* Will Delay Interval *)
  | 25 => Some TByte   (* Request Response Information *)
  | 26 => Some TStr    (* Response Information *)
  | 28 => Some TStr    (* Server Reference *)
  | 31 => Some TStr    (* Reason String *)
  | 33 => Some TTwo    (* Receive Maximum *)
  | 34 => Some TTwo    (* Topic Alias Maximum *)
  | 35 => Some TTwo    (* Topic Alias *)
  | 36 => Some TByte   (* Maximum QoS *)
  | 37 => Some TByte   (* Retain Available *)
  | 38 => Some TPair   (* User Property *)
  | 39 => Some TFour   (* Maximum Packet Size *)
  | 40 => Some TByte   (* Wildcard Subscription Available *)
  | 41 => Some TByte   (* Subscription Identifier Available *)
  | 42 => Some TByte   (* Shared Subscription Available *)
  | _ => None
  end.

(** MQTT 5 table 2-4: where a property may occur *)
Inductive place :=
| InConnect | InWill | InConnAck | InPublish | InPubAck | InPubRec | InPubRel | InPubComp
| InSubscribe | InSubAck | InUnsubscribe | InUnsubAck | InDisconnect.
Definition allowed_at (p : place) : list N :=
  match p with
  | InConnect => [17; 21; 22; 23; 25; 33; 34; 38; 39]
  | InWill => [1; 2; 3; 8; 9; 24; 38]
  | InConnAck => [17; 18; 19; 21; 22; 26; 28; 31; 33; 34; 36; 37; 38; 39; 40; 41; 42]
  | InPublish => [1; 2; 3; 8; 9; 11; 35; 38]
  | InPubAck | InPubRec | InPubRel | InPubComp | InSubAck | InUnsubAck => [31; 38]
  | InSubscribe => [11; 38]
  | InUnsubscribe => [38]
  | InDisconnect => [17; 28; 31; 38]
  end.

Definition type_of (v : pval) : ptype :=
  match v with
  | VByte _ => TByte | VTwo _ => TTwo | VFour _ => TFour | VVar _ => TVar
  | VStr _ => TStr | VBin _ => TBin | VPair _ _ => TPair
  end.
(** a value of the corresponding Rust type *)
Definition value_typed (v : pval) : Prop :=
  match v with
  | VByte n => u8 n | VTwo n => u16 n | VFour n => u32 n | VVar n => usize n
  | VStr s => is_utf8 s | VBin s => bytes_ok s | VPair k v => is_utf8 k /\ is_utf8 v
  end.
(** strings and binary data fit their two-byte length *)
Definition value_short (v : pval) : Prop :=
  match v with
  | VStr s | VBin s => short s
  | VPair k v => short k /\ short v
  | _ => True
  end.
(** variable-byte integers are at most 268435455 *)
Definition value_small (v : pval) : Prop :=
  match v with VVar n => n <= max_len | _ => True end.

Definition item_typed (it : item) : Prop :=
  ptype_of (fst it) = Some (type_of (snd it)) /\ value_typed (snd it).
Definition item_ok (it : item) : Prop :=
  item_typed it /\ value_short (snd it) /\ value_small (snd it).

(** ** Encoding *)
Definition value_bytes (v : pval) : bytes :=
  match v with
  | VByte n => [n] | VTwo n => be16 n | VFour n => be32 n | VVar n => varint n
  | VStr s | VBin s => field s
  | VPair k v => field k ++ field v
  end.
Definition item_bytes (it : item) : bytes := fst it :: value_bytes (snd it).
Definition items_bytes (its : list item) : bytes := flat_map item_bytes its.
(** a whole section: property length, then the properties *)
Definition section_bytes (its : list item) : bytes :=
  varint (blen (items_bytes its)) ++ items_bytes its.

(** ** Sections the decoders accept *)
(** encodings a value may have (variable-byte integers need not be minimal) *)
Definition value_enc (v : pval) (bs : bytes) : Prop :=
  match v with
  | VVar n => lenfield bs n /\ blen bs <= 4
  | v => bs = value_bytes v
  end.
(** what the decoder adds to its position for a property of [n] bytes: a subscription
    identifier is counted one byte too long *)
Definition counted (id n : N) : N := n + (if id =? 11 then 1 else 0).

(** [reads allowed plen c its bs c']: from position [c], the properties [its], encoded
    as [bs], are read one after the other, reaching position [c'].  A property is read
    as long as the position is below the declared length [plen]; its value may extend
    beyond. *)
Inductive reads (allowed : list N) (plen : N) : N -> list item -> bytes -> N -> Prop :=
| reads_nil c : reads allowed plen c [] [] c
| reads_cons c id v vb its bs c' :
    c < plen -> In id allowed -> item_ok (id, v) -> value_enc v vb ->
    reads allowed plen (c + counted id (1 + blen vb)) its bs c' ->
    reads allowed plen c ((id, v) :: its) (id :: vb ++ bs) c'.
(** the properties of a section with declared length [plen] *)
Definition section (allowed : list N) (plen : N) (its : list item) (bs : bytes) : Prop :=
  exists c, reads allowed plen 0 its bs c /\ plen <= c.

(** how a reader at position [c] divides properties written back to back under the
    declared length [plen]: those it reads, those it leaves behind *)
Fixpoint split_props (plen c : N) (its : list item) : list item * list item :=
  match its with
  | [] => ([], [])
  | it :: rest =>
      if c <? plen then
        let (a, b) := split_props plen (c + counted (fst it) (blen (item_bytes it))) rest in (it :: a, b)
      else ([], its)
  end.

(** a property section with its length; a zero length gives no property set *)
Definition decodes_props {R} (allowed : list N) (record_of : list item -> R)
    (o : option R) (bs : bytes) : Prop :=
  match o with
  | None => lenfield bs 0 /\ blen bs <= 4
  | Some r => exists f plen its sec,
      bs = f ++ sec /\ lenfield f plen /\ blen f <= 4 /\ 0 < plen /\
      section allowed plen its sec /\ r = record_of its
  end.

(** ** From a property sequence to a property set: the last occurrence of a
    single-valued property, all user properties and subscription identifiers in order *)
Definition last_of (id : N) (its : list item) : option pval :=
  match find (fun it => fst it =? id) (rev its) with Some it => Some (snd it) | None => None end.
Definition last_num (id : N) (its : list item) : option N :=
  match last_of id its with
  | Some (VByte n) | Some (VTwo n) | Some (VFour n) | Some (VVar n) => Some n
  | _ => None
  end.
Definition last_bytes (id : N) (its : list item) : option bytes :=
  match last_of id its with Some (VStr s) | Some (VBin s) => Some s | _ => None end.
Definition all_pairs (its : list item) : list (bytes * bytes) :=
  flat_map (fun it => match snd it with VPair k v => if fst it =? 38 then [(k, v)] else [] | _ => [] end) its.
Definition all_ids (its : list item) : list N :=
  flat_map (fun it => match snd it with VVar n => if fst it =? 11 then [n] else [] | _ => [] end) its.

(** ** ... and back, in the order in which the crate writes them *)
Definition one {A} (id : N) (f : A -> pval) (o : option A) : list item :=
  match o with Some a => [(id, f a)] | None => [] end.
Definition pair_items (l : list (bytes * bytes)) : list item :=
  map (fun kv => (38, VPair (fst kv) (snd kv))) l.
Definition id_items (l : list N) : list item := map (fun n => (11, VVar n)) l.

(** ** The same property set, written differently: the last occurrence of every
    single-valued property, the user properties and the subscription identifiers agree *)
Definition same_props (a b : list item) : Prop :=
  (forall id, id <> 38 -> last_of id a = last_of id b) /\
  all_pairs a = all_pairs b /\ all_ids a = all_ids b.
