#!/usr/bin/env python3
"""Generates rocq/theories/SpecPropSets.v and ProofPropSets.v: for each of the 13
property records of the v5 module the specification (record <-> property sequence)
and the instances of the generic lemmas of ProofProps.v."""
T = "/verif/rocq/theories/"
RS = [("reason_string","str",31),("user_properties","user",38)]
SETS = [ # name, module, prefix, record, place, fields
 ("connect","V5Connect","cp_","ConnectProperties","InConnect",
  [("session_expiry_interval","u32",17),("receive_maximum","u16",33),("max_packet_size","u32",39),
   ("topic_alias_max","u16",34),("request_response_info","u8",25),("request_problem_info","u8",23),
   ("user_properties","user",38),("authentication_method","str",21),("authentication_data","bin",22)]),
 ("will","V5Connect","wp_","WillProperties","InWill",
  [("delay_interval","u32",24),("payload_format_indicator","u8",1),("message_expiry_interval","u32",2),
   ("content_type","str",3),("response_topic","str",8),("correlation_data","bin",9),("user_properties","user",38)]),
 ("connack","V5ConnAck","","ConnAckProperties","InConnAck",
  [("session_expiry_interval","u32",17),("receive_max","u16",33),("max_qos","u8",36),("retain_available","u8",37),
   ("max_packet_size","u32",39),("assigned_client_identifier","str",18),("topic_alias_max","u16",34),
   ("reason_string","str",31),("user_properties","user",38),("wildcard_subscription_available","u8",40),
   ("subscription_identifiers_available","u8",41),("shared_subscription_available","u8",42),
   ("server_keep_alive","u16",19),("response_information","str",26),("server_reference","str",28),
   ("authentication_method","str",21),("authentication_data","bin",22)]),
 ("publish","V5Publish","","PublishProperties","InPublish",
  [("payload_format_indicator","u8",1),("message_expiry_interval","u32",2),("topic_alias","u16",35),
   ("response_topic","str",8),("correlation_data","bin",9),("user_properties","user",38),
   ("subscription_identifiers","ids",11),("content_type","str",3)]),
 ("puback","V5PubAck","","PubAckProperties","InPubAck",RS),
 ("pubrec","V5PubRec","","PubRecProperties","InPubRec",RS),
 ("pubrel","V5PubRel","","PubRelProperties","InPubRel",RS),
 ("pubcomp","V5PubComp","","PubCompProperties","InPubComp",RS),
 ("subscribe","V5Subscribe","","SubscribeProperties","InSubscribe",
  [("id","id",11),("user_properties","user",38)]),
 ("suback","V5SubAck","","SubAckProperties","InSubAck",RS),
 ("unsubscribe","V5Unsubscribe","","UnsubscribeProperties","InUnsubscribe",[("user_properties","user",38)]),
 ("unsuback","V5UnsubAck","","UnsubAckProperties","InUnsubAck",RS),
 ("disconnect","V5Disconnect","","DisconnectProperties","InDisconnect",
  [("session_expiry_interval","u32",17),("reason_string","str",31),("user_properties","user",38),("server_reference","str",28)]),
]
CON = {"u8":"VByte","u16":"VTwo","u32":"VFour","id":"VVar","str":"VStr","bin":"VBin"}
def getter(k,i):
    return {"user":"(all_pairs its)","ids":"(all_ids its)"}.get(k) or (
        f"(last_bytes {i} its)" if k in("str","bin") else f"(last_num {i} its)")
def put(mod,pre,f,k,i):
    a=f"({mod}.{pre}{f} p)"
    return {"user":f"pair_items {a}","ids":f"id_items {a}"}.get(k) or f"one {i} {CON[k]} {a}"

s = '''(** SpecPropSets.v -- generated by tools/gen_v5_props.py.  For each property record of
    the v5 module: the record a property sequence stands for (`X_record`) and the
    properties of a record in the order in which they are written (`X_items`). *)
From Verif Require Import Base SpecWire SpecProps.
From Verif Require V5Connect V5ConnAck V5Publish V5PubAck V5PubRec V5PubRel V5PubComp
  V5Subscribe V5SubAck V5Unsubscribe V5UnsubAck V5Disconnect.
'''
for n,m,pre,rec,pl,fs in SETS:
    s += f"\n(** `{rec}` *)\n"
    s += f"Definition {n}_record (its : list item) : {m}.{rec} :=\n  {m}.mk{rec} "
    s += "\n    ".join(getter(k,i) for f,k,i in fs)+".\n"
    s += f"Definition {n}_items (p : {m}.{rec}) : list item :=\n  "
    s += "\n  ++ ".join(put(m,pre,f,k,i) for f,k,i in fs)+".\n"
open(T+"SpecPropSets.v","w").write(s)
p = '''(** ProofPropSets.v -- generated by tools/gen_v5_props.py.  Instances of ProofProps for
    each property record of the v5 module. *)
From Verif Require Import ProofBase ProofLib ProofRead ProofV4Read SpecProps SpecPropSets V5Property ProofProps.
From Verif Require V5Connect V5ConnAck V5Publish V5PubAck V5PubRec V5PubRel V5PubComp
  V5Subscribe V5SubAck V5Unsubscribe V5UnsubAck V5Disconnect.

Ltac set_step step rec :=
  intros ty its s; destruct ty; cbn [property_u8]; try reflexivity;
  cbv [step];
  cbv [ty_type ptype_of property_u8 read_val];
  match goal with |- context [mem ?a ?b] => change (mem a b) with true end; cbv iota;
  unfold rbind, rlift, peek_length, rret;
  repeat match goal with
  | |- context [match ?m s with _ => _ end] => destruct (m s) as [[? ?]|?| |]; cbn [fst snd]; try reflexivity
  | |- context [match ?m ?t with Ok _ => _ | _ => _ end] => destruct (m t) as [[? ?]|?| |]; cbn [fst snd]; try reflexivity
  end;
  unfold rec; rewrite ?last_num_snoc, ?last_bytes_snoc, ?all_pairs_snoc, ?all_ids_snoc; reflexivity.
'''
def rec_items_proof(n,m,pre,rec,fs):
    xs=['x%d'%i for i in range(len(fs))]
    projs=' '.join(m+'.'+pre+f for f,k,i in fs)
    r = "Proof.\n  destruct p as [%s]. set (its := %s_items _)."%(' '.join(xs),n)
    for x,(f,k,i) in zip(xs,fs):
        r += "\n  assert (E%s : %s = %s)\n    by (subst its; unfold %s_items; cbn [%s]; set_lookup)."%(x,getter(k,i)[1:-1],x,n,projs)
    r += "\n  unfold %s_record. rewrite %s. reflexivity.\nQed."%(n,', '.join('E'+x for x in xs))
    return r
for n,m,pre,rec,pl,fs in SETS:
    p += f"""
(** *** {rec} *)
Lemma {n}_step : forall ty its s,
  {m}.{pre}props_step ty (property_u8 ty) ({n}_record its) s =
  (if mem (property_u8 ty) (allowed_at {pl})
   then (vd <-r read_val (ty_type ty) ;;
         rret ({n}_record (its ++ [(property_u8 ty, fst vd)]), snd vd))
   else rerr (InvalidPropertyType (property_u8 ty))) s.
Proof. set_step {m}.{pre}props_step {n}_record. Qed.
Lemma wp_{n}_extract s (Q : _ -> _ -> Prop) : bytes_ok s -> blen s <= max_len ->
  (forall o bs s', s = bs ++ s' -> decodes_props (allowed_at {pl}) {n}_record o bs -> bytes_ok s' -> Q o s') ->
  wp E5 ({m}.{pre}extract s) Q.
Proof. exact (wp_extract _ {n}_record _ {n}_step s Q). Qed.
Lemma {n}_extract_ok o bs s : blen bs <= max_len -> decodes_props (allowed_at {pl}) {n}_record o bs ->
  {m}.{pre}extract (bs ++ s) = Ok (o, s).
Proof. exact (extract_ok _ {n}_record _ {n}_step o bs s). Qed.
Lemma {n}_extract_bad f plen its bs c id s : lenfield f plen -> blen f <= 4 -> blen bs <= max_len ->
  reads (allowed_at {pl}) plen 0 its bs c -> c < plen -> ~ In id (allowed_at {pl}) ->
  {m}.{pre}extract (f ++ bs ++ id :: s) = Err (InvalidPropertyType id).
Proof. exact (extract_bad _ {n}_record _ {n}_step f plen its bs c id s). Qed.
Lemma {n}_record_items p : {n}_record ({n}_items p) = p.
{rec_items_proof(n,m,pre,rec,fs)}
Lemma {n}_items_incl its : Forall item_typed its -> incl ({n}_items ({n}_record its)) its.
Proof. intros HF. unfold {n}_record, {n}_items. cbn [{' '.join(m+'.'+pre+f for f,k,i in fs)}]. set_incl HF. Qed.
Lemma {n}_place p : Forall (has_place {pl}) ({n}_items p).
Proof. unfold {n}_items. set_place. Qed.
Lemma {n}_props_len p : {m}.{pre}props_len p = blen (items_bytes ({n}_items p)).
Proof. cbv beta delta [{m}.{pre}props_len {n}_items]. set_len. Qed.
Lemma {n}_props_write p b : {m}.{pre}props_write p b = put_section (blen (items_bytes ({n}_items p))) ({n}_items p) b.
Proof.
  unfold {m}.{pre}props_write. cbv zeta. rewrite {n}_props_len. apply put_section_eq.
  cbv beta delta [{n}_items]. set_write.
Qed.
"""
open(T+"ProofPropSets.v","w").write(p)
