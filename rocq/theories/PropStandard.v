(** PropStandard.v -- property theorems: the crate against the MQTT standards' own grammars
    (SpecStd311). *)
From Verif Require Import Base SpecWire SpecTopic SpecV4 SpecStd311 ProofBase ProofLib ProofV4Read ProofV4 ProofErrorsV4 ProofStd ProofStd311.
From Verif Require V4Connect V4ConnAck V4Publish V4PubAck V4Subscribe.

(** ** C60: `v4::read` and the messages of MQTT 3.1.1 *)
(** a message of the standard is read as the packet it stands for -- unless it has a password
    that is not UTF-8 *)
Theorem C60_v4_standard_accepted : forall m s rest max, bytes_ok s ->
  conforms m -> starts_with_frame s (header_byte m) (content m) rest -> blen (content m) <= max ->
  (forall cl ka id w u pw, m = M_CONNECT cl ka id w u (Some pw) -> is_string pw) ->
  read s max = (Ok (as_packet m), rest).
Proof.
  intros m s rest max Hb Hm Hs Hl Hp. apply read_iff; [exact Hb|]. exists (header_byte m), (content m).
  split; [exact Hs|]. split; [exact Hl|]. apply std_decodes; [exact Hm|].
  destruct m; try exact I. destruct password as [pw|]; [|exact I]. eapply Hp. reflexivity.
Qed.
(** ... and then it is refused *)
Theorem C60_v4_binary_password_refused : forall cl ka id w u pw s rest max, bytes_ok s ->
  let m := M_CONNECT cl ka id w u (Some pw) in
  conforms m -> starts_with_frame s (header_byte m) (content m) rest -> blen (content m) <= max ->
  ~ is_string pw -> read s max = (Err TopicNotUtf8, rest).
Proof.
  intros cl ka id w u pw s rest max Hb m Hm Hs Hl Hp.
  apply (read_fails_iff s max TopicNotUtf8 rest Hb). exists (header_byte m), (content m).
  split; [exact Hs|]. split; [exact Hl|]. apply std_refused; [exact Hm|exact Hp].
Qed.
(** whatever is accepted is a message of the standard, or shows one of the listed deviations,
    and not both *)
Theorem C60_v4_leniency_exact : forall s max p rest b1 bd, bytes_ok s ->
  read s max = (Ok p, rest) -> starts_with_frame s b1 bd rest ->
  (exists m, conforms m /\ b1 = header_byte m /\ bd = content m /\ p = as_packet m /\ ~ deviates b1 bd p) \/
  (deviates b1 bd p /\ ~ standard_frame b1 bd).
Proof.
  intros s max p rest b1 bd Hb H Hs.
  assert (Hb' : b1 < 256 /\ bytes_ok bd).
  { destruct Hs as (f & -> & _). apply bytes_ok_cons in Hb as [H1 Hb]. apply bytes_ok_app in Hb as [_ Hb]. apply bytes_ok_app in Hb as [Hb _]. split; assumption. }
  destruct Hb' as [Hb1 Hbd].
  assert (Hd : decodes_body b1 bd p).
  { apply read_iff in H as (c1 & cd & Hc & _ & Hd); [|exact Hb].
    destruct Hs as (f & E & Hf & _), Hc as (g & E' & Hg & _). rewrite E in E'. injection E' as <- E'.
    destruct (lenfield_det _ _ _ _ _ _ Hf Hg E') as (_ & En & Er). apply app_inv_tail in Er. subst cd. exact Hd. }
  destruct (standard_or_deviates b1 bd p Hb1 Hbd Hd) as [(m & Hm & E1 & E2 & E3)|D].
  - left. exists m. repeat split; try assumption. exact (standard_not_deviates m b1 bd p Hm E1 E2 E3).
  - right. split; [exact D|]. intros (m & Hm & E1 & E2).
    destruct (utf8_password_dec m) as [Hu|Hu].
    + assert (Hd' := std_decodes m Hm Hu). rewrite <- E1, <- E2 in Hd'.
      exact (standard_not_deviates m b1 bd p Hm E1 E2 (decodes_det _ _ _ _ Hb1 Hbd Hd Hd') D).
    + assert (F := std_refused m Hm Hu). rewrite <- E1, <- E2 in F. exact (fails_decodes _ _ _ _ Hb1 Hbd F Hd).
Qed.
(** the packet tells messages apart, except that an empty user name or password is the same
    as none *)
Theorem C60_v4_packet_determines_message : forall m m', conforms m -> conforms m' -> as_packet m = as_packet m' ->
  m = m' \/
  exists cl ka id w u u' pw pw',
    m = M_CONNECT cl ka id w u pw /\ m' = M_CONNECT cl ka id w u' pw' /\
    or_empty u = or_empty u' /\ or_empty pw = or_empty pw'.
Proof.
  intros m m' Hm Hm' E.
  destruct m; destruct m'; try discriminate E; cbn [as_packet] in E;
    try (left; reflexivity); try (left; injection E; intros; subst; reflexivity).
  - right. injection E as E2 E3 E1 E4 E5. exists clean, keep_alive, client, will, user, user0, password, password0.
    assert (will = will0).
    { destruct will as [[]|], will0 as [[]|]; cbn in E4; try discriminate E4; [injection E4; intros; subst; reflexivity|reflexivity]. }
    subst. split; [reflexivity|]. split; [reflexivity|]. unfold login_of in E5.
    destruct (or_empty user), (or_empty password), (or_empty user0), (or_empty password0); try discriminate E5;
      try (injection E5; intros; subst); split; reflexivity.
  - exfalso. destruct twice; discriminate E.
  - exfalso. destruct twice; discriminate E.
  - left. destruct twice, twice0; try discriminate E; injection E; intros; subst; reflexivity.
  - left. injection E as -> E. f_equal. clear Hm Hm'. revert filters0 E. induction filters as [|[f q] l IH]; intros [|[f' q'] l'] E; try discriminate E; [reflexivity|].
    cbn [map fst snd] in E. injection E as -> -> E. rewrite (IH l' E). reflexivity.
Qed.
Example C60_v4_case :
  let m := M_CONNECT true 60 [99] (Some (mkWill [116] [255] AtLeastOnce true)) (Some [117]) (Some [112]) in
  conforms m /\
  starts_with_frame (0x10 :: 25 :: content m ++ [1]) (header_byte m) (content m) [1] /\
  (* and one with a binary password *)
  (let m' := M_CONNECT true 60 [99] None (Some [117]) (Some [255]) in
   conforms m' /\ read (0x10 :: 19 :: content m') 100 = (Err TopicNotUtf8, [])) /\
  (* a deviating one: reserved bits in the header and trailing bytes *)
  read [0x4F; 4; 0; 7; 9; 9] 10 = (Ok (PubAck (V4PubAck.mkPubAck 7)), []) /\
  deviates 0x4F [0; 7; 9; 9] (PubAck (V4PubAck.mkPubAck 7)).
Proof.
  assert (A : forall l, Forall (fun c => c < 128) l -> is_string l).
  { intros l H. exists l. split; [eapply Forall_impl; [|exact H]; cbv beta; intros c Hc; left; lia|].
    induction H as [|c l Hc H IH]; [reflexivity|]. cbn [flat_map]. 
    rewrite <- IH. unfold utf8_encode. rewrite (proj2 (N.ltb_lt c 0x80) Hc). reflexivity. }
  assert (T : forall c, 0 < c < 128 -> text [c]).
  { intros c Hc. split; [apply A; repeat constructor; lia|]. split; [cbv; discriminate|]. intros [H|[]]; lia. }
  split; [|split; [|split; [|split]]].
  - cbn [conforms on_some]. split; [cbv; reflexivity|]. split; [apply T; lia|]. split; [discriminate|].
    split. { split; [split; [apply T; lia|]; split; [discriminate|]; split; intros [H|[]]; discriminate H|].
             split; [repeat constructor; cbv; reflexivity|cbv; discriminate]. }
    split; [apply T; lia|]. split; [split; [repeat constructor; cbv; reflexivity|cbv; discriminate]|discriminate].
  - exists [25]. split; [reflexivity|]. split; [apply (lf_last 25); lia|cbv; discriminate].
  - split; [|vm_compute; reflexivity]. cbn [conforms on_some]. split; [cbv; reflexivity|]. split; [apply T; lia|]. split; [discriminate|].
    split; [exact I|]. split; [apply T; lia|]. split; [split; [repeat constructor; cbv; reflexivity|cbv; discriminate]|discriminate].
  - vm_compute. reflexivity.
  - apply dv_trailing. cbv. reflexivity.
Qed.

(** ** C61: `v4` `write` and the messages of MQTT 3.1.1 *)
(** what is written is a message of the standard exactly for the values listed in
    [standard_value] *)
Theorem C61_v4_writes_standard : forall p n out, fits p -> write p [] = (Ok n, out) ->
  (standard_value p <-> exists b1 bd, standard_frame b1 bd /\ blen bd <= max_len /\ out = frame b1 bd).
Proof.
  intros p n out Hf Hw. destruct (write_empty p (proj2 (proj2 (proj2 Hf))) (proj1 (proj2 (proj2 Hf)))) as [E _].
  rewrite Hw in E. cbn [snd] in E. subst out. split.
  - intros V. exists (first_byte p), (body p). split; [apply standard_writes; assumption|]. split; [apply Hf|reflexivity].
  - intros (b1 & bd & Hs & Hl & E). unfold wire, frame in E. injection E as E1 E.
    destruct (lenfield_det _ _ _ _ (body p) bd (lenfield_varint _ (proj2 (proj2 (proj2 Hf)))) (lenfield_varint _ Hl) E) as (_ & _ & E2).
    subst b1 bd. apply standard_writes_only; assumption.
Qed.
(** the message is the one the packet stands for: reading it as the standard says gives the
    packet back (up to the redundant information `canon` drops) *)
Theorem C61_v4_writes_the_message : forall p m, fits p -> conforms m ->
  wire p = frame (header_byte m) (content m) -> blen (content m) <= max_len -> as_packet m = canon p.
Proof.
  intros p m Hf Hm E Hl. unfold wire, frame in E. injection E as E1 E.
  destruct (lenfield_det _ _ _ _ (body p) (content m) (lenfield_varint _ (proj2 (proj2 (proj2 Hf)))) (lenfield_varint _ Hl) E) as (_ & _ & E2).
  assert (Hp := std_payload m p Hm E1 E2).
  assert (Hd := decodes_wire p Hf Hp). assert (Hb : bytes_ok (body p)) by (apply body_bytes, Hf). assert (Hb1 := first_byte_ok p).
  destruct (utf8_password_dec m) as [Hu|Hu].
  - assert (Hd' := std_decodes m Hm Hu). rewrite <- E1, <- E2 in Hd'. exact (decodes_det _ _ _ _ Hb1 Hb Hd' Hd).
  - exfalso. assert (F := std_refused m Hm Hu). rewrite <- E1, <- E2 in F. exact (fails_decodes _ _ _ _ Hb1 Hb F Hd).
Qed.
(** a password without user name is written, but is no message of the standard *)
Example C61_v4_case :
  let l := V4Connect.mkLogin [] [112] in
  let c := V4Connect.mkConnect V4 60 [99] true None (Some l) in
  fits (Connect c) /\ write (Connect c) [] = (Ok 16, [0x10; 16; 0; 4; 77; 81; 84; 84; 4; 66; 0; 60; 0; 1; 99; 0; 1; 112]) /\
  ~ standard_value (Connect c) /\
  standard_value (Connect (V4Connect.mkConnect V4 60 [99] true None None)).
Proof.
  assert (U : forall c, c < 128 -> is_string [c]).
  { intros c Hc. exists [c]. split; [repeat constructor; lia|]. cbn [flat_map]. unfold utf8_encode.
    rewrite (proj2 (N.ltb_lt c 0x80) Hc). reflexivity. }
  assert (T : text [99]) by (split; [apply U; lia|]; split; [cbv; discriminate|]; intros [H|[]]; discriminate H).
  split; [|split; [|split]].
  - split; [cbn [typed]; split; [cbv; reflexivity|]; split; [apply U; cbv; reflexivity|]; split; [exact I|]; split; [apply string_nil|apply U; cbv; reflexivity]|].
    split; [cbn [short_fields]; split; [cbv; discriminate|]; split; [exact I|]; split; cbv; discriminate|].
    split; [exact I|cbv; discriminate].
  - vm_compute. reflexivity.
  - intros (_ & _ & _ & _ & _ & H). apply H; [discriminate|reflexivity].
  - cbn [standard_value]. split; [reflexivity|]. split; [exact T|]. split; [discriminate|]. split; [exact I|].
    split; [split; [apply string_nil|]; split; [cbv; discriminate|intros []]|]. intros H. exfalso. apply H. reflexivity.
Qed.
Print Assumptions C60_v4_standard_accepted.
Print Assumptions C60_v4_binary_password_refused.
Print Assumptions C60_v4_leniency_exact.
Print Assumptions C60_v4_packet_determines_message.
Print Assumptions C61_v4_writes_standard.
Print Assumptions C61_v4_writes_the_message.
