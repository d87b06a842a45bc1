(** The readers again, now with a count of their steps.  A counted result is a number of steps and
    an outcome; PCost proves that the outcomes are those of MLib, the packet files and Model.
    One step each is counted for: a call of a buffer operation (`len`, `get_*`, `advance`,
    `split_to`, `has_remaining` with its test), every byte that is looked at or copied one by one
    (variable byte integers, checking and copying a string, comparing the protocol name), the
    translation of a code (a `match` on a number), an addition to the cursor, `Vec::push`.
    Moving values, tests of local variables and building structures are not counted; they
    occur a constant number of times between counted steps. *)
From Verif Require Import Types MLib MConnect MConnAck MPublish MPubAck MPubRec MPubRel MPubComp
  MSubscribe MSubAck MUnsubscribe MUnsubAck MDisconnect Model.

Definition cost (A : Type) : Type := N * res A.
Definition COk {A} (a : A) : cost A := (0, Ok a).
Definition CErr {A} (e : error) : cost A := (0, Err e).
Definition CDiverge {A} : cost A := (0, Diverge).
(** One step that gives [r]. *)
Definition op {A} (r : res A) : cost A := (1, r).
Definition cbind {A B} (x : cost A) (k : A -> cost B) : cost B :=
  match snd x with
  | Ok a => (fst x + fst (k a), snd (k a))
  | Err e => (fst x, Err e)
  | Panic => (fst x, Panic)
  | Diverge => (fst x, Diverge)
  end.
Notation "'let$' p := e 'in' k" := (cbind e (fun p => k))
  (at level 200, p pattern, e at level 100, k at level 200).
Notation "'do$' e ; k" := (cbind e (fun _ => k)) (at level 200, e at level 100, k at level 200).

(** `Vec::push` (amortised), `Bytes::has_remaining`. *)
Definition push : cost unit := op (Ok tt).
Definition has_remaining : cost unit := op (Ok tt).
Definition c_advance (b : bytes) (cnt : N) : cost bytes := op (advance b cnt).

(** Counted: /repo/src/lib.rs:449-475, one step for each byte looked at. *)
Fixpoint c_length_loop (stream : bytes) (len len_len shift : N) : cost (N * N) :=
  match stream with
  | [] => op (Err (InsufficientBytes 1))
  | byte :: rest =>
      do$ op (Ok tt);
      let len_len := len_len + 1 in
      let len := len + N.shiftl (N.land byte 127) shift in
      if N.land byte 128 =? 0 then COk (len_len, len)
      else
        let shift := shift + 7 in
        if 21 <? shift then CErr MalformedRemainingLength
        else c_length_loop rest len len_len shift
  end.
(** Counted: /repo/src/lib.rs:439-476 fn length. *)
Definition c_length_ (stream : bytes) : cost (N * N) := c_length_loop stream 0 0 0.

(** Counted: /repo/src/lib.rs:423-434 fn parse_fixed_header. *)
Definition c_parse_fixed_header (stream : bytes) : cost FixedHeader :=
  do$ op (Ok tt);
  if blen stream <? 2 then CErr (InsufficientBytes (2 - blen stream))
  else
    match stream with
    | [] => op Panic
    | byte1 :: rest =>
        do$ op (Ok tt);
        let$ (len_len, len) := c_length_ rest in
        COk (FixedHeader_new byte1 len_len len)
    end.
(** Counted: /repo/src/lib.rs:395-420 fn check. *)
Definition c_check (stream : bytes) (max_packet_size : option N) : cost FixedHeader :=
  do$ op (Ok tt);
  let$ fixed_header := c_parse_fixed_header stream in
  let$ _ :=
    op (match max_packet_size with
        | Some max_size =>
            if max_size <? fh_remaining_len fixed_header
            then Err (PayloadSizeLimitExceeded (fh_remaining_len fixed_header) max_size)
            else Ok tt
        | None => Ok tt
        end) in
  op (if blen stream <? frame_length fixed_header
      then Err (InsufficientBytes (frame_length fixed_header - blen stream))
      else Ok fixed_header).

(** Counted: /repo/src/lib.rs:589-614 (`len` and `get_*`). *)
Definition c_read_u8 (b : bytes) : cost (N * bytes) := do$ op (Ok tt); op (read_u8 b).
Definition c_read_u16 (b : bytes) : cost (N * bytes) := do$ op (Ok tt); op (read_u16 b).
Definition c_read_u32 (b : bytes) : cost (N * bytes) := do$ op (Ok tt); op (read_u32 b).
(** Counted: /repo/src/lib.rs:478-492 fn read_mqtt_bytes (the bytes are not copied). *)
Definition c_read_mqtt_bytes (b : bytes) : cost (bytes * bytes) :=
  let$ (len, b) := c_read_u16 b in
  do$ op (Ok tt);
  if blen b <? len then CErr (BoundaryCrossed len) else op (split_to b len).
(** Counted: /repo/src/lib.rs:494-519 fn read_mqtt_string: every byte is checked and copied. *)
Definition c_read_mqtt_string (ft : feature) (b : bytes) : cost (bytes * bytes) :=
  match ft with
  | F_binary => c_read_mqtt_bytes b
  | _ =>
      let$ (s, b) := c_read_mqtt_bytes b in
      let$ _ := (2 * blen s, Ok tt) in
      if from_utf8 s then COk (s, b) else CErr TopicNotUtf8
  end.

(** Counted: the property loop (MLib.props_loop; e.g. /repo/src/connect.rs:191-239). *)
Fixpoint c_props_loop {S : Type} (step : N -> S -> bytes -> cost (S * N * bytes))
    (fuel : nat) (cursor properties_len : N) (st : S) (b : bytes) : cost (S * bytes) :=
  if cursor <? properties_len then
    match fuel with
    | O => CDiverge
    | Datatypes.S fuel =>
        let$ (prop, b) := c_read_u8 b in
        let$ cursor := op (usize_add cursor 1) in
        let$ (st, n, b) := step prop st b in
        let$ cursor := op (usize_add cursor n) in
        c_props_loop step fuel cursor properties_len st b
    end
  else COk (st, b).
(** Counted: the common frame of *Properties::read (MLib.props_read). *)
Definition c_props_read {S : Type} (step : N -> S -> bytes -> cost (S * N * bytes)) (init : S)
    (b : bytes) : cost (option S * bytes) :=
  let$ (properties_len_len, properties_len) := c_length_ b in
  let$ b := c_advance b properties_len_len in
  if properties_len =? 0 then COk (None, b)
  else
    let$ (st, b) := c_props_loop step (Datatypes.S (length b)) 0 properties_len init b in
    COk (Some st, b).

(** Counted: /repo/src/connect.rs:196-238 body of the `match` in ConnectProperties::read. *)
Definition c_ConnectProperties_step (ft : feature) (prop : N) (p : ConnectProperties) (b : bytes)
  : cost (ConnectProperties * N * bytes) :=
  let$ t := op (property prop) in
  let '(mkConnectProperties sei rm mps tam rri rpi up am ad) := p in
  match t with
  | SessionExpiryInterval =>
      let$ (v, b) := c_read_u32 b in
      COk (mkConnectProperties (Some v) rm mps tam rri rpi up am ad, 4, b)
  | ReceiveMaximum =>
      let$ (v, b) := c_read_u16 b in
      COk (mkConnectProperties sei (Some v) mps tam rri rpi up am ad, 2, b)
  | MaximumPacketSize =>
      let$ (v, b) := c_read_u32 b in
      COk (mkConnectProperties sei rm (Some v) tam rri rpi up am ad, 4, b)
  | TopicAliasMaximum =>
      let$ (v, b) := c_read_u16 b in
      COk (mkConnectProperties sei rm mps (Some v) rri rpi up am ad, 2, b)
  | RequestResponseInformation =>
      let$ (v, b) := c_read_u8 b in
      COk (mkConnectProperties sei rm mps tam (Some v) rpi up am ad, 1, b)
  | RequestProblemInformation =>
      let$ (v, b) := c_read_u8 b in
      COk (mkConnectProperties sei rm mps tam rri (Some v) up am ad, 1, b)
  | UserProperty =>
      let$ (k, b) := c_read_mqtt_string ft b in
      let$ (v, b) := c_read_mqtt_string ft b in
      do$ push; COk (mkConnectProperties sei rm mps tam rri rpi (up ++ [(k, v)]) am ad,
          2 + blen k + 2 + blen v, b)
  | AuthenticationMethod =>
      let$ (v, b) := c_read_mqtt_string ft b in
      COk (mkConnectProperties sei rm mps tam rri rpi up (Some v) ad, 2 + blen v, b)
  | AuthenticationData =>
      let$ (v, b) := c_read_mqtt_bytes b in
      COk (mkConnectProperties sei rm mps tam rri rpi up am (Some v), 2 + blen v, b)
  | _ => CErr (InvalidPropertyType prop)
  end.

(** Counted: /repo/src/connect.rs:174-252 ConnectProperties::read. *)
Definition c_ConnectProperties_read (ft : feature) (b : bytes)
  : cost (option ConnectProperties * bytes) :=
  c_props_read (c_ConnectProperties_step ft) ConnectProperties_new b.

(** Counted: /repo/src/connect.rs:497-532 body of the `match` in LastWillProperties::read. *)
Definition c_LastWillProperties_step (ft : feature) (prop : N) (p : LastWillProperties) (b : bytes)
  : cost (LastWillProperties * N * bytes) :=
  let$ t := op (property prop) in
  let '(mkLastWillProperties di pfi mei ct rt cd up) := p in
  match t with
  | WillDelayInterval =>
      let$ (v, b) := c_read_u32 b in
      COk (mkLastWillProperties (Some v) pfi mei ct rt cd up, 4, b)
  | PayloadFormatIndicator =>
      let$ (v, b) := c_read_u8 b in
      COk (mkLastWillProperties di (Some v) mei ct rt cd up, 1, b)
  | MessageExpiryInterval =>
      let$ (v, b) := c_read_u32 b in
      COk (mkLastWillProperties di pfi (Some v) ct rt cd up, 4, b)
  | ContentType =>
      let$ (v, b) := c_read_mqtt_string ft b in
      COk (mkLastWillProperties di pfi mei (Some v) rt cd up, 2 + blen v, b)
  | ResponseTopic =>
      let$ (v, b) := c_read_mqtt_string ft b in
      COk (mkLastWillProperties di pfi mei ct (Some v) cd up, 2 + blen v, b)
  | CorrelationData =>
      let$ (v, b) := c_read_mqtt_bytes b in
      COk (mkLastWillProperties di pfi mei ct rt (Some v) up, 2 + blen v, b)
  | UserProperty =>
      let$ (k, b) := c_read_mqtt_string ft b in
      let$ (v, b) := c_read_mqtt_string ft b in
      do$ push; COk (mkLastWillProperties di pfi mei ct rt cd (up ++ [(k, v)]),
          2 + blen k + 2 + blen v, b)
  | _ => CErr (InvalidPropertyType prop)
  end.

(** Counted: /repo/src/connect.rs:476-544 LastWillProperties::read. *)
Definition c_LastWillProperties_read (ft : feature) (b : bytes)
  : cost (option LastWillProperties * bytes) :=
  c_props_read (c_LastWillProperties_step ft) LastWillProperties_init b.

(** Counted: /repo/src/connect.rs:383-408 LastWill::read. *)
Definition c_LastWill_read (ft : feature) (connect_flags : N) (b : bytes)
  : cost (option LastWill * bytes) :=
  if N.land connect_flags 4 =? 0 then
    if negb (N.land connect_flags 56 =? 0) then CErr IncorrectPacketFormat
    else COk (None, b)
  else
    let$ (properties, b) := c_LastWillProperties_read ft b in
    let$ (will_topic, b) := c_read_mqtt_bytes b in
    let$ (will_message, b) := c_read_mqtt_bytes b in
    let qos_num := N.shiftr (N.land connect_flags 24) 3 in
    match qos qos_num with
    | None => CErr (InvalidQoS qos_num)
    | Some will_qos =>
        COk (Some (mkLastWill will_topic will_message will_qos
                    (negb (N.land connect_flags 32 =? 0)) properties), b)
    end.

(** Counted: /repo/src/connect.rs:603-619 Login::read. *)
Definition c_Login_read (ft : feature) (connect_flags : N) (b : bytes)
  : cost (option Login * bytes) :=
  let$ (username, b) :=
    (if N.land connect_flags 128 =? 0 then COk ([], b) else c_read_mqtt_string ft b) in
  let$ (password, b) :=
    (if N.land connect_flags 64 =? 0 then COk ([], b) else c_read_mqtt_string ft b) in
  if is_empty username && is_empty password then COk (None, b)
  else COk (Some (mkLogin username password), b).

(** Counted: /repo/src/connect.rs:24-60 Connect::read. *)
Definition c_Connect_read (ft : feature) (h : FixedHeader) (b : bytes)
  : cost (Connect * option LastWill * option Login) :=
  let$ b := c_advance b (fh_fixed_header_len h) in
  let$ (protocol_name, b) := c_read_mqtt_string ft b in
  let$ (protocol_level, b) := c_read_u8 b in
  let$ _ := (4, Ok tt) in
  if negb (mqtt_string_eq protocol_name str_MQTT) then CErr InvalidProtocol
  else if negb (protocol_level =? 5) then CErr (InvalidProtocolLevel protocol_level)
  else
    let$ (connect_flags, b) := c_read_u8 b in
    let clean_start := negb (N.land connect_flags 2 =? 0) in
    let$ (keep_alive, b) := c_read_u16 b in
    let$ (properties, b) := c_ConnectProperties_read ft b in
    let$ (client_id, b) := c_read_mqtt_string ft b in
    let$ (will, b) := c_LastWill_read ft connect_flags b in
    let$ (login, b) := c_Login_read ft connect_flags b in
    COk (mkConnect keep_alive client_id clean_start properties, will, login).

(** Counted: /repo/src/connack.rs:242-320 body of the `match` in ConnAckProperties::read. *)
Definition c_ConnAckProperties_step (ft : feature) (prop : N) (p : ConnAckProperties) (b : bytes)
  : cost (ConnAckProperties * N * bytes) :=
  let$ t := op (property prop) in
  let '(mkConnAckProperties sei rm mq ra mps aci tam rs up wsa sia ssa ska ri sr am ad) := p in
  match t with
  | SessionExpiryInterval =>
      let$ (v, b) := c_read_u32 b in
      COk (mkConnAckProperties (Some v) rm mq ra mps aci tam rs up wsa sia ssa ska ri sr am ad, 4, b)
  | ReceiveMaximum =>
      let$ (v, b) := c_read_u16 b in
      COk (mkConnAckProperties sei (Some v) mq ra mps aci tam rs up wsa sia ssa ska ri sr am ad, 2, b)
  | MaximumQos =>
      let$ (v, b) := c_read_u8 b in
      COk (mkConnAckProperties sei rm (Some v) ra mps aci tam rs up wsa sia ssa ska ri sr am ad, 1, b)
  | RetainAvailable =>
      let$ (v, b) := c_read_u8 b in
      COk (mkConnAckProperties sei rm mq (Some v) mps aci tam rs up wsa sia ssa ska ri sr am ad, 1, b)
  | AssignedClientIdentifier =>
      let$ (v, b) := c_read_mqtt_string ft b in
      COk (mkConnAckProperties sei rm mq ra mps (Some v) tam rs up wsa sia ssa ska ri sr am ad,
          2 + blen v, b)
  | MaximumPacketSize =>
      let$ (v, b) := c_read_u32 b in
      COk (mkConnAckProperties sei rm mq ra (Some v) aci tam rs up wsa sia ssa ska ri sr am ad, 4, b)
  | TopicAliasMaximum =>
      let$ (v, b) := c_read_u16 b in
      COk (mkConnAckProperties sei rm mq ra mps aci (Some v) rs up wsa sia ssa ska ri sr am ad, 2, b)
  | ReasonString =>
      let$ (v, b) := c_read_mqtt_string ft b in
      COk (mkConnAckProperties sei rm mq ra mps aci tam (Some v) up wsa sia ssa ska ri sr am ad,
          2 + blen v, b)
  | UserProperty =>
      let$ (k, b) := c_read_mqtt_string ft b in
      let$ (v, b) := c_read_mqtt_string ft b in
      do$ push; COk (mkConnAckProperties sei rm mq ra mps aci tam rs (up ++ [(k, v)]) wsa sia ssa ska ri sr am ad,
          2 + blen k + 2 + blen v, b)
  | WildcardSubscriptionAvailable =>
      let$ (v, b) := c_read_u8 b in
      COk (mkConnAckProperties sei rm mq ra mps aci tam rs up (Some v) sia ssa ska ri sr am ad, 1, b)
  | SubscriptionIdentifierAvailable =>
      let$ (v, b) := c_read_u8 b in
      COk (mkConnAckProperties sei rm mq ra mps aci tam rs up wsa (Some v) ssa ska ri sr am ad, 1, b)
  | SharedSubscriptionAvailable =>
      let$ (v, b) := c_read_u8 b in
      COk (mkConnAckProperties sei rm mq ra mps aci tam rs up wsa sia (Some v) ska ri sr am ad, 1, b)
  | ServerKeepAlive =>
      let$ (v, b) := c_read_u16 b in
      COk (mkConnAckProperties sei rm mq ra mps aci tam rs up wsa sia ssa (Some v) ri sr am ad, 2, b)
  | ResponseInformation =>
      let$ (v, b) := c_read_mqtt_string ft b in
      COk (mkConnAckProperties sei rm mq ra mps aci tam rs up wsa sia ssa ska (Some v) sr am ad,
          2 + blen v, b)
  | ServerReference =>
      let$ (v, b) := c_read_mqtt_string ft b in
      COk (mkConnAckProperties sei rm mq ra mps aci tam rs up wsa sia ssa ska ri (Some v) am ad,
          2 + blen v, b)
  | AuthenticationMethod =>
      let$ (v, b) := c_read_mqtt_string ft b in
      COk (mkConnAckProperties sei rm mq ra mps aci tam rs up wsa sia ssa ska ri sr (Some v) ad,
          2 + blen v, b)
  | AuthenticationData =>
      let$ (v, b) := c_read_mqtt_bytes b in
      COk (mkConnAckProperties sei rm mq ra mps aci tam rs up wsa sia ssa ska ri sr am (Some v),
          2 + blen v, b)
  | _ => CErr (InvalidPropertyType prop)
  end.

(** Counted: /repo/src/connack.rs:210-342 ConnAckProperties::read. *)
Definition c_ConnAckProperties_read (ft : feature) (b : bytes)
  : cost (option ConnAckProperties * bytes) :=
  c_props_read (c_ConnAckProperties_step ft) ConnAckProperties_new b.

(** Counted: /repo/src/connack.rs:72-89 ConnAck::read. *)
Definition c_ConnAck_read (ft : feature) (h : FixedHeader) (b : bytes) : cost ConnAck :=
  let$ b := c_advance b (fh_fixed_header_len h) in
  let$ (flags, b) := c_read_u8 b in
  let$ (return_code, b) := c_read_u8 b in
  let$ (properties, b) := c_ConnAckProperties_read ft b in
  let session_present := N.land flags 1 =? 1 in
  let$ code := op (connect_return return_code) in
  COk (mkConnAck session_present code properties).

(** Counted: /repo/src/publish.rs:203-244 body of the `match` in PublishProperties::read.
    Note the `cursor += 1 + id_len` of the subscription identifier (234). *)
Definition c_PublishProperties_step (ft : feature) (prop : N) (p : PublishProperties) (b : bytes)
  : cost (PublishProperties * N * bytes) :=
  let$ t := op (property prop) in
  let '(mkPublishProperties pfi mei ta rt cd up si ct) := p in
  match t with
  | PayloadFormatIndicator =>
      let$ (v, b) := c_read_u8 b in
      COk (mkPublishProperties (Some v) mei ta rt cd up si ct, 1, b)
  | MessageExpiryInterval =>
      let$ (v, b) := c_read_u32 b in
      COk (mkPublishProperties pfi (Some v) ta rt cd up si ct, 4, b)
  | TopicAlias =>
      let$ (v, b) := c_read_u16 b in
      COk (mkPublishProperties pfi mei (Some v) rt cd up si ct, 2, b)
  | ResponseTopic =>
      let$ (v, b) := c_read_mqtt_string ft b in
      COk (mkPublishProperties pfi mei ta (Some v) cd up si ct, 2 + blen v, b)
  | CorrelationData =>
      let$ (v, b) := c_read_mqtt_bytes b in
      COk (mkPublishProperties pfi mei ta rt (Some v) up si ct, 2 + blen v, b)
  | UserProperty =>
      let$ (k, b) := c_read_mqtt_string ft b in
      let$ (v, b) := c_read_mqtt_string ft b in
      do$ push; COk (mkPublishProperties pfi mei ta rt cd (up ++ [(k, v)]) si ct,
          2 + blen k + 2 + blen v, b)
  | SubscriptionIdentifier =>
      let$ (id_len, id) := c_length_ b in
      let$ b := c_advance b id_len in
      do$ push; COk (mkPublishProperties pfi mei ta rt cd up (si ++ [id]) ct, 1 + id_len, b)
  | ContentType =>
      let$ (v, b) := c_read_mqtt_string ft b in
      COk (mkPublishProperties pfi mei ta rt cd up si (Some v), 2 + blen v, b)
  | _ => CErr (InvalidPropertyType prop)
  end.

(** Counted: /repo/src/publish.rs:181-257 PublishProperties::read. *)
Definition c_PublishProperties_read (ft : feature) (b : bytes)
  : cost (option PublishProperties * bytes) :=
  c_props_read (c_PublishProperties_step ft) PublishProperties_default b.

(** Counted: /repo/src/publish.rs:64-96 Publish::read. *)
Definition c_Publish_read (ft : feature) (h : FixedHeader) (b : bytes) : cost Publish :=
  let qos_num := N.shiftr (N.land (fh_byte1 h) 6) 1 in
  match qos qos_num with
  | None => CErr (InvalidQoS qos_num)
  | Some q =>
      let dup := negb (N.land (fh_byte1 h) 8 =? 0) in
      let retain := negb (N.land (fh_byte1 h) 1 =? 0) in
      let$ b := c_advance b (fh_fixed_header_len h) in
      let$ (topic, b) := c_read_mqtt_string ft b in
      let$ (pkid, b) := (match q with
                         | AtMostOnce => COk (0, b)
                         | AtLeastOnce | ExactlyOnce => c_read_u16 b
                         end) in
      if negb (QoS_eqb q AtMostOnce) && (pkid =? 0) then CErr PacketIdZero
      else
        let$ (properties, b) := c_PublishProperties_read ft b in
        COk (mkPublish dup q retain topic pkid b properties)
  end.

(** Counted: /repo/src/puback.rs:166-179 body of the `match` in PubAckProperties::read. *)
Definition c_PubAckProperties_step (ft : feature) (prop : N) (p : PubAckProperties) (b : bytes)
  : cost (PubAckProperties * N * bytes) :=
  let$ t := op (property prop) in
  let '(mkPubAckProperties rs up) := p in
  match t with
  | ReasonString =>
      let$ (v, b) := c_read_mqtt_string ft b in
      COk (mkPubAckProperties (Some v) up, 2 + blen v, b)
  | UserProperty =>
      let$ (k, b) := c_read_mqtt_string ft b in
      let$ (v, b) := c_read_mqtt_string ft b in
      do$ push; COk (mkPubAckProperties rs (up ++ [(k, v)]), 2 + blen k + 2 + blen v, b)
  | _ => CErr (InvalidPropertyType prop)
  end.

(** Counted: /repo/src/puback.rs:150-186 PubAckProperties::read. *)
Definition c_PubAckProperties_read (ft : feature) (b : bytes)
  : cost (option PubAckProperties * bytes) :=
  c_props_read (c_PubAckProperties_step ft) PubAckProperties_init b.

(** Counted: /repo/src/puback.rs:72-104 PubAck::read. *)
Definition c_PubAck_read (ft : feature) (h : FixedHeader) (b : bytes) : cost PubAck :=
  let$ b := c_advance b (fh_fixed_header_len h) in
  let$ (pkid, b) := c_read_u16 b in
  if fh_remaining_len h =? 2 then COk (mkPubAck pkid PAR_Success None)
  else
    let$ (ack_reason, b) := c_read_u8 b in
    if fh_remaining_len h <? 4 then
      let$ r := op (PubAck_reason ack_reason) in
      COk (mkPubAck pkid r None)
    else
      let$ (properties, b) := c_PubAckProperties_read ft b in
      let$ r := op (PubAck_reason ack_reason) in
      COk (mkPubAck pkid r properties).

(** Counted: /repo/src/pubrec.rs:161-174 body of the `match` in PubRecProperties::read. *)
Definition c_PubRecProperties_step (ft : feature) (prop : N) (p : PubRecProperties) (b : bytes)
  : cost (PubRecProperties * N * bytes) :=
  let$ t := op (property prop) in
  let '(mkPubRecProperties rs up) := p in
  match t with
  | ReasonString =>
      let$ (v, b) := c_read_mqtt_string ft b in
      COk (mkPubRecProperties (Some v) up, 2 + blen v, b)
  | UserProperty =>
      let$ (k, b) := c_read_mqtt_string ft b in
      let$ (v, b) := c_read_mqtt_string ft b in
      do$ push; COk (mkPubRecProperties rs (up ++ [(k, v)]), 2 + blen k + 2 + blen v, b)
  | _ => CErr (InvalidPropertyType prop)
  end.

(** Counted: /repo/src/pubrec.rs:145-181 PubRecProperties::read. *)
Definition c_PubRecProperties_read (ft : feature) (b : bytes)
  : cost (option PubRecProperties * bytes) :=
  c_props_read (c_PubRecProperties_step ft) PubRecProperties_init b.

(** Counted: /repo/src/pubrec.rs:71-99 PubRec::read. *)
Definition c_PubRec_read (ft : feature) (h : FixedHeader) (b : bytes) : cost PubRec :=
  let$ b := c_advance b (fh_fixed_header_len h) in
  let$ (pkid, b) := c_read_u16 b in
  if fh_remaining_len h =? 2 then COk (mkPubRec pkid PRR_Success None)
  else
    let$ (ack_reason, b) := c_read_u8 b in
    if fh_remaining_len h <? 4 then
      let$ r := op (PubRec_reason ack_reason) in
      COk (mkPubRec pkid r None)
    else
      let$ (properties, b) := c_PubRecProperties_read ft b in
      let$ r := op (PubRec_reason ack_reason) in
      COk (mkPubRec pkid r properties).

(** Counted: /repo/src/pubrel.rs:160-173 body of the `match` in PubRelProperties::read. *)
Definition c_PubRelProperties_step (ft : feature) (prop : N) (p : PubRelProperties) (b : bytes)
  : cost (PubRelProperties * N * bytes) :=
  let$ t := op (property prop) in
  let '(mkPubRelProperties rs up) := p in
  match t with
  | ReasonString =>
      let$ (v, b) := c_read_mqtt_string ft b in
      COk (mkPubRelProperties (Some v) up, 2 + blen v, b)
  | UserProperty =>
      let$ (k, b) := c_read_mqtt_string ft b in
      let$ (v, b) := c_read_mqtt_string ft b in
      do$ push; COk (mkPubRelProperties rs (up ++ [(k, v)]), 2 + blen k + 2 + blen v, b)
  | _ => CErr (InvalidPropertyType prop)
  end.

(** Counted: /repo/src/pubrel.rs:144-180 PubRelProperties::read. *)
Definition c_PubRelProperties_read (ft : feature) (b : bytes)
  : cost (option PubRelProperties * bytes) :=
  c_props_read (c_PubRelProperties_step ft) PubRelProperties_init b.

(** Counted: /repo/src/pubrel.rs:69-98 PubRel::read. *)
Definition c_PubRel_read (ft : feature) (h : FixedHeader) (b : bytes) : cost PubRel :=
  let$ b := c_advance b (fh_fixed_header_len h) in
  let$ (pkid, b) := c_read_u16 b in
  if fh_remaining_len h =? 2 then COk (mkPubRel pkid PLR_Success None)
  else
    let$ (ack_reason, b) := c_read_u8 b in
    if fh_remaining_len h <? 4 then
      let$ r := op (PubRel_reason ack_reason) in
      COk (mkPubRel pkid r None)
    else
      let$ (properties, b) := c_PubRelProperties_read ft b in
      let$ r := op (PubRel_reason ack_reason) in
      COk (mkPubRel pkid r properties).

(** Counted: /repo/src/pubcomp.rs:159-172 body of the `match` in PubCompProperties::read. *)
Definition c_PubCompProperties_step (ft : feature) (prop : N) (p : PubCompProperties) (b : bytes)
  : cost (PubCompProperties * N * bytes) :=
  let$ t := op (property prop) in
  let '(mkPubCompProperties rs up) := p in
  match t with
  | ReasonString =>
      let$ (v, b) := c_read_mqtt_string ft b in
      COk (mkPubCompProperties (Some v) up, 2 + blen v, b)
  | UserProperty =>
      let$ (k, b) := c_read_mqtt_string ft b in
      let$ (v, b) := c_read_mqtt_string ft b in
      do$ push; COk (mkPubCompProperties rs (up ++ [(k, v)]), 2 + blen k + 2 + blen v, b)
  | _ => CErr (InvalidPropertyType prop)
  end.

(** Counted: /repo/src/pubcomp.rs:143-179 PubCompProperties::read. *)
Definition c_PubCompProperties_read (ft : feature) (b : bytes)
  : cost (option PubCompProperties * bytes) :=
  c_props_read (c_PubCompProperties_step ft) PubCompProperties_init b.

(** Counted: /repo/src/pubcomp.rs:67-97 PubComp::read. *)
Definition c_PubComp_read (ft : feature) (h : FixedHeader) (b : bytes) : cost PubComp :=
  let$ b := c_advance b (fh_fixed_header_len h) in
  let$ (pkid, b) := c_read_u16 b in
  if fh_remaining_len h =? 2 then COk (mkPubComp pkid PCR_Success None)
  else
    let$ (ack_reason, b) := c_read_u8 b in
    if fh_remaining_len h <? 4 then
      let$ r := op (PubComp_reason ack_reason) in
      COk (mkPubComp pkid r None)
    else
      let$ (properties, b) := c_PubCompProperties_read ft b in
      let$ r := op (PubComp_reason ack_reason) in
      COk (mkPubComp pkid r properties).

(** Counted: /repo/src/subscribe.rs:241-256 body of the `match` in SubscribeProperties::read.
    Note `cursor += 1 + id_len` (245). *)
Definition c_SubscribeProperties_step (ft : feature) (prop : N) (p : SubscribeProperties) (b : bytes)
  : cost (SubscribeProperties * N * bytes) :=
  let$ t := op (property prop) in
  let '(mkSubscribeProperties id up) := p in
  match t with
  | SubscriptionIdentifier =>
      let$ (id_len, sub_id) := c_length_ b in
      let$ b := c_advance b id_len in
      COk (mkSubscribeProperties (Some sub_id) up, 1 + id_len, b)
  | UserProperty =>
      let$ (k, b) := c_read_mqtt_string ft b in
      let$ (v, b) := c_read_mqtt_string ft b in
      do$ push; COk (mkSubscribeProperties id (up ++ [(k, v)]), 2 + blen k + 2 + blen v, b)
  | _ => CErr (InvalidPropertyType prop)
  end.

(** Counted: /repo/src/subscribe.rs:224-263 SubscribeProperties::read. *)
Definition c_SubscribeProperties_read (ft : feature) (b : bytes)
  : cost (option SubscribeProperties * bytes) :=
  c_props_read (c_SubscribeProperties_step ft) SubscribeProperties_init b.

(** Counted: /repo/src/subscribe.rs:135-161 the `while bytes.has_remaining()` loop of Filter::read. *)
Fixpoint c_Filter_read_loop (ft : feature) (fuel : nat) (filters : list Filter) (b : bytes)
  : cost (list Filter) :=
  do$ has_remaining; match b with
  | [] => COk filters
  | _ =>
      match fuel with
      | O => CDiverge
      | S fuel =>
          let$ (path, b) := c_read_mqtt_string ft b in
          let$ (options, b) := c_read_u8 b in
          let requested_qos := N.land options 3 in
          let nolocal := negb (N.land (N.shiftr options 2) 1 =? 0) in
          let preserve_retain := negb (N.land (N.shiftr options 3) 1 =? 0) in
          let rule := N.land (N.shiftr options 4) 3 in
          let$ retain_forward_rule :=
            (match rule with
             | 0 => COk OnEverySubscribe
             | 1 => COk OnNewSubscribe
             | 2 => COk Never
             | _ => CErr (InvalidRetainForwardRule rule)
             end) in
          match qos requested_qos with
          | None => CErr (InvalidQoS requested_qos)
          | Some q =>
              do$ push; c_Filter_read_loop ft fuel
                (filters ++ [mkFilter path q nolocal preserve_retain retain_forward_rule]) b
          end
      end
  end.

(** Counted: /repo/src/subscribe.rs:131-164 Filter::read (always consumes all bytes on success). *)
Definition c_Filter_read (ft : feature) (b : bytes) : cost (list Filter) :=
  c_Filter_read_loop ft (S (length b)) [] b.

(** Counted: /repo/src/subscribe.rs:61-79 Subscribe::read. *)
Definition c_Subscribe_read (ft : feature) (h : FixedHeader) (b : bytes) : cost Subscribe :=
  let$ b := c_advance b (fh_fixed_header_len h) in
  let$ (pkid, b) := c_read_u16 b in
  let$ (properties, b) := c_SubscribeProperties_read ft b in
  let$ filters := c_Filter_read ft b in
  match filters with
  | [] => CErr EmptySubscription
  | _ => COk (mkSubscribe pkid filters properties)
  end.

(** Counted: /repo/src/suback.rs:138-151 body of the `match` in SubAckProperties::read. *)
Definition c_SubAckProperties_step (ft : feature) (prop : N) (p : SubAckProperties) (b : bytes)
  : cost (SubAckProperties * N * bytes) :=
  let$ t := op (property prop) in
  let '(mkSubAckProperties rs up) := p in
  match t with
  | ReasonString =>
      let$ (v, b) := c_read_mqtt_string ft b in
      COk (mkSubAckProperties (Some v) up, 2 + blen v, b)
  | UserProperty =>
      let$ (k, b) := c_read_mqtt_string ft b in
      let$ (v, b) := c_read_mqtt_string ft b in
      do$ push; COk (mkSubAckProperties rs (up ++ [(k, v)]), 2 + blen k + 2 + blen v, b)
  | _ => CErr (InvalidPropertyType prop)
  end.

(** Counted: /repo/src/suback.rs:122-158 SubAckProperties::read. *)
Definition c_SubAckProperties_read (ft : feature) (b : bytes)
  : cost (option SubAckProperties * bytes) :=
  c_props_read (c_SubAckProperties_step ft) SubAckProperties_init b.

(** Counted: /repo/src/suback.rs:53-56 the `while bytes.has_remaining()` loop of SubAck::read. *)
Fixpoint c_SubAck_read_loop (fuel : nat) (codes : list SubscribeReasonCode) (b : bytes)
  : cost (list SubscribeReasonCode) :=
  do$ has_remaining; match b with
  | [] => COk codes
  | _ =>
      match fuel with
      | O => CDiverge
      | S fuel =>
          let$ (c, b) := c_read_u8 b in
          let$ r := op (SubAck_reason c) in
          do$ push; c_SubAck_read_loop fuel (codes ++ [r]) b
      end
  end.

(** Counted: /repo/src/suback.rs:41-65 SubAck::read. *)
Definition c_SubAck_read (ft : feature) (h : FixedHeader) (b : bytes) : cost SubAck :=
  let$ b := c_advance b (fh_fixed_header_len h) in
  let$ (pkid, b) := c_read_u16 b in
  let$ (properties, b) := c_SubAckProperties_read ft b in
  match b with
  | [] => CErr MalformedPacket
  | _ =>
      let$ codes := c_SubAck_read_loop (S (length b)) [] b in
      COk (mkSubAck pkid codes properties)
  end.

(** Counted: /repo/src/unsubscribe.rs:129-137 body of the `match` in UnsubscribeProperties::read. *)
Definition c_UnsubscribeProperties_step (ft : feature) (prop : N) (p : UnsubscribeProperties) (b : bytes)
  : cost (UnsubscribeProperties * N * bytes) :=
  let$ t := op (property prop) in
  let '(mkUnsubscribeProperties up) := p in
  match t with
  | UserProperty =>
      let$ (k, b) := c_read_mqtt_string ft b in
      let$ (v, b) := c_read_mqtt_string ft b in
      do$ push; COk (mkUnsubscribeProperties (up ++ [(k, v)]), 2 + blen k + 2 + blen v, b)
  | _ => CErr (InvalidPropertyType prop)
  end.

(** Counted: /repo/src/unsubscribe.rs:113-141 UnsubscribeProperties::read. *)
Definition c_UnsubscribeProperties_read (ft : feature) (b : bytes)
  : cost (option UnsubscribeProperties * bytes) :=
  c_props_read (c_UnsubscribeProperties_step ft) UnsubscribeProperties_init b.

(** Counted: /repo/src/unsubscribe.rs:59-62 the `while bytes.has_remaining()` loop of Unsubscribe::read. *)
Fixpoint c_Unsubscribe_read_loop (ft : feature) (fuel : nat) (filters : list bytes) (b : bytes)
  : cost (list bytes) :=
  do$ has_remaining; match b with
  | [] => COk filters
  | _ =>
      match fuel with
      | O => CDiverge
      | S fuel =>
          let$ (filter, b) := c_read_mqtt_string ft b in
          do$ push; c_Unsubscribe_read_loop ft fuel (filters ++ [filter]) b
      end
  end.

(** Counted: /repo/src/unsubscribe.rs:51-70 Unsubscribe::read. *)
Definition c_Unsubscribe_read (ft : feature) (h : FixedHeader) (b : bytes) : cost Unsubscribe :=
  let$ b := c_advance b (fh_fixed_header_len h) in
  let$ (pkid, b) := c_read_u16 b in
  let$ (properties, b) := c_UnsubscribeProperties_read ft b in
  let$ filters := c_Unsubscribe_read_loop ft (S (length b)) [] b in
  COk (mkUnsubscribe pkid filters properties).

(** Counted: /repo/src/unsuback.rs:135-148 body of the `match` in UnsubAckProperties::read. *)
Definition c_UnsubAckProperties_step (ft : feature) (prop : N) (p : UnsubAckProperties) (b : bytes)
  : cost (UnsubAckProperties * N * bytes) :=
  let$ t := op (property prop) in
  let '(mkUnsubAckProperties rs up) := p in
  match t with
  | ReasonString =>
      let$ (v, b) := c_read_mqtt_string ft b in
      COk (mkUnsubAckProperties (Some v) up, 2 + blen v, b)
  | UserProperty =>
      let$ (k, b) := c_read_mqtt_string ft b in
      let$ (v, b) := c_read_mqtt_string ft b in
      do$ push; COk (mkUnsubAckProperties rs (up ++ [(k, v)]), 2 + blen k + 2 + blen v, b)
  | _ => CErr (InvalidPropertyType prop)
  end.

(** Counted: /repo/src/unsuback.rs:119-155 UnsubAckProperties::read. *)
Definition c_UnsubAckProperties_read (ft : feature) (b : bytes)
  : cost (option UnsubAckProperties * bytes) :=
  c_props_read (c_UnsubAckProperties_step ft) UnsubAckProperties_init b.

(** Counted: /repo/src/unsuback.rs:53-56 the `while bytes.has_remaining()` loop of UnsubAck::read. *)
Fixpoint c_UnsubAck_read_loop (fuel : nat) (codes : list UnsubAckReason) (b : bytes)
  : cost (list UnsubAckReason) :=
  do$ has_remaining; match b with
  | [] => COk codes
  | _ =>
      match fuel with
      | O => CDiverge
      | S fuel =>
          let$ (c, b) := c_read_u8 b in
          let$ r := op (UnsubAck_reason c) in
          do$ push; c_UnsubAck_read_loop fuel (codes ++ [r]) b
      end
  end.

(** Counted: /repo/src/unsuback.rs:41-65 UnsubAck::read. *)
Definition c_UnsubAck_read (ft : feature) (h : FixedHeader) (b : bytes) : cost UnsubAck :=
  let$ b := c_advance b (fh_fixed_header_len h) in
  let$ (pkid, b) := c_read_u16 b in
  let$ (properties, b) := c_UnsubAckProperties_read ft b in
  match b with
  | [] => CErr MalformedPacket
  | _ =>
      let$ codes := c_UnsubAck_read_loop (S (length b)) [] b in
      COk (mkUnsubAck pkid codes properties)
  end.

(** Counted: /repo/src/disconnect.rs:186-208 body of the `match` in DisconnectProperties::extract. *)
Definition c_DisconnectProperties_step (ft : feature) (prop : N) (p : DisconnectProperties) (b : bytes)
  : cost (DisconnectProperties * N * bytes) :=
  let$ t := op (property prop) in
  let '(mkDisconnectProperties sei rs up sr) := p in
  match t with
  | SessionExpiryInterval =>
      let$ (v, b) := c_read_u32 b in
      COk (mkDisconnectProperties (Some v) rs up sr, 4, b)
  | ReasonString =>
      let$ (v, b) := c_read_mqtt_string ft b in
      COk (mkDisconnectProperties sei (Some v) up sr, 2 + blen v, b)
  | UserProperty =>
      let$ (k, b) := c_read_mqtt_string ft b in
      let$ (v, b) := c_read_mqtt_string ft b in
      do$ push; COk (mkDisconnectProperties sei rs (up ++ [(k, v)]) sr, 2 + blen k + 2 + blen v, b)
  | ServerReference =>
      let$ (v, b) := c_read_mqtt_string ft b in
      COk (mkDisconnectProperties sei rs up (Some v), 2 + blen v, b)
  | _ => CErr (InvalidPropertyType prop)
  end.

(** Counted: /repo/src/disconnect.rs:165-219 DisconnectProperties::extract. *)
Definition c_DisconnectProperties_extract (ft : feature) (b : bytes)
  : cost (option DisconnectProperties * bytes) :=
  c_props_read (c_DisconnectProperties_step ft) DisconnectProperties_init b.

(** Counted: /repo/src/disconnect.rs:293-319 Disconnect::read. *)
Definition c_Disconnect_read (ft : feature) (h : FixedHeader) (b : bytes) : cost Disconnect :=
  let packet_type := N.shiftr (fh_byte1 h) 4 in
  let flags := N.land (fh_byte1 h) 15 in
  let$ b := c_advance b (fh_fixed_header_len h) in
  if negb (packet_type =? 14) then CErr (InvalidPacketType packet_type)
  else if negb (flags =? 0) then CErr MalformedPacket
  else if fh_remaining_len h =? 0 then COk (Disconnect_new DRC_NormalDisconnection)
  else
    let$ (reason_code, b) := c_read_u8 b in
    let$ reason := op (DisconnectReasonCode_try_from reason_code) in
    let$ (properties, b) := c_DisconnectProperties_extract ft b in
    COk (mkDisconnect reason properties).

(** Counted: /repo/src/lib.rs:162-213 the `match packet_type` of Packet::read. *)
Definition c_Packet_read_frame (ft : feature) (h : FixedHeader) (packet : bytes) : cost Packet :=
  let$ t := op (packet_type h) in
  if (fh_remaining_len h =? 0) && negb (match t with PT_Disconnect => true | _ => false end)
  then
    match t with
    | PT_PingReq => COk P_PingReq
    | PT_PingResp => COk P_PingResp
    | _ => CErr PayloadRequired
    end
  else
    match t with
    | PT_Connect =>
        let$ (connect, will, login) := c_Connect_read ft h packet in
        COk (P_Connect connect will login)
    | PT_Publish => let$ x := c_Publish_read ft h packet in COk (P_Publish x)
    | PT_Subscribe => let$ x := c_Subscribe_read ft h packet in COk (P_Subscribe x)
    | PT_Unsubscribe => let$ x := c_Unsubscribe_read ft h packet in COk (P_Unsubscribe x)
    | PT_ConnAck => let$ x := c_ConnAck_read ft h packet in COk (P_ConnAck x)
    | PT_PubAck => let$ x := c_PubAck_read ft h packet in COk (P_PubAck x)
    | PT_PubRec => let$ x := c_PubRec_read ft h packet in COk (P_PubRec x)
    | PT_PubRel => let$ x := c_PubRel_read ft h packet in COk (P_PubRel x)
    | PT_PubComp => let$ x := c_PubComp_read ft h packet in COk (P_PubComp x)
    | PT_SubAck => let$ x := c_SubAck_read ft h packet in COk (P_SubAck x)
    | PT_UnsubAck => let$ x := c_UnsubAck_read ft h packet in COk (P_UnsubAck x)
    | PT_PingReq => COk P_PingReq
    | PT_PingResp => COk P_PingResp
    | PT_Disconnect => let$ x := c_Disconnect_read ft h packet in COk (P_Disconnect x)
    end.

(** Counted: /repo/src/lib.rs:146-216 Packet::read: the steps, and the outcome with the stream
    afterwards. *)
Definition c_Packet_read (ft : feature) (stream : bytes) (max_size : option N)
  : N * (res Packet * bytes) :=
  match c_check stream max_size with
  | (n, Ok h) =>
      match op (split_to stream (frame_length h)) with
      | (m, Ok (packet, rest)) =>
          (n + m + fst (c_Packet_read_frame ft h packet), (snd (c_Packet_read_frame ft h packet), rest))
      | (m, Err e) => (n + m, (Err e, stream))
      | (m, Panic) => (n + m, (Panic, stream))
      | (m, Diverge) => (n + m, (Diverge, stream))
      end
  | (n, Err e) => (n, (Err e, stream))
  | (n, Panic) => (n, (Panic, stream))
  | (n, Diverge) => (n, (Diverge, stream))
  end.

(** The callers of Driver.v with the steps of their calls of Packet::read added up: the number of
    steps comes first. *)
Inductive c_drains (ft : feature) (max : option N) : N -> bytes -> list Packet -> error -> bytes -> Prop :=
| c_drains_stop n s e rest : c_Packet_read ft s max = (n, (Err e, rest)) -> c_drains ft max n s [] e rest
| c_drains_packet n m s p s' ps e rest :
    c_Packet_read ft s max = (n, (Ok p, s')) -> c_drains ft max m s' ps e rest ->
    c_drains ft max (n + m) s (p :: ps) e rest.
Inductive c_receives (ft : feature) (max : option N) :
  N -> bytes -> list bytes -> list Packet -> error -> bytes -> Prop :=
| c_receives_end k buf ps n rest :
    c_drains ft max k buf ps (InsufficientBytes n) rest ->
    c_receives ft max k buf [] ps (InsufficientBytes n) rest
| c_receives_chunk k m buf c cs ps n buf' ps' e rest :
    c_drains ft max k buf ps (InsufficientBytes n) buf' ->
    c_receives ft max m (buf' ++ c) cs ps' e rest ->
    c_receives ft max (k + m) buf (c :: cs) (ps ++ ps') e rest
| c_receives_fail k buf cs ps e buf' :
    c_drains ft max k buf ps e buf' -> (forall n, e <> InsufficientBytes n) ->
    c_receives ft max k buf cs ps e (buf' ++ concat cs).
