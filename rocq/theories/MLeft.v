(** The component readers again, now with the buffer they leave behind also after an error: the
    `&mut Bytes` argument of *Properties::read, LastWill::read, Login::read and Filter::read is the
    caller's.  Same functions as in MLib and the packet files (C57 proves that the results agree);
    here a reader maps the buffer to (outcome, buffer afterwards), like the writers. *)
From Verif Require Import Types MLib MConnect MConnAck MPublish MPubAck MPubRec MPubRel MPubComp
  MSubscribe MSubAck MUnsubscribe MUnsubAck MDisconnect.

(** An operation that checks the length before it removes anything: `read_u8`, `read_u16`,
    `read_u32` (/repo/src/lib.rs:589-614), `Bytes::split_to`, `Bytes::advance`. *)
Definition take {A} (rd : bytes -> res (A * bytes)) : W A := fun b =>
  match rd b with
  | Ok (a, r) => (Ok a, r)
  | Err e => (Err e, b)
  | Panic => (Panic, b)
  | Diverge => (Diverge, b)
  end.
Definition s_read_u8 : W N := take read_u8.
Definition s_read_u16 : W N := take read_u16.
Definition s_read_u32 : W N := take read_u32.
Definition s_split_to (n : N) : W bytes := take (fun b => split_to b n).
Definition s_advance (n : N) : W unit := take (fun b => let? r := advance b n in Ok (tt, r)).
(** `length(bytes.iter())` (/repo/src/lib.rs:439-476) only looks. *)
Definition s_length : W (N * N) := fun b => (length_ b, b).

(** /repo/src/lib.rs:478-492 fn read_mqtt_bytes. *)
Definition s_read_mqtt_bytes : W bytes :=
  do len <- s_read_u16;
  fun b => if blen b <? len then (Err (BoundaryCrossed len), b) else s_split_to len b.

(** /repo/src/lib.rs:494-519 fn read_mqtt_string. *)
Definition s_read_mqtt_string (ft : feature) : W bytes :=
  match ft with
  | F_default | F_boxed | F_cow =>
      do s <- s_read_mqtt_bytes;
      if from_utf8 s then wret s else wfail TopicNotUtf8
  | F_binary => s_read_mqtt_bytes
  end.

(** The property loop (see MLib.props_loop; e.g. /repo/src/connect.rs:191-239). *)
Fixpoint s_props_loop {S : Type} (step : N -> S -> W (S * N))
    (fuel : nat) (cursor properties_len : N) (st : S) : W S :=
  if cursor <? properties_len then
    match fuel with
    | O => fun b => (Diverge, b)
    | Datatypes.S fuel =>
        do prop <- s_read_u8;
        do cursor <- wlift (usize_add cursor 1);
        do (st, n) <- step prop st;
        do cursor <- wlift (usize_add cursor n);
        s_props_loop step fuel cursor properties_len st
    end
  else wret st.

(** The common frame of every *Properties::read (see MLib.props_read; e.g.
    /repo/src/connect.rs:174-252). *)
Definition s_props_read {S : Type} (step : N -> S -> W (S * N)) (init : S) : W (option S) :=
  do (properties_len_len, properties_len) <- s_length;
  do_ s_advance properties_len_len;
  if properties_len =? 0 then wret None
  else fun b =>
    (do st <- s_props_loop step (Datatypes.S (length b)) 0 properties_len init;
     wret (Some st)) b.

(** /repo/src/connect.rs:196-238 body of the `match` in ConnectProperties::read. *)
Definition s_ConnectProperties_step (ft : feature) (prop : N) (p : ConnectProperties) : W (ConnectProperties * N) :=
  do t <- wlift (property prop);
  let '(mkConnectProperties sei rm mps tam rri rpi up am ad) := p in
  match t with
  | SessionExpiryInterval =>
      do v <- s_read_u32;
      wret (mkConnectProperties (Some v) rm mps tam rri rpi up am ad, 4)
  | ReceiveMaximum =>
      do v <- s_read_u16;
      wret (mkConnectProperties sei (Some v) mps tam rri rpi up am ad, 2)
  | MaximumPacketSize =>
      do v <- s_read_u32;
      wret (mkConnectProperties sei rm (Some v) tam rri rpi up am ad, 4)
  | TopicAliasMaximum =>
      do v <- s_read_u16;
      wret (mkConnectProperties sei rm mps (Some v) rri rpi up am ad, 2)
  | RequestResponseInformation =>
      do v <- s_read_u8;
      wret (mkConnectProperties sei rm mps tam (Some v) rpi up am ad, 1)
  | RequestProblemInformation =>
      do v <- s_read_u8;
      wret (mkConnectProperties sei rm mps tam rri (Some v) up am ad, 1)
  | UserProperty =>
      do k <- s_read_mqtt_string ft;
      do v <- s_read_mqtt_string ft;
      wret (mkConnectProperties sei rm mps tam rri rpi (up ++ [(k, v)]) am ad,
          2 + blen k + 2 + blen v)
  | AuthenticationMethod =>
      do v <- s_read_mqtt_string ft;
      wret (mkConnectProperties sei rm mps tam rri rpi up (Some v) ad, 2 + blen v)
  | AuthenticationData =>
      do v <- s_read_mqtt_bytes;
      wret (mkConnectProperties sei rm mps tam rri rpi up am (Some v), 2 + blen v)
  | _ => wfail (InvalidPropertyType prop)
  end.
(** /repo/src/connect.rs:174-252 ConnectProperties::read. *)
Definition s_ConnectProperties_read (ft : feature) : W (option ConnectProperties) :=
  s_props_read (s_ConnectProperties_step ft) ConnectProperties_new.

(** /repo/src/connect.rs:497-532 body of the `match` in LastWillProperties::read. *)
Definition s_LastWillProperties_step (ft : feature) (prop : N) (p : LastWillProperties) : W (LastWillProperties * N) :=
  do t <- wlift (property prop);
  let '(mkLastWillProperties di pfi mei ct rt cd up) := p in
  match t with
  | WillDelayInterval =>
      do v <- s_read_u32;
      wret (mkLastWillProperties (Some v) pfi mei ct rt cd up, 4)
  | PayloadFormatIndicator =>
      do v <- s_read_u8;
      wret (mkLastWillProperties di (Some v) mei ct rt cd up, 1)
  | MessageExpiryInterval =>
      do v <- s_read_u32;
      wret (mkLastWillProperties di pfi (Some v) ct rt cd up, 4)
  | ContentType =>
      do v <- s_read_mqtt_string ft;
      wret (mkLastWillProperties di pfi mei (Some v) rt cd up, 2 + blen v)
  | ResponseTopic =>
      do v <- s_read_mqtt_string ft;
      wret (mkLastWillProperties di pfi mei ct (Some v) cd up, 2 + blen v)
  | CorrelationData =>
      do v <- s_read_mqtt_bytes;
      wret (mkLastWillProperties di pfi mei ct rt (Some v) up, 2 + blen v)
  | UserProperty =>
      do k <- s_read_mqtt_string ft;
      do v <- s_read_mqtt_string ft;
      wret (mkLastWillProperties di pfi mei ct rt cd (up ++ [(k, v)]),
          2 + blen k + 2 + blen v)
  | _ => wfail (InvalidPropertyType prop)
  end.
(** /repo/src/connect.rs:476-544 LastWillProperties::read. *)
Definition s_LastWillProperties_read (ft : feature) : W (option LastWillProperties) :=
  s_props_read (s_LastWillProperties_step ft) LastWillProperties_init.

(** /repo/src/connack.rs:242-320 body of the `match` in ConnAckProperties::read. *)
Definition s_ConnAckProperties_step (ft : feature) (prop : N) (p : ConnAckProperties) : W (ConnAckProperties * N) :=
  do t <- wlift (property prop);
  let '(mkConnAckProperties sei rm mq ra mps aci tam rs up wsa sia ssa ska ri sr am ad) := p in
  match t with
  | SessionExpiryInterval =>
      do v <- s_read_u32;
      wret (mkConnAckProperties (Some v) rm mq ra mps aci tam rs up wsa sia ssa ska ri sr am ad, 4)
  | ReceiveMaximum =>
      do v <- s_read_u16;
      wret (mkConnAckProperties sei (Some v) mq ra mps aci tam rs up wsa sia ssa ska ri sr am ad, 2)
  | MaximumQos =>
      do v <- s_read_u8;
      wret (mkConnAckProperties sei rm (Some v) ra mps aci tam rs up wsa sia ssa ska ri sr am ad, 1)
  | RetainAvailable =>
      do v <- s_read_u8;
      wret (mkConnAckProperties sei rm mq (Some v) mps aci tam rs up wsa sia ssa ska ri sr am ad, 1)
  | AssignedClientIdentifier =>
      do v <- s_read_mqtt_string ft;
      wret (mkConnAckProperties sei rm mq ra mps (Some v) tam rs up wsa sia ssa ska ri sr am ad,
          2 + blen v)
  | MaximumPacketSize =>
      do v <- s_read_u32;
      wret (mkConnAckProperties sei rm mq ra (Some v) aci tam rs up wsa sia ssa ska ri sr am ad, 4)
  | TopicAliasMaximum =>
      do v <- s_read_u16;
      wret (mkConnAckProperties sei rm mq ra mps aci (Some v) rs up wsa sia ssa ska ri sr am ad, 2)
  | ReasonString =>
      do v <- s_read_mqtt_string ft;
      wret (mkConnAckProperties sei rm mq ra mps aci tam (Some v) up wsa sia ssa ska ri sr am ad,
          2 + blen v)
  | UserProperty =>
      do k <- s_read_mqtt_string ft;
      do v <- s_read_mqtt_string ft;
      wret (mkConnAckProperties sei rm mq ra mps aci tam rs (up ++ [(k, v)]) wsa sia ssa ska ri sr am ad,
          2 + blen k + 2 + blen v)
  | WildcardSubscriptionAvailable =>
      do v <- s_read_u8;
      wret (mkConnAckProperties sei rm mq ra mps aci tam rs up (Some v) sia ssa ska ri sr am ad, 1)
  | SubscriptionIdentifierAvailable =>
      do v <- s_read_u8;
      wret (mkConnAckProperties sei rm mq ra mps aci tam rs up wsa (Some v) ssa ska ri sr am ad, 1)
  | SharedSubscriptionAvailable =>
      do v <- s_read_u8;
      wret (mkConnAckProperties sei rm mq ra mps aci tam rs up wsa sia (Some v) ska ri sr am ad, 1)
  | ServerKeepAlive =>
      do v <- s_read_u16;
      wret (mkConnAckProperties sei rm mq ra mps aci tam rs up wsa sia ssa (Some v) ri sr am ad, 2)
  | ResponseInformation =>
      do v <- s_read_mqtt_string ft;
      wret (mkConnAckProperties sei rm mq ra mps aci tam rs up wsa sia ssa ska (Some v) sr am ad,
          2 + blen v)
  | ServerReference =>
      do v <- s_read_mqtt_string ft;
      wret (mkConnAckProperties sei rm mq ra mps aci tam rs up wsa sia ssa ska ri (Some v) am ad,
          2 + blen v)
  | AuthenticationMethod =>
      do v <- s_read_mqtt_string ft;
      wret (mkConnAckProperties sei rm mq ra mps aci tam rs up wsa sia ssa ska ri sr (Some v) ad,
          2 + blen v)
  | AuthenticationData =>
      do v <- s_read_mqtt_bytes;
      wret (mkConnAckProperties sei rm mq ra mps aci tam rs up wsa sia ssa ska ri sr am (Some v),
          2 + blen v)
  | _ => wfail (InvalidPropertyType prop)
  end.
(** /repo/src/connack.rs:210-342 ConnAckProperties::read. *)
Definition s_ConnAckProperties_read (ft : feature) : W (option ConnAckProperties) :=
  s_props_read (s_ConnAckProperties_step ft) ConnAckProperties_new.

(** /repo/src/publish.rs:203-244 body of the `match` in PublishProperties::read.
    Note the `cursor += 1 + id_len` of the subscription identifier (234). *)
Definition s_PublishProperties_step (ft : feature) (prop : N) (p : PublishProperties) : W (PublishProperties * N) :=
  do t <- wlift (property prop);
  let '(mkPublishProperties pfi mei ta rt cd up si ct) := p in
  match t with
  | PayloadFormatIndicator =>
      do v <- s_read_u8;
      wret (mkPublishProperties (Some v) mei ta rt cd up si ct, 1)
  | MessageExpiryInterval =>
      do v <- s_read_u32;
      wret (mkPublishProperties pfi (Some v) ta rt cd up si ct, 4)
  | TopicAlias =>
      do v <- s_read_u16;
      wret (mkPublishProperties pfi mei (Some v) rt cd up si ct, 2)
  | ResponseTopic =>
      do v <- s_read_mqtt_string ft;
      wret (mkPublishProperties pfi mei ta (Some v) cd up si ct, 2 + blen v)
  | CorrelationData =>
      do v <- s_read_mqtt_bytes;
      wret (mkPublishProperties pfi mei ta rt (Some v) up si ct, 2 + blen v)
  | UserProperty =>
      do k <- s_read_mqtt_string ft;
      do v <- s_read_mqtt_string ft;
      wret (mkPublishProperties pfi mei ta rt cd (up ++ [(k, v)]) si ct,
          2 + blen k + 2 + blen v)
  | SubscriptionIdentifier =>
      do (id_len, id) <- s_length;
      do_ s_advance id_len;
      wret (mkPublishProperties pfi mei ta rt cd up (si ++ [id]) ct, 1 + id_len)
  | ContentType =>
      do v <- s_read_mqtt_string ft;
      wret (mkPublishProperties pfi mei ta rt cd up si (Some v), 2 + blen v)
  | _ => wfail (InvalidPropertyType prop)
  end.
(** /repo/src/publish.rs:181-257 PublishProperties::read. *)
Definition s_PublishProperties_read (ft : feature) : W (option PublishProperties) :=
  s_props_read (s_PublishProperties_step ft) PublishProperties_default.

(** /repo/src/puback.rs:166-179 body of the `match` in PubAckProperties::read. *)
Definition s_PubAckProperties_step (ft : feature) (prop : N) (p : PubAckProperties) : W (PubAckProperties * N) :=
  do t <- wlift (property prop);
  let '(mkPubAckProperties rs up) := p in
  match t with
  | ReasonString =>
      do v <- s_read_mqtt_string ft;
      wret (mkPubAckProperties (Some v) up, 2 + blen v)
  | UserProperty =>
      do k <- s_read_mqtt_string ft;
      do v <- s_read_mqtt_string ft;
      wret (mkPubAckProperties rs (up ++ [(k, v)]), 2 + blen k + 2 + blen v)
  | _ => wfail (InvalidPropertyType prop)
  end.
(** /repo/src/puback.rs:150-186 PubAckProperties::read. *)
Definition s_PubAckProperties_read (ft : feature) : W (option PubAckProperties) :=
  s_props_read (s_PubAckProperties_step ft) PubAckProperties_init.

(** /repo/src/pubrec.rs:161-174 body of the `match` in PubRecProperties::read. *)
Definition s_PubRecProperties_step (ft : feature) (prop : N) (p : PubRecProperties) : W (PubRecProperties * N) :=
  do t <- wlift (property prop);
  let '(mkPubRecProperties rs up) := p in
  match t with
  | ReasonString =>
      do v <- s_read_mqtt_string ft;
      wret (mkPubRecProperties (Some v) up, 2 + blen v)
  | UserProperty =>
      do k <- s_read_mqtt_string ft;
      do v <- s_read_mqtt_string ft;
      wret (mkPubRecProperties rs (up ++ [(k, v)]), 2 + blen k + 2 + blen v)
  | _ => wfail (InvalidPropertyType prop)
  end.
(** /repo/src/pubrec.rs:145-181 PubRecProperties::read. *)
Definition s_PubRecProperties_read (ft : feature) : W (option PubRecProperties) :=
  s_props_read (s_PubRecProperties_step ft) PubRecProperties_init.

(** /repo/src/pubrel.rs:160-173 body of the `match` in PubRelProperties::read. *)
Definition s_PubRelProperties_step (ft : feature) (prop : N) (p : PubRelProperties) : W (PubRelProperties * N) :=
  do t <- wlift (property prop);
  let '(mkPubRelProperties rs up) := p in
  match t with
  | ReasonString =>
      do v <- s_read_mqtt_string ft;
      wret (mkPubRelProperties (Some v) up, 2 + blen v)
  | UserProperty =>
      do k <- s_read_mqtt_string ft;
      do v <- s_read_mqtt_string ft;
      wret (mkPubRelProperties rs (up ++ [(k, v)]), 2 + blen k + 2 + blen v)
  | _ => wfail (InvalidPropertyType prop)
  end.
(** /repo/src/pubrel.rs:144-180 PubRelProperties::read. *)
Definition s_PubRelProperties_read (ft : feature) : W (option PubRelProperties) :=
  s_props_read (s_PubRelProperties_step ft) PubRelProperties_init.

(** /repo/src/pubcomp.rs:159-172 body of the `match` in PubCompProperties::read. *)
Definition s_PubCompProperties_step (ft : feature) (prop : N) (p : PubCompProperties) : W (PubCompProperties * N) :=
  do t <- wlift (property prop);
  let '(mkPubCompProperties rs up) := p in
  match t with
  | ReasonString =>
      do v <- s_read_mqtt_string ft;
      wret (mkPubCompProperties (Some v) up, 2 + blen v)
  | UserProperty =>
      do k <- s_read_mqtt_string ft;
      do v <- s_read_mqtt_string ft;
      wret (mkPubCompProperties rs (up ++ [(k, v)]), 2 + blen k + 2 + blen v)
  | _ => wfail (InvalidPropertyType prop)
  end.
(** /repo/src/pubcomp.rs:143-179 PubCompProperties::read. *)
Definition s_PubCompProperties_read (ft : feature) : W (option PubCompProperties) :=
  s_props_read (s_PubCompProperties_step ft) PubCompProperties_init.

(** /repo/src/subscribe.rs:241-256 body of the `match` in SubscribeProperties::read.
    Note `cursor += 1 + id_len` (245). *)
Definition s_SubscribeProperties_step (ft : feature) (prop : N) (p : SubscribeProperties) : W (SubscribeProperties * N) :=
  do t <- wlift (property prop);
  let '(mkSubscribeProperties id up) := p in
  match t with
  | SubscriptionIdentifier =>
      do (id_len, sub_id) <- s_length;
      do_ s_advance id_len;
      wret (mkSubscribeProperties (Some sub_id) up, 1 + id_len)
  | UserProperty =>
      do k <- s_read_mqtt_string ft;
      do v <- s_read_mqtt_string ft;
      wret (mkSubscribeProperties id (up ++ [(k, v)]), 2 + blen k + 2 + blen v)
  | _ => wfail (InvalidPropertyType prop)
  end.
(** /repo/src/subscribe.rs:224-263 SubscribeProperties::read. *)
Definition s_SubscribeProperties_read (ft : feature) : W (option SubscribeProperties) :=
  s_props_read (s_SubscribeProperties_step ft) SubscribeProperties_init.

(** /repo/src/suback.rs:138-151 body of the `match` in SubAckProperties::read. *)
Definition s_SubAckProperties_step (ft : feature) (prop : N) (p : SubAckProperties) : W (SubAckProperties * N) :=
  do t <- wlift (property prop);
  let '(mkSubAckProperties rs up) := p in
  match t with
  | ReasonString =>
      do v <- s_read_mqtt_string ft;
      wret (mkSubAckProperties (Some v) up, 2 + blen v)
  | UserProperty =>
      do k <- s_read_mqtt_string ft;
      do v <- s_read_mqtt_string ft;
      wret (mkSubAckProperties rs (up ++ [(k, v)]), 2 + blen k + 2 + blen v)
  | _ => wfail (InvalidPropertyType prop)
  end.
(** /repo/src/suback.rs:122-158 SubAckProperties::read. *)
Definition s_SubAckProperties_read (ft : feature) : W (option SubAckProperties) :=
  s_props_read (s_SubAckProperties_step ft) SubAckProperties_init.

(** /repo/src/unsubscribe.rs:129-137 body of the `match` in UnsubscribeProperties::read. *)
Definition s_UnsubscribeProperties_step (ft : feature) (prop : N) (p : UnsubscribeProperties) : W (UnsubscribeProperties * N) :=
  do t <- wlift (property prop);
  let '(mkUnsubscribeProperties up) := p in
  match t with
  | UserProperty =>
      do k <- s_read_mqtt_string ft;
      do v <- s_read_mqtt_string ft;
      wret (mkUnsubscribeProperties (up ++ [(k, v)]), 2 + blen k + 2 + blen v)
  | _ => wfail (InvalidPropertyType prop)
  end.
(** /repo/src/unsubscribe.rs:113-141 UnsubscribeProperties::read. *)
Definition s_UnsubscribeProperties_read (ft : feature) : W (option UnsubscribeProperties) :=
  s_props_read (s_UnsubscribeProperties_step ft) UnsubscribeProperties_init.

(** /repo/src/unsuback.rs:135-148 body of the `match` in UnsubAckProperties::read. *)
Definition s_UnsubAckProperties_step (ft : feature) (prop : N) (p : UnsubAckProperties) : W (UnsubAckProperties * N) :=
  do t <- wlift (property prop);
  let '(mkUnsubAckProperties rs up) := p in
  match t with
  | ReasonString =>
      do v <- s_read_mqtt_string ft;
      wret (mkUnsubAckProperties (Some v) up, 2 + blen v)
  | UserProperty =>
      do k <- s_read_mqtt_string ft;
      do v <- s_read_mqtt_string ft;
      wret (mkUnsubAckProperties rs (up ++ [(k, v)]), 2 + blen k + 2 + blen v)
  | _ => wfail (InvalidPropertyType prop)
  end.
(** /repo/src/unsuback.rs:119-155 UnsubAckProperties::read. *)
Definition s_UnsubAckProperties_read (ft : feature) : W (option UnsubAckProperties) :=
  s_props_read (s_UnsubAckProperties_step ft) UnsubAckProperties_init.

(** /repo/src/disconnect.rs:186-208 body of the `match` in DisconnectProperties::extract. *)
Definition s_DisconnectProperties_step (ft : feature) (prop : N) (p : DisconnectProperties) : W (DisconnectProperties * N) :=
  do t <- wlift (property prop);
  let '(mkDisconnectProperties sei rs up sr) := p in
  match t with
  | SessionExpiryInterval =>
      do v <- s_read_u32;
      wret (mkDisconnectProperties (Some v) rs up sr, 4)
  | ReasonString =>
      do v <- s_read_mqtt_string ft;
      wret (mkDisconnectProperties sei (Some v) up sr, 2 + blen v)
  | UserProperty =>
      do k <- s_read_mqtt_string ft;
      do v <- s_read_mqtt_string ft;
      wret (mkDisconnectProperties sei rs (up ++ [(k, v)]) sr, 2 + blen k + 2 + blen v)
  | ServerReference =>
      do v <- s_read_mqtt_string ft;
      wret (mkDisconnectProperties sei rs up (Some v), 2 + blen v)
  | _ => wfail (InvalidPropertyType prop)
  end.
(** /repo/src/disconnect.rs:165-219 DisconnectProperties::extract. *)
Definition s_DisconnectProperties_extract (ft : feature) : W (option DisconnectProperties) :=
  s_props_read (s_DisconnectProperties_step ft) DisconnectProperties_init.

(** /repo/src/connect.rs:383-408 LastWill::read. *)
Definition s_LastWill_read (ft : feature) (connect_flags : N) : W (option LastWill) :=
  if N.land connect_flags 4 =? 0 then
    if negb (N.land connect_flags 56 =? 0) then wfail IncorrectPacketFormat
    else wret None
  else
    do properties <- s_LastWillProperties_read ft;
    do will_topic <- s_read_mqtt_bytes;
    do will_message <- s_read_mqtt_bytes;
    let qos_num := N.shiftr (N.land connect_flags 24) 3 in
    match qos qos_num with
    | None => wfail (InvalidQoS qos_num)
    | Some will_qos =>
        wret (Some (mkLastWill will_topic will_message will_qos
                      (negb (N.land connect_flags 32 =? 0)) properties))
    end.

(** /repo/src/connect.rs:603-619 Login::read. *)
Definition s_Login_read (ft : feature) (connect_flags : N) : W (option Login) :=
  do username <- (if N.land connect_flags 128 =? 0 then wret [] else s_read_mqtt_string ft);
  do password <- (if N.land connect_flags 64 =? 0 then wret [] else s_read_mqtt_string ft);
  if is_empty username && is_empty password then wret None
  else wret (Some (mkLogin username password)).

(** /repo/src/subscribe.rs:135-161 the `while bytes.has_remaining()` loop of Filter::read. *)
Fixpoint s_Filter_read_loop (ft : feature) (fuel : nat) (filters : list Filter) : W (list Filter) :=
  fun b =>
  match b with
  | [] => (Ok filters, [])
  | _ =>
      match fuel with
      | O => (Diverge, b)
      | S fuel =>
         (do path <- s_read_mqtt_string ft;
          do options <- s_read_u8;
          let requested_qos := N.land options 3 in
          let nolocal := negb (N.land (N.shiftr options 2) 1 =? 0) in
          let preserve_retain := negb (N.land (N.shiftr options 3) 1 =? 0) in
          let rule := N.land (N.shiftr options 4) 3 in
          do retain_forward_rule <-
            (match rule with
             | 0 => wret OnEverySubscribe
             | 1 => wret OnNewSubscribe
             | 2 => wret Never
             | _ => wfail (InvalidRetainForwardRule rule)
             end);
          match qos requested_qos with
          | None => wfail (InvalidQoS requested_qos)
          | Some q =>
              s_Filter_read_loop ft fuel
                (filters ++ [mkFilter path q nolocal preserve_retain retain_forward_rule])
          end) b
      end
  end.
(** /repo/src/subscribe.rs:131-164 Filter::read. *)
Definition s_Filter_read (ft : feature) : W (list Filter) :=
  fun b => s_Filter_read_loop ft (S (length b)) [] b.
