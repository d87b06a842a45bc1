(** Model of /repo/src/publish.rs. *)
From Verif Require Import Types MLib MConnect.

(** /repo/src/publish.rs:130 derived Default of PublishProperties; also the initial
    variables of PublishProperties::read (182-189). *)
Definition PublishProperties_default : PublishProperties :=
  mkPublishProperties None None None None None [] [] None.

(** /repo/src/publish.rs:143-179 PublishProperties::len. *)
Definition PublishProperties_len (p : PublishProperties) : N :=
  len_if_some (pp_payload_format_indicator p) (1 + 1)
  + len_if_some (pp_message_expiry_interval p) (1 + 4)
  + len_if_some (pp_topic_alias p) (1 + 2)
  + len_str (pp_response_topic p)
  + len_str (pp_correlation_data p)
  + user_props_len (pp_user_properties p)
  + fold_left (fun len id => len + (1 + len_len id)) (pp_subscription_identifiers p) 0
  + len_str (pp_content_type p).

(** /repo/src/publish.rs:203-244 body of the `match` in PublishProperties::read.
    Note the `cursor += 1 + id_len` of the subscription identifier (234). *)
Definition PublishProperties_step (ft : feature) (prop : N) (p : PublishProperties) (b : bytes)
  : res (PublishProperties * N * bytes) :=
  let? t := property prop in
  let '(mkPublishProperties pfi mei ta rt cd up si ct) := p in
  match t with
  | PayloadFormatIndicator =>
      let? (v, b) := read_u8 b in
      Ok (mkPublishProperties (Some v) mei ta rt cd up si ct, 1, b)
  | MessageExpiryInterval =>
      let? (v, b) := read_u32 b in
      Ok (mkPublishProperties pfi (Some v) ta rt cd up si ct, 4, b)
  | TopicAlias =>
      let? (v, b) := read_u16 b in
      Ok (mkPublishProperties pfi mei (Some v) rt cd up si ct, 2, b)
  | ResponseTopic =>
      let? (v, b) := read_mqtt_string ft b in
      Ok (mkPublishProperties pfi mei ta (Some v) cd up si ct, 2 + blen v, b)
  | CorrelationData =>
      let? (v, b) := read_mqtt_bytes b in
      Ok (mkPublishProperties pfi mei ta rt (Some v) up si ct, 2 + blen v, b)
  | UserProperty =>
      let? (k, b) := read_mqtt_string ft b in
      let? (v, b) := read_mqtt_string ft b in
      Ok (mkPublishProperties pfi mei ta rt cd (up ++ [(k, v)]) si ct,
          2 + blen k + 2 + blen v, b)
  | SubscriptionIdentifier =>
      let? (id_len, id) := length_ b in
      let? b := advance b id_len in
      Ok (mkPublishProperties pfi mei ta rt cd up (si ++ [id]) ct, 1 + id_len, b)
  | ContentType =>
      let? (v, b) := read_mqtt_string ft b in
      Ok (mkPublishProperties pfi mei ta rt cd up si (Some v), 2 + blen v, b)
  | _ => Err (InvalidPropertyType prop)
  end.

(** /repo/src/publish.rs:181-257 PublishProperties::read. *)
Definition PublishProperties_read (ft : feature) (b : bytes)
  : res (option PublishProperties * bytes) :=
  props_read (PublishProperties_step ft) PublishProperties_default b.

(** /repo/src/publish.rs:259-305 PublishProperties::write. *)
Definition PublishProperties_write (p : PublishProperties) : W unit :=
  do_ write_remaining_length (PublishProperties_len p);
  do_ wopt (pp_payload_format_indicator p) (fun v =>
        do_ put_u8 (prop_code PayloadFormatIndicator); put_u8 v);
  do_ wopt (pp_message_expiry_interval p) (fun v =>
        do_ put_u8 (prop_code MessageExpiryInterval); put_u32 v);
  do_ wopt (pp_topic_alias p) (fun v =>
        do_ put_u8 (prop_code TopicAlias); put_u16 v);
  do_ wopt (pp_response_topic p) (fun v =>
        do_ put_u8 (prop_code ResponseTopic); write_mqtt_string v);
  do_ wopt (pp_correlation_data p) (fun v =>
        do_ put_u8 (prop_code CorrelationData); write_mqtt_bytes v);
  do_ write_user_props (pp_user_properties p);
  do_ wfor (pp_subscription_identifiers p) (fun id =>
        do_ put_u8 (prop_code SubscriptionIdentifier);
        do_ write_remaining_length id; wret tt);
  wopt (pp_content_type p) (fun v =>
        do_ put_u8 (prop_code ContentType); write_mqtt_string v).

(** /repo/src/publish.rs:23-36 Publish::new. *)
Definition Publish_new (topic : bytes) (q : QoS) (payload : bytes)
    (properties : option PublishProperties) : Publish :=
  mkPublish false q false topic 0 payload properties.

(** /repo/src/publish.rs:45-62 Publish::len. *)
Definition Publish_len (p : Publish) : N :=
  (2 + blen (pu_topic p))
  + (if negb (QoS_eqb (pu_qos p) AtMostOnce) && negb (pu_pkid p =? 0) then 2 else 0)
  + (match pu_properties p with
     | Some q => let properties_len := PublishProperties_len q in
                 len_len properties_len + properties_len
     | None => 1
     end)
  + blen (pu_payload p).

(** /repo/src/publish.rs:38-43 Publish::size. *)
Definition Publish_size (p : Publish) : N :=
  let len := Publish_len p in 1 + len_len len + len.

(** /repo/src/publish.rs:64-96 Publish::read. *)
Definition Publish_read (ft : feature) (h : FixedHeader) (b : bytes) : res Publish :=
  let qos_num := N.shiftr (N.land (fh_byte1 h) 6) 1 in
  match qos qos_num with
  | None => Err (InvalidQoS qos_num)
  | Some q =>
      let dup := negb (N.land (fh_byte1 h) 8 =? 0) in
      let retain := negb (N.land (fh_byte1 h) 1 =? 0) in
      let? b := advance b (fh_fixed_header_len h) in
      let? (topic, b) := read_mqtt_string ft b in
      let? (pkid, b) := (match q with
                         | AtMostOnce => Ok (0, b)
                         | AtLeastOnce | ExactlyOnce => read_u16 b
                         end) in
      if negb (QoS_eqb q AtMostOnce) && (pkid =? 0) then Err PacketIdZero
      else
        let? (properties, b) := PublishProperties_read ft b in
        Ok (mkPublish dup q retain topic pkid b properties)
  end.

(** /repo/src/publish.rs:98-127 Publish::write. *)
Definition Publish_write (p : Publish) : W N :=
  let len := Publish_len p in
  let dup := bool_u8 (pu_dup p) in
  let qos := qos_u8 (pu_qos p) in
  let retain := bool_u8 (pu_retain p) in
  do_ put_u8 (N.lor (N.lor (N.lor 48 retain) (N.shiftl qos 1)) (N.shiftl dup 3));
  do count <- write_remaining_length len;
  do_ write_mqtt_string (pu_topic p);
  do_ (if negb (QoS_eqb (pu_qos p) AtMostOnce)
       then if pu_pkid p =? 0 then wfail PacketIdZero else put_u16 (pu_pkid p)
       else wret tt);
  do_ (match pu_properties p with
       | Some q => PublishProperties_write q
       | None => do_ write_remaining_length 0; wret tt
       end);
  do_ put_slice (pu_payload p);
  wret (1 + count + len).
