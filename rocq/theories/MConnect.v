(** Model of /repo/src/connect.rs. *)
From Verif Require Import Types MLib.

(** /repo/src/connect.rs:160-172 ConnectProperties::new (also Default, 350-354). *)
Definition ConnectProperties_new : ConnectProperties :=
  mkConnectProperties None None None None None None [] None None.

(** /repo/src/connect.rs:196-238 body of the `match` in ConnectProperties::read. *)
Definition ConnectProperties_step (ft : feature) (prop : N) (p : ConnectProperties) (b : bytes)
  : res (ConnectProperties * N * bytes) :=
  let? t := property prop in
  let '(mkConnectProperties sei rm mps tam rri rpi up am ad) := p in
  match t with
  | SessionExpiryInterval =>
      let? (v, b) := read_u32 b in
      Ok (mkConnectProperties (Some v) rm mps tam rri rpi up am ad, 4, b)
  | ReceiveMaximum =>
      let? (v, b) := read_u16 b in
      Ok (mkConnectProperties sei (Some v) mps tam rri rpi up am ad, 2, b)
  | MaximumPacketSize =>
      let? (v, b) := read_u32 b in
      Ok (mkConnectProperties sei rm (Some v) tam rri rpi up am ad, 4, b)
  | TopicAliasMaximum =>
      let? (v, b) := read_u16 b in
      Ok (mkConnectProperties sei rm mps (Some v) rri rpi up am ad, 2, b)
  | RequestResponseInformation =>
      let? (v, b) := read_u8 b in
      Ok (mkConnectProperties sei rm mps tam (Some v) rpi up am ad, 1, b)
  | RequestProblemInformation =>
      let? (v, b) := read_u8 b in
      Ok (mkConnectProperties sei rm mps tam rri (Some v) up am ad, 1, b)
  | UserProperty =>
      let? (k, b) := read_mqtt_string ft b in
      let? (v, b) := read_mqtt_string ft b in
      Ok (mkConnectProperties sei rm mps tam rri rpi (up ++ [(k, v)]) am ad,
          2 + blen k + 2 + blen v, b)
  | AuthenticationMethod =>
      let? (v, b) := read_mqtt_string ft b in
      Ok (mkConnectProperties sei rm mps tam rri rpi up (Some v) ad, 2 + blen v, b)
  | AuthenticationData =>
      let? (v, b) := read_mqtt_bytes b in
      Ok (mkConnectProperties sei rm mps tam rri rpi up am (Some v), 2 + blen v, b)
  | _ => Err (InvalidPropertyType prop)
  end.

(** /repo/src/connect.rs:174-252 ConnectProperties::read. *)
Definition ConnectProperties_read (ft : feature) (b : bytes)
  : res (option ConnectProperties * bytes) :=
  props_read (ConnectProperties_step ft) ConnectProperties_new b.

(** Length contributions shared by all len functions:
    `if self.x.is_some() { len += n }` and
    `if let Some(s) = &self.x { len += 1 + 2 + s.len() }`. *)
Definition len_if_some (o : option N) (n : N) : N := match o with Some _ => n | None => 0 end.
Definition len_str (o : option bytes) : N := match o with Some s => 1 + 2 + blen s | None => 0 end.

(** /repo/src/connect.rs:254-294 ConnectProperties::len. *)
Definition ConnectProperties_len (p : ConnectProperties) : N :=
  len_if_some (cp_session_expiry_interval p) (1 + 4)
  + len_if_some (cp_receive_maximum p) (1 + 2)
  + len_if_some (cp_max_packet_size p) (1 + 4)
  + len_if_some (cp_topic_alias_max p) (1 + 2)
  + len_if_some (cp_request_response_info p) (1 + 1)
  + len_if_some (cp_request_problem_info p) (1 + 1)
  + user_props_len (cp_user_properties p)
  + len_str (cp_authentication_method p)
  + len_str (cp_authentication_data p).

(** /repo/src/connect.rs:296-347 ConnectProperties::write. *)
Definition ConnectProperties_write (p : ConnectProperties) : W unit :=
  do_ write_remaining_length (ConnectProperties_len p);
  do_ wopt (cp_session_expiry_interval p) (fun v =>
        do_ put_u8 (prop_code SessionExpiryInterval); put_u32 v);
  do_ wopt (cp_receive_maximum p) (fun v =>
        do_ put_u8 (prop_code ReceiveMaximum); put_u16 v);
  do_ wopt (cp_max_packet_size p) (fun v =>
        do_ put_u8 (prop_code MaximumPacketSize); put_u32 v);
  do_ wopt (cp_topic_alias_max p) (fun v =>
        do_ put_u8 (prop_code TopicAliasMaximum); put_u16 v);
  do_ wopt (cp_request_response_info p) (fun v =>
        do_ put_u8 (prop_code RequestResponseInformation); put_u8 v);
  do_ wopt (cp_request_problem_info p) (fun v =>
        do_ put_u8 (prop_code RequestProblemInformation); put_u8 v);
  do_ write_user_props (cp_user_properties p);
  do_ wopt (cp_authentication_method p) (fun v =>
        do_ put_u8 (prop_code AuthenticationMethod); write_mqtt_string v);
  wopt (cp_authentication_data p) (fun v =>
        do_ put_u8 (prop_code AuthenticationData); write_mqtt_bytes v).

(** /repo/src/connect.rs:477-483 the initial (all-None) variables of LastWillProperties::read. *)
Definition LastWillProperties_init : LastWillProperties :=
  mkLastWillProperties None None None None None None [].

(** /repo/src/connect.rs:442-474 LastWillProperties::len. *)
Definition LastWillProperties_len (p : LastWillProperties) : N :=
  len_if_some (wp_delay_interval p) (1 + 4)
  + len_if_some (wp_payload_format_indicator p) (1 + 1)
  + len_if_some (wp_message_expiry_interval p) (1 + 4)
  + len_str (wp_content_type p)
  + len_str (wp_response_topic p)
  + len_str (wp_correlation_data p)
  + user_props_len (wp_user_properties p).

(** /repo/src/connect.rs:497-532 body of the `match` in LastWillProperties::read. *)
Definition LastWillProperties_step (ft : feature) (prop : N) (p : LastWillProperties) (b : bytes)
  : res (LastWillProperties * N * bytes) :=
  let? t := property prop in
  let '(mkLastWillProperties di pfi mei ct rt cd up) := p in
  match t with
  | WillDelayInterval =>
      let? (v, b) := read_u32 b in
      Ok (mkLastWillProperties (Some v) pfi mei ct rt cd up, 4, b)
  | PayloadFormatIndicator =>
      let? (v, b) := read_u8 b in
      Ok (mkLastWillProperties di (Some v) mei ct rt cd up, 1, b)
  | MessageExpiryInterval =>
      let? (v, b) := read_u32 b in
      Ok (mkLastWillProperties di pfi (Some v) ct rt cd up, 4, b)
  | ContentType =>
      let? (v, b) := read_mqtt_string ft b in
      Ok (mkLastWillProperties di pfi mei (Some v) rt cd up, 2 + blen v, b)
  | ResponseTopic =>
      let? (v, b) := read_mqtt_string ft b in
      Ok (mkLastWillProperties di pfi mei ct (Some v) cd up, 2 + blen v, b)
  | CorrelationData =>
      let? (v, b) := read_mqtt_bytes b in
      Ok (mkLastWillProperties di pfi mei ct rt (Some v) up, 2 + blen v, b)
  | UserProperty =>
      let? (k, b) := read_mqtt_string ft b in
      let? (v, b) := read_mqtt_string ft b in
      Ok (mkLastWillProperties di pfi mei ct rt cd (up ++ [(k, v)]),
          2 + blen k + 2 + blen v, b)
  | _ => Err (InvalidPropertyType prop)
  end.

(** /repo/src/connect.rs:476-544 LastWillProperties::read. *)
Definition LastWillProperties_read (ft : feature) (b : bytes)
  : res (option LastWillProperties * bytes) :=
  props_read (LastWillProperties_step ft) LastWillProperties_init b.

(** /repo/src/connect.rs:546-587 LastWillProperties::write. *)
Definition LastWillProperties_write (p : LastWillProperties) : W unit :=
  do_ write_remaining_length (LastWillProperties_len p);
  do_ wopt (wp_delay_interval p) (fun v =>
        do_ put_u8 (prop_code WillDelayInterval); put_u32 v);
  do_ wopt (wp_payload_format_indicator p) (fun v =>
        do_ put_u8 (prop_code PayloadFormatIndicator); put_u8 v);
  do_ wopt (wp_message_expiry_interval p) (fun v =>
        do_ put_u8 (prop_code MessageExpiryInterval); put_u32 v);
  do_ wopt (wp_content_type p) (fun v =>
        do_ put_u8 (prop_code ContentType); write_mqtt_string v);
  do_ wopt (wp_response_topic p) (fun v =>
        do_ put_u8 (prop_code ResponseTopic); write_mqtt_string v);
  do_ wopt (wp_correlation_data p) (fun v =>
        do_ put_u8 (prop_code CorrelationData); write_mqtt_bytes v);
  write_user_props (wp_user_properties p).

(** /repo/src/connect.rs:367-381 LastWill::len. *)
Definition LastWill_len (w : LastWill) : N :=
  (match lw_properties w with
   | Some p => let properties_len := LastWillProperties_len p in
               len_len properties_len + properties_len
   | None => 1
   end) + (2 + blen (lw_topic w) + 2 + blen (lw_message w)).

(** /repo/src/connect.rs:383-408 LastWill::read. *)
Definition LastWill_read (ft : feature) (connect_flags : N) (b : bytes)
  : res (option LastWill * bytes) :=
  if N.land connect_flags 4 =? 0 then
    if negb (N.land connect_flags 56 =? 0) then Err IncorrectPacketFormat
    else Ok (None, b)
  else
    let? (properties, b) := LastWillProperties_read ft b in
    let? (will_topic, b) := read_mqtt_bytes b in
    let? (will_message, b) := read_mqtt_bytes b in
    let qos_num := N.shiftr (N.land connect_flags 24) 3 in
    match qos qos_num with
    | None => Err (InvalidQoS qos_num)
    | Some will_qos =>
        Ok (Some (mkLastWill will_topic will_message will_qos
                    (negb (N.land connect_flags 32 =? 0)) properties), b)
    end.

(** /repo/src/connect.rs:410-428 LastWill::write (returns the connect flags). *)
Definition LastWill_write (w : LastWill) : W N :=
  let connect_flags := N.lor 0 (N.lor 4 (N.shiftl (qos_u8 (lw_qos w)) 3)) in
  let connect_flags := if lw_retain w then N.lor connect_flags 32 else connect_flags in
  do_ (match lw_properties w with
       | Some p => LastWillProperties_write p
       | None => do_ write_remaining_length 0; wret tt
       end);
  do_ write_mqtt_bytes (lw_topic w);
  do_ write_mqtt_bytes (lw_message w);
  wret connect_flags.

(** `.is_empty()`. *)
Definition is_empty (s : bytes) : bool := match s with [] => true | _ => false end.

(** /repo/src/connect.rs:596-601 Login::new. *)
Definition Login_new (u p : bytes) : Login := mkLogin u p.

(** /repo/src/connect.rs:603-619 Login::read. *)
Definition Login_read (ft : feature) (connect_flags : N) (b : bytes)
  : res (option Login * bytes) :=
  let? (username, b) :=
    (if N.land connect_flags 128 =? 0 then Ok ([], b) else read_mqtt_string ft b) in
  let? (password, b) :=
    (if N.land connect_flags 64 =? 0 then Ok ([], b) else read_mqtt_string ft b) in
  if is_empty username && is_empty password then Ok (None, b)
  else Ok (Some (mkLogin username password), b).

(** /repo/src/connect.rs:621-633 Login::len. *)
Definition Login_len (l : Login) : N :=
  (if negb (is_empty (lo_username l)) then 2 + blen (lo_username l) else 0)
  + (if negb (is_empty (lo_password l)) then 2 + blen (lo_password l) else 0).

(** /repo/src/connect.rs:635-648 Login::write (returns the connect flags). *)
Definition Login_write (l : Login) : W N :=
  do flags <- (if negb (is_empty (lo_username l))
               then do_ write_mqtt_string (lo_username l); wret (N.lor 0 128)
               else wret 0);
  (if negb (is_empty (lo_password l))
   then do_ write_mqtt_string (lo_password l); wret (N.lor flags 64)
   else wret flags).

(** /repo/src/connect.rs:24-60 Connect::read. *)
Definition Connect_read (ft : feature) (h : FixedHeader) (b : bytes)
  : res (Connect * option LastWill * option Login) :=
  let? b := advance b (fh_fixed_header_len h) in
  let? (protocol_name, b) := read_mqtt_string ft b in
  let? (protocol_level, b) := read_u8 b in
  if negb (mqtt_string_eq protocol_name str_MQTT) then Err InvalidProtocol
  else if negb (protocol_level =? 5) then Err (InvalidProtocolLevel protocol_level)
  else
    let? (connect_flags, b) := read_u8 b in
    let clean_start := negb (N.land connect_flags 2 =? 0) in
    let? (keep_alive, b) := read_u16 b in
    let? (properties, b) := ConnectProperties_read ft b in
    let? (client_id, b) := read_mqtt_string ft b in
    let? (will, b) := LastWill_read ft connect_flags b in
    let? (login, b) := Login_read ft connect_flags b in
    Ok (mkConnect keep_alive client_id clean_start properties, will, login).

(** /repo/src/connect.rs:62-90 Connect::len. *)
Definition Connect_len (c : Connect) (will : option LastWill) (l : option Login) : N :=
  (2 + blen str_MQTT + 1 + 1 + 2)
  + (match co_properties c with
     | Some p => let properties_len := ConnectProperties_len p in
                 len_len properties_len + properties_len
     | None => 1
     end)
  + (2 + blen (co_client_id c))
  + (match will with Some w => LastWill_len w | None => 0 end)
  + (match l with Some l => Login_len l | None => 0 end).

(** /repo/src/connect.rs:92-135 Connect::write.  The flags byte is patched with
    `buffer[flags_index] = connect_flags`, an index from the start of the buffer. *)
Definition Connect_write (c : Connect) (will : option LastWill) (l : option Login) : W N :=
  let len := Connect_len c will l in
  do_ put_u8 16;
  do count <- write_remaining_length len;
  do_ write_mqtt_string str_MQTT;
  do_ put_u8 5;
  let flags_index := 1 + count + 2 + 4 + 1 in
  let connect_flags := if co_clean_start c then N.lor 0 2 else 0 in
  do_ put_u8 connect_flags;
  do_ put_u16 (co_keep_alive c);
  do_ (match co_properties c with
       | Some p => ConnectProperties_write p
       | None => do_ write_remaining_length 0; wret tt
       end);
  do_ write_mqtt_string (co_client_id c);
  do connect_flags <- (match will with
                       | Some w => do f <- LastWill_write w; wret (N.lor connect_flags f)
                       | None => wret connect_flags
                       end);
  do connect_flags <- (match l with
                       | Some l => do f <- Login_write l; wret (N.lor connect_flags f)
                       | None => wret connect_flags
                       end);
  do_ set_index flags_index connect_flags;
  wret (1 + count + len).
