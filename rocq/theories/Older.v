(** MQTT 3.1.1 control packets as that standard (OASIS, 29 October 2014) describes them: what an
    older peer sends (C73).  Only bytes and numbers are used, and the packet data type to say when
    a decoded packet means what the older peer said. *)
From Verif Require Import Types Spec.

(** 1.5.3: UTF-8 encoded strings. *)
Definition string3 (s : bytes) : bytes := u16be (blen s) ++ s.
Definition good_string3 (s : bytes) : Prop := bytes_ok s /\ utf8 s /\ blen s <= 65535.

Record will3 := mkWill3 { w3_topic : bytes; w3_payload : bytes; w3_qos : N; w3_retain : bool }.
Inductive ack3 : Type := A3_PubAck | A3_PubRec | A3_PubRel | A3_PubComp.

(** 3.1 - 3.14. *)
Inductive message3 : Type :=
| M3_Connect (clean : bool) (keep_alive : N) (client_id : bytes) (will : option will3)
    (user password : option bytes)
| M3_ConnAck (session_present : bool) (code : N)
| M3_Publish (dup : bool) (qos : N) (retain : bool) (topic : bytes) (id : N) (payload : bytes)
| M3_Ack (t : ack3) (id : N)
| M3_Subscribe (id : N) (filters : list (bytes * N))
| M3_SubAck (id : N) (codes : list N)
| M3_Unsubscribe (id : N) (filters : list bytes)
| M3_UnsubAck (id : N)
| M3_PingReq | M3_PingResp | M3_Disconnect.

Definition flag (b : bool) (n : N) : N := if b then n else 0.
Definition present {A} (o : option A) : bool := match o with Some _ => true | None => false end.
Definition optional3 (o : option bytes) : bytes := match o with Some s => string3 s | None => [] end.

Definition first3 (m : message3) : N :=
  match m with
  | M3_Connect _ _ _ _ _ _ => 16
  | M3_ConnAck _ _ => 32
  | M3_Publish dup qos retain _ _ _ => 48 + flag dup 8 + 2 * qos + flag retain 1
  | M3_Ack A3_PubAck _ => 64
  | M3_Ack A3_PubRec _ => 80
  | M3_Ack A3_PubRel _ => 98
  | M3_Ack A3_PubComp _ => 112
  | M3_Subscribe _ _ => 130
  | M3_SubAck _ _ => 144
  | M3_Unsubscribe _ _ => 162
  | M3_UnsubAck _ => 176
  | M3_PingReq => 192
  | M3_PingResp => 208
  | M3_Disconnect => 224
  end.

Definition connect_flags3 (clean : bool) (w : option will3) (user password : option bytes) : N :=
  flag (present user) 128 + flag (present password) 64
  + match w with Some w => flag (w3_retain w) 32 + 8 * w3_qos w + 4 | None => 0 end
  + flag clean 2.

Definition body3 (m : message3) : bytes :=
  match m with
  | M3_Connect clean keep_alive client_id w user password =>
      string3 mqtt ++ [4; connect_flags3 clean w user password] ++ u16be keep_alive
      ++ string3 client_id
      ++ match w with Some w => string3 (w3_topic w) ++ string3 (w3_payload w) | None => [] end
      ++ optional3 user ++ optional3 password
  | M3_ConnAck session_present code => [flag session_present 1; code]
  | M3_Publish _ qos _ topic id payload =>
      string3 topic ++ (if qos =? 0 then [] else u16be id) ++ payload
  | M3_Ack _ id | M3_UnsubAck id => u16be id
  | M3_Subscribe id filters => u16be id ++ flat_map (fun f => string3 (fst f) ++ [snd f]) filters
  | M3_SubAck id codes => u16be id ++ codes
  | M3_Unsubscribe id filters => u16be id ++ flat_map string3 filters
  | M3_PingReq | M3_PingResp | M3_Disconnect => []
  end.

Definition frame3 (m : message3) : bytes := first3 m :: varint (blen (body3 m)) ++ body3 m.

Definition good_id3 (id : N) : Prop := 0 < id /\ id < 65536.
Definition good_filter3 (f : bytes) : Prop := good_string3 f /\ f <> [].

Definition good3 (m : message3) : Prop :=
  blen (body3 m) <= max_varint /\
  match m with
  | M3_Connect _ keep_alive client_id w user password =>
      keep_alive < 65536 /\ good_string3 client_id
      /\ match w with
         | Some w => good_string3 (w3_topic w) /\ bytes_ok (w3_payload w) /\ blen (w3_payload w) <= 65535
                     /\ w3_qos w <= 2
         | None => True
         end
      /\ match user with Some u => good_string3 u | None => password = None end
      /\ match password with Some s => bytes_ok s /\ blen s <= 65535 | None => True end
  | M3_ConnAck session_present code => code <= 5
  | M3_Publish _ qos _ topic id payload =>
      qos <= 2 /\ good_string3 topic /\ bytes_ok payload /\ (if qos =? 0 then id = 0 else good_id3 id)
  | M3_Ack _ id | M3_UnsubAck id => good_id3 id
  | M3_Subscribe id filters =>
      good_id3 id /\ filters <> [] /\ Forall (fun f => good_filter3 (fst f) /\ snd f <= 2) filters
  | M3_SubAck id codes => good_id3 id /\ codes <> [] /\ Forall (fun c => c <= 2 \/ c = 128) codes
  | M3_Unsubscribe id filters => good_id3 id /\ filters <> [] /\ Forall good_filter3 filters
  | M3_PingReq | M3_PingResp | M3_Disconnect => True
  end.

(** ** Same meaning: the fields both versions have are the same *)

(** 3.9.3 of both standards: the granted maximum QoS, or a failure. *)
Definition granted3 (c : N) : option N := if c <=? 2 then Some c else None.
Definition granted (c : SubscribeReasonCode) : option N :=
  match c with SRC_Success q => Some (qos_num q) | _ => None end.

Definition means3 (p : Packet) (m : message3) : Prop :=
  match p, m with
  | P_Connect c w l, M3_Connect clean keep_alive client_id w' user password =>
      co_clean_start c = clean /\ co_keep_alive c = keep_alive /\ co_client_id c = client_id
  | P_ConnAck a, M3_ConnAck session_present code => ck_session_present a = session_present
  | P_Publish p, M3_Publish dup qos retain topic id payload =>
      pu_dup p = dup /\ qos_num (pu_qos p) = qos /\ pu_retain p = retain /\ pu_topic p = topic
      /\ pu_pkid p = id /\ pu_payload p = payload
  | P_PubAck a, M3_Ack A3_PubAck id => pa_pkid a = id /\ pa_reason a = PAR_Success
  | P_PubRec a, M3_Ack A3_PubRec id => pr_pkid a = id /\ pr_reason a = PRR_Success
  | P_PubRel a, M3_Ack A3_PubRel id => pl_pkid a = id /\ pl_reason a = PLR_Success
  | P_PubComp a, M3_Ack A3_PubComp id => pc_pkid a = id /\ pc_reason a = PCR_Success
  | P_Subscribe s, M3_Subscribe id filters =>
      su_pkid s = id /\ map (fun f => (fi_path f, qos_num (fi_qos f))) (su_filters s) = filters
  | P_SubAck a, M3_SubAck id codes =>
      sa_pkid a = id /\ map granted (sa_return_codes a) = map granted3 codes
  | P_Unsubscribe u, M3_Unsubscribe id filters => un_pkid u = id /\ un_filters u = filters
  | P_UnsubAck a, M3_UnsubAck id => ua_pkid a = id
  | P_PingReq, M3_PingReq | P_PingResp, M3_PingResp => True
  | P_Disconnect d, M3_Disconnect => di_reason_code d = DRC_NormalDisconnection
  | _, _ => False
  end.

(** The messages both versions write alike. *)
Definition common3 (m : message3) : Prop :=
  match m with M3_Ack _ _ | M3_PingReq | M3_PingResp | M3_Disconnect => True | _ => False end.
