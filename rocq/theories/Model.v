(** Packet::read and Packet::write (/repo/src/lib.rs:144-236) and the receive loop a
    client of the crate runs on top of them. *)
From Verif Require Export Types MLib MConnect MConnAck MPublish MPubAck MPubRec MPubRel
  MPubComp MSubscribe MSubAck MUnsubscribe MUnsubAck MDisconnect MPing.

(** /repo/src/lib.rs:162-213 the `match packet_type` of Packet::read.  Also covers the
    zero-length special cases at 153-159. *)
Definition Packet_read_frame (ft : feature) (h : FixedHeader) (packet : bytes) : res Packet :=
  let? t := packet_type h in
  if (fh_remaining_len h =? 0) && negb (match t with PT_Disconnect => true | _ => false end)
  then
    match t with
    | PT_PingReq => Ok P_PingReq
    | PT_PingResp => Ok P_PingResp
    | _ => Err PayloadRequired
    end
  else
    match t with
    | PT_Connect =>
        let? (connect, will, login) := Connect_read ft h packet in
        Ok (P_Connect connect will login)
    | PT_Publish => let? x := Publish_read ft h packet in Ok (P_Publish x)
    | PT_Subscribe => let? x := Subscribe_read ft h packet in Ok (P_Subscribe x)
    | PT_Unsubscribe => let? x := Unsubscribe_read ft h packet in Ok (P_Unsubscribe x)
    | PT_ConnAck => let? x := ConnAck_read ft h packet in Ok (P_ConnAck x)
    | PT_PubAck => let? x := PubAck_read ft h packet in Ok (P_PubAck x)
    | PT_PubRec => let? x := PubRec_read ft h packet in Ok (P_PubRec x)
    | PT_PubRel => let? x := PubRel_read ft h packet in Ok (P_PubRel x)
    | PT_PubComp => let? x := PubComp_read ft h packet in Ok (P_PubComp x)
    | PT_SubAck => let? x := SubAck_read ft h packet in Ok (P_SubAck x)
    | PT_UnsubAck => let? x := UnsubAck_read ft h packet in Ok (P_UnsubAck x)
    | PT_PingReq => Ok P_PingReq
    | PT_PingResp => Ok P_PingResp
    | PT_Disconnect => let? x := Disconnect_read ft h packet in Ok (P_Disconnect x)
    end.

(** /repo/src/lib.rs:146-216 Packet::read: outcome and the stream afterwards.  An error of
    `check` leaves the stream as it was; from `split_to` on the frame is gone. *)
Definition Packet_read (ft : feature) (stream : bytes) (max_size : option N)
  : res Packet * bytes :=
  match check stream max_size with
  | Ok h =>
      match split_to stream (frame_length h) with
      | Ok (packet, rest) => (Packet_read_frame ft h packet, rest)
      | Err e => (Err e, stream)
      | Panic => (Panic, stream)
      | Diverge => (Diverge, stream)
      end
  | Err e => (Err e, stream)
  | Panic => (Panic, stream)
  | Diverge => (Diverge, stream)
  end.

(** /repo/src/lib.rs:218-235 Packet::write. *)
Definition Packet_write (p : Packet) : W N :=
  match p with
  | P_Publish publish => Publish_write publish
  | P_Subscribe subscription => Subscribe_write subscription
  | P_Unsubscribe unsubscribe => Unsubscribe_write unsubscribe
  | P_ConnAck ack => ConnAck_write ack
  | P_PubAck ack => PubAck_write ack
  | P_SubAck ack => SubAck_write ack
  | P_UnsubAck unsuback => UnsubAck_write unsuback
  | P_PubRec pubrec => PubRec_write pubrec
  | P_PubRel pubrel => PubRel_write pubrel
  | P_PubComp pubcomp => PubComp_write pubcomp
  | P_Connect connect will login => Connect_write connect will login
  | P_PingReq => PingReq_write
  | P_PingResp => PingResp_write
  | P_Disconnect disconnect => Disconnect_write disconnect
  end.
