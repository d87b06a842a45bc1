(** How much data a packet holds (specification for C38).  Imports the data types only. *)
From Verif Require Import Types Spec.

(** The strings and binary values of a property list, and its list entries (user properties
    and subscription identifiers). *)
Definition value_data (v : pvalue) : N :=
  match v with
  | VStr s | VBin s => blen s
  | VPair k v => blen k + blen v
  | _ => 0
  end.
Definition value_entries (v : pvalue) : N :=
  match v with VPair _ _ | VVar _ => 1 | _ => 0 end.
Fixpoint items_data (l : list item) : N :=
  match l with [] => 0 | i :: l => value_data (snd i) + items_data l end.
Fixpoint items_entries (l : list item) : N :=
  match l with [] => 0 | i :: l => value_entries (snd i) + items_entries l end.
Definition props_data (l : list item) : N := items_data l + items_entries l.

(** Total length of a list of strings. *)
Fixpoint strings_data (l : list bytes) : N :=
  match l with [] => 0 | s :: l => blen s + strings_data l end.

(** Bytes of all strings, binary values and the payload, plus the number of elements of all
    lists (user properties, subscription identifiers, topic filters, reason codes). *)
Definition packet_data (p : Packet) : N :=
  match p with
  | P_Connect c w l =>
      blen (co_client_id c) + props_data (opt_items ConnectProperties_items (co_properties c))
      + match w with
        | Some w => blen (lw_topic w) + blen (lw_message w)
                    + props_data (opt_items LastWillProperties_items (lw_properties w))
        | None => 0
        end
      + match l with Some l => blen (lo_username l) + blen (lo_password l) | None => 0 end
  | P_ConnAck a => props_data (opt_items ConnAckProperties_items (ck_properties a))
  | P_Publish p =>
      blen (pu_topic p) + props_data (opt_items PublishProperties_items (pu_properties p))
      + blen (pu_payload p)
  | P_PubAck a => props_data (opt_items PubAckProperties_items (pa_properties a))
  | P_PubRec a => props_data (opt_items PubRecProperties_items (pr_properties a))
  | P_PubRel a => props_data (opt_items PubRelProperties_items (pl_properties a))
  | P_PubComp a => props_data (opt_items PubCompProperties_items (pc_properties a))
  | P_Subscribe s =>
      props_data (opt_items SubscribeProperties_items (su_properties s))
      + strings_data (map fi_path (su_filters s)) + N.of_nat (length (su_filters s))
  | P_SubAck a =>
      props_data (opt_items SubAckProperties_items (sa_properties a))
      + N.of_nat (length (sa_return_codes a))
  | P_Unsubscribe u =>
      props_data (opt_items UnsubscribeProperties_items (un_properties u))
      + strings_data (un_filters u) + N.of_nat (length (un_filters u))
  | P_UnsubAck a =>
      props_data (opt_items UnsubAckProperties_items (ua_properties a))
      + N.of_nat (length (ua_reasons a))
  | P_PingReq => 0
  | P_PingResp => 0
  | P_Disconnect d => props_data (opt_items DisconnectProperties_items (di_properties d))
  end.

(** ---------- Text fields (specification for C22) ---------- *)

Definition value_texts (v : pvalue) : list bytes :=
  match v with VStr s => [s] | VPair k v => [k; v] | _ => [] end.
Definition items_texts (l : list item) : list bytes := flat_map (fun i => value_texts (snd i)) l.
(** Every field of string type; topic and message of the will are binary in this crate. *)
Definition packet_texts (p : Packet) : list bytes :=
  match p with
  | P_Connect c w l =>
      co_client_id c :: items_texts (opt_items ConnectProperties_items (co_properties c))
      ++ match w with
         | Some w => items_texts (opt_items LastWillProperties_items (lw_properties w))
         | None => []
         end
      ++ match l with Some l => [lo_username l; lo_password l] | None => [] end
  | P_ConnAck a => items_texts (opt_items ConnAckProperties_items (ck_properties a))
  | P_Publish p =>
      pu_topic p :: items_texts (opt_items PublishProperties_items (pu_properties p))
  | P_PubAck a => items_texts (opt_items PubAckProperties_items (pa_properties a))
  | P_PubRec a => items_texts (opt_items PubRecProperties_items (pr_properties a))
  | P_PubRel a => items_texts (opt_items PubRelProperties_items (pl_properties a))
  | P_PubComp a => items_texts (opt_items PubCompProperties_items (pc_properties a))
  | P_Subscribe s =>
      items_texts (opt_items SubscribeProperties_items (su_properties s))
      ++ map fi_path (su_filters s)
  | P_SubAck a => items_texts (opt_items SubAckProperties_items (sa_properties a))
  | P_Unsubscribe u =>
      items_texts (opt_items UnsubscribeProperties_items (un_properties u)) ++ un_filters u
  | P_UnsubAck a => items_texts (opt_items UnsubAckProperties_items (ua_properties a))
  | P_PingReq => []
  | P_PingResp => []
  | P_Disconnect d => items_texts (opt_items DisconnectProperties_items (di_properties d))
  end.
