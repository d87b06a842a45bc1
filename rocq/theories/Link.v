(** A connection in one direction, with every schedule: a sender that writes packets into its output
    buffer and hands the front of the buffer to the transport whenever and in whatever pieces it
    likes, a transport that delivers bytes in order whenever and in whatever pieces it likes, and a
    receiver that calls Packet::read on its input buffer whenever it likes.  The crate contains none of
    the three; they are the usage of Driver.v, taken apart into single steps.  A crash of either side
    or a cut connection is a run that stops: the theorems hold in every state that can be reached. *)
From Verif Require Import Types MLib Model Spec Wire.

Record link := mkLink {
  l_sent : list Packet;  (* successfully written so far, by Packet::write *)
  l_out : bytes;         (* the sender's buffer *)
  l_wire : bytes;        (* handed to the transport, not yet delivered *)
  l_in : bytes;          (* the receiver's buffer *)
  l_got : list Packet    (* returned so far by Packet::read *)
}.
Definition idle : link := mkLink [] [] [] [] [].

(** What the sender must observe: values of the Rust types, none of the shapes that do not survive a
    round trip, bodies within the receiver's limit, and a CONNECT only into an empty buffer (C12). *)
Definition may_send (ft : feature) (max : option N) (p : Packet) (out : bytes) : Prop :=
  rust_packet ft p /\ roundtrip_safe p = true /\ within max (blen (fields_bytes (body_fields p)))
  /\ (is_connect p = true -> out = []).

(** After a failed write the sender cuts its buffer back to the length it had (`truncate`); any packet
    may fail. *)
Inductive step (ft : feature) (max : option N) : link -> link -> Prop :=
| step_write sent out wire inn got p n out' :
    Packet_write p out = (Ok n, out') -> may_send ft max p out ->
    step ft max (mkLink sent out wire inn got) (mkLink (sent ++ [p]) out' wire inn got)
| step_write_fails sent out wire inn got p e out' :
    Packet_write p out = (Err e, out') ->
    step ft max (mkLink sent out wire inn got) (mkLink sent (firstn (length out) out') wire inn got)
| step_flush sent piece out wire inn got :
    step ft max (mkLink sent (piece ++ out) wire inn got) (mkLink sent out (wire ++ piece) inn got)
| step_deliver sent out piece wire inn got :
    step ft max (mkLink sent out (piece ++ wire) inn got) (mkLink sent out wire (inn ++ piece) got)
| step_read sent out wire inn got p rest :
    Packet_read ft inn max = (Ok p, rest) ->
    step ft max (mkLink sent out wire inn got) (mkLink sent out wire rest (got ++ [p]))
| step_read_fails sent out wire inn got e rest :
    Packet_read ft inn max = (Err e, rest) ->
    step ft max (mkLink sent out wire inn got) (mkLink sent out wire rest got).

(** Any number of steps. *)
Inductive run (ft : feature) (max : option N) : link -> link -> Prop :=
| run_none s : run ft max s s
| run_more s t u : run ft max s t -> step ft max t u -> run ft max s u.

(** Connections one after the other: at any moment the connection may be cut (or either side crash);
    both sides then start over with empty buffers.  The list holds the states in which the earlier
    connections ended, so that everything written and everything read stays known. *)
Inductive connections (ft : feature) (max : option N) : list link -> link -> Prop :=
| conn_first : connections ft max [] idle
| conn_step done s t : connections ft max done s -> step ft max s t -> connections ft max done t
| conn_cut done s : connections ft max done s -> connections ft max (done ++ [s]) idle.

(** What was written and what was read over all connections. *)
Definition all_sent (ls : list link) : list Packet := flat_map l_sent ls.
Definition all_got (ls : list link) : list Packet := flat_map l_got ls.

(** [sub a b]: a is b with some of its elements left out. *)
Inductive sub {A} : list A -> list A -> Prop :=
| sub_nil : sub [] []
| sub_keep x a b : sub a b -> sub (x :: a) (x :: b)
| sub_drop x a b : sub a b -> sub a (x :: b).
