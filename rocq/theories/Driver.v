(** Two callers of the crate: one that writes packets one after the other into one buffer, and
    one that feeds received chunks to Packet::read.  The crate contains neither; they are the
    usage its README and its tests (/repo/src/lib.rs) show, written over the model's
    Packet_read and Packet_write. *)
From Verif Require Import Types MLib Model.

(** Packet::write for each packet into the same buffer, stopping at the first error. *)
Fixpoint write_all (ps : list Packet) : W unit :=
  match ps with
  | [] => wret tt
  | p :: ps => do n <- Packet_write p; write_all ps
  end.

(** Packet::read until it returns an error: the packets, the error and what is left. *)
Inductive drains (ft : feature) (max : option N) : bytes -> list Packet -> error -> bytes -> Prop :=
| drains_stop s e rest : Packet_read ft s max = (Err e, rest) -> drains ft max s [] e rest
| drains_packet s p s' ps e rest :
    Packet_read ft s max = (Ok p, s') -> drains ft max s' ps e rest ->
    drains ft max s (p :: ps) e rest.

(** The receive loop: read packets from the buffer until Packet::read returns an error; on
    InsufficientBytes append the next chunk and go on, on any other error give up.  At the end
    of the chunks the last InsufficientBytes is reported.  What is left is the buffer and the
    chunks not yet appended. *)
Inductive receives (ft : feature) (max : option N) :
  bytes -> list bytes -> list Packet -> error -> bytes -> Prop :=
| receives_end buf ps n rest :
    drains ft max buf ps (InsufficientBytes n) rest ->
    receives ft max buf [] ps (InsufficientBytes n) rest
| receives_chunk buf c cs ps n buf' ps' e rest :
    drains ft max buf ps (InsufficientBytes n) buf' ->
    receives ft max (buf' ++ c) cs ps' e rest ->
    receives ft max buf (c :: cs) (ps ++ ps') e rest
| receives_fail buf cs ps e buf' :
    drains ft max buf ps e buf' -> (forall n, e <> InsufficientBytes n) ->
    receives ft max buf cs ps e (buf' ++ concat cs).

(** Packet::read called again and again, errors or not: the results and what is left. *)
Inductive read_times (ft : feature) (max : option N) : bytes -> list (res Packet) -> bytes -> Prop :=
| read_times_none s : read_times ft max s [] s
| read_times_once s r s' rs rest :
    Packet_read ft s max = (r, s') -> read_times ft max s' rs rest ->
    read_times ft max s (r :: rs) rest.

(** A caller that fetches from its source (a socket, say) exactly as many bytes as
    InsufficientBytes asks for, [k] times, until Packet::read gives something else: the result,
    the buffer afterwards and what has not been fetched. *)
Inductive fetches (ft : feature) (max : option N) :
  bytes -> bytes -> nat -> res Packet -> bytes -> bytes -> Prop :=
| fetches_more buf n more src k r buf' left :
    Packet_read ft buf max = (Err (InsufficientBytes n), buf) -> blen more = n ->
    fetches ft max (buf ++ more) src k r buf' left ->
    fetches ft max buf (more ++ src) (S k) r buf' left
| fetches_done buf src r buf' :
    Packet_read ft buf max = (r, buf') -> (buf' = buf -> forall n, r <> Err (InsufficientBytes n)) ->
    fetches ft max buf src 0 r buf' src.
