(** Model of /repo/src/ping.rs. *)
From Verif Require Import Types MLib.

(** /repo/src/ping.rs:8-11 PingReq::write. *)
Definition PingReq_write : W N := do_ put_slice [192; 0]; wret 2.
(** /repo/src/ping.rs:18-21 PingResp::write. *)
Definition PingResp_write : W N := do_ put_slice [208; 0]; wret 2.
