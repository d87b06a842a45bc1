(** Topic names and topic filters as MQTT 5.0, section 4.7 has them: the vocabulary of C61, C62.
    A string is its bytes; '/' is 47, '+' 43, '#' 35, '$' 36. *)
From Verif Require Import Types.

(** Levels are joined by '/'. *)
Fixpoint join (ls : list bytes) : bytes :=
  match ls with
  | [] => []
  | [l] => l
  | l :: ls => l ++ 47 :: join ls
  end.
(** [ls] are the levels of [s]: at least one, none with a '/' in it, and joined they are [s]. *)
Definition levels (s : bytes) (ls : list bytes) : Prop :=
  ls <> [] /\ Forall (fun l => ~ In 47 l) ls /\ s = join ls.

(** Neither wildcard character. *)
Definition plain (s : bytes) : Prop := ~ In 43 s /\ ~ In 35 s.

(** 4.7.1: '#' on its own and as the last level, '+' on its own at any level, other levels
    without wildcard characters. *)
Inductive well_formed : list bytes -> Prop :=
| wf_end : forall l, plain l -> well_formed [l]
| wf_plus_end : well_formed [[43]]
| wf_hash : well_formed [[35]]
| wf_level : forall l ls, plain l -> well_formed ls -> well_formed (l :: ls)
| wf_plus : forall ls, well_formed ls -> well_formed ([43] :: ls).
(** 4.7.3: at least one character. *)
Definition topic_filter (f : bytes) : Prop :=
  f <> [] /\ exists ls, levels f ls /\ well_formed ls.
Definition topic_name (t : bytes) : Prop := t <> [] /\ plain t.

(** 4.7.1: levels agree one by one; '+' stands for any one level; a final '#' for any number of
    levels, none included. *)
Inductive fits : list bytes -> list bytes -> Prop :=
| fit_end : fits [] []
| fit_level : forall l fs ts, plain l -> fits fs ts -> fits (l :: fs) (l :: ts)
| fit_plus : forall t fs ts, fits fs ts -> fits ([43] :: fs) (t :: ts)
| fit_hash : forall ts, fits [[35]] ts.

Definition starts_with (c : N) (s : bytes) : Prop := exists r, s = c :: r.
(** The filter [f] selects the topic name [t]: the levels fit, and (4.7.2) a filter that starts with
    a wildcard does not select a topic name that starts with '$'. *)
Definition selects (f t : bytes) : Prop :=
  (exists fs ts, levels f fs /\ levels t ts /\ fits fs ts) /\
  ~ (starts_with 36 t /\ (starts_with 43 f \/ starts_with 35 f)).
