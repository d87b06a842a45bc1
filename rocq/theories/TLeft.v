(** C57: what a failing component reader leaves in the buffer of its caller. *)
From Verif Require Import Types Model MLib MConnect MConnAck MPublish MPubAck MPubRec MPubRel MPubComp MSubscribe MSubAck
  MUnsubscribe MUnsubAck MDisconnect MLeft Spec Wire Sites Faults Left.
From Verif Require Import PBase PVarint PUtf8 PRead PItems PProps PFrame PWire PTotal PFaults PLeft.

(** The reader with its buffer ([m]) returns what the reader of the model ([rd]) returns, and after an
    error the buffer holds what [L] says. *)
Definition leaves_behind {A} (m : W A) (rd : bytes -> res (A * bytes)) (L : leaves) : Prop := forall b, bytes_ok b ->
  (forall a r, m b = (Ok a, r) <-> rd b = Ok (a, r))
  /\ (forall e, (exists left, m b = (Err e, left)) <-> rd b = Err e)
  /\ (forall e left, m b = (Err e, left) <-> L b e left).

Lemma behind_intro {A} (m : W A) rd L : same m rd -> (forall b e left, bytes_ok b -> m b = (Err e, left) <-> L b e left) -> leaves_behind m rd L.
Proof.
  intros Hs Hl b Hb. split; [intros a r; apply forget_ok; exact Hs|]. split; [|intros e left; apply Hl; exact Hb].
  intros e. rewrite <- (Hs b). destruct (m b) as [[a|e'| |] r]; cbn [forget]; split; intros X; try discriminate X.
  - destruct X as [? X]. discriminate X.
  - destruct X as [? X]. injection X as -> _. reflexivity.
  - injection X as ->. exists r. reflexivity.
  - destruct X as [? X]. discriminate X.
  - destruct X as [? X]. discriminate X.
Qed.
Lemma behind_section {A} ft (m : W (option A)) rd allowed : s_section ft m rd allowed -> leaves_behind m rd (section_leaves ft allowed).
Proof. intros [H1 H2]. apply behind_intro; [exact H1|]. intros b e left Hb. apply H2. exact Hb. Qed.

(** Every *Properties::read (DisconnectProperties::extract): an unreadable section length is left where
    it was; then everything up to the identifier of the first unreadable property is gone, and so much
    of its value as was readable. *)
Theorem C57_property_sections ft :
  leaves_behind (s_ConnectProperties_read ft) (ConnectProperties_read ft) (section_leaves ft connect_allowed)
  /\ leaves_behind (s_LastWillProperties_read ft) (LastWillProperties_read ft) (section_leaves ft will_allowed)
  /\ leaves_behind (s_ConnAckProperties_read ft) (ConnAckProperties_read ft) (section_leaves ft connack_allowed)
  /\ leaves_behind (s_PublishProperties_read ft) (PublishProperties_read ft) (section_leaves ft publish_allowed)
  /\ leaves_behind (s_PubAckProperties_read ft) (PubAckProperties_read ft) (section_leaves ft ack_allowed)
  /\ leaves_behind (s_PubRecProperties_read ft) (PubRecProperties_read ft) (section_leaves ft ack_allowed)
  /\ leaves_behind (s_PubRelProperties_read ft) (PubRelProperties_read ft) (section_leaves ft ack_allowed)
  /\ leaves_behind (s_PubCompProperties_read ft) (PubCompProperties_read ft) (section_leaves ft ack_allowed)
  /\ leaves_behind (s_SubscribeProperties_read ft) (SubscribeProperties_read ft) (section_leaves ft subscribe_allowed)
  /\ leaves_behind (s_SubAckProperties_read ft) (SubAckProperties_read ft) (section_leaves ft ack_allowed)
  /\ leaves_behind (s_UnsubscribeProperties_read ft) (UnsubscribeProperties_read ft) (section_leaves ft unsubscribe_allowed)
  /\ leaves_behind (s_UnsubAckProperties_read ft) (UnsubAckProperties_read ft) (section_leaves ft ack_allowed)
  /\ leaves_behind (s_DisconnectProperties_extract ft) (DisconnectProperties_extract ft) (section_leaves ft disconnect_allowed).
Proof.
  split; [apply behind_section, s_ConnectProperties_section|].
  split; [apply behind_section, s_LastWillProperties_section|].
  split; [apply behind_section, s_ConnAckProperties_section|].
  split; [apply behind_section, s_PublishProperties_section|].
  split; [apply behind_section, s_PubAckProperties_section|].
  split; [apply behind_section, s_PubRecProperties_section|].
  split; [apply behind_section, s_PubRelProperties_section|].
  split; [apply behind_section, s_PubCompProperties_section|].
  split; [apply behind_section, s_SubscribeProperties_section|].
  split; [apply behind_section, s_SubAckProperties_section|].
  split; [apply behind_section, s_UnsubscribeProperties_section|].
  split; [apply behind_section, s_UnsubAckProperties_section|].
  apply behind_section, s_DisconnectProperties_section.
Qed.
(** A Server Keep Alive property (19), legal in CONNACK only, after a user property: its value is left. *)
Example C57_property_sections_instance :
  s_PubAckProperties_read F_default [10; 38; 0; 1; 97; 0; 1; 98; 19; 0; 60; 1]
    = (Err (InvalidPropertyType 19), [0; 60; 1])
  /\ section_leaves F_default ack_allowed [10; 38; 0; 1; 97; 0; 1; 98; 19; 0; 60; 1] (InvalidPropertyType 19) [0; 60; 1]
  /\ s_ConnectProperties_read F_default [3; 17; 0; 0] = (Err MalformedPacket, [0; 0])
  /\ s_ConnectProperties_read F_default [8; 21; 0; 4; 255; 254; 0; 0; 7] = (Err TopicNotUtf8, [7])
  /\ s_ConnectProperties_read F_default [255; 255] = (Err (InsufficientBytes 1), [255; 255]).
Proof.
  split; [vm_compute; reflexivity|]. split; [|vm_compute; auto].
  destruct (C57_property_sections F_default) as (_ & _ & _ & _ & H & _).
  apply (H [10; 38; 0; 1; 97; 0; 1; 98; 19; 0; 60; 1]); [|vm_compute; reflexivity].
  repeat constructor; vm_compute; reflexivity.
Qed.

(** LastWill::read: the will quality is looked at last, after the whole will has been taken. *)
Theorem C57_will ft flags : flags < 256 -> leaves_behind (s_LastWill_read ft flags) (LastWill_read ft flags) (will_leaves ft flags).
Proof. intros Hf. apply behind_intro; [apply same_will|]. intros b e left Hb. apply will_left; assumption. Qed.
Example C57_will_instance : leaves_behind (s_LastWill_read F_cow 30) (LastWill_read F_cow 30) (will_leaves F_cow 30)
  /\ s_LastWill_read F_cow 30 [0; 0; 1; 97; 0; 1; 98; 9; 9] = (Err (InvalidQoS 3), [9; 9])
  /\ s_LastWill_read F_cow 32 [0; 0; 1; 97] = (Err IncorrectPacketFormat, [0; 0; 1; 97]).
Proof. split; [apply C57_will; reflexivity|vm_compute; auto]. Qed.

(** Login::read: an unreadable password leaves the buffer after the user name (and after the
    password's length, if that is readable). *)
Theorem C57_login ft flags : leaves_behind (s_Login_read ft flags) (Login_read ft flags) (login_leaves ft flags).
Proof. apply behind_intro; [apply same_login|]. intros b e left Hb. apply login_left; assumption. Qed.
Example C57_login_instance :
  s_Login_read F_default 192 [0; 1; 97; 0; 5; 98] = (Err (BoundaryCrossed 5), [98])
  /\ login_leaves F_default 192 [0; 1; 97; 0; 5; 98] (BoundaryCrossed 5) [98]
  /\ s_Login_read F_default 192 [0; 1; 97; 0] = (Err MalformedPacket, [0]).
Proof.
  split; [vm_compute; reflexivity|]. split; [|vm_compute; reflexivity].
  apply (C57_login F_default 192 [0; 1; 97; 0; 5; 98]); [|vm_compute; reflexivity]. repeat constructor; vm_compute; reflexivity.
Qed.

(** Filter::read: the good filters are gone, and so much of the first bad one as was readable; when
    all are good, everything is gone. *)
Theorem C57_filters ft b : bytes_ok b ->
  (forall fs r, s_Filter_read ft b = (Ok fs, r) <-> Filter_read ft b = Ok fs /\ r = [])
  /\ (forall e, (exists left, s_Filter_read ft b = (Err e, left)) <-> Filter_read ft b = Err e)
  /\ (forall e left, s_Filter_read ft b = (Err e, left) <-> filters_leaves ft b e left).
Proof.
  intros Hb. pose proof (same_filters ft (S (length b)) [] b) as Hs. unfold s_Filter_read, Filter_read.
  split; [|split; [|intros e left; apply filters_left; [lia|exact Hb]]].
  - intros fs r. destruct (s_Filter_read_loop ft _ _ b) as [[a|e'| |] r'], (Filter_read_loop ft _ _ b) as [c|e| |]; cbn [forget rbind] in Hs;
      try discriminate Hs; split; intros X; try discriminate X; try (destruct X; discriminate).
    + injection Hs as -> ->. injection X as -> ->. auto.
    + destruct X as [X ->]. injection Hs as -> ->. injection X as ->. reflexivity.
  - intros e0. destruct (s_Filter_read_loop ft _ _ b) as [[a|e'| |] r'], (Filter_read_loop ft _ _ b) as [c|e| |]; cbn [forget rbind] in Hs;
      try discriminate Hs; split; intros X; try discriminate X; try (destruct X; discriminate).
    + destruct X as [? X]. injection X as -> _. injection Hs as ->. reflexivity.
    + injection Hs as ->. injection X as ->. exists r'. reflexivity.
Qed.
Example C57_filters_instance :
  s_Filter_read F_default [0; 1; 97; 1; 0; 1; 98; 3; 7] = (Err (InvalidQoS 3), [7])
  /\ filters_leaves F_default [0; 1; 97; 1; 0; 1; 98; 3; 7] (InvalidQoS 3) [7]
  /\ s_Filter_read F_default [0; 1; 97; 1; 0; 1; 98] = (Err MalformedPacket, [])
  /\ s_Filter_read F_default [0; 1; 97; 1; 0] = (Err MalformedPacket, [0]).
Proof.
  split; [vm_compute; reflexivity|]. split; [|vm_compute; auto].
  apply (C57_filters F_default [0; 1; 97; 1; 0; 1; 98; 3; 7]); [|vm_compute; reflexivity]. repeat constructor; vm_compute; reflexivity.
Qed.

(** What is left is always the end of what was given: nothing is invented, changed or reordered, and
    nothing is put back. *)
Definition ends (L : leaves) : Prop := forall b e left, L b e left -> exists used, b = used ++ left.
Lemma untouched_ends F : ends (untouched F).
Proof. intros b e left [_ ->]. exists []. reflexivity. Qed.
Lemma never_ends : ends never.
Proof. intros b e left []. Qed.
Lemma after_ends {A} (R : A -> bytes -> Prop) L next : ends L -> (forall a, ends (next a)) -> ends (after R L next).
Proof.
  intros HL Hn b e left [H|(a & l & r & -> & _ & H)]; [exact (HL _ _ _ H)|]. apply Hn in H. destruct H as [u ->].
  exists (l ++ u). apply app_assoc.
Qed.
Lemma checked_ends c err next : ends next -> ends (checked c err next).
Proof. intros Hn b e left [(_ & _ & ->)|[_ H]]; [exists []; reflexivity|exact (Hn _ _ _ H)]. Qed.
Lemma bin_ends : ends bin_leaves.
Proof. intros b e left [(_ & _ & ->)|(n & _ & -> & _)]; [exists []; reflexivity|eexists; reflexivity]. Qed.
Lemma str_ends ft : ends (str_leaves ft).
Proof. intros b e left [H|(_ & _ & s & l & -> & _)]; [exact (bin_ends _ _ _ H)|exists l; reflexivity]. Qed.
Lemma value_ends ft k : ends (value_leaves ft k).
Proof.
  destruct k; cbn [value_leaves]; try apply untouched_ends; try apply str_ends; try apply bin_ends.
  apply after_ends; [apply str_ends|intros; apply str_ends].
Qed.
Lemma property_ends ft allowed : ends (property_leaves ft allowed).
Proof.
  intros [|id r] e left H; cbn [property_leaves] in H.
  - destruct H as [_ ->]. exists []. reflexivity.
  - destruct (property_kind id) as [k|].
    + apply (checked_ends _ _ _ (value_ends ft k)) in H. destruct H as [u ->]. exists (id :: u). reflexivity.
    + destruct H as [_ ->]. exists [id]. reflexivity.
Qed.
Lemma section_ends ft allowed : ends (section_leaves ft allowed).
Proof.
  apply after_ends; [apply untouched_ends|]. intros d b e left (sp & r & -> & _ & _ & H). apply property_ends in H.
  destruct H as [u ->]. eexists. apply app_assoc.
Qed.
Lemma will_ends ft flags : ends (will_leaves ft flags).
Proof.
  unfold will_leaves. destruct (N.testbit flags 2); [|apply checked_ends, never_ends].
  apply after_ends; [apply section_ends|intros _]. apply after_ends; [apply bin_ends|intros _].
  apply after_ends; [apply bin_ends|intros _]. apply checked_ends, never_ends.
Qed.
Lemma login_ends ft flags : ends (login_leaves ft flags).
Proof.
  unfold login_leaves, optional_str_leaves. apply after_ends; [|intros _].
  - destruct (N.testbit flags 7); [apply str_ends|apply never_ends].
  - destruct (N.testbit flags 6); [apply str_ends|apply never_ends].
Qed.
Lemma filters_ends ft : ends (filters_leaves ft).
Proof.
  intros b e left (fs & l & r & -> & _ & _ & H).
  assert (X : ends (filter_leaves ft)).
  { unfold filter_leaves. apply after_ends; [apply str_ends|intros _]. apply after_ends; [apply untouched_ends|intros o].
    apply checked_ends, checked_ends, never_ends. }
  apply X in H. destruct H as [u ->]. eexists. apply app_assoc.
Qed.

(** Running reader [m] on [b], with success or with an error, leaves an end of [b]. *)
Definition leaves_an_end {A} (m : W A) : Prop := forall b left, bytes_ok b ->
  (exists a, m b = (Ok a, left)) \/ (exists e, m b = (Err e, left)) -> exists used, b = used ++ left.
Lemma end_intro {A} (m : W A) rd L (R : A -> bytes -> Prop) : leaves_behind m rd L -> ends L ->
  (forall b a r, bytes_ok b -> rd b = Ok (a, r) -> exists l, b = l ++ r /\ R a l) -> leaves_an_end m.
Proof.
  intros H HL HR b left Hb X. destruct (H b Hb) as (H1 & H2 & H3). destruct X as [[a E]|[e E]].
  - apply H1 in E. apply HR in E; [|exact Hb]. destruct E as (l & -> & _). exists l. reflexivity.
  - apply H3 in E. exact (HL _ _ _ E).
Qed.
Lemma end_section {A} ft (m : W (option A)) rd allowed of :
  s_section ft m rd allowed -> reads_section ft rd allowed of -> leaves_an_end m.
Proof.
  intros Hs Hr. apply (end_intro m rd _ (props_wire ft allowed of) (behind_section ft m rd allowed Hs) (section_ends ft allowed)).
  intros b a r Hb. apply section_read_inv; assumption.
Qed.
Theorem C57_nothing_invented ft :
  leaves_an_end (s_ConnectProperties_read ft) /\ leaves_an_end (s_LastWillProperties_read ft)
  /\ leaves_an_end (s_ConnAckProperties_read ft) /\ leaves_an_end (s_PublishProperties_read ft)
  /\ leaves_an_end (s_PubAckProperties_read ft) /\ leaves_an_end (s_PubRecProperties_read ft)
  /\ leaves_an_end (s_PubRelProperties_read ft) /\ leaves_an_end (s_PubCompProperties_read ft)
  /\ leaves_an_end (s_SubscribeProperties_read ft) /\ leaves_an_end (s_SubAckProperties_read ft)
  /\ leaves_an_end (s_UnsubscribeProperties_read ft) /\ leaves_an_end (s_UnsubAckProperties_read ft)
  /\ leaves_an_end (s_DisconnectProperties_extract ft)
  /\ (forall flags, flags < 256 -> leaves_an_end (s_LastWill_read ft flags))
  /\ (forall flags, leaves_an_end (s_Login_read ft flags))
  /\ leaves_an_end (s_Filter_read ft).
Proof.
  split; [exact (end_section ft _ _ _ _ (s_ConnectProperties_section ft) (ConnectProperties_read_section ft))|].
  split; [exact (end_section ft _ _ _ _ (s_LastWillProperties_section ft) (LastWillProperties_read_section ft))|].
  split; [exact (end_section ft _ _ _ _ (s_ConnAckProperties_section ft) (ConnAckProperties_read_section ft))|].
  split; [exact (end_section ft _ _ _ _ (s_PublishProperties_section ft) (PublishProperties_read_section ft))|].
  split; [exact (end_section ft _ _ _ _ (s_PubAckProperties_section ft) (PubAckProperties_read_section ft))|].
  split; [exact (end_section ft _ _ _ _ (s_PubRecProperties_section ft) (PubRecProperties_read_section ft))|].
  split; [exact (end_section ft _ _ _ _ (s_PubRelProperties_section ft) (PubRelProperties_read_section ft))|].
  split; [exact (end_section ft _ _ _ _ (s_PubCompProperties_section ft) (PubCompProperties_read_section ft))|].
  split; [exact (end_section ft _ _ _ _ (s_SubscribeProperties_section ft) (SubscribeProperties_read_section ft))|].
  split; [exact (end_section ft _ _ _ _ (s_SubAckProperties_section ft) (SubAckProperties_read_section ft))|].
  split; [exact (end_section ft _ _ _ _ (s_UnsubscribeProperties_section ft) (UnsubscribeProperties_read_section ft))|].
  split; [exact (end_section ft _ _ _ _ (s_UnsubAckProperties_section ft) (UnsubAckProperties_read_section ft))|].
  split; [exact (end_section ft _ _ _ _ (s_DisconnectProperties_section ft) (DisconnectProperties_extract_section ft))|].
  split; [|split].
  - intros flags Hf. apply (end_intro _ _ _ (will_wire ft flags) (C57_will ft flags Hf) (will_ends ft flags)).
    intros b a r Hb. apply LastWill_wire_inv; assumption.
  - intros flags. apply (end_intro _ _ _ (login_wire ft flags) (C57_login ft flags) (login_ends ft flags)).
    intros b a r Hb. apply Login_wire_inv; assumption.
  - intros b left Hb X. destruct (C57_filters ft b Hb) as (H1 & _ & H3). destruct X as [[fs X]|[e X]].
    + apply H1 in X. destruct X as [_ ->]. exists b. symmetry. apply app_nil_r.
    + apply H3 in X. exact (filters_ends ft _ _ _ X).
Qed.

(** Where the reader stands tells which defect it was: a reader that fails without taking a byte has
    met an unreadable section length (there is no other way), and a property that is unknown or not
    allowed has been passed by exactly its identifier. *)
Theorem C57_where_sections_stop ft allowed b e left : bytes_ok b -> section_leaves ft allowed b e left ->
  (left = b <-> varint_faulty b e)
  /\ (forall id, e = InvalidPropertyType id -> exists before, b = before ++ id :: left /\ before <> []).
Proof.
  intros Hb H. split.
  - split.
    + intros ->. destruct H as [[H _]|(d & l & r & E & Hw & sp & r2 & -> & _ & _ & H)]; [exact H|exfalso].
      apply property_ends in H. destruct H as [u ->]. apply varint_wire_bound in Hw. destruct Hw as (_ & H1 & _).
      apply (f_equal (@length N)) in E. rewrite !app_length in E.
      assert (length l <> 0%nat) by (destruct l; [unfold blen in H1; cbn in H1; lia|discriminate]). lia.
    + intros F. destruct H as [[_ H]|(d & l & r & -> & Hw & _)]; [exact H|exfalso].
      apply length_err in F; [|exact Hb]. bok. rewrite (length_app d) in F by assumption. discriminate.
  - intros id ->. destruct H as [[H _]|(d & l & r & -> & Hw & sp & r2 & -> & _ & _ & H)].
    + exfalso. destruct H as [[_ X]|(? & ? & _ & _ & _ & X)]; discriminate X.
    + assert (X : r2 = id :: left).
      { destruct r2 as [|i r2]; cbn [property_leaves] in H; [destruct H; discriminate|].
        destruct (property_kind i) as [k|].
        - destruct H as [(_ & E & ->)|[_ H]]; [congruence|exfalso]. revert H.
          assert (S : forall b0, str_leaves ft b0 (InvalidPropertyType id) left -> False).
          { intros b0 [[(_ & X & _)|(n & _ & _ & _ & X)]|(_ & X & _)]; discriminate X. }
          destruct k; cbn [value_leaves]; unfold untouched, fixed_faulty; try solve [intros [[_ X] _]; discriminate X].
          + intros [[[_ X]|(? & ? & _ & _ & _ & X)] _]; discriminate X.
          + apply S.
          + intros [(_ & X & _)|(n & _ & _ & _ & X)]; discriminate X.
          + intros [X|(a & l3 & r3 & _ & _ & X)]; exact (S _ X).
        - destruct H as [E ->]. congruence. }
      subst r2. exists (l ++ concat (map snd sp)). split; [rewrite <- app_assoc; reflexivity|].
      apply varint_wire_bound in Hw. destruct Hw as (_ & H1 & _). destruct l; [unfold blen in H1; cbn in H1; lia|discriminate].
Qed.
Example C57_where_sections_stop_instance :
  section_leaves F_default ack_allowed [10; 38; 0; 1; 97; 0; 1; 98; 19; 0; 60; 1] (InvalidPropertyType 19) [0; 60; 1]
  /\ section_leaves F_default ack_allowed [128; 128; 128; 128; 1] MalformedRemainingLength [128; 128; 128; 128; 1].
Proof.
  split; [apply C57_property_sections_instance|].
  destruct (C57_property_sections F_default) as (_ & _ & _ & _ & H & _).
  apply (H [128; 128; 128; 128; 1]); [|vm_compute; reflexivity].
  repeat constructor; vm_compute; reflexivity.
Qed.
