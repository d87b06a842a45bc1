(** The errors of the readers are exactly the faults of Faults.v. *)
From Verif Require Import Types Model Spec Wire Sites Faults PBase PVarint PUtf8 PRead PItems PProps PFrame PWire PTotal.
Ltac Zify.zify_post_hook ::= Z.div_mod_to_equations.

(** A reader whose successes are described by [R] and whose errors by [F]. *)
Definition reader {A} (rd : bytes -> res (A * bytes)) (R : A -> bytes -> Prop) (F : fault) : Prop :=
  forall b, bytes_ok b ->
    (forall a r, rd b = Ok (a, r) <-> exists l, b = l ++ r /\ R a l) /\ (forall e, rd b = Err e <-> F b e).

Lemma rbind_err {A B} (r : res A) (k : A -> res B) e :
  rbind r k = Err e <-> r = Err e \/ exists a, r = Ok a /\ k a = Err e.
Proof.
  destruct r as [a|e'| |]; cbn [rbind]; split; intros H.
  - right. exists a. auto.
  - destruct H as [H|(a' & E & H)]; [discriminate|]. injection E as ->. exact H.
  - left. injection H as ->. reflexivity.
  - destruct H as [H|(a' & E & H)]; [injection H as ->; reflexivity|discriminate].
  - discriminate.
  - destruct H as [H|(a' & E & H)]; discriminate.
  - discriminate.
  - destruct H as [H|(a' & E & H)]; discriminate.
Qed.

Lemma part_err {A B} (rd : bytes -> res (A * bytes)) R F (K : A * bytes -> res B) next b e :
  reader rd R F -> bytes_ok b ->
  (forall a l r, b = l ++ r -> R a l -> bytes_ok l -> bytes_ok r -> (K (a, r) = Err e <-> next a r e)) ->
  rbind (rd b) K = Err e <-> part R F next b e.
Proof.
  intros Hrd Hb HK. destruct (Hrd b Hb) as [H1 H2]. rewrite rbind_err, H2. unfold part. apply or_iff_compat_l. split.
  - intros ([a r] & E & H). apply H1 in E. destruct E as (l & -> & HR). exists a, l, r. bok.
    repeat split; auto. apply (HK a l r); auto.
  - intros (a & l & r & E & HR & H). exists (a, r). split; [apply H1; exists l; auto|].
    subst. bok. apply (HK a l r); auto.
Qed.
Lemma guard_err {B} (c : Prop) (x : bool) err (k : res B) next b e :
  (x = true <-> c) -> (c -> (k = Err e <-> next b e)) ->
  (if negb x then Err err else k) = Err e <-> guard c err next b e.
Proof.
  intros Hx Hk. unfold guard. destruct x; cbn [negb].
  - assert (c) by tauto. rewrite (Hk H). tauto.
  - assert (~ c) by (intros C; apply Hx in C; discriminate). split; [intros E; injection E as <-; tauto|].
    intros [[_ ->]|[? _]]; [reflexivity|contradiction].
Qed.
Lemma code_err {R B} (rs : N -> res R) (valid : Prop) err (K : R -> B) code e b :
  (rs code = Err err \/ exists r, rs code = Ok r) -> ((exists r, rs code = Ok r) <-> valid) ->
  (let? r := rs code in Ok (K r)) = Err e <-> guard valid err fine b e.
Proof.
  intros Ht Hv. unfold guard, fine. destruct Ht as [E|[r E]]; rewrite E; cbn [rbind].
  - assert (~ valid) by (intros C; apply Hv in C; destruct C as [r C]; congruence).
    split; [intros X; injection X as <-; tauto|]. intros [[_ ->]|[_ []]]. reflexivity.
  - assert (valid) by (apply Hv; exists r; exact E).
    split; [discriminate|]. intros [[? _]|[_ []]]. contradiction.
Qed.

(** ---------- Primitives ---------- *)

Lemma u8_reader : reader read_u8 byte_wire (fixed_faulty 1).
Proof.
  intros b Hb. split.
  - intros n r. split.
    + intros H. apply read_u8_inv in H. subst. exists [n]. split; reflexivity.
    + intros (l & -> & ->). reflexivity.
  - intros e. unfold fixed_faulty. destruct b as [|x b]; cbn [read_u8].
    + split; [intros H; injection H as <-; split; reflexivity|intros [_ ->]; reflexivity].
    + rewrite blen_cons. split; [discriminate|intros [H _]; rewrite ?blen_cons in H; lia].
Qed.
Lemma u16_reader : reader read_u16 u16_wire (fixed_faulty 2).
Proof.
  intros b Hb. split.
  - intros n r. split; [apply read_u16_inv; exact Hb|]. intros (l & -> & H). apply read_u16_app. exact H.
  - intros e. unfold fixed_faulty, read_u16. destruct (N.ltb_spec (blen b) 2) as [L|L].
    + split; [intros H; injection H as <-; auto|intros [_ ->]; reflexivity].
    + destruct b as [|x [|y b]]; rewrite ?blen_cons, ?blen_nil in L; try lia. cbn [get_u16]. split; [discriminate|intros [H _]; rewrite ?blen_cons in H; lia].
Qed.
Lemma u32_reader : reader read_u32 (fun n l => n < 4294967296 /\ l = u32be n) (fixed_faulty 4).
Proof.
  intros b Hb. split.
  - intros n r. split; [apply read_u32_inv; exact Hb|]. intros (l & -> & H & ->). apply read_u32_app. exact H.
  - intros e. unfold fixed_faulty, read_u32. destruct (N.ltb_spec (blen b) 4) as [L|L].
    + split; [intros H; injection H as <-; auto|intros [_ ->]; reflexivity].
    + destruct b as [|x [|y [|z [|w b]]]]; rewrite ?blen_cons, ?blen_nil in L; try lia. cbn [get_u32]. split; [discriminate|intros [H _]; rewrite ?blen_cons in H; lia].
Qed.
Lemma bin_reader : reader read_mqtt_bytes bin_wire bin_faulty.
Proof.
  intros b Hb. split.
  - intros n r. split; [apply read_mqtt_bytes_inv; exact Hb|]. intros (l & -> & H). apply read_mqtt_bytes_app. exact H.
  - intros e. unfold read_mqtt_bytes. etransitivity.
    { apply (part_err _ _ _ _ (fun n r e => blen r < n /\ e = BoundaryCrossed n) _ _ u16_reader Hb).
      intros n l r -> _ _ Hr. destruct (N.ltb_spec (blen r) n).
      - split; [intros E; injection E as <-; auto|intros [_ ->]; reflexivity].
      - unfold split_to. destruct (N.leb_spec n (blen r)); [|lia]. split; [discriminate|intros [? _]; lia]. }
    unfold part, bin_faulty, fixed_faulty. apply or_iff_compat_l. split.
    + intros (n & l & r & -> & [Hn ->] & H1 & ->). exists n, r. auto.
    + intros (n & r & Hn & -> & H1 & ->). exists n, (u16be n), r. repeat split; auto.
Qed.
Lemma binary_dec ft : {ft = F_binary} + {ft <> F_binary}.
Proof. destruct ft; ((left; reflexivity) || (right; discriminate)). Defined.
Lemma read_string_cases ft b :
  read_mqtt_string ft b = if binary_dec ft then read_mqtt_bytes b
    else let? (s, b) := read_mqtt_bytes b in if from_utf8 s then Ok (s, b) else Err TopicNotUtf8.
Proof. destruct ft; reflexivity. Qed.
Lemma str_reader ft : reader (read_mqtt_string ft) (str_wire ft) (str_faulty ft).
Proof.
  intros b Hb. split.
  - intros n r. split; [apply read_mqtt_string_inv; exact Hb|]. intros (l & -> & H). apply read_mqtt_string_app. exact H.
  - intros e. rewrite read_string_cases. destruct (binary_dec ft) as [F|F].
    + unfold str_faulty. destruct (bin_reader b Hb) as [_ H]. rewrite H. tauto.
    + etransitivity.
      { apply (part_err _ _ _ _ (fun s r e => ~ utf8 s /\ e = TopicNotUtf8) _ _ bin_reader Hb).
        intros s l r -> _ _ Hr. pose proof (from_utf8_iff s) as U. destruct (from_utf8 s).
        - split; [discriminate|intros [X _]; exfalso; tauto].
        - split; [intros E; injection E as <-|intros [_ ->]; reflexivity]. split; [|reflexivity].
          intros X. apply U in X. discriminate. }
      unfold part, str_faulty. apply or_iff_compat_l. split.
      * intros (s & l & r & -> & Hw & H1 & ->). repeat split; auto. exists s, l, r. auto.
      * intros (_ & -> & s & l & r & -> & Hw & H1). exists s, l, r. auto.
Qed.

Definition read_varint (b : bytes) : res (N * bytes) :=
  let? (n, v) := length_ b in let? b := advance b n in Ok (v, b).
Lemma length_err b e : bytes_ok b -> length_ b = Err e <-> varint_faulty b e.
Proof.
  intros Hb. unfold varint_faulty, broken_varint.
  destruct (length_total b Hb) as [(l & rest & v & -> & Hw & E)|[(H1 & H2 & E)|(l & rest & -> & H1 & H2 & E)]]; rewrite E.
  - split; [discriminate|]. intros [[[H1 H2] ->]|(l2 & r2 & E2 & H1 & H2 & ->)].
    + rewrite (length_all_cont _ Hb H1 H2) in E. discriminate.
    + rewrite E2 in Hb, E. bok. rewrite (length_malformed l2 r2) in E by assumption. discriminate.
  - split; [intros X; injection X as <-; left; auto|].
    intros [[_ ->]|(l2 & r2 & E2 & H3 & H4 & ->)]; [reflexivity|].
    subst. rewrite blen_app in H1. lia.
  - split; [intros X; injection X as <-; right; exists l, rest; auto|].
    intros [[[H3 H4] ->]|(_ & _ & _ & _ & _ & ->)]; [|reflexivity].
    rewrite blen_app in H3. lia.
Qed.
Lemma varint_reader : reader read_varint varint_wire varint_faulty.
Proof.
  intros b Hb. split.
  - intros v r. unfold read_varint. split.
    + intros H. inv_ok H. inv_ok H1. ginv H2. apply length_inv in H0; [|exact Hb].
      destruct H0 as (l & rest & -> & -> & Hw). rewrite advance_app in H. injection H as <-. exists l. auto.
    + intros (l & -> & Hw). bok. rewrite (length_app v) by assumption. cbn [rbind]. rewrite advance_app. reflexivity.
  - intros e. rewrite <- length_err by exact Hb. unfold read_varint.
    destruct (length_total b Hb) as [(l & rest & v & -> & Hw & E)|[(H1 & H2 & E)|(l & rest & -> & H1 & H2 & E)]]; rewrite E; cbn [rbind].
    + rewrite advance_app. split; discriminate.
    + split; congruence.
    + split; congruence.
Qed.

(** ---------- Properties ---------- *)

Lemma rd_err {A B} (rd : bytes -> res (A * bytes)) R F (K : A * bytes -> res B) b e :
  reader rd R F -> bytes_ok b -> (forall a r, K (a, r) <> Err e) -> rbind (rd b) K = Err e <-> F b e.
Proof.
  intros Hrd Hb HK. destruct (Hrd b Hb) as [_ H]. rewrite rbind_err, H. split; [|auto].
  intros [?|([a r] & _ & X)]; [assumption|]. exfalso. apply (HK a r X).
Qed.
Lemma value_err ft k b e : bytes_ok b -> read_value ft k b = Err e <-> value_faulty ft k b e.
Proof.
  intros Hb. destruct k; cbn [read_value value_faulty].
  - apply (rd_err _ _ _ _ _ _ u8_reader Hb). discriminate.
  - apply (rd_err _ _ _ _ _ _ u16_reader Hb). discriminate.
  - apply (rd_err _ _ _ _ _ _ u32_reader Hb). discriminate.
  - destruct (varint_reader b Hb) as [_ H]. rewrite <- H. unfold read_varint.
    destruct (length_ b) as [[n v]| | |]; cbn [rbind]; [destruct (advance b n); cbn [rbind]| | |]; split; congruence.
  - apply (rd_err _ _ _ _ _ _ (str_reader ft) Hb). discriminate.
  - apply (rd_err _ _ _ _ _ _ bin_reader Hb). discriminate.
  - apply (part_err _ _ _ _ _ _ _ (str_reader ft) Hb). intros a l r _ _ _ Hr.
    apply (rd_err _ _ _ _ _ _ (str_reader ft) Hr). discriminate.
Qed.
Lemma gstep_err ft allowed id seen b e : bytes_ok b ->
  gstep ft allowed id seen b = Err e <-> property_faulty ft allowed (id :: b) e.
Proof.
  intros Hb. unfold gstep, property_faulty. destruct (property_kind id) as [k|].
  - unfold guard. pose proof (mem_in id allowed) as M. destruct (mem id allowed).
    + assert (In id allowed) by tauto. rewrite rbind_err, value_err by exact Hb. split.
      * intros [?|([[v n] r] & _ & X)]; [tauto|discriminate].
      * tauto.
    + assert (~ In id allowed) by (intros C; apply M in C; discriminate).
      split; [intros E; injection E as <-; tauto|]. intros [[_ ->]|[? _]]; [reflexivity|contradiction].
  - split; [intros E; injection E as <-; reflexivity|intros ->; reflexivity].
Qed.
Lemma gstep_no_panic ft allowed id seen b : bytes_ok b -> gstep ft allowed id seen b <> Panic /\ gstep ft allowed id seen b <> Diverge.
Proof.
  intros Hb. unfold gstep. destruct (property_kind id) as [k|]; [|split; discriminate].
  destruct (mem id allowed); [|split; discriminate].
  pose proof (read_value_tame ft k b Hb) as T.
  destruct (read_value ft k b) as [[[v n] r]| | |]; cbn [rbind]; try (destruct T; fail); split; discriminate.
Qed.

Lemma loop_err ft allowed plen e : plen <= max_varint -> forall fuel cursor seen b, bytes_ok b -> (length b < fuel)%nat ->
  props_loop (gstep ft allowed) fuel cursor plen seen b = Err e
  <-> exists sp r, b = concat (map snd sp) ++ r /\ Forall (spelled_wire ft allowed) sp
       /\ cursor + total sp < plen /\ property_faulty ft allowed r e.
Proof.
  intros Hp. induction fuel as [|fuel IH]; intros cursor seen b Hb Hf; [lia|]. cbn [props_loop].
  destruct (N.ltb_spec cursor plen) as [L|L].
  2:{ split; [discriminate|]. intros (sp & r & _ & _ & H & _). lia. }
  destruct b as [|id b]; [|rewrite read_u8_cons]; cbn [read_u8 rbind].
  - split.
    + intros E. injection E as <-. exists [], []. cbn. repeat split; auto. lia.
    + intros (sp & r & E & Hsp & _ & H). destruct sp as [|s sp].
      * cbn in E. subst. cbn in H. congruence.
      * inversion Hsp as [|? ? Hs _]; subst. apply spelled_wire_inv in Hs. destruct Hs as (i & v & l & -> & _). discriminate E.
  - unfold max_varint in Hp. unfold usize_add at 1.
    rewrite (proj2 (N.ltb_lt (cursor + 1) usize_limit)) by (unfold usize_limit; lia). cbn [rbind].
    bok. rename H into Hid. rename H0 into Hb. cbn [length] in Hf.
    destruct (gstep ft allowed id seen b) as [[[s n] b2]|e2| |] eqn:G; cbn [rbind].
    + pose proof G as G'. apply gstep_inv in G; [|assumption|assumption]. destruct G as (v & l & -> & -> & Hw & Hc). bok.
      pose proof (counted_bound _ _ _ Hw) as [_ Hcb]. unfold usize_add.
      rewrite (proj2 (N.ltb_lt (cursor + 1 + n) usize_limit)) by (unfold usize_limit; lia). cbn [rbind].
      rewrite IH; [|assumption|rewrite app_length in Hf; lia]. split.
      * intros (sp & r & -> & Hsp & Ht & He). exists (((id, v), id :: l) :: sp), r.
        cbn [map concat snd app]. rewrite <- app_assoc. split; [reflexivity|]. split; [constructor; assumption|].
        split; [rewrite total_cons; lia|exact He].
      * intros (sp & r & E & Hsp & Ht & He). destruct sp as [|[[id2 v2] l2] sp].
        -- cbn [map concat app] in E. subst r. apply (gstep_err ft allowed id seen) in He; [congruence|bok].
        -- inversion Hsp as [|? ? Hs Hsp']; subst. pose proof (spelled_wire_inv _ _ _ Hs) as (i2 & v2' & l2' & E2 & _ & _).
           injection E2 as <- <- ->. cbn [map concat snd app] in E. injection E as -> E. rewrite <- app_assoc in E.
           destruct (gstep_app ft allowed id2 v2 l2' seen (concat (map snd sp) ++ r) Hs) as (n2 & G2 & C2).
           { assert (Z : bytes_ok (l ++ b2)) by bok. rewrite E in Z. bok. }
           rewrite <- E in G2. rewrite G' in G2. injection G2 as E1 <- ->. apply app_inj_tail in E1. destruct E1 as [_ E1]. injection E1 as ->.
           exists sp, r. split; [reflexivity|]. split; [exact Hsp'|]. split; [|exact He].
           change (cursor + (counted (id2, v2, id2 :: l2') + total sp) < plen) in Ht. rewrite <- C2 in Ht. lia.
    + pose proof (gstep_err ft allowed id seen b e Hb) as X. rewrite G in X. split.
      * intros E. exists [], (id :: b). cbn [map concat app total]. repeat split; auto; [lia|]. apply X. congruence.
      * intros (sp & r & E & Hsp & Ht & He). destruct sp as [|[[id2 v2] l2] sp].
        -- cbn [map concat app] in E. subst r. apply X in He. congruence.
        -- exfalso. inversion Hsp as [|? ? Hs Hsp']; subst. pose proof (spelled_wire_inv _ _ _ Hs) as (i2 & v2' & l2' & E2 & _ & _).
           injection E2 as <- <- ->. cbn [map concat snd app] in E. injection E as -> E. rewrite <- app_assoc in E.
           destruct (gstep_app ft allowed id2 v2 l2' seen (concat (map snd sp) ++ r) Hs) as (n2 & G2 & C2).
           { rewrite E in Hb. bok. }
           rewrite <- E in G2. rewrite G in G2. discriminate G2.
    + destruct (gstep_no_panic ft allowed id seen b Hb). contradiction.
    + destruct (gstep_no_panic ft allowed id seen b Hb). contradiction.
Qed.

Lemma section_reader ft allowed : reader (gread ft allowed) (section_wire ft allowed) (section_faulty ft allowed).
Proof.
  intros b Hb. split.
  - intros o r. split; [apply gread_inv; exact Hb|]. intros (l & -> & H). bok. apply gread_app; assumption.
  - intros e.
    assert (E : gread ft allowed b = let? (v, b) := read_varint b in
      if v =? 0 then Ok (None, b)
      else let? (st, b) := props_loop (gstep ft allowed) (S (length b)) 0 v [] b in Ok (Some st, b)).
    { unfold gread, props_read, read_varint. destruct (length_ b) as [[n v]| | |]; cbn [rbind]; try reflexivity.
      destruct (advance b n); reflexivity. }
    rewrite E. clear E. unfold section_faulty. apply (part_err _ _ _ _ _ _ _ varint_reader Hb).
    intros declared l r _ Hw _ Hr. apply varint_wire_bound in Hw. destruct Hw as (Hm & _).
    destruct (N.eqb_spec declared 0) as [->|Hne].
    + split; [discriminate|]. intros (sp & r2 & _ & _ & H & _). lia.
    + rewrite rbind_err, loop_err; [|unfold max_varint; lia|exact Hr|lia]. split.
      * intros [H|([? ?] & _ & X)]; [exact H|discriminate].
      * auto.
Qed.

(** A property structure read by a section reader. *)
Lemma props_err {A B} ft (rd : bytes -> res (option A * bytes)) allowed of (K : option A * bytes -> res B) next b e :
  reads_section ft rd allowed of -> bytes_ok b ->
  (forall o l r, b = l ++ r -> bytes_ok l -> bytes_ok r -> (K (option_map of o, r) = Err e <-> next r e)) ->
  rbind (rd b) K = Err e <-> part (section_wire ft allowed) (section_faulty ft allowed) (fun _ => next) b e.
Proof.
  intros Hrd Hb HK. rewrite Hrd.
  replace (rbind (let? (o0, b0) := gread ft allowed b in Ok (option_map of o0, b0)) K)
    with (rbind (gread ft allowed b) (fun x => K (option_map of (fst x), snd x)))
    by (destruct (gread ft allowed b) as [[? ?]| | |]; reflexivity).
  apply (part_err _ _ _ _ _ _ _ (section_reader ft allowed) Hb). cbn [fst snd]. intros o l r E _ Hl Hr. apply (HK o l r); assumption.
Qed.
Lemma props_err_last {A B} ft (rd : bytes -> res (option A * bytes)) allowed of (K : option A * bytes -> res B) b e :
  reads_section ft rd allowed of -> bytes_ok b -> (forall x, K x <> Err e) ->
  rbind (rd b) K = Err e <-> section_faulty ft allowed b e.
Proof.
  intros Hrd Hb HK. rewrite Hrd. destruct (section_reader ft allowed b Hb) as [_ H]. rewrite <- H.
  destruct (gread ft allowed b) as [[o r]|e'| |]; cbn [rbind]; try (split; congruence).
Qed.

(** ---------- Bodies ---------- *)

Lemma code_spec {R} (rs : N -> res R) (code : R -> N) err n :
  ((exists r, rs n = Ok r) \/ rs n = Err (err n)) -> (forall r, rs (code r) = Ok r) -> (forall r, rs n = Ok r -> code r = n) ->
  (rs n = Err (err n) \/ exists r, rs n = Ok r) /\ ((exists r, rs n = Ok r) <-> exists r, code r = n).
Proof.
  intros H1 H2 H3. split; [tauto|]. split; intros [r H]; exists r; [apply H3; exact H|subst; apply H2].
Qed.

Ltac ack_tac rs_total rs_code rs_inv section :=
  intros Hb; cbn [fh_fixed_header_len fh_remaining_len]; rewrite advance_0; cbn [rbind];
  unfold ack_faulty; apply (part_err _ _ _ _ _ _ _ u16_reader Hb);
  intros pkid l r E Hw Hl Hr; assert (Hlen : blen l = 2) by (destruct Hw as [_ ->]; reflexivity);
  rewrite E, blen_app, Hlen;
  destruct r as [|code r]; [change (2 + blen []) with 2; cbn [N.eqb Pos.eqb]; change (2 =? 2) with true; split; [discriminate|intros []]|];
  rewrite blen_cons; rewrite (proj2 (N.eqb_neq _ _)) by lia; rewrite read_u8_cons; cbn [rbind];
  destruct (code_spec _ _ _ code (rs_total code) rs_code (rs_inv code)) as [C1 C2];
  destruct r as [|x r];
  [ rewrite blen_nil; change (2 + (1 + 0) <? 4) with true; cbv iota;
    rewrite (code_err _ _ _ _ code _ [] C1 C2); unfold guard, fine; tauto
  | rewrite blen_cons; rewrite (proj2 (N.ltb_ge _ _)) by lia;
    apply bytes_ok_cons in Hr; destruct Hr as [_ Hr];
    apply (props_err _ _ _ _ _ _ _ _ section Hr);
    let o := fresh in let l2 := fresh in let r2 := fresh in intros o l2 r2 _ _ _; apply (code_err _ _ _ _ code _ r2 C1 C2) ].

Lemma PubAck_err ft byte1 b e : bytes_ok b ->
  PubAck_read ft (mkFixedHeader byte1 0 (blen b)) b = Err e <-> ack_faulty ft (fun c => exists r, puback_code r = c) b e.
Proof. unfold PubAck_read. ack_tac PubAck_reason_total PubAck_reason_code PubAck_reason_inv (PubAckProperties_read_section ft). Qed.
Lemma PubRec_err ft byte1 b e : bytes_ok b ->
  PubRec_read ft (mkFixedHeader byte1 0 (blen b)) b = Err e <-> ack_faulty ft (fun c => exists r, pubrec_code r = c) b e.
Proof. unfold PubRec_read. ack_tac PubRec_reason_total PubRec_reason_code PubRec_reason_inv (PubRecProperties_read_section ft). Qed.
Lemma PubRel_err ft byte1 b e : bytes_ok b ->
  PubRel_read ft (mkFixedHeader byte1 0 (blen b)) b = Err e <-> ack_faulty ft (fun c => exists r, pubrel_code r = c) b e.
Proof. unfold PubRel_read. ack_tac PubRel_reason_total PubRel_reason_code PubRel_reason_inv (PubRelProperties_read_section ft). Qed.
Lemma PubComp_err ft byte1 b e : bytes_ok b ->
  PubComp_read ft (mkFixedHeader byte1 0 (blen b)) b = Err e <-> ack_faulty ft (fun c => exists r, pubcomp_code r = c) b e.
Proof. unfold PubComp_read. ack_tac PubComp_reason_total PubComp_reason_code PubComp_reason_inv (PubCompProperties_read_section ft). Qed.

Lemma ConnAck_err ft byte1 n b e : bytes_ok b ->
  ConnAck_read ft (mkFixedHeader byte1 0 n) b = Err e <-> connack_faulty ft b e.
Proof.
  intros Hb. unfold ConnAck_read. cbn [fh_fixed_header_len]. rewrite advance_0. cbn [rbind].
  unfold connack_faulty. apply (part_err _ _ _ _ _ _ _ u8_reader Hb). intros flags l r _ _ _ Hr.
  apply (part_err _ _ _ _ _ _ _ u8_reader Hr). intros code l2 r2 _ _ _ Hr2.
  apply (props_err _ _ _ _ _ _ _ _ (ConnAckProperties_read_section ft) Hr2). intros o l3 r3 _ _ _. cbv zeta.
  apply (code_err connect_return (exists r, legacy_code r = false /\ connack_code r = code)).
  - destruct (connect_return_total code); tauto.
  - split; intros [x H]; exists x.
    + split; [eapply connect_return_legacy; exact H|apply connect_return_inv; exact H].
    + destruct H as [H <-]. apply connect_return_code. exact H.
Qed.

Lemma qos_cases n : n < 4 -> (exists q, qos n = Some q /\ n <> 3 /\ (q = AtMostOnce <-> n = 0)) \/ (qos n = None /\ n = 3).
Proof.
  intros H. assert (n = 0 \/ n = 1 \/ n = 2 \/ n = 3) as [->|[->|[->| ->]]] by lia.
  - left. exists AtMostOnce. repeat split; discriminate.
  - left. exists AtLeastOnce. repeat split; discriminate.
  - left. exists ExactlyOnce. repeat split; discriminate.
  - right. auto.
Qed.

Lemma Publish_err ft byte1 n b e : byte1 < 256 -> bytes_ok b ->
  Publish_read ft (mkFixedHeader byte1 0 n) b = Err e <-> publish_faulty ft byte1 b e.
Proof.
  intros H1 Hb. unfold Publish_read. cbn [fh_fixed_header_len fh_byte1]. rewrite mask_6 by exact H1.
  unfold publish_faulty, guard at 1.
  destruct (qos_cases ((byte1 / 2) mod 4)) as [(q & -> & H3 & Hq)|[-> E]]; [lia| |].
  2:{ rewrite E. split; [intros X; injection X as <-; left; split; [lia|reflexivity]|].
      intros [[_ ->]|[X _]]; [reflexivity|contradiction]. }
  rewrite advance_0. cbn [rbind].
  transitivity (part (str_wire ft) (str_faulty ft) (fun _ =>
    if (byte1 / 2) mod 4 =? 0 then section_faulty ft publish_allowed
    else part u16_wire (fixed_faulty 2) (fun pkid => guard (pkid <> 0) PacketIdZero (section_faulty ft publish_allowed))) b e); [|tauto].
  apply (part_err _ _ _ _ _ _ _ (str_reader ft) Hb). intros t l r _ _ _ Hr.
  destruct (N.eqb_spec ((byte1 / 2) mod 4) 0) as [E0|E0].
  - assert (q = AtMostOnce) as -> by tauto. cbn [rbind QoS_eqb negb andb].
    apply (props_err_last _ _ _ _ _ _ _ (PublishProperties_read_section ft) Hr). intros [? ?]. discriminate.
  - assert (Eq : forall b, (match q with AtMostOnce => Ok (0, b) | AtLeastOnce | ExactlyOnce => read_u16 b end) = read_u16 b)
      by (intros b'; destruct q; [tauto|reflexivity|reflexivity]).
    rewrite Eq. assert (QoS_eqb q AtMostOnce = false) as -> by (destruct q; [tauto|reflexivity|reflexivity]).
    cbn [negb andb]. apply (part_err _ _ _ _ _ _ _ u16_reader Hr). intros pkid l2 r2 _ _ _ Hr2.
    rewrite <- (negb_involutive (pkid =? 0)). apply guard_err.
    + rewrite negb_true_iff, N.eqb_neq. tauto.
    + intros _. apply (props_err_last _ _ _ _ _ _ _ (PublishProperties_read_section ft) Hr2). intros [? ?]. discriminate.
Qed.

(** Lists read to the end of the body. *)
Section ListErr.
Context {A : Type} (R : A -> bytes -> Prop) (F : fault) (rd1 : bytes -> res (A * bytes))
  (loop : nat -> list A -> bytes -> res (list A)).
Hypothesis loop_nil : forall fuel xs, loop fuel xs [] = Ok xs.
Hypothesis loop_cons : forall fuel xs b, b <> [] -> loop (S fuel) xs b = let? (x, b) := rd1 b in loop fuel (xs ++ [x]) b.
Hypothesis rd1_reader : reader rd1 R F.
Hypothesis R_size : forall x l, R x l -> l <> [].
Lemma list_err e : forall fuel xs b, (length b < fuel)%nat -> bytes_ok b ->
  loop fuel xs b = Err e <-> list_faulty R F b e.
Proof.
  induction fuel as [|fuel IH]; intros xs b Hf Hb; [lia|].
  assert (D : b = [] \/ b <> []) by (destruct b; [left; reflexivity|right; discriminate]). destruct D as [->|Hne].
  - rewrite loop_nil. split; [discriminate|]. intros (ys & l & r & E & _ & Hr & _). symmetry in E. apply app_eq_nil in E. tauto.
  - rewrite loop_cons by exact Hne. rewrite rbind_err. destruct (rd1_reader b Hb) as [H1 H2]. rewrite H2. split.
    + intros [H|([x r] & E & H)].
      * exists [], [], b. repeat split; auto. constructor.
      * apply H1 in E. destruct E as (l & -> & HR). pose proof (R_size _ _ HR) as Hl. bok.
        apply IH in H; [| |assumption].
        -- destruct H as (ys & l2 & r2 & -> & Hy & H). exists (x :: ys), (l ++ l2), r2. split; [apply app_assoc|].
           split; [constructor; assumption|exact H].
        -- clear - Hf Hl. unfold bytes in *. rewrite app_length in Hf. destruct l; [contradiction|]. cbn [length] in Hf. lia.
    + intros (ys & l & r & E & Hy & Hr & H). destruct Hy as [|x ys l1 l2 Hx Hy].
      * left. cbn [app] in E. subst. exact H.
      * right. exists (x, l2 ++ r). rewrite <- app_assoc in E. split; [apply H1; exists l1; auto|].
        pose proof (R_size _ _ Hx) as Hl. subst b. bok. apply IH; [|bok|exists ys, l2, r; auto].
        clear - Hf Hl. unfold bytes in *. rewrite app_length in Hf. destruct l1; [contradiction|]. cbn [length] in Hf. lia.
Qed.
End ListErr.

Lemma reason_reader {R} (rs : N -> res R) (code : R -> N) :
  (forall n, (exists r, rs n = Ok r) \/ rs n = Err (InvalidSubscribeReasonCode n)) ->
  (forall r, rs (code r) = Ok r) -> (forall n r, rs n = Ok r -> code r = n) ->
  reader (fun b => let? (c, b) := read_u8 b in let? r := rs c in Ok (r, b)) (fun r l => l = [code r])
    (fun b e => b = [] /\ e = MalformedPacket \/ b <> [] /\ reason_faulty (fun c => exists r, code r = c) b e).
Proof.
  intros H1 H2 H3 b Hb. destruct b as [|c b].
  - split.
    + intros a r. cbn [read_u8 rbind]. split; [discriminate|intros (l & E & ->); discriminate].
    + intros e. cbn [read_u8 rbind]. split; [intros E; injection E as <-; auto|]. intros [[_ ->]|[X _]]; [reflexivity|congruence].
  - rewrite read_u8_cons. cbn [rbind]. destruct (H1 c) as [[x E]|E]; rewrite E; cbn [rbind]; split.
    + intros a r. split.
      * intros X. injection X as <- <-. exists [c]. split; [reflexivity|]. f_equal. symmetry. apply H3. exact E.
      * intros (l & X & ->). cbn [app] in X. injection X as -> ->. rewrite H2 in E. injection E as ->. reflexivity.
    + intros e. split; [discriminate|]. intros [[X _]|[_ [[]|(c' & l & r & X & -> & [[Z _]|[_ []]])]]]; [discriminate|].
      cbn [app] in X. injection X as <- <-. exfalso. apply Z. exists x. apply H3. exact E.
    + intros a r. split; [discriminate|]. intros (l & X & ->). cbn [app] in X. injection X as -> ->. rewrite H2 in E. discriminate.
    + intros e. split.
      * intros X. injection X as <-. right. split; [discriminate|]. right. exists c, [c], b. split; [reflexivity|]. split; [reflexivity|].
        left. split; [|reflexivity]. intros [x <-]. rewrite H2 in E. discriminate.
      * intros [[X _]|[_ [[]|(c' & l & r & X & -> & [[Z ->]|[_ []]])]]]; [discriminate|].
        cbn [app] in X. injection X as <- <-. reflexivity.
Qed.

Lemma codes_list {R} (code : R -> N) b e :
  list_faulty (fun r l => l = [code r])
    (fun b e => b = [] /\ e = MalformedPacket \/ b <> [] /\ reason_faulty (fun c => exists r, code r = c) b e) b e
  <-> list_faulty (fun c l => (exists r, code r = c) /\ l = [c]) (reason_faulty (fun c => exists r, code r = c)) b e.
Proof.
  assert (X : forall l, (exists rs, list_wire (fun r l => l = [code r]) rs l) <-> exists cs, list_wire (fun c l => (exists r, code r = c) /\ l = [c]) cs l).
  { intros l. split; intros [xs H]; induction H as [|x xs la ll Hx _ (ys & IH)].
    - exists []. constructor.
    - exists (code x :: ys). constructor; [|exact IH]. split; [exists x; reflexivity|exact Hx].
    - exists []. constructor.
    - destruct Hx as [[r <-] ->]. exists (r :: ys). constructor; [reflexivity|exact IH]. }
  unfold list_faulty. split.
  - intros (xs & l & r & -> & Hl & Hr & H). destruct (proj1 (X l) (ex_intro _ xs Hl)) as [ys Hy].
    exists ys, l, r. repeat split; auto. destruct H as [[? _]|[_ H]]; [contradiction|exact H].
  - intros (xs & l & r & -> & Hl & Hr & H). destruct (proj2 (X l) (ex_intro _ xs Hl)) as [ys Hy].
    exists ys, l, r. repeat split; auto.
Qed.

Lemma SubAck_loop_err fuel xs b e : (length b < fuel)%nat -> bytes_ok b ->
  SubAck_read_loop fuel xs b = Err e
  <-> list_faulty (fun c l => (exists r, suback_code r = c) /\ l = [c]) (reason_faulty (fun c => exists r, suback_code r = c)) b e.
Proof.
  intros Hf Hb. rewrite <- codes_list.
  apply (list_err _ _ (fun b => let? (c, b) := read_u8 b in let? r := SubAck_reason c in Ok (r, b)) SubAck_read_loop); auto.
  - intros [|f] ys; reflexivity.
  - intros f ys c Hne. destruct c as [|c b']; [congruence|]. cbn [SubAck_read_loop]. rewrite read_u8_cons. cbn [rbind].
    destruct (SubAck_reason c); reflexivity.
  - apply reason_reader; [apply SubAck_reason_total|apply SubAck_reason_code|apply SubAck_reason_inv].
  - intros r l ->. discriminate.
Qed.
Lemma UnsubAck_loop_err fuel xs b e : (length b < fuel)%nat -> bytes_ok b ->
  UnsubAck_read_loop fuel xs b = Err e
  <-> list_faulty (fun c l => (exists r, unsuback_code r = c) /\ l = [c]) (reason_faulty (fun c => exists r, unsuback_code r = c)) b e.
Proof.
  intros Hf Hb. rewrite <- codes_list.
  apply (list_err _ _ (fun b => let? (c, b) := read_u8 b in let? r := UnsubAck_reason c in Ok (r, b)) UnsubAck_read_loop); auto.
  - intros [|f] ys; reflexivity.
  - intros f ys c Hne. destruct c as [|c b']; [congruence|]. cbn [UnsubAck_read_loop]. rewrite read_u8_cons. cbn [rbind].
    destruct (UnsubAck_reason c); reflexivity.
  - apply reason_reader; [apply UnsubAck_reason_total|apply UnsubAck_reason_code|apply UnsubAck_reason_inv].
  - intros r l ->. discriminate.
Qed.
Ltac codes_tac section loop_err :=
  intros Hb; cbn [fh_fixed_header_len]; rewrite advance_0; cbn [rbind];
  unfold codes_faulty; apply (part_err _ _ _ _ _ _ _ u16_reader Hb); intros pkid l r _ _ _ Hr;
  apply (props_err _ _ _ _ _ _ _ _ section Hr); intros o l2 r2 _ _ Hr2;
  destruct r2 as [|x r2];
  [ split; [intros E; injection E as <-; left; auto|
      intros [[_ ->]|(xs & l3 & r3 & E & _ & Hne & _)]; [reflexivity|symmetry in E; apply app_eq_nil in E; exfalso; tauto] ]
  | rewrite rbind_err, loop_err by (try exact Hr2; lia); split;
    [ intros [H|(y & _ & H)]; [right; exact H|discriminate] | intros [[H _]|H]; [discriminate|left; exact H] ] ].
Lemma SubAck_err ft byte1 n b e : bytes_ok b ->
  SubAck_read ft (mkFixedHeader byte1 0 n) b = Err e <-> codes_faulty ft (fun c => exists r, suback_code r = c) b e.
Proof.
  unfold SubAck_read.
  codes_tac (SubAckProperties_read_section ft) SubAck_loop_err.
Qed.
Lemma UnsubAck_err ft byte1 n b e : bytes_ok b ->
  UnsubAck_read ft (mkFixedHeader byte1 0 n) b = Err e <-> codes_faulty ft (fun c => exists r, unsuback_code r = c) b e.
Proof.
  unfold UnsubAck_read.
  codes_tac (UnsubAckProperties_read_section ft) UnsubAck_loop_err.
Qed.

Lemma Unsubscribe_err ft byte1 n b e : bytes_ok b ->
  Unsubscribe_read ft (mkFixedHeader byte1 0 n) b = Err e <-> unsubscribe_faulty ft b e.
Proof.
  intros Hb. unfold Unsubscribe_read. cbn [fh_fixed_header_len]. rewrite advance_0. cbn [rbind].
  unfold unsubscribe_faulty. apply (part_err _ _ _ _ _ _ _ u16_reader Hb). intros pkid l r _ _ _ Hr.
  apply (props_err _ _ _ _ _ _ _ _ (UnsubscribeProperties_read_section ft) Hr). intros o l2 r2 _ _ Hr2.
  rewrite rbind_err, (list_err (str_wire ft) (str_faulty ft) (read_mqtt_string ft) (Unsubscribe_read_loop ft)); [| | | | |lia|exact Hr2].
  - split; [intros [H|(y & _ & H)]; [exact H|discriminate]|auto].
  - intros [|f] ys; reflexivity.
  - intros f ys c Hne. destruct c as [|c b']; [congruence|]. reflexivity.
  - apply str_reader.
  - intros x l3 Hx. eapply str_wire_nonempty. exact Hx.
Qed.

Definition read_filter (ft : feature) (b : bytes) : res (Filter * bytes) :=
  let? (path, b) := read_mqtt_string ft b in
  let? (options, b) := read_u8 b in
  let? rule := (match N.land (N.shiftr options 4) 3 with
             | 0 => Ok OnEverySubscribe
             | 1 => Ok OnNewSubscribe
             | 2 => Ok Never
             | _ => Err (InvalidRetainForwardRule (N.land (N.shiftr options 4) 3))
             end) in
  match qos (N.land options 3) with
  | None => Err (InvalidQoS (N.land options 3))
  | Some q => Ok (mkFilter path q (negb (N.land (N.shiftr options 2) 1 =? 0)) (negb (N.land (N.shiftr options 3) 1 =? 0)) rule, b)
  end.
Lemma rule_cases n : n < 4 ->
  (exists r, match n with 0 => Ok OnEverySubscribe | 1 => Ok OnNewSubscribe | 2 => Ok Never
             | _ => Err (InvalidRetainForwardRule n) end = Ok r /\ n <> 3
             /\ n = match r with OnEverySubscribe => 0 | OnNewSubscribe => 1 | Never => 2 end)
  \/ (match n with 0 => Ok OnEverySubscribe | 1 => Ok OnNewSubscribe | 2 => Ok Never
             | _ => Err (InvalidRetainForwardRule n) end = Err (InvalidRetainForwardRule 3) /\ n = 3).
Proof.
  intros H. assert (n = 0 \/ n = 1 \/ n = 2 \/ n = 3) as [->|[->|[->| ->]]] by lia.
  - left. exists OnEverySubscribe. repeat split; discriminate.
  - left. exists OnNewSubscribe. repeat split; discriminate.
  - left. exists Never. repeat split; discriminate.
  - right. auto.
Qed.
Lemma filter_reader ft : reader (read_filter ft) (filter_wire ft) (filter_faulty ft).
Proof.
  intros b Hb. split.
  - intros f r. unfold read_filter. split.
    + intros H. bo H E1. bo H E2. bo H E3. apply read_mqtt_string_inv in E1; [|exact Hb]. destruct E1 as (lp & -> & Hp).
      apply read_u8_inv in E2. subst. bok. rename H0 into Hp0.
      rewrite mask_rule in E3 by assumption. rewrite mask_3, mask_s2, mask_s3 in H by assumption.
      destruct (qos _) as [q|] eqn:Q; [|discriminate]. injection H as <- <-.
      eexists (lp ++ [_]). split; [rewrite <- app_assoc; reflexivity|].
      eexists lp, _. split; [reflexivity|]. split; [eassumption|]. cbn [fi_path fi_qos fi_nolocal fi_preserve_retain fi_retain_forward_rule].
      split; [exact Hp|]. split; [apply qos_iff; exact Q|]. split; [reflexivity|]. split; [reflexivity|].
      apply (proj1 (rule_iff _ _)) in E3. exact E3.
    + intros (l & -> & lp & o & -> & Ho & Hp & H1 & H2 & H3 & H4). rewrite <- app_assoc.
      rewrite (read_mqtt_string_app ft (fi_path f)) by exact Hp. cbn [rbind app]. rewrite read_u8_cons. cbn [rbind].
      rewrite mask_rule, mask_3, mask_s2, mask_s3 by assumption.
      rewrite (proj2 (rule_iff _ (fi_retain_forward_rule f)) H4). cbn [rbind].
      rewrite (proj2 (qos_iff _ (fi_qos f)) H1), <- H2, <- H3. destruct f; reflexivity.
  - intros e. unfold read_filter, filter_faulty. apply (part_err _ _ _ _ _ _ _ (str_reader ft) Hb). intros p l r _ _ _ Hr.
    apply (part_err _ _ _ _ _ _ _ u8_reader Hr). intros o l2 r2 _ Hw Hl2 Hr2.
    assert (Ho : o < 256) by (rewrite Hw in Hl2; bok). rewrite mask_rule, mask_3 by exact Ho.
    unfold guard, fine.
    destruct (rule_cases ((o / 16) mod 4)) as [(x & -> & Hx & _)|[-> Hx]]; [lia| |]; cbn [rbind].
    + destruct (qos_cases (o mod 4)) as [(q & -> & Hq & _)|[-> Hq]]; [lia| |].
      * split; [discriminate|]. intros [[? _]|[_ [[? _]|[_ []]]]]; contradiction.
      * rewrite Hq. split; [intros E; injection E as <-; right; split; [exact Hx|left; split; [lia|reflexivity]]|].
        intros [[? _]|[_ [[_ ->]|[_ []]]]]; [contradiction|reflexivity].
    + split; [intros E; injection E as <-; left; split; [lia|reflexivity]|].
      intros [[_ ->]|[? _]]; [reflexivity|contradiction].
Qed.
Lemma Subscribe_err ft byte1 n b e : bytes_ok b ->
  Subscribe_read ft (mkFixedHeader byte1 0 n) b = Err e <-> subscribe_faulty ft b e.
Proof.
  intros Hb. unfold Subscribe_read, Filter_read. cbn [fh_fixed_header_len]. rewrite advance_0. cbn [rbind].
  unfold subscribe_faulty. apply (part_err _ _ _ _ _ _ _ u16_reader Hb). intros pkid l r _ _ _ Hr.
  apply (props_err _ _ _ _ _ _ _ _ (SubscribeProperties_read_section ft) Hr). intros o l2 r2 _ _ Hr2.
  destruct r2 as [|x r2].
  - cbn [Filter_read_loop rbind]. split; [intros E; injection E as <-; left; auto|].
    intros [[_ ->]|(xs & l3 & r3 & E & _ & Hne & _)]; [reflexivity|symmetry in E; apply app_eq_nil in E; exfalso; tauto].
  - assert (L : Filter_read_loop ft (S (length (x :: r2))) [] (x :: r2) = Err e
              <-> list_faulty (filter_wire ft) (filter_faulty ft) (x :: r2) e).
    { apply (list_err (filter_wire ft) (filter_faulty ft) (read_filter ft) (Filter_read_loop ft)); [| | | |lia|exact Hr2].
      - intros [|f] ys; reflexivity.
      - intros f ys c Hne. destruct c as [|c b']; [congruence|]. cbn [Filter_read_loop]. unfold read_filter.
        destruct (read_mqtt_string ft (c :: b')) as [[p c1]| | |]; cbn [rbind]; try reflexivity.
        destruct (read_u8 c1) as [[op c2]| | |]; cbn [rbind]; try reflexivity. cbv zeta.
        match goal with |- rbind ?x _ = _ => destruct x; cbn [rbind]; try reflexivity end.
        destruct (qos _); reflexivity.
      - apply filter_reader.
      - intros y l3 Hy. eapply filter_wire_nonempty. exact Hy. }
    rewrite rbind_err, L. split.
    + intros [H|(y & E & H)]; [right; exact H|]. destruct y; [|discriminate].
      apply (proj1 (Filter_loop_wire ft _ _ _ _ (Nat.lt_succ_diag_r _) Hr2)) in E. destruct E as (zs & E & Hz).
      cbn [app] in E. subst zs. inversion Hz.
    + intros [[H _]|H]; [discriminate|left; exact H].
Qed.

Lemma Disconnect_err ft byte1 b e : byte1 < 256 -> byte1 / 16 = 14 -> bytes_ok b ->
  Disconnect_read ft (mkFixedHeader byte1 0 (blen b)) b = Err e <-> disconnect_faulty ft byte1 b e.
Proof.
  intros H1 Ht Hb. unfold Disconnect_read. cbn [fh_fixed_header_len fh_byte1 fh_remaining_len].
  rewrite advance_0. cbn [rbind]. rewrite mask_15 by exact H1. rewrite N.shiftr_div_pow2.
  change (2 ^ 4) with 16. rewrite Ht. change (negb (14 =? 14)) with false. cbv iota.
  unfold disconnect_faulty. apply guard_err; [apply N.eqb_eq|]. intros _.
  destruct b as [|code r]; [split; [discriminate|intros []]|].
  rewrite blen_cons. rewrite (proj2 (N.eqb_neq _ _)) by lia. rewrite read_u8_cons. cbn [rbind]. bok.
  destruct (code_spec _ _ _ code (DisconnectReasonCode_try_from_total code) DisconnectReasonCode_try_from_code (DisconnectReasonCode_try_from_inv code)) as [C1 C2].
  unfold guard. destruct C1 as [E|[x E]]; rewrite E; cbn [rbind].
  - assert (~ exists x, disconnect_code x = code) by (intros C; apply C2 in C; destruct C; congruence).
    split; [intros X; injection X as <-; tauto|]. intros [[_ ->]|[? _]]; [reflexivity|contradiction].
  - assert (exists x, disconnect_code x = code) by (apply C2; exists x; exact E).
    rewrite (props_err_last _ _ _ _ _ _ _ (DisconnectProperties_extract_section ft) H0) by (intros [? ?]; discriminate). tauto.
Qed.

Lemma will_reader ft flags : flags < 256 -> reader (LastWill_read ft flags) (will_wire ft flags) (will_faulty ft flags).
Proof.
  intros Hf b Hb. split.
  - intros w r. split; [apply LastWill_wire_inv; assumption|]. intros (l & -> & H). bok. apply LastWill_wire_app; assumption.
  - intros e. unfold LastWill_read, will_faulty. rewrite bit_2, mask_56, mask_24, bit_5, negb_involutive by exact Hf.
    destruct (N.testbit flags 2); cbn [negb].
    + apply (props_err _ _ _ _ _ _ _ _ (LastWillProperties_read_section ft) Hb). intros o l r _ _ Hr.
      apply (part_err _ _ _ _ _ _ _ bin_reader Hr). intros t l2 r2 _ _ _ Hr2.
      apply (part_err _ _ _ _ _ _ _ bin_reader Hr2). intros m l3 r3 _ _ _ Hr3. unfold guard, fine.
      destruct (qos_cases ((flags / 8) mod 4)) as [(q & -> & Hq & _)|[-> Hq]]; [lia| |].
      * split; [discriminate|]. intros [[? _]|[_ []]]; contradiction.
      * rewrite Hq. split; [intros E; injection E as <-; left; split; [lia|reflexivity]|]. intros [[_ ->]|[_ []]]. reflexivity.
    + apply guard_err; [apply N.eqb_eq|]. intros _. unfold fine. split; [discriminate|intros []].
Qed.
Lemma opt_str_reader ft c : reader (fun b => if negb c then Ok ([], b) else read_mqtt_string ft b)
  (optional_str_wire ft c) (optional_str_faulty ft c).
Proof.
  intros b Hb. split.
  - intros s r. split; [apply opt_str_inv; exact Hb|]. intros (l & -> & H). apply opt_str_app. exact H.
  - intros e. unfold optional_str_faulty. destruct c; cbn [negb]; [apply (proj2 (str_reader ft b Hb))|].
    split; [discriminate|intros []].
Qed.
Lemma Login_err ft flags b e : bytes_ok b -> Login_read ft flags b = Err e <-> login_faulty ft flags b e.
Proof.
  intros Hb. unfold Login_read, login_faulty. rewrite bit_7, bit_6.
  apply (part_err _ _ _ _ _ _ _ (opt_str_reader ft (N.testbit flags 7)) Hb). intros u l r _ _ _ Hr.
  apply (rd_err _ _ _ _ _ _ (opt_str_reader ft (N.testbit flags 6)) Hr). intros p r2.
  destruct (is_empty u && is_empty p); discriminate.
Qed.
Lemma Connect_err ft byte1 n b e : bytes_ok b ->
  Connect_read ft (mkFixedHeader byte1 0 n) b = Err e <-> connect_faulty ft b e.
Proof.
  intros Hb. unfold Connect_read. cbn [fh_fixed_header_len]. rewrite advance_0. cbn [rbind]. unfold connect_faulty.
  apply (part_err _ _ _ _ _ _ _ (str_reader ft) Hb). intros name l r _ _ _ Hr.
  apply (part_err _ _ _ _ _ _ _ u8_reader Hr). intros level l2 r2 _ _ _ Hr2.
  apply guard_err; [apply bytes_eqb_iff|]. intros _.
  apply guard_err; [apply N.eqb_eq|]. intros _.
  apply (part_err _ _ _ _ _ _ _ u8_reader Hr2). intros flags l3 r3 _ Hw Hl3 Hr3. cbv zeta.
  assert (Hf : flags < 256) by (rewrite Hw in Hl3; bok).
  apply (part_err _ _ _ _ _ _ _ u16_reader Hr3). intros ka l4 r4 _ _ _ Hr4.
  apply (props_err _ _ _ _ _ _ _ _ (ConnectProperties_read_section ft) Hr4). intros o l5 r5 _ _ Hr5.
  apply (part_err _ _ _ _ _ _ _ (str_reader ft) Hr5). intros ci l6 r6 _ _ _ Hr6.
  apply (part_err _ _ _ _ _ _ _ (will_reader ft flags Hf) Hr6). intros w l7 r7 _ _ _ Hr7.
  rewrite rbind_err, Login_err by exact Hr7. split; [|auto]. intros [H|([? ?] & _ & H)]; [exact H|discriminate].
Qed.

Lemma map_err {A B} (r : res A) (f : A -> B) e : rbind r (fun x => Ok (f x)) = Err e <-> r = Err e.
Proof. destruct r; cbn; split; congruence. Qed.
Lemma body_err ft byte1 body e : byte1 < 256 -> bytes_ok body ->
  body_read ft byte1 body = Err e <-> body_faulty ft byte1 body e.
Proof.
  intros H1 Hb. unfold body_read, Packet_read_frame. rewrite packet_type_cases. cbn [fh_remaining_len]. unfold body_faulty.
  assert (G : forall (x y : res Packet) (F : fault), (y = Err e <-> F body e) ->
     x = Err PayloadRequired -> (if (blen body =? 0) && true then x else y) = Err e <-> guard (body <> []) PayloadRequired F body e).
  { intros x y F H ->. rewrite andb_true_r. unfold guard. destruct (N.eqb_spec (blen body) 0) as [E|E].
    - apply blen_0 in E. split; [intros X; injection X as <-; tauto|]. intros [[_ ->]|[? _]]; [reflexivity|contradiction].
    - assert (body <> []) by (intros ->; apply E; reflexivity). rewrite H. tauto. }
  pose proof (nibble_cases byte1 H1) as Hn. cbn [In] in Hn.
  repeat (destruct Hn as [Hn|Hn]; [rewrite <- Hn; cbn [ptype rbind negb] |]); [..|destruct Hn].
  - cbn. split; [intros X; injection X as <-; reflexivity|intros ->; reflexivity].
  - apply G; [|reflexivity]. rewrite <- (Connect_err ft byte1 (blen body) body e Hb).
    destruct (Connect_read _ _ _) as [[[? ?] ?]| | |]; cbn; split; congruence.
  - apply G; [|reflexivity]. rewrite map_err. apply ConnAck_err. exact Hb.
  - apply G; [|reflexivity]. rewrite map_err. apply Publish_err; assumption.
  - apply G; [|reflexivity]. rewrite map_err. apply PubAck_err. exact Hb.
  - apply G; [|reflexivity]. rewrite map_err. apply PubRec_err. exact Hb.
  - apply G; [|reflexivity]. rewrite map_err. apply PubRel_err. exact Hb.
  - apply G; [|reflexivity]. rewrite map_err. apply PubComp_err. exact Hb.
  - apply G; [|reflexivity]. rewrite map_err. apply Subscribe_err. exact Hb.
  - apply G; [|reflexivity]. rewrite map_err. apply SubAck_err. exact Hb.
  - apply G; [|reflexivity]. rewrite map_err. apply Unsubscribe_err. exact Hb.
  - apply G; [|reflexivity]. rewrite map_err. apply UnsubAck_err. exact Hb.
  - destruct (_ && _); split; try discriminate; intros [].
  - destruct (_ && _); split; try discriminate; intros [].
  - rewrite andb_false_r. rewrite map_err. apply Disconnect_err; auto.
  - cbn. split; [intros X; injection X as <-; reflexivity|intros ->; reflexivity].
Qed.
