(** Lemmas on item lists: last values, user pairs, encodings as fields. *)
From Verif Require Import Types MLib MConnect Spec Wire PBase PVarint PRead.
Ltac Zify.zify_post_hook ::= Z.div_mod_to_equations.

(** ---------- last_of ---------- *)

Definition last_from {A} (get : pvalue -> option A) (id : N) (l : list item) (acc : option A) :=
  fold_left (fun acc i => if fst i =? id then get (snd i) else acc) l acc.
Lemma last_of_from {A} (get : pvalue -> option A) id l : last_of get id l = last_from get id l None.
Proof. reflexivity. Qed.
Lemma last_from_app {A} (get : pvalue -> option A) id l1 l2 acc :
  last_from get id (l1 ++ l2) acc = last_from get id l2 (last_from get id l1 acc).
Proof. apply fold_left_app. Qed.
Lemma last_of_snoc {A} (get : pvalue -> option A) id l id' v :
  last_of get id (l ++ [(id', v)]) = if id' =? id then get v else last_of get id l.
Proof. rewrite last_of_from, last_from_app. reflexivity. Qed.
Lemma last_num_snoc id l id' v :
  last_num id (l ++ [(id', v)]) = if id' =? id then num_value v else last_num id l.
Proof. apply last_of_snoc. Qed.
Lemma last_str_snoc id l id' v :
  last_str id (l ++ [(id', v)]) = if id' =? id then str_value v else last_str id l.
Proof. apply last_of_snoc. Qed.

Lemma last_from_num {A} (get : pvalue -> option A) id id' k o acc :
  last_from get id (num id' k o) acc =
  if id' =? id then match o with Some n => get (k n) | None => acc end else acc.
Proof. destruct o; cbn [num last_from fold_left fst snd]; destruct (id' =? id); reflexivity. Qed.
Lemma last_from_str {A} (get : pvalue -> option A) id id' k o acc :
  last_from get id (str id' k o) acc =
  if id' =? id then match o with Some n => get (k n) | None => acc end else acc.
Proof. destruct o; cbn [str last_from fold_left fst snd]; destruct (id' =? id); reflexivity. Qed.
Lemma last_from_users {A} (get : pvalue -> option A) id l acc :
  (38 =? id) = false -> last_from get id (users l) acc = acc.
Proof.
  intros H. revert acc. induction l as [|[k v] l IH]; intros acc; [reflexivity|].
  cbn [users map last_from fold_left fst]. rewrite H. apply IH.
Qed.
Lemma last_from_sub_ids {A} (get : pvalue -> option A) id l acc :
  (11 =? id) = false -> last_from get id (sub_ids l) acc = acc.
Proof.
  intros H. revert acc. induction l as [|n l IH]; intros acc; [reflexivity|].
  cbn [sub_ids map last_from fold_left fst]. rewrite H. apply IH.
Qed.

Lemma user_pairs_app l1 l2 : user_pairs (l1 ++ l2) = user_pairs l1 ++ user_pairs l2.
Proof. apply flat_map_app. Qed.
Lemma all_ids_app l1 l2 : all_ids (l1 ++ l2) = all_ids l1 ++ all_ids l2.
Proof. apply flat_map_app. Qed.
Lemma user_pairs_users l : user_pairs (users l) = l.
Proof. induction l as [|[k v] l IH]; [reflexivity|]. exact (f_equal (cons (k, v)) IH). Qed.
Lemma all_ids_sub_ids l : all_ids (sub_ids l) = l.
Proof. induction l as [|n l IH]; [reflexivity|]. exact (f_equal (cons n) IH). Qed.
Lemma all_ids_users l : all_ids (users l) = [].
Proof. induction l as [|[k v] l IH]; [reflexivity|]. exact IH. Qed.
Lemma user_pairs_sub_ids l : user_pairs (sub_ids l) = [].
Proof. induction l as [|n l IH]; [reflexivity|]. exact IH. Qed.

(** Reduce comparisons of literals. *)
Ltac lits := cbv [N.eqb Pos.eqb].

(** ---------- Allowed and well-kinded items ---------- *)

Definition wk (allowed : list N) (i : item) : Prop :=
  In (fst i) allowed /\ property_kind (fst i) = Some (value_kind (snd i)).

Lemma spelled_wk ft allowed sp : Forall (spelled_wire ft allowed) sp -> Forall (wk allowed) (map fst sp).
Proof.
  induction 1 as [|[[id v] l] sp (Hin & Hk & _) Hsp IH]; [constructor|].
  cbn [map fst]. constructor; [split; assumption|exact IH].
Qed.

Lemma last_of_in {A} (get : pvalue -> option A) id l x :
  last_of get id l = Some x -> exists v, In (id, v) l /\ get v = Some x.
Proof.
  induction l as [|[id' v] l IH] using rev_ind; [discriminate|].
  rewrite last_of_snoc. destruct (N.eqb_spec id' id) as [->|Hne]; intros H.
  - exists v. split; [apply in_or_app; right; left; reflexivity|exact H].
  - apply IH in H. destruct H as (v' & Hin & Hg). exists v'. split; [apply in_or_app; left; exact Hin|exact Hg].
Qed.

Lemma num_incl allowed id k l :
  Forall (wk allowed) l ->
  (forall v n, property_kind id = Some (value_kind v) -> num_value v = Some n -> v = k n) ->
  incl (num id k (last_num id l)) l.
Proof.
  intros Hl Hk i Hi. destruct (last_num id l) as [n|] eqn:E; [|destruct Hi].
  destruct Hi as [<-|[]]. apply last_of_in in E. destruct E as (v & Hin & Hv).
  rewrite Forall_forall in Hl. destruct (Hl _ Hin) as [_ Hkd]. cbn [fst snd] in Hkd.
  rewrite <- (Hk v n Hkd Hv). exact Hin.
Qed.
Lemma str_incl allowed id k l :
  Forall (wk allowed) l ->
  (forall v n, property_kind id = Some (value_kind v) -> str_value v = Some n -> v = k n) ->
  incl (str id k (last_str id l)) l.
Proof.
  intros Hl Hk i Hi. destruct (last_str id l) as [n|] eqn:E; [|destruct Hi].
  destruct Hi as [<-|[]]. apply last_of_in in E. destruct E as (v & Hin & Hv).
  rewrite Forall_forall in Hl. destruct (Hl _ Hin) as [_ Hkd]. cbn [fst snd] in Hkd.
  rewrite <- (Hk v n Hkd Hv). exact Hin.
Qed.
Lemma in_users i l : In i (users l) -> exists k v, i = (38, VPair k v) /\ In (k, v) l.
Proof.
  unfold users. rewrite in_map_iff. intros ([k v] & <- & H). exists k, v. auto.
Qed.
Lemma in_user_pairs k v l : In (k, v) (user_pairs l) -> In (38, VPair k v) l.
Proof.
  unfold user_pairs. rewrite in_flat_map. intros ([id w] & Hin & H).
  cbn [fst snd] in H. destruct (N.eqb_spec id 38) as [->|]; [|destruct H].
  destruct w; try contradiction. destruct H as [E|[]]. injection E as -> ->. exact Hin.
Qed.
Lemma users_incl l : incl (users (user_pairs l)) l.
Proof.
  intros i Hi. apply in_users in Hi. destruct Hi as (k & v & -> & Hi). apply in_user_pairs. exact Hi.
Qed.
Lemma in_all_ids n l : In n (all_ids l) -> In (11, VVar n) l.
Proof.
  unfold all_ids. rewrite in_flat_map. intros ([id w] & Hin & H).
  cbn [fst snd] in H. destruct (N.eqb_spec id 11) as [->|]; [|destruct H].
  destruct w; try contradiction. destruct H as [E|[]]. subst. exact Hin.
Qed.
Lemma sub_ids_incl l : incl (sub_ids (all_ids l)) l.
Proof.
  intros i. unfold sub_ids. rewrite in_map_iff. intros (n & <- & H). apply in_all_ids. exact H.
Qed.

Lemma users_app l1 l2 : users (l1 ++ l2) = users l1 ++ users l2.
Proof. apply map_app. Qed.

(** ---------- Sizes ---------- *)

Lemma fields_bytes_app a b : fields_bytes (a ++ b) = fields_bytes a ++ fields_bytes b.
Proof. apply flat_map_app. Qed.
Lemma items_fields_app a b : items_fields (a ++ b) = items_fields a ++ items_fields b.
Proof. apply flat_map_app. Qed.
Definition isize (l : list item) : N := blen (fields_bytes (items_fields l)).
Lemma isize_app a b : isize (a ++ b) = isize a + isize b.
Proof. unfold isize. rewrite items_fields_app, fields_bytes_app, blen_app. reflexivity. Qed.
Lemma isize_nil : isize [] = 0. Proof. reflexivity. Qed.
Lemma isize_cons i l : isize (i :: l) = isize [i] + isize l.
Proof. change (i :: l) with ([i] ++ l). apply isize_app. Qed.
Lemma isize_one i : isize [i] = blen (fields_bytes (item_fields i)).
Proof. unfold isize, items_fields. cbn [flat_map]. rewrite app_nil_r. reflexivity. Qed.

Lemma isize_str id k o : (forall s, value_fields (k s) = [FBin s]) -> isize (str id k o) = len_str o.
Proof.
  intros H. destruct o as [s|]; [|reflexivity]. cbn [str]. rewrite isize_one.
  unfold item_fields. cbn [fst snd]. rewrite H. unfold fields_bytes, len_str. cbn [flat_map field_bytes app].
  rewrite app_nil_r, blen_cons, blen_app. change (blen (u16be (blen s))) with 2. lia.
Qed.
Lemma isize_num id k o n : (forall v, blen (fields_bytes (value_fields (k v))) = n) ->
  isize (num id k o) = len_if_some o (1 + n).
Proof.
  intros H. destruct o as [v|]; [|reflexivity]. cbn [num]. rewrite isize_one.
  unfold item_fields. cbn [fst snd].
  change (fields_bytes (FByte id :: value_fields (k v))) with (id :: fields_bytes (value_fields (k v))).
  rewrite blen_cons, H. reflexivity.
Qed.
Lemma isize_pair k v : isize [(38, VPair k v)] = 1 + 2 + blen k + 2 + blen v.
Proof.
  rewrite isize_one. unfold item_fields. cbn [fst snd value_fields].
  unfold fields_bytes. cbn [flat_map field_bytes app].
  rewrite app_nil_r, blen_cons, !blen_app.
  change (blen (u16be (blen k))) with 2. change (blen (u16be (blen v))) with 2. lia.
Qed.
Lemma fold_add {A} (f : A -> N) l acc :
  fold_left (fun s x => s + f x) l acc = acc + fold_left (fun s x => s + f x) l 0.
Proof.
  revert acc. induction l as [|x l IH]; intros acc; cbn [fold_left]; [lia|].
  rewrite IH, (IH (0 + f x)). lia.
Qed.
Lemma isize_users l : isize (users l) = user_props_len l.
Proof.
  unfold user_props_len.
  assert (H : forall acc, acc + isize (users l)
    = fold_left (fun len '(k, v) => len + (1 + 2 + blen k + 2 + blen v)) l acc).
  { induction l as [|[k v] l IH]; intros acc; cbn [fold_left].
    - change (isize (users [])) with 0. lia.
    - change (users ((k, v) :: l)) with ((38, VPair k v) :: users l).
      rewrite isize_cons, isize_pair, <- IH. lia. }
  rewrite <- H. lia.
Qed.
Lemma isize_id n : isize [(11, VVar n)] = 1 + len_len n.
Proof.
  rewrite isize_one. unfold item_fields. cbn [fst snd value_fields].
  unfold fields_bytes. cbn [flat_map field_bytes app]. rewrite app_nil_r, blen_cons, varint_len. reflexivity.
Qed.
Lemma isize_sub_ids l :
  isize (sub_ids l) = fold_left (fun len id => len + (1 + len_len id)) l 0.
Proof.
  assert (H : forall acc, acc + isize (sub_ids l)
    = fold_left (fun len id => len + (1 + len_len id)) l acc).
  { induction l as [|n l IH]; intros acc; cbn [fold_left].
    - change (isize (sub_ids [])) with 0. lia.
    - change (sub_ids (n :: l)) with ((11, VVar n) :: sub_ids l).
      rewrite isize_cons, isize_id, <- IH. lia. }
  rewrite <- H. lia.
Qed.

(** ---------- Writers as field lists ---------- *)

Fixpoint emit (l : list field) : W unit := fun buf =>
  match l with
  | [] => (Ok tt, buf)
  | f :: l =>
      match field_error f with
      | Some e => (Err e, buf)
      | None => emit l (buf ++ field_bytes f)
      end
  end.

Definition writes (w : W unit) (l : list field) : Prop := forall buf, w buf = emit l buf.

Lemma emit_app l1 l2 buf : emit (l1 ++ l2) buf = wbind (emit l1) (fun _ => emit l2) buf.
Proof.
  revert buf. induction l1 as [|f l1 IH]; intros buf; [reflexivity|].
  unfold wbind. cbn [app emit]. destruct (field_error f); [reflexivity|].
  rewrite IH. reflexivity.
Qed.

Lemma writes_bind w1 w2 l1 l2 : writes w1 l1 -> writes w2 l2 ->
  writes (wbind w1 (fun _ => w2)) (l1 ++ l2).
Proof.
  intros H1 H2 buf. rewrite emit_app. unfold wbind. rewrite H1.
  destruct (emit l1 buf) as [[]? ]; try reflexivity. apply H2.
Qed.
Lemma writes_ret : writes (wret tt) [].
Proof. intros buf. reflexivity. Qed.
Lemma writes_u8 n : writes (put_u8 n) [FByte n].
Proof. intros buf. reflexivity. Qed.
Lemma writes_u16 n : writes (put_u16 n) [FTwo n].
Proof. intros buf. reflexivity. Qed.
Lemma writes_u32 n : writes (put_u32 n) [FFour n].
Proof. intros buf. reflexivity. Qed.
Lemma writes_slice s : writes (put_slice s) [FRaw s].
Proof. intros buf. reflexivity. Qed.
Lemma writes_bytes s : writes (write_mqtt_bytes s) [FBin s].
Proof.
  intros buf. unfold write_mqtt_bytes. cbn [emit field_error].
  destruct (blen s <=? 65535); [|reflexivity].
  unfold wbind, put_u16, put_slice. cbn [field_bytes]. rewrite app_assoc. reflexivity.
Qed.
Lemma writes_string s : writes (write_mqtt_string s) [FBin s].
Proof. apply writes_bytes. Qed.
Lemma writes_var n w l : writes w l ->
  writes (wbind (write_remaining_length n) (fun _ => w)) (FVar n :: l).
Proof.
  intros H buf. unfold wbind. rewrite write_remaining_length_eq. cbn [emit field_error].
  destruct (n <=? max_varint); [|reflexivity]. apply H.
Qed.
Lemma writes_opt {A} (o : option A) (f : A -> W unit) (g : A -> list field) :
  (forall v, writes (f v) (g v)) ->
  writes (wopt o f) (match o with Some v => g v | None => [] end).
Proof. intros H. destruct o; [apply H|apply writes_ret]. Qed.
Lemma writes_num o (f : N -> W unit) id k :
  (forall v, writes (f v) (item_fields (id, k v))) -> writes (wopt o f) (items_fields (num id k o)).
Proof.
  intros H. destruct o as [v|]; [|apply writes_ret]. cbn [num wopt].
  unfold items_fields. cbn [flat_map]. rewrite app_nil_r. apply H.
Qed.
Lemma writes_str o (f : bytes -> W unit) id k :
  (forall v, writes (f v) (item_fields (id, k v))) -> writes (wopt o f) (items_fields (str id k o)).
Proof.
  intros H. destruct o as [v|]; [|apply writes_ret]. cbn [str wopt].
  unfold items_fields. cbn [flat_map]. rewrite app_nil_r. apply H.
Qed.
Lemma writes_for {A} (l : list A) (f : A -> W unit) (g : A -> list field) :
  (forall x, writes (f x) (g x)) -> writes (wfor l f) (flat_map g l).
Proof.
  intros H. induction l as [|x l IH]; [apply writes_ret|]. cbn [wfor flat_map].
  apply writes_bind; [apply H|exact IH].
Qed.
Lemma writes_users l : writes (write_user_props l) (items_fields (users l)).
Proof.
  unfold write_user_props.
  assert (E : items_fields (users l)
              = flat_map (fun '(k, v) => [FByte 38] ++ [FBin k] ++ [FBin v]) l).
  { induction l as [|[k v] l IH]; [reflexivity|]. cbn [users map flat_map items_fields].
    unfold items_fields in IH. rewrite <- IH. reflexivity. }
  rewrite E. apply writes_for. intros [k v].
  apply writes_bind; [apply writes_u8|]. apply writes_bind; [apply writes_string|apply writes_string].
Qed.
Lemma writes_sub_ids l :
  writes (wfor l (fun id => do_ put_u8 (prop_code SubscriptionIdentifier);
                            do_ write_remaining_length id; wret tt)) (items_fields (sub_ids l)).
Proof.
  assert (E : items_fields (sub_ids l) = flat_map (fun n => [FByte 11] ++ [FVar n]) l).
  { induction l as [|n l IH]; [reflexivity|]. cbn [sub_ids map flat_map items_fields].
    unfold items_fields in IH. rewrite <- IH. reflexivity. }
  rewrite E. apply writes_for. intros n.
  apply writes_bind; [apply writes_u8|]. apply writes_var. apply writes_ret.
Qed.

(** Case analysis on a property identifier. *)
Lemma prop_cases prop :
  (property prop = Err (InvalidPropertyType prop) /\ property_kind prop = None)
  \/ In prop [1;2;3;8;9;11;17;18;19;21;22;23;24;25;26;28;31;33;34;35;36;37;38;39;40;41;42].
Proof.
  destruct prop as [|p]; [left; split; reflexivity|].
  do 6 (destruct p as [p|p|]; try (left; split; reflexivity); try (right; cbn [In]; tauto)).
Qed.
