(** The theorems about topics and error messages at concrete cases (see Cases.v). *)
From Coq Require Import Lia PeanoNat.
From Verif Require Import Types MLib MTopics MDisplay Topics Spec PUtf8 TTopics TDisplay.

Lemma is_plain s : forallb (fun b => negb (b =? 43) && negb (b =? 35)) s = true -> plain s.
Proof.
  intros H. rewrite forallb_forall in H. split; intros X; apply H in X; discriminate X.
Qed.
Lemma is_utf8 s : from_utf8 s = true -> utf8 s.
Proof. apply from_utf8_iff. Qed.
Example C61_ascii_search_case :=
  C61_ascii_search 47 [233; 47; 8364] eq_refl
    ltac:(repeat (constructor; [left; reflexivity|]); constructor).
Lemma a_topic : topic_name [97; 47; 98].
Proof. split; [discriminate|]. apply is_plain. reflexivity. Qed.
Example C61_topics_are_filters_case := C61_topics_are_filters [97; 47; 98] a_topic.
Example C62_outcome_case := C62_outcome [97; 47; 195; 169] [43] (is_utf8 [97; 47; 195; 169] eq_refl).
Example C62_matches_case := C62_matches [97; 47; 98] [97; 47; 43] true eq_refl eq_refl eq_refl.
Example C62_matches_dollar_case := C62_matches [36; 97] [36; 97] false eq_refl eq_refl eq_refl.
Example C62_never_too_much_case := C62_never_too_much [97; 47; 98] [97; 47; 98; 47; 35] eq_refl eq_refl eq_refl.
Example C62_exact_for_ascii_case :=
  C62_exact_for_ascii 97 [47; 195; 169] [97; 47; 43] (is_utf8 [97; 47; 195; 169] eq_refl) eq_refl ltac:(discriminate) eq_refl eq_refl.
Example C62_two_filters_case :=
  C62_two_filters [97; 47; 43] [97; 47; 35] true eq_refl eq_refl ltac:(intros [r E]; discriminate E) eq_refl.
Example C56_message_tells_the_error_case text :=
  C56_message_tells_the_error text (InvalidProtocolLevel 3) (InvalidProtocolLevel 4) eq_refl.
Example C56_numbers_read_off_case text :=
  C56_numbers_read_off text (PayloadSizeLimitExceeded 1200 1024) ltac:(discriminate) ltac:(intros n; discriminate).
