(** PrfTimeout.v -- encoding a message does not raise Timeout: only wait()
    of an expired request does. *)
From Verif Require Export Msg.

Definition timely {A} (x : res A) : Prop := x <> Raise Timeout.
Lemma timely_ok {A} (a : A) : timely (Ok a).
Proof. discriminate. Qed.
Lemma timely_bind {A B} (x : res A) (f : A -> res B) : timely x -> (forall a, timely (f a)) -> timely (bind x f).
Proof. intros X F. destruct x as [a|e]; [apply F|]. intros Y. apply X. unfold bind in Y. congruence. Qed.
Lemma timely_bytes l : timely (py_bytes l).
Proof. unfold py_bytes. destruct (bytes_okb l); discriminate. Qed.
Lemma timely_tag_loop n : forall v k, timely (tag_encode_loop n v k).
Proof. induction n as [|n IH]; intros v k; cbn [tag_encode_loop]; destruct (_ =? _); try discriminate. apply timely_bind; [apply IH|discriminate]. Qed.
Lemma timely_tag t : timely (tag_encode t).
Proof.
  unfold tag_encode. apply timely_bind.
  - destruct (_ <? _); [discriminate|]. apply timely_bind; [apply timely_tag_loop|discriminate].
  - intros [b arr]. apply timely_bind; [apply timely_bytes|discriminate].
Qed.
Lemma timely_length_loop n : forall v, timely (encode_length_loop n v).
Proof. induction n as [|n IH]; intros v; cbn [encode_length_loop]; destruct (_ =? _); try discriminate. apply timely_bind; [apply IH|discriminate]. Qed.
Lemma timely_length v : timely (encode_length v).
Proof.
  unfold encode_length. destruct (_ <? _); [apply timely_bytes|]. apply timely_bind; [apply timely_length_loop|]. intros arr.
  destruct (_ <? _); [discriminate|]. apply timely_bind; [apply timely_bytes|discriminate].
Qed.
Lemma timely_ber t d : timely (ber_encode t d).
Proof. unfold ber_encode. apply timely_bind; [apply timely_tag|]. intros a. apply timely_bind; [apply timely_length|discriminate]. Qed.
Lemma timely_subid_loop n : forall v k, timely (serialize_subid_loop n v k).
Proof. induction n as [|n IH]; intros v k; cbn [serialize_subid_loop]; destruct (_ =? _); try discriminate. apply timely_bind; [apply IH|discriminate]. Qed.
Lemma timely_subid v : timely (serialize_subid v).
Proof.
  unfold serialize_subid. destruct (_ <? _); [apply timely_bytes|]. apply timely_bind; [apply timely_subid_loop|]. intros t.
  apply timely_bind; [apply timely_bytes|discriminate].
Qed.
Lemma timely_subids l : timely (serialize_subids l).
Proof. induction l as [|x l IH]; cbn [serialize_subids]; [discriminate|]. apply timely_bind; [apply timely_subid|]. intros a. apply timely_bind; [exact IH|discriminate]. Qed.
Lemma timely_prim p : timely (prim_encode p).
Proof.
  unfold prim_encode. apply timely_bind; [|intros; apply timely_ber]. destruct p as [c v|c d|c|c l]; cbn [prim_serialize]; try discriminate.
  - unfold int_serialize, to_bytes_signed. destruct (_ && _); discriminate.
  - unfold oid_serialize. destruct l as [|a l]; [discriminate|]. apply timely_bind; [apply timely_subid|]. intros x.
    apply timely_bind; [apply timely_subids|discriminate].
Qed.
Lemma timely_join l : Forall timely l -> timely (join_encodings l).
Proof. induction 1 as [|x l X _ IH]; cbn [join_encodings]; [discriminate|]. apply timely_bind; [exact X|]. intros a. apply timely_bind; [exact IH|discriminate]. Qed.
Lemma timely_int v : timely (Integer_encode v).
Proof. unfold Integer_encode. apply timely_bind; [|intros; apply timely_prim]. unfold int_new. cbn [int_bits]. destruct (inRange _ _ _); discriminate. Qed.
Lemma timely_octets d : timely (OctetString_encode d).
Proof. unfold OctetString_encode. apply timely_bind; [|intros; apply timely_prim]. cbn [octets_new]. destruct (_ <? _); discriminate. Qed.
Lemma timely_pdu p : timely (pdu_encode p).
Proof.
  unfold pdu_encode. apply timely_bind; [|intros; apply timely_ber]. unfold pdu_serialize. apply timely_join.
  do 3 (apply Forall_cons; [apply timely_int|]). apply Forall_cons; [|apply Forall_nil].
  unfold vblist_encode. apply timely_bind; [|intros; apply timely_ber]. unfold vblist_serialize. apply timely_join.
  induction (pdu_vbs p) as [|v l IH]; [apply Forall_nil|]. cbn [map]. apply Forall_cons; [|exact IH].
  unfold varbind_encode. apply timely_bind; [|intros; apply timely_ber]. unfold varbind_serialize. apply timely_join.
  do 2 (apply Forall_cons; [apply timely_prim|]). apply Forall_nil.
Qed.
Lemma timely_message m : message_encode m <> Raise Timeout.
Proof.
  change (timely (message_encode m)). unfold message_encode. apply timely_bind; [|intros; apply timely_ber]. unfold message_serialize. apply timely_join.
  apply Forall_cons; [apply timely_int|]. apply Forall_cons; [apply timely_octets|]. apply Forall_cons; [apply timely_pdu|]. apply Forall_nil.
Qed.
