(** PrfNet.v -- encoding a message does not raise OSError: what sendRequest() and
    wait() let pass of it comes from the network. *)
From Verif Require Export Msg.

Definition quiet {A} (x : res A) : Prop := x <> Raise OSError.
Lemma quiet_ok {A} (a : A) : quiet (Ok a).
Proof. discriminate. Qed.
Lemma quiet_bind {A B} (x : res A) (f : A -> res B) : quiet x -> (forall a, quiet (f a)) -> quiet (bind x f).
Proof. intros X F. destruct x as [a|e]; [apply F|]. intros Y. apply X. unfold bind in Y. congruence. Qed.
Lemma quiet_bytes l : quiet (py_bytes l).
Proof. unfold py_bytes. destruct (bytes_okb l); discriminate. Qed.
Lemma quiet_tag_loop n : forall v k, quiet (tag_encode_loop n v k).
Proof. induction n as [|n IH]; intros v k; cbn [tag_encode_loop]; destruct (_ =? _); try discriminate. apply quiet_bind; [apply IH|discriminate]. Qed.
Lemma quiet_tag t : quiet (tag_encode t).
Proof.
  unfold tag_encode. apply quiet_bind.
  - destruct (_ <? _); [discriminate|]. apply quiet_bind; [apply quiet_tag_loop|discriminate].
  - intros [b arr]. apply quiet_bind; [apply quiet_bytes|discriminate].
Qed.
Lemma quiet_length_loop n : forall v, quiet (encode_length_loop n v).
Proof. induction n as [|n IH]; intros v; cbn [encode_length_loop]; destruct (_ =? _); try discriminate. apply quiet_bind; [apply IH|discriminate]. Qed.
Lemma quiet_length v : quiet (encode_length v).
Proof.
  unfold encode_length. destruct (_ <? _); [apply quiet_bytes|]. apply quiet_bind; [apply quiet_length_loop|]. intros arr.
  destruct (_ <? _); [discriminate|]. apply quiet_bind; [apply quiet_bytes|discriminate].
Qed.
Lemma quiet_ber t d : quiet (ber_encode t d).
Proof. unfold ber_encode. apply quiet_bind; [apply quiet_tag|]. intros a. apply quiet_bind; [apply quiet_length|discriminate]. Qed.
Lemma quiet_subid_loop n : forall v k, quiet (serialize_subid_loop n v k).
Proof. induction n as [|n IH]; intros v k; cbn [serialize_subid_loop]; destruct (_ =? _); try discriminate. apply quiet_bind; [apply IH|discriminate]. Qed.
Lemma quiet_subid v : quiet (serialize_subid v).
Proof.
  unfold serialize_subid. destruct (_ <? _); [apply quiet_bytes|]. apply quiet_bind; [apply quiet_subid_loop|]. intros t.
  apply quiet_bind; [apply quiet_bytes|discriminate].
Qed.
Lemma quiet_subids l : quiet (serialize_subids l).
Proof. induction l as [|x l IH]; cbn [serialize_subids]; [discriminate|]. apply quiet_bind; [apply quiet_subid|]. intros a. apply quiet_bind; [exact IH|discriminate]. Qed.
Lemma quiet_prim p : quiet (prim_encode p).
Proof.
  unfold prim_encode. apply quiet_bind; [|intros; apply quiet_ber]. destruct p as [c v|c d|c|c l]; cbn [prim_serialize]; try discriminate.
  - unfold int_serialize, to_bytes_signed. destruct (_ && _); discriminate.
  - unfold oid_serialize. destruct l as [|a l]; [discriminate|]. apply quiet_bind; [apply quiet_subid|]. intros x.
    apply quiet_bind; [apply quiet_subids|discriminate].
Qed.
Lemma quiet_join l : Forall quiet l -> quiet (join_encodings l).
Proof. induction 1 as [|x l X _ IH]; cbn [join_encodings]; [discriminate|]. apply quiet_bind; [exact X|]. intros a. apply quiet_bind; [exact IH|discriminate]. Qed.
Lemma quiet_int v : quiet (Integer_encode v).
Proof. unfold Integer_encode. apply quiet_bind; [|intros; apply quiet_prim]. unfold int_new. cbn [int_bits]. destruct (inRange _ _ _); discriminate. Qed.
Lemma quiet_octets d : quiet (OctetString_encode d).
Proof. unfold OctetString_encode. apply quiet_bind; [|intros; apply quiet_prim]. cbn [octets_new]. destruct (_ <? _); discriminate. Qed.
Lemma quiet_pdu p : quiet (pdu_encode p).
Proof.
  unfold pdu_encode. apply quiet_bind; [|intros; apply quiet_ber]. unfold pdu_serialize. apply quiet_join.
  do 3 (apply Forall_cons; [apply quiet_int|]). apply Forall_cons; [|apply Forall_nil].
  unfold vblist_encode. apply quiet_bind; [|intros; apply quiet_ber]. unfold vblist_serialize. apply quiet_join.
  induction (pdu_vbs p) as [|v l IH]; [apply Forall_nil|]. cbn [map]. apply Forall_cons; [|exact IH].
  unfold varbind_encode. apply quiet_bind; [|intros; apply quiet_ber]. unfold varbind_serialize. apply quiet_join.
  do 2 (apply Forall_cons; [apply quiet_prim|]). apply Forall_nil.
Qed.
Lemma quiet_message m : message_encode m <> Raise OSError.
Proof.
  change (quiet (message_encode m)). unfold message_encode. apply quiet_bind; [|intros; apply quiet_ber]. unfold message_serialize. apply quiet_join.
  apply Forall_cons; [apply quiet_int|]. apply Forall_cons; [apply quiet_octets|]. apply Forall_cons; [apply quiet_pdu|]. apply Forall_nil.
Qed.
