(** PrfEnc.v -- what the encoders can raise. *)
From Verif Require Export PrfSim Msg MsgV3 UsmParams.

Definition EncErr (e : exc) : Prop :=
  e = ValueError \/ e = OverflowError \/ e = EncodeError \/ e = Diverges \/ e = SNMPLibraryBug.
Ltac enc := repeat first
  [ progress (auto 2) | apply raises_ok
  | apply raises_raise; unfold EncErr; now auto 6
  | apply raises_bind; [|intros ? _]
  | match goal with |- raises_only _ (if ?b then _ else _) => destruct b end
  | match goal with |- raises_only _ (match ?b with _ => _ end) => destruct b end
  | match goal with |- raises_only _ (let '(_, _) := ?b in _) => destruct b end
  ].
Lemma py_bytes_enc l : raises_only EncErr (py_bytes l).
Proof. unfold py_bytes. enc. Qed.
Lemma tag_loop_enc f n i : raises_only EncErr (tag_encode_loop f n i).
Proof. revert n i; induction f as [|f IH]; intros; cbn [tag_encode_loop]; enc. Qed.
Lemma len_loop_enc f n : raises_only EncErr (encode_length_loop f n).
Proof. revert n; induction f as [|f IH]; intros; cbn [encode_length_loop]; enc. Qed.
#[local] Hint Resolve py_bytes_enc tag_loop_enc len_loop_enc : core.
Lemma ber_encode_enc t d : raises_only EncErr (ber_encode t d).
Proof. unfold ber_encode, tag_encode, encode_length. enc. Qed.
Lemma subid_loop_enc f n g : raises_only EncErr (serialize_subid_loop f n g).
Proof. revert n g; induction f as [|f IH]; intros; cbn [serialize_subid_loop]; enc. Qed.
#[local] Hint Resolve ber_encode_enc subid_loop_enc : core.
Lemma subid_enc n : raises_only EncErr (serialize_subid n).
Proof. unfold serialize_subid. enc. Qed.
#[local] Hint Resolve subid_enc : core.
Lemma subids_enc l : raises_only EncErr (serialize_subids l).
Proof. induction l; cbn [serialize_subids]; enc. Qed.
#[local] Hint Resolve subids_enc : core.
Lemma prim_encode_enc p : raises_only EncErr (prim_encode p).
Proof. unfold prim_encode. apply raises_bind; [|auto]. destruct p; cbn [prim_serialize]; unfold int_serialize, to_bytes_signed, oid_serialize; cbv zeta; enc. Qed.
#[local] Hint Resolve prim_encode_enc : core.
Lemma Integer_enc v : raises_only EncErr (Integer_encode v).
Proof. unfold Integer_encode, int_new. enc. Qed.
Lemma OctetString_enc v : raises_only EncErr (OctetString_encode v).
Proof. unfold OctetString_encode, octets_new. enc. Qed.
Lemma join_enc l : Forall (raises_only EncErr) l -> raises_only EncErr (join_encodings l).
Proof. induction 1; cbn [join_encodings]; enc. Qed.
#[local] Hint Resolve Integer_enc OctetString_enc : core.
Ltac enc2 := repeat first [ progress enc | apply join_enc; repeat (apply Forall_cons || apply Forall_nil) ].
Lemma varbind_enc v : raises_only EncErr (varbind_encode v).
Proof. unfold varbind_encode, varbind_serialize. enc2. Qed.
#[local] Hint Resolve varbind_enc : core.
Lemma vblist_enc l : raises_only EncErr (vblist_encode l).
Proof. unfold vblist_encode, vblist_serialize. enc2. induction l; cbn; constructor; auto. Qed.
#[local] Hint Resolve vblist_enc : core.
Lemma pdu_enc p : raises_only EncErr (pdu_encode p).
Proof. unfold pdu_encode, pdu_serialize. enc2. Qed.
#[local] Hint Resolve pdu_enc : core.
Lemma message_enc m : raises_only EncErr (message_encode m).
Proof. unfold message_encode, message_serialize. enc2. Qed.
