(** SpecUsm.v -- specifications for the USM properties C29-C38. *)
From Verif Require Export Usm SpecUsers.

(** * Cryptographic primitives (C35-C38, C53) *)
(** What is assumed of the libraries: output sizes, and that DES decryption
    inverts DES encryption.  Nothing about secrecy or collisions. *)
Record crypto_ok (C : crypto) : Prop := mkCryptoOk {
  ok_hash : hash_ok C;
  ok_hmac : forall a k x, zlen (c_hmac C a k x) = digest_size a /\ bytes_ok (c_hmac C a k x);
  ok_aes : forall k b, zlen b = 16 -> zlen (c_aes C k b) = 16 /\ bytes_ok (c_aes C k b);
  ok_des : forall k b, zlen b = 8 -> zlen (c_des C k b) = 8 /\ bytes_ok (c_des C k b);
  ok_des_inv : forall k b, zlen b = 8 -> bytes_ok b -> c_des_inv C k (c_des C k b) = b;
  ok_des_dec : forall k b, zlen b = 8 -> zlen (c_des_inv C k b) = 8 /\ bytes_ok (c_des_inv C k b);
  ok_overread : forall iv, bytes_ok (c_overread C iv)
}.
(** Two PrivProtocol objects for the same user on the same engine. *)
Definition same_key (p q : priv) : Prop :=
  pv_alg p = pv_alg q /\ pv_key p = pv_key q /\ pv_preIV p = pv_preIV q.
(** The objects the constructors build, after any number of encryptions. *)
Definition priv_ok (p : priv) : Prop :=
  match pv_alg p with
  | AesCfb128 => 0 <= pv_salt p < 2 ^ 64
  | DesCbc => 0 <= pv_salt p < 2 ^ 32 /\ zlen (pv_preIV p) = 8 /\ bytes_ok (pv_preIV p)
  end.
(** The IVs of RFC 3826 3.1.2.1 and RFC 3414 8.1.1.1. *)
Definition be32 (v : Z) : bytes := [v / 2 ^ 24 mod 256; v / 2 ^ 16 mod 256; v / 2 ^ 8 mod 256; v mod 256].
Definition rfc_iv (p : priv) (boots time : Z) (salt : bytes) : bytes :=
  match pv_alg p with
  | AesCfb128 => be32 boots ++ be32 time ++ salt
  | DesCbc => xor_bytes (pv_preIV p) salt
  end.
Definition is_time (v : Z) : Prop := 0 <= v < 2 ^ 31.
(** A sequence of encryptions with one object: (data, boots, time) each. *)
Fixpoint encryptions (C : crypto) (p : priv) (l : list (bytes * Z * Z)) : list (res (bytes * bytes)) :=
  match l with
  | [] => []
  | (data, b, t) :: l' => let '(p, r) := priv_encrypt C p data b t in r :: encryptions C p l'
  end.
(** Period of the salt counter. *)
Definition salt_period (a : privalg) : Z := match a with AesCfb128 => 2 ^ 64 | DesCbc => 2 ^ 32 end.

(** * Time (C29, C30) *)
(** What has been processed: an unauthenticated message, or an authenticated
    one, from engine [e], with its boots and time fields, at clock [ts]. *)
Inductive time_event :=
| Unauthenticated (e : bytes) (boots time ts : Z)
| Authenticated (e : bytes) (boots time ts : Z).
Definition event_engine (x : time_event) : bytes :=
  match x with Unauthenticated e _ _ _ | Authenticated e _ _ _ => e end.

Definition event_ts (x : time_event) : Z :=
  match x with Unauthenticated _ _ _ ts | Authenticated _ _ _ ts => ts end.
Definition event_boots (x : time_event) : Z :=
  match x with Unauthenticated _ b _ _ | Authenticated _ b _ _ => b end.
Definition time_step (R : Z) (t : timekeeper) (x : time_event) : timekeeper :=
  match x with
  | Unauthenticated e b m ts => tk_hint R t e b m ts
  | Authenticated e b m ts => fst (updateAndVerify R t e b m ts)
  end.
(** The TimeKeeper after a history, oldest event first. *)
Definition time_after (R : Z) (h : list time_event) : timekeeper := fold_left (time_step R) h [].
Definition auth_seen (h : list time_event) (e : bytes) : Prop :=
  exists b m ts, In (Authenticated e b m ts) h.

(** Order on (boots, time). *)
Definition notion_le (x y : Z * Z) : Prop :=
  fst x < fst y \/ (fst x = fst y /\ snd x <= snd y).
Definition notion_leb (x y : Z * Z) : bool :=
  (fst x <? fst y) || ((fst x =? fst y) && (snd x <=? snd y)).
Definition later (x y : Z * Z) : Z * Z := if notion_leb x y then y else x.

(** A clock that does not go backwards, from [lo] to [hi]. *)
Fixpoint clock_between (lo hi : Z) (h : list time_event) : Prop :=
  match h with
  | [] => lo <= hi
  | x :: h' => lo <= event_ts x /\ clock_between (event_ts x) hi h'
  end.

(** RFC 3414 section 3.2 step 7b, literally, for one remote engine: local
    notion of boots and time, and latestReceivedEngineTime.  [rf_base] is the
    clock value at which the remote engine booted. *)
Record rfc_notion := mkRfc { rf_boots : Z; rf_base : Z; rf_latest : Z }.
Definition rfc_sync (R : Z) (s : rfc_notion) (boots time ts : Z) : rfc_notion :=
  if (rf_boots s <? boots) || ((boots =? rf_boots s) && (rf_latest s <? time))
  then mkRfc boots (ts - time * R) time else s.
Definition rfc_time (R : Z) (s : rfc_notion) (ts : Z) : Z := (ts - rf_base s) / R.
Definition rfc_outside_window (R : Z) (s : rfc_notion) (boots time ts : Z) : bool :=
  (rf_boots s =? 2147483647) || (boots <? rf_boots s) ||
  ((boots =? rf_boots s) && (time <? rfc_time R s ts - 150)).
(** The literal RFC process over the authenticated messages of one engine, and
    whether the last one is accepted. *)
Fixpoint rfc_run (R : Z) (s : rfc_notion) (msgs : list (Z * Z * Z)) : rfc_notion :=
  match msgs with [] => s | (b, m, ts) :: l => rfc_run R (rfc_sync R s b m ts) l end.
Fixpoint msgs_clock (lo : Z) (msgs : list (Z * Z * Z)) : Prop :=
  match msgs with
  | [] => True
  | (b, m, ts) :: l => lo <= ts /\ 0 <= b <= 2147483647 /\ 0 <= m /\ msgs_clock ts l
  end.
(** What the TimeKeeper does with the same messages of engine [e]. *)
Definition code_run (R : Z) (e : bytes) (t : timekeeper) (msgs : list (Z * Z * Z)) : timekeeper :=
  fold_left (fun t '(b, m, ts) => fst (updateAndVerify R t e b m ts)) msgs t.


(** The window test in one formula: [h] is what has been processed before the
    message (boots, time) of engine [e] is processed at clock [ts]. *)
Definition in_window (R : Z) (h : list time_event) (e : bytes) (boots time ts : Z) : Prop :=
  boots < 2147483647 /\
  (auth_seen h e ->
   let '(lboots, ltime) := getEngineTime R (time_after R h) e ts in
   lboots < boots \/ (lboots = boots /\ ltime - time <= 150)).

(** * Whole USM histories (C35, C36, C53) *)
Inductive usm_op :=
| UUser (op : user_op)
| USend (m : v3msg) (engineID securityName : bytes) (ts : Z)
| UReceive (m : v3msg) (ts : Z).
Definition usm_step (C : crypto) (R : Z) (rnd : nat -> Z) (s : usm) (op : usm_op) : usm :=
  match op with
  | UUser o => mkUsm (us_time s) (fst (user_step C rnd (us_users s) o))
  | USend m e n ts => fst (usm_prepareOutgoing C R s m e n ts)
  | UReceive m ts => fst (usm_processIncoming C R s m ts)
  end.
Definition usm_after (C : crypto) (R : Z) (rnd : nat -> Z) (h : list usm_op) : usm :=
  fold_left (usm_step C R rnd) h (mkUsm [] registry0).
Definition usm_op_ok (op : usm_op) : Prop := match op with UUser o => op_ok o | _ => True end.

(** The length of the MAC: RFC 3414 6.3.1, 7.3.1; RFC 7860 4.2.1. *)
Definition mac_size (a : authalg) : Z :=
  match a with
  | HmacMd5 | HmacSha => 96 / 8
  | HmacSha224 => 128 / 8 | HmacSha256 => 192 / 8 | HmacSha384 => 256 / 8 | HmacSha512 => 384 / 8
  end.
(** [out] carries at [pre .. post] the MAC, under [key], of itself with that
    field zeroed. *)
Definition signed_at (C : crypto) (alg : authalg) (key out pre mac post : bytes) : Prop :=
  out = pre ++ mac ++ post /\ zlen mac = mac_size alg /\
  mac = firstn (Z.to_nat (mac_size alg)) (c_hmac C alg key (pre ++ zero_bytes (mac_size alg) ++ post)).
