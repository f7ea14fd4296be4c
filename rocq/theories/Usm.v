(** Usm.v -- model of snmp/security/usm/implementation.py (definitions only).

    Not modelled: the locks (each locked section is one step), the texts of
    exceptions (so neither userName.decode(): names were encoded from str),
    [time()] (the timestamp is an argument). *)
From Verif Require Export TimeKeeper Users UsmParams.

(** implementation.py:38-46 *)
Record usm := mkUsm { us_time : timekeeper; us_users : registry }.

(** implementation.py:102-169.  [message] is modified in place (encryptedPDU,
    securityParameters): the modified message is not used afterwards. *)
Definition usm_prepareOutgoing (C : crypto) (R : Z) (s : usm) (message : v3msg)
    (engineID securityName : bytes) (timestamp : Z) : usm * res bytes :=
  let flags := h_flags (v3_header message) in
  (* 111-146 *)
  let '(s, x) :=
    if fl_auth flags then
      match getCredentials (us_users s) engineID securityName with
      | Raise e => (s, Raise e)
      | Ok user =>
        match lc_auth user with
        | None => (s, Raise InvalidSecurityLevel)
        | Some (alg, key) =>
          let '(boots, time) := getEngineTime R (us_time s) engineID timestamp in
          let padding := msgAuthenticationParameters alg in
          if fl_priv flags then
            match lc_priv user with
            | None => (s, Raise InvalidSecurityLevel)
            | Some pv =>
              match v3_scoped message with
              | None => (s, Raise AssertionError)
              | Some scopedPDU =>
                match scoped_encode scopedPDU with
                | Raise e => (s, Raise e)
                | Ok plaintext =>
                  let '(pv, r) := priv_encrypt C pv plaintext boots time in
                  let s := mkUsm (us_time s) (store_priv (us_users s) engineID securityName pv) in
                  (s,
                   do cs <- r;
                   let '(ciphertext, salt) := cs in
                   do c <- octets_new OctetString ciphertext;
                   Ok (mkV3 (v3_header message) (v3_scoped message) (Some ciphertext)
                            (v3_params message) (v3_engineID message) (v3_name message),
                       boots, time, padding, salt, Some (alg, key)))
                end
              end
            end
          else (s, Ok (message, boots, time, padding, [], Some (alg, key)))
        end
      end
    else (s, Ok (message, 0, 0, [], [], None)) in
  (s,
   do y <- x;
   let '(message, boots, time, padding, salt, user_auth) := y in
   (* 148-158 *)
   do securityParameters <- params_encode
        (UsmSecurityParameters engineID boots time securityName (ABytes padding) salt);
   do _ <- octets_new OctetString securityParameters;
   let message := mkV3 (v3_header message) (v3_scoped message) (v3_encrypted message)
                       (ABytes securityParameters) (v3_engineID message) (v3_name message) in
   do wholeMsg <- v3_encode message;
   (* 160-169 *)
   match user_auth with
   | None => Ok wholeMsg
   | Some (alg, key) =>
     do p <- findSecurityParameters wholeMsg;
     do location <- findSignature p;
     match location with
     | ABytes _ => Raise AttributeError
     | ASub loc => Ok (sb_replace loc (auth_sign C alg key wholeMsg))
     end
   end).

(** implementation.py:171-260: the new state, and the message with
    securityEngineID, securityName (and plaintext) set, or the exception. *)
Definition usm_processIncoming (C : crypto) (R : Z) (s : usm) (message : v3msg)
    (timestamp : Z) : usm * res v3msg :=
  match params_decode (v3_params message) with
  | Raise e => (s, Raise e)
  | Ok sp =>
    let message := mkV3 (v3_header message) (v3_scoped message) (v3_encrypted message)
                        (v3_params message) (Some (up_engineID sp)) (Some (up_userName sp)) in
    let flags := h_flags (v3_header message) in
    if negb (fl_auth flags) then
      (mkUsm (tk_hint R (us_time s) (up_engineID sp) (up_boots sp) (up_time sp) timestamp) (us_users s),
       Ok message)
    else
      match getCredentials (us_users s) (up_engineID sp) (up_userName sp) with
      | Raise InvalidEngineID => (s, Raise UnknownEngineID)
      | Raise InvalidUserName => (s, Raise UnknownUserName)
      | Raise e => (s, Raise e)
      | Ok user =>
        match lc_auth user with
        | None => (s, Raise UnsupportedSecLevel)
        | Some (alg, key) =>
          if fl_priv flags && match lc_priv user with None => true | Some _ => false end
          then (s, Raise UnsupportedSecLevel)
          else
            let padding := msgAuthenticationParameters alg in
            if negb (zlen (up_signature sp) =? zlen padding) then (s, Raise WrongDigest)
            else
              match up_index sp, up_whole sp with
              | Some start, Some whole =>
                let signature := sb_new (ABytes whole) (Some start) (Some (start + zlen padding)) in
                let wholeMsg := sb_replace signature padding in
                if negb (zlist_eqb (auth_sign C alg key wholeMsg) (up_signature sp))
                then (s, Raise WrongDigest)
                else
                  let '(t, ok) := updateAndVerify R (us_time s) (up_engineID sp) (up_boots sp)
                                                  (up_time sp) timestamp in
                  let s := mkUsm t (us_users s) in
                  if negb ok then (s, Raise NotInTimeWindow)
                  else if fl_priv flags then
                    (s,
                     reraise is_ValueError DecryptionError
                       (match lc_priv user, v3_encrypted message with
                        | Some pv, Some data =>
                          do plaintext <- priv_decrypt C pv data (up_boots sp) (up_time sp) (up_salt sp);
                          v3_set_plaintext message plaintext
                        | _, _ => Raise AttributeError
                        end))
                  else (s, Ok message)
              | _, _ => (s, Raise AssertionError)
              end
        end
      end
  end.
