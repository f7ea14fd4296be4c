(** Api3.v -- model of the request methods of the SNMPv3 manager (definitions
    only): manager/v3.py:640-658, 680-720.  The constructors they use are in
    Api.v; the methods are those of the other managers (v2c.py:195-235). *)
From Verif Require Export Api ManagerV3.

(** A call of a method of an SNMPv3 manager with the given default user and
    security level (v3.py:647-651): the event of ManagerV3, if there is one.
    wait= and self.autowait (653-654) only decide whether wait() is called at once
    (669-672), which is the event VWait. *)
Definition api3 (default_user : bytes) (default_level : seclevel) (q : request)
    (level : option seclevel) (user : option bytes) (timeout period : Z) : res event3 :=
  do p <- request_pdu q;
  Ok (VCall p (match user with Some u => u | None => default_user end)
        (match level with Some l => l | None => default_level end) timeout period).
