(** TimeKeeper.v -- model of snmp/security/usm/timekeeper.py (definitions only).

    Timestamps are integers counting ticks of a clock with [R] ticks per
    second (R > 0 arbitrary): the floats of the code, without rounding.
    [int(x)] of a number of seconds is [Z.quot ticks R] (truncation). *)
From Verif Require Export Base.

(** timekeeper.py:6 *)
Definition MAX_ENGINE_BOOTS := 2 ^ 31 - 1.

(** timekeeper.py:5-16; [et_latestBootTime] is in ticks. *)
Record enginetime := mkET { et_authenticated : bool; et_boots : Z; et_latestBootTime : Z }.

Section Clock.
  Variable R : Z.

  (** timekeeper.py:22-24 *)
  Definition clamp_boots (b : Z) : Z := Z.min b MAX_ENGINE_BOOTS.
  (** timekeeper.py:33-34 *)
  Definition boot_time (engineTime timestamp : Z) : Z := timestamp - engineTime * R.
  (** timekeeper.py:8-16 *)
  Definition EngineTime (boots time timestamp : Z) (authenticated : bool) : enginetime :=
    mkET authenticated (clamp_boots boots) (boot_time time timestamp).
  (** timekeeper.py:26-28 *)
  Definition et_valid (e : enginetime) : bool := et_boots e <? MAX_ENGINE_BOOTS.
  (** timekeeper.py:30-31 *)
  Definition et_time (e : enginetime) (timestamp : Z) : Z :=
    Z.quot (timestamp - et_latestBootTime e) R.
  (** timekeeper.py:36-37 *)
  Definition et_computeAge (e : enginetime) (engineTime timestamp : Z) : Z :=
    et_time e timestamp - engineTime.
  (** timekeeper.py:39-46 *)
  Definition et_hint (e : enginetime) (boots time timestamp : Z) : enginetime :=
    if et_authenticated e then e
    else mkET false (clamp_boots boots) (boot_time time timestamp).
  (** timekeeper.py:48-63 *)
  Definition et_update (e : enginetime) (boots time timestamp : Z) : enginetime :=
    if et_authenticated e then
      if boots =? et_boots e then
        if et_time e timestamp <? time
        then mkET true (et_boots e) (boot_time time timestamp)
        else e
      else if et_boots e <? boots
      then mkET true (clamp_boots boots) (boot_time time timestamp)
      else e
    else mkET true (clamp_boots boots) (boot_time time timestamp).

  (** timekeeper.py:65-69 *)
  Definition timekeeper := dict bytes enginetime.
  Definition TIME_WINDOW_SIZE := 150.

  (** timekeeper.py:71-84 *)
  Definition assertEntry (t : timekeeper) (engineID : bytes) (boots time timestamp : Z)
      (authenticated : bool) : timekeeper * enginetime :=
    match dict_get zlist_eqb t engineID with
    | Some e => (t, e)
    | None =>
      let e := EngineTime boots time timestamp authenticated in
      (dict_set zlist_eqb t engineID e, e)
    end.
  (** timekeeper.py:86-95 *)
  Definition getEngineTime (t : timekeeper) (engineID : bytes) (timestamp : Z) : Z * Z :=
    match dict_get zlist_eqb t engineID with
    | None => (0, 0)
    | Some e => (et_boots e, et_time e timestamp)
    end.
  (** timekeeper.py:97-104 *)
  Definition tk_hint (t : timekeeper) (engineID : bytes) (boots time timestamp : Z) : timekeeper :=
    let '(t, e) := assertEntry t engineID boots time timestamp false in
    dict_set zlist_eqb t engineID (et_hint e boots time timestamp).
  (** timekeeper.py:106-118 *)
  Definition updateAndVerify (t : timekeeper) (engineID : bytes) (boots time timestamp : Z)
    : timekeeper * bool :=
    let '(t, e) := assertEntry t engineID boots time timestamp true in
    let e := et_update e boots time timestamp in
    (dict_set zlist_eqb t engineID e,
     (boots =? et_boots e) && (et_computeAge e time timestamp <=? TIME_WINDOW_SIZE)
       && et_valid e).
End Clock.
