(** SpecHeal.v -- the vocabulary of C84: an agent whose clock is the one it told. *)
From Verif Require Export SpecSync.

(** What the agent takes for the boots and time of the engine [e] (its own). *)
Definition own_time (C : crypto) (A : agent) (e : bytes) : Z * Z :=
  getEngineTime (a_ticks A) (us_time (agent_usm C A)) e (a_now A).
(** It has the boots [b], and its time is no more than 150 seconds from [t] and the
    whole seconds that passed between the manager's clocks [since] and [now]. *)
Definition in_step (W : world) (A : agent) (e : bytes) (b t since now : Z) : Prop :=
  fst (own_time (w_crypto W) A e) = b /\
  Z.abs (snd (own_time (w_crypto W) A e) - (t + (now - since) / w_ticks W)) <= 150.
