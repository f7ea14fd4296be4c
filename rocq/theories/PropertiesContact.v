(** PropertiesContact.v -- C86: the first request to an agent whose first report does not tell the time. *)
From Verif Require Import PropertiesUsm PropertiesMsg PropertiesProc PropertiesMgr PrfApi PrfMgr3i PropertiesMgr3 PropertiesReg SpecApi Api3 PropertiesUse PrfHear PrfHear2 PrfMgr3e PrfMgr3d PropertiesHear PrfAnswer PropertiesAnswer PrfUse PrfUse2 PrfSeq4.
From Verif Require Import SpecFail PrfFail1 PrfFail2 PropertiesFail PrfMgr3 PrfMgr3a PrfMgr3c PrfMgr3h PrfTime PrfShare PropertiesShare PrfSync2 PrfSync SpecSync SpecAnswer SpecUse SpecReg PrfOpen2 PrfAnswer PropertiesSync SpecHeal SpecCold SpecApi PropertiesHeal.
From Verif Require Import PropertiesCold.
Notation calls := SpecMgr3.calls.
(** * A report that does not tell the time *)
(** If the agent finds that message out of time, because its first report did not say
    what time it is, it says so in a second report.  Then the request is sent a third
    time, and the agent gets what was asked for; and if its answer arrives then, it is
    what wait() gives. *)
Theorem C86_first_contact : forall W default_user default_level q p level user timeout period x before after s l n d h e c s1 l1,
  world_ok W -> crypto_ok (w_crypto W) -> 484 <= w_size W <= 2147483647 -> 0 < w_ticks W ->
  let evs := before ++ x :: after in let r := length (calls before) in
  Forall event_ok evs -> others_fair W evs -> SpecApi.asks q p -> pdu_ok (numbered p 0) -> names_valid p ->
  api3 default_user default_level q level user timeout period = Ok x ->
  history W evs s l -> waits s l n r -> found W evs s l d r h e -> in_sequence W evs s l r -> e <> [] ->
  let u := match user with Some u => u | None => default_user end in let lv := match level with Some l => l | None => default_level end in
  octets_ok e -> octets_ok u -> SpecMsg.level_ok lv -> sl_auth lv = true -> user_added W evs u c ->
  history W (evs ++ [VReceive d; VListen]) s1 l1 ->
  (exists o ex, snd (step3 W s1 VListen) = [WFailed r o ByUnknownEngine ex]) \/
  exists h1 now1 pd wire1, snd (step3 W s1 VListen) = [WSent r h1 ByUnknownEngine now1 pd e u lv wire1] /\
  exists k s2 l2, let done := evs ++ VReceive d :: VListen :: VListen :: repeat VListen k in history W done s2 l2 /\ waits s2 l2 n r /\
  forall d2 h2 auth b t s3 l3, told W done s2 l2 d2 r h2 e -> in_sequence W done s2 l2 r ->
  says d2 auth e b t -> 0 <= b < 2147483647 -> 0 <= t -> news (w_ticks W) (v_usm s2) auth e b t (reading3 W s2) ->
  history W (done ++ [VReceive d2; VListen]) s3 l3 ->
  (exists o ex, snd (step3 W s3 VListen) = [WFailed r o ByNotInTime ex]) \/
  exists h3 now3 pd3 wire, snd (step3 W s3 VListen) = [WSent r h3 ByNotInTime now3 pd3 e u lv wire] /\
    (forall A, agent_ok A -> knows (w_crypto W) A e u c -> in_step W A e b t (reading3 W s2) (sent_reading W s3) ->
      exists id m sc, id <> 0 /\ int32 id /\ accepts (w_crypto W) A wire m /\ level_of m = lv /\ v3_engineID m = Some e /\ v3_name m = Some u /\
        v3_scoped m = Some sc /\ same_scoped (mkScoped e [] (numbered p id)) sc) /\
    exists k' s4 l4, let done' := done ++ VReceive d2 :: VListen :: VListen :: repeat VListen k' in history W done' s4 l4 /\ waits s4 l4 n r /\
      forall A answer size d3, in_sequence W done' s4 l4 r -> agent_ok A -> knows (w_crypto W) A e u c -> in_step W A e b t (reading3 W s2) (reading3 W s4) ->
        pdu_cls answer = ResponsePDU -> pdu_ok answer -> 484 <= size <= 2147483647 -> answers_with (w_crypto W) A wire e u lv answer size d3 ->
        exists received s' l', same_pdu answer received /\ run3 W (done' ++ arrival d3 n) = (s', WOutcome r (given pd3 received) :: l').
Proof.
  intros W du dl q p level user timeout period x before after s l n d h e c s1 l1 OK CO SZ TK evs r EV OF AS PO NV X HI WA TO SQ E0 u lv EO UO LO AU AD H1.
  destruct (C85_discovers W du dl q p level user timeout period x before after s l n d h e false 0 0 c s1 l1 OK CO SZ TK EV OF AS PO NV X HI WA TO SQ E0 EO UO LO H1)
    as [F|(h1 & now1 & pd & wire1 & SE & _ & k & s2 & l2 & H2 & WA2 & QE2 & _)]; [left; exact F|right].
  exists h1, now1, pd, wire1. split; [exact SE|]. exists k, s2, l2. cbv zeta. split; [exact H2|]. split; [exact WA2|].
  intros d2 h2 auth b t s3 l3 TO2 SQ2 SA B T NE H3.
  set (tail := VReceive d :: VListen :: VListen :: repeat VListen k) in *.
  assert (EQ : evs ++ tail = before ++ x :: (after ++ tail)) by (unfold evs; now rewrite <- app_assoc).
  assert (EV2 : Forall event_ok (evs ++ tail)).
  { apply Forall_app. split; [exact EV|]. unfold tail. repeat constructor. apply Forall_forall. intros z Z. apply repeat_spec in Z. subst z. exact Logic.I. }
  assert (OF2 : others_fair W (evs ++ tail)).
  { apply fair_silent; [exact OF|]. unfold tail. cbn. clear. induction k; [reflexivity|exact IHk]. }
  assert (AD2 : user_added W (evs ++ tail) u c) by (now apply PrfFail2.added_later).
  cbv zeta in H2. change (history W (evs ++ tail) s2 l2) in H2. fold evs. rewrite EQ in *.
  exact (C84_heals W du dl q p level user timeout period x before (after ++ tail) s2 l2 n d2 h2 e auth b t c s3 l3 OK CO SZ TK EV2 OF2 AS PO NV X H2 WA2 TO2 SQ2 E0 QE2 SA B T NE EO UO LO AU AD2 H3).
Qed.
(** The same manager.  The agent's first report says boots 0, time 0; the second one
    arrives at 4 and says 77, the request is sent at 6 and says 79; the agent is at 79. *)
Definition ex_twice : world := mkWorld (toy OpenSSL) 1 ex_draws (ex_clk [0; 0; 0; 0; 0; 2; 3; 3; 4; 4; 6]) (fun _ => true) [] (mkUsm [] registry0) 65507 None.
Definition ex_timeless : bytes :=
  match v3_encode (mkV3 (mkHeader 13 65507 (mkFlags noAuthNoPriv false) USM) (Some (mkScoped ex_engine [] (ex_report 4))) None
     (ABytes match params_encode (UsmSecurityParameters ex_engine 0 0 [] (ABytes []) []) with Ok b => b | Raise _ => [] end) None None) with
  | Ok b => b | Raise _ => [] end.
Definition ex_second : bytes := ex_note 26 ex_engine ex_user (ex_report 2).
Lemma ex_twice_forwards : forwards ex_twice.
Proof.
  intros i j L. cbn [ex_twice w_clk]. unfold ex_clk.
  do 11 (destruct i as [|i]; [do 12 (destruct j as [|j]; [cbn; lia|]); cbn; destruct j; cbn; lia|]). do 11 (destruct j as [|j]; [lia|]). cbn. destruct i, j; cbn; lia.
Qed.
Lemma ex_twice_sequence evs : forallb (fun k => Nat.leb (length (v_tasks (fst (run3 ex_twice (firstn k evs))))) 1) (seq 0 (S (length evs))) = true ->
  let s := fst (run3 ex_twice evs) in let l := snd (run3 ex_twice evs) in
  reading3 ex_twice s < expiration3 s 0 -> forallb (fun y => match y with WFailed _ _ _ _ => false | _ => true end) l = true -> in_sequence ex_twice evs s l 0.
Proof.
  intros Q s l T N. rewrite forallb_forall in N. assert (NF : forall r h w e, ~ In (WFailed r h w e) l) by (intros r h w e K; apply N in K; clear - K; discriminate K).
  split; [now apply alone_all|]. split; [exact ex_twice_forwards|]. split; [exact T|]. split; [|intros h w e K; destruct (NF _ _ _ _ K)].
  intros _ r h w e K. destruct (NF _ _ _ _ K).
Qed.
Example C86_example : let W := ex_twice in let evs := ex_cold_evs in let s := fst (run3 W evs) in let l := snd (run3 W evs) in let d := ex_timeless in
  let s1 := fst (run3 W (evs ++ [VReceive d; VListen])) in let A := ex_running in exists c,
  world_ok W /\ Forall event_ok evs /\ others_fair W evs /\ SpecApi.asks ex_get ex_gotten /\ pdu_ok (numbered ex_gotten 0) /\ names_valid ex_gotten /\
  api3 [] noAuthNoPriv ex_get (Some authPriv) (Some ex_user) 10 3 = Ok ex_get_call /\
  history W evs s l /\ waits s l 0 0 /\ found W evs s l d 0 0 ex_engine /\ in_sequence W evs s l 0 /\ ex_engine <> [] /\
  octets_ok ex_engine /\ octets_ok ex_user /\ SpecMsg.level_ok authPriv /\ user_added W evs ex_user c /\
  exists h1 now1 pd wire1, snd (step3 W s1 VListen) = [WSent 0 h1 ByUnknownEngine now1 pd ex_engine ex_user authPriv wire1] /\
  let done := evs ++ VReceive d :: VListen :: VListen :: repeat VListen 1 in let s2 := fst (run3 W done) in let l2 := snd (run3 W done) in
  let d2 := ex_second in let s3 := fst (run3 W (done ++ [VReceive d2; VListen])) in
  told W done s2 l2 d2 0 h1 ex_engine /\ in_sequence W done s2 l2 0 /\ says d2 false ex_engine 5 77 /\ news (w_ticks W) (v_usm s2) false ex_engine 5 77 (reading3 W s2) /\
  agent_ok A /\ knows (w_crypto W) A ex_engine ex_user c /\ reading3 W s2 = 4 /\ sent_reading W s3 = 6 /\ own_time (w_crypto W) A ex_engine = (5, 79) /\
  exists h3 now3 pd3 wire, snd (step3 W s3 VListen) = [WSent 0 h3 ByNotInTime now3 pd3 ex_engine ex_user authPriv wire] /\
    let done' := done ++ VReceive d2 :: VListen :: VListen :: repeat VListen 1 in let s4 := fst (run3 W done') in let l4 := snd (run3 W done') in
    in_sequence W done' s4 l4 0 /\ reading3 W s4 = 6 /\ pdu_cls (ex_reply3 13) = ResponsePDU /\ pdu_ok (ex_reply3 13) /\
    answers_with (w_crypto W) A wire ex_engine ex_user authPriv (ex_reply3 13) 1500 (ex_answering wire) /\
    exists s' l' r, run3 W (done' ++ arrival (ex_answering wire) 0) = (s', WOutcome 0 (VReturned r) :: l') /\ Forall2 same_vb ex_vbs r.
Proof.
  cbv zeta. destruct ex_cred as [c SC]. exists c.
  assert (WO : world_ok ex_twice) by (constructor; [exists []; split; [constructor|reflexivity]| |]; intros k; cbn; lia).
  split; [exact WO|]. split; [repeat constructor|]. split.
  { apply others_keep_fair; [now apply PropertiesUse.used|]. intros e ns H. unfold ex_cold_evs in H. cbn in H. repeat (destruct H as [H|H]; [discriminate H|]). exact H. }
  split.
  { split; [reflexivity|]. split; [reflexivity|]. split; [reflexivity|]. constructor; [|constructor; [|constructor]].
    - split; [|reflexivity]. left. apply (dotted_dot [49] 1 [51;46;54] [3;6]); [apply (ex_digit 49); lia|]. apply (dotted_dot [51] 3 [54] [6]); [apply (ex_digit 51); lia|]. apply dotted_last, (ex_digit 54); lia.
    - split; reflexivity. }
  split; [exact (proj1 ex_fits)|]. split; [repeat constructor|]. split; [reflexivity|].
  split; [split; [vm_compute; reflexivity|apply surjective_pairing]|]. split; [eapply ex_waits; vm_compute; reflexivity|]. split.
  { split; [vm_compute; reflexivity|]. split; [vm_compute; reflexivity|]. split; [vm_compute; do 7 eexists; right; left; reflexivity|].
    split; [eexists; split; [vm_compute; reflexivity|]; split; [do 3 eexists; vm_compute; repeat split|vm_compute; reflexivity]|].
    vm_compute. discriminate. }
  split; [apply ex_twice_sequence; [vm_compute; reflexivity|vm_compute; reflexivity|vm_compute; reflexivity]|].
  split; [intros K; discriminate K|].
  split; [split; [repeat constructor; vm_compute; discriminate|vm_compute; discriminate]|].
  split; [split; [repeat constructor; vm_compute; discriminate|vm_compute; discriminate]|].
  split; [intros _; reflexivity|].
  split; [exists [], (ex_get_call :: ex_ahead), (Some HmacSha), None, (Some AesCfb128), None, ex_secret, false, None; split; [reflexivity|]; split; [vm_compute; reflexivity|exact SC]|].
  eexists. eexists. eexists. eexists. split; [vm_compute; reflexivity|]. split.
  { split; [vm_compute; reflexivity|]. split; [vm_compute; reflexivity|]. split; [vm_compute; do 7 eexists; left; reflexivity|].
    split; [eexists; split; [vm_compute; reflexivity|]; split; [do 3 eexists; vm_compute; repeat split|vm_compute; reflexivity]|].
    vm_compute. intros h' now p e0 user level wire K. repeat (destruct K as [K|K]; [discriminate K|]). exact K. }
  split; [apply ex_twice_sequence; [vm_compute; reflexivity|vm_compute; reflexivity|vm_compute; reflexivity]|].
  split; [do 2 eexists; split; [vm_compute; reflexivity|]; split; [vm_compute; reflexivity|]; split; [vm_compute; reflexivity|]; vm_compute; repeat split|].
  split; [exists [Unauthenticated ex_engine 0 0 2]; split; [vm_compute; reflexivity|]; intros (b & m & ts & [K|[]]); discriminate K|].
  split; [split; [cbn; lia|repeat constructor]|]. split; [now apply ex_running_knows|].
  split; [vm_compute; reflexivity|]. split; [vm_compute; reflexivity|]. split; [vm_compute; reflexivity|].
  eexists. eexists. eexists. eexists. split; [vm_compute; reflexivity|].
  split; [apply ex_twice_sequence; [vm_compute; reflexivity|vm_compute; reflexivity|vm_compute; reflexivity]|].
  split; [vm_compute; reflexivity|]. split; [reflexivity|]. split.
  { split; [|exact ex_vbs_ok]. unfold pdu_fields_ok, int32. cbn. repeat split; vm_compute; discriminate. }
  split; [eexists; split; vm_compute; reflexivity|].
  eexists. eexists. eexists. split; [vm_compute; reflexivity|]. vm_compute. repeat constructor.
Qed.
Print Assumptions C86_first_contact.
(** Two theorems of PropertiesMsg.v. *)
Print Assumptions C16_types.
Print Assumptions C20_chain.
