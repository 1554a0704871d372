(** Properties C32, C33, C35 and C47: how long the MQTT 5 client waits before it connects again, how it keeps a connection alive, and that it is
    scheduled in time for what it has to do. The vocabulary
    is in Client5_Timing_Spec.v. *)
From Verif Require Import Base Mqtt5_Views Negotiated_Model TopicAlias_Model Encoder5_Model RateLimiter_Model Client5_State Client5_Model Client5_Spec Client5_Timing_Spec
  Client5_Decomp4 Client5_Events Client5_Backoff Client5_Pings Client5_Wakeup Client5_Examples Client5_Stop.

(** ** C32: every attempt to connect which the user did not ask for by starting the client comes at least [d] milliseconds after a moment
    [t], no earlier than the last event the user was told about. [d] is at most the configured maximum and is allowed by the configured jitter for
    [n] earlier waits; [n] is less than the number of losses so far, and no less than the number of attempts the client has made by itself since it was last connected. *)
Theorem C32_wait : forall cf now0 l later earlier,
  c_crash (client_history cf now0 l) = None ->
  c_out (client_history cf now0 l) = later ++ O_LIFE ATTEMPTING_CONNECT :: earlier -> resting earlier = false ->
  exists now after before t n d, clock earlier = Some now /\ earlier = after ++ before /\ Forall (fun x => is_life x = false) after /\ clock before = Some t /\
  after_ms t d <= now /\ d <= cf_max_delay_ms cf /\ (cf_min_delay_ms cf < two64 -> wait_allowed cf n d) /\
  n + 1 <= losses before /\ (N.of_nat (length before) < two64 -> retries before <= n).
Proof. exact (fun cf now0 l x y Ok => attempt_after cf now0 _ _ x y (history_reach cf now0 l) Ok). Qed.
Print Assumptions C32_wait.
(** three failures in a row: the client waits 1, 2 and 4 seconds *)
Definition failing : list (env * event) :=
  connecting 1000 ++ [(at_ 2000, ESetup (Some 5)); (at_ 1000001999, EService); (at_ 1000002000, EService); (at_ 1000003000, ESetup (Some 5));
   (at_ 3000002999, EService); (at_ 3000003000, EService); (at_ 3000004000, ESetup (Some 5)); (at_ 7000003999, EService); (at_ 7000004000, EService)].
Definition attempts_at (l : list out) : list N :=
  (fix go (l : list out) : list N := match l with [] => [] | O_LIFE ATTEMPTING_CONNECT :: l => match clock l with Some t => [t] | None => [] end ++ go l | _ :: l => go l end) l.
Example C32_example : let s := client_history cf1 1 failing in c_crash s = None /\ attempts_at (c_out s) = [7000004000; 3000003000; 1000002000; 1000] /\
  losses (c_out s) = 3 /\ retries (c_out s) = 3 /\ map (backoff cf1) [0; 1; 2; 6; 7; 70] = [1000; 2000; 4000; 64000; 120000; 120000].
Proof. vm_compute. repeat split. Qed.

(** ** C33: on a connection with a keep-alive interval, when the service task has run and the client is still connected, a PINGREQ is waiting
    to be sent, or less than the interval has gone by since the last one was sent or since the connection was announced. *)
Theorem C33_ping : forall cf now0 l ev n,
  let s := client_history cf now0 l in let s' := client_history cf now0 (l ++ [(ev, EService)]) in
  c_crash s' = None -> enabled ev EService s = true -> current s = CONNECTED -> current s' = CONNECTED -> e_now ev < two64 - 1 ->
  settings_of (c_out s') = Some n -> 0 < ng_keep_alive n -> acks_fit (c_out s') -> ticking (c_out s') ->
  (exists o, (curop s' = Some o \/ In o (queued s')) /\ op_packet o = P_PINGREQ) \/
  exists t, last_ping (c_out s') = Some t /\ e_now ev < after_s t (ng_keep_alive n).
Proof. exact (fun cf now0 l ev n A B C D E F G => proj1 (serviced cf now0 l ev n A B C D E F G)). Qed.
Print Assumptions C33_ping.
(** ... and if the last PINGREQ has not been answered, it was sent less than the ping timeout ago, and less than half the interval ago *)
Theorem C33_answer : forall cf now0 l ev n,
  let s := client_history cf now0 l in let s' := client_history cf now0 (l ++ [(ev, EService)]) in
  c_crash s' = None -> enabled ev EService s = true -> current s = CONNECTED -> current s' = CONNECTED -> e_now ev < two64 - 1 ->
  settings_of (c_out s') = Some n -> 0 < ng_keep_alive n -> ng_keep_alive n < 65536 ->
  forall t, unanswered (c_out s') = Some t ->
  e_now ev < t + ng_keep_alive n * 1000000000 / 2 /\ (cf_ping_timeout_ms cf <> 0 -> e_now ev < t + cf_ping_timeout_ms cf * 1000000).
Proof.
  intros cf now0 l ev n s s' A B C D E F G H t U. pose proof (proj2 (serviced cf now0 l ev n A B C D E F G) H t U) as X.
  unfold ping_limit in X. destruct (N.eqb_spec (cf_ping_timeout_ms cf) 0); split; lia.
Qed.
Print Assumptions C33_answer.
(** ... and for want of an answer the service task closes a connection which the user wants only then: the last PINGREQ was sent at [t],
    it has not been answered, and the ping timeout, or half the interval, has gone by *)
Theorem C33_only : forall cf now0 l ev n,
  let s := client_history cf now0 l in let s' := client_history cf now0 (l ++ [(ev, EService)]) in
  c_crash s' = None -> enabled ev EService s = true -> current s = CONNECTED -> desired s = D_CONNECTED -> current s' = CLEAN_DISCONNECT ->
  settings_of (c_out s) = Some n -> ng_keep_alive n < 65536 ->
  exists t, unanswered (c_out s) = Some t /\ N.min (two64 - 1) (t + ping_limit cf (ng_keep_alive n)) <= e_now ev.
Proof. exact gives_up. Qed.
Print Assumptions C33_only.
(** keep-alive 1200 s, ping timeout 30 s: the ping is sent at the first service after 1200 s, and its answer awaited for 30 s *)
Definition kept : list (env * event) := connected connack_bytes ++ [(at_ 1200000001003, EService); (at_ 1200000001004, EService); (at_ 1200000001004, EWritten None)].
Example C33_example : let s := client_history cf1 1 kept in c_crash s = None /\ current s = CONNECTED /\
  option_map ng_keep_alive (settings_of (c_out s)) = Some 1200 /\ last_ping (c_out s) = Some 1200000001004 /\ unanswered (c_out s) = Some 1200000001004 /\
  last_ping (c_out (client_history cf1 1 (firstn 7 kept))) = Some 1004 /\
  current (client_history cf1 1 (kept ++ [(at_ 1230000001003, EService)])) = CONNECTED /\
  current (client_history cf1 1 (kept ++ [(at_ 1230000001003, ERead [208; 0]); (at_ 1230000001004, EService)])) = CONNECTED /\
  current (client_history cf1 1 (kept ++ [(at_ 1230000001004, EService)])) = CLEAN_DISCONNECT /\
  in_short (client_history cf1 1 (kept ++ [(at_ 1230000001004, EService)])) =
  [B_ATTEMPT; B_SENT 0 0; B_DONE 0 K_SUCCESS; B_RECEIVED 2; B_SUCCESS; B_SENT 1 0; B_DONE 1 K_SUCCESS; B_DISCONNECTION K_PING_RESPONSE_TIMEOUT].
Proof. vm_compute. repeat split. Qed.
(** the assumptions are met one nanosecond before the answer is due *)
Example C33_assumptions : let l := kept ++ [submit_at 1200000001010 (pub 1 7)] in let s := client_history cf1 1 l in
  let s' := client_history cf1 1 (l ++ [(at_ 1230000001003, EService)]) in
  c_crash s' = None /\ fits (c_out s') = true /\ ticking (c_out s') /\ enabled (at_ 1230000001003) EService s = true /\
  current s = CONNECTED /\ current s' = CONNECTED /\ unanswered (c_out s') = Some 1200000001004.
Proof. vm_compute. repeat split; intro; discriminate. Qed.

(** ** C47: after every history the service task is scheduled in time for whatever the client has to do by itself, provided that the clock shows
    neither 0 nor more than 64 bits, that it does not run backwards and that no operation's deadline wraps around to 0 *)
Theorem C47_scheduled : forall cf now0 l now, let s := client_history cf now0 l in
  c_crash s = None -> normal cf (c_out s) -> match clock (c_out s) with Some t => t <= now | None => True end -> awake cf now s.
Proof. exact (fun cf now0 l now Ok N => proj2 (always_awake cf now0 l Ok N) now). Qed.
Print Assumptions C47_scheduled.
(** in terms of what has been sent and received: on an established connection a PINGREQ is waiting to be sent or the service task is scheduled
    within the keep-alive interval, and before the answer to the last PINGREQ is overdue; ... *)
Theorem C47_ping : forall cf now0 l n, let s := client_history cf now0 l in
  c_crash s = None -> normal cf (c_out s) -> current s = CONNECTED -> desired s = D_CONNECTED ->
  settings_of (c_out s) = Some n -> 0 < ng_keep_alive n -> ng_keep_alive n < 65536 ->
  (acks_fit (c_out s) -> (exists o, (curop s = Some o \/ In o (queued s)) /\ op_packet o = P_PINGREQ) \/
     exists t, last_ping (c_out s) = Some t /\ scheduled_by (after_s t (ng_keep_alive n)) s) /\
  (forall t, unanswered (c_out s) = Some t -> scheduled_by (N.min (two64 - 1) (t + ping_limit cf (ng_keep_alive n))) s).
Proof. exact ping_scheduled. Qed.
Print Assumptions C47_ping.
(** ... and by the time an acknowledgement still missing is overdue *)
Theorem C47_acknowledgement : forall cf now0 l, cf_queue cf <> FAIL_QOS0_PUBLISH -> let s := client_history cf now0 l in
  c_crash s = None -> normal cf (c_out s) -> current s = CONNECTED -> desired s = D_CONNECTED ->
  forall o t, sent_here o t (c_out s) -> answered (op_packet o) = true -> ~ In (op_uid o) (map op_uid (finished (c_out s))) ->
  forall T, overdue cf t o T -> scheduled_by T s.
Proof. exact ack_scheduled. Qed.
Print Assumptions C47_acknowledgement.
(** with an unanswered PINGREQ and an unacknowledged publish with a timeout of 3 seconds: the task is scheduled for the end of these 3 seconds *)
Definition awaiting : list (env * event) := kept ++ [(at_ 1200000001010, ESubmit (pub 1 7) 3)] ++ serve 1200000001011.
Example C47_example : let s := client_history cf1 1 awaiting in c_crash s = None /\ normal_b cf1 (c_out s) = true /\ fits (c_out s) = true /\
  current s = CONNECTED /\ desired s = D_CONNECTED /\ option_map ng_keep_alive (settings_of (c_out s)) = Some 1200 /\
  unanswered (c_out s) = Some 1200000001004 /\ run_at s = 1203000001011 /\ map op_uid (unacked s) = [2].
Proof. vm_compute. repeat split. Qed.
Example C47_assumption : normal cf1 (c_out (client_history cf1 1 awaiting)).
Proof. apply normal_ok. vm_compute. reflexivity. Qed.

(** ** C35: once it has been stopped, the client has something left to wait for until it stands still: the service task is scheduled, or the outcome of
    its attempt to connect or of closing the connection is to come. Missing: when it waits to disconnect and its DISCONNECT is not the next thing to send *)
Theorem C35_stop_makes_progress_partial : forall cf now0 l now, let s := client_history cf now0 l in
  c_crash s = None -> normal cf (c_out s) -> match clock (c_out s) with Some t => t <= now | None => True end ->
  desired s <> D_CONNECTED -> current s <> TERMINATED -> (desired s = D_STOPPED -> current s <> STOPPED) -> (current s = CLEAN_DISCONNECT -> sendable cf s) ->
  scheduled_by now s \/ (current s = CONNECTING /\ chan s = CH_ATTEMPT) \/ (current s = CHANNEL_SHUTDOWN /\ chan s = CH_UP).
Proof.
  cbv zeta. intros cf now0 l now Ok N Hn Hd Ht Hs Hc. pose proof (C47_scheduled cf now0 l now Ok N Hn) as A. pose proof (proj2 (history_steps cf now0 l) Ok) as P.
  generalize dependent (client_history cf now0 l). intros s _ _ _ Hd Ht Hs Hc A P. unfold awake in A. unfold Px in P. assert (wants_connection s = false) as W by (unfold wants_connection; destruct (desired s); try reflexivity; contradiction).
  destruct (current s) eqn:C; tauto.
Qed.
Print Assumptions C35_stop_makes_progress_partial.
Example C35_example : let l := connected connack_bytes ++ [(at_ 1010, EStop (Some ex_disconnect))] in let s := client_history cf1 1 l in
  c_crash s = None /\ normal_b cf1 (c_out s) = true /\ desired s = D_STOPPED /\ current s = CLEAN_DISCONNECT /\ pending s = false /\ cf_flow cf1 = false /\
  map (fun o => is_disconnect (op_packet o)) (queued s) = [true] /\ run_at s = 1010.
Proof. vm_compute. repeat split. Qed.
(** in general it is false: a message of QoS 1 which arrives before the DISCONNECT is sent has the client wait for ever: it has
    not stopped, and neither its service task nor the completion of a write or of an attempt to connect changes its state (none is to come) *)
Theorem C35_stop_makes_progress_refuted : exists cf now0 l, let s := client_history cf now0 l in
  c_crash s = None /\ normal cf (c_out s) /\ (exists ev d, In (ev, EStop d) l) /\ desired s = D_STOPPED /\ current s <> STOPPED /\
  forall l', (forall ev e, In (ev, e) l' -> e = EService \/ exists err, e = EWritten err \/ e = ESetup err) -> client_history cf now0 (l ++ l') = s.
Proof. exact blocked_forever. Qed.
Print Assumptions C35_stop_makes_progress_refuted.
