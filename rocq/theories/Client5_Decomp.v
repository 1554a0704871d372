(** Which updates of Client5_Steps.v each function of Client5_Model.v performs, and what it does to the state machine's fields. *)
From Verif Require Import Base BaseLemmas Mqtt5_Views TopicAlias_Model Encoder5_Model Decoder5_Model RateLimiter_Model RateLimiter_Spec
  RateLimiter_Proofs Validate5_Model Negotiated_Model Client5_State Client5_Model Client5_Spec Client5_Steps.
From Coq Require Import Permutation.
Ltac Zify.zify_post_hook ::= idtac.

(** ** Quiet updates *)
Lemma quiet_refl s : quiet s s.
Proof. split; [|split]; auto. Qed.
Lemma quiet_trans a b c : quiet a b -> quiet b c -> quiet a c.
Proof. intros (H1 & H2 & T1) (H3 & H4 & T2). split; [congruence|]. split; [|congruence]. intros H. destruct (H2 H) as [H5 E]. destruct (H4 H5) as [H6 E2]. split; [assumption|congruence]. Qed.
Lemma quiet_hush s s' : quiet s s' -> hush s s'.
Proof. intros (H1 & H2 & _). split; assumption. Qed.
Lemma same_tim s : set_c_tim (c_tim s) s = s.
Proof. destruct s; reflexivity. Qed.
Ltac qh := split; [reflexivity|intros [? ?]; split; [split; assumption|reflexivity]].
Ltac qt := split; [reflexivity|split; [intros [? ?]; split; [split; assumption|reflexivity]|reflexivity]].

Lemma rlv_regen c now b : rl_rate c * nanos < two64 -> rlv c b -> rlv c (rl_regenerate c now b).
Proof. intros Hr [i Hi]. eexists. apply regen_sim; eassumption. Qed.
Lemma rlv_take c now n b : rl_rate c * nanos < two64 -> rlv c b -> rlv c (fst (rl_take c now n b)).
Proof.
  intros Hr Hb. destruct (rlv_regen c now b Hr Hb) as [i Hi]. unfold rl_take. destruct (rl_tokens (rl_regenerate c now b) <? n); [eexists; exact Hi|].
  eexists. apply take_rsim. exact Hi.
Qed.
Lemma rlv_wait c now n b : rl_rate c * nanos < two64 -> rlv c b -> exists b' w, rl_wait c now n b = (b', Some w) /\ rlv c b'.
Proof.
  intros Hr Hb. destruct (rlv_regen c now b Hr Hb) as [i Hi]. unfold rl_wait. destruct (n <=? rl_tokens (rl_regenerate c now b)).
  - do 2 eexists. split; [reflexivity|eexists; exact Hi].
  - pose proof Hi as (_ & _ & _ & _ & _ & Hf & Hft).
    assert (rl_fnanos (rl_regenerate c now b) < nanos) as Hlt by (rewrite Hf; apply N.mod_lt; discriminate).
    destruct (N.ltb_spec (rl_fnanos (rl_regenerate c now b)) nanos) as [_|]; [|lia]. cbn [negb].
    assert (rl_ftokens (rl_regenerate c now b) <= rl_rate c) as Hle by (rewrite Hft; apply frac_le; lia).
    destruct (N.leb_spec (rl_ftokens (rl_regenerate c now b)) (rl_rate c)) as [_|]; [|lia]. cbn [negb].
    do 2 eexists. split; [reflexivity|eexists; exact Hi].
Qed.
Lemma rlv_reset c now : rlv c (rl_reset c now).
Proof. eexists. apply reset_exact. Qed.
Lemma pub_rate : rl_rate pub_cfg * nanos < two64. Proof. reflexivity. Qed.
Lemma thr_rate : rl_rate thr_cfg * nanos < two64. Proof. reflexivity. Qed.

(** what computing the next service time does *)
Definition tick (p t : rl_state) (c : option crash_reason) (s : client) : client := set_pub_rl p (set_thr_rl t (set_c_crash c s)).
Definition ticked (s s' : client) : Prop :=
  exists p t c, s' = tick p t c s /\ (rl_ok s -> rlv pub_cfg p /\ rlv thr_cfg t /\ c = c_crash s).
Lemma ticked_refl s : ticked s s.
Proof. exists (pub_rl s), (thr_rl s), (c_crash s). split; [destruct s as [? ? ? [? ? ?] ? ? ? ? ? ? ? ?]; reflexivity|]. intros [? ?]; auto. Qed.
Lemma ticked_quiet s s' : ticked s s' -> quiet s s'.
Proof. intros (p & t & c & -> & H). split; [reflexivity|]. split; [|reflexivity]. intros Hr. destruct (H Hr) as (Hp & Ht & ->). split; [split; assumption|reflexivity]. Qed.
Lemma crash_eq r s : crash r s = set_c_crash (Some (match c_crash s with None => r | Some x => x end)) s.
Proof. unfold crash. destruct s as [? ? ? ? ? ? ? ? ? ? [x|] ?]; reflexivity. Qed.

Section Decomp.
Variable cf : config.
Notation prim := (prim cf).
Notation steps := (steps cf).

Lemma throughput_ticked now s : ticked s (fst (throughput_time cf now s)).
Proof.
  unfold throughput_time. destruct (settings_valid s); [|apply ticked_refl]. destruct (cf_flow cf); [|apply ticked_refl]. cbn [negb].
  destruct (rl_wait thr_cfg now thr_tokens (thr_rl s)) as [b [w|]] eqn:E; cbn [fst].
  - exists (pub_rl s), b, (c_crash s). split; [destruct s as [? ? ? [? ? ?] ? ? ? ? ? ? ? ?]; reflexivity|].
    intros [Hp Ht]. destruct (rlv_wait thr_cfg now thr_tokens _ thr_rate Ht) as (b' & w' & E' & Hb). rewrite E in E'. inversion E'; subst. auto.
  - exists (pub_rl s), b, (Some (match c_crash s with None => CR_RATE_LIMITER | Some x => x end)).
    split; [rewrite crash_eq; destruct s as [? ? ? [? ? ?] ? ? ? ? ? ? ? ?]; reflexivity|].
    intros [Hp Ht]. destruct (rlv_wait thr_cfg now thr_tokens _ thr_rate Ht) as (b' & w' & E' & Hb). rewrite E in E'. discriminate.
Qed.
Lemma ticked_trans a b c : ticked a b -> ticked b c -> ticked a c.
Proof.
  intros (p & t & x & -> & H) (p' & t' & x' & -> & H'). exists p', t', x'. split; [reflexivity|]. intros Hr. destruct (H Hr) as (Hp & Ht & ->).
  apply H'. split; assumption.
Qed.
Lemma flow_ticked now p s : ticked s (fst (flow_time cf now p s)).
Proof.
  unfold flow_time. destruct p; try apply ticked_refl. destruct (cf_flow cf).
  - destruct (rl_wait pub_cfg now 1 (pub_rl s)) as [b [w|]] eqn:E.
    + assert (ticked s (set_pub_rl b s)).
      { exists b, (thr_rl s), (c_crash s). split; [destruct s as [? ? ? [? ? ?] ? ? ? ? ? ? ? ?]; reflexivity|].
        intros [Hp Ht]. destruct (rlv_wait pub_cfg now 1 _ pub_rate Hp) as (b' & w' & E' & Hb). rewrite E in E'. inversion E'; subst. auto. }
      repeat match goal with |- context [if ?x then _ else _] => destruct x; try assumption end.
    + assert (ticked s (crash CR_RATE_LIMITER (set_pub_rl b s))).
      { exists b, (thr_rl s), (Some (match c_crash s with None => CR_RATE_LIMITER | Some x => x end)).
        split; [rewrite crash_eq; destruct s as [? ? ? [? ? ?] ? ? ? ? ? ? ? ?]; reflexivity|].
        intros [Hp Ht]. destruct (rlv_wait pub_cfg now 1 _ pub_rate Hp) as (b' & w' & E' & Hb). rewrite E in E'. discriminate. }
      repeat match goal with |- context [if ?x then _ else _] => destruct x; try assumption end.
  - repeat match goal with |- context [if ?x then _ else _] => destruct x; try apply ticked_refl end.
Qed.
Lemma operational_ticked now s : ticked s (fst (operational_time cf now s)).
Proof.
  unfold operational_time. destruct (pending s); [apply ticked_refl|]. pose proof (throughput_ticked now s) as H.
  destruct (throughput_time cf now s) as [s1 t]. cbn [fst] in H. destruct (now <? t); [assumption|]. destruct (curop s1); [assumption|].
  destruct (queued s1) as [|o q]; [assumption|]. destruct (current s1); try assumption.
  eapply ticked_trans; [exact H|]. apply flow_ticked.
Qed.
Lemma next_service_ticked now s : ticked s (fst (next_service_time cf now s)).
Proof.
  unfold next_service_time. pose proof (operational_ticked now s) as H.
  destruct (current s); try apply ticked_refl; destruct (operational_time cf now s) as [s1 t]; cbn [fst] in H;
    repeat match goal with |- context [if ?x then _ else _] => destruct x end; try assumption; apply ticked_refl.
Qed.
(** rescheduling the service task: [resched s s'] *)
Definition resched (s s' : client) : Prop := exists s1 t, ticked s s1 /\ s' = set_run_at t s1.
Lemma resched_ticked s s' : ticked s s' -> resched s s'.
Proof. intros H. exists s', (run_at s'). split; [assumption|]. destruct s' as [[] ? ? ? ? ? ? ? ? ? ? ?]; reflexivity. Qed.
Lemma reevaluate_resched now s : resched s (reevaluate cf now s).
Proof.
  unfold reevaluate. destruct (in_service s); [apply resched_ticked, ticked_refl|]. pose proof (next_service_ticked now s) as H.
  destruct (next_service_time cf now s) as [s1 t]. exists s1, t. auto.
Qed.
Lemma resched_quiet s s' : resched s s' -> quiet s s'.
Proof. intros (s1 & t & H & ->). eapply quiet_trans; [apply ticked_quiet; exact H|]. qt. Qed.
Lemma reevaluate_quiet now s : quiet s (reevaluate cf now s).
Proof. apply resched_quiet, reevaluate_resched. Qed.

(** ** The state machine's fields *)
Definition phase (s : client) := (desired s, current s, life s, slot s, chan s, in_service s, has_conn s, should_reset s).
Lemma phase_resched s s' : resched s s' -> phase s' = phase s.
Proof. intros (s1 & t & (p & b & c & -> & _) & ->). reflexivity. Qed.
Lemma phase_ticked s s' : ticked s s' -> phase s' = phase s.
Proof. intros H. apply phase_resched, resched_ticked, H. Qed.
Lemma phase_reevaluate now s : phase (reevaluate cf now s) = phase s.
Proof. apply phase_resched, reevaluate_resched. Qed.
Lemma phase_crash r s : phase (crash r s) = phase s.
Proof. rewrite crash_eq. reflexivity. Qed.
Lemma phase_crash_unless b r s : phase (crash_unless b r s) = phase s.
Proof. destruct b; [reflexivity|apply phase_crash]. Qed.

Lemma Q g s s' : quiet s s' -> steps (g, s) (g, s').
Proof. intros H. apply steps_one. destruct H as (H1 & H2 & E). injection E as E1 E2. apply P_quiet; [split; assumption|intros _; rewrite E1; constructor|intros _; rewrite E2; constructor]. Qed.
Lemma steps_retime g s s' : hush s s' -> has_conn s' = has_conn s -> (ok s -> retimed cf g s (c_tim s')) -> steps (g, s) (g, s').
Proof. intros H1 E H2. apply steps_one. apply P_quiet; [assumption|assumption|]. intros _. rewrite E. constructor. Qed.
(** neutral events of which the timers take no notice *)
Definition unheard (x : out) : bool := match x with I_PACKET (P_PUBLISH _) | I_PACKET P_PINGRESP => false | _ => true end.
Lemma prim_emit g s x : neutral x = true -> (ok s -> up (current s) = false \/ unheard x = true) -> prim (g, s) (g, emit x s).
Proof.
  intros H1 H2. rewrite <- (same_tim s) at 2. apply P_emit; [exact H1|]. intros K. destruct x as [| | | | | | | | | |p| | |]; try reflexivity.
  destruct (H2 K) as [H|H]; destruct p; cbn [unheard] in H; try discriminate H; try reflexivity; [split; [exact H|reflexivity]|].
  cbn [heard]. rewrite H. reflexivity.
Qed.
Lemma prim_state g s c : c <> PENDING_RECONNECT -> (ok s -> edge cf g s c) -> (ok s -> calm g s) -> (ok s -> c = STOPPED -> g_link g = DEAD) ->
  (ok s -> c = CONNECTED -> ng_rejoined (c_neg s) = true -> should_resume cf s = true) ->
  prim (g, s) (match c with MQTT_CONNECT => with_link NEW g | _ => g end, set_current c s).
Proof.
  intros Hc H1 H2 H3 H4. rewrite <- (same_tim s) at 2. apply P_state; [exact H1|exact H2| |exact H3|exact H4]. intros _. destruct c; try congruence; reflexivity.
Qed.
Lemma steps_reevaluate g now s : steps (g, s) (g, reevaluate cf now s).
Proof. apply Q, reevaluate_quiet. Qed.

(** ** Lifecycle events and shutting down *)
Lemma emit_final_steps g e a d s :
  (d <> None -> ok s -> life s = LS_CONNECTING -> bad CR_LIFECYCLE g s) -> (a <> None -> ok s -> life s = LS_CONNECTED -> bad CR_LIFECYCLE g s) ->
  steps (g, s) (g, emit_final e a d s).
Proof.
  intros Hd Ha. unfold emit_final. destruct (life s) eqn:L; [constructor| |].
  - eapply steps_trans with (g, crash_unless (match d with None => true | _ => false end) CR_LIFECYCLE s).
    + destruct d; [|constructor]. apply steps_one. apply P_crash. intros K. apply Hd; [discriminate|exact K|reflexivity].
    + apply steps_one. apply P_failure. intros _. destruct d; [|exact L]. cbn [crash_unless]. rewrite crash_eq. exact L.
  - eapply steps_trans with (g, crash_unless (match a with None => true | _ => false end) CR_LIFECYCLE s).
    + destruct a; [|constructor]. apply steps_one. apply P_crash. intros K. apply Ha; [discriminate|exact K|reflexivity].
    + apply steps_one. apply P_disconnection. intros _. destruct a; [|exact L]. cbn [crash_unless]. rewrite crash_eq. exact L.
Qed.
Lemma emit_final0_steps g e s : steps (g, s) (g, emit_final e None None s).
Proof. apply emit_final_steps; intros H; contradiction. Qed.
(** everything but the lifecycle state and the trace is as before *)
Definition lists (s : client) := (queued s, curop s, wc s, unacked s, table s, pq s, next_id s, uid s, c_man s, tokens s, c_sta s, c_neg s, c_enc s).
Lemma emit_final_lists e a d s : lists (emit_final e a d s) = lists s.
Proof.
  unfold emit_final. destruct (life s); [reflexivity| |].
  - destruct d; cbn [crash_unless]; [rewrite crash_eq|]; reflexivity.
  - destruct a; cbn [crash_unless]; [rewrite crash_eq|]; reflexivity.
Qed.
Definition no_life (p : dstate * cstate * lstate * bool * chstate * bool * bool * bool) :=
  let '(d, c, _, sl, ch, i, h, r) := p in (d, c, LS_NONE, sl, ch, i, h, r).
Lemma emit_final_phase e a d s : phase (emit_final e a d s) = no_life (phase s).
Proof.
  unfold emit_final. destruct (life s) eqn:L; [unfold phase; rewrite L; reflexivity| |].
  - destruct d; cbn [crash_unless]; [rewrite crash_eq|]; unfold phase; rewrite ?L; reflexivity.
  - destruct a; cbn [crash_unless]; [rewrite crash_eq|]; unfold phase; rewrite ?L; reflexivity.
Qed.
Lemma lists_resched s s' : resched s s' -> lists s' = lists s.
Proof. intros (s1 & t & (p & b & c & -> & _) & ->). reflexivity. Qed.
Lemma lists_reevaluate now s : lists (reevaluate cf now s) = lists s.
Proof. apply lists_resched, reevaluate_resched. Qed.
Lemma lists_crash r s : lists (crash r s) = lists s.
Proof. rewrite crash_eq. reflexivity. Qed.
Lemma lists_crash_unless b r s : lists (crash_unless b r s) = lists s.
Proof. destruct b; [reflexivity|apply lists_crash]. Qed.

Lemma ecs_steps g now s : calm g s -> (current s = CONNECTING \/ (sending (current s) = true /\ life s = LS_NONE)) -> steps (g, s) (g, enter_channel_shutdown cf now s).
Proof.
  intros Hcalm H. unfold enter_channel_shutdown. destruct (cstate_eqb (current s) CHANNEL_SHUTDOWN) eqn:E; [constructor|].
  replace (match current s with MQTT_CONNECT | CONNECTING | CONNECTED | CLEAN_DISCONNECT => true | _ => false end) with true
    by (destruct H as [-> |[H _]]; [reflexivity|destruct (current s); try discriminate H; reflexivity]).
  cbn [crash_unless]. eapply steps_trans; [|apply steps_reevaluate]. apply steps_one.
  apply (prim_state g s CHANNEL_SHUTDOWN); [discriminate|intros _; exact H|intros _; exact Hcalm|discriminate|discriminate].
Qed.
Lemma ecs_lists now s : lists (enter_channel_shutdown cf now s) = lists s.
Proof.
  unfold enter_channel_shutdown. destruct (cstate_eqb (current s) CHANNEL_SHUTDOWN) eqn:E; [reflexivity|].
  rewrite lists_reevaluate. match goal with |- lists (set_current _ ?x) = _ => change (lists (set_current CHANNEL_SHUTDOWN x)) with (lists x) end.
  apply lists_crash_unless.
Qed.
Definition to_shutdown (p : dstate * cstate * lstate * bool * chstate * bool * bool * bool) :=
  let '(d, _, l, sl, ch, i, h, r) := p in (d, CHANNEL_SHUTDOWN, l, sl, ch, i, h, r).
Lemma ecs_phase now s : phase (enter_channel_shutdown cf now s) = to_shutdown (phase s).
Proof.
  unfold enter_channel_shutdown. destruct (cstate_eqb (current s) CHANNEL_SHUTDOWN) eqn:E.
  - unfold phase. destruct (current s); try discriminate E. reflexivity.
  - rewrite phase_reevaluate.
    match goal with |- phase (set_current _ (crash_unless ?b ?r s)) = _ => pose proof (phase_crash_unless b r s) as H;
      set (x := crash_unless b r s) in * end.
    unfold phase, to_shutdown in *. injection H; intros. nrm. congruence.
Qed.
Definition cutp (p : dstate * cstate * lstate * bool * chstate * bool * bool * bool) :=
  let '(d, c, _, sl, ch, i, h, r) := p in (d, (if sending c && sl then CHANNEL_SHUTDOWN else c), LS_NONE, sl, ch, i, h, r).
Lemma shutdown_steps g now e s : calm g s -> steps (g, s) (g, shutdown_channel cf now e s).
Proof.
  intros Hcalm.
  unfold shutdown_channel. set (e' := match e with K_SUCCESS => K_UNKNOWN | _ => e end). eapply steps_trans; [apply (emit_final0_steps g e')|].
  pose proof (emit_final_phase e' None None s) as Hl. unfold phase, no_life in Hl. injection Hl as _ Hcu Hl _ _ _ _ _.
  set (s1 := emit_final e' None None s) in *. destruct (current s1) eqn:E; try constructor.
  all: destruct (slot s1); [|constructor]; cbn [negb].
  all: eapply steps_snoc; [apply ecs_steps; [intros Hx; apply Hcalm; congruence|right; split; [rewrite E; reflexivity|exact Hl]]|apply prim_emit; [reflexivity|intros _; right; reflexivity]].
Qed.
Lemma shutdown_lists now e s : lists (shutdown_channel cf now e s) = lists s.
Proof.
  unfold shutdown_channel. set (e' := match e with K_SUCCESS => K_UNKNOWN | _ => e end). rewrite <- (emit_final_lists e' None None s).
  set (s1 := emit_final e' None None s). destruct (current s1); try reflexivity.
  all: destruct (slot s1); [|reflexivity]; cbn [negb].
  all: change (lists (emit ?x ?y)) with (lists y); apply ecs_lists.
Qed.
Lemma shutdown_phase now e s : phase (shutdown_channel cf now e s) = cutp (phase s).
Proof.
  unfold shutdown_channel. set (e' := match e with K_SUCCESS => K_UNKNOWN | _ => e end). pose proof (emit_final_phase e' None None s) as H.
  set (s1 := emit_final e' None None s) in *. clearbody s1. unfold phase, no_life in H. injection H as H1 H2 H3 H4 H5 H6 H7 H8.
  rewrite H2, H4. unfold cutp, phase at 2.
  destruct (current s) eqn:C; cbn [sending andb]; unfold phase; try congruence.
  all: destruct (slot s) eqn:SL; [|unfold phase; cbn [negb]; congruence]; cbn [negb].
  all: pose proof (ecs_phase now s1) as HE; unfold phase, to_shutdown in HE; injection HE; intros; unfold phase; nrm; congruence.
Qed.

(** ** Statistics *)
Lemma encoded_size_pos p n : get_encoded_size p = Ok n -> n <> 0.
Proof.
  assert (forall x m, packet_size x = Ok m -> m <> 0) as H.
  { intros x m. unfold packet_size. destruct (vli_size x); cbn [bind]; [|discriminate]. intros E. injection E as <-. lia. }
  assert (forall A (r : res (N * A)) m, (do x <- r; packet_size (fst x)) = Ok m -> m <> 0) as H2.
  { intros A r m. destruct r; cbn [bind]; [apply H|discriminate]. }
  destruct p; cbn [get_encoded_size]; try discriminate; try apply H2. intros E. injection E as <-. discriminate.
Qed.
(** op_size as the statistics code sees it *)
Definition size_of (o : op) : res N := if op_size o =? 0 then get_encoded_size (op_packet o) else Ok (op_size o).
Lemma size_of_pos o n : size_of o = Ok n -> n <> 0.
Proof. unfold size_of. destruct (N.eqb_spec (op_size o) 0); [apply encoded_size_pos|]. intros E. injection E as <-. assumption. Qed.
Definition move (was now : bool) (n b size : N) : N * N :=
  if Bool.eqb was now then (n, b) else if now then (add64 n 1, add64 b size) else (sub64 n 1, sub64 b size).
Definition new_sta (inc una : bool) (o : op) (size : N) (x : sta) : sta :=
  let i := move (op_inc o) inc (st_inc_n x) (st_inc_b x) size in
  let u := move (op_una o) una (st_una_n x) (st_una_b x) size in
  mksta (fst i) (snd i) (fst u) (snd u).
Lemma set_sta_id s : set_c_sta (c_sta s) s = s.
Proof. destruct s; reflexivity. Qed.
Lemma change_statistics_eq inc una o s : change_statistics inc una o s =
  (if negb (is_request (op_packet o)) then (o, s) else
   match size_of o with
   | Err _ => (o, s)
   | Ok size => (set_stat inc una size o, set_c_sta (new_sta inc una o size (c_sta s)) s)
   end).
Proof.
  unfold change_statistics. destruct (is_request (op_packet o)); [|reflexivity]. cbn [negb]. fold (size_of o).
  destruct (size_of o) as [size|e] eqn:E; [|reflexivity]. apply size_of_pos in E.
  destruct (N.eqb_spec size 0) as [|_]; [contradiction|]. cbn [negb crash_unless]. f_equal. unfold new_sta, move.
  destruct s as [? ? ? ? ? [? ? ? ?] ? ? ? ? ? ?].
  destruct (Bool.eqb (op_inc o) inc), (Bool.eqb (op_una o) una), inc, una; reflexivity.
Qed.
Lemma cs_shape inc una o s : exists x, snd (change_statistics inc una o s) = set_c_sta x s.
Proof.
  rewrite change_statistics_eq. destruct (negb _); [exists (c_sta s); symmetry; apply set_sta_id|].
  destruct (size_of o); [eexists; reflexivity|exists (c_sta s); symmetry; apply set_sta_id].
Qed.
Lemma cs_uid inc una o s : op_uid (fst (change_statistics inc una o s)) = op_uid o.
Proof. rewrite change_statistics_eq. destruct (negb _); [reflexivity|]. destruct (size_of o); reflexivity. Qed.
Lemma cs_packet inc una o s : op_packet (fst (change_statistics inc una o s)) = op_packet o.
Proof. rewrite change_statistics_eq. destruct (negb _); [reflexivity|]. destruct (size_of o); reflexivity. Qed.
Lemma cs_owner inc una o s : op_owner (fst (change_statistics inc una o s)) = op_owner o.
Proof. rewrite change_statistics_eq. destruct (negb _); [reflexivity|]. destruct (size_of o); reflexivity. Qed.
Lemma cs_settled o s : settled (fst (change_statistics false false o s)).
Proof.
  rewrite change_statistics_eq. unfold settled. destruct (is_request (op_packet o)) eqn:R; cbn [negb]; [|left; exact R]. right.
  unfold size_of. destruct (N.eqb_spec (op_size o) 0) as [Z|Z].
  - destruct (get_encoded_size (op_packet o)) as [size|e] eqn:E; cbn [fst]; [left; auto|right]. split; [exact Z|exists e; exact E].
  - left; auto.
Qed.
Lemma phase_cs inc una o s : phase (snd (change_statistics inc una o s)) = phase s.
Proof. destruct (cs_shape inc una o s) as [x ->]. reflexivity. Qed.

(** ** Completing operations *)
Definition lists2 (s : client) := (queued s, curop s, wc s, unacked s, table s, next_id s, uid s, c_man s, tokens s, (c_neg s, c_enc s)).
Lemma lists_lists2 s s' : lists s' = lists s -> lists2 s' = lists2 s.
Proof. unfold lists, lists2. intros E. injection E; intros. congruence. Qed.
Lemma lists_pq s s' : lists s' = lists s -> pq s' = pq s.
Proof. unfold lists. intros E. injection E; auto. Qed.
Lemma complete_lists2 now o e ack s : lists2 (complete cf now o e ack s) = lists2 s.
Proof.
  unfold complete. destruct (cs_shape false false o s) as [x Hx]. destruct (change_statistics false false o s) as [o' s1]. cbn [snd] in Hx. subst s1.
  change (lists2 (emit ?a ?b)) with (lists2 b). destruct (is_disconnect (op_packet o')); [|reflexivity].
  rewrite (lists_lists2 _ _ (shutdown_lists now _ _)). reflexivity.
Qed.
Lemma complete_pq now o e ack s : pq (complete cf now o e ack s) = filter (fun x => negb (snd x =? op_uid o)) (pq s).
Proof.
  unfold complete. pose proof (cs_uid false false o s) as Hu. destruct (cs_shape false false o s) as [x Hx].
  destruct (change_statistics false false o s) as [o' s1]. cbn [snd fst] in *. subst s1. rewrite Hu.
  change (pq (emit ?a ?b)) with (pq b). destruct (is_disconnect (op_packet o')); [|reflexivity].
  rewrite (lists_pq _ _ (shutdown_lists now _ _)). reflexivity.
Qed.
Lemma complete_phase now o e ack s :
  phase (complete cf now o e ack s) = if is_disconnect (op_packet o) then cutp (phase s) else phase s.
Proof.
  unfold complete. pose proof (cs_packet false false o s) as Hp. destruct (cs_shape false false o s) as [x Hx].
  destruct (change_statistics false false o s) as [o' s1]. cbn [snd fst] in *. subst s1. rewrite Hp.
  change (phase (emit ?a ?b)) with (phase b). destruct (is_disconnect (op_packet o)); [|reflexivity].
  rewrite shutdown_phase. reflexivity.
Qed.
(** the trace of what completing does *)
Definition adds (s s' : client) : Prop := exists d, c_out s' = d ++ c_out s /\ Forall (fun x => is_attempt x = false) d.
Lemma adds_refl s s' : c_out s' = c_out s -> adds s s'.
Proof. intros E. exists []. split; [exact E|constructor]. Qed.
Lemma adds_one x s s' : c_out s' = x :: c_out s -> is_attempt x = false -> adds s s'.
Proof. intros E H. exists [x]. split; [exact E|repeat constructor; exact H]. Qed.
Lemma adds_trans a b c : adds a b -> adds b c -> adds a c.
Proof. intros (d & E & H) (d' & E' & H'). exists (d' ++ d). rewrite E', E, app_assoc. split; [reflexivity|apply Forall_app; split; assumption]. Qed.
Lemma crash_out r s : c_out (crash r s) = c_out s.
Proof. unfold crash. destruct (c_crash s); reflexivity. Qed.
Lemma adds_crash b r s : adds s (crash_unless b r s).
Proof. apply adds_refl. unfold crash_unless. destruct b; [reflexivity|apply crash_out]. Qed.
Lemma hush_out s s' : hush s s' -> c_out s' = c_out s.
Proof. intros [H _]. exact (f_equal snd H). Qed.
Lemma quiet_out s s' : quiet s s' -> c_out s' = c_out s.
Proof. intros [H _]. exact (f_equal snd H). Qed.
Lemma emit_final_adds e ack dis s : adds s (emit_final e ack dis s).
Proof.
  unfold emit_final. destruct (life s); [apply adds_refl; reflexivity| |]; (eapply adds_trans; [apply adds_crash|eapply adds_one; reflexivity]).
Qed.
Lemma shutdown_adds now e s : adds s (shutdown_channel cf now e s).
Proof.
  unfold shutdown_channel. match goal with |- adds s (match current ?x with _ => _ end) => assert (adds s x) as H0 by apply emit_final_adds; generalize dependent x end.
  intros s1 H0. eapply adds_trans; [exact H0|]. clear s H0. rename s1 into s.
  assert (adds s (emit (O_SHUTDOWN match e with K_SUCCESS => K_UNKNOWN | _ => e end) (enter_channel_shutdown cf now s))) as H.
  { eapply adds_trans; [|eapply adds_one; reflexivity]. unfold enter_channel_shutdown. destruct (cstate_eqb (current s) CHANNEL_SHUTDOWN); [apply adds_refl; reflexivity|].
    eapply adds_trans; [apply adds_crash|]. apply adds_refl. rewrite (quiet_out _ _ (reevaluate_quiet now _)). reflexivity. }
  destruct (current s); try (apply adds_refl; reflexivity); destruct (negb (slot s)); first [exact H|apply adds_refl; reflexivity].
Qed.
Lemma complete_adds now o e ack s : adds s (complete cf now o e ack s).
Proof.
  unfold complete. destruct (cs_shape false false o s) as [x Hx]. destruct (change_statistics false false o s) as [o' s1]. cbn [snd fst] in *. subst s1.
  eapply adds_trans; [|eapply adds_one; reflexivity]. destruct (is_disconnect (op_packet o')); [|apply adds_refl; reflexivity].
  eapply adds_trans; [|apply shutdown_adds]. apply adds_refl. reflexivity.
Qed.
Lemma sent_here_more o t d l : sent_here o t l -> Forall (fun x => is_attempt x = false) d -> sent_here o t (d ++ l).
Proof. intros (x & y & -> & H & Hc) Hd. exists (d ++ x), y. rewrite app_assoc. split; [reflexivity|]. split; [apply Forall_app; split; assumption|exact Hc]. Qed.
Lemma drop_more l d e o : may_drop cf l e o -> Forall (fun x => is_attempt x = false) d -> may_drop cf (d ++ l) e o.
Proof.
  unfold may_drop. destruct e; try tauto. intros (H & o' & t & Hs & Hu) Hd. split; [exact H|]. exists o', t. split; [apply sent_here_more; assumption|exact Hu].
Qed.
Lemma drop_finish s o e : may_drop cf (c_out s) e o -> may_finish cf s o e None.
Proof. unfold may_drop, may_finish. destruct e; try tauto; auto. Qed.
Lemma cs_deadline inc una o s : op_deadline (fst (change_statistics inc una o s)) = op_deadline o.
Proof.
  unfold change_statistics. repeat (match goal with |- context [if ?b then _ else _] => destruct b
    | |- context [match ?x with _ => _ end] => destruct x end; try reflexivity).
Qed.
Lemma complete_steps g now o h e ack s : g_hand g = o :: h -> (is_disconnect (op_packet o) = true -> calm g s) ->
  may_drop cf (c_out s) e o /\ ack = None \/ is_disconnect (op_packet o) = false /\ (ok s -> may_finish cf s o e ack) ->
  steps (g, s) (with_hand h g, complete cf now o e ack s).
Proof.
  intros Hg Hcalm He. unfold complete. pose proof (cs_settled o s) as Hse. pose proof (cs_uid false false o s) as Hu.
  pose proof (cs_packet false false o s) as Hp. destruct (cs_shape false false o s) as [x Hx].
  eapply steps_cons; [apply (P_statistics cf g s o h false false Hg)|].
  destruct (change_statistics false false o s) as [o' s1]. cbn [snd fst] in *.
  eapply steps_cons; [apply (P_forget cf _ s1 (op_uid o')); intros _; left; exists o', h; split; reflexivity|].
  set (s2 := set_pq _ s1). set (g2 := with_hand (o' :: h) g).
  assert (forall s3, lists s3 = lists s2 -> (ok s3 -> may_finish cf s3 o' e ack) -> prim (g2, s3) (with_hand h g, emit (O_DONE o' e ack) s3)) as Hd.
  { intros s3 E3 Hm. change (with_hand h g) with (with_hand h g2). apply P_done; [reflexivity|].
    intros Hok. split; [|split; [assumption|exact (Hm Hok)]]. unfold not_in_pq. rewrite (lists_pq _ _ E3).
    change (pq s2) with (filter (fun x => negb (snd x =? op_uid o')) (pq s1)). apply Forall_forall. intros y Hy.
    apply filter_In in Hy as [_ Hy]. destruct (N.eqb_spec (snd y) (op_uid o')); [discriminate|assumption]. }
  assert (forall s3, adds s2 s3 -> may_drop cf (c_out s) e o -> ack = None -> may_finish cf s3 o' e ack) as Hdrop.
  { intros s3 (d & Ed & Hda) M ->. apply drop_finish. rewrite Ed. apply drop_more; [|exact Hda]. subst s1. unfold may_drop in *. rewrite Hp, Hu. exact M. }
  rewrite Hp. destruct (is_disconnect (op_packet o)).
  - destruct He as [[M A]|[? _]]; [|discriminate]. eapply steps_trans; [apply shutdown_steps; unfold s2; subst s1; exact (Hcalm eq_refl)|]. apply steps_one.
    apply Hd; [apply shutdown_lists|]. intros _. apply Hdrop; [apply shutdown_adds|assumption|assumption].
  - apply steps_one. apply Hd; [reflexivity|]. intros Hok. destruct He as [[M A]|[_ M]]; [apply Hdrop; [apply adds_refl; reflexivity|assumption|assumption]|].
    subst s1. specialize (M Hok). unfold may_finish in *. rewrite Hp, Hu. exact M.
Qed.
Lemma complete_list_lists2 now l e : forall s, lists2 (complete_list cf now l e s) = lists2 s.
Proof.
  induction l as [|o l IH]; intros s; [reflexivity|]. unfold complete_list in *. cbn [fold_left]. rewrite IH. apply complete_lists2.
Qed.
Lemma complete_calm g h now o e ack s : calm g s -> calm (with_hand h g) (complete cf now o e ack s).
Proof.
  intros H C. apply H. pose proof (complete_phase now o e ack s) as P. destruct (is_disconnect (op_packet o)).
  - unfold phase, cutp in P. injection P; intros. destruct (current s), (slot s); cbn in *; congruence.
  - unfold phase in P. injection P; intros. congruence.
Qed.
Lemma complete_list_steps now l e : forall g s h, g_hand g = l ++ h -> calm g s \/ Forall (fun o => is_disconnect (op_packet o) = false) l ->
  Forall (may_drop cf (c_out s) e) l -> steps (g, s) (with_hand h g, complete_list cf now l e s).
Proof.
  induction l as [|o l IH]; intros g s h Hg Hcalm He.
  - cbn [app] in Hg. unfold complete_list. cbn [fold_left]. destruct g as [hd c b k]. cbn [g_hand] in Hg. subst hd. constructor.
  - unfold complete_list in *. cbn [fold_left]. cbn [app] in Hg. eapply steps_trans.
    + apply (complete_steps g now o (l ++ h) e None s Hg); [|left; inversion He; auto]. destruct Hcalm as [H|H]; [auto|]. inversion H; congruence.
    + change (with_hand h g) with (with_hand h (with_hand (l ++ h) g)). apply IH; [reflexivity|destruct Hcalm as [H|H]; [left; apply complete_calm; exact H|right; inversion H; assumption]|]. destruct (complete_adds now o e None s) as (d & -> & Hd).
      apply Forall_inv_tail in He. eapply Forall_impl; [|exact He]. intros o1 Ho1. apply drop_more; assumption.
Qed.
Definition cut (s s' : client) : Prop := phase s' = phase s \/ phase s' = cutp (phase s).
Lemma cutp_idem p : cutp (cutp p) = cutp p.
Proof. destruct p as [[[[[[[d c] l] sl] ch] i] h] r]. unfold cutp. destruct c, sl; reflexivity. Qed.
Lemma cut_refl s : cut s s. Proof. left; reflexivity. Qed.
Lemma cut_trans a b c : cut a b -> cut b c -> cut a c.
Proof. unfold cut. intros [H1|H1] [H2|H2]; rewrite H2, H1; auto. right. apply cutp_idem. Qed.
Lemma complete_cut now o e ack s : cut s (complete cf now o e ack s).
Proof. unfold cut. rewrite complete_phase. destruct (is_disconnect _); auto. Qed.
Lemma complete_list_cut now l e : forall s, cut s (complete_list cf now l e s).
Proof.
  induction l as [|o l IH]; intros s; [apply cut_refl|]. unfold complete_list in *. cbn [fold_left].
  eapply cut_trans; [apply complete_cut|apply IH].
Qed.
Lemma complete_list_phase now l e : forall s, Forall (fun o => is_disconnect (op_packet o) = false) l ->
  phase (complete_list cf now l e s) = phase s.
Proof.
  induction l as [|o l IH]; intros s H; [reflexivity|]. unfold complete_list in *. cbn [fold_left]. inversion H as [|? ? Ho Hl]; subst.
  rewrite IH by assumption. rewrite complete_phase, Ho. reflexivity.
Qed.

Lemma lists2_inv s s' : lists2 s' = lists2 s ->
  queued s' = queued s /\ curop s' = curop s /\ wc s' = wc s /\ unacked s' = unacked s /\ table s' = table s /\ next_id s' = next_id s /\
  uid s' = uid s /\ c_man s' = c_man s /\ tokens s' = tokens s /\ c_neg s' = c_neg s /\ c_enc s' = c_enc s.
Proof. unfold lists2. intros E. injection E; intros. repeat split; assumption. Qed.
Lemma phase_inv s s' : phase s' = phase s -> desired s' = desired s /\ current s' = current s /\ life s' = life s /\ slot s' = slot s /\
  chan s' = chan s /\ in_service s' = in_service s /\ has_conn s' = has_conn s /\ should_reset s' = should_reset s.
Proof. unfold phase. intros E. injection E; intros. repeat split; assumption. Qed.
Lemma cut_inv s s' : cut s s' -> desired s' = desired s /\
  (current s' = current s \/ sending (current s) = true /\ slot s = true /\ current s' = CHANNEL_SHUTDOWN /\ life s' = LS_NONE) /\
  (life s' = life s \/ life s' = LS_NONE) /\ slot s' = slot s /\
  chan s' = chan s /\ in_service s' = in_service s /\ has_conn s' = has_conn s /\ should_reset s' = should_reset s.
Proof.
  intros [E|E]; unfold phase in E.
  - injection E; intros. repeat split; auto.
  - unfold cutp in E. injection E; intros. split; [assumption|]. split; [|repeat split; auto].
    destruct (sending (current s)); [|auto]. destruct (slot s); [|auto]. auto.
Qed.
Lemma down_cut g s s' : cut s s' -> down g s -> down g s'.
Proof.
  intros H [D|D]; [left; exact D|]. right. apply cut_inv in H as (_ & [-> | (Hs & _)] & _); [exact D|congruence].
Qed.
Lemma down_link g g' s : g_link g' = g_link g -> down g s -> down g' s.
Proof. unfold down. intros ->. auto. Qed.

Lemma down_calm g s : down g s -> calm g s.
Proof. intros [D|D] C v; [congruence|]. rewrite C in D. discriminate D. Qed.

Lemma opreset_steps b k now e s : (forall l o, may_drop cf l e o) -> down (mkg [] false b k) s ->
  steps (mkg [] false b k, s) (mkg [] false b k, operational_reset cf now e s).
Proof.
  intros He Hd. unfold operational_reset.
  eapply steps_cons.
  { apply (P_take_queued cf (mkg [] false b k) s (queued s) []); intros _; [split; [rewrite app_nil_r; apply Permutation_refl|exact Hd]|right; reflexivity]. }
  cbn [with_hand g_hand]. eapply steps_trans.
  { apply (complete_list_steps now (queued s) e (mkg (queued s ++ []) false b k) _ []); [reflexivity|left; eapply down_calm; exact Hd|]. apply Forall_forall. intros; apply He. }
  pose proof (complete_list_cut now (queued s) e (set_queued [] s)) as C1.
  set (s1 := complete_list cf now (queued s) e (set_queued [] s)) in *.
  eapply steps_cons; [apply P_take_wc|]. eapply steps_trans.
  { apply (complete_list_steps now (wc s1) e _ _ []); [reflexivity|left; eapply down_calm; eapply down_cut; [exact C1|exact Hd]|]. apply Forall_forall. intros; apply He. }
  pose proof (complete_list_cut now (wc s1) e (set_wc [] s1)) as C2.
  set (s2 := complete_list cf now (wc s1) e (set_wc [] s1)) in *.
  eapply steps_cons; [apply P_begin_clear|]. eapply steps_cons.
  { apply P_reset_unacked. intros _. split; [reflexivity|]. eapply down_cut; [exact C2|].
    change (down (with_clearing true (with_hand [] (with_hand (wc s1 ++ []) (mkg [] false b k)))) (set_wc [] s1)) with (down (mkg [] true b k) s1).
    eapply down_cut; [exact C1|]. exact Hd. }
  eapply steps_trans.
  { apply (complete_list_steps now (unacked s2) e _ _ []); [reflexivity|left; eapply down_calm; eapply down_cut; [exact C2|]; eapply (down_cut _ (set_queued [] s)); [exact C1|exact Hd]|]. apply Forall_forall. intros; apply He. }
  pose proof (complete_list_cut now (unacked s2) e (set_unacked [] s2)) as C3.
  set (s3 := complete_list cf now (unacked s2) e (set_unacked [] s2)) in *.
  assert (down (mkg [] false b k) s3) as Hd3.
  { eapply down_cut; [exact C3|]. change (down (mkg [] false b k) s2). eapply down_cut; [exact C2|].
    change (down (mkg [] false b k) s1). eapply down_cut; [exact C1|]. exact Hd. }
  eapply steps_cons; [apply P_end_clear; intros _; exact Hd3|]. apply steps_one. apply P_cancel_manual. intros _. exact Hd3.
Qed.
Lemma reset_manual_lists s : queued (reset_manual s) = queued s /\ curop (reset_manual s) = curop s /\ wc (reset_manual s) = wc s /\
  unacked (reset_manual s) = unacked s /\ table (reset_manual s) = table s /\ pq (reset_manual s) = pq s /\ phase (reset_manual s) = phase s.
Proof. unfold reset_manual. destruct (mc s); repeat split; reflexivity. Qed.
Lemma reset_manual_mc s : mc (reset_manual s) = [].
Proof. unfold reset_manual. destruct (mc s) eqn:E; [exact E|reflexivity]. Qed.
Lemma opreset_lists now e s : let s' := operational_reset cf now e s in
  queued s' = [] /\ curop s' = curop s /\ wc s' = [] /\ unacked s' = [] /\ table s' = [] /\ pq s' = [] /\ mc s' = [].
Proof.
  cbv zeta. unfold operational_reset.
  pose proof (lists2_inv _ _ (complete_list_lists2 now (queued s) e (set_queued [] s))) as H1.
  set (s1 := complete_list cf now (queued s) e (set_queued [] s)) in *. clearbody s1.
  pose proof (lists2_inv _ _ (complete_list_lists2 now (wc s1) e (set_wc [] s1))) as H2.
  set (s2 := complete_list cf now (wc s1) e (set_wc [] s1)) in *. clearbody s2.
  pose proof (lists2_inv _ _ (complete_list_lists2 now (unacked s2) e (set_unacked [] s2))) as H3.
  set (s3 := complete_list cf now (unacked s2) e (set_unacked [] s2)) in *. clearbody s3.
  pose proof (reset_manual_mc (set_table [] (set_pq [] s3))) as E0.
  destruct (reset_manual_lists (set_table [] (set_pq [] s3))) as (E1 & E2 & E3 & E4 & E5 & E6 & _).
  generalize dependent (reset_manual (set_table [] (set_pq [] s3))). intros s4 E0 E1 E2 E3 E4 E5 E6. rewrite E1, E2, E3, E4, E5, E6.
  nrm. intuition congruence.
Qed.
Lemma opreset_cut now e s : cut s (operational_reset cf now e s).
Proof.
  unfold operational_reset.
  pose proof (complete_list_cut now (queued s) e (set_queued [] s)) as H1.
  set (s1 := complete_list cf now (queued s) e (set_queued [] s)) in *. clearbody s1.
  pose proof (complete_list_cut now (wc s1) e (set_wc [] s1)) as H2.
  set (s2 := complete_list cf now (wc s1) e (set_wc [] s1)) in *. clearbody s2.
  pose proof (complete_list_cut now (unacked s2) e (set_unacked [] s2)) as H3.
  set (s3 := complete_list cf now (unacked s2) e (set_unacked [] s2)) in *. clearbody s3.
  destruct (reset_manual_lists (set_table [] (set_pq [] s3))) as (_ & _ & _ & _ & _ & _ & E).
  eapply cut_trans; [exact H1|]. eapply cut_trans; [exact H2|]. eapply cut_trans; [exact H3|]. left. exact E.
Qed.

(** ** Stopping *)
Lemma enter_stopped_steps b now s : cleared cf s -> life s = LS_NONE ->
  steps (mkg [] false b DEAD, s) (mkg [] false b DEAD, enter_stopped cf now s).
Proof.
  intros Hc Hl. unfold enter_stopped. destruct (cstate_eqb (current s) STOPPED) eqn:E; [constructor|].
  eapply steps_cons; [apply (prim_state _ s STOPPED); [discriminate|intros _; split; assumption|intros _ _; discriminate|reflexivity|discriminate]|].
  eapply steps_trans; [apply (opreset_steps b DEAD now K_USER_REQUESTED_STOP); [intros; exact I|right; reflexivity]|].
  pose proof (opreset_lists now K_USER_REQUESTED_STOP (set_current STOPPED s)) as HL.
  pose proof (opreset_cut now K_USER_REQUESTED_STOP (set_current STOPPED s)) as HC.
  generalize dependent (operational_reset cf now K_USER_REQUESTED_STOP (set_current STOPPED s)). intros s1 HL HC.
  apply cut_inv in HC as (_ & HC & HF & _). destruct HL as (L1 & L2 & L3 & L4 & _). destruct Hc as (Hcur & _).
  assert (current s1 = STOPPED) as HC' by (destruct HC as [HC|(HC & _)]; [exact HC|discriminate HC]).
  eapply steps_cons; [apply (P_quiet cf _ s1 (set_has_conn false s1)); [qh|intros _; change (c_tim (set_has_conn false s1)) with (c_tim s1); apply T_same|intros _; apply R_stop; [exact HC'|reflexivity]]|].
  eapply steps_trans; [|apply steps_reevaluate]. apply steps_one. apply P_stopped; [|reflexivity]. intros _.
  split; [exact HC'|].
  split; [destruct HF as [HF|HF]; [etransitivity; [exact HF|exact Hl]|exact HF]|].
  split; [|reflexivity]. repeat split; try assumption. etransitivity; [exact L2|exact Hcur].
Qed.
Lemma enter_stopped_rest now s : current s <> STOPPED -> at_rest (c_out (enter_stopped cf now s)).
Proof.
  intros H. unfold enter_stopped. destruct (cstate_eqb (current s) STOPPED) eqn:E; [destruct (current s); try discriminate E; congruence|].
  destruct (reevaluate_quiet now (emit (O_LIFE STOPPED_EVENT) (set_has_conn false (operational_reset cf now K_USER_REQUESTED_STOP (set_current STOPPED s))))) as [Hc _].
  apply (f_equal snd) in Hc. cbn [core snd] in Hc. rewrite Hc. reflexivity.
Qed.
Definition stopped_phase (p : dstate * cstate * lstate * bool * chstate * bool * bool * bool) :=
  let '(d, c, l, sl, ch, i, h, r) := p in match c with STOPPED => p | _ => (d, STOPPED, l, sl, ch, i, false, r) end.
Lemma phase_emit x s : phase (emit x s) = phase s. Proof. reflexivity. Qed.
Lemma lists_emit x s : lists (emit x s) = lists s. Proof. reflexivity. Qed.
Lemma enter_stopped_phase now s : life s = LS_NONE -> phase (enter_stopped cf now s) = stopped_phase (phase s).
Proof.
  intros Hl. unfold enter_stopped. destruct (cstate_eqb (current s) STOPPED) eqn:C.
  - unfold phase, stopped_phase. destruct (current s); try discriminate C. reflexivity.
  - rewrite phase_reevaluate, phase_emit.
    pose proof (opreset_cut now K_USER_REQUESTED_STOP (set_current STOPPED s)) as HC.
    generalize dependent (operational_reset cf now K_USER_REQUESTED_STOP (set_current STOPPED s)). intros s1 HC.
    apply cut_inv in HC as (H1 & H2 & H3 & H4 & H5 & H6 & H7 & H8).
    destruct H2 as [H2|(H2 & _)]; [|discriminate H2].
    assert (life s1 = LS_NONE) as H3' by (destruct H3 as [H3|H3]; [rewrite H3; exact Hl|exact H3]).
    transitivity (desired s1, current s1, life s1, slot s1, chan s1, in_service s1, false, should_reset s1); [reflexivity|].
    rewrite H1, H2, H3', H4, H5, H6, H8. unfold stopped_phase, phase. rewrite Hl. destruct (current s); try discriminate C; reflexivity.
Qed.
Lemma lists_cleared s s' : lists s' = lists s -> cleared cf s -> cleared cf s'.
Proof.
  unfold lists, cleared. intros E. injection E as E1 E2 E3 E4 E5 E6 E7 E8 E9 E10 E11 E12 E13. unfold mc. rewrite E1, E2, E3, E4, E5, E6, E9. auto.
Qed.
Lemma enter_stopped_cleared now s : cleared cf s -> cleared cf (enter_stopped cf now s).
Proof.
  intros Hc. unfold enter_stopped. destruct (cstate_eqb (current s) STOPPED); [assumption|].
  pose proof (opreset_lists now K_USER_REQUESTED_STOP (set_current STOPPED s)) as HL.
  generalize dependent (operational_reset cf now K_USER_REQUESTED_STOP (set_current STOPPED s)). intros s1 HL.
  eapply lists_cleared; [apply lists_reevaluate|]. eapply lists_cleared; [apply lists_emit|].
  destruct HL as (L1 & L2 & L3 & L4 & L5 & L6 & L7). destruct Hc as (Hcur & _).
  assert (cleared cf s1) as H.
  { unfold cleared. rewrite L1, L2, L3, L4, L5, L6, L7. repeat split; try constructor. exact Hcur. }
  exact H.
Qed.

(** ** Disconnecting cleanly *)
Lemma ecd_steps g now s : calm g s -> current s = MQTT_CONNECT \/ current s = CONNECTED -> steps (g, s) (g, enter_clean_disconnect cf now s).
Proof.
  intros Hcalm H. unfold enter_clean_disconnect. destruct (cstate_eqb (current s) CLEAN_DISCONNECT) eqn:E; [constructor|].
  replace (match current s with MQTT_CONNECT | CONNECTED => true | _ => false end) with true by (destruct H as [-> | ->]; reflexivity).
  cbn [crash_unless]. eapply steps_trans; [|apply steps_reevaluate]. apply steps_one. apply (prim_state g s CLEAN_DISCONNECT); [discriminate|intros _; exact H|intros _; exact Hcalm|discriminate|discriminate].
Qed.
Definition to_clean (p : dstate * cstate * lstate * bool * chstate * bool * bool * bool) :=
  let '(d, _, l, sl, ch, i, h, r) := p in (d, CLEAN_DISCONNECT, l, sl, ch, i, h, r).
Lemma ecd_phase now s : phase (enter_clean_disconnect cf now s) = to_clean (phase s).
Proof.
  unfold enter_clean_disconnect. destruct (cstate_eqb (current s) CLEAN_DISCONNECT) eqn:E.
  - unfold phase. destruct (current s); try discriminate E. reflexivity.
  - rewrite phase_reevaluate.
    match goal with |- phase (set_current _ (crash_unless ?b ?r s)) = _ => pose proof (phase_crash_unless b r s) as H;
      set (x := crash_unless b r s) in * end.
    clearbody x. unfold phase, to_clean in *. injection H; intros. nrm. congruence.
Qed.
(** what a request to disconnect cleanly does to the state machine *)
Definition cleanp (p : dstate * cstate * lstate * bool * chstate * bool * bool * bool) :=
  let '(d, c, _, _, _, _, _, _) := p in match c with CONNECTED | MQTT_CONNECT => to_clean p | _ => cutp p end.
Lemma swd_phase now e o s : phase (shutdown_with_disconnect cf now e o s) = cleanp (phase s).
Proof.
  unfold shutdown_with_disconnect. unfold cleanp, phase at 2. destruct (current s) eqn:C; unfold phase at 2;
    try (rewrite shutdown_phase; change (phase (emit ?a ?b)) with (phase b); unfold phase; rewrite C; reflexivity).
  all: rewrite ecd_phase; unfold phase; nrm; reflexivity.
Qed.
Lemma shutdown_clean_phase now e r s : phase (shutdown_clean cf now e r s) = cleanp (phase s).
Proof. unfold shutdown_clean, new_op. rewrite swd_phase. reflexivity. Qed.
Lemma shutdown_clean_steps g now e r s : calm g s -> steps (g, s) (g, shutdown_clean cf now e r s).
Proof.
  intros Hcalm.
  unfold shutdown_clean, new_op, shutdown_with_disconnect. change (current (set_uid ?x s)) with (current s).
  set (v := mkdisconnect r None None [] None). destruct (current s) eqn:C.
  1,2,5,6,7,8: eapply steps_cons; [apply (P_drop_new cf g s v)|apply shutdown_steps; exact Hcalm].
  all: eapply steps_cons; [apply (prim_state g s CLEAN_DISCONNECT); [discriminate|intros _; cbn [edge]; auto|intros _; exact Hcalm|discriminate|discriminate]|].
  all: eapply steps_cons; [apply (P_push_front cf g (set_current CLEAN_DISCONNECT s) (P_DISCONNECT v)); [intros _; reflexivity|discriminate]|].
  all: eapply steps_trans; [apply (Q _ _ (set_clean_err e (push_front (P_DISCONNECT v) (set_current CLEAN_DISCONNECT s)))); qt|].
  all: unfold enter_clean_disconnect; change (current (set_clean_err e (set_queued ?a (set_uid ?b s)))) with (current s); rewrite C; cbn [cstate_eqb crash_unless].
  all: apply (steps_reevaluate g now (set_clean_err e (push_front (P_DISCONNECT v) (set_current CLEAN_DISCONNECT s)))).
Qed.
Lemma stop_with_disconnect_steps g now e v s : calm g s -> validate_disconnect v = true ->
  let o := op_new (uid s) BY_USER (P_DISCONNECT v) 0 in
  steps (g, s) (g, shutdown_with_disconnect cf now e o (emit (I_SUBMIT o) (set_uid (uid s + 1) s))).
Proof.
  intros Hcalm Hv. cbv zeta. unfold shutdown_with_disconnect. change (current (emit ?x (set_uid ?y s))) with (current s). destruct (current s) eqn:C.
  1,2,5,6,7,8: eapply steps_cons; [apply (P_drop_disconnect cf g s v); intros _; exact Hv|apply shutdown_steps; exact Hcalm].
  all: eapply steps_cons; [apply (prim_state g s CLEAN_DISCONNECT); [discriminate|intros _; cbn [edge]; auto|intros _; exact Hcalm|discriminate|discriminate]|].
  all: eapply steps_cons; [apply (P_push_disconnect cf g (set_current CLEAN_DISCONNECT s) v); intros _; split; [exact Hv|reflexivity]|].
  all: eapply steps_trans; [apply (Q _ _ (set_clean_err e (push_disconnect v (set_current CLEAN_DISCONNECT s)))); qt|].
  all: unfold enter_clean_disconnect; change (current (set_clean_err e (set_queued ?a (emit ?b (set_uid ?c s))))) with (current s); rewrite C; cbn [cstate_eqb crash_unless].
  all: apply (steps_reevaluate g now (set_clean_err e (push_disconnect v (set_current CLEAN_DISCONNECT s)))).
Qed.
End Decomp.
