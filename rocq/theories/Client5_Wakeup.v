(** The MQTT 5 client's service task is always scheduled in time for whatever it has to do next. *)
From Verif Require Import Base BaseLemmas Mqtt5_Views TopicAlias_Model Encoder5_Model Decoder5_Model RateLimiter_Model RateLimiter_Spec
  RateLimiter_Proofs Validate5_Model Negotiated_Model Client5_State Client5_Model Client5_Spec Client5_Steps Client5_Decomp Client5_Decomp2
  Client5_Forms Client5_Decomp3 Client5_Inv0 Client5_Flow Client5_Safety Client5_Decomp4 Client5_Ops Client5_Crash Client5_Conn Client5_Events Client5_Ids Client5_Timeouts Client5_Timing_Spec Client5_Backoff Client5_Pings.
From Coq Require Import Permutation.
Ltac Zify.zify_post_hook ::= idtac.

Section Wakeup.
Context (cf : config) (now0 : N).
Notation reach := (reach cf now0).
Notation prim := (prim cf).
Notation steps := (steps cf).
Notation sv := in_service.

(** ** Whether the service task is running *)
Lemma sv_phase s s' : phase s' = phase s -> sv s' = sv s.
Proof. intros H. apply phase_inv in H. tauto. Qed.
Lemma sv_re now s : sv (reevaluate cf now s) = sv s.
Proof. apply sv_phase, phase_reevaluate. Qed.
Lemma sv_cu b r s : sv (crash_unless b r s) = sv s.
Proof. apply sv_phase, phase_crash_unless. Qed.
Ltac ph H := let E := fresh in pose proof H as E; unfold phase, no_life, to_shutdown, cutp, to_clean, cleanp, to_pending in E;
  repeat match type of E with context [match ?x with _ => _ end] => destruct x end; injection E; intros; assumption.
Lemma sv_final e a d s : sv (emit_final e a d s) = sv s.
Proof. ph (emit_final_phase e a d s). Qed.
Lemma sv_ecs now s : sv (enter_channel_shutdown cf now s) = sv s.
Proof. ph (ecs_phase cf now s). Qed.
Lemma sv_shut now e s : sv (shutdown_channel cf now e s) = sv s.
Proof. ph (shutdown_phase cf now e s). Qed.
Lemma sv_cs inc una o s : sv (snd (change_statistics inc una o s)) = sv s.
Proof. apply sv_phase, phase_cs. Qed.
Lemma sv_complete now o e a s : sv (complete cf now o e a s) = sv s.
Proof. pose proof (complete_phase cf now o e a s) as H. destruct (is_disconnect (op_packet o)); ph H. Qed.
Lemma sv_list now l e : forall s, sv (complete_list cf now l e s) = sv s.
Proof. unfold complete_list. induction l as [|o l IH]; intros s; cbn [fold_left]; [reflexivity|]. rewrite IH. apply sv_complete. Qed.
Lemma sv_manual s : sv (reset_manual s) = sv s.
Proof. unfold reset_manual. destruct (mc s); reflexivity. Qed.
Lemma sv_opreset now e s : sv (operational_reset cf now e s) = sv s.
Proof. unfold operational_reset. rewrite sv_manual. change (sv (set_table ?a (set_pq ?b ?x))) with (sv x). rewrite sv_list. change (sv (set_unacked ?a ?x)) with (sv x). rewrite sv_list. change (sv (set_wc ?a ?x)) with (sv x). rewrite sv_list. reflexivity. Qed.
Lemma sv_stopped now s : sv (enter_stopped cf now s) = sv s.
Proof. unfold enter_stopped. destruct (cstate_eqb (current s) STOPPED); [reflexivity|]. rewrite sv_re. change (sv (emit ?a (set_has_conn ?b ?x))) with (sv x). rewrite sv_opreset. reflexivity. Qed.
Lemma sv_ecd now s : sv (enter_clean_disconnect cf now s) = sv s.
Proof. ph (ecd_phase cf now s). Qed.
Lemma sv_swd now e o s : sv (shutdown_with_disconnect cf now e o s) = sv s.
Proof. ph (swd_phase cf now e o s). Qed.
Lemma sv_clean now e r s : sv (shutdown_clean cf now e r s) = sv s.
Proof. ph (shutdown_clean_phase cf now e r s). Qed.
Lemma sv_pending ev s : sv (enter_pending_reconnect cf ev s) = sv s.
Proof. ph (enter_pending_phase cf ev s). Qed.
Lemma sv_disc now s : sv (on_disconnection cf now s) = sv s.
Proof.
  unfold on_disconnection. change (sv (set_c_alias ?a ?x)) with (sv x). rewrite sv_manual. change (sv (set_pq ?a (set_table ?b ?x))) with (sv x). rewrite sv_list. change (sv (set_unacked ?a ?x)) with (sv x).
  rewrite sv_list. change (sv (set_queued ?a ?x)) with (sv x). rewrite sv_list. change (sv (set_wc ?a ?x)) with (sv x). destruct (curop s); reflexivity.
Qed.
Lemma sv_gone ev err s : sv (channel_gone cf ev err s) = sv s.
Proof.
  unfold channel_gone. destruct (wants_connection _); [rewrite sv_pending|rewrite sv_stopped]; rewrite sv_disc; change (sv (set_slot ?a ?x)) with (sv x); apply sv_final.
Qed.
Lemma sv_mqtt_connect ev s : sv (enter_mqtt_connect cf ev s) = sv s.
Proof.
  unfold enter_mqtt_connect. destruct (cstate_eqb (current s) MQTT_CONNECT); [reflexivity|]. cbv zeta.
  match goal with |- context [crash_unless ?b ?r (crash_unless ?b2 ?r2 s)] => assert (sv (crash_unless b r (crash_unless b2 r2 s)) = sv s) as E by (rewrite !sv_cu; reflexivity); generalize dependent (crash_unless b r (crash_unless b2 r2 s)) end.
  intros s1 E. destruct (should_reset _); [rewrite sv_re, sv_shut; exact E|]. destruct (negb _); [rewrite sv_re, sv_shut; exact E|]. unfold new_op. cbv iota beta.
  match goal with |- sv (reevaluate _ _ (set_connack_to ?a ?x)) = _ => generalize a; assert (sv x = sv s) as F; [rewrite sv_re; exact E|generalize dependent x] end.
  intros x F a. rewrite sv_re. exact F.
Qed.
Lemma sv_up ev s : sv (channel_up cf ev s) = sv s.
Proof.
  unfold channel_up. match goal with |- context [crash_unless ?b ?r s] => pose proof (sv_cu b r s) as E; generalize dependent (crash_unless b r s) end. intros s1 E.
  destruct (negb _); [change (sv (emit ?a ?x)) with (sv x); rewrite sv_ecs; exact E|]. destruct (e_slot ev); [change (sv (emit ?a ?x)) with (sv x); rewrite sv_ecs; exact E|]. rewrite sv_mqtt_connect. exact E.
Qed.
Lemma sv_incomplete : forall l s, sv (snd (set_list_incomplete l s)) = sv s.
Proof.
  induction l as [|o l IH]; intros s; cbn [set_list_incomplete]; [reflexivity|]. pose proof (sv_cs true false o s) as E. destruct (change_statistics true false o s) as [o' s1]. cbn [snd] in E. specialize (IH s1).
  destruct (set_list_incomplete l s1) as [l' s2]. cbn [snd] in *. congruence.
Qed.
Lemma sv_connection now s : sv (on_connection cf now s) = sv s.
Proof.
  unfold on_connection. assert (sv (if ng_rejoined (c_neg s) then set_unacked [] (set_queued (filter (fun o => is_acked_publish (op_packet o)) (unacked s) ++ filter (fun o => negb (is_acked_publish (op_packet o))) (unacked s) ++ queued s) s)
    else let s1 := complete_list cf now (filter (fails_policy cf) (unacked s)) K_OFFLINE_QUEUE_POLICY (set_unacked [] s) in set_queued (filter (fun o => negb (fails_policy cf o)) (unacked s) ++ queued s1) s1) = sv s) as E.
  { destruct (ng_rejoined (c_neg s)); [reflexivity|]. cbv zeta. change (sv (set_queued ?a ?x)) with (sv x). rewrite sv_list. reflexivity. }
  cbv zeta in *. match goal with |- context [set_list_incomplete (queued ?x) ?x] => generalize dependent x end. intros s1 E. pose proof (sv_incomplete (queued s1) s1) as E2. destruct (set_list_incomplete (queued s1) s1) as [l s2]. cbn [snd] in E2.
  change (sv (set_c_enc ?a (set_c_alias ?b ?x))) with (sv x). unfold flow_reset. change (sv (set_tokens ?a (set_pub_rl ?b (set_thr_rl ?c ?x)))) with (sv x). rewrite sv_cu. change (sv (set_queued ?a ?x)) with (sv x). congruence.
Qed.
Lemma sv_connected now s : sv (enter_connected cf now s) = sv s.
Proof.
  unfold enter_connected. destruct (cstate_eqb (current s) CONNECTED); [reflexivity|]. rewrite sv_re. unfold reset_ping. change (sv (set_reset_at ?a (set_ping ?b (set_ping_to ?c (set_has_conn ?d ?x))))) with (sv x).
  rewrite sv_connection. change (sv (set_current ?a ?x)) with (sv x). apply sv_cu.
Qed.
Lemma sv_connack now v s : sv (on_connack cf now v s) = sv s.
Proof.
  unfold on_connack. match goal with |- context [crash_unless ?b ?r s] => pose proof (sv_cu b r s) as E; generalize dependent (crash_unless b r s) end. intros s1 E.
  destruct (negb _); [rewrite sv_shut, sv_final; exact E|]. destruct (_ && _); [rewrite sv_shut, sv_final; exact E|]. change (sv (emit ?a (set_life ?b ?x))) with (sv x). rewrite sv_connected. exact E.
Qed.
Lemma sv_crash r s : sv (crash r s) = sv s.
Proof. apply sv_phase, phase_crash. Qed.
Lemma sv_dfe now s : sv (disconnect_for_protocol_error cf now s) = sv s.
Proof. unfold disconnect_for_protocol_error. destruct (cstate_eqb _ _); [apply sv_clean|apply sv_shut]. Qed.
Lemma sv_ack ev id ack s : sv (handle_ack cf ev id ack s) = sv s.
Proof.
  unfold handle_ack. assert (sv (if is_puback ack then on_puback cf (e_now ev) s else s) = sv s) as E by (destruct (is_puback ack); [|reflexivity]; unfold on_puback; destruct (tokens s =? 0); [rewrite sv_re|]; reflexivity).
  cbv zeta. generalize dependent (if is_puback ack then on_puback cf (e_now ev) s else s). intros s1 E. destruct (lookup id (table s1)); [|exact E]. destruct (find_op n (unacked s1)); [|rewrite sv_crash; exact E].
  destruct (ack_count_matches _ _ _); [rewrite sv_complete; exact E|]. rewrite sv_dfe, sv_complete. exact E.
Qed.
Lemma sv_puback now w id s : sv (queue_puback cf now w id s) = sv s.
Proof. unfold queue_puback, new_op. rewrite sv_re. reflexivity. Qed.
Lemma sv_publish ev v s : sv (on_publish cf ev v s) = sv s.
Proof.
  unfold on_publish. assert (sv (fst (if e_acquire ev (length (c_out s)) then acquire_ack v s else (s, None))) = sv s) as E.
  { destruct (e_acquire ev _); [|reflexivity]. unfold acquire_ack. destruct (pb_qos v =? 0); [reflexivity|]. destruct (lookup _ (mp s)); reflexivity. }
  destruct (if e_acquire ev (length (c_out s)) then acquire_ack v s else (s, None)) as [s1 c]. cbn [fst] in E. destruct (pb_qos v =? 0); [exact E|]. destruct (lookup _ _); [exact E|]. rewrite sv_puback. exact E.
Qed.
Lemma sv_packet ev p s : sv (on_packet cf ev p s) = sv s.
Proof.
  unfold on_packet. rewrite sv_re. change (current (emit ?a s)) with (current s). destruct (current s); try reflexivity; destruct p; cbn [connected_on_packet];
    rewrite ?sv_connack, ?sv_clean, ?sv_shut, ?sv_final, ?sv_ack, ?sv_publish; reflexivity.
Qed.
Lemma sv_read ev data s : sv (on_read cf ev data s) = sv s.
Proof.
  unfold on_read. assert (forall d w, sv (snd w) = sv s -> sv (snd (snd (fst (d5_on_data client (read_callback cf ev) d data w)))) = sv s) as H.
  { intros d w Hw. unfold d5_on_data. apply (d5_loop_inv (read_callback cf ev) (fun x => sv x = sv s)); [|exact Hw]. intros p w1 H1. unfold read_callback. destruct (c_crash (snd w1)); [exact H1|]. cbn [fst snd]. rewrite sv_packet. exact H1. }
  specialize (H (c_dec s) (c_alias s, s) eq_refl). destruct (d5_on_data client (read_callback cf ev) (c_dec s) data (c_alias s, s)) as [[d [a s']] r]. cbn [fst snd] in H.
  destruct r; [exact H| |]; (destruct (c_crash _); [exact H|]; rewrite sv_dfe; exact H).
Qed.

(** ** The times of pings *)
Lemma positive_clock l t : positive l -> clock l = Some t -> 0 < t.
Proof. induction 1 as [|x l Hx Hl IH]; [discriminate|]. cbn [clock]. destruct (is_tick x); [intros E; injection E as <-; exact Hx|exact IH]. Qed.
Definition J23 (x : ghost * client) : Prop := let '(g, s) := x in current s = CONNECTED -> g_link g = FINE -> positive (c_out s) -> ping s <> 0.
Lemma J23_same g s g' s' : J23 (g, s) -> current s' = current s -> (g_link g' = g_link g \/ g_link g' <> FINE) -> ping s' = ping s -> (exists d, c_out s' = d ++ c_out s) -> J23 (g', s').
Proof.
  intros J Ec Eg Ep (d & Eo) C L Hp. rewrite Ep. apply J; [congruence|destruct Eg; congruence|]. rewrite Eo in Hp. apply Forall_app in Hp. apply Hp.
Qed.
Lemma J23_not g s : current s <> CONNECTED \/ g_link g <> FINE -> J23 (g, s).
Proof. intros [H|H] C L; contradiction. Qed.
Lemma reset_ping_pos now s : 0 < now -> ping (reset_ping now s) <> 0.
Proof. intros H. unfold reset_ping. change (ping (set_ping ?a s)) with a. destruct (_ =? 0); [discriminate|]. rewrite add_sat_min. unfold two64. lia. Qed.
Ltac same J := eapply (J23_same _ _ _ _ J); [reflexivity|left; reflexivity|reflexivity|].
Ltac s0 := exists []; reflexivity.
Ltac s1 := eexists [_]; reflexivity.
Ltac s2 := eexists [_; _]; reflexivity.
Lemma reach_J23 g s : reach (g, s) -> ok s -> J23 (g, s).
Proof.
  intros R Ok. refine (reach_inv cf now0 J23 _ _ _ (g, s) R Ok).
  - apply J23_not. left. discriminate.
  - intros s1 now _ _ J. same J. s1.
  - clear. intros g s g' s' R Ok Ok' J P. destruct (prim_trace cf _ _ _ _ P) as (d & Hd & _).
    inversion P; subst; clear P; repeat match goal with H : ok _ -> _ |- _ => specialize (H Ok) end;
      try (same J; exists d; exact Hd).
    + match goal with H : hush _ _ |- _ => destruct H as [H _]; apply core_inv in H end. assert (current s' = current s /\ c_out s' = c_out s) as (E1 & E2) by tauto.
      assert (ping s' = ping s -> J23 (g', s')) as G by (intros G; apply (J23_same _ _ _ _ J E1 (or_introl eq_refl) G); exists []; exact E2).
      match goal with H : retimed _ _ _ _ |- _ => rename H into T end. unfold ping in G. remember (c_tim s') as t eqn:Et.
      destruct T as [|t C|now C [v L] K|now C K H|C L|]; try (apply G; reflexivity).
      * apply J23_not. right. congruence.
      * intros _ _ Hp. unfold ping. rewrite <- Et. apply reset_ping_pos, (positive_clock (c_out s)); [rewrite <- E2; exact Hp|exact K].
    + exfalso. exact (not_ok_crash _ _ Ok').
    + match goal with H : heard _ _ _ |- _ => rename H into T end. assert (tm_ping t = ping s) as E.
      { destruct x as [| | | | | | | | | |[]| | |]; cbn [heard] in T; try (rewrite T; reflexivity); [rewrite (proj2 T); reflexivity|]. destruct (up (current s)); rewrite T; reflexivity. }
      eapply (J23_same _ _ _ _ J); [reflexivity|left; reflexivity|exact E|s1].
    + apply J23_not. left. discriminate.
    + intros C L Hp. match goal with H : opened s |- _ => destruct H as [O1 (now & O2 & O3)] end. change (ping s <> 0). rewrite O3. apply reset_ping_pos, (positive_clock (c_out s)); [|exact O2].
      exact (Forall_inv_tail Hp).
    + match goal with H : edge _ _ _ _ |- _ => rename H into Ed end. apply J23_not. destruct c; try (left; discriminate). right. destruct Ed as [_ [v L]]. cbv iota. congruence.
    + apply J23_not. left. match goal with H : current s = _ /\ _ |- _ => destruct H as (C & _) end. change (current s <> CONNECTED). congruence.
    + apply J23_not. right. discriminate.
    + apply J23_not. right. discriminate.
    + apply J23_not. left. match goal with H : sending _ = false |- _ => intros C; rewrite C in H; discriminate H end.
    + destruct (enqueue_eq p override s) as (o & x & -> & _). same J. s1.
    + destruct (publish_received_eq acquire v s) as (m & c & [(_ & -> & _)|[(_ & _ & ->)|(_ & _ & _ & ->)]] & _); (same J; s2).
    + destruct (manual_core_eq control s) as (m & x & -> & [(id & _ & _ & ->)|(_ & r & -> & _)]); (same J; first [s1|s2]).
    + unfold reset_manual. destruct (mc s); (same J; s0).
    + destruct (cs_shape inc una o s) as [x ->]. same J. s0.
    + destruct (incomplete_eq s) as (l & x & -> & _). same J. s0.
    + match goal with H : bind_packet_id _ _ = _ |- _ => pose proof (bind_eq _ _ _ _ H) as Hb end. destruct Hb as [(-> & -> & _)|(id & _ & _ & -> & ->)]; (same J; s0).
    + apply J23_not. right. discriminate.
    + apply J23_not. right. discriminate.
    + match goal with H : g_link g' = FINE /\ _ |- _ => destruct H as (L & _ & _ & _ & K & T1 & T2) end.
      intros C _ Hp. pose proof (finish_ctl cf now o s) as E. unfold current in C. rewrite E in C. unfold ping. rewrite (finish_tim cf now o s).
      assert (ping s <> 0) as G by (apply J; [exact C|exact L|]; rewrite Hd in Hp; apply Forall_app in Hp; apply Hp). destruct (is_pingreq (op_packet o)); exact G.
Qed.

(** ** What being scheduled in time depends on *)
Definition view (s : client) := (run_at s, current s, desired s, pending s, curop s, queued s, tokens s, (ping s, ping_to s, connack_to s, reconnect_at s), pq s).
Lemma view_inv s s' : view s' = view s -> run_at s' = run_at s /\ current s' = current s /\ desired s' = desired s /\ pending s' = pending s /\ curop s' = curop s /\ queued s' = queued s /\
  tokens s' = tokens s /\ ping s' = ping s /\ ping_to s' = ping_to s /\ connack_to s' = connack_to s /\ reconnect_at s' = reconnect_at s /\ pq s' = pq s.
Proof. unfold view. intros E. injection E; intros. repeat split; assumption. Qed.
Lemma awake_view now s s' : view s' = view s -> awake cf now s -> awake cf now s'.
Proof.
  intros E. apply view_inv in E as (E1 & E2 & E3 & E4 & E5 & E6 & E7 & E8 & E9 & E10 & E11 & E12).
  unfold awake, sendable, scheduled_by, wants_connection. rewrite E1, E2, E3, E4, E5, E6, E7, E8, E9, E10, E11, E12. exact (fun H => H).
Qed.
Lemma by_later t t' s : t <= t' -> scheduled_by t s -> scheduled_by t' s.
Proof. unfold scheduled_by. lia. Qed.
Lemma awake_later now now' s : now <= now' -> awake cf now s -> awake cf now' s.
Proof.
  intros H. pose proof (by_later now now' s H) as G. unfold awake. destruct (current s); try tauto.
Qed.
Definition idle_state (s : client) : Prop := match current s with CONNECTING | CHANNEL_SHUTDOWN | TERMINATED => True | _ => False end.
Lemma idle_awake now s : idle_state s -> awake cf now s.
Proof. unfold idle_state, awake. destruct (current s); tauto. Qed.

(** ** Rescheduling *)
Lemma ticked_view s s' : ticked s s' -> view s' = view s.
Proof. intros (p & t & c & -> & _). reflexivity. Qed.
Lemma operational_now now s : 0 < now -> now < two64 -> sendable cf s -> snd (operational_time cf now s) = now.
Proof.
  intros H0 H1 (S1 & S2 & S3). unfold operational_time. rewrite S1. unfold throughput_time. rewrite S2. cbn [negb].
  replace (if negb (settings_valid s) then (s, now) else (s, add_sat now 0)) with (s, now) by (destruct (settings_valid s); [|reflexivity]; cbn [negb]; rewrite add_sat_min; f_equal; lia).
  rewrite (proj2 (N.ltb_ge now now)) by apply N.le_refl. destruct (curop s); [reflexivity|]. destruct S3 as [S3|(o & q & -> & S3)]; [contradiction|]. destruct (current s); try contradiction; cbn [snd].
  - rewrite S3. reflexivity.
  - unfold flow_time. rewrite S2. destruct (op_packet o); try reflexivity. cbn [is_acked_publish] in S3. rewrite N.ltb_irrefl. destruct (pb_qos v =? 0); [reflexivity|]. rewrite (proj2 (N.ltb_lt 0 (tokens s)) (S3 eq_refl)). reflexivity.
  - rewrite S3. reflexivity.
Qed.
Lemma pq_top_min l : match pq_top l with None => l = [] | Some (d, u) => In (d, u) l /\ forall d' u', In (d', u') l -> d <= d' end.
Proof.
  induction l as [|[d u] l IH]; cbn [pq_top]; [reflexivity|]. destruct (pq_top l) as [[d1 u1]|].
  - destruct IH as [I1 I2]. cbn [fst]. destruct (N.ltb_spec d1 d); (split; [cbn [In]; auto|]); intros d' u' [E|E]; try (injection E as -> ->); try (specialize (I2 _ _ E)); lia.
  - subst l. split; [left; reflexivity|]. intros d' u' [E|[]]. injection E as -> ->. lia.
Qed.
Lemma mnz_l a b : a <> 0 -> min_non_zero a b <> 0 /\ min_non_zero a b <= a.
Proof. intros H. unfold min_non_zero. destruct (N.eqb_spec a 0); [contradiction|]. destruct (N.eqb_spec b 0); lia. Qed.
Lemma mnz_r a b : b <> 0 -> min_non_zero a b <> 0 /\ min_non_zero a b <= b.
Proof. intros H. unfold min_non_zero. destruct (N.eqb_spec a 0); [lia|]. destruct (N.eqb_spec b 0); lia. Qed.
Lemma ack_time_min s : (forall d u, In (d, u) (pq s) -> d <> 0) -> forall d u, In (d, u) (pq s) -> ack_timeout_time s <> 0 /\ ack_timeout_time s <= d.
Proof.
  intros Hz d u Hi. unfold ack_timeout_time. pose proof (pq_top_min (pq s)) as H. destruct (pq_top (pq s)) as [[d1 u1]|]; [|rewrite H in Hi; destruct Hi]. destruct H as [H1 H2]. split; [exact (Hz _ _ H1)|exact (H2 _ _ Hi)].
Qed.
Definition timed (s : client) : Prop := (current s = CONNECTED -> ping s <> 0) /\ (current s = PENDING_RECONNECT -> reconnect_at s <> 0) /\ forall d u, In (d, u) (pq s) -> d <> 0.
Lemma by_intro a t s : a <> 0 /\ a <= t -> scheduled_by t (set_run_at a s).
Proof. intros H. change (0 < a /\ a <= t). lia. Qed.
Lemma reevaluate_awake now s : sv s = false -> 0 < now -> now < two64 -> timed s -> awake cf now (reevaluate cf now s).
Proof.
  intros Hs H0 H1 (Z1 & Z2 & Z3). unfold reevaluate. rewrite Hs. pose proof (operational_ticked cf now s) as Ht. pose proof (operational_now now s H0 H1) as Hn.
  assert (now <> 0 /\ now <= now) as Hnow by lia.
  unfold next_service_time. destruct (current s) eqn:C.
  - unfold awake. change (current (set_run_at ?a ?x)) with (current x). rewrite C. change (desired (set_run_at ?a ?x)) with (desired x). intros Hd. destruct (desired s); [contradiction| |]; apply by_intro, Hnow.
  - apply idle_awake. unfold idle_state. change (current (set_run_at ?a ?x)) with (current x). rewrite C. exact I.
  - destruct (wants_connection s) eqn:Wa; cbn [negb].
    + destruct (operational_time cf now s) as [s1 t]. cbn [fst snd] in *. pose proof (view_inv _ _ (ticked_view _ _ Ht)) as (_ & E2 & E3 & E4 & E5 & E6 & E7 & _ & _ & E10 & _).
      unfold awake. change (current (set_run_at ?a ?x)) with (current x). change (connack_to (set_run_at ?a ?x)) with (connack_to x). change (wants_connection (set_run_at ?a ?x)) with (wants_connection x).
      change (sendable cf (set_run_at ?a ?x)) with (sendable cf x). unfold wants_connection in *. rewrite E2, C, E3, E10, Wa. split; [discriminate|]. intros _ Hk. split.
      * apply by_intro. destruct (N.eqb_spec t 0); lia.
      * intros Hd. assert (t = now) as -> by (apply Hn; unfold sendable in *; rewrite E2, E4, E5, E6, E7 in Hd; exact Hd). apply by_intro. destruct (N.eqb_spec now 0); lia.
    + unfold awake. change (current (set_run_at ?a ?x)) with (current x). change (wants_connection (set_run_at ?a ?x)) with (wants_connection x). rewrite C, Wa. split; [intros _; apply by_intro, Hnow|discriminate].
  - destruct (operational_time cf now s) as [s1 t]. cbn [fst snd] in *. pose proof (view_inv _ _ (ticked_view _ _ Ht)) as (_ & E2 & E3 & E4 & E5 & E6 & E7 & E8 & E9 & _ & _ & E12).
    assert (reset_at s1 = reset_at s) as Er by (destruct Ht as (? & ? & ? & -> & _); reflexivity).
    unfold awake. change (current (set_run_at ?a ?x)) with (current x). change (wants_connection (set_run_at ?a ?x)) with (wants_connection x).
    change (sendable cf (set_run_at ?a ?x)) with (sendable cf x). change (ping (set_run_at ?a ?x)) with (ping x). change (ping_to (set_run_at ?a ?x)) with (ping_to x). change (pq (set_run_at ?a ?x)) with (pq x).
    assert (sendable cf s1 -> t = now) as Hn' by (intros Hd; apply Hn; unfold sendable in *; rewrite E2, E4, E5, E6, E7 in Hd; exact Hd).
    unfold wants_connection in *. rewrite E2, C, E3, E8, E9, E12, Er. specialize (Z1 eq_refl). split.
    + intros [Hd|Hd]; apply by_intro.
      * rewrite Hd. cbn [negb]. destruct (mnz_r t now ltac:(lia)) as [A1 A2]. destruct (mnz_r (reset_at s) _ A1) as [B1 B2]. lia.
      * specialize (Hn' Hd). subst t. destruct (mnz_l now (if negb (dstate_eqb (desired s) D_CONNECTED) then now else min_non_zero (if ping_to s =? 0 then ping s else N.min (ping s) (ping_to s)) (ack_timeout_time s)) ltac:(lia)) as [A1 A2].
        destruct (mnz_r (reset_at s) _ A1) as [B1 B2]. lia.
    + intros Hd. rewrite Hd. cbn [negb]. set (p := if ping_to s =? 0 then ping s else N.min (ping s) (ping_to s)).
      assert (p <> 0 /\ p <= ping s /\ (ping_to s <> 0 -> p <= ping_to s)) as (P1 & P2 & P3) by (unfold p; destruct (N.eqb_spec (ping_to s) 0); lia). clearbody p.
      destruct (mnz_l p (ack_timeout_time s) P1) as [A1 A2]. destruct (mnz_r t _ A1) as [B1 B2]. destruct (mnz_r (reset_at s) _ B1) as [C1 C2].
      split; [apply by_intro; lia|]. split; [intros Hp; specialize (P3 Hp); apply by_intro; lia|]. intros d u Hi. destruct (ack_time_min s Z3 d u Hi) as [D1 D2]. destruct (mnz_r p _ D1) as [F1 F2]. apply by_intro. lia.
  - destruct (operational_time cf now s) as [s1 t]. cbn [fst snd] in *. pose proof (view_inv _ _ (ticked_view _ _ Ht)) as (_ & E2 & _ & E4 & E5 & E6 & E7 & _ & _ & _ & _ & E12).
    unfold awake. change (current (set_run_at ?a ?x)) with (current x). change (sendable cf (set_run_at ?a ?x)) with (sendable cf x). change (pq (set_run_at ?a ?x)) with (pq x). rewrite E2, C, E12. split.
    + intros Hd. assert (t = now) as -> by (apply Hn; unfold sendable in *; rewrite E2, E4, E5, E6, E7 in Hd; exact Hd). apply by_intro. destruct (mnz_r (ack_timeout_time s) now ltac:(lia)); lia.
    + intros d u Hi. destruct (ack_time_min s Z3 d u Hi) as [D1 D2]. apply by_intro. destruct (mnz_l (ack_timeout_time s) t D1). lia.
  - apply idle_awake. unfold idle_state. change (current (set_run_at ?a ?x)) with (current x). rewrite C. exact I.
  - unfold awake. change (current (set_run_at ?a ?x)) with (current x). change (wants_connection (set_run_at ?a ?x)) with (wants_connection x). change (reconnect_at (set_run_at ?a ?x)) with (reconnect_at x). rewrite C.
    specialize (Z2 eq_refl). destruct (wants_connection s); cbn [negb]; (split; [|]); try discriminate; intros _; apply by_intro; lia.
  - apply idle_awake. unfold idle_state. change (current (set_run_at ?a ?x)) with (current x). rewrite C. exact I.
Qed.

(** ** What each event leaves behind: a rescheduled client, one that has nothing to do by itself, or one as before *)
Definition settled (now : N) (s : client) : Prop := exists x, s = reevaluate cf now x /\ sv x = false.
Definition left_ok (now : N) (s s' : client) : Prop := idle_state s' \/ view s' = view s \/ exists s1, settled now s1 /\ view s' = view s1.
Lemma left_same now s s' : view s' = view s -> left_ok now s s'.
Proof. right. left. assumption. Qed.
Lemma left_settled now s x : sv x = false -> left_ok now s (reevaluate cf now x).
Proof. intros H. right. right. eexists. split; [exists x; split; [reflexivity|exact H]|reflexivity]. Qed.
Lemma idle_view s s' : view s' = view s -> idle_state s -> idle_state s'.
Proof. intros E. apply view_inv in E as (_ & E & _). unfold idle_state. rewrite E. exact (fun H => H). Qed.
Lemma left_trans now a b c : left_ok now a b -> left_ok now b c -> left_ok now a c.
Proof.
  intros Hab [H|[H|H]]; [left; exact H| |right; right; exact H]. destruct Hab as [G|[G|(s1 & G1 & G2)]]; [left; eapply idle_view; eassumption|right; left; congruence|right; right; exists s1; split; [exact G1|congruence]].
Qed.
Lemma left_view now a b c : view b = view a -> left_ok now b c -> left_ok now a c.
Proof. intros H. apply left_trans, left_same, H. Qed.
Lemma view_crash r s : view (crash r s) = view s.
Proof. rewrite crash_eq. reflexivity. Qed.
Lemma view_cu b r s : view (crash_unless b r s) = view s.
Proof. unfold crash_unless. destruct b; [reflexivity|apply view_crash]. Qed.
Lemma view_final e a d s : view (emit_final e a d s) = view s.
Proof. unfold emit_final. destruct (life s); [reflexivity| |]; (change (view (emit ?a (set_life ?b ?x))) with (view x); apply view_cu). Qed.
Lemma cur_re now s : current (reevaluate cf now s) = current s.
Proof. apply (phase_inv _ _ (phase_reevaluate cf now s)). Qed.
Lemma ecs_idle now s : idle_state (enter_channel_shutdown cf now s).
Proof.
  unfold idle_state, enter_channel_shutdown. destruct (cstate_eqb (current s) CHANNEL_SHUTDOWN) eqn:C; [destruct (current s); try discriminate C; exact I|]. rewrite cur_re. exact I.
Qed.
Lemma left_shut now e s : left_ok now s (shutdown_channel cf now e s).
Proof.
  unfold shutdown_channel. eapply left_view; [apply (view_final match e with K_SUCCESS => K_UNKNOWN | _ => e end None None)|]. generalize (emit_final match e with K_SUCCESS => K_UNKNOWN | _ => e end None None s). clear s. intros s.
  assert (left_ok now s (emit (O_SHUTDOWN match e with K_SUCCESS => K_UNKNOWN | _ => e end) (enter_channel_shutdown cf now s))) as H by (left; exact (ecs_idle now s)).
  destruct (current s); try (apply left_same; reflexivity); (destruct (negb (slot s)); [apply left_same; reflexivity|exact H]).
Qed.
Lemma left_complete now o e a s : ~ In (op_uid o) (map snd (pq s)) -> left_ok now s (complete cf now o e a s).
Proof.
  intros Hn. unfold complete. pose proof (cs_uid false false o s) as Hu. destruct (cs_shape false false o s) as [x Hx]. destruct (change_statistics false false o s) as [o' s1]. cbn [snd fst] in *. subst s1.
  match goal with |- context [set_pq ?l ?y] => set (s2 := set_pq l y) end.
  assert (view s2 = view s) as Ev.
  { unfold s2. match goal with |- context [set_pq ?l ?y] => assert (l = pq s) as -> end; [|destruct x; reflexivity].
    match goal with |- filter ?f ?l = _ => assert (forall y, In y (pq s) -> f y = true) as Hf end.
    { intros y Hy. apply Bool.negb_true_iff, N.eqb_neq. intros E. apply Hn. apply in_map_iff. exists y. split; [congruence|exact Hy]. }
    change (pq ?y) with (pq s). clear - Hf. induction (pq s) as [|z l IH]; [reflexivity|]. cbn [filter]. rewrite (Hf z (or_introl eq_refl)). f_equal. apply IH. intros y Hy. apply Hf. right. exact Hy. }
  clearbody s2. destruct (is_disconnect (op_packet o')).
  - eapply left_view; [exact Ev|]. eapply left_trans; [apply left_shut|apply left_same; reflexivity].
  - apply left_same. exact Ev.
Qed.
Lemma shut_lists now e s : pq (shutdown_channel cf now e s) = pq s /\ wc (shutdown_channel cf now e s) = wc s.
Proof. pose proof (shutdown_lists cf now e s) as E. unfold lists in E. injection E; intros. split; assumption. Qed.
Lemma left_list now e : forall l s, (forall o, In o l -> ~ In (op_uid o) (map snd (pq s))) -> left_ok now s (complete_list cf now l e s).
Proof.
  induction l as [|o l IH]; intros s Hn; [apply left_same; reflexivity|]. unfold complete_list in *. cbn [fold_left].
  eapply left_trans; [apply left_complete, Hn; left; reflexivity|]. apply IH. intros o' Ho' Hi. apply (Hn o' (or_intror Ho')). clear - Hi.
  assert (forall x, In x (pq (complete cf now o e None s)) -> In x (pq s)) as H.
  { intros x. unfold complete. destruct (cs_shape false false o s) as [y Hy]. destruct (change_statistics false false o s) as [o1 s1]. cbn [snd] in Hy. subst s1. change (pq (emit ?a ?b)) with (pq b).
    set (s2 := set_pq _ _). assert (In x (pq s2) -> In x (pq s)) as G by (unfold s2; intros H; apply filter_In in H; apply H). clearbody s2. destruct (is_disconnect _); [|exact G].
    rewrite (proj1 (shut_lists now _ s2)). exact G. }
  apply in_map_iff in Hi as (x & E & Hx). apply in_map_iff. exists x. auto.
Qed.
Lemma left_written ev err s : sv s = false -> Px s -> chan s = CH_UP -> (forall o, In o (wc s) -> ~ In (op_uid o) (map snd (pq s))) -> left_ok (e_now ev) s (on_written cf ev err s).
Proof.
  intros Hs P Hc Hn. unfold on_written. set (s0 := set_outstanding false (set_pending false s)).
  assert (let s1 := match current s0 with MQTT_CONNECT | CONNECTED | CLEAN_DISCONNECT => match err with Some n => shutdown_channel cf (e_now ev) (K_ENV n) s0 | None => reevaluate cf (e_now ev) s0 end | _ => s0 end in
    left_ok (e_now ev) s s1 /\ wc s1 = wc s /\ pq s1 = pq s) as H.
  { cbv zeta.
    assert (left_ok (e_now ev) s (reevaluate cf (e_now ev) s0) /\ wc (reevaluate cf (e_now ev) s0) = wc s /\ pq (reevaluate cf (e_now ev) s0) = pq s) as Ha.
    { split; [apply left_settled; exact Hs|]. destruct (reevaluate_quiet cf (e_now ev) s0) as (Q & _). apply core_inv in Q.
      assert (wc (reevaluate cf (e_now ev) s0) = wc s0 /\ pq (reevaluate cf (e_now ev) s0) = pq s0) as [-> ->] by tauto. split; reflexivity. }
    assert (forall n, sending (current s) = true -> left_ok (e_now ev) s (shutdown_channel cf (e_now ev) (K_ENV n) s0) /\ wc (shutdown_channel cf (e_now ev) (K_ENV n) s0) = wc s /\ pq (shutdown_channel cf (e_now ev) (K_ENV n) s0) = pq s) as Hb.
    { intros n C. destruct (shut_lists (e_now ev) (K_ENV n) s0) as [-> ->]. split; [|split; reflexivity]. left. unfold idle_state.
      rewrite (cutp_current s0 (shutdown_channel cf (e_now ev) (K_ENV n) s0) (shutdown_phase cf _ _ _) C); [exact I|]. unfold Px in P. change (slot s = true). destruct (current s); try discriminate C; tauto. }
    change (current s0) with (current s). destruct (current s) eqn:C; try (destruct err as [n|]; [apply Hb; reflexivity|exact Ha]); try (split; [|split; reflexivity]).
    all: try (left; unfold idle_state; change (current s0) with (current s); rewrite C; exact I).
    all: unfold Px in P; rewrite C in P; destruct P as (_ & P & _); congruence. }
  cbv zeta in H. match goal with |- left_ok _ s (complete_list cf _ (wc ?x) _ _) => generalize dependent x end. intros s1 (H1 & H2 & H3). eapply left_trans; [exact H1|]. eapply left_trans; [|apply left_list].
  - apply left_same. reflexivity.
  - change (pq (set_wc [] s1)) with (pq s1). rewrite H2, H3. exact Hn.
Qed.
Lemma left_dfe now s : sv s = false -> left_ok now s (disconnect_for_protocol_error cf now s).
Proof.
  intros Hs. unfold disconnect_for_protocol_error. destruct (current s) eqn:C; try apply left_shut. cbn [cstate_eqb]. unfold shutdown_clean, new_op, shutdown_with_disconnect. change (current (set_uid ?a s)) with (current s). rewrite C.
  unfold enter_clean_disconnect. match goal with |- context [cstate_eqb ?x CLEAN_DISCONNECT] => change x with (current s) end. rewrite C. cbn [cstate_eqb]. apply left_settled. change (sv (set_current ?a ?x)) with (sv x). rewrite sv_cu. exact Hs.
Qed.
Lemma left_read ev data s : sv s = false -> left_ok (e_now ev) s (on_read cf ev data s).
Proof.
  intros Hs. unfold on_read. assert (forall d w, left_ok (e_now ev) s (snd w) /\ sv (snd w) = false -> let w' := snd (snd (fst (d5_on_data client (read_callback cf ev) d data w))) in left_ok (e_now ev) s w' /\ sv w' = false) as H.
  { intros d w Hw. cbv zeta. unfold d5_on_data. apply (d5_loop_inv (read_callback cf ev) (fun x => left_ok (e_now ev) s x /\ sv x = false)); [|exact Hw]. intros p w1 [H1 H2]. unfold read_callback. destruct (c_crash (snd w1)); [auto|]. cbn [fst snd].
    rewrite sv_packet. split; [|exact H2]. unfold on_packet. apply left_settled. pose proof (sv_packet ev p (set_c_alias (fst w1) (snd w1))) as E. unfold on_packet in E. rewrite sv_re in E. rewrite E. exact H2. }
  specialize (H (c_dec s) (c_alias s, s) (conj (left_same _ _ _ eq_refl) Hs)). cbv zeta in H. destruct (d5_on_data client (read_callback cf ev) (c_dec s) data (c_alias s, s)) as [[d [a s']] r]. cbn [fst snd] in H. destruct H as [H1 H2].
  assert (left_ok (e_now ev) s (set_c_alias a (set_c_dec d s'))) as H3 by (eapply left_trans; [exact H1|apply left_same; reflexivity]).
  destruct r; [exact H3| |]; (destruct (c_crash _); [exact H3|]; eapply left_trans; [exact H3|apply left_dfe; exact H2]).
Qed.
Lemma left_desired now d dis s : sv s = false -> left_ok now s (change_desired cf now d dis s).
Proof.
  intros Hs. unfold change_desired. destruct dis as [v|]; unfold new_op.
  - change (desired (emit ?a (set_uid ?b s))) with (desired s). destruct (dstate_eqb (desired s) d); [apply left_same; reflexivity|]. apply left_settled.
    destruct d; try exact Hs. rewrite sv_swd. exact Hs.
  - destruct (dstate_eqb (desired s) d); [apply left_same; reflexivity|]. apply left_settled. destruct d; exact Hs.
Qed.
Lemma left_submit now p override t s : sv s = false -> left_ok now s (submit cf now p override t s).
Proof.
  intros Hs. unfold submit, new_op. destruct t; [apply left_same; reflexivity|]. destruct (_ && _); [apply left_same; reflexivity|].
  match goal with |- context [change_statistics true false ?o ?x] => pose proof (sv_cs true false o x) as E; destruct (change_statistics true false o x) as [o' s1] end. cbn [snd] in E. apply left_settled. change (sv (set_queued ?a s1)) with (sv s1). rewrite E. exact Hs.
Qed.
Lemma left_manual now c s : sv s = false -> left_ok now s (manual_ack cf now c s).
Proof.
  intros Hs. unfold manual_ack. change (mc (emit ?a s)) with (mc s). change (mx (emit ?a s)) with (mx s). destruct (lookup c (mc s)); [apply left_settled; exact Hs|]. destruct (existsb _ _); apply left_same; reflexivity.
Qed.
Lemma left_reset now s : left_ok now s (reset_connection cf now s).
Proof.
  unfold reset_connection. assert (view (set_delay (cf_min_delay_ms cf) s) = view s) as E by reflexivity. generalize dependent (set_delay (cf_min_delay_ms cf) s). intros s1 E. eapply left_view; [exact E|].
  destruct (current s1); try (apply left_same; reflexivity); apply left_shut.
Qed.
Lemma mqtt_connect_settles ev s : current s = CONNECTING -> exists x, enter_mqtt_connect cf ev s = reevaluate cf (e_now ev) x /\ sv x = sv s.
Proof.
  intros C. unfold enter_mqtt_connect. rewrite C. cbn [cstate_eqb]. cbv zeta.
  match goal with |- context [crash_unless ?b ?r (crash_unless ?b2 ?r2 s)] => assert (sv (crash_unless b r (crash_unless b2 r2 s)) = sv s) as E by (rewrite !sv_cu; reflexivity); generalize dependent (crash_unless b r (crash_unless b2 r2 s)) end.
  intros s1 E. destruct (should_reset _); [eexists; split; [reflexivity|]; rewrite sv_shut; exact E|]. destruct (negb _); [eexists; split; [reflexivity|]; rewrite sv_shut; exact E|]. unfold new_op. cbv iota beta.
  match goal with |- context [set_connack_to ?a ?x] => generalize a; assert (sv x = sv s) as F; [rewrite sv_re; exact E|generalize dependent x] end.
  intros x F a. exists (set_connack_to a x). split; [reflexivity|exact F].
Qed.
Lemma left_up ev s : current s = CONNECTING -> sv s = false -> left_ok (e_now ev) s (channel_up cf ev s).
Proof.
  intros C Hs. unfold channel_up. rewrite C. cbn [cstate_eqb crash_unless]. destruct (negb (wants_connection s)); [left; exact (ecs_idle (e_now ev) s)|].
  destruct (e_slot ev); [left; exact (ecs_idle (e_now ev) (set_slot true s))|]. destruct (mqtt_connect_settles ev (set_slot true s) C) as (x & -> & E). apply left_settled. rewrite E. exact Hs.
Qed.
Lemma left_gone ev err s : sending (current s) = true \/ current s = CONNECTING \/ current s = CHANNEL_SHUTDOWN -> sv s = false -> left_ok (e_now ev) s (channel_gone cf ev err s).
Proof.
  intros C Hs. unfold channel_gone. set (e := match err with None => K_UNEXPECTED_HANGUP | Some n => K_ENV n end).
  pose proof (view_inv _ _ (view_final e None None s)) as (_ & E1 & _). pose proof (sv_final e None None s) as E2. generalize dependent (emit_final e None None s). intros s1 E1 E2. rewrite <- E1 in C. rewrite <- E2 in Hs. clear E1 E2 e.
  pose proof (on_disconnection_cut cf (e_now ev) (set_slot false s1)) as Hc. pose proof (sv_disc (e_now ev) (set_slot false s1)) as E. change (sv (set_slot false s1)) with (sv s1) in E. rewrite Hs in E.
  assert (current (on_disconnection cf (e_now ev) (set_slot false s1)) = current s1) as Ec.
  { destruct Hc as [H|H]; [apply (phase_inv _ _ H)|]. unfold cutp, phase at 2 in H. change (slot (set_slot false s1)) with false in H. rewrite Bool.andb_false_r in H. unfold phase in H. injection H; intros; assumption. }
  generalize dependent (on_disconnection cf (e_now ev) (set_slot false s1)). intros s2 _ E Ec. rewrite <- Ec in C.
  assert (cstate_eqb (current s2) PENDING_RECONNECT = false /\ cstate_eqb (current s2) STOPPED = false) as [N1 N2] by (destruct C as [C|[C|C]]; [destruct (current s2); try discriminate C|rewrite C|rewrite C]; split; reflexivity).
  destruct (wants_connection s2).
  - unfold enter_pending_reconnect. rewrite N1. apply left_settled. exact E.
  - unfold enter_stopped. rewrite N2. apply left_settled. change (sv (emit ?a (set_has_conn ?b ?x))) with (sv x). rewrite sv_opreset. exact E.
Qed.
Lemma left_service ev s : left_ok (e_now ev) s (service_task cf ev s).
Proof.
  unfold service_task. match goal with |- context [current (set_in_service true ?x)] => set (s1 := set_in_service true x) end.
  assert (forall y, left_ok (e_now ev) s (reevaluate cf (e_now ev) (set_in_service false y))) as H by (intros y; apply left_settled; reflexivity).
  destruct (current s1); cbv iota beta; try apply H. unfold service_stopped. destruct (desired s1); cbv iota beta; try apply H.
  left. unfold enter_terminated, idle_state. change (current (emit ?a ?x)) with (current x). pose proof (opreset_cut cf (e_now ev) K_CLIENT_TERMINATED (set_current TERMINATED s1)) as Hc.
  assert (current (operational_reset cf (e_now ev) K_CLIENT_TERMINATED (set_current TERMINATED s1)) = TERMINATED) as ->; [|exact I].
  destruct Hc as [H1|H1]; [apply (phase_inv _ _ H1)|]. unfold cutp, phase at 2 in H1. cbn [sending andb current] in H1. unfold phase in H1. injection H1; intros; assumption.
Qed.
Lemma service_free ev s : current (service_task cf ev s) <> TERMINATED -> sv (service_task cf ev s) = false.
Proof.
  unfold service_task. match goal with |- context [current (set_in_service true ?x)] => set (s1 := set_in_service true x) end.
  assert (forall y, sv (reevaluate cf (e_now ev) (set_in_service false y)) = false) as H by (intros y; rewrite sv_re; reflexivity).
  destruct (current s1); cbv iota beta; try (intros _; apply H). unfold service_stopped. destruct (desired s1); cbv iota beta; try (intros _; apply H).
  intros F. exfalso. apply F. unfold enter_terminated. change (current (emit ?a ?x)) with (current x). pose proof (opreset_cut cf (e_now ev) K_CLIENT_TERMINATED (set_current TERMINATED s1)) as Hc.
  destruct Hc as [H1|H1]; [apply (phase_inv _ _ H1)|]. unfold cutp, phase at 2 in H1. cbn [sending andb current] in H1. unfold phase in H1. injection H1; intros; assumption.
Qed.
Lemma handle_left ev e s : reach (g_idle, s) -> ok s -> Px s -> enabled ev e s = true -> current s <> TERMINATED -> sv s = false ->
  left_ok (e_now ev) s (handle cf ev e s) /\ (current (handle cf ev e s) <> TERMINATED -> sv (handle cf ev e s) = false).
Proof.
  intros R Ok P En Ht Hs. destruct e as [|d| |p override|p|c| | |[n|]|err|data|err]; cbn [handle].
  - split; [apply left_desired; exact Hs|intros _]. unfold change_desired. destruct (dstate_eqb _ _); [exact Hs|]. rewrite sv_re. exact Hs.
  - split; [apply left_desired; exact Hs|intros _]. unfold change_desired. destruct d as [v|]; unfold new_op; cbn [fst snd].
    + change (desired (emit ?a (set_uid ?b s))) with (desired s). destruct (dstate_eqb _ _); [exact Hs|]. rewrite sv_re, sv_swd. exact Hs.
    + destruct (dstate_eqb _ _); [exact Hs|]. rewrite sv_re. exact Hs.
  - split; [apply left_desired; exact Hs|intros _]. unfold change_desired. destruct (dstate_eqb _ _); [exact Hs|]. rewrite sv_re. exact Hs.
  - split; [apply left_submit; exact Hs|intros _]. unfold submit, new_op. destruct (_ && _); [exact Hs|].
    match goal with |- context [change_statistics true false ?o ?x] => pose proof (sv_cs true false o x) as E; destruct (change_statistics true false o x) as [o' s1] end. cbn [snd] in E. rewrite sv_re. change (sv (set_queued ?a s1)) with (sv s1). rewrite E. exact Hs.
  - split; [apply left_submit; exact Hs|intros _]. exact Hs.
  - split; [apply left_manual; exact Hs|intros _]. unfold manual_ack. destruct (lookup c _); [rewrite sv_puback; exact Hs|]. destruct (existsb _ _); exact Hs.
  - split; [apply left_reset|intros _]. unfold reset_connection. destruct (current _); try exact Hs; rewrite sv_shut; exact Hs.
  - split; [apply left_service|apply service_free].
  - cbn [enabled] in En. destruct (chan s) eqn:Hch; try discriminate En.
    assert (current s = CONNECTING) as C by (unfold Px in P; rewrite Hch in P; destruct (current s); try reflexivity; try (exfalso; intuition congruence); congruence).
    split; [|intros _; rewrite sv_gone; exact Hs]. eapply left_view; [|apply left_gone]; [reflexivity|right; left; exact C|exact Hs].
  - cbn [enabled] in En. destruct (chan s) eqn:Hch; try discriminate En.
    assert (current s = CONNECTING) as C by (unfold Px in P; rewrite Hch in P; destruct (current s); try reflexivity; try (exfalso; intuition congruence); congruence).
    split; [|intros _; rewrite sv_up; exact Hs]. eapply left_view; [|apply left_up]; [reflexivity|exact C|exact Hs].
  - cbn [enabled] in En. destruct (chan s) eqn:Hch; try discriminate En.
    split; [|intros _; rewrite sv_gone; exact Hs]. eapply left_view; [|apply left_gone]; [reflexivity| |exact Hs]. change (current (set_outstanding ?a (set_chan ?b s))) with (current s).
    unfold Px in P. rewrite Hch in P. destruct (current s); auto; exfalso; first [apply Ht; reflexivity|intuition congruence].
  - split; [apply left_read; exact Hs|intros _; rewrite sv_read; exact Hs].
  - cbn [enabled] in En. destruct (chan s) eqn:Hch; try discriminate En. assert (sv (on_written cf ev err s) = false) as E.
    { unfold on_written. rewrite sv_list. change (sv (set_wc ?a ?x)) with (sv x). destruct (current _); try exact Hs; destruct err; rewrite ?sv_shut, ?sv_re; exact Hs. }
    split; [|intros _; exact E]. apply left_written; try assumption. intros o Ho Hi. apply in_map_iff in Hi as ([d u] & E1 & Hi). cbn [snd] in E1. subst u.
    destruct (reach_J2 _ _ _ _ R Ok) as (_ & Q & _). destruct (Q eq_refl _ _ Hi) as [Q1 _]. cbn [g_idle g_hand] in Q1. rewrite app_nil_r in Q1. apply in_map_iff in Q1 as (o' & E1 & Ho').
    destruct (reach_J1 _ _ _ _ R Ok) as (ND & _). unfold K, held in ND.
    assert (NoDup (map op_uid (wc s ++ unacked s))) as N2.
    { apply (nodup_part (g_hand g_idle ++ queued s ++ match curop s with Some o => [o] | None => [] end) (wc s ++ unacked s) [] (map identity_of (finished (c_out s)))).
      rewrite app_nil_r, <- !app_assoc. exact ND. }
    clear - N2 Ho Ho' E1. revert Ho N2. induction (wc s) as [|a l IH]; [intros []|]. cbn [app map]. intros Ho N2. inversion N2 as [|x y F1 F2]; subst. destruct Ho as [<-|Ho]; [|apply IH; assumption].
    apply F1. rewrite map_app, in_app_iff. right. apply in_map_iff. exists o'. split; assumption.
Qed.

(** ** Every history *)
Notation sane := (sane cf).
Notation normal := (normal cf).
Lemma reach_timed s : reach (g_idle, s) -> ok s -> positive (c_out s) -> sane (c_out s) -> timed s.
Proof.
  intros R Ok Hp Hs. split; [intros C; exact (reach_J23 _ _ R Ok C eq_refl Hp)|]. split.
  - intros C. destruct (reach_J21 _ _ _ _ R Ok) as (_ & _ & _ & _ & _ & _ & J). destruct (J C) as (after & before & t & n & d & E & _ & Ck & -> & _).
    assert (0 < t) as Ht by (apply (positive_clock before); [rewrite E in Hp; apply Forall_app in Hp; apply Hp|exact Ck]). unfold after_ms, two64. lia.
  - intros d u Hi. destruct (reach_J3 _ _ _ _ R Ok) as (_ & Q & _). destruct (Q _ _ Hi) as (o & t & (later & earlier & E & _ & Ck) & _ & E2). intros ->. apply (Hs later o earlier t E Ck), deadline_overdue. rewrite E2. apply N.le_refl.
Qed.
Lemma timed_re now x : timed (reevaluate cf now x) -> timed x.
Proof.
  unfold timed. destruct (reevaluate_quiet cf now x) as (Q & _ & T). apply (f_equal fst) in T. cbn [fst] in T. apply core_inv in Q. assert (current (reevaluate cf now x) = current x /\ pq (reevaluate cf now x) = pq x) as [-> ->] by tauto. unfold ping, reconnect_at. rewrite T. exact (fun H => H).
Qed.
Lemma timed_view s s' : view s' = view s -> timed s' -> timed s.
Proof. intros E. apply view_inv in E as (_ & E2 & _ & _ & _ & _ & _ & E8 & _ & _ & E11 & E12). unfold timed. rewrite E2, E8, E11, E12. exact (fun H => H). Qed.
Lemma left_awake now s s' : 0 < now -> now < two64 -> timed s' -> left_ok now s s' -> awake cf now s -> awake cf now s'.
Proof.
  intros H0 H1 Ht [H|[H|(s1 & (x & -> & Hx) & H)]] Ha; [apply idle_awake, H|eapply awake_view; eassumption|]. eapply awake_view; [exact H|]. apply reevaluate_awake; try assumption. eapply timed_re, timed_view; eassumption.
Qed.
Lemma clock_bounded l t : bounded l -> clock l = Some t -> t < two64.
Proof. induction 1 as [|x l Hx Hl IH]; [discriminate|]. cbn [clock]. destruct (is_tick x); [intros E; injection E as <-; exact Hx|exact IH]. Qed.
Lemma ticking_app d l : ticking (d ++ l) -> ticking l.
Proof. induction d as [|x d IH]; [auto|]. cbn [app ticking]. destruct x; auto. intros [H _]. auto. Qed.
Lemma sane_app d l : sane (d ++ l) -> sane l.
Proof. intros H later o earlier t E. apply (H (d ++ later)). rewrite E, app_assoc. reflexivity. Qed.
Lemma normal_app d l : normal (d ++ l) -> normal l.
Proof. intros (H1 & H2 & H3 & H4). apply Forall_app in H1 as [_ H1]. apply Forall_app in H2 as [_ H2]. split; [exact H1|]. split; [exact H2|]. split; [eapply ticking_app; exact H3|eapply sane_app; exact H4]. Qed.
Lemma always_awake l : let s := client_history cf now0 l in c_crash s = None -> normal (c_out s) ->
  (current s <> TERMINATED -> sv s = false) /\ forall now, match clock (c_out s) with Some t => t <= now | None => True end -> awake cf now s.
Proof.
  cbv zeta. induction l as [|[ev e] l IH] using rev_ind.
  - intros _ _. split; [reflexivity|]. intros now _. unfold awake. cbn. intros H. exfalso. apply H. reflexivity.
  - destruct (history_steps cf now0 l) as [R P]. unfold client_history, client_run in *. rewrite fold_left_app. cbn [fold_left].
    generalize dependent (fold_left (client_step cf) l (client_new cf now0)). intros s IH R P. unfold client_step. destruct (c_crash s) eqn:Cr; [congruence|].
    destruct (cstate_eqb (current s) TERMINATED) eqn:T; cbn [orb]; [intros _; apply IH; reflexivity|]. destruct (enabled ev e s) eqn:En; cbn [negb]; [|intros _; apply IH; reflexivity].
    set (s1 := emit (I_TICK (e_now ev)) s). assert (current s1 <> TERMINATED) as T1 by (intros E; change (current s1) with (current s) in E; rewrite E in T; discriminate T).
    pose proof (reach_tick _ _ _ (e_now ev) R) as R1. specialize (P Cr). destruct (handle_steps cf now0 ev e s1 eq_refl R1 Cr P En T1) as [H1 _]. intros Ok' N'.
    destruct (steps_trace _ _ _ _ _ H1) as (d & E & Td). pose proof N' as N1. rewrite E in N1. apply normal_app in N1. change (c_out s1) with ([I_TICK (e_now ev)] ++ c_out s) in N1. pose proof (normal_app _ _ N1) as N0.
    destruct (IH eq_refl N0) as [I1 I2]. specialize (I1 T1). destruct (handle_left ev e s1 R1 Cr P En T1 I1) as [G1 G2]. split; [exact G2|].
    destruct N1 as (P1 & B1 & K1 & _). apply Forall_inv in P1, B1. cbn [is_tick] in P1, B1. cbn [app ticking] in K1. destruct K1 as [_ K1].
    assert (awake cf (e_now ev) s1) as A1 by (specialize (I2 (e_now ev) K1); exact I2).
    pose proof (reach_trans _ _ _ _ _ R1 H1) as R2. pose proof (reach_timed _ R2 Ok' (proj1 N') (proj2 (proj2 (proj2 N')))) as Tm.
    pose proof (left_awake _ _ _ P1 B1 Tm G1 A1) as A2. intros now Hn. rewrite E, (clock_tickless d (c_out s1) Td) in Hn. cbn in Hn. eapply awake_later; eassumption.
Qed.
Lemma self_now (l : list out) : exists now, match clock l with Some t => t <= now | None => True end.
Proof. destruct (clock l) as [t|]; [exists t; apply N.le_refl|exists 0; exact I]. Qed.
Lemma ping_scheduled l n : let s := client_history cf now0 l in c_crash s = None -> normal (c_out s) -> current s = CONNECTED -> desired s = D_CONNECTED ->
  settings_of (c_out s) = Some n -> 0 < ng_keep_alive n -> ng_keep_alive n < 65536 ->
  (acks_fit (c_out s) -> ping_wait s \/ exists t, last_ping (c_out s) = Some t /\ scheduled_by (after_s t (ng_keep_alive n)) s) /\
  (forall t, unanswered (c_out s) = Some t -> scheduled_by (N.min (two64 - 1) (t + ping_limit cf (ng_keep_alive n))) s).
Proof.
  cbv zeta. intros Ok N C D Hs Hk Hk2. destruct (always_awake l Ok N) as [_ A]. pose proof (history_reach cf now0 l) as R. generalize dependent (client_history cf now0 l). intros s Ok N C D Hs A R.
  destruct (self_now (c_out s)) as [now Hn]. specialize (A now Hn). unfold awake in A. rewrite C in A. destruct A as [_ A]. unfold wants_connection in A. rewrite D in A. destruct (A eq_refl) as (A1 & A2 & _).
  destruct (reach_J22 cf now0 _ _ R Ok C eq_refl) as (J1 & _ & J3). assert (c_neg s = n) as En by (pose proof (reach_J8 cf now0 _ _ R Ok) as J; unfold J8 in J; rewrite Hs in J; apply J). unfold interval in J3. rewrite En in J3. split.
  - intros F. destruct (J3 F (proj1 (proj2 (proj2 N)))) as [W|(t & L1 & L2)]; [unfold s_to_ns; rewrite mul_sat_min; change nanos with 1000000000; unfold two64; lia|left; exact W|right].
    exists t. split; [exact L1|]. eapply by_later; [|exact A1]. rewrite <- after_s_eq. exact L2.
  - intros t U. rewrite U in J1. pose proof (limit_eq cf s ltac:(rewrite En; exact Hk2)) as El. rewrite En in El. rewrite El, add_sat_min in J1. rewrite <- J1. apply A2. rewrite J1.
    pose proof (limit_pos cf _ Hk). unfold two64. lia.
Qed.
Lemma ack_scheduled l : cf_queue cf <> FAIL_QOS0_PUBLISH -> let s := client_history cf now0 l in c_crash s = None -> normal (c_out s) -> current s = CONNECTED -> desired s = D_CONNECTED ->
  forall o t, sent_here o t (c_out s) -> answered (op_packet o) = true -> ~ In (op_uid o) (map op_uid (finished (c_out s))) ->
  forall T, overdue cf t o T -> scheduled_by T s.
Proof.
  intros Hq. cbv zeta. intros Ok N C D o t Hs Ha Hf T Ho. destruct (always_awake l Ok N) as [_ A]. pose proof (history_reach cf now0 l) as R. generalize dependent (client_history cf now0 l). intros s Ok N C D Hs Hf A R.
  destruct (self_now (c_out s)) as [now Hn]. specialize (A now Hn). unfold awake in A. rewrite C in A. destruct A as [_ A]. unfold wants_connection in A. rewrite D in A. destruct (A eq_refl) as (_ & _ & A3).
  assert (alive g_idle s) as Al.
  { split; [reflexivity|]. split; [rewrite C; reflexivity|]. intros E. pose proof (reach_J8 cf now0 _ _ R Ok) as J. unfold J8 in J. rewrite E in J. destruct J as (_ & J & _). destruct (J C) as [v J']. discriminate J'. }
  destruct (proj2 (reach_J12 cf now0 _ _ R Ok) Al o t Hs Ha) as [(o' & U1 & U2 & _ & U4)|[[]|F]]; [|contradiction].
  destruct (proj2 (reach_J11 cf now0 Hq _ _ R Ok) Al o' U1) as [_ H]. eapply by_later; [|apply (A3 _ _ H)]. rewrite U4. apply overdue_deadline, Ho.
Qed.
End Wakeup.

(** ** Checking the assumption on the clock *)
Definition wraps (cf : config) (t : N) (o : op) : bool :=
  let seconds := if op_override o =? 0 then cf_ack_timeout_s cf else op_override o in
  if seconds =? 0 then false else (t + N.min (2 ^ 64 - 1) (seconds * 1000000000)) mod 2 ^ 64 =? 0.
Fixpoint normal_b (cf : config) (l : list out) : bool :=
  match l with
  | [] => true
  | I_TICK t :: l => (0 <? t) && (t <? two64) && match clock l with Some t' => t' <=? t | None => true end && normal_b cf l
  | O_SENT o :: l => match clock l with Some t => negb (wraps cf t o) | None => true end && normal_b cf l
  | _ :: l => normal_b cf l
  end.
Lemma sane_cons cf x l : sane cf l -> match x with O_SENT o => match clock l with Some t => ~ overdue cf t o 0 | None => True end | _ => True end -> sane cf (x :: l).
Proof.
  intros H Hx later o earlier t E Ck. destruct later as [|y later]; injection E as -> E; [subst l; rewrite Ck in Hx; exact Hx|]. exact (H later o earlier t E Ck).
Qed.
Lemma normal_ok cf l : normal_b cf l = true -> normal cf l.
Proof.
  induction l as [|x l IH]; [intros _; split; [constructor|split; [constructor|split; [exact I|]]]; intros [|y later] o earlier t E; discriminate E|].
  cbn [normal_b]. assert (forall (H : is_tick x = None), normal_b cf l = true -> match x with O_SENT o => match clock l with Some t => ~ overdue cf t o 0 | None => True end | _ => True end -> normal cf (x :: l)) as G.
  { intros H N Hx. destruct (IH N) as (I1 & I2 & I3 & I4). split; [constructor; [rewrite H; exact I|exact I1]|]. split; [constructor; [rewrite H; exact I|exact I2]|]. split; [destruct x; try exact I3; discriminate H|apply sane_cons; assumption]. }
  destruct x; intros N; try (apply G; [reflexivity|exact N|exact I]).
  - apply andb_prop in N as [N1 N2]. apply G; [reflexivity|exact N2|]. destruct (clock l) as [t|]; [|exact I]. unfold wraps in N1. unfold overdue. destruct (_ =? 0) in *; [lia|]. intros F. apply N.le_0_r in F. rewrite F in N1. discriminate N1.
  - apply andb_prop in N as [N N4]. apply andb_prop in N as [N N3]. apply andb_prop in N as [N1 N2]. apply N.ltb_lt in N1, N2. destruct (IH N4) as (I1 & I2 & I3 & I4).
    split; [constructor; assumption|]. split; [constructor; assumption|]. split; [|apply sane_cons; [exact I4|exact I]]. cbn [ticking]. split; [exact I3|]. destruct (clock l); [apply N.leb_le; exact N3|exact I].
Qed.
