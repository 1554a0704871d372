(** Which updates of Client5_Steps.v the functions of Client5_Model.v perform: sending. *)
From Verif Require Import Base BaseLemmas Mqtt5_Views TopicAlias_Model Encoder5_Model Decoder5_Model RateLimiter_Model RateLimiter_Spec
  RateLimiter_Proofs Validate5_Model Negotiated_Model Client5_State Client5_Model Client5_Spec Client5_Steps Client5_Decomp Client5_Decomp2 Client5_Forms.
From Coq Require Import Permutation.
Ltac Zify.zify_post_hook ::= idtac.

Lemma crash_crash r s : crash r (crash r s) = crash r s.
Proof. unfold crash. destruct s as [? ? ? ? ? ? ? ? ? ? [x|] ?]; reflexivity. Qed.
Lemma cut_phase s s' : phase s' = phase s -> cut s s'.
Proof. intros; left; assumption. Qed.

Section Decomp3.
Variable cf : config.
Notation prim := (prim cf).
Notation steps := (steps cf).

Lemma lists_ticked s s' : ticked s s' -> lists s' = lists s.
Proof. intros H. apply lists_resched, resched_ticked, H. Qed.
Lemma lists_inv s s' : lists s' = lists s -> queued s' = queued s /\ curop s' = curop s /\ wc s' = wc s /\ unacked s' = unacked s /\
  table s' = table s /\ tokens s' = tokens s /\ pq s' = pq s /\ c_enc s' = c_enc s.
Proof. unfold lists. intros E. injection E; intros. repeat split; assumption. Qed.

(** what the head of the queue has to be outside CONNECTED *)
Definition head_ok (s : client) : Prop :=
  match current s with
  | MQTT_CONNECT => exists o q, queued s = o :: q /\ is_connect (op_packet o) = true
  | CLEAN_DISCONNECT => exists o q, queued s = o :: q /\ is_disconnect (op_packet o) = true
  | CONNECTED => True
  | _ => False
  end.
Lemma operational_head now s : now <> 0 -> snd (operational_time cf now s) = now -> curop s = None -> head_ok s.
Proof.
  intros Hn H Hc. unfold operational_time in H. destruct (pending s); [cbn [snd] in H; congruence|].
  pose proof (throughput_ticked cf now s) as T. destruct (throughput_time cf now s) as [s1 t]. cbn [fst] in T.
  destruct (lists_inv _ _ (lists_ticked _ _ T)) as (Hq & Hc1 & _). apply phase_ticked in T. apply phase_inv in T as (_ & Hcur & _).
  rewrite Hc1, Hc, Hq, Hcur in H. unfold head_ok. destruct (N.ltb_spec now t); [cbn [snd] in H; lia|].
  destruct (queued s) as [|o q]; [cbn [snd] in H; congruence|]. destruct (current s); cbn [snd] in H; try congruence; try exact I.
  - exists o, q. split; [reflexivity|]. destruct (is_connect (op_packet o)); congruence.
  - exists o, q. split; [reflexivity|]. destruct (is_disconnect (op_packet o)); congruence.
Qed.

Definition may_start (s : client) (o : op) : Prop :=
  current s = MQTT_CONNECT /\ is_connect (op_packet o) = true \/ current s = CONNECTED \/
  current s = CLEAN_DISCONNECT /\ is_disconnect (op_packet o) = true.
Lemma pull_steps g now : g_link g = FINE -> forall q s, g_hand g = [] -> queued s = q -> curop s = None -> head_ok s ->
  let '(s', r) := pull cf now q s in
  match r with
  | NOTHING => steps (g, s) (g, s') /\ phase s' = phase s /\ curop s' = None
  | BAD_DISCONNECT => steps (g, s) (g, s') /\ cut s s'
  | PULLED o => exists s0 q', steps (g, s) (g, s0) /\ queued s0 = o :: q' /\ s' = set_queued q' s0 /\
      validate_operation cf (op_packet o) s0 = true /\ phase s0 = phase s /\ curop s0 = None /\ may_start s o /\
      (length (queued s0) <= length (queued s))%nat
  end.
Proof.
  intros Hfine. induction q as [|o q IH]; intros s Hg Hq Hc Hh; cbn [pull]; [repeat split; [constructor|assumption]|].
  set (z := if cf_flow cf && is_publish (op_packet o) then let '(b, ok) := rl_take pub_cfg now 1 (pub_rl s) in (set_pub_rl b s, ok) else (s, true)).
  assert (quiet s (fst z) /\ lists (fst z) = lists s /\ phase (fst z) = phase s) as (Hz & Hl & Hp).
  { unfold z. destruct (cf_flow cf && is_publish (op_packet o)); [|split; [apply quiet_refl|split; reflexivity]].
    pose proof (rlv_take pub_cfg now 1 (pub_rl s) pub_rate) as Ht. destruct (rl_take pub_cfg now 1 (pub_rl s)) as [b ok]. cbn [fst] in *.
    split; [|split; reflexivity]. split; [reflexivity|]. split; [|reflexivity]. intros [H1 H2]. split; [split; [apply Ht; exact H1|exact H2]|reflexivity]. }
  destruct z as [s1 okz]. cbn [fst] in *. destruct (lists_inv _ _ Hl) as (Hq1 & Hc1 & _).
  destruct okz; cbn [negb].
  2: { split; [apply Q; assumption|]. split; [assumption|congruence]. }
  change (validate_operation cf (op_packet o) (set_queued q s1)) with (validate_operation cf (op_packet o) s1).
  assert (current s1 = current s) as Hcur by (apply phase_inv in Hp; tauto).
  destruct (validate_operation cf (op_packet o) s1) eqn:V.
  - exists s1, q. split; [apply Q; assumption|]. split; [congruence|]. split; [reflexivity|]. split; [assumption|]. split; [assumption|].
    split; [congruence|]. split; [|rewrite Hq1; lia]. unfold may_start. unfold head_ok in Hh. rewrite Hq in Hh.
    destruct (current s); try contradiction; [left|right; left|right; right]; auto.
    + destruct Hh as (o' & q' & E & H). injection E as <- <-. auto.
    + destruct Hh as (o' & q' & E & H). injection E as <- <-. auto.
  - assert (steps (g, s) (g, complete cf now o K_VALIDATION None (set_queued q s1))) as Hst.
    { eapply steps_trans; [apply Q; exact Hz|]. eapply steps_cons; [apply (P_take cf g s1 o q); [congruence|]; intros _; split; [congruence|assumption]|].
      rewrite Hg. assert (g = with_hand [] (with_hand [o] g)) as Eg by (destruct g as [h ? ? ?]; cbn in Hg; subst h; reflexivity).
      rewrite Eg at 2. apply complete_steps; [reflexivity|intros _ _ v Hv; cbn [g_link with_hand] in Hv; congruence|]. left. split; [exact I|reflexivity]. }
    pose proof (complete_phase cf now o K_VALIDATION None (set_queued q s1)) as Hph. change (phase (set_queued q s1)) with (phase s1) in Hph.
    rewrite Hp in Hph. destruct (is_disconnect (op_packet o)) eqn:D.
    + split; [exact Hst|]. right. exact Hph.
    + destruct (lists2_inv _ _ (complete_lists2 cf now o K_VALIDATION None (set_queued q s1))) as (Hq2 & Hc2 & _).
      generalize dependent (complete cf now o K_VALIDATION None (set_queued q s1)). intros s2 Hst Hph Hq2 Hc2.
      assert (current s = CONNECTED) as HC.
      { unfold validate_operation, settings_valid in V. rewrite Hcur in V. unfold head_ok in Hh. rewrite Hq in Hh.
        destruct (current s); try contradiction; [|reflexivity|].
        - destruct Hh as (o' & q' & E & H). injection E as <- <-. destruct (op_packet o); try discriminate.
        - destruct Hh as (o' & q' & E & H). injection E as <- <-. congruence. }
      specialize (IH s2 Hg). change (queued (set_queued q s1)) with q in Hq2. change (curop (set_queued q s1)) with (curop s1) in Hc2.
      assert (current s2 = current s) as Hcur2 by (apply phase_inv in Hph; tauto).
      assert (head_ok s2) as Hh2 by (unfold head_ok; rewrite Hcur2, HC; exact I).
      specialize (IH Hq2 ltac:(congruence) Hh2). destruct (pull cf now q s2) as [s' r]. destruct r as [o2| |].
      * destruct IH as (s0 & q' & H1 & H2 & H3 & H4 & H5 & H6 & H7 & H8). exists s0, q'. split; [eapply steps_trans; eassumption|].
        repeat split; try assumption; [congruence| |rewrite Hq2 in H8; rewrite Hq; cbn [length]; lia].
        unfold may_start. right; left; exact HC.
      * destruct IH as (H1 & H2 & H3). split; [eapply steps_trans; eassumption|]. split; [congruence|assumption].
      * destruct IH as (H1 & H2). split; [eapply steps_trans; eassumption|]. eapply cut_trans; [left; exact Hph|exact H2].
Qed.

Lemma crash_witness g s r : (ok s -> bad r g s) -> steps (g, s) (g, crash r s).
Proof. intros. apply steps_one. apply P_crash. assumption. Qed.
Lemma bind_crash r o s o' s1 : bind_packet_id o s = Some (o', s1) -> bind_packet_id o (crash r s) = Some (o', crash r s1).
Proof.
  rewrite !crash_eq. unfold bind_packet_id. destruct (needs_packet_id (op_packet o)); cbn [negb]; [|intros E; injection E as <- <-; reflexivity].
  change (table (set_c_crash ?x s)) with (table s). change (next_id (set_c_crash ?x s)) with (next_id s).
  destruct (free_packet_id (S (length (table s))) (next_id s) (table s)); [|discriminate]. intros E. injection E as <- <-. reflexivity.
Qed.
Lemma bind_phase o s o' s1 : bind_packet_id o s = Some (o', s1) -> phase s1 = phase s.
Proof.
  unfold bind_packet_id. destruct (needs_packet_id (op_packet o)); cbn [negb]; [|intros E; injection E as <- <-; reflexivity].
  destruct (free_packet_id (S (length (table s))) (next_id s) (table s)); [|discriminate]. intros E. injection E as <- <-. reflexivity.
Qed.
Lemma start_steps g s0 o q' : g_hand g = [] -> g_clearing g = false -> g_link g = FINE -> queued s0 = o :: q' -> curop s0 = None ->
  validate_operation cf (op_packet o) s0 = true -> may_start s0 o ->
  let '(s', fine) := set_current_operation o (set_queued q' s0) in
  phase s' = phase s0 /\
  if fine then steps (g, s0) (g, s') /\ curop s' <> None
  else steps (g, s0) (with_buf [] (with_link DEAD g), s').
Proof.
  intros Hh Hcl Hk Hq Hc V M. unfold set_current_operation. destruct (bind_packet_id o (set_queued q' s0)) as [[o' s1]|] eqn:B.
  - pose proof (bind_phase _ _ _ _ B) as Hp. change (phase (set_queued q' s0)) with (phase s0) in Hp.
    destruct (append_packet (c_enc s1) (op_packet o')) as [e [|x|]] eqn:A.
    + split; [exact Hp|]. split; [|discriminate]. apply steps_one. eapply P_start; try eassumption; intros _; [exact A| |]; auto.
    + split; [exact Hp|]. apply steps_one. eapply P_append_fails; try eassumption; intros _; auto.
    + split; [rewrite phase_crash; exact Hp|]. split; [|rewrite crash_eq; discriminate].
      eapply steps_trans; [apply (crash_witness g s0 CR_ENCODER)|].
      { intros _. exists o, q', o', s1, e. auto. }
      pose proof (bind_crash CR_ENCODER _ _ _ _ B) as B2.
      replace (crash CR_ENCODER (set_queued q' s0)) with (set_queued q' (crash CR_ENCODER s0)) in B2 by (rewrite !crash_eq; reflexivity).
      replace (crash CR_ENCODER (set_curop (Some o') (set_c_enc e s1))) with (set_curop (Some o') (set_c_enc e (crash CR_ENCODER s1)))
        by (rewrite !crash_eq; reflexivity).
      apply steps_one. eapply P_start; [|exact B2| | |].
      * rewrite crash_eq. exact Hq.
      * intros H. exfalso. exact (not_ok_crash _ _ H).
      * intros H. exfalso. exact (not_ok_crash _ _ H).
      * intros H. exfalso. exact (not_ok_crash _ _ H).
  - split; [reflexivity|]. apply steps_one. apply P_start_fails; try assumption; intros _; auto.
Qed.

(** a finished packet *)
Lemma on_outbound_crash_rm p s : is_acked_publish p = true -> tokens s = 0 -> on_outbound p (crash CR_RECEIVE_MAXIMUM s) = on_outbound p s.
Proof.
  intros A T. unfold on_outbound. rewrite A. assert (tokens (crash CR_RECEIVE_MAXIMUM s) = 0) as T2 by (rewrite crash_eq; exact T).
  rewrite T, T2. cbn [N.ltb N.compare crash_unless]. rewrite crash_crash. reflexivity.
Qed.
Lemma on_outbound_crash_pid p s : (is_acked_publish p = true -> 0 < tokens s) ->
  on_outbound p (crash CR_PACKET_ID s) = crash CR_PACKET_ID (on_outbound p s).
Proof.
  intros A. unfold on_outbound. destruct (is_acked_publish p); [|reflexivity]. specialize (A eq_refl).
  assert (tokens (crash CR_PACKET_ID s) = tokens s) as T2 by (rewrite crash_eq; reflexivity). rewrite T2.
  destruct (N.ltb_spec 0 (tokens s)); [|lia]. cbn [crash_unless]. rewrite !crash_eq. reflexivity.
Qed.
Lemma finish_of_outbound now o s s' : on_outbound (op_packet o) s' = on_outbound (op_packet o) s ->
  finish_operation cf now o s' = finish_operation cf now o s.
Proof. intros E. unfold finish_operation. rewrite E. reflexivity. Qed.
Lemma finish_crash_pid now o s : requires_ack (op_packet o) = true -> packet_id (op_packet o) = 0 ->
  (is_acked_publish (op_packet o) = true -> 0 < tokens s) ->
  finish_operation cf now o (crash CR_PACKET_ID s) = finish_operation cf now o s.
Proof.
  intros R Z A. unfold finish_operation. rewrite on_outbound_crash_pid by assumption. rewrite R, Z. cbn [N.eqb negb crash_unless]. rewrite crash_crash.
  reflexivity.
Qed.
Lemma finish_phase now o s : phase (finish_operation cf now o s) = phase s.
Proof.
  unfold finish_operation. set (s1 := on_outbound (op_packet o) s).
  assert (phase s1 = phase s) as H1.
  { unfold s1, on_outbound. destruct (is_acked_publish (op_packet o)); [|reflexivity].
    change (phase (set_tokens ?x ?y)) with (phase y). apply phase_crash_unless. }
  clearbody s1. rewrite phase_emit. change (phase (set_curop None ?x)) with (phase x).
  destruct (requires_ack (op_packet o)).
  - pose proof (phase_crash_unless (negb (packet_id (op_packet o) =? 0)) CR_PACKET_ID s1) as H2.
    generalize dependent (crash_unless (negb (packet_id (op_packet o) =? 0)) CR_PACKET_ID s1). intros s2 H2.
    match goal with |- context [change_statistics true true ?a ?b] => destruct (cs_shape true true a b) as [x Hx];
      destruct (change_statistics true true a b) as [o' s3]; cbn [snd] in Hx; subst s3 end.
    transitivity (phase s2); [reflexivity|congruence].
  - destruct (is_pingreq (op_packet o)); exact H1.
Qed.
Lemma finish_curop now o s : curop (finish_operation cf now o s) = None.
Proof. unfold finish_operation. reflexivity. Qed.
Lemma finish_queued now o s : queued (finish_operation cf now o s) = queued s.
Proof.
  unfold finish_operation. set (s1 := on_outbound (op_packet o) s).
  assert (queued s1 = queued s) as H1.
  { unfold s1, on_outbound. destruct (is_acked_publish (op_packet o)); [|reflexivity]. destruct (0 <? tokens s); [reflexivity|].
    cbn [crash_unless]. rewrite crash_eq. reflexivity. }
  clearbody s1. change (queued (emit ?a (set_curop None ?x))) with (queued x).
  destruct (requires_ack (op_packet o)).
  - assert (queued (crash_unless (negb (packet_id (op_packet o) =? 0)) CR_PACKET_ID s1) = queued s1) as H2.
    { destruct (negb (packet_id (op_packet o) =? 0)); [reflexivity|]. cbn [crash_unless]. rewrite crash_eq. reflexivity. }
    generalize dependent (crash_unless (negb (packet_id (op_packet o) =? 0)) CR_PACKET_ID s1). intros s2 H2.
    match goal with |- context [change_statistics true true ?a ?b] => destruct (cs_shape true true a b) as [x Hx];
      destruct (change_statistics true true a b) as [o' s3]; cbn [snd] in Hx; subst s3 end.
    transitivity (queued s2); [reflexivity|congruence].
  - destruct (is_pingreq (op_packet o)); exact H1.
Qed.
Lemma finish_steps g now o s : g_hand g = [] -> curop s = Some o -> g_link g = FINE -> g_clearing g = false -> enc_steps (c_enc s) = [] -> sending (current s) = true ->
  clock (c_out s) = Some now -> steps (g, s) (g, finish_operation cf now o s).
Proof.
  intros Hh Hc Hk Hcl He Hs Hck.
  destruct (c_crash s) as [r|] eqn:C.
  { apply steps_one. apply P_sent; [assumption| |auto]. unfold ok. rewrite C. discriminate. }
  destruct (is_acked_publish (op_packet o)) eqn:A; [destruct (N.eq_dec (tokens s) 0) as [T|T]|].
  - eapply steps_trans; [apply (crash_witness g s CR_RECEIVE_MAXIMUM); intros _; exists o; auto|].
    rewrite <- (finish_of_outbound now o s (crash CR_RECEIVE_MAXIMUM s)) by (apply on_outbound_crash_rm; assumption).
    apply steps_one. apply P_sent; [rewrite crash_eq; exact Hc| |auto]. intros H. exfalso. exact (not_ok_crash _ _ H).
  - destruct (requires_ack (op_packet o)) eqn:R; [destruct (N.eq_dec (packet_id (op_packet o)) 0) as [Z|Z]|].
    + eapply steps_trans; [apply (crash_witness g s CR_PACKET_ID); intros _; exists o; auto|].
      rewrite <- (finish_crash_pid now o s) by (try assumption; intros _; lia).
      apply steps_one. apply P_sent; [rewrite crash_eq; exact Hc| |auto]. intros H. exfalso. exact (not_ok_crash _ _ H).
    + apply steps_one. apply P_sent; [assumption| |auto]. intros _. repeat split; auto. intros _; lia.
    + apply steps_one. apply P_sent; [assumption| |auto]. intros _. repeat split; auto; [intros _; lia|]. congruence.
  - destruct (requires_ack (op_packet o)) eqn:R; [destruct (N.eq_dec (packet_id (op_packet o)) 0) as [Z|Z]|].
    + eapply steps_trans; [apply (crash_witness g s CR_PACKET_ID); intros _; exists o; auto|].
      rewrite <- (finish_crash_pid now o s) by (try assumption; congruence).
      apply steps_one. apply P_sent; [rewrite crash_eq; exact Hc| |auto]. intros H. exfalso. exact (not_ok_crash _ _ H).
    + apply steps_one. apply P_sent; [assumption| |auto]. intros _. repeat split; auto. congruence.
    + apply steps_one. apply P_sent; [assumption| |auto]. intros _. repeat split; auto; congruence.
Qed.

(** ** The loop *)
Lemma encode_finished e b e' b' : encode_to_buffer e b = (e', b', ER_FINISHED) -> enc_steps e' = [].
Proof.
  unfold encode_to_buffer. destruct e as [l r]. cbn [enc_steps enc_resolver]. revert b. induction l as [|x l IH]; intros b; cbn [encode_steps].
  - intros E. injection E as <- <-. reflexivity.
  - destruct (execute_step x b) as [[y|] b1]; [intros E; discriminate E|apply IH].
Qed.

(** the link is given up: what is left in the io message is never written *)
Definition g_dead : ghost := mkg [] false [] DEAD.
Lemma service_loop_steps now : now <> 0 -> forall rounds b s, sending (current s) = true -> clock (c_out s) = Some now -> (curop s = None -> head_ok s) ->
  let '(s', b', f) := service_loop cf rounds now b s in
  match f with
  | None => steps (mkg [] false (bdata b) FINE, s) (mkg [] false (bdata b') FINE, s') /\ phase s' = phase s
  | Some _ => steps (mkg [] false (bdata b) FINE, s) (g_dead, s') /\ cut s s'
  end.
Proof.
  intros Hn. induction rounds as [|rounds IH]; intros b s Hs Hck Hh; cbn [service_loop]; [split; [constructor|reflexivity]|].
  set (g := mkg [] false (bdata b) FINE).
  assert (forall s', steps (g, s') (g_dead, s')) as Hdie by (intros s'; apply steps_one; apply (P_die cf g s'); intros _; reflexivity).
  set (z := match curop s with
      | Some _ => (s, None)
      | None =>
        let '(s, r) := pull cf now (queued s) s in
        match r with
        | PULLED o => let '(s, ok) := set_current_operation o s in (s, if ok then None else Some K_PROCESSING_FAILURE)
        | NOTHING => (s, None)
        | BAD_DISCONNECT => (s, Some K_PROCESSING_FAILURE)
        end
      end).
  assert (match snd z with
    | None => steps (g, s) (g, fst z) /\ phase (fst z) = phase s
    | Some _ => steps (g, s) (g_dead, fst z) /\ cut s (fst z)
    end) as Hz.
  { unfold z. destruct (curop s) as [o|] eqn:C; [split; [constructor|reflexivity]|]. specialize (Hh eq_refl).
    pose proof (pull_steps g now eq_refl (queued s) s eq_refl eq_refl C Hh) as Hp. destruct (pull cf now (queued s) s) as [s1 r]. destruct r as [o| |].
    - destruct Hp as (s0 & q' & H1 & H2 & -> & H4 & H5 & H6 & H7 & H8).
      assert (may_start s0 o) as M by (unfold may_start in *; apply phase_inv in H5 as (_ & -> & _); exact H7).
      pose proof (start_steps g s0 o q' eq_refl eq_refl eq_refl H2 H6 H4 M) as Hst.
      destruct (set_current_operation o (set_queued q' s0)) as [s2 fine]. destruct Hst as [Hph Hst]. destruct fine; cbn [snd fst].
      + split; [eapply steps_trans; [exact H1|apply Hst]|congruence].
      + split; [eapply steps_trans; [exact H1|exact Hst]|left; congruence].
    - cbn [snd fst]. destruct Hp as (H1 & H2 & _). auto.
    - cbn [snd fst]. destruct Hp as (H1 & H2). split; [eapply steps_trans; [exact H1|apply Hdie]|exact H2]. }
  destruct z as [s1 failure]. cbn [snd fst] in Hz. destruct failure as [e|]; [exact Hz|]. destruct Hz as [Hz Hph].
  destruct (curop s1) as [o|] eqn:C; [|split; assumption].
  destruct (encode_to_buffer (c_enc s1) b) as [[e b2] r] eqn:E.
  assert (steps (g, s1) (mkg [] false (bdata b2) FINE, set_c_enc e s1)) as He.
  { apply steps_one. apply (P_encode cf g s1 (bcap b) e b2 r); [intros _; split; [congruence|reflexivity]|].
    cbn [g_buf g]. rewrite <- E. destruct b; reflexivity. }
  destruct r.
  - assert (sending (current s1) = true) as Hs1 by (apply phase_inv in Hph as (_ & -> & _); exact Hs).
    pose proof (finish_steps (mkg [] false (bdata b2) FINE) now o (set_c_enc e s1) eq_refl C eq_refl eq_refl (encode_finished _ _ _ _ E) Hs1 (eq_trans (steps_clock _ _ _ _ _ Hz) Hck)) as Hf.
    pose proof (finish_phase now o (set_c_enc e s1)) as Hfp. pose proof (finish_curop now o (set_c_enc e s1)) as Hfc.
    generalize dependent (finish_operation cf now o (set_c_enc e s1)). intros s2 Hf Hfp Hfc. change (phase (set_c_enc e s1)) with (phase s1) in Hfp.
    pose proof (operational_ticked cf now s2) as T. pose proof (operational_head now s2 Hn) as O.
    destruct (operational_time cf now s2) as [s3 t]. cbn [fst snd] in T, O.
    destruct (lists_inv _ _ (lists_ticked _ _ T)) as (Hq3 & Hc3 & _). pose proof (phase_ticked _ _ T) as Hp3. apply ticked_quiet in T.
    assert (steps (g, s) (mkg [] false (bdata b2) FINE, s3)) as Hall.
    { eapply steps_trans; [exact Hz|]. eapply steps_trans; [exact He|]. eapply steps_trans; [exact Hf|]. apply Q. exact T. }
    assert (phase s3 = phase s) as Hpa by congruence. assert (current s3 = current s) as Hcur by (apply phase_inv in Hpa; tauto).
    destruct (N.eqb_spec t now) as [->|]; [|split; assumption].
    assert (head_ok s3) as H3.
    { specialize (O eq_refl Hfc). unfold head_ok in *. rewrite Hq3. apply phase_inv in Hp3 as (_ & -> & _). exact O. }
    specialize (IH b2 s3 ltac:(rewrite Hcur; exact Hs) (eq_trans (steps_clock _ _ _ _ _ Hall) Hck) (fun _ => H3)). destruct (service_loop cf rounds now b2 s3) as [[s' b'] f]. destruct f as [e'|].
    + destruct IH as [I1 I2]. split; [eapply steps_trans; eassumption|]. eapply cut_trans; [left; exact Hpa|exact I2].
    + destruct IH as [I1 I2]. split; [eapply steps_trans; eassumption|]. congruence.
  - split; [eapply steps_trans; eassumption|exact Hph].
  - split; [|left; exact Hph]. eapply steps_trans; [exact Hz|]. eapply steps_trans; [exact He|].
    apply steps_one. apply (P_die cf (mkg [] false (bdata b2) FINE)); intros _; reflexivity.
Qed.
Lemma service_operations_steps ev s : e_now ev <> 0 -> clock (c_out s) = Some (e_now ev) -> sending (current s) = true ->
  let '(s', r) := service_operations cf ev s in
  match r with
  | None => steps (g_idle, s) (g_idle, s') /\ phase s' = phase s
  | Some _ => steps (g_idle, s) (g_dead, s') /\ cut s s'
  end.
Proof.
  intros Hn Hck Hs. unfold service_operations. cbv zeta.
  assert (forall s', steps (g_idle, s') (g_dead, s')) as Hdie by (intros s'; apply steps_one; apply (P_die cf g_idle s'); intros _; reflexivity).
  pose proof (operational_ticked cf (e_now ev) s) as T. pose proof (operational_head (e_now ev) s Hn) as O.
  destruct (operational_time cf (e_now ev) s) as [s1 t]. cbn [fst snd] in T, O.
  destruct (lists_inv _ _ (lists_ticked _ _ T)) as (Hq1 & Hc1 & _). pose proof (phase_ticked _ _ T) as Hp1. apply ticked_quiet in T.
  destruct (N.eqb_spec t (e_now ev)) as [->|]; cbn [negb]; [|split; [apply Q; exact T|exact Hp1]].
  assert (curop s1 = None -> head_ok s1) as H1.
  { rewrite Hc1. intros C. specialize (O eq_refl C). unfold head_ok in *. rewrite Hq1. apply phase_inv in Hp1 as (_ & -> & _). exact O. }
  set (z := if settings_valid s1 && cf_flow cf then let '(b, ok) := rl_take thr_cfg (e_now ev) thr_tokens (thr_rl s1) in (set_thr_rl b s1, ok) else (s1, true)).
  assert (quiet s1 (fst z) /\ lists (fst z) = lists s1 /\ phase (fst z) = phase s1) as (Hz & Hl & Hp).
  { unfold z. destruct (settings_valid s1 && cf_flow cf); [|split; [apply quiet_refl|split; reflexivity]].
    pose proof (rlv_take thr_cfg (e_now ev) thr_tokens (thr_rl s1) thr_rate) as Ht.
    destruct (rl_take thr_cfg (e_now ev) thr_tokens (thr_rl s1)) as [b ok]. cbn [fst] in *.
    split; [|split; reflexivity]. split; [reflexivity|]. split; [|reflexivity]. intros [H2 H3]. split; [split; [exact H2|apply Ht; exact H3]|reflexivity]. }
  destruct z as [s2 okz]. cbn [fst] in *. destruct (lists_inv _ _ Hl) as (Hq2 & Hc2 & _).
  assert (steps (g_idle, s) (g_idle, s2)) as H02 by (eapply steps_trans; [apply Q; exact T|apply Q; exact Hz]).
  assert (phase s2 = phase s) as Hp2 by congruence.
  destruct okz; cbn [negb]; [|split; assumption].
  destruct (e_msg ev) as [cap|]; [|split; [eapply steps_trans; [exact H02|apply Hdie]|left; exact Hp2]].
  assert (current s2 = current s) as Hcur by (apply phase_inv in Hp2; tauto).
  assert (curop s2 = None -> head_ok s2) as H2.
  { rewrite Hc2. intros C. specialize (H1 C). unfold head_ok in *. rewrite Hq2. apply phase_inv in Hp as (_ & -> & _). exact H1. }
  pose proof (service_loop_steps (e_now ev) Hn (S (S (length (queued s2)))) (mkbuf cap []) s2 ltac:(rewrite Hcur; exact Hs)
    (eq_trans (steps_clock _ _ _ _ _ H02) Hck) H2) as L.
  destruct (service_loop cf (S (S (length (queued s2)))) (e_now ev) (mkbuf cap []) s2) as [[s3 b] f]. cbn [bdata] in L.
  change (mkg [] false [] FINE) with g_idle in L. destruct f as [e|].
  { destruct L as [L1 L2]. split; [eapply steps_trans; eassumption|]. eapply cut_trans; [left; exact Hp2|exact L2]. }
  destruct L as [L1 L2]. assert (current s3 = current s) as Hcur3 by (apply phase_inv in L2 as (_ & -> & _); exact Hcur).
  destruct (bdata b) as [|x data]; [split; [eapply steps_trans; eassumption|congruence]|].
  destruct (e_send ev).
  - split; [|rewrite <- Hp2, <- L2; reflexivity]. eapply steps_trans; [exact H02|]. eapply steps_trans; [exact L1|].
    eapply steps_trans; [apply (Q cf _ s3 (set_outstanding true (set_pending true s3))); qt|].
    apply steps_one. apply (P_write cf (mkg [] false (x :: data) FINE)). intros _. split; [|reflexivity]. rewrite <- Hs, <- Hcur3. reflexivity.
  - split; [|left; rewrite <- Hp2, <- L2; reflexivity]. eapply steps_trans; [exact H02|]. eapply steps_trans; [exact L1|].
    eapply steps_trans; [apply (Q cf _ s3 (set_pending false s3)); qt|]. apply steps_one. apply (P_die cf (mkg [] false (x :: data) FINE)); intros _; reflexivity.
Qed.
Lemma cutp_closed s s' : sending (current s) = true -> slot s = true -> phase s' = cutp (phase s) -> sending (current s') = false.
Proof. intros H1 H2 H. unfold phase, cutp in H. rewrite H1, H2 in H. injection H; intros. rewrite H8. reflexivity. Qed.
Lemma cutp_not_stopped s s' : sending (current s) = true -> slot s = true -> phase s' = cutp (phase s) -> current s' = STOPPED -> at_rest (c_out s').
Proof. intros H1 H2 H. unfold phase, cutp in H. rewrite H1, H2 in H. injection H; intros. congruence. Qed.
Lemma cut_cutp s s' : cut s s' -> cutp (phase s') = cutp (phase s).
Proof. intros [-> | ->]; [reflexivity|]. apply cutp_idem. Qed.
Lemma service_or_shutdown_steps ev s : e_now ev <> 0 -> clock (c_out s) = Some (e_now ev) -> sending (current s) = true -> slot s = true ->
  steps (g_idle, s) (g_idle, fst (service_or_shutdown cf ev s)) /\
  phase (fst (service_or_shutdown cf ev s)) = if snd (service_or_shutdown cf ev s) then phase s else cutp (phase s).
Proof.
  intros Hn Hck Hs Hsl. unfold service_or_shutdown. pose proof (service_operations_steps ev s Hn Hck Hs) as H.
  destruct (service_operations cf ev s) as [s1 [e|]]; cbn [fst snd]; [|exact H]. destruct H as [H1 H2].
  assert (phase (shutdown_channel cf (e_now ev) e s1) = cutp (phase s)) as Hp by (rewrite shutdown_phase; apply cut_cutp; exact H2).
  split; [|exact Hp]. eapply steps_trans; [exact H1|]. eapply steps_trans; [apply shutdown_steps; intros _; discriminate|].
  apply (closed_steps cf [] false [] DEAD); [eapply cutp_closed|eapply cutp_not_stopped]; eassumption.
Qed.

(** ** The service task *)
Lemma queue_ping_steps g now s : clock (c_out s) = Some now -> current s = CONNECTED -> steps (g, s) (g, queue_ping cf now s) /\ phase (queue_ping cf now s) = phase s /\
  unacked (queue_ping cf now s) = unacked s.
Proof.
  intros Hck Hc. unfold queue_ping, new_op.
  match goal with |- context [reevaluate cf now ?x] => change x with (reset_ping now (push_front P_PINGREQ s)) end.
  split; [|split].
  - eapply steps_trans; [|apply steps_reevaluate]. eapply steps_cons; [apply (P_push_front cf g s P_PINGREQ); [intros _; exact Hc|discriminate]|].
    apply steps_retime; [qh|reflexivity|]. intros _. apply (T_ping cf g (push_front P_PINGREQ s) now); [exact Hc|exact Hck|eexists _, _; split; reflexivity].
  - rewrite phase_reevaluate. reflexivity.
  - destruct (lists_inv _ _ (lists_reevaluate cf now (reset_ping now (push_front P_PINGREQ s)))) as (_ & _ & _ & -> & _). reflexivity.
Qed.
End Decomp3.
