(** Continues Client5_Decomp.v: losing, making and using a connection. *)
From Verif Require Import Base BaseLemmas Mqtt5_Views TopicAlias_Model Encoder5_Model Decoder5_Model RateLimiter_Model RateLimiter_Spec
  RateLimiter_Proofs Validate5_Model Negotiated_Model Client5_State Client5_Model Client5_Spec Client5_Steps Client5_Decomp Client5_Forms.
From Coq Require Import Permutation.
Ltac Zify.zify_post_hook ::= idtac.

Lemma perm_filter {A} (f : A -> bool) l : Permutation l (filter f l ++ filter (fun x => negb (f x)) l).
Proof.
  induction l as [|x l IH]; [constructor|]. cbn [filter]. destruct (f x); cbn [negb app].
  - constructor. exact IH.
  - eapply perm_trans; [apply perm_skip; exact IH|]. apply Permutation_middle.
Qed.

Section Decomp2.
Variable cf : config.
Notation prim := (prim cf).
Notation steps := (steps cf).

Lemma no_ack_no_policy p : requires_ack p = false -> satisfies_policy cf p = false.
Proof.
  intros H. unfold satisfies_policy. destruct (cf_queue cf); try reflexivity; destruct p; cbn [is_request negb requires_ack] in *; try reflexivity; congruence.
Qed.
Lemma no_ack_no_policy_list l : Forall (fun o => requires_ack (op_packet o) = false) l -> Forall (fun o => satisfies_policy cf (op_packet o) = false) l.
Proof. intros H. eapply Forall_impl; [|exact H]. intros o. apply no_ack_no_policy. Qed.

Lemma clist_all now l e b c k s : calm (mkg [] c b k) s \/ Forall (fun o => is_disconnect (op_packet o) = false) l -> Forall (may_drop cf (c_out s) e) l ->
  steps (mkg (l ++ []) c b k, s) (mkg [] c b k, complete_list cf now l e s).
Proof. intros Hcalm H. apply (complete_list_steps cf now l e (mkg (l ++ []) c b k) s []); [reflexivity|exact Hcalm|exact H]. Qed.

(** ** Losing the connection *)
Definition unsend (s : client) : client := match curop s with Some o => set_curop None (set_queued (o :: queued s) s) | None => s end.
Lemma unsend_steps g s : down g s -> steps (g, s) (g, unsend s).
Proof.
  intros Hd. unfold unsend. destruct (curop s) as [o|] eqn:E; [|constructor]. apply steps_one. apply P_unsend; [exact E|]. intros _. exact Hd.
Qed.
Lemma unsend_facts s : phase (unsend s) = phase s /\ curop (unsend s) = None /\ wc (unsend s) = wc s.
Proof. unfold unsend. destruct (curop s) eqn:E; repeat split; auto. Qed.

Definition disc1 now s := complete_list cf now (wc (unsend s)) K_OFFLINE_QUEUE_POLICY (set_wc [] (unsend s)).
Definition disc2 now s :=
  complete_list cf now (filter (fails_policy cf) (queued s)) K_OFFLINE_QUEUE_POLICY (set_queued (filter (fun o => negb (fails_policy cf o)) (queued s)) s).
Definition disc3 now s :=
  complete_list cf now (filter (unacked_fails_policy cf) (map unacked_for_disconnect (unacked s))) K_OFFLINE_QUEUE_POLICY
    (set_unacked (filter (fun o => negb (unacked_fails_policy cf o)) (map unacked_for_disconnect (unacked s))) s).
Definition disc4 s := set_c_alias (mkin (in_table (c_alias (reset_manual (set_pq [] (set_table [] s))))) false) (reset_manual (set_pq [] (set_table [] s))).
Lemma on_disconnection_eq now s : on_disconnection cf now s = disc4 (disc3 now (disc2 now (disc1 now s))).
Proof. reflexivity. Qed.

Lemma policy_filter l : Forall (fun o => satisfies_policy cf (op_packet o) = false) (filter (fails_policy cf) l).
Proof. apply Forall_forall. intros o H. apply filter_In in H as [_ H]. unfold fails_policy in H. destruct (satisfies_policy _ _); [discriminate|reflexivity]. Qed.
Lemma policy_filter_kept l : Forall (fun o => satisfies_policy cf (op_packet o) = true) (filter (fun o => negb (fails_policy cf o)) l).
Proof. apply Forall_forall. intros o H. apply filter_In in H as [_ H]. unfold fails_policy in H. destruct (satisfies_policy _ _); [reflexivity|discriminate]. Qed.
Lemma policy_unacked l : Forall (fun o => satisfies_policy cf (op_packet o) = false) (filter (unacked_fails_policy cf) l).
Proof.
  apply Forall_forall. intros o H. apply filter_In in H as [_ H]. unfold unacked_fails_policy in H. destruct (is_acked_publish _); [discriminate|].
  destruct (satisfies_policy _ _); [discriminate|reflexivity].
Qed.
Lemma resting_kept l : Forall (resting cf) (filter (fun o => negb (unacked_fails_policy cf o)) (map unacked_for_disconnect l)).
Proof.
  apply Forall_forall. intros o H. apply filter_In in H as [H1 H2]. apply in_map_iff in H1 as (o' & <- & _). exists o'. split; [reflexivity|].
  destruct (unacked_fails_policy _ _); [discriminate|reflexivity].
Qed.

Lemma disc1_steps b k now s : Forall (fun o => requires_ack (op_packet o) = false) (wc s) -> down (mkg [] false b k) s ->
  steps (mkg [] false b k, s) (mkg [] false b k, disc1 now s).
Proof.
  intros Hw Hd. eapply steps_trans; [apply unsend_steps; exact Hd|]. unfold disc1.
  destruct (unsend_facts s) as (Hp & Hc & Hww). generalize dependent (unsend s). intros s1 Hp Hc Hww.
  eapply steps_cons; [apply P_take_wc|].
  apply clist_all; [left; eapply down_calm; eapply (down_cut _ s); [left; exact Hp|exact Hd]|]. rewrite Hww. apply no_ack_no_policy_list. exact Hw.
Qed.
Lemma disc1_facts now s : cut s (disc1 now s) /\ curop (disc1 now s) = None /\ wc (disc1 now s) = [].
Proof.
  unfold disc1. destruct (unsend_facts s) as (Hp & Hc & Hw). generalize dependent (unsend s). intros s1 Hp Hc Hw.
  pose proof (complete_list_cut cf now (wc s1) K_OFFLINE_QUEUE_POLICY (set_wc [] s1)) as HC.
  pose proof (lists2_inv _ _ (complete_list_lists2 cf now (wc s1) K_OFFLINE_QUEUE_POLICY (set_wc [] s1))) as HL.
  generalize dependent (complete_list cf now (wc s1) K_OFFLINE_QUEUE_POLICY (set_wc [] s1)). intros s2 HC HL.
  destruct HL as (_ & L2 & L3 & _). split; [|split].
  - apply cut_trans with s1; [left; exact Hp|]. exact HC.
  - rewrite L2. exact Hc.
  - rewrite L3. reflexivity.
Qed.
Lemma disc2_steps b k now s : down (mkg [] false b k) s -> steps (mkg [] false b k, s) (mkg [] false b k, disc2 now s).
Proof.
  intros Hd. unfold disc2. eapply steps_cons.
  { apply (P_take_queued cf _ s (filter (fails_policy cf) (queued s)) (filter (fun o => negb (fails_policy cf o)) (queued s))); intros _.
    - split; [apply perm_filter|exact Hd].
    - left; reflexivity. }
  apply clist_all; [left; eapply down_calm; exact Hd|]. apply policy_filter.
Qed.
Lemma disc2_facts now s : cut s (disc2 now s) /\ curop (disc2 now s) = curop s /\ wc (disc2 now s) = wc s /\
  Forall (fun o => satisfies_policy cf (op_packet o) = true) (queued (disc2 now s)).
Proof.
  unfold disc2. set (l := filter (fails_policy cf) (queued s)). set (s0 := set_queued _ s).
  pose proof (complete_list_cut cf now l K_OFFLINE_QUEUE_POLICY s0) as HC.
  pose proof (lists2_inv _ _ (complete_list_lists2 cf now l K_OFFLINE_QUEUE_POLICY s0)) as HL.
  generalize dependent (complete_list cf now l K_OFFLINE_QUEUE_POLICY s0). intros s2 HC HL.
  destruct HL as (L1 & L2 & L3 & _). repeat split; [exact HC|rewrite L2; reflexivity|rewrite L3; reflexivity|].
  rewrite L1. apply policy_filter_kept.
Qed.
Lemma disc3_steps b k now s : down (mkg [] false b k) s -> steps (mkg [] false b k, s) (mkg [] true b k, disc3 now s).
Proof.
  intros Hd. unfold disc3. eapply steps_cons; [apply P_begin_clear|]. cbn [with_clearing g_hand g_buf g_link]. eapply steps_cons.
  { apply (P_unacked cf _ s (filter (unacked_fails_policy cf) (map unacked_for_disconnect (unacked s)))
      (filter (fun o => negb (unacked_fails_policy cf o)) (map unacked_for_disconnect (unacked s)))); intros _.
    - split; [reflexivity|]. exact Hd.
    - apply perm_filter.
    - right; reflexivity. }
  apply clist_all; [left; eapply down_calm; exact Hd|]. apply policy_unacked.
Qed.
Lemma disc3_facts now s : cut s (disc3 now s) /\ curop (disc3 now s) = curop s /\ wc (disc3 now s) = wc s /\ queued (disc3 now s) = queued s /\
  Forall (resting cf) (unacked (disc3 now s)).
Proof.
  unfold disc3. set (l := filter (unacked_fails_policy cf) _). set (s0 := set_unacked _ s).
  pose proof (complete_list_cut cf now l K_OFFLINE_QUEUE_POLICY s0) as HC.
  pose proof (lists2_inv _ _ (complete_list_lists2 cf now l K_OFFLINE_QUEUE_POLICY s0)) as HL.
  generalize dependent (complete_list cf now l K_OFFLINE_QUEUE_POLICY s0). intros s2 HC HL.
  destruct HL as (L1 & L2 & L3 & L4 & _). repeat split; [exact HC|rewrite L2; reflexivity|rewrite L3; reflexivity|rewrite L1; reflexivity|].
  rewrite L4. apply resting_kept.
Qed.
Lemma disc4_facts s : phase (disc4 s) = phase s /\ curop (disc4 s) = curop s /\ wc (disc4 s) = wc s /\ queued (disc4 s) = queued s /\
  unacked (disc4 s) = unacked s /\ table (disc4 s) = [] /\ pq (disc4 s) = [] /\ mc (disc4 s) = [].
Proof.
  unfold disc4. pose proof (reset_manual_mc (set_pq [] (set_table [] s))) as E0. destruct (reset_manual_lists (set_pq [] (set_table [] s))) as (E1 & E2 & E3 & E4 & E5 & E6 & E7).
  generalize dependent (reset_manual (set_pq [] (set_table [] s))). intros s1 E0 E1 E2 E3 E4 E5 E6 E7.
  repeat split; [exact E7|exact E2|exact E3|exact E1|exact E4|exact E5|exact E6|exact E0].
Qed.
Lemma disc4_steps b k s : down (mkg [] false b k) s -> steps (mkg [] true b k, s) (mkg [] false b k, disc4 s).
Proof.
  intros Hd. eapply steps_cons; [apply P_end_clear; intros _; exact Hd|]. eapply steps_cons; [apply P_cancel_manual; intros _; exact Hd|].
  apply Q. unfold disc4. generalize (reset_manual (set_pq [] (set_table [] s))). intros s1. qt.
Qed.
Lemma on_disconnection_cut now s : cut s (on_disconnection cf now s).
Proof.
  rewrite on_disconnection_eq. eapply cut_trans; [apply (disc1_facts now s)|]. eapply cut_trans; [apply (disc2_facts now)|].
  eapply cut_trans; [apply (disc3_facts now)|]. left. apply disc4_facts.
Qed.
Lemma on_disconnection_cleared now s : cleared cf (on_disconnection cf now s).
Proof.
  rewrite on_disconnection_eq. destruct (disc1_facts now s) as (_ & C1 & W1). generalize dependent (disc1 now s). intros s1 C1 W1.
  destruct (disc2_facts now s1) as (_ & C2 & W2 & Q2). generalize dependent (disc2 now s1). intros s2 C2 W2 Q2.
  destruct (disc3_facts now s2) as (_ & C3 & W3 & Q3 & U3). generalize dependent (disc3 now s2). intros s3 C3 W3 Q3 U3.
  destruct (disc4_facts s3) as (_ & C4 & W4 & Q4 & U4 & T4 & P4 & M4). unfold cleared. rewrite C4, W4, Q4, U4, T4, P4, M4.
  repeat split; [congruence|congruence| |exact U3]. rewrite Q3. exact Q2.
Qed.
Lemma on_disconnection_steps b k now s : Forall (fun o => requires_ack (op_packet o) = false) (wc s) -> down (mkg [] false b k) s ->
  steps (mkg [] false b k, s) (mkg [] false b k, on_disconnection cf now s).
Proof.
  intros Hw Hd. rewrite on_disconnection_eq. eapply steps_trans; [apply (disc1_steps b k now); assumption|].
  assert (down (mkg [] false b k) (disc1 now s)) as D1 by (eapply down_cut; [apply (disc1_facts now s)|exact Hd]).
  generalize dependent (disc1 now s). intros s1 D1. eapply steps_trans; [apply (disc2_steps b k now); assumption|].
  assert (down (mkg [] false b k) (disc2 now s1)) as D2 by (eapply down_cut; [apply (disc2_facts now s1)|exact D1]).
  generalize dependent (disc2 now s1). intros s2 D2. eapply steps_trans; [apply (disc3_steps b k now); assumption|].
  apply disc4_steps. eapply down_cut; [apply (disc3_facts now s2)|exact D2].
Qed.

(** ** Reconnecting *)
Lemma enter_pending_steps g ev s : calm g s -> cleared cf s -> life s = LS_NONE -> busy (current s) = true -> clock (c_out s) = Some (e_now ev) -> steps (g, s) (g, enter_pending_reconnect cf ev s).
Proof.
  intros Hcalm Hc Hl Hb Hck. unfold enter_pending_reconnect. destruct (cstate_eqb (current s) PENDING_RECONNECT); [constructor|].
  eapply steps_trans; [|apply steps_reevaluate]. apply steps_one.
  apply (P_state cf g s PENDING_RECONNECT (c_tim (set_recount (u64 (recount s + 1)) (set_reconnect_at (add_sat (e_now ev) (ms_to_ns (reconnect_delay_ms cf (e_rnd ev) s))) s)))); intros _;
    [split; assumption|assumption| |discriminate|discriminate]. split; [exact Hb|]. exists (e_now ev), (e_rnd ev). split; [exact Hck|reflexivity].
Qed.
Definition to_pending (p : dstate * cstate * lstate * bool * chstate * bool * bool * bool) :=
  let '(d, _, l, sl, ch, i, h, r) := p in (d, PENDING_RECONNECT, l, sl, ch, i, h, r).
Lemma enter_pending_phase ev s : phase (enter_pending_reconnect cf ev s) = to_pending (phase s).
Proof.
  unfold enter_pending_reconnect. destruct (cstate_eqb (current s) PENDING_RECONNECT) eqn:C.
  - unfold phase, to_pending. destruct (current s); try discriminate C. reflexivity.
  - rewrite phase_reevaluate. reflexivity.
Qed.
Lemma enter_pending_lists ev s : lists (enter_pending_reconnect cf ev s) = lists s.
Proof. unfold enter_pending_reconnect. destruct (cstate_eqb _ _); [reflexivity|]. rewrite lists_reevaluate. reflexivity. Qed.

Lemma channel_gone_steps ev err s : busy (current s) = true -> clock (c_out s) = Some (e_now ev) -> Forall (fun o => requires_ack (op_packet o) = false) (wc s) -> steps (g_idle, s) (g_idle, channel_gone cf ev err s).
Proof.
  intros Hb Hck Hw. unfold channel_gone. set (e := match err with None => K_UNEXPECTED_HANGUP | Some n => K_ENV n end).
  pose proof (emit_final0_steps cf g_idle e s) as Hst1. eapply steps_trans; [exact Hst1|]. apply steps_clock in Hst1. rewrite Hck in Hst1. clear Hck.
  pose proof (emit_final_phase e None None s) as Hph. pose proof (emit_final_lists e None None s) as Hl.
  generalize dependent (emit_final e None None s). intros s1 Hck Hph Hl.
  assert (wc s1 = wc s) as Hwc by (apply lists_lists2 in Hl; apply lists2_inv in Hl; apply Hl).
  assert (life s1 = LS_NONE) as Hlife by (unfold phase, no_life in Hph; injection Hph; auto).
  eapply steps_cons; [apply P_die; intros _; reflexivity|]. cbn [with_buf with_link g_idle g_hand g_clearing g_link].
  eapply steps_trans; [apply (Q _ _ s1 (set_slot false s1)); qt|].
  assert (busy (current s1) = true) as Hb1 by (unfold phase, no_life in Hph; injection Hph; intros; congruence).
  pose proof (on_disconnection_steps [] DEAD (e_now ev) (set_slot false s1) ltac:(change (wc (set_slot false s1)) with (wc s1); rewrite Hwc; exact Hw) ltac:(left; reflexivity)) as Hst2.
  eapply steps_trans; [exact Hst2|]. apply steps_clock in Hst2. change (c_out (set_slot false s1)) with (c_out s1) in Hst2. rewrite Hck in Hst2.
  pose proof (on_disconnection_cut (e_now ev) (set_slot false s1)) as HC. pose proof (on_disconnection_cleared (e_now ev) (set_slot false s1)) as HCl.
  generalize dependent (on_disconnection cf (e_now ev) (set_slot false s1)). intros s2 Hck2 HC HCl.
  assert (busy (current s2) = true) as Hb2.
  { apply cut_inv in HC as (_ & HC & _). destruct HC as [HC|HC]; [rewrite HC; exact Hb1|destruct HC as (_ & _ & HC & _); rewrite HC; reflexivity]. }
  assert (life s2 = LS_NONE) as Hlife2.
  { apply cut_inv in HC as (_ & _ & [HC|HC] & _); [|exact HC]. rewrite HC. exact Hlife. }
  destruct (wants_connection s2).
  - eapply steps_trans; [apply (enter_pending_steps _ ev); [intros _; discriminate|assumption..]|]. apply steps_one.
    apply (P_closed cf (mkg [] false [] DEAD) (enter_pending_reconnect cf ev s2)); intros _;
    pose proof (enter_pending_phase ev s2) as Hp; unfold phase, to_pending in Hp; injection Hp; intros;
    match goal with H : current (enter_pending_reconnect _ _ _) = _ |- _ => rewrite H in * end; [reflexivity|discriminate].
  - eapply steps_trans; [apply enter_stopped_steps; assumption|]. apply steps_one.
    apply (P_closed cf (mkg [] false [] DEAD) (enter_stopped cf (e_now ev) s2)); intros _; [|intros _; apply enter_stopped_rest; intros Hx; rewrite Hx in Hb2; discriminate Hb2].
    pose proof (enter_stopped_phase cf (e_now ev) s2 Hlife2) as Hp. unfold phase at 1 in Hp. unfold stopped_phase, phase in Hp.
    destruct (current s2); injection Hp; intros; match goal with H : current (enter_stopped _ _ _) = _ |- _ => rewrite H end; reflexivity.
Qed.
(** phase after the channel is gone *)
Lemma channel_gone_phase ev err s : let s' := channel_gone cf ev err s in
  (current s' = PENDING_RECONNECT \/ current s' = STOPPED) /\ life s' = LS_NONE /\ slot s' = false /\ chan s' = chan s /\
  in_service s' = in_service s /\ desired s' = desired s.
Proof.
  cbv zeta. unfold channel_gone. set (e := match err with None => K_UNEXPECTED_HANGUP | Some n => K_ENV n end).
  pose proof (emit_final_phase e None None s) as Hph. generalize dependent (emit_final e None None s). intros s1 Hph.
  unfold phase, no_life in Hph. injection Hph; intros P1 P2 P3 P4 P5 P6 P7 P8.
  pose proof (on_disconnection_cut (e_now ev) (set_slot false s1)) as HC.
  generalize dependent (on_disconnection cf (e_now ev) (set_slot false s1)). intros s2 HC.
  apply cut_inv in HC as (C1 & C2 & C3 & C4 & C5 & C6 & C7 & C8).
  assert (life s2 = LS_NONE) as HL by (destruct C3 as [C3|C3]; [rewrite C3; exact P6|exact C3]).
  assert (slot s2 = false) as HS by (rewrite C4; reflexivity).
  assert (chan s2 = chan s) as HH by (rewrite C5; exact P4).
  assert (in_service s2 = in_service s) as HI by (rewrite C6; exact P3).
  assert (desired s2 = desired s) as HD by (rewrite C1; exact P8).
  destruct (wants_connection s2).
  - pose proof (enter_pending_phase ev s2) as Hp. generalize dependent (enter_pending_reconnect cf ev s2). intros s3 Hp.
    unfold phase, to_pending in Hp. injection Hp; intros. repeat split; try congruence. left; assumption.
  - pose proof (enter_stopped_phase cf (e_now ev) s2 HL) as Hp. generalize dependent (enter_stopped cf (e_now ev) s2). intros s3 Hp.
    unfold stopped_phase, phase in Hp. destruct (current s2); injection Hp; intros; repeat split; try congruence; right; assumption.
Qed.
Lemma channel_gone_cleared ev err s : cleared cf (channel_gone cf ev err s).
Proof.
  unfold channel_gone. match goal with |- context [on_disconnection cf ?n ?x] => pose proof (on_disconnection_cleared n x) as H;
    generalize dependent (on_disconnection cf n x) end. intros s1 H. destruct (wants_connection s1).
  - eapply lists_cleared; [apply enter_pending_lists|exact H].
  - apply enter_stopped_cleared. exact H.
Qed.

(** ** Connecting *)
Lemma enter_connecting_steps g ev s : clock (c_out s) = Some (e_now ev) -> (current s = PENDING_RECONNECT -> reconnect_at s <= e_now ev) -> g_link g = FINE -> g_hand g = [] -> (current s = STOPPED \/ current s = PENDING_RECONNECT) -> life s = LS_NONE -> cleared cf s ->
  steps (g, s) (g, enter_connecting cf ev s).
Proof.
  intros Hck Hat Hg Hh Hc Hl Hcl. unfold enter_connecting.
  replace (cstate_eqb (current s) CONNECTING) with false by (destruct Hc as [-> | ->]; reflexivity).
  eapply steps_cons; [apply (P_attempt cf g s); intros _; [split; assumption|exact Hg|exact Hh|eauto]|].
  set (s1 := emit (O_LIFE ATTEMPTING_CONNECT) (set_life LS_CONNECTING (set_should_reset false (set_clean_err K_SUCCESS (set_current CONNECTING s))))).
  eapply steps_trans; [apply (Q _ _ _ s1); qt|]. eapply steps_trans; [|apply steps_reevaluate]. destruct (e_connect ev) as [n|].
  - pose proof (emit_final0_steps cf g (K_ENV n) s1) as Hst. eapply steps_trans; [exact Hst|]. apply enter_pending_steps; [intros _ v Hv; congruence|..].
    + eapply lists_cleared; [apply emit_final_lists|]. exact Hcl.
    + clear Hst. pose proof (emit_final_phase (K_ENV n) None None s1) as H. generalize dependent (emit_final (K_ENV n) None None s1). intros s2 H.
      unfold phase, no_life in H. injection H; auto.
    + clear Hst. pose proof (emit_final_phase (K_ENV n) None None s1) as H. generalize dependent (emit_final (K_ENV n) None None s1). intros s2 H. unfold phase, no_life in H. injection H; intros. match goal with H : current s2 = _ |- _ => rewrite H end. reflexivity.
    + rewrite (steps_clock _ _ _ _ _ Hst). exact Hck.
  - clearbody s1. eapply steps_trans; [apply (Q cf g s1 (set_chan CH_ATTEMPT s1)); qt|]. apply steps_one. apply prim_emit; [reflexivity|intros _; right; reflexivity].
Qed.
Lemma enter_connecting_phase ev s : (current s = STOPPED \/ current s = PENDING_RECONNECT) -> let s' := enter_connecting cf ev s in
  slot s' = slot s /\ in_service s' = in_service s /\ desired s' = desired s /\
  ((current s' = CONNECTING /\ life s' = LS_CONNECTING /\ chan s' = CH_ATTEMPT) \/
   (current s' = PENDING_RECONNECT /\ life s' = LS_NONE /\ chan s' = chan s)).
Proof.
  intros Hc. cbv zeta. unfold enter_connecting.
  replace (cstate_eqb (current s) CONNECTING) with false by (destruct Hc as [-> | ->]; reflexivity).
  set (s1 := emit (O_LIFE ATTEMPTING_CONNECT) (set_life LS_CONNECTING (set_should_reset false (set_clean_err K_SUCCESS (set_current CONNECTING s))))).
  match goal with |- context [reevaluate cf ?n ?x] => pose proof (phase_reevaluate cf n x) as Hr; generalize dependent (reevaluate cf n x) end.
  intros s2 Hr. destruct (e_connect ev) as [n|].
  - rewrite enter_pending_phase, emit_final_phase in Hr. unfold phase, no_life, to_pending in Hr. injection Hr; intros. repeat split; try assumption.
    right; auto.
  - unfold phase in Hr. injection Hr; intros. repeat split; try assumption. left; auto.
Qed.
Lemma enter_connecting_lists ev s : lists (enter_connecting cf ev s) = lists s.
Proof.
  unfold enter_connecting. destruct (cstate_eqb (current s) CONNECTING); [reflexivity|]. rewrite lists_reevaluate. destruct (e_connect ev).
  - rewrite enter_pending_lists, emit_final_lists. reflexivity.
  - reflexivity.
Qed.

Lemma closed_steps h c b k s : sending (current s) = false -> (current s = STOPPED -> at_rest (c_out s)) -> steps (mkg h c b k, s) (mkg h c [] FINE, s).
Proof. intros H1 H2. apply steps_one. apply (P_closed cf (mkg h c b k) s); intros _; assumption. Qed.
Lemma stop_steps now s : current s <> STOPPED -> sending (current s) = false -> cleared cf s -> life s = LS_NONE -> steps (g_idle, s) (g_idle, enter_stopped cf now s).
Proof.
  intros Hs Hn Hc Hl. eapply steps_cons; [apply P_die; intros _; reflexivity|]. cbn [with_buf with_link g_idle g_hand g_clearing g_link].
  eapply steps_trans; [apply (enter_stopped_steps cf [] now); assumption|]. apply closed_steps; [|intros _; apply enter_stopped_rest; exact Hs].
  pose proof (enter_stopped_phase cf now s Hl) as Hp. unfold phase, stopped_phase in Hp. destruct (current s); injection Hp; intros; match goal with H : current (enter_stopped _ _ _) = _ |- _ => rewrite H end; reflexivity.
Qed.
Lemma shutdown_closed now e s : sending (current s) = true -> slot s = true -> sending (current (shutdown_channel cf now e s)) = false.
Proof.
  intros H1 H2. pose proof (shutdown_phase cf now e s) as H. unfold phase, cutp in H. rewrite H1, H2 in H. injection H; intros.
  match goal with H : current _ = CHANNEL_SHUTDOWN |- _ => rewrite H end. reflexivity.
Qed.
Lemma shutdown_not_stopped now e s : sending (current s) = true -> slot s = true -> current (shutdown_channel cf now e s) = STOPPED -> at_rest (c_out (shutdown_channel cf now e s)).
Proof.
  intros H1 H2 H3. pose proof (shutdown_phase cf now e s) as H. unfold phase, cutp in H. rewrite H1, H2 in H. injection H; intros. congruence.
Qed.
Lemma shutdown_idle_steps h c b k now e s : calm (mkg h c b k) s -> sending (current s) = true -> slot s = true ->
  steps (mkg h c b k, s) (mkg h c [] FINE, shutdown_channel cf now e s).
Proof. intros Hcalm H1 H2. eapply steps_trans; [apply shutdown_steps; exact Hcalm|]. apply closed_steps; [apply shutdown_closed|apply shutdown_not_stopped]; assumption. Qed.

Lemma enter_mqtt_connect_steps ev s : current s = CONNECTING -> curop s = None -> wc s = [] -> slot s = true ->
  steps (g_idle, s) (g_idle, enter_mqtt_connect cf ev s).
Proof.
  intros Hc Hcur Hwc Hsl. unfold enter_mqtt_connect. rewrite Hc. cbn [cstate_eqb crash_unless]. rewrite Hcur. cbn [crash_unless].
  eapply steps_cons; [apply (prim_state cf g_idle s MQTT_CONNECT); [discriminate|intros _; exact Hc|intros _ _; discriminate|discriminate|discriminate]|]. cbn [with_link g_idle g_hand g_clearing g_buf].
  set (s1 := set_current MQTT_CONNECT s). change (should_reset s1) with (should_reset s). destruct (should_reset s).
  - eapply steps_trans; [|apply steps_reevaluate]. apply shutdown_idle_steps; [discriminate|reflexivity|exact Hsl].
  - set (s2 := set_c_dec (d5_reset (c_dec s1)) (set_pending false s1)). eapply steps_trans; [apply (Q _ _ s1 s2); qt|].
    eapply steps_cons; [apply (P_open cf _ s2); intros _; split; [reflexivity|split; [reflexivity|exact Hcur]]|].
    set (s3 := set_c_neg (ng_reset (c_neg s2) (connect_view cf s2)) (set_c_enc (mkencoder [] (enc_resolver (c_enc s2))) s2)).
    cbn [with_link g_hand g_clearing g_buf].
    set (view := with_client_id (ng_client_id (c_neg s3)) (connect_view cf s2)).
    change (steps (mkg [] false [] FINE, s3) (g_idle,
      (if negb (validate_connect view) then reevaluate cf (e_now ev) (shutdown_channel cf (e_now ev) K_CONNECT_OPTIONS s3) else
       reevaluate cf (e_now ev) (set_connack_to (u64 (e_now ev + ms_to_ns (if cf_connack_timeout_ms cf =? 0 then 10000 else cf_connack_timeout_ms cf)))
         (reevaluate cf (e_now ev) (push_front (P_CONNECT view) s3)))))).
    destruct (validate_connect view) eqn:V; cbn [negb].
    + eapply steps_cons; [apply (P_push_front cf _ s3 (P_CONNECT view)); [intros _; repeat split; assumption|intros _ v Ev; injection Ev as <-; reflexivity]|].
      eapply steps_trans; [apply (steps_reevaluate cf _ (e_now ev))|]. eapply steps_trans; [|apply steps_reevaluate].
      pose proof (phase_reevaluate cf (e_now ev) (push_front (P_CONNECT view) s3)) as Hph. apply phase_inv in Hph as (_ & Hph & _). change (current (push_front ?a s3)) with (current s3) in Hph.
      generalize dependent (reevaluate cf (e_now ev) (push_front (P_CONNECT view) s3)). intros s4 Hph. apply steps_retime; [qh|reflexivity|]. intros _. apply T_connack. rewrite Hph. reflexivity.
    + eapply steps_trans; [|apply steps_reevaluate]. apply shutdown_idle_steps; [discriminate|reflexivity|exact Hsl].
Qed.
Lemma enter_mqtt_connect_phase ev s : current s = CONNECTING -> curop s = None -> slot s = true ->
  let s' := enter_mqtt_connect cf ev s in
  slot s' = slot s /\ in_service s' = in_service s /\ desired s' = desired s /\ chan s' = chan s /\
  ((current s' = MQTT_CONNECT /\ life s' = life s) \/ (current s' = CHANNEL_SHUTDOWN /\ life s' = LS_NONE)).
Proof.
  intros Hc Hcur Hsl. cbv zeta. unfold enter_mqtt_connect. rewrite Hc. cbn [cstate_eqb crash_unless]. rewrite Hcur. cbn [crash_unless].
  change (should_reset (set_current MQTT_CONNECT s)) with (should_reset s). destruct (should_reset s).
  - match goal with |- context [reevaluate cf ?n ?x] => pose proof (phase_reevaluate cf n x) as Hr; generalize dependent (reevaluate cf n x) end.
    intros s2 Hr. rewrite shutdown_phase in Hr. unfold phase, cutp in Hr.
    change (slot (set_current MQTT_CONNECT s)) with (slot s) in Hr. rewrite Hsl in Hr. injection Hr; intros. repeat split; try assumption; try congruence. auto.
  - match goal with |- context [negb (validate_connect ?v)] => destruct (validate_connect v) end; cbn [negb].
    + unfold new_op. match goal with |- context [set_connack_to ?t (reevaluate cf ?n ?x)] =>
        pose proof (phase_reevaluate cf n x) as Hr; generalize dependent (reevaluate cf n x) end.
      intros s2 Hr. match goal with |- context [reevaluate cf ?n ?x] => pose proof (phase_reevaluate cf n x) as Hr2; generalize dependent (reevaluate cf n x) end.
      intros s3 Hr2. change (phase (set_connack_to ?t s2)) with (phase s2) in Hr2. rewrite Hr in Hr2. unfold phase in Hr2. injection Hr2; intros.
      repeat split; try assumption. left; auto.
    + match goal with |- context [reevaluate cf ?n ?x] => pose proof (phase_reevaluate cf n x) as Hr; generalize dependent (reevaluate cf n x) end.
      intros s2 Hr. rewrite shutdown_phase in Hr. unfold phase, cutp in Hr.
      match type of Hr with context [slot ?x] => match x with s2 => fail 1 | _ => change (slot x) with (slot s) in Hr end end.
      rewrite Hsl in Hr. injection Hr; intros. repeat split; try assumption; try congruence. auto.
Qed.
Lemma channel_up_steps ev s : current s = CONNECTING -> cleared cf s -> steps (g_idle, s) (g_idle, channel_up cf ev s).
Proof.
  intros Hc (Hcur & Hwc & _). unfold channel_up. rewrite Hc. cbn [cstate_eqb crash_unless]. destruct (wants_connection s); cbn [negb].
  - eapply steps_trans; [apply (Q _ _ s (set_slot true s)); qt|]. destruct (e_slot ev) as [n|].
    + eapply steps_trans; [apply (ecs_steps cf g_idle (e_now ev)); [intros _; discriminate|left; exact Hc]|]. apply steps_one. apply prim_emit; [reflexivity|intros _; right; reflexivity].
    + apply enter_mqtt_connect_steps; auto.
  - eapply steps_trans; [apply (ecs_steps cf g_idle (e_now ev)); [intros _; discriminate|left; exact Hc]|]. apply steps_one. apply prim_emit; [reflexivity|intros _; right; reflexivity].
Qed.
Lemma channel_up_phase ev s : current s = CONNECTING -> curop s = None -> let s' := channel_up cf ev s in
  in_service s' = in_service s /\ desired s' = desired s /\ chan s' = chan s /\
  ((current s' = MQTT_CONNECT /\ life s' = life s /\ slot s' = true) \/ current s' = CHANNEL_SHUTDOWN).
Proof.
  intros Hc Hcur. cbv zeta. unfold channel_up. rewrite Hc. cbn [cstate_eqb crash_unless]. destruct (wants_connection s); cbn [negb].
  - destruct (e_slot ev) as [n|].
    + pose proof (ecs_phase cf (e_now ev) (set_slot true s)) as H. generalize dependent (enter_channel_shutdown cf (e_now ev) (set_slot true s)).
      intros s1 H. unfold phase, to_shutdown in H. injection H; intros. repeat split; try assumption. right; assumption.
    + destruct (enter_mqtt_connect_phase ev (set_slot true s) Hc Hcur eq_refl) as (H1 & H2 & H3 & H4 & H5).
      repeat split; try assumption. destruct H5 as [[H5 H6]|[H5 H6]]; [left|right; assumption]. repeat split; assumption.
  - pose proof (ecs_phase cf (e_now ev) s) as H. generalize dependent (enter_channel_shutdown cf (e_now ev) s). intros s1 H.
    unfold phase, to_shutdown in H. injection H; intros. repeat split; try assumption. right; assumption.
Qed.

(** ** Connected *)
Lemma set_list_incomplete_shape l : forall s, exists x, snd (set_list_incomplete l s) = set_c_sta x s.
Proof.
  induction l as [|o l IH]; intros s; cbn [set_list_incomplete]; [exists (c_sta s); symmetry; apply set_sta_id|].
  destruct (cs_shape true false o s) as [x Hx]. destruct (change_statistics true false o s) as [o' s1]. cbn [snd] in Hx. subst s1.
  destruct (IH (set_c_sta x s)) as [y Hy]. destruct (set_list_incomplete l (set_c_sta x s)) as [l' s2]. cbn [snd] in *. subst s2. exists y. reflexivity.
Qed.
Lemma complete_list_queued now l e x : forall s, Forall (fun o => is_disconnect (op_packet o) = false) l ->
  complete_list cf now l e (set_queued x s) = set_queued x (complete_list cf now l e s).
Proof.
  induction l as [|o l IH]; intros s H; [reflexivity|]. unfold complete_list in *. cbn [fold_left]. inversion H as [|? ? Ho Hl]; subst.
  rewrite <- IH by assumption. f_equal. unfold complete. rewrite !change_statistics_eq.
  destruct (negb (is_request (op_packet o))); [rewrite Ho; reflexivity|]. destruct (size_of o); [|rewrite Ho; reflexivity].
  change (op_packet (set_stat false false a o)) with (op_packet o). rewrite Ho. reflexivity.
Qed.
Lemma requires_ack_no_disconnect l : Forall (fun o => requires_ack (op_packet o) = true) l -> Forall (fun o => is_disconnect (op_packet o) = false) l.
Proof. intros H. eapply Forall_impl; [|exact H]. intros o. cbv beta. destruct (op_packet o); intros E; first [reflexivity|discriminate E]. Qed.
Lemma Forall_filter {A} (P : A -> Prop) f l : Forall P l -> Forall P (filter f l).
Proof. rewrite !Forall_forall. intros H x Hx. apply filter_In in Hx as [Hx _]. auto. Qed.

Definition requeue now s :=
  if ng_rejoined (c_neg s) then
    set_unacked [] (set_queued (filter (fun o => is_acked_publish (op_packet o)) (unacked s) ++
      filter (fun o => negb (is_acked_publish (op_packet o))) (unacked s) ++ queued s) s)
  else
    let s1 := complete_list cf now (filter (fails_policy cf) (unacked s)) K_OFFLINE_QUEUE_POLICY (set_unacked [] s) in
    set_queued (filter (fun o => negb (fails_policy cf o)) (unacked s) ++ queued s1) s1.
Definition refill s := set_queued (fst (set_list_incomplete (queued s) s)) (snd (set_list_incomplete (queued s) s)).
Definition after_refill now s :=
  let s := flow_reset now s in
  let s := set_c_alias (in_connect (ng_alias_maximum_to_client (c_neg s))) s in
  set_c_enc (mkencoder (enc_steps (c_enc s)) (Some (out_reset (out_new (cf_alias_out cf)) (ng_alias_maximum_to_server (c_neg s))))) s.
Lemma on_connection_eq now s : on_connection cf now s = after_refill now (refill (requeue now s)).
Proof.
  unfold on_connection, after_refill, refill, requeue. cbv zeta.
  match goal with |- (let '(l, s1) := set_list_incomplete (queued ?x) ?x in _) = _ => set (y := x) end.
  destruct (set_list_incomplete (queued y) y) as [l s1]. reflexivity.
Qed.
Lemma requeue_steps b v now s : current s = CONNECTED -> (forall o, curop s = Some o -> is_connect (op_packet o) = true) ->
  Forall (fun o => requires_ack (op_packet o) = true) (unacked s) ->
  steps (mkg [] false b (ACKED v), s) (mkg [] false b (ACKED v), requeue now s).
Proof.
  intros Hc Hcur Hu. unfold requeue. destruct (ng_rejoined (c_neg s)) eqn:Hr.
  - apply steps_one. apply P_requeue; [|intros _; exact Hr]. intros _. repeat split; try assumption. exists v; reflexivity.
  - cbv zeta. set (failed := filter (fails_policy cf) (unacked s)). set (kept := filter (fun o => negb (fails_policy cf o)) (unacked s)).
    assert (Forall (fun o => is_disconnect (op_packet o) = false) failed) as Hf by (apply Forall_filter, requires_ack_no_disconnect, Hu).
    destruct (lists2_inv _ _ (complete_list_lists2 cf now failed K_OFFLINE_QUEUE_POLICY (set_unacked [] s))) as (Hq & _). rewrite Hq.
    rewrite <- complete_list_queued by exact Hf. change (queued (set_unacked [] s)) with (queued s).
    eapply steps_cons; [apply (P_refile cf (mkg [] false b (ACKED v)) s); intros _; [repeat split; try assumption; exists v; reflexivity|exact Hr]|].
    fold failed. fold kept. rewrite <- (app_nil_r failed) at 1. apply clist_all; [right; exact Hf|]. apply policy_filter.
Qed.
Lemma requeue_phase now s : Forall (fun o => requires_ack (op_packet o) = true) (unacked s) -> phase (requeue now s) = phase s.
Proof.
  intros Hu. unfold requeue. destruct (ng_rejoined (c_neg s)); [reflexivity|]. cbv zeta.
  change (phase (set_queued ?x ?y)) with (phase y).
  rewrite complete_list_phase; [reflexivity|]. apply Forall_filter, requires_ack_no_disconnect, Hu.
Qed.
Lemma refill_phase s : phase (refill s) = phase s.
Proof. unfold refill. destruct (set_list_incomplete_shape (queued s) s) as [x Hx]. rewrite Hx. reflexivity. Qed.
Lemma after_refill_phase now s : phase (after_refill now s) = phase s.
Proof.
  unfold after_refill, flow_reset. pose proof (phase_crash_unless (settings_valid s) CR_FLOW_RESET s) as H.
  generalize dependent (crash_unless (settings_valid s) CR_FLOW_RESET s). intros s1 H. exact H.
Qed.
Lemma after_refill_steps b v now s : current s = CONNECTED -> steps (mkg [] false b (ACKED v), s) (mkg [] false b (ACKED v), after_refill now s).
Proof.
  intros Hc. unfold after_refill, flow_reset, settings_valid. rewrite Hc. cbn [crash_unless]. cbv zeta.
  eapply steps_cons; [apply (P_tokens cf (mkg [] false b (ACKED v)) s); intros _; split; [exact Hc|exists v; reflexivity]|].
  set (s1 := set_tokens (ng_receive_maximum (c_neg s)) s).
  set (s2 := set_c_alias (in_connect (ng_alias_maximum_to_client (c_neg s))) (set_pub_rl (rl_reset pub_cfg now) (set_thr_rl (rl_reset thr_cfg now) s1))).
  eapply steps_trans; [apply (Q cf _ s1 s2)|].
  { split; [reflexivity|]. split; [|reflexivity]. intros _. split; [split; apply rlv_reset|reflexivity]. }
  apply steps_one. apply (P_resolver cf (mkg [] false b (ACKED v)) s2). intros _. split; [exact Hc|exists v; reflexivity].
Qed.
Lemma on_connection_steps b v now s : current s = CONNECTED -> (forall o, curop s = Some o -> is_connect (op_packet o) = true) ->
  Forall (fun o => requires_ack (op_packet o) = true) (unacked s) ->
  steps (mkg [] false b (ACKED v), s) (mkg [] false b (ACKED v), on_connection cf now s).
Proof.
  intros Hc Hcur Hu. rewrite on_connection_eq. eapply steps_trans; [apply (requeue_steps b v now); assumption|].
  pose proof (requeue_phase now s Hu) as Hp. generalize dependent (requeue now s). intros s1 Hp.
  eapply steps_cons; [apply P_incomplete|]. fold (refill s1). apply after_refill_steps.
  pose proof (refill_phase s1) as Hp2. rewrite Hp in Hp2. apply phase_inv in Hp2 as (_ & -> & _). exact Hc.
Qed.
Lemma on_connection_phase now s : Forall (fun o => requires_ack (op_packet o) = true) (unacked s) -> phase (on_connection cf now s) = phase s.
Proof. intros H. rewrite on_connection_eq, after_refill_phase, refill_phase. apply requeue_phase. exact H. Qed.

Definition to_connected (p : dstate * cstate * lstate * bool * chstate * bool * bool * bool) :=
  let '(d, _, l, sl, ch, i, _, r) := p in (d, CONNECTED, l, sl, ch, i, true, r).
Lemma enter_connected_steps b v now s : (ng_rejoined (c_neg s) = true -> should_resume cf s = true) -> clock (c_out s) = Some now -> current s = MQTT_CONNECT -> (forall o, curop s = Some o -> is_connect (op_packet o) = true) ->
  Forall (fun o => requires_ack (op_packet o) = true) (unacked s) ->
  steps (mkg [] false b (ACKED v), s) (mkg [] false b (ACKED v), enter_connected cf now s).
Proof.
  intros Hre Hck Hc Hcur Hu. unfold enter_connected. rewrite Hc. cbn [cstate_eqb crash_unless].
  eapply steps_cons; [apply (prim_state cf _ s CONNECTED); [discriminate|intros _; split; [exact Hc|exists v; reflexivity]|intros _ Hx; congruence|discriminate|intros _ _; exact Hre]|].
  pose proof (on_connection_steps b v now (set_current CONNECTED s) eq_refl Hcur Hu) as Hst. eapply steps_trans; [exact Hst|].
  apply steps_clock in Hst. change (c_out (set_current CONNECTED s)) with (c_out s) in Hst. rewrite Hck in Hst.
  pose proof (on_connection_phase now (set_current CONNECTED s) Hu) as Hph. apply phase_inv in Hph as (_ & Hph & _). change (current (set_current CONNECTED s)) with CONNECTED in Hph.
  generalize dependent (on_connection cf now (set_current CONNECTED s)). intros s1 Hck1 Hph. eapply steps_trans; [|apply steps_reevaluate].
  eapply steps_cons; [apply (P_quiet cf _ s1 (set_has_conn true s1)); [qh|intros _; change (c_tim (set_has_conn true s1)) with (c_tim s1); apply T_same|intros _; apply R_up; [exact Hph|exists v; reflexivity]]|]. apply steps_retime; [qh|reflexivity|]. intros _. apply (T_up cf _ (set_has_conn true s1)); [exact Hph|exists v; reflexivity|exact Hck1].
Qed.
Lemma enter_connected_phase now s : current s = MQTT_CONNECT -> Forall (fun o => requires_ack (op_packet o) = true) (unacked s) ->
  phase (enter_connected cf now s) = to_connected (phase s).
Proof.
  intros Hc Hu. unfold enter_connected. rewrite Hc. cbn [cstate_eqb crash_unless]. rewrite phase_reevaluate.
  pose proof (on_connection_phase now (set_current CONNECTED s) Hu) as H.
  generalize dependent (on_connection cf now (set_current CONNECTED s)). intros s1 H. unfold phase in H. injection H; intros.
  unfold phase, to_connected, reset_ping. nrm. congruence.
Qed.
Lemma cs_waiting o s : waiting (fst (change_statistics true false o s)).
Proof.
  rewrite change_statistics_eq. unfold waiting. destruct (is_request (op_packet o)) eqn:R; cbn [negb]; [|left; exact R]. right.
  unfold size_of. destruct (N.eqb_spec (op_size o) 0) as [Z|Z].
  - destruct (get_encoded_size (op_packet o)) as [size|e] eqn:E; cbn [fst]; [left; auto|right]. split; [exact Z|exists e; exact E].
  - left; auto.
Qed.
Lemma list_waiting l : forall s, Forall waiting (fst (set_list_incomplete l s)).
Proof.
  induction l as [|o l IH]; intros s; [constructor|]. cbn [set_list_incomplete]. pose proof (cs_waiting o s) as H.
  destruct (change_statistics true false o s) as [o' s1]. specialize (IH s1). destruct (set_list_incomplete l s1) as [l' s2]. constructor; assumption.
Qed.
Lemma requeue_unacked now s : unacked (requeue now s) = [].
Proof.
  unfold requeue. destruct (ng_rejoined (c_neg s)); [reflexivity|]. cbv zeta. change (unacked (set_queued ?a ?b)) with (unacked b).
  apply (lists2_inv _ _ (complete_list_lists2 cf now (filter (fails_policy cf) (unacked s)) K_OFFLINE_QUEUE_POLICY (set_unacked [] s))).
Qed.
Lemma enter_connected_fresh now s : current s = MQTT_CONNECT -> fresh (enter_connected cf now s).
Proof.
  intros Hc. unfold enter_connected. rewrite Hc. cbn [cstate_eqb crash_unless]. rewrite on_connection_eq.
  assert (fresh (after_refill now (refill (requeue now (set_current CONNECTED s))))) as H.
  { pose proof (requeue_unacked now (set_current CONNECTED s)) as Hu. generalize dependent (requeue now (set_current CONNECTED s)). intros s1 Hu.
    assert (unacked (refill s1) = [] /\ Forall waiting (queued (refill s1))) as [H1 H2].
    { split; [|apply list_waiting]. unfold refill. change (unacked (set_queued ?a ?b)) with (unacked b).
      destruct (set_list_incomplete_shape (queued s1) s1) as [x Hx]. rewrite Hx. exact Hu. }
    generalize dependent (refill s1). intros s2 H1 H2. unfold after_refill, flow_reset.
    assert (unacked (crash_unless (settings_valid s2) CR_FLOW_RESET s2) = unacked s2 /\ queued (crash_unless (settings_valid s2) CR_FLOW_RESET s2) = queued s2) as [E1 E2].
    { destruct (settings_valid s2); [split; reflexivity|]. cbn [crash_unless]. rewrite crash_eq. split; reflexivity. }
    generalize dependent (crash_unless (settings_valid s2) CR_FLOW_RESET s2). intros s3 E1 E2. split; [|split]; [exact (eq_trans E1 H1)|reflexivity|].
    change (Forall waiting (queued s3)). rewrite E2. exact H2. }
  generalize dependent (after_refill now (refill (requeue now (set_current CONNECTED s)))). intros s1 H.
  match goal with |- fresh (reevaluate cf now ?y) => destruct (reevaluate_quiet cf now y) as [Q _]; set (s2 := y) in * end.
  unfold core in Q. injection Q. intros. unfold fresh. repeat match goal with E : _ (reevaluate cf now s2) = _ |- _ => rewrite E; clear E end. exact H.
Qed.
Lemma enter_connected_opened now s : current s = MQTT_CONNECT -> clock (c_out (enter_connected cf now s)) = Some now -> opened (enter_connected cf now s).
Proof.
  intros Hc. unfold enter_connected. rewrite Hc. cbn [cstate_eqb crash_unless]. generalize (on_connection cf now (set_current CONNECTED s)). intros s1.
  match goal with |- context [reevaluate cf now ?y] => destruct (reevaluate_quiet cf now y) as (Q & _ & T); apply (f_equal fst) in T; cbn [fst] in T; set (s2 := y) in * end. intros Hck.
  assert (c_neg (reevaluate cf now s2) = c_neg s2) as Hn by (unfold core in Q; injection Q; auto).
  split; [unfold ping_to; rewrite T; reflexivity|]. exists now. split; [exact Hck|]. unfold reset_ping. rewrite Hn. change (ping (set_ping ?a ?b)) with a. unfold ping. rewrite T. reflexivity.
Qed.
Lemma on_connack_phase now v s : current s = MQTT_CONNECT -> slot s = true -> Forall (fun o => requires_ack (op_packet o) = true) (unacked s) ->
  let s' := on_connack cf now v s in
  slot s' = slot s /\ in_service s' = in_service s /\ desired s' = desired s /\ chan s' = chan s /\
  ((current s' = CONNECTED /\ life s' = LS_CONNECTED) \/ (current s' = CHANNEL_SHUTDOWN /\ life s' = LS_NONE)).
Proof.
  intros Hc Hs Hu. cbv zeta. unfold on_connack. rewrite Hc. cbn [cstate_eqb crash_unless].
  assert (forall e s0, current s0 = MQTT_CONNECT -> slot s0 = true -> let s' := shutdown_channel cf now e (emit_final e (Some v) None s0) in
    slot s' = slot s0 /\ in_service s' = in_service s0 /\ desired s' = desired s0 /\ chan s' = chan s0 /\
    current s' = CHANNEL_SHUTDOWN /\ life s' = LS_NONE) as Hshut.
  { intros e s0 H1 H2. cbv zeta. pose proof (shutdown_phase cf now e (emit_final e (Some v) None s0)) as H. rewrite emit_final_phase in H.
    generalize dependent (shutdown_channel cf now e (emit_final e (Some v) None s0)). intros s1 H. unfold phase, no_life, cutp in H.
    rewrite H1, H2 in H. injection H; intros. repeat split; congruence. }
  destruct (ca_reason_code v <? 128); cbn [negb].
  2: { destruct (Hshut K_CONNECTION_REFUSED s Hc Hs) as (H1 & H2 & H3 & H4 & H5 & H6). repeat split; try assumption. right; auto. }
  match goal with |- context [if ?x then _ else _] => destruct x end.
  { destruct (Hshut K_CANCELLED_FOR_CLEAN_SESSION (set_c_neg (ng_apply (c_neg s) v) s) Hc Hs) as (H1 & H2 & H3 & H4 & H5 & H6).
    repeat split; try assumption. right; auto. }
  pose proof (enter_connected_phase now (set_c_neg (ng_apply (c_neg s) v) s) Hc Hu) as Hp.
  generalize dependent (enter_connected cf now (set_c_neg (ng_apply (c_neg s) v) s)). intros s2 Hp. unfold phase, to_connected in Hp.
  injection Hp; intros. repeat split; try assumption. left. split; [assumption|reflexivity].
Qed.
End Decomp2.
