(** Which updates of Client5_Steps.v the functions of Client5_Model.v perform: event handlers, and whole histories. *)
From Verif Require Import Base BaseLemmas Mqtt5_Views TopicAlias_Model Encoder5_Model Decoder5_Model RateLimiter_Model RateLimiter_Spec
  RateLimiter_Proofs Validate5_Model Negotiated_Model Client5_State Client5_Model Client5_Steps Client5_Decomp Client5_Decomp2 Client5_Forms
  Client5_Decomp3 Client5_Inv0 Client5_Spec Client5_Flow Client5_Safety.
From Coq Require Import Permutation.
Ltac Zify.zify_post_hook ::= idtac.

Section Decomp4.
Variable cf : config.
Notation prim := (prim cf).
Notation steps := (steps cf).
Variable now0 : N.

(** ** Between handlers *)
Definition Px (s : client) : Prop :=
  match current s with
  | STOPPED | PENDING_RECONNECT => life s = LS_NONE /\ chan s = CH_NONE /\ slot s = false
  | CONNECTING => startable s /\ chan s = CH_ATTEMPT /\ slot s = false
  | MQTT_CONNECT => startable s /\ chan s = CH_UP /\ slot s = true
  | CONNECTED => life s = LS_CONNECTED /\ chan s = CH_UP /\ slot s = true
  | CLEAN_DISCONNECT => chan s = CH_UP /\ slot s = true
  | CHANNEL_SHUTDOWN => chan s = CH_UP
  | TERMINATED => True
  end.
Definition ph4 (s : client) := (current s, life s, slot s, chan s).
Lemma Px_mono s s' : ph4 s' = ph4 s -> (has_stop (c_out s) = true -> has_stop (c_out s') = true) -> Px s -> Px s'.
Proof.
  unfold ph4, Px, startable. intros E H. injection E as -> -> -> ->. destruct (current s); tauto.
Qed.
Lemma ph4_phase s s' : phase s' = phase s -> ph4 s' = ph4 s.
Proof. unfold phase, ph4. intros E. injection E; intros. congruence. Qed.
Lemma Px_cut s s' : cut s s' -> chan s = CH_UP -> (has_stop (c_out s) = true -> has_stop (c_out s') = true) -> Px s -> Px s'.
Proof.
  intros [E|E] Hc Hs P; [eapply Px_mono; [apply ph4_phase; exact E|exact Hs|exact P]|].
  unfold phase, cutp in E. injection E; intros _ _ _ E1 E2 _ E3 _. unfold Px in *.
  destruct (current s) eqn:C; cbn [sending andb] in E3; rewrite ?E3.
  - destruct P as (_ & P & _). congruence.
  - destruct P as (_ & P & _). congruence.
  - destruct P as (_ & _ & P). rewrite P; cbn; congruence.
  - destruct P as (_ & _ & P). rewrite P; cbn; congruence.
  - destruct P as (_ & P). rewrite P; cbn; congruence.
  - congruence.
  - destruct P as (_ & P & _). congruence.
  - exact I.
Qed.
Lemma Px_clean s s' : phase s' = cleanp (phase s) -> chan s = CH_UP -> (has_stop (c_out s) = true -> has_stop (c_out s') = true) -> Px s -> Px s'.
Proof.
  intros E Hc Hs P. unfold cleanp, phase at 2 in E. destruct (current s) eqn:C; try (eapply Px_cut; [right|exact Hc|exact Hs|exact P]; rewrite E; unfold phase; rewrite C; reflexivity);
    unfold phase, to_clean in E; injection E; intros _ _ _ E1 E2 _ E3 _; unfold Px in *; rewrite E3; rewrite C in P; intuition congruence.
Qed.

Lemma on_connack_steps now v s : clock (c_out s) = Some now -> current s = MQTT_CONNECT -> startable s -> slot s = true ->
  (forall o, curop s = Some o -> is_connect (op_packet o) = true) -> Forall (fun o => requires_ack (op_packet o) = true) (unacked s) ->
  (exists y, c_out s = I_PACKET (P_CONNACK v) :: y) -> steps (g_idle, s) (g_idle, on_connack cf now v s).
Proof.
  intros Hck Hc Hl Hs Hcur Hu Hv. unfold on_connack. rewrite Hc. cbn [cstate_eqb crash_unless].
  assert (forall b k e s0, current s0 = MQTT_CONNECT -> slot s0 = true ->
    steps (mkg [] false b k, s0) (g_idle, shutdown_channel cf now e (emit_final e (Some v) None s0))) as Hshut.
  { intros b k e s0 H1 H2. eapply steps_trans; [apply (emit_final_steps cf _ e (Some v) None); [intros H; contradiction|intros _ _ Hlf; right; split; assumption]|].
    pose proof (emit_final_phase e (Some v) None s0) as H. generalize dependent (emit_final e (Some v) None s0). intros s1 H.
    unfold phase, no_life in H. injection H; intros. apply (shutdown_idle_steps cf); [intros Hx; congruence| |congruence].
    match goal with H : current s1 = _ |- _ => rewrite H, H1 end. reflexivity. }
  destruct (N.ltb_spec (ca_reason_code v) 128) as [Hrc|_]; cbn [negb]; [|apply (Hshut [] FINE); assumption].
  eapply steps_cons; [apply (P_apply cf g_idle s v); intros _; repeat split; assumption|].
  cbn [with_link g_idle g_hand g_clearing g_buf]. cbv zeta. set (s1 := set_c_neg (ng_apply (c_neg s) v) s).
  match goal with |- context [if ?x then _ else _] => destruct x eqn:Hrj end; [apply Hshut; assumption|].
  assert (ng_rejoined (c_neg s1) = true -> should_resume cf s1 = true) as Hre by (intros Hr; rewrite Hr in Hrj; destruct (should_resume cf s1); [reflexivity|discriminate Hrj]).
  pose proof (enter_connected_steps cf [] v now s1 Hre Hck Hc Hcur Hu) as Hst. eapply steps_trans; [exact Hst|]. pose proof (enter_connected_opened cf now s1 Hc (eq_trans (steps_clock _ _ _ _ _ Hst) Hck)) as Hop. pose proof (steps_stop _ _ _ _ _ Hst) as Hst2; clear Hst; rename Hst2 into Hst.
  pose proof (enter_connected_phase cf now s1 Hc Hu) as Hp. pose proof (enter_connected_fresh cf now s1 Hc) as Hfr. generalize dependent (enter_connected cf now s1). intros s2 Hop Hst Hp Hfr.
  unfold phase, to_connected in Hp. injection Hp; intros. apply steps_one.
  apply (P_success cf (mkg [] false [] (ACKED v)) s2 v); [|intros _; exact Hop|intros _; reflexivity|intros _; assumption]. intros _. split; [|split; [assumption|split; [reflexivity|exact Hfr]]].
  unfold startable. match goal with H : life s2 = _ |- _ => rewrite H end. destruct Hl as [Hl|[Hl1 Hl2]]; [left; exact Hl|right]. split; [exact Hl1|]. apply Hst. exact Hl2.
Qed.

(** ** The service task *)
Lemma no_life_cutp p : cutp (no_life p) = cutp p.
Proof. destruct p as [[[[[[[? c] ?] ?] ?] ?] ?] ?]. reflexivity. Qed.
Lemma shut_after_final_steps g now e d s : calm g s -> (d <> None -> exists v y, c_out s = I_PACKET (P_DISCONNECT v) :: y) -> let a := None in steps (g, s) (g, shutdown_channel cf now e (emit_final e a d s)) /\
  phase (shutdown_channel cf now e (emit_final e a d s)) = cutp (phase s).
Proof.
  intros Hcalm Hd a. split; [eapply steps_trans; [apply (emit_final_steps cf g e a d); [intros H _ L; left; split; [exact L|apply Hd, H]|intros H; contradiction]|apply shutdown_steps; intros Hx; apply Hcalm; pose proof (emit_final_phase e a d s) as Hp; unfold phase, no_life in Hp; injection Hp; intros; congruence]|]. rewrite shutdown_phase, emit_final_phase. apply no_life_cutp.
Qed.
Lemma Px_in s b : Px s <-> Px (set_in_service b s). Proof. reflexivity. Qed.
Lemma complete_dead_steps now o e ack s : rl_ok s -> ~ ok s -> steps (with_hand [o] g_idle, s) (g_idle, complete cf now o e ack s).
Proof.
  intros R K. unfold complete. pose proof (cs_uid false false o s) as Hu. destruct (cs_shape false false o s) as [x Hx].
  eapply steps_cons; [apply (P_statistics cf (with_hand [o] g_idle) s o [] false false eq_refl)|]. destruct (change_statistics false false o s) as [o' s1]. cbn [snd fst] in *. subst s1.
  eapply steps_cons; [apply (P_forget cf (with_hand [o'] (with_hand [o] g_idle)) (set_c_sta x s) (op_uid o')); intros _; left; exists o', []; split; reflexivity|].
  set (s2 := set_pq _ (set_c_sta x s)). set (g2 := with_hand [o'] (with_hand [o] g_idle)).
  assert (rl_ok s2 /\ ~ ok s2) as [R2 K2] by (split; assumption). clearbody s2. clear R K Hu.
  destruct (is_disconnect (op_packet o')).
  - match goal with |- context [shutdown_channel cf now ?e' s2] => pose proof (shutdown_steps cf g2 now e' s2 (fun _ _ => ltac:(discriminate))) as H end. eapply steps_trans; [exact H|]. apply steps_one. change g_idle with (with_hand [] g2) at 1.
    apply P_done; [reflexivity|]. intros Ok. exfalso. apply K2. eapply steps_ok; eassumption.
  - apply steps_one. change g_idle with (with_hand [] g2) at 1. apply P_done; [reflexivity|]. intros Ok. contradiction.
Qed.
Lemma check_timeouts_steps now : forall rounds s, clock (c_out s) = Some now -> reach cf now0 (g_idle, s) ->
  steps (g_idle, s) (g_idle, check_timeouts cf rounds now s) /\
  (all_acked s -> phase (check_timeouts cf rounds now s) = phase s /\ all_acked (check_timeouts cf rounds now s)).
Proof.
  induction rounds as [|rounds IH]; intros s Hck R; cbn [check_timeouts]; [split; [constructor|auto]|].
  destruct (pq_top (pq s)) as [[d u]|] eqn:P; [|split; [constructor|auto]].
  destruct (N.ltb_spec now d) as [|Hle]; [split; [constructor|auto]|]. set (s1 := set_pq (filter (fun x => negb (snd x =? u)) (pq s)) s).
  change (unacked s1) with (unacked s). change (table s1) with (table s).
  destruct (find_op u (unacked s)) as [o|] eqn:F.
  - destruct (lookup (packet_id (op_packet o)) (table s)) as [u'|] eqn:Lk.
    + set (s2 := set_table (remove_key (packet_id (op_packet o)) (table (set_unacked (remove_op u (unacked s)) s1))) (set_unacked (remove_op u (unacked s)) s1)).
      assert (steps (g_idle, s) (g_idle, complete cf now o K_TIMEOUT None s2)) as Hst.
      { eapply steps_cons; [apply (P_expired cf g_idle s d u o); [apply pq_top_in; exact P|exact F|reflexivity]|].
        destruct (c_crash s) eqn:K; [apply complete_dead_steps; [exact (reach_rl _ _ _ R)|unfold ok; change (c_crash s2) with (c_crash s); congruence]|].
        change g_idle with (with_hand [] (with_hand [o] g_idle)) at 2. apply complete_steps; [reflexivity|intros _ _; discriminate|]. right.
        destruct (find_op_some _ _ _ F) as [F1 F2]. pose proof (proj1 (reach_J0 _ _ _ _ R K)) as Ja. unfold all_acked in Ja. rewrite Forall_forall in Ja. specialize (Ja _ F1).
        split; [destruct (op_packet o); try discriminate Ja; reflexivity|]. intros _. split; [reflexivity|]. split; [exact Ja|].
        destruct (reach_J3 _ _ _ _ R K) as (_ & J & _). destruct (J d u (pq_top_in _ _ P)) as (o' & t & J1 & J2 & J3). exists now, o', t.
        split; [exact Hck|]. split; [exact J1|]. split; [exact (eq_trans J2 (eq_sym F2))|]. rewrite J3. exact Hle. }
      pose proof (complete_phase cf now o K_TIMEOUT None s2) as Hp.
      destruct (lists2_inv _ _ (complete_lists2 cf now o K_TIMEOUT None s2)) as (_ & _ & _ & Hu & _).
      generalize dependent (complete cf now o K_TIMEOUT None s2). intros s3 Hst Hp Hu.
      destruct (IH s3 (eq_trans (steps_clock _ _ _ _ _ Hst) Hck) (reach_trans _ _ _ _ _ R Hst)) as (I1 & I2). split; [eapply steps_trans; eassumption|]. intros Ha.
      assert (requires_ack (op_packet o) = true) as Rq by (unfold all_acked in Ha; rewrite Forall_forall in Ha; eapply Ha, find_op_in, F).
      replace (is_disconnect (op_packet o)) with false in Hp by (destruct (op_packet o); try discriminate Rq; reflexivity).
      assert (all_acked s3) as Ha3.
      { unfold all_acked. rewrite Hu. change (unacked s2) with (remove_op u (unacked s)). unfold remove_op. apply Forall_filter. exact Ha. }
      destruct (I2 Ha3) as (I3 & I4). split; [|exact I4]. rewrite I3, Hp. reflexivity.
    + split; [|intros Ha; split; [reflexivity|exact Ha]]. apply steps_one. apply (P_forget cf g_idle s u). intros _. right. exists o. auto.
  - split; [|intros Ha; split; [rewrite phase_crash; reflexivity|rewrite crash_eq; exact Ha]].
    eapply steps_trans; [apply (crash_witness cf g_idle s CR_POINTER)|].
    + intros _. split; [reflexivity|]. exists d, u. split; [right; split; [apply pq_top_in; exact P|reflexivity]|exact F].
    + replace (crash CR_POINTER s1) with (set_pq (filter (fun x => negb (snd x =? u)) (pq (crash CR_POINTER s))) (crash CR_POINTER s))
        by (rewrite !crash_eq; reflexivity).
      apply steps_one. apply (P_forget cf g_idle (crash CR_POINTER s) u). intros K0. exfalso. exact (not_ok_crash _ _ K0).
Qed.
Lemma service_state_steps ev s : e_now ev <> 0 -> clock (c_out s) = Some (e_now ev) -> reach cf now0 (g_idle, s) -> ok s -> Px s ->
  let '(s', terminated) :=
    match current s with
    | STOPPED => service_stopped cf ev s
    | MQTT_CONNECT => (service_mqtt_connect cf ev s, false)
    | CONNECTED => (service_connected cf ev s, false)
    | CLEAN_DISCONNECT => (service_clean_disconnect cf ev s, false)
    | PENDING_RECONNECT => (service_pending_reconnect cf ev s, false)
    | CONNECTING | CHANNEL_SHUTDOWN | TERMINATED => (s, false)
    end in
  steps (g_idle, s) (g_idle, s') /\ (ok s' -> Px s' /\ (terminated = true -> current s' = TERMINATED)).
Proof.
  intros Hn Hck R K P. pose proof (reach_J0 _ _ _ _ R K) as J. pose proof J as (Ja & Jw & Jc & Jp). pose proof P as P0. unfold Px in P. destruct (current s) eqn:C.
  - destruct P as (Hl & Hch & Hsl). specialize (Jp eq_refl). unfold service_stopped. destruct (desired s).
    + split; [constructor|]. intros _; split; [exact P0|discriminate].
    + split; [apply enter_connecting_steps; auto; congruence|]. intros K'; split; [|discriminate]. destruct (enter_connecting_phase cf ev s (or_introl C)) as (H1 & H2 & H3 & H4).
      unfold Px, startable. destruct H4 as [(-> & -> & ->)|(-> & -> & ->)]; rewrite H1; auto.
    + unfold enter_terminated.
      pose proof (opreset_steps cf [] FINE (e_now ev) K_CLIENT_TERMINATED (set_current TERMINATED s) ltac:(intros; exact I) ltac:(right; reflexivity)) as Ho.
      pose proof (opreset_lists cf (e_now ev) K_CLIENT_TERMINATED (set_current TERMINATED s)) as HL.
      pose proof (opreset_cut cf (e_now ev) K_CLIENT_TERMINATED (set_current TERMINATED s)) as HC.
      generalize dependent (operational_reset cf (e_now ev) K_CLIENT_TERMINATED (set_current TERMINATED s)). intros s1 Ho HL HC.
      assert (current s1 = TERMINATED) as HT by (apply cut_inv in HC as (_ & [HC|[HC _]] & _); [exact HC|discriminate HC]).
      split; [|intros _; split; [unfold Px; change (current (emit ?a s1)) with (current s1); rewrite HT; exact I|intros _; exact HT]].
      eapply steps_cons; [apply (prim_state cf g_idle s TERMINATED); [discriminate|intros _; exact C|intros _ _; discriminate|discriminate|discriminate]|].
      eapply steps_trans; [exact Ho|]. apply steps_one. apply P_terminated. intros _. split; [exact HT|]. split; [|reflexivity].
      destruct HL as (L1 & L2 & L3 & L4 & _). repeat split; try assumption. rewrite L2. apply Jp.
  - split; [constructor|]. intros _; split; [exact P0|discriminate].
  - destruct P as (Hl & Hch & Hsl). unfold service_mqtt_connect.
    assert (forall e, let s' := shutdown_channel cf (e_now ev) e (emit_final e None None s) in steps (g_idle, s) (g_idle, s') /\ (ok s' -> Px s' /\ (false = true -> current s' = TERMINATED))) as Hsh.
    { intros e. destruct (shut_after_final_steps g_idle (e_now ev) e None s (fun _ _ => ltac:(discriminate)) ltac:(intros H; contradiction)) as [H1 H2]. split; [exact H1|]. intros K'; split; [|discriminate].
      eapply Px_cut; [right; exact H2|exact Hch|eapply steps_stop; exact H1|exact P0]. }
    destruct (wants_connection s); cbn [negb]; [|apply Hsh]. destruct (connack_to s <=? e_now ev); [apply Hsh|].
    destruct (service_or_shutdown_steps cf ev s Hn Hck ltac:(rewrite C; reflexivity) Hsl) as [H1 H2]. split; [exact H1|]. intros K'; split; [|discriminate].
    eapply Px_cut; [|exact Hch|eapply steps_stop; exact H1|exact P0]. destruct (snd (service_or_shutdown cf ev s)); [left|right]; exact H2.
  - destruct P as (_ & Hch & Hsl). unfold service_connected.
    destruct (wants_connection s); cbn [negb].
    2: { destruct (shut_after_final_steps g_idle (e_now ev) K_USER_REQUESTED_STOP None s (fun _ _ => ltac:(discriminate)) ltac:(intros H; contradiction)) as [H1 H2]. split; [exact H1|]. intros K'; split; [|discriminate].
      eapply Px_cut; [right; exact H2|exact Hch|eapply steps_stop; exact H1|exact P0]. }
    destruct ((ping_to s <=? e_now ev) && negb (ping_to s =? 0)).
    { assert (steps (g_idle, s) (g_idle, shutdown_clean cf (e_now ev) K_PING_RESPONSE_TIMEOUT 141 (emit_final K_PING_RESPONSE_TIMEOUT None None s))) as H1
        by (eapply steps_trans; [apply (emit_final0_steps cf g_idle K_PING_RESPONSE_TIMEOUT)|apply shutdown_clean_steps; intros _; discriminate]).
      split; [exact H1|]. intros K'; split; [|discriminate]. pose proof (steps_stop _ _ _ _ _ H1) as H3. clear H1 K'. rename H3 into H1.
      pose proof (emit_final_phase K_PING_RESPONSE_TIMEOUT None None s) as E1. generalize dependent (emit_final K_PING_RESPONSE_TIMEOUT None None s). intros s1 H1 E1.
      pose proof (shutdown_clean_phase cf (e_now ev) K_PING_RESPONSE_TIMEOUT 141 s1) as E2. generalize dependent (shutdown_clean cf (e_now ev) K_PING_RESPONSE_TIMEOUT 141 s1).
      intros s2 H1 E2. rewrite E1 in E2. unfold phase, no_life, cleanp in E2. rewrite C in E2. unfold to_clean in E2. injection E2; intros. unfold Px.
      match goal with H : current s2 = _ |- _ => rewrite H end. split; congruence. }
    set (s1 := if ping s <=? e_now ev then queue_ping cf (e_now ev) s else s).
    assert (steps (g_idle, s) (g_idle, s1) /\ phase s1 = phase s /\ unacked s1 = unacked s) as (A1 & A2 & A3).
    { unfold s1. destruct (ping s <=? e_now ev); [apply queue_ping_steps; assumption|repeat split; constructor]. }
    clearbody s1.
    set (s2 := if (reset_at s1 <=? e_now ev) && negb (reset_at s1 =? 0) then set_reset_at 0 (set_delay 0 (set_recount 0 s1)) else s1).
    assert (steps (g_idle, s1) (g_idle, s2) /\ phase s2 = phase s1 /\ unacked s2 = unacked s1) as (B1 & B2 & B3).
    { assert (current s1 = CONNECTED) as C1 by (apply phase_inv in A2 as (_ & A2 & _); congruence).
      unfold s2. destruct ((reset_at s1 <=? e_now ev) && negb (reset_at s1 =? 0)); (split; [|split; reflexivity]); [|constructor].
      apply steps_retime; [qh|reflexivity|]. intros _. apply T_backoff; [exact C1|reflexivity]. }
    clearbody s2. assert (all_acked s2) as Ha2 by (unfold all_acked; rewrite B3, A3; exact Ja).
    assert (steps (g_idle, s) (g_idle, s2)) as S2 by (eapply steps_trans; [exact A1|exact B1]).
    destruct (check_timeouts_steps (e_now ev) (length (pq s2)) s2 (eq_trans (steps_clock _ _ _ _ _ S2) Hck) (reach_trans _ _ _ _ _ R S2)) as (D1 & D4). destruct (D4 Ha2) as (D2 & D3). clear D4.
    generalize dependent (check_timeouts cf (length (pq s2)) (e_now ev) s2). intros s3 D1 D2 D3.
    assert (phase s3 = phase s) as Hph by congruence. pose proof (ph4_phase _ _ Hph) as Hp4. unfold ph4 in Hp4. injection Hp4 as E1 E2 E3 E4.
    destruct (service_or_shutdown_steps cf ev s3 Hn (eq_trans (steps_clock _ _ _ _ _ (steps_trans _ _ _ _ S2 D1)) Hck) ltac:(rewrite E1, C; reflexivity) ltac:(congruence)) as [H1 H2].
    assert (steps (g_idle, s) (g_idle, fst (service_or_shutdown cf ev s3))) as Hall.
    { eapply steps_trans; [exact A1|]. eapply steps_trans; [exact B1|]. eapply steps_trans; [exact D1|exact H1]. }
    split; [exact Hall|]. intros K'; split; [|discriminate].
    eapply Px_cut; [|exact Hch|eapply steps_stop; exact Hall|exact P0]. rewrite Hph in H2. destruct (snd (service_or_shutdown cf ev s3)); [left|right]; exact H2.
  - destruct P as (Hch & Hsl). unfold service_clean_disconnect.
    destruct (service_or_shutdown_steps cf ev s Hn Hck ltac:(rewrite C; reflexivity) Hsl) as [H1 H2].
    destruct (service_or_shutdown cf ev s) as [s1 okz] eqn:E. cbn [fst snd] in H1, H2. destruct okz.
    + assert (reach cf now0 (g_idle, s1)) as R1 by (eapply reach_trans; eassumption).
      destruct (check_timeouts_steps (e_now ev) (length (pq s1)) s1 (eq_trans (steps_clock _ _ _ _ _ H1) Hck) R1) as (D1 & D2).
      assert (steps (g_idle, s) (g_idle, check_timeouts cf (length (pq s1)) (e_now ev) s1)) as Hall by (eapply steps_trans; eassumption).
      split; [exact Hall|]. intros K'; split; [|discriminate].
      assert (ok s1) as K1 by (eapply steps_ok; [exact (reach_rl _ _ _ R1)|exact D1|exact K']).
      destruct (D2 (proj1 (reach_J0 _ _ _ _ R1 K1))) as [D3 _].
      eapply Px_mono; [apply ph4_phase; etransitivity; [exact D3|exact H2]|eapply steps_stop; exact Hall|exact P0].
    + split; [exact H1|]. intros K'; split; [|discriminate]. eapply Px_cut; [right; exact H2|exact Hch|eapply steps_stop; exact H1|exact P0].
  - split; [constructor|]. intros _; split; [exact P0|discriminate].
  - destruct P as (Hl & Hch & Hsl). specialize (Jp eq_refl). unfold service_pending_reconnect. destruct (wants_connection s); cbn [negb].
    + destruct (N.leb_spec (reconnect_at s) (e_now ev)); [|split; [constructor|intros _; split; [exact P0|discriminate]]].
      split; [apply enter_connecting_steps; auto|]. intros K'; split; [|discriminate]. destruct (enter_connecting_phase cf ev s (or_intror C)) as (H1 & H2 & H3 & H4).
      unfold Px, startable. destruct H4 as [(-> & -> & ->)|(-> & -> & ->)]; rewrite H1; auto.
    + split; [apply stop_steps; [congruence|rewrite C; reflexivity|assumption|assumption]|]. intros _; split; [|discriminate].
      pose proof (enter_stopped_phase cf (e_now ev) s Hl) as E. generalize dependent (enter_stopped cf (e_now ev) s). intros s1 E.
      unfold phase, stopped_phase in E. rewrite C in E; injection E; intros. unfold Px. match goal with H : current s1 = _ |- _ => rewrite H end. repeat split; congruence.
  - split; [constructor|]. intros _; split; [exact P0|discriminate].
Qed.
Lemma quiet_stop s s' : quiet s s' -> has_stop (c_out s) = true -> has_stop (c_out s') = true.
Proof. intros [H _]. apply core_inv in H. destruct H as (_ & _ & _ & _ & _ & _ & _ & _ & _ & _ & _ & _ & _ & _ & _ & H). rewrite H. auto. Qed.
Lemma Px_quiet s s' : quiet s s' -> phase s' = phase s -> Px s -> Px s'.
Proof. intros H1 H2. apply Px_mono; [apply ph4_phase; exact H2|apply quiet_stop; exact H1]. Qed.
Lemma service_task_steps ev s : e_now ev <> 0 -> clock (c_out s) = Some (e_now ev) -> reach cf now0 (g_idle, s) -> ok s -> Px s ->
  steps (g_idle, s) (g_idle, service_task cf ev s) /\ (ok (service_task cf ev s) -> Px (service_task cf ev s)).
Proof.
  intros Hn Hck R K P. unfold service_task. set (s0 := set_in_service true (set_run_at 0 s)).
  assert (steps (g_idle, s) (g_idle, s0)) as H0 by (apply Q; qt).
  pose proof (service_state_steps ev s0 Hn Hck (reach_trans _ _ _ _ _ R H0) K P) as H. clearbody s0.
  match goal with |- context [let '(_, _) := ?x in _] => destruct x as [s1 []] end; destruct H as [H1 H2].
  - split; [eapply steps_trans; eassumption|]. intros K1. apply H2, K1.
  - set (s2 := set_in_service false s1). assert (quiet s1 s2) as Hq by (unfold s2; qt). split.
    + eapply steps_trans; [eapply steps_trans; [exact H0|exact H1]|]. eapply steps_trans; [apply Q; exact Hq|apply steps_reevaluate].
    + intros K1. assert (ok s2) as K2.
      { refine (steps_ok cf g_idle s2 g_idle _ _ (steps_reevaluate cf _ _ _) K1).
        exact (reach_rl cf now0 (g_idle, s1) (reach_trans _ _ _ _ _ R (steps_trans _ _ _ _ H0 H1))). }
      apply (Px_quiet s2); [apply reevaluate_quiet|apply phase_reevaluate|]. apply H2. exact K2.
Qed.

(** ** Write completions *)
Definition cut_ok (s s' : client) : Prop := steps (g_idle, s) (g_idle, s') /\ cut s s'.
Lemma cut_ok_trans a b c : cut_ok a b -> cut_ok b c -> cut_ok a c.
Proof. intros [H1 H2] [H3 H4]. split; [eapply steps_trans; eassumption|eapply cut_trans; eassumption]. Qed.
Lemma cut_ok_quiet s s' : quiet s s' -> phase s' = phase s -> cut_ok s s'.
Proof. intros H1 H2. split; [apply Q; exact H1|left; exact H2]. Qed.
Lemma cut_ok_shutdown now e s : cut_ok s (shutdown_channel cf now e s).
Proof. split; [apply shutdown_steps; intros _; discriminate|right; apply shutdown_phase]. Qed.
Lemma cut_ok_final now e v y s : c_out s = I_PACKET (P_DISCONNECT v) :: y -> cut_ok s (shutdown_channel cf now e (emit_final e None (Some v) s)).
Proof. intros Hy. destruct (shut_after_final_steps g_idle now e (Some v) s); [intros _; discriminate|eauto|]. split; [assumption|right; assumption]. Qed.
Lemma cut_ok_reevaluate now s : cut_ok s (reevaluate cf now s).
Proof. apply cut_ok_quiet; [apply reevaluate_quiet|apply phase_reevaluate]. Qed.
Lemma cut_ok_emit x s : neutral x = true -> (ok s -> up (current s) = false \/ unheard x = true) -> cut_ok s (emit x s).
Proof. intros H H'. split; [apply steps_one, prim_emit; assumption|left; reflexivity]. Qed.
Lemma cut_ok_Px s s' : cut_ok s s' -> chan s = CH_UP -> Px s -> Px s' /\ chan s' = CH_UP.
Proof.
  intros [H1 H2] H3 H4. split; [eapply Px_cut; [exact H2|exact H3|eapply steps_stop; exact H1|exact H4]|].
  apply cut_inv in H2 as (_ & _ & _ & _ & H2 & _). congruence.
Qed.
Lemma on_written_steps ev err s : Forall (fun o => requires_ack (op_packet o) = false) (wc s) ->
  (forall o, In o (wc s) -> exists t, sent_here o t (c_out s)) -> cut_ok s (on_written cf ev err s).
Proof.
  intros Jw Jh.
  unfold on_written. set (s0 := set_outstanding false (set_pending false s)).
  eapply (cut_ok_trans _ s0); [apply cut_ok_quiet; [unfold s0; qt|reflexivity]|]. change (wc s) with (wc s0) in Jw, Jh. change (c_out s) with (c_out s0) in Jh. clearbody s0.
  match goal with |- cut_ok _ (complete_list _ _ (wc ?x) _ _) => assert (cut_ok s0 x /\ wc x = wc s0 /\ adds s0 x) as (H & Hw & Ha); [|generalize dependent x] end.
  { destruct (current s0); try (split; [split; [constructor|left; reflexivity]|split; [reflexivity|apply adds_refl; reflexivity]]);
      (destruct err; (split; [first [apply cut_ok_shutdown|apply cut_ok_reevaluate]|split; [first [apply (lists_inv _ _ (shutdown_lists cf _ _ _))|apply (lists_inv _ _ (lists_reevaluate cf _ _))]|
        first [apply shutdown_adds|apply adds_refl, quiet_out, reevaluate_quiet]]])). }
  intros s1 H Hw (d & Ed & Hd). eapply cut_ok_trans; [exact H|]. split.
  - eapply steps_cons; [apply P_take_wc|]. apply clist_all; [left; intros _; discriminate|]. rewrite Hw. destruct err; [apply Forall_forall; intros; exact I|].
    apply Forall_forall. intros o Ho. rewrite Forall_forall in Jw. split; [exact (Jw _ Ho)|]. destruct (Jh _ Ho) as (t & Ht). exists o, t. split; [|reflexivity].
    change (c_out (set_wc [] s1)) with (c_out s1). rewrite Ed. apply sent_here_more; assumption.
  - eapply cut_trans; [|apply complete_list_cut]. left. reflexivity.
Qed.

(** ** Received packets *)
Lemma lookup_in k l u : lookup k l = Some u -> In (k, u) l.
Proof.
  unfold lookup. destruct (find _ l) as [[k' u']|] eqn:F; [|discriminate]. intros E; injection E as ->. apply find_some in F as [F1 F2].
  cbn [fst] in F2. apply N.eqb_eq in F2. subst k'. exact F1.
Qed.
Lemma disconnect_for_error_steps now s : steps (g_idle, s) (g_idle, disconnect_for_protocol_error cf now s) /\
  (phase (disconnect_for_protocol_error cf now s) = cleanp (phase s) \/ phase (disconnect_for_protocol_error cf now s) = cutp (phase s)).
Proof.
  unfold disconnect_for_protocol_error. destruct (cstate_eqb (current s) CONNECTED).
  - split; [apply shutdown_clean_steps; intros _; discriminate|left; apply shutdown_clean_phase].
  - split; [apply shutdown_steps; intros _; discriminate|right; apply shutdown_phase].
Qed.
Lemma chan_cleanp s s' : phase s' = cleanp (phase s) -> chan s' = chan s.
Proof. unfold cleanp, phase, to_clean, cutp. destruct (current s); intros E; injection E; auto. Qed.
Lemma cut_ok_dfe now s : chan s = CH_UP -> Px s -> let s' := disconnect_for_protocol_error cf now s in
  steps (g_idle, s) (g_idle, s') /\ Px s' /\ chan s' = CH_UP.
Proof.
  intros Hc P. cbv zeta. destruct (disconnect_for_error_steps now s) as [H1 [H2|H2]]; (split; [exact H1|]).
  - split; [eapply Px_clean; [exact H2|exact Hc|eapply steps_stop; exact H1|exact P]|]. rewrite (chan_cleanp _ _ H2). exact Hc.
  - apply cut_ok_Px with s; [split; [exact H1|right; exact H2]|exact Hc|exact P].
Qed.
Lemma shutdown_clean_Px now e r s : chan s = CH_UP -> Px s -> let s' := shutdown_clean cf now e r s in
  steps (g_idle, s) (g_idle, s') /\ Px s' /\ chan s' = CH_UP.
Proof.
  intros Hc P. cbv zeta. pose proof (shutdown_clean_steps cf g_idle now e r s (fun _ _ => ltac:(discriminate))) as H1. pose proof (shutdown_clean_phase cf now e r s) as H2. split; [exact H1|].
  split; [eapply Px_clean; [exact H2|exact Hc|eapply steps_stop; exact H1|exact P]|]. rewrite (chan_cleanp _ _ H2). exact Hc.
Qed.

Lemma ack_rest_steps ev id ack confused s : chan s = CH_UP -> Px s -> reach cf now0 (g_idle, s) -> ok s ->
  ack_id ack = id -> (exists y, c_out s = I_PACKET ack :: y) ->
  let s' := match lookup id (table s) with
    | None => s
    | Some u =>
      match find_op u (unacked s) with
      | None => crash CR_POINTER s
      | Some o =>
        let s := set_unacked (remove_op u (unacked s)) s in
        let s := set_table (remove_key id (table s)) s in
        if ack_count_matches confused (op_packet o) ack then complete cf (e_now ev) o K_SUCCESS (Some ack) s
        else disconnect_for_protocol_error cf (e_now ev) (complete cf (e_now ev) o K_DECODE_PROTOCOL_ERROR None s)
      end
    end in
  steps (g_idle, s) (g_idle, s') /\ Px s' /\ chan s' = CH_UP.
Proof.
  intros Hc P R K Hid Hout. cbv zeta. destruct (lookup id (table s)) as [u|] eqn:L; [|split; [constructor|auto]].
  destruct (find_op u (unacked s)) as [o|] eqn:F.
  - assert (forall e a, let s' := complete cf (e_now ev) o e a (set_table (remove_key id (table s)) (set_unacked (remove_op u (unacked s)) s)) in
      may_drop cf (c_out s) e o /\ a = None \/ is_disconnect (op_packet o) = false /\ may_finish cf s o e a -> cut_ok s s') as H.
    { intros e a s' He. split.
      - eapply steps_cons; [apply (P_acked cf g_idle s id u o L F); reflexivity|].
        change g_idle with (with_hand [] (with_hand [o] g_idle)) at 2. apply complete_steps; [reflexivity|intros _ _; discriminate|].
        destruct He as [He|[He1 He2]]; [left; exact He|right]. split; [exact He1|]. intros _. exact He2.
      - eapply cut_trans; [|apply complete_cut]. left. reflexivity. }
    destruct (ack_count_matches confused (op_packet o) ack) eqn:Cm.
    + assert (may_finish cf s o K_SUCCESS (Some ack)) as Hm.
      { destruct (find_op_some _ _ _ F) as [F1 F2]. pose proof (proj1 (reach_J0 _ _ _ _ R K)) as Ja. unfold all_acked in Ja. rewrite Forall_forall in Ja.
        assert (packet_id (op_packet o) = id) as Ep; [|split; [exact (Ja _ F1)|]; split; [exact (eq_trans Hid (eq_sym Ep))|split; [exists confused; exact Cm|split; [exact Hout|]]];
          destruct (reach_J3 _ _ _ _ R K) as (J & _); destruct (J _ _ (lookup_in _ _ _ L)) as (o' & t & J1 & J2 & J3); exists o', t;
          split; [exact J1|]; split; [exact (eq_trans J2 (eq_sym F2))|exact (eq_trans J3 (eq_sym Ep))]].
        destruct (reach_J2 _ _ _ _ R K) as (T & _). destruct (T eq_refl _ _ (lookup_in _ _ _ L)) as (o1 & O1 & O2 & O3).
        destruct (reach_J1 _ _ _ _ R K) as (ND & _). apply nodup_unacked in ND.
        assert (o1 = o) as E1 by (apply (nodup_map_inj op_uid (unacked s) o1 o ND O1 F1); exact (eq_trans O2 (eq_sym F2))).
        rewrite <- E1. exact O3. }
      assert (is_disconnect (op_packet o) = false) as Hd by (destruct Hm as [Hm _]; clear - Hm; destruct (op_packet o); try discriminate Hm; reflexivity).
      specialize (H K_SUCCESS (Some ack) (or_intror (conj Hd Hm))). split; [exact (proj1 H)|]. eapply cut_ok_Px; eassumption.
    + specialize (H K_DECODE_PROTOCOL_ERROR None (or_introl (conj I eq_refl))). pose proof (cut_ok_Px _ _ H Hc P) as [H1 H2].
      destruct (cut_ok_dfe (e_now ev) _ H2 H1) as (H3 & H4 & H5). split; [eapply steps_trans; [exact (proj1 H)|exact H3]|]. split; [exact H4|exact H5].
  - split; [|rewrite crash_eq; split; [exact P|exact Hc]]. apply crash_witness. intros _. split; [reflexivity|]. exists id, u. split; [|exact F]. left.
    apply lookup_in. exact L.
Qed.
Lemma publish_steps ev v s0 : (current s0 = CONNECTED \/ current s0 = CLEAN_DISCONNECT) -> cut_ok s0 (on_publish cf ev v (emit (I_PACKET (P_PUBLISH v)) s0)).
Proof.
  intros Hc. set (s := emit (I_PACKET (P_PUBLISH v)) s0). assert (exists s1, (s1 = publish_core (e_acquire ev (length (c_out s))) v s) /\ cut_ok s1 (on_publish cf ev v s) /\ phase s1 = phase s) as (s1 & E & H & Hp).
  { eexists. split; [reflexivity|]. unfold on_publish, publish_core, queue_puback, puback_core, new_op.
    destruct (if e_acquire ev (length (c_out s)) then acquire_ack v s else (s, None)) as [s2 c] eqn:E.
    assert (phase s2 = phase s) as Hp.
    { revert E. destruct (e_acquire ev (length (c_out s))); [|congruence]. unfold acquire_ack. destruct (pb_qos v =? 0); [congruence|].
      destruct (lookup (pb_packet_id v) (mp s)); [congruence|]. intros E. injection E as <- <-. reflexivity. }
    destruct (pb_qos v =? 0); [split; [split; [constructor|left; reflexivity]|exact Hp]|].
    destruct (lookup (pb_packet_id v) (mp (emit (O_PUBLISH v c) s2))); [split; [split; [constructor|left; reflexivity]|exact Hp]|].
    split; [apply cut_ok_reevaluate|exact Hp]. }
  eapply cut_ok_trans; [|exact H]. split; [|left; exact Hp]. rewrite E. apply steps_one. apply (P_publish cf g_idle s0); intros _; [auto|reflexivity].
Qed.
Lemma on_packet_steps ev p s : clock (c_out s) = Some (e_now ev) -> reach cf now0 (g_idle, s) -> ok s -> Px s -> chan s = CH_UP ->
  let s' := on_packet cf ev p s in steps (g_idle, s) (g_idle, s') /\ Px s' /\ chan s' = CH_UP.
Proof.
  intros Hck R K P Hch. cbv zeta. unfold on_packet.
  match goal with |- context [reevaluate cf _ ?x] => assert (steps (g_idle, s) (g_idle, x) /\ Px x /\ chan x = CH_UP) as H; [|generalize dependent x] end.
  2: { intros s1 (H1 & H2 & H3). split; [eapply steps_trans; [exact H1|apply steps_reevaluate]|].
    eapply cut_ok_Px; [apply cut_ok_reevaluate|exact H3|exact H2]. }
  destruct (up (current s) && negb (unheard (I_PACKET p))) eqn:Hup.
  { apply andb_true_iff in Hup as [Hup Hun].
    assert (cut_ok s (connected_on_packet cf ev p (emit (I_PACKET p) s))) as H.
    { destruct p; try discriminate Hun; cbn [connected_on_packet].
      - apply publish_steps. destruct (current s); try discriminate Hup; auto.
      - split; [|left; reflexivity]. apply steps_one. apply (P_emit cf g_idle s (I_PACKET P_PINGRESP) (c_tim (set_ping_to 0 s))); [reflexivity|]. intros _. cbn. rewrite Hup. reflexivity. }
    change (current (emit (I_PACKET p) s)) with (current s). destruct (current s); try discriminate Hup; (split; [exact (proj1 H)|]); eapply cut_ok_Px; eassumption. }
  pose proof (cut_ok_emit (I_PACKET p) s eq_refl ltac:(intros _; apply andb_false_iff in Hup; destruct Hup as [Hup|Hup]; [left; exact Hup|right; apply negb_false_iff; exact Hup])) as H0. set (s0 := emit (I_PACKET p) s) in *.
  assert (forall s', cut_ok s0 s' -> steps (g_idle, s) (g_idle, s') /\ Px s' /\ chan s' = CH_UP) as Hcut.
  { intros s' H. pose proof (cut_ok_trans _ _ _ H0 H) as H1. split; [exact (proj1 H1)|]. eapply cut_ok_Px; eassumption. }
  assert (forall s', steps (g_idle, s0) (g_idle, s') /\ Px s' /\ chan s' = CH_UP -> steps (g_idle, s) (g_idle, s') /\ Px s' /\ chan s' = CH_UP) as Hst.
  { intros s' (H1 & H2). split; [eapply steps_trans; [exact (proj1 H0)|exact H1]|exact H2]. }
  assert (Px s0 /\ chan s0 = CH_UP) as [P0 C0] by (eapply cut_ok_Px; eassumption).
  assert (cut_ok s0 s0) as Hid by (split; [constructor|left; reflexivity]).
  assert ((current s0 = CONNECTED \/ current s0 = CLEAN_DISCONNECT) ->
    steps (g_idle, s) (g_idle, connected_on_packet cf ev p s0) /\ Px (connected_on_packet cf ev p s0) /\ chan (connected_on_packet cf ev p s0) = CH_UP) as Hconn.
  { intros Hc. unfold connected_on_packet. destruct p; try (apply Hcut; exact Hid).
    - exfalso. cbn in Hup. change (current s0) with (current s) in Hc. destruct Hc as [Hc|Hc]; rewrite Hc in Hup; discriminate Hup.
    - unfold handle_ack. cbn [is_puback].
      match goal with |- context [on_puback cf ?n s0] => set (s1 := on_puback cf n s0); assert (cut_ok (puback_received v s) s1) as H1 end.
      { unfold s1, on_puback, s0. match goal with |- context [if ?b then _ else _] => destruct b end; [apply cut_ok_reevaluate|split; [constructor|left; reflexivity]]. }
      assert (cut_ok s s1) as H2.
      { eapply cut_ok_trans; [|exact H1]. split; [|left; reflexivity]. apply steps_one, P_puback. intros _. exact Hc. }
      assert (core s1 = core (puback_received v s) /\ ok s1) as [Hco K1].
      { unfold s1, on_puback, s0. match goal with |- context [if ?b then _ else _] => destruct b end; [|split; [reflexivity|exact K]].
        pose proof (reevaluate_quiet cf (e_now ev) (puback_received v s)) as Hq. split; [exact (proj1 Hq)|].
        refine (quiet_ok _ _ _ Hq K). exact (reach_rl _ _ _ R). }
      clearbody s1. pose proof (cut_ok_Px _ _ H2 Hch P) as [H3 H4].
      destruct (ack_rest_steps ev (pa_packet_id v) (P_PUBACK v) (e_confused ev (length (c_out s0))) s1 H4 H3 (reach_trans _ _ _ _ _ R (proj1 H2)) K1 eq_refl) as [H5 H6].
      { exists (c_out s). apply core_inv in Hco. destruct Hco as (_ & _ & _ & _ & _ & _ & _ & _ & _ & _ & _ & _ & _ & _ & _ & ->). reflexivity. }
      split; [|exact H6]. eapply steps_trans; [exact (proj1 H2)|exact H5].
    - apply Hst. apply (ack_rest_steps ev (sa_packet_id v) (P_SUBACK v) _ s0 C0 P0 (reach_trans _ _ _ _ _ R (proj1 H0)) K eq_refl). exists (c_out s). reflexivity.
    - apply Hst. apply (ack_rest_steps ev (sa_packet_id v) (P_UNSUBACK v) _ s0 C0 P0 (reach_trans _ _ _ _ _ R (proj1 H0)) K eq_refl). exists (c_out s). reflexivity.
    - exfalso. cbn in Hup. change (current s0) with (current s) in Hc. destruct Hc as [Hc|Hc]; rewrite Hc in Hup; discriminate Hup.
    - apply Hcut. eapply cut_ok_final. reflexivity. }
  destruct (current s0) eqn:C; try (apply Hcut; exact Hid); try (apply Hconn; auto).
  assert (steps (g_idle, s) (g_idle, s0)) as Hs0 by (apply H0). pose proof (reach_J0 _ _ _ _ (reach_trans _ _ _ _ _ R Hs0) K) as (Ja & _ & Jc & _).
  destruct p; try (apply Hst; apply shutdown_clean_Px; assumption).
  unfold Px in P0. rewrite C in P0. destruct P0 as (Q1 & Q2 & Q3). apply Hst.
  assert (steps (g_idle, s0) (g_idle, on_connack cf (e_now ev) v s0)) as H1 by (apply on_connack_steps; auto; exists (c_out s); reflexivity).
  split; [exact H1|]. destruct (on_connack_phase cf (e_now ev) v s0 C Q3 Ja) as (E1 & _ & _ & E2 & E3). rewrite E2. split; [|exact C0].
  unfold Px. destruct E3 as [[-> E4]|[-> _]]; [split; [exact E4|split]|]; congruence.
Qed.

Lemma d5_loop_inv {H} (cb : packet5 -> in_state * H -> (in_state * H) * bool) (I : H -> Prop) :
  (forall p w, I (snd w) -> I (snd (fst (cb p w)))) ->
  forall fuel d data w, I (snd w) -> I (snd (snd (fst (d5_loop H cb fuel d data w)))).
Proof.
  intros Hcb. induction fuel as [|fuel IH]; intros d data w Hw; cbn [d5_loop]; [exact Hw|].
  assert (forall d' data' (w' : in_state * H) r, I (snd w') -> I (snd (snd (fst (match r with
    | DRT_SUCCESS => d5_loop H cb fuel d' data' w'
    | DRT_MORE_DATA => (d', w', DR_SUCCESS)
    | DRT_ERROR => (mkd5 DS_FATAL_ERROR (d5_scratch d') (d5_first d') (d5_rl d'), w', DR_ERROR)
    end))))) as Hr by (intros d' data' w' [] Hw'; try exact Hw'; apply IH; exact Hw').
  assert (forall first rl cur, I (snd (fst (handle_packet H cb first rl cur w)))) as Hp.
  { intros first rl cur. unfold handle_packet. destruct (decode_packet first rl cur (fst w)) as [a [p|]]; [apply Hcb|]; exact Hw. }
  destruct (d5_st d).
  - destruct (read_packet_type_on_data d data) as [[d' data'] r]. apply Hr; exact Hw.
  - destruct (read_remaining_length_on_data d data) as [[d' data'] r]. apply Hr; exact Hw.
  - unfold read_packet_on_data. destruct ((len (d5_scratch d) =? 0) && (d5_rl d <=? len data)).
    + destruct (advance data (d5_rl d)) as [packet rest]. specialize (Hp (d5_first d) (d5_rl d) packet).
      destruct (handle_packet H cb (d5_first d) (d5_rl d) packet w) as [w' []]; cbv beta zeta iota; [exact (Hr _ rest w' DRT_SUCCESS Hp)|exact Hp].
    + destruct (advance data _) as [packet rest]. match goal with |- context [if ?b then _ else _] => destruct b end; [cbv beta zeta iota; exact (Hr _ rest w DRT_MORE_DATA Hw)|].
      cbn [d5_first d5_rl d5_scratch]. specialize (Hp (d5_first d) (d5_rl d) (d5_scratch d ++ packet)).
      destruct (handle_packet H cb (d5_first d) (d5_rl d) (d5_scratch d ++ packet) w) as [w' []]; cbv beta zeta iota; [exact (Hr _ rest w' DRT_SUCCESS Hp)|exact Hp].
  - exact Hw.
Qed.
Lemma quiet_alias a s : quiet s (set_c_alias a s). Proof. qt. Qed.
Lemma on_read_steps ev data s : clock (c_out s) = Some (e_now ev) -> reach cf now0 (g_idle, s) -> ok s -> Px s -> chan s = CH_UP ->
  let s' := on_read cf ev data s in steps (g_idle, s) (g_idle, s') /\ (ok s' -> Px s').
Proof.
  intros Hck R K P Hch. cbv zeta. unfold on_read.
  pose proof (d5_loop_inv (read_callback cf ev) (fun x => steps (g_idle, s) (g_idle, x) /\ (ok x -> Px x /\ chan x = CH_UP))) as H.
  assert (forall p w, steps (g_idle, s) (g_idle, snd w) /\ (ok (snd w) -> Px (snd w) /\ chan (snd w) = CH_UP) ->
    steps (g_idle, s) (g_idle, snd (fst (read_callback cf ev p w))) /\
    (ok (snd (fst (read_callback cf ev p w))) -> Px (snd (fst (read_callback cf ev p w))) /\ chan (snd (fst (read_callback cf ev p w))) = CH_UP)) as H0.
  { intros p [a s1]. cbn [snd]. intros [H1 H2]. unfold read_callback. cbn [snd fst]. destruct (c_crash s1) eqn:E; [cbn [snd fst]; auto|]. cbn [fst snd].
    destruct (H2 E) as [H3 H4]. set (s2 := set_c_alias a s1).
    assert (steps (g_idle, s) (g_idle, s2)) as H5 by (eapply steps_trans; [exact H1|apply Q; apply quiet_alias]).
    destruct (on_packet_steps ev p s2 (eq_trans (steps_clock _ _ _ _ _ H5) Hck) (reach_trans _ _ _ _ _ R H5) E H3 H4) as [H6 H7]. split; [eapply steps_trans; eassumption|auto]. }
  specialize (H H0 (3 * length data + 4)%nat (c_dec s) data (c_alias s, s) (conj (steps_refl cf _) (fun _ => conj P Hch))). clear H0.
  unfold d5_on_data. destruct (d5_loop client (read_callback cf ev) (3 * length data + 4) (c_dec s) data (c_alias s, s)) as [[d [a s1]] r].
  cbn [fst snd] in H. destruct H as [H1 H2]. set (s2 := set_c_alias a (set_c_dec d s1)).
  assert (steps (g_idle, s) (g_idle, s2)) as H3 by (eapply steps_trans; [exact H1|apply Q; qt]).
  assert (ok s2 -> Px s2 /\ chan s2 = CH_UP) as H4 by exact H2. clearbody s2.
  destruct r; [split; [exact H3|intros E; apply H4, E]|..]; (destruct (c_crash s2) eqn:E; [split; [exact H3|intros E2; unfold ok in E2; congruence]|]).
  all: destruct (H4 E) as [H5 H6]; destruct (cut_ok_dfe (e_now ev) s2 H6 H5) as (H7 & H8 & _); (split; [eapply steps_trans; eassumption|intros _; exact H8]).
Qed.
(** ** Events *)
Lemma stop_phase now v s : let o := op_new (uid s) BY_USER (P_DISCONNECT v) 0 in
  phase (shutdown_with_disconnect cf now K_USER_REQUESTED_STOP o (set_desired D_STOPPED (emit (I_SUBMIT o) (set_uid (uid s + 1) s)))) =
  cleanp (phase (set_desired D_STOPPED s)).
Proof. cbv zeta. rewrite swd_phase. reflexivity. Qed.
Lemma stop_Px now v s : validate_disconnect v = true -> Px s ->
  let o := op_new (uid s) BY_USER (P_DISCONNECT v) 0 in
  let s' := shutdown_with_disconnect cf now K_USER_REQUESTED_STOP o (set_desired D_STOPPED (emit (I_SUBMIT o) (set_uid (uid s + 1) s))) in
  steps (g_idle, s) (g_idle, s') /\ Px s'.
Proof.
  intros Hv P. cbv zeta. set (o := op_new (uid s) BY_USER (P_DISCONNECT v) 0). set (sd := set_desired D_STOPPED s).
  change (set_desired D_STOPPED (emit (I_SUBMIT o) (set_uid (uid s + 1) s))) with (emit (I_SUBMIT o) (set_uid (uid sd + 1) sd)).
  assert (steps (g_idle, s) (g_idle, sd)) as H0 by (apply Q; unfold sd; qt).
  pose proof (stop_with_disconnect_steps cf g_idle now K_USER_REQUESTED_STOP v sd (fun _ _ => ltac:(discriminate)) Hv) as H1. cbv zeta in H1. change (op_new (uid sd) BY_USER (P_DISCONNECT v) 0) with o in H1.
  pose proof (swd_phase cf now K_USER_REQUESTED_STOP o (emit (I_SUBMIT o) (set_uid (uid sd + 1) sd))) as Hp.
  change (phase (emit (I_SUBMIT o) (set_uid (uid sd + 1) sd))) with (phase sd) in Hp.
  assert (has_stop (c_out (shutdown_with_disconnect cf now K_USER_REQUESTED_STOP o (emit (I_SUBMIT o) (set_uid (uid sd + 1) sd)))) = true) as Hh.
  { clear H1 Hp. unfold shutdown_with_disconnect in *.
    assert (forall x, exists l, c_out (shutdown_channel cf now K_USER_REQUESTED_STOP x) = l ++ c_out x) as Hsh.
    { intros x. destruct (steps_trace cf g_idle x g_idle _ (shutdown_steps cf g_idle now K_USER_REQUESTED_STOP x (fun _ _ => ltac:(discriminate)))) as (l & E & _). exists l. exact E. }
    assert (forall x, current x = MQTT_CONNECT \/ current x = CONNECTED -> exists l, c_out (enter_clean_disconnect cf now x) = l ++ c_out x) as Hcl.
    { intros x Hx. destruct (steps_trace cf g_idle x g_idle _ (ecd_steps cf g_idle now x (fun _ _ => ltac:(discriminate)) Hx)) as (l & E & _). exists l. exact E. }
    match goal with |- context [match current ?x with _ => _ end] => assert (has_stop (c_out x) = true) as Hx by reflexivity; generalize dependent x end.
    intros x Hx. assert (forall y l, c_out y = l ++ c_out x -> has_stop (c_out y) = true) as Hmono.
    { intros y l ->. unfold has_stop in *. rewrite existsb_app, Hx. apply orb_true_r. }
    destruct (current x) eqn:Cx; try (destruct (Hsh (emit (O_LOST o) x)) as [l E]; apply (Hmono _ (l ++ [O_LOST o])); rewrite E, <- app_assoc; reflexivity).
    all: destruct (Hcl (set_clean_err K_USER_REQUESTED_STOP (set_queued (o :: queued x) x)) ltac:(auto)) as [l E]; exact (Hmono _ l E). }
  generalize dependent (shutdown_with_disconnect cf now K_USER_REQUESTED_STOP o (emit (I_SUBMIT o) (set_uid (uid sd + 1) sd))). intros s' H1 Hp Hh.
  split; [eapply steps_trans; eassumption|].
  assert (Px sd) as Pd by exact P.
  unfold phase, cleanp, to_clean, cutp in Hp. unfold Px in *. unfold startable in *. destruct (current sd) eqn:C; cbn [sending andb] in Hp; injection Hp; intros;
    match goal with H : current s' = _ |- _ => rewrite H end.
  - repeat split; intuition congruence.
  - split; [|split; intuition congruence]. right. split; assumption.
  - split; intuition congruence.
  - split; intuition congruence.
  - destruct Pd as [P1 P2]. rewrite P2. congruence.
  - congruence.
  - repeat split; intuition congruence.
  - exact I.
Qed.
Lemma submit_facts now p override s : current s <> CONNECTED -> satisfies_policy cf p = false -> submit cf now p override false s = refuse p override K_OFFLINE_QUEUE_POLICY s.
Proof.
  intros H1 H2. unfold submit, new_op, refuse, complete_detached. change (current (emit ?a (set_uid ?b s))) with (current s).
  replace (cstate_eqb (current s) CONNECTED) with false by (destruct (current s); try reflexivity; contradiction). rewrite H2. reflexivity.
Qed.
Lemma handle_steps ev e s : clock (c_out s) = Some (e_now ev) -> reach cf now0 (g_idle, s) -> ok s -> Px s -> enabled ev e s = true -> current s <> TERMINATED ->
  steps (g_idle, s) (g_idle, handle cf ev e s) /\ (ok (handle cf ev e s) -> Px (handle cf ev e s)).
Proof.
  intros Hck R K P En Ht. pose proof (reach_J0 _ _ _ _ R K) as (Ja & Jw & Jc & Jp).
  assert (forall s', cut_ok s s' -> phase s' = phase s -> steps (g_idle, s) (g_idle, s') /\ (ok s' -> Px s')) as Hq.
  { intros s' H Hp. split; [apply H|]. intros _. eapply Px_mono; [apply ph4_phase; exact Hp|eapply steps_stop; apply H|exact P]. }
  assert (forall d dis, steps (g_idle, s) (g_idle, change_desired cf (e_now ev) d dis s) /\ (ok (change_desired cf (e_now ev) d dis s) -> Px (change_desired cf (e_now ev) d dis s)) \/ dis <> None) as Hcd.
  { intros d [v|]; [right; discriminate|left]. unfold change_desired. destruct (dstate_eqb (desired s) d); [apply Hq; [split; [constructor|left; reflexivity]|reflexivity]|].
    set (s1 := set_desired d s). assert (quiet s s1) as Q1 by (unfold s1; qt).
    assert (match d with D_STOPPED | _ => s1 end = s1) as E by (destruct d; reflexivity).
    replace (match d with D_STOPPED | _ => s1 end) with s1. split; [eapply steps_trans; [apply Q; exact Q1|apply steps_reevaluate]|]. intros _.
    apply (Px_quiet s1); [apply reevaluate_quiet|apply phase_reevaluate|exact P]. }
  destruct e; cbn [handle].
  - destruct (Hcd D_CONNECTED None) as [H|H]; [exact H|congruence].
  - destruct d as [v|]; [|destruct (Hcd D_STOPPED None) as [H|H]; [exact H|congruence]].
    cbn [enabled] in En. apply andb_true_iff in En as [En Hv]. unfold change_desired, new_op.
    change (desired (emit ?a (set_uid ?b s))) with (desired s). destruct (dstate_eqb (desired s) D_STOPPED).
    + assert (steps (g_idle, s) (g_idle, drop_disconnect v s)) as H1 by (apply steps_one, P_drop_disconnect; intros _; exact Hv).
      split; [exact H1|]. intros _. apply (Px_mono s); [reflexivity|eapply steps_stop; exact H1|exact P].
    + destruct (stop_Px (e_now ev) v s Hv P) as [H1 H2]. cbv zeta in H1, H2.
      split; [eapply steps_trans; [exact H1|apply steps_reevaluate]|]. intros _. eapply Px_quiet; [apply reevaluate_quiet|apply phase_reevaluate|exact H2].
  - destruct (Hcd D_TERMINATED None) as [H|H]; [exact H|congruence].
  - cbn [enabled] in En. apply andb_true_iff in En as [En Hv]. apply andb_true_iff in En as [_ Hr].
    destruct (cstate_eqb (current s) CONNECTED) eqn:C; [|destruct (satisfies_policy cf p) eqn:Po].
    3: { rewrite submit_facts; [|destruct (current s); try discriminate; discriminate C|exact Po].
      assert (steps (g_idle, s) (g_idle, refuse p override K_OFFLINE_QUEUE_POLICY s)) as H1.
      { apply steps_one, P_refuse. intros _. split; [exact Hr|]. split; [exact Hv|]. right. split; [reflexivity|]. split; [|exact Po]. intros E; rewrite E in C; discriminate C. }
      split; [exact H1|]. intros _. apply (Px_mono s); [reflexivity|eapply steps_stop; exact H1|exact P]. }
    all: assert (submit cf (e_now ev) p override false s = reevaluate cf (e_now ev) (enqueue p override s)) as ->
      by (unfold submit, new_op, enqueue; change (current (emit ?a (set_uid ?b s))) with (current s); rewrite C, ?Po; cbn [negb andb];
          match goal with |- (let '(_, _) := ?x in _) = _ => destruct x end; reflexivity).
    all: assert (steps (g_idle, s) (g_idle, enqueue p override s)) as H1
      by (apply steps_one, P_enqueue; intros _; split; [exact Hr|]; split; [exact Hv|]; first [right; assumption|left; assert (current s = CONNECTED) as C1 by (destruct (current s); try discriminate C; reflexivity); split; [exact C1|]; unfold Px in P; rewrite C1 in P; apply P]).
    all: destruct (enqueue_eq p override s) as (o & x & E & _); rewrite E in *.
    all: split; [eapply steps_trans; [exact H1|apply steps_reevaluate]|]; intros _; eapply Px_quiet; [apply reevaluate_quiet|apply phase_reevaluate|].
    all: (apply (Px_mono s); [|eapply steps_stop; exact H1|exact P]); reflexivity.
  - cbn [enabled] in En. apply andb_true_iff in En as [En Hv]. apply andb_true_iff in En as [_ Hr].
    assert (steps (g_idle, s) (g_idle, refuse p 0 K_CLIENT_TERMINATED s)) as H1.
    { apply steps_one, P_refuse. intros _. split; [exact Hr|]. split; [exact Hv|]. left; reflexivity. }
    split; [exact H1|]. intros _. apply (Px_mono s); [reflexivity|eapply steps_stop; exact H1|exact P].
  - assert (cut_ok s (manual_core control s) /\ phase (manual_core control s) = phase s) as [H1 H2].
    { assert (phase (manual_core control s) = phase s) as E by (destruct (manual_core_eq control s) as (m & x & E & [(id & _ & _ & E2)|(_ & r & E2 & _)]); rewrite E, ?E2; reflexivity).
      split; [|exact E]. split; [|left; exact E]. apply steps_one, P_manual. intros _. reflexivity. }
    assert (cut_ok (manual_core control s) (manual_ack cf (e_now ev) control s) /\ phase (manual_ack cf (e_now ev) control s) = phase (manual_core control s)) as [H3 H4].
    { unfold manual_ack, manual_core, queue_puback, puback_core, new_op. cbv zeta. destruct (lookup control (mc (emit (I_ACK control) s))).
      - split; [apply cut_ok_reevaluate|apply phase_reevaluate].
      - split; [split; [constructor|left; reflexivity]|reflexivity]. }
    apply Hq; [eapply cut_ok_trans; eassumption|congruence].
  - unfold reset_connection. set (s1 := set_delay (cf_min_delay_ms cf) s). assert (cut_ok s s1) as Q1 by (split; [apply steps_retime; [unfold s1; qh|reflexivity|intros _; apply T_delay]|left; reflexivity]).
    change (current s1) with (current s). destruct (current s) eqn:C; try (apply Hq; [exact Q1|reflexivity]).
    + split; [eapply steps_trans; [exact (proj1 Q1)|apply Q; qt]|]. intros _. apply (Px_mono s); [reflexivity|auto|exact P].
    + pose proof (cut_ok_trans s s1 _ Q1 (cut_ok_shutdown (e_now ev) K_RESET_FOR_ADAPTER s1)) as H. split; [apply H|]. intros _.
      eapply cut_ok_Px; [exact H| |exact P]. unfold Px in P. rewrite C in P. tauto.
    + pose proof (cut_ok_trans s s1 _ Q1 (cut_ok_shutdown (e_now ev) K_RESET_FOR_ADAPTER s1)) as H. split; [apply H|]. intros _.
      eapply cut_ok_Px; [exact H| |exact P]. unfold Px in P. rewrite C in P. tauto.
  - cbn [enabled] in En. apply andb_true_iff in En as [E1 E2]. apply N.ltb_lt in E1. apply N.leb_le in E2.
    apply service_task_steps; try assumption. lia.
  - cbn [enabled] in En. destruct (chan s) eqn:Hch; try discriminate En.
    assert (current s = CONNECTING) as C by (unfold Px in P; rewrite Hch in P; destruct (current s); try reflexivity; try (exfalso; intuition congruence); congruence).
    rewrite C in Jp. specialize (Jp eq_refl). destruct err as [n|].
    + set (s1 := set_chan CH_NONE s). split; [eapply (steps_trans cf _ (g_idle, s1)); [apply Q; unfold s1; qt|apply channel_gone_steps; [change (current s1) with (current s); rewrite C; reflexivity|exact Hck|exact Jw]]|]. intros _.
      destruct (channel_gone_phase cf ev (Some n) s1) as (H1 & H2 & H3 & H4 & _). change (chan s1) with CH_NONE in H4.
      unfold Px. destruct H1 as [-> | ->]; auto.
    + set (s1 := set_chan CH_UP s). split; [eapply (steps_trans cf _ (g_idle, s1)); [apply Q; unfold s1; qt|apply channel_up_steps; [exact C|exact Jp]]|]. intros _.
      pose proof (channel_up_steps cf ev s1 C Jp) as Hst. pose proof (steps_stop _ _ _ _ _ Hst) as Hs.
      destruct (channel_up_phase cf ev s1 C (proj1 Jp)) as (_ & _ & H3 & [(H4 & H5 & H6)|H4]); change (chan s1) with CH_UP in H3; unfold Px; rewrite H4; [|exact H3].
      unfold Px in P. rewrite C in P. destruct P as ([P|[P1 P2]] & _); (split; [|auto]); [left|right]; [change (life s1) with (life s) in H5; congruence|].
      change (life s1) with (life s) in H5. split; [congruence|]. apply Hs. exact P2.
  - cbn [enabled] in En. destruct (chan s) eqn:Hch; try discriminate En.
    set (s1 := set_outstanding false (set_chan CH_NONE s)). split; [eapply (steps_trans cf _ (g_idle, s1)); [apply Q; unfold s1; qt|apply channel_gone_steps; [|exact Hck|exact Jw]]|].
    { change (current s1) with (current s). unfold Px in P. rewrite Hch in P. destruct (current s); try reflexivity; exfalso; first [apply Ht; reflexivity|intuition congruence]. }
    intros _. destruct (channel_gone_phase cf ev err s1) as (H1 & H2 & H3 & H4 & _). change (chan s1) with CH_NONE in H4. unfold Px. destruct H1 as [-> | ->]; auto.
  - cbn [enabled] in En. destruct (chan s) eqn:Hch; try discriminate En. apply on_read_steps; assumption.
  - cbn [enabled] in En. destruct (chan s) eqn:Hch; try discriminate En. pose proof (on_written_steps ev err s Jw (proj2 (proj2 (reach_J3 _ _ _ _ R K)))) as H. split; [apply H|]. intros _.
    eapply cut_ok_Px; eassumption.
Qed.

(** ** Histories *)
Lemma step_steps s x : reach cf now0 (g_idle, s) -> (ok s -> Px s) ->
  reach cf now0 (g_idle, client_step cf s x) /\ (ok (client_step cf s x) -> Px (client_step cf s x)).
Proof.
  intros R P. destruct x as [ev e]. unfold client_step. destruct (c_crash s) eqn:K; [split; [exact R|exact P]|].
  destruct (cstate_eqb (current s) TERMINATED) eqn:T; cbn [orb]; [split; [exact R|exact P]|].
  destruct (enabled ev e s) eqn:En; cbn [negb]; [|split; [exact R|exact P]].
  pose proof (reach_tick _ _ _ (e_now ev) R) as R1.
  destruct (handle_steps ev e (emit (I_TICK (e_now ev)) s) eq_refl R1 K) as [H1 H2].
  - exact (P K).
  - exact En.
  - intros E. change (current (emit ?a s)) with (current s) in E. rewrite E in T. discriminate T.
  - split; [eapply reach_trans; [exact R1|exact H1]|exact H2].
Qed.
Lemma history_steps l : reach cf now0 (g_idle, client_history cf now0 l) /\ (ok (client_history cf now0 l) -> Px (client_history cf now0 l)).
Proof.
  unfold client_history, client_run. induction l as [|x l IH] using rev_ind; cbn [fold_left]; [split; [constructor|intros _; repeat split]|].
  rewrite fold_left_app. cbn [fold_left]. destruct IH as [IH1 IH2]. apply step_steps; assumption.
Qed.
End Decomp4.
