(** No overdue operation is left waiting once the service task has run. *)
From Verif Require Import Base BaseLemmas Mqtt5_Views TopicAlias_Model Encoder5_Model Decoder5_Model RateLimiter_Model RateLimiter_Spec
  RateLimiter_Proofs Validate5_Model Negotiated_Model Client5_State Client5_Model Client5_Spec Client5_Steps Client5_Decomp Client5_Decomp2 Client5_Forms
  Client5_Decomp3 Client5_Inv0 Client5_Flow Client5_Safety Client5_Decomp4 Client5_Ops Client5_Crash Client5_Conn Client5_Events Client5_Ids.
From Coq Require Import Permutation.
Ltac Zify.zify_post_hook ::= idtac.

(** ** The trace of servicing the queue: no connection is attempted or announced *)
Definition steady (x : out) : bool := match x with O_LIFE ATTEMPTING_CONNECT | O_LIFE (CONNECTION_SUCCESS _ _) => false | _ => true end.
Definition holds_on (s s' : client) : Prop := exists d, c_out s' = d ++ c_out s /\ Forall (fun x => steady x = true) d.
Lemma holds_refl s s' : c_out s' = c_out s -> holds_on s s'.
Proof. intros E. exists []. split; [exact E|constructor]. Qed.
Lemma holds_one x s s' : c_out s' = x :: c_out s -> steady x = true -> holds_on s s'.
Proof. intros E H. exists [x]. split; [exact E|repeat constructor; exact H]. Qed.
Lemma holds_trans a b c : holds_on a b -> holds_on b c -> holds_on a c.
Proof. intros (d & E & H) (d' & E' & H'). exists (d' ++ d). rewrite E', E, app_assoc. split; [reflexivity|apply Forall_app; split; assumption]. Qed.
Lemma holds_settings s s' : holds_on s s' -> settings_of (c_out s') = settings_of (c_out s).
Proof. intros (d & -> & H). induction H as [|x d Hx _ IH]; [reflexivity|]. cbn [app]. destruct x as [e| | | | | | | | | | | | |]; try exact IH. destruct e; try exact IH; discriminate. Qed.
Lemma holds_sent s s' o t : holds_on s s' -> sent_here o t (c_out s) -> sent_here o t (c_out s').
Proof.
  intros (d & -> & H) Hs. apply sent_here_more; [exact Hs|]. eapply Forall_impl; [|exact H]. intros x Hx. destruct x as [e| | | | | | | | | | | | |]; try reflexivity. destruct e; try reflexivity; discriminate.
Qed.

Section Timeouts.
Variable cf : config.
Variable now0 : N.
Notation steps := (steps cf).
Notation reach := (reach cf now0).
Lemma holds_crash b r s : holds_on s (crash_unless b r s).
Proof. apply holds_refl. unfold crash_unless. destruct b; [reflexivity|apply crash_out]. Qed.
Lemma holds_quiet s s' : quiet s s' -> holds_on s s'.
Proof. intros H. apply holds_refl, quiet_out, H. Qed.
Lemma emit_final_holds e ack dis s : holds_on s (emit_final e ack dis s).
Proof. unfold emit_final. destruct (life s); [apply holds_refl; reflexivity| |]; (eapply holds_trans; [apply holds_crash|eapply holds_one; reflexivity]). Qed.
Lemma shutdown_holds now e s : holds_on s (shutdown_channel cf now e s).
Proof.
  unfold shutdown_channel. match goal with |- holds_on s (match current ?x with _ => _ end) => assert (holds_on s x) as H0 by apply emit_final_holds; generalize dependent x end.
  intros s1 H0. eapply holds_trans; [exact H0|]. clear s H0. rename s1 into s.
  assert (holds_on s (emit (O_SHUTDOWN match e with K_SUCCESS => K_UNKNOWN | _ => e end) (enter_channel_shutdown cf now s))) as H.
  { eapply holds_trans; [|eapply holds_one; reflexivity]. unfold enter_channel_shutdown. destruct (cstate_eqb (current s) CHANNEL_SHUTDOWN); [apply holds_refl; reflexivity|].
    eapply holds_trans; [apply holds_crash|]. apply holds_refl. rewrite (quiet_out _ _ (reevaluate_quiet cf now _)). reflexivity. }
  destruct (current s); try (apply holds_refl; reflexivity); destruct (negb (slot s)); first [exact H|apply holds_refl; reflexivity].
Qed.
Lemma complete_holds now o e ack s : holds_on s (complete cf now o e ack s).
Proof.
  unfold complete. destruct (cs_shape false false o s) as [x Hx]. destruct (change_statistics false false o s) as [o' s1]. cbn [snd fst] in *. subst s1.
  eapply holds_trans; [|eapply holds_one; reflexivity]. destruct (is_disconnect (op_packet o')); [|apply holds_refl; reflexivity].
  eapply holds_trans; [|apply shutdown_holds]. apply holds_refl. reflexivity.
Qed.
Lemma pull_holds now : forall q s, holds_on s (fst (pull cf now q s)).
Proof.
  induction q as [|o q IH]; intros s; cbn [pull]; [apply holds_refl; reflexivity|].
  assert (forall s1 ok, c_out s1 = c_out s -> holds_on s (fst (if negb ok then (s1, NOTHING) else let s2 := set_queued q s1 in if validate_operation cf (op_packet o) s2 then (s2, PULLED o) else
    let s3 := complete cf now o K_VALIDATION None s2 in if is_disconnect (op_packet o) then (s3, BAD_DISCONNECT) else pull cf now q s3))) as H.
  { intros s1 [|] E; cbn [negb]; [|apply holds_refl; exact E]. cbv zeta. destruct (validate_operation cf (op_packet o) (set_queued q s1)); [apply holds_refl; exact E|].
    assert (holds_on s (complete cf now o K_VALIDATION None (set_queued q s1))) as H by (eapply holds_trans; [|apply complete_holds]; apply holds_refl; exact E).
    destruct (is_disconnect (op_packet o)); [exact H|]. eapply holds_trans; [exact H|apply IH]. }
  destruct (cf_flow cf && is_publish (op_packet o)); [destruct (rl_take pub_cfg now 1 (pub_rl s)) as [b okz]|]; apply H; reflexivity.
Qed.
Lemma set_current_holds o s : holds_on s (fst (set_current_operation o s)).
Proof.
  unfold set_current_operation. destruct (bind_packet_id o s) as [[o' s1]|] eqn:B; [|eapply holds_one; reflexivity].
  assert (c_out s1 = c_out s) as E by (apply bind_eq in B as [(-> & -> & _)|(id & _ & _ & -> & ->)]; reflexivity).
  destruct (append_packet (c_enc s1) (op_packet o')) as [e [| |]]; cbn [fst].
  - apply holds_refl. exact E.
  - apply (holds_one (O_LOST o')); [|reflexivity]. change (O_LOST o' :: c_out s1 = O_LOST o' :: c_out s). rewrite E. reflexivity.
  - apply holds_refl. rewrite crash_out. exact E.
Qed.
Lemma operational_out now s : c_out (fst (operational_time cf now s)) = c_out s.
Proof. apply quiet_out, ticked_quiet, operational_ticked. Qed.
Lemma service_loop_holds now : forall rounds b s, holds_on s (fst (fst (service_loop cf rounds now b s))).
Proof.
  induction rounds as [|rounds IH]; intros b s; cbn [service_loop]; [apply holds_refl; reflexivity|].
  match goal with |- context [let '(_, _) := ?x in _] => assert (holds_on s (fst x)) as H0; [|destruct x as [s1 f]; cbn [fst] in H0] end.
  { destruct (curop s); [apply holds_refl; reflexivity|]. pose proof (pull_holds now (queued s) s) as Hp. destruct (pull cf now (queued s) s) as [s1 [o| |]]; cbn [fst] in *; try exact Hp.
    pose proof (set_current_holds o s1) as Hc. destruct (set_current_operation o s1) as [s2 k]. cbn [fst] in *. eapply holds_trans; eassumption. }
  destruct f as [e|]; [exact H0|]. destruct (curop s1) as [o|]; [|exact H0].
  destruct (encode_to_buffer (c_enc s1) b) as [[e b'] r]. eapply holds_trans; [exact H0|]. destruct r; [| |].
  2, 3: apply holds_refl; reflexivity.
  assert (holds_on s1 (finish_operation cf now o (set_c_enc e s1))) as Hf by (eapply holds_one; [rewrite finish_out; reflexivity|reflexivity]).
  pose proof (operational_out now (finish_operation cf now o (set_c_enc e s1))) as Ho.
  destruct (operational_time cf now (finish_operation cf now o (set_c_enc e s1))) as [s2 t]. cbn [fst] in Ho.
  eapply holds_trans; [exact Hf|]. destruct (t =? now); [eapply holds_trans; [apply holds_refl; exact Ho|apply IH]|apply holds_refl; exact Ho].
Qed.
Lemma service_operations_holds ev s : holds_on s (fst (service_operations cf ev s)).
Proof.
  unfold service_operations. cbv zeta. pose proof (operational_out (e_now ev) s) as Ho. destruct (operational_time cf (e_now ev) s) as [s1 t]. cbn [fst] in Ho.
  eapply holds_trans; [apply holds_refl; exact Ho|]. clear s Ho. rename s1 into s. destruct (negb (t =? e_now ev)); [apply holds_refl; reflexivity|].
  match goal with |- context [let '(_, _) := ?x in _] => assert (c_out (fst x) = c_out s) as H0; [|destruct x as [s1 k]; cbn [fst] in H0] end.
  { destruct (settings_valid s && cf_flow cf); [destruct (rl_take thr_cfg (e_now ev) thr_tokens (thr_rl s))|]; reflexivity. }
  eapply holds_trans; [apply holds_refl; exact H0|]. destruct (negb k); [apply holds_refl; reflexivity|]. destruct (e_msg ev) as [cap|]; [|apply holds_refl; reflexivity].
  pose proof (service_loop_holds (e_now ev) (S (S (length (queued s1)))) (mkbuf cap []) s1) as Hl.
  destruct (service_loop cf (S (S (length (queued s1)))) (e_now ev) (mkbuf cap []) s1) as [[s2 b] f]. cbn [fst] in Hl. eapply holds_trans; [exact Hl|].
  destruct f; [apply holds_refl; reflexivity|]. destruct (bdata b); [apply holds_refl; reflexivity|]. destruct (e_send ev); [eapply holds_one; reflexivity|apply holds_refl; reflexivity].
Qed.
Lemma service_or_shutdown_holds ev s : holds_on s (fst (service_or_shutdown cf ev s)).
Proof.
  unfold service_or_shutdown. pose proof (service_operations_holds ev s) as H. destruct (service_operations cf ev s) as [s1 [e|]]; cbn [fst] in *; [|exact H].
  eapply holds_trans; [exact H|apply shutdown_holds].
Qed.

(** ** The timeout queue *)
Lemma pq_top_least l d u : pq_top l = Some (d, u) -> forall d' u', In (d', u') l -> d <= d'.
Proof.
  revert d u. induction l as [|[d1 u1] l IH]; [discriminate|]. intros d u. cbn [pq_top].
  destruct (pq_top l) as [[d2 u2]|] eqn:P.
  - specialize (IH _ _ eq_refl). cbn [fst]. destruct (N.ltb_spec d2 d1) as [Hl|Hl]; intros E; injection E as <- <-; intros d' u' [H|H].
    + injection H as -> _. lia.
    + exact (IH _ _ H).
    + injection H as -> _. lia.
    + specialize (IH _ _ H). lia.
  - intros E; injection E as <- <-. intros d' u' [H|H]; [injection H as -> _; lia|]. destruct l; [contradiction|]. cbn [pq_top] in P. destruct (pq_top l); [destruct (fst p0 <? fst p); discriminate|discriminate].
Qed.
Lemma steps_finished g s g' s' u : steps (g, s) (g', s') -> In u (map op_uid (finished (c_out s))) -> In u (map op_uid (finished (c_out s'))).
Proof. intros H Hu. destruct (steps_trace cf _ _ _ _ H) as (d & -> & _). rewrite finished_app, map_app, in_app_iff. auto. Qed.
Lemma filter_length {A} (f : A -> bool) l : (length (filter f l) <= length l)%nat.
Proof. induction l as [|x l IH]; cbn [filter length]; [lia|]. destruct (f x); cbn [length]; lia. Qed.
Lemma filter_shorter {A} (f : A -> bool) l x : In x l -> f x = false -> (length (filter f l) < length l)%nat.
Proof.
  induction l as [|y l IH]; [contradiction|]. intros [-> |H] E; cbn [filter length].
  - rewrite E. pose proof (filter_length f l). lia.
  - specialize (IH H E). destruct (f y); cbn [length]; lia.
Qed.
Hypothesis policy : cf_queue cf <> FAIL_QOS0_PUBLISH.
Lemma complete_request now o e ack s : is_disconnect (op_packet o) = false ->
  let s' := complete cf now o e ack s in
  (exists o', c_out s' = O_DONE o' e ack :: c_out s /\ op_uid o' = op_uid o) /\ pq s' = filter (fun x => negb (snd x =? op_uid o)) (pq s) /\ current s' = current s /\
  unacked s' = unacked s.
Proof.
  intros Hd. unfold complete. pose proof (cs_uid false false o s) as Hu. pose proof (cs_packet false false o s) as Hp. destruct (cs_shape false false o s) as [x Hx].
  destruct (change_statistics false false o s) as [o' s1]. cbn [snd fst] in *. subst s1. rewrite Hp, Hd. cbv zeta. split; [exists o'; auto|]. rewrite Hu. repeat split.
Qed.
Lemma check_timeouts_all now : forall rounds s, clock (c_out s) = Some now -> reach (g_idle, s) -> alive g_idle s -> (length (pq s) <= rounds)%nat ->
  ok (check_timeouts cf rounds now s) -> forall o, In o (unacked s) -> op_deadline o <= now -> In (op_uid o) (map op_uid (finished (c_out (check_timeouts cf rounds now s)))).
Proof.
  induction rounds as [|rounds IH]; intros s Hck R Al Hl Ok o Ho Hd.
  { exfalso. assert (ok s) as K by exact Ok. destruct (proj2 (reach_J11 cf now0 policy _ _ R K) Al o Ho) as [_ H]. destruct (pq s); [contradiction|]. cbn [length] in Hl. lia. }
  assert (ok s) as K by (eapply steps_ok; [exact (reach_rl _ _ _ R)|exact (proj1 (check_timeouts_steps cf now0 now (S rounds) s Hck R))|exact Ok]).
  pose proof (proj2 (reach_J11 cf now0 policy _ _ R K) Al) as HD. pose proof (check_timeouts_steps cf now0 now (S rounds) s Hck R) as (_ & _).
  cbn [check_timeouts] in *. destruct (pq_top (pq s)) as [[d u]|] eqn:P.
  2: { exfalso. destruct (HD o Ho) as [_ H]. destruct (pq s) as [|e l]; [contradiction|]. cbn [pq_top] in P. destruct (pq_top l); [destruct (fst p <? fst e); discriminate|discriminate]. }
  destruct (N.ltb_spec now d) as [Hlt|Hle]; [exfalso; destruct (HD o Ho) as [_ H]; pose proof (pq_top_least _ _ _ P _ _ H); lia|].
  set (s1 := set_pq (filter (fun x => negb (snd x =? u)) (pq s)) s) in *. change (unacked s1) with (unacked s) in *. change (table s1) with (table s) in *.
  destruct (find_op u (unacked s)) as [x|] eqn:F; [|exfalso; exact (not_ok_crash _ _ Ok)]. destruct (find_op_some _ _ _ F) as [F1 F2].
  destruct (lookup (packet_id (op_packet x)) (table s)) as [u'|] eqn:Lk.
  2: { exfalso. destruct (HD x F1) as [H _]. revert Lk H. unfold lookup, pid. destruct (find (fun e => fst e =? packet_id (op_packet x)) (table s)) eqn:Fd; [discriminate|]. intros _ H.
       pose proof (find_none _ _ Fd _ H) as H2. cbn [fst] in H2. apply N.eqb_neq in H2. apply H2. reflexivity. }
  set (s2 := set_table (remove_key (packet_id (op_packet x)) (table (set_unacked (remove_op u (unacked s)) s1))) (set_unacked (remove_op u (unacked s)) s1)) in *.
  assert (steps (g_idle, s) (g_idle, complete cf now x K_TIMEOUT None s2)) as Hst.
  { pose proof (proj1 (reach_J0 _ _ _ _ R K)) as Ja. unfold all_acked in Ja. rewrite Forall_forall in Ja. specialize (Ja _ F1).
    eapply steps_cons; [apply (P_expired cf g_idle s d u x); [apply pq_top_in; exact P|exact F|reflexivity]|].
    change g_idle with (with_hand [] (with_hand [x] g_idle)) at 2. apply complete_steps; [reflexivity|intros _ _; discriminate|]. right.
    split; [destruct (op_packet x); try discriminate Ja; reflexivity|]. intros _. split; [reflexivity|]. split; [exact Ja|].
    destruct (reach_J3 _ _ _ _ R K) as (_ & J & _). destruct (J d u (pq_top_in _ _ P)) as (o' & t & J1 & J2 & J3). exists now, o', t.
    split; [exact Hck|]. split; [exact J1|]. split; [exact (eq_trans J2 (eq_sym F2))|]. rewrite J3. exact Hle. }
  assert (is_disconnect (op_packet x) = false) as Hx.
  { pose proof (proj1 (reach_J0 _ _ _ _ R K)) as Ja. unfold all_acked in Ja. rewrite Forall_forall in Ja. specialize (Ja _ F1). destruct (op_packet x); try discriminate Ja; reflexivity. }
  pose proof (complete_request now x K_TIMEOUT None s2 Hx) as C. cbv zeta in C. generalize dependent (complete cf now x K_TIMEOUT None s2). intros s3 Ok Hst ((o3 & C1 & C2) & C3 & C4 & C5).
  assert (reach (g_idle, s3)) as R3 by (eapply reach_trans; eassumption).
  assert (clock (c_out s3) = Some now) as Hck3 by (rewrite (steps_clock _ _ _ _ _ Hst); exact Hck).
  destruct (N.eq_dec (op_uid o) u) as [E|E].
  - apply (steps_finished g_idle s3 g_idle); [apply (check_timeouts_steps cf now0 now rounds s3 Hck3 R3)|]. rewrite C1. unfold finished. cbn [flat_map app map]. left. congruence.
  - apply IH; try assumption.
    + destruct Al as (A1 & A2 & A3). split; [exact A1|]. split; [rewrite C4; exact A2|]. rewrite C1. exact A3.
    + rewrite C3. change (pq s2) with (filter (fun x => negb (snd x =? u)) (pq s)). pose proof (filter_length (fun x0 => negb (snd x0 =? op_uid x)) (filter (fun x0 => negb (snd x0 =? u)) (pq s))) as L1.
      pose proof (filter_shorter (fun x0 => negb (snd x0 =? u)) (pq s) (d, u) (pq_top_in _ _ P)) as L2. cbn [snd] in L2. rewrite N.eqb_refl in L2. specialize (L2 eq_refl). lia.
    + rewrite C5. change (unacked s2) with (remove_op u (unacked s)). apply in_remove_op. auto.
Qed.
Lemma phase_settings l : phase_of l = LS_CONNECTED -> settings_of l <> None.
Proof.
  induction l as [|x l IH]; [discriminate|]. destruct x as [e| | | | | | | | | | | | |]; try exact IH. destruct e; cbn [phase_of phase_after settings_of]; discriminate.
Qed.
Lemma overdue_deadline t o now : overdue cf t o now -> deadline_of cf t o <= now.
Proof.
  unfold deadline_of, overdue. destruct (N.eqb_spec (if op_override o =? 0 then cf_ack_timeout_s cf else op_override o) 0) as [->|Hn]; [auto|].
  replace (0 <? _) with true by (symmetry; apply N.ltb_lt; lia). unfold s_to_ns. generalize (if op_override o =? 0 then cf_ack_timeout_s cf else op_override o). intros k.
  replace (mul_sat k nanos) with (N.min (2 ^ 64 - 1) (k * 1000000000)); [auto|]. unfold mul_sat. change nanos with 1000000000. change two64 with (2 ^ 64).
  destruct (N.ltb_spec (k * 1000000000) (2 ^ 64)); lia.
Qed.
Lemma cutp_life s s' : phase s' = cutp (phase s) -> life s' = LS_NONE.
Proof. unfold cutp, phase. intros E; injection E; auto. Qed.
(** what is waiting at [s] for an answer and overdue has been completed once the timeout queue has been looked at *)
Lemma overdue_checked now s s1 : clock (c_out s1) = Some now -> reach (g_idle, s1) -> ok s1 -> alive g_idle s1 -> holds_on s s1 ->
  ok (check_timeouts cf (length (pq s1)) now s1) -> forall o t, sent_here o t (c_out s) -> answered (op_packet o) = true -> overdue cf t o now ->
  In (op_uid o) (map op_uid (finished (c_out (check_timeouts cf (length (pq s1)) now s1)))).
Proof.
  intros Hck R K Al H Ok o t Hs Ha Ho.
  destruct (proj2 (reach_J12 cf now0 _ _ R K) Al o t (holds_sent _ _ _ _ H Hs) Ha) as [(o' & U1 & U2 & _ & U4)|[Hh|Hf]].
  - rewrite <- U2. apply check_timeouts_all; try assumption; [apply Nat.le_refl|]. rewrite U4. apply overdue_deadline, Ho.
  - destruct Hh.
  - apply (steps_finished g_idle s1 g_idle); [apply (check_timeouts_steps cf now0 now _ s1 Hck R)|exact Hf].
Qed.
Lemma service_task_all ev s : e_now ev <> 0 -> clock (c_out s) = Some (e_now ev) -> reach (g_idle, s) -> ok s -> Px s ->
  phase_of (c_out s) = LS_CONNECTED -> ok (service_task cf ev s) -> phase_of (c_out (service_task cf ev s)) = LS_CONNECTED ->
  forall o t, sent_here o t (c_out s) -> answered (op_packet o) = true -> overdue cf t o (e_now ev) ->
  In (op_uid o) (map op_uid (finished (c_out (service_task cf ev s)))).
Proof.
  intros Hn Hck R K P Hp Ok Hp' o t Hs Ha Ho.
  pose proof (service_task_steps cf now0 ev s Hn Hck R K P) as [Hall _].
  pose proof (reach_J7 cf now0 _ _ (reach_trans _ _ _ _ _ R Hall) Ok) as [J _]. rewrite Hp' in J. clear Hp'. 
  pose proof (reach_J7 cf now0 _ _ R K) as [J1 J2]. rewrite Hp in J1. specialize (J2 J1).
  pose proof (phase_settings _ Hp) as Hset. clear Hall.
  unfold service_task in *. set (s0 := set_in_service true (set_run_at 0 s)) in *.
  assert (steps (g_idle, s) (g_idle, s0)) as H0 by (apply Q; qt). apply (reach_trans _ _ _ _ _ R) in H0. clear R. rename H0 into R.
  change (ok s0) in K. change (Px s0) in P. change (current s0 = CONNECTED \/ current s0 = CLEAN_DISCONNECT) in J2.
  change (sent_here o t (c_out s0)) in Hs. change (clock (c_out s0) = Some (e_now ev)) in Hck. change (settings_of (c_out s0) <> None) in Hset. change (life s0 = LS_CONNECTED) in J1. clear Hp.
  clearbody s0. clear s. rename s0 into s.
  pose proof (service_state_steps cf now0 ev s Hn Hck R K P) as Hsv.
  match type of Ok with context [let '(_, _) := ?x in _] => assert (ok (fst x) -> life (fst x) = LS_CONNECTED -> In (op_uid o) (map op_uid (finished (c_out (fst x))))) as HH;
    [clear Ok J Hsv|destruct x as [s1 [|]]; cbn [fst] in HH] end.
  2: { apply HH; assumption. }
  2: { destruct Hsv as [H1 _]. pose proof (reevaluate_quiet cf (e_now ev) (set_in_service false s1)) as [Hq _]. pose proof (phase_reevaluate cf (e_now ev) (set_in_service false s1)) as Hph.
       assert (ok s1) as K1.
       { change (ok (set_in_service false s1)). refine (steps_ok cf g_idle _ g_idle _ _ (steps_reevaluate cf _ _ _) Ok). exact (reach_rl cf now0 (g_idle, s1) (reach_trans _ _ _ _ _ R H1)). }
       apply core_inv in Hq. destruct Hq as (_ & _ & _ & _ & _ & _ & _ & _ & _ & _ & _ & _ & _ & _ & _ & Hq). rewrite Hq. apply HH; [exact K1|].
       apply phase_inv in Hph as (_ & _ & Hph & _). rewrite Hph in J. exact J. }
  unfold Px in P. destruct J2 as [C|C]; rewrite C in P |- *; [destruct P as (_ & Hch & Hsl)|destruct P as [Hch Hsl]]; cbn [fst].
  - unfold service_connected. destruct (wants_connection s); cbn [negb].
    2: { intros _ L. exfalso. destruct (shut_after_final_steps cf g_idle (e_now ev) K_USER_REQUESTED_STOP None s (fun _ _ => ltac:(discriminate)) ltac:(intros H; contradiction)) as [_ H2]. apply cutp_life in H2. congruence. }
    destruct ((ping_to s <=? e_now ev) && negb (ping_to s =? 0)).
    { intros _ L. exfalso. pose proof (shutdown_clean_phase cf (e_now ev) K_PING_RESPONSE_TIMEOUT 141 (emit_final K_PING_RESPONSE_TIMEOUT None None s)) as H2. rewrite emit_final_phase in H2.
      unfold phase at 2, no_life, cleanp, to_clean in H2. rewrite C in H2. unfold phase in H2. injection H2; intros. congruence. }
    set (s1 := if ping s <=? e_now ev then queue_ping cf (e_now ev) s else s).
    assert (steps (g_idle, s) (g_idle, s1) /\ phase s1 = phase s /\ c_out s1 = c_out s /\ unacked s1 = unacked s) as (A1 & A2 & A3 & A4).
    { unfold s1. destruct (ping s <=? e_now ev); [|repeat split; constructor]. destruct (queue_ping_steps cf g_idle (e_now ev) s Hck C) as (Q1 & Q2 & Q3). split; [exact Q1|]. split; [exact Q2|]. split; [|exact Q3].
      unfold queue_ping, new_op. rewrite (quiet_out _ _ (reevaluate_quiet cf _ _)). reflexivity. }
    clearbody s1.
    set (s2 := if (reset_at s1 <=? e_now ev) && negb (reset_at s1 =? 0) then set_reset_at 0 (set_delay 0 (set_recount 0 s1)) else s1).
    assert (steps (g_idle, s1) (g_idle, s2) /\ phase s2 = phase s1 /\ c_out s2 = c_out s1 /\ unacked s2 = unacked s1) as (B1 & B2 & B3 & B4).
    { assert (current s1 = CONNECTED) as C1 by (apply phase_inv in A2 as (_ & A2 & _); congruence).
      unfold s2. destruct ((reset_at s1 <=? e_now ev) && negb (reset_at s1 =? 0)); (split; [|repeat split]); [|constructor].
      apply steps_retime; [qh|reflexivity|]. intros _. apply T_backoff; [exact C1|reflexivity]. }
    clearbody s2.
    assert (steps (g_idle, s) (g_idle, s2)) as S2 by (eapply steps_trans; [exact A1|exact B1]).
    pose proof (reach_trans _ _ _ _ _ R S2) as R2. assert (c_out s2 = c_out s) as E2 by congruence.
    assert (clock (c_out s2) = Some (e_now ev)) as Hck2 by congruence. assert (phase s2 = phase s) as Ep2 by congruence.
    destruct (check_timeouts_steps cf now0 (e_now ev) (length (pq s2)) s2 Hck2 R2) as (D1 & D4).
    set (s3 := check_timeouts cf (length (pq s2)) (e_now ev) s2) in *. intros Ok L.
    pose proof (reach_trans _ _ _ _ _ R2 D1) as R3.
    assert (all_acked s2) as Ha2 by (unfold all_acked; rewrite B4, A4; exact (proj1 (reach_J0 _ _ _ _ R K))).
    destruct (D4 Ha2) as (D2 & _). assert (phase s3 = phase s) as Ep3 by congruence. destruct (phase_inv _ _ Ep3) as (_ & E5 & _ & E7 & _).
    pose proof (proj1 (service_or_shutdown_steps cf ev s3 Hn (eq_trans (steps_clock _ _ _ _ _ D1) Hck2) ltac:(rewrite E5, C; reflexivity) ltac:(congruence))) as H1.
    pose proof (steps_ok cf _ _ _ _ (reach_rl _ _ _ R3) H1 Ok) as K3. pose proof (steps_ok cf _ _ _ _ (reach_rl _ _ _ R2) D1 K3) as K2.
    apply (steps_finished _ _ _ _ _ H1). apply (overdue_checked (e_now ev) s s2) with (t := t); try assumption.
    + split; [reflexivity|]. destruct (phase_inv _ _ Ep2) as (_ & -> & _). split; [rewrite C; reflexivity|]. rewrite E2. exact Hset.
    + apply holds_refl. exact E2.
  - unfold service_clean_disconnect. pose proof (service_or_shutdown_holds ev s) as HB.
    destruct (service_or_shutdown_steps cf ev s Hn Hck ltac:(rewrite C; reflexivity) Hsl) as [H1 H2].
    destruct (service_or_shutdown cf ev s) as [s1 okz] eqn:E. cbn [fst snd] in H1, H2, HB. destruct okz.
    + intros Ok L. assert (reach (g_idle, s1)) as R1 by (eapply reach_trans; eassumption).
      pose proof (eq_trans (steps_clock _ _ _ _ _ H1) Hck) as Hck1.
      destruct (check_timeouts_steps cf now0 (e_now ev) (length (pq s1)) s1 Hck1 R1) as (D1 & _).
      pose proof (steps_ok cf _ _ _ _ (reach_rl _ _ _ R1) D1 Ok) as K1.
      apply (overdue_checked (e_now ev) s s1) with (t := t); try assumption.
      split; [reflexivity|]. destruct (phase_inv _ _ H2) as (_ & -> & _). split; [rewrite C; reflexivity|]. rewrite (holds_settings _ _ HB). exact Hset.
    + intros _ L. exfalso. apply cutp_life in H2. congruence.
Qed.
(** the service task, when it is due while connected and leaves the client connected *)
Lemma no_overdue ev l : let s := client_history cf now0 l in let s' := client_history cf now0 (l ++ [(ev, EService)]) in
  c_crash s' = None -> enabled ev EService s = true -> phase_of (c_out s) = LS_CONNECTED -> phase_of (c_out s') = LS_CONNECTED ->
  forall o t, sent_here o t (c_out s) -> answered (op_packet o) = true -> overdue cf t o (e_now ev) -> In (op_uid o) (map op_uid (finished (c_out s'))).
Proof.
  cbv zeta. destruct (history_steps cf now0 l) as [R P]. unfold client_history, client_run in *. rewrite fold_left_app. cbn [fold_left].
  generalize dependent (fold_left (client_step cf) l (client_new cf now0)). intros s R P. unfold client_step. destruct (c_crash s) eqn:K; [congruence|].
  intros K' En. rewrite En in *. specialize (P K). destruct (cstate_eqb (current s) TERMINATED) eqn:T; cbn [orb negb] in *.
  { intros Hp. exfalso. destruct (reach_J7 cf now0 _ _ R K) as [J1 J2]. rewrite Hp in J1. destruct (J2 J1) as [C|C]; rewrite C in T; discriminate T. }
  cbn [handle] in *. intros Hp Hp' o t Hs Ha Ho. unfold enabled in En. apply andb_prop in En as [N1 N2]. apply N.ltb_lt in N1. apply N.leb_le in N2.
  apply service_task_all with (t := t); try assumption; try reflexivity.
  - lia.
  - apply reach_tick. exact R.
  - destruct Hs as (a & b & E & H1 & H2). exists (I_TICK (e_now ev) :: a), b. split; [exact (f_equal (cons (I_TICK (e_now ev))) E)|]. split; [constructor; [reflexivity|exact H1]|exact H2].
Qed.
End Timeouts.
