(** The request-response client's functions as sequences of the steps of RR_Steps.v. *)
From Verif Require Import Base Split TopicAlias_Model TopicAlias_Proofs SubSet_Model Topic_Model Paths RR_Model RR_Steps.
From Coq Require Import Permutation.

Lemma wake_phase now s : c_phase (wake now s) = c_phase s.
Proof. unfold wake. destruct (active _); [|reflexivity]. destruct (_ || _); reflexivity. Qed.
Lemma fail_phase id e s : c_phase (fail id e s) = c_phase s.
Proof. unfold fail, halt, complete. destruct (get_op id s) as [o|]; [|reflexivity]. destruct (o_kind o); destruct (state_is _ o); try destruct (state_is S_TERMINAL o); reflexivity. Qed.
Lemma deliver_phase topic payload l s : c_phase (fold_left (deliver topic payload) l s) = c_phase s.
Proof.
  revert s. induction l as [|id l IH]; intros s; [reflexivity|]. cbn [fold_left]. rewrite IH. unfold deliver. destruct (get_op id s) as [o|]; [|reflexivity].
  destruct (o_kind o); [reflexivity|]. destruct (_ || _); reflexivity.
Qed.
Lemma streamed_phase topic payload s : c_phase (streamed topic payload s) = c_phase s.
Proof.
  unfold streamed. set (s1 := match find_key _ _ with Some l => _ | None => _ end).
  assert (H1 : c_phase s1 = c_phase s) by (unfold s1; destruct (find_key _ _); [apply deliver_phase|reflexivity]).
  clearbody s1. revert s1 H1. induction (filter _ (c_streams s)) as [|e l IH]; intros s2 H2; [exact H2|]. cbn [fold_left]. apply IH.
  destruct (topic_matched _ _); [rewrite deliver_phase|]; assumption.
Qed.
Lemma paths_phase l s : c_phase (fold_left add_path l s) = c_phase s.
Proof. revert s. induction l as [|p l IH]; intros s; [reflexivity|]. cbn [fold_left]. rewrite IH. unfold add_path. destruct (find_key _ _) as [[? ?]|]; reflexivity. Qed.
Lemma unpaths_phase l s : c_phase (fold_left drop_path l s) = c_phase s.
Proof. revert s. induction l as [|p l IH]; intros s; [reflexivity|]. cbn [fold_left]. rewrite IH. unfold drop_path. destruct (find_key _ _) as [[? ?]|]; reflexivity. Qed.
Lemma add_tables_phase o s : c_phase (add_tables o s) = c_phase s.
Proof. unfold add_tables. destruct (o_work o); cbn [upd_op set_ops c_phase set_tokens set_streams]; [apply paths_phase|reflexivity]. Qed.
Lemma prim_phase cf x y : prim cf x y -> c_phase (snd y) = c_phase (snd x).
Proof.
  destruct 1; cbn [snd]; try reflexivity; try (destruct b; reflexivity).
  - unfold create. rewrite H0. reflexivity.
  - unfold submitted, release, upd_op. cbn [c_phase set_ops]. rewrite wake_phase. reflexivity.
  - rewrite fail_phase. reflexivity.
  - unfold listen. destruct (get_sub f s); reflexivity.
  - apply add_tables_phase.
  - apply wake_phase.
  - destruct (state_is _ _); reflexivity.
  - rewrite streamed_phase. reflexivity.
  - unfold unlisten. destruct (get_sub f s); [|reflexivity]. destruct (filter _ _); [|reflexivity]. unfold status. cbn [upd_sub set_subs c_phase]. rewrite H. exact H.
  - unfold untabled. destruct (o_work o); [|reflexivity]. destruct (o_tables o); [|reflexivity]. cbn [emit c_phase]. rewrite unpaths_phase. reflexivity.
Qed.
Lemma psteps_phase cf x y : psteps cf x y -> c_phase (snd y) = c_phase (snd x).
Proof. induction 1; [reflexivity|]. rewrite IHpsteps. eapply prim_phase. eassumption. Qed.
Lemma psteps_active cf g s g' s' : c_phase s = ACTIVE -> psteps cf (g, s) (g', s') -> c_phase s' = ACTIVE.
Proof. intros Ha H. apply psteps_phase in H. cbn [snd] in H. rewrite H. assumption. Qed.

Lemma state_is_spec x o : state_is x o = true <-> o_state o = x.
Proof. unfold state_is. destruct x, (o_state o); split; intros; congruence. Qed.
Lemma state_is_not x o : state_is x o = false <-> o_state o <> x.
Proof. rewrite <- (state_is_spec x o). destruct (state_is x o); split; intros; congruence. Qed.
Lemma is_pending_spec p r : is_pending p r = true <-> s_pending r = p.
Proof. unfold is_pending. destruct p, (s_pending r); split; intros; congruence. Qed.
Lemma is_pending_not p r : is_pending p r = false <-> s_pending r <> p.
Proof. rewrite <- (is_pending_spec p r). destruct (is_pending p r); split; intros; congruence. Qed.
Lemma kind_eqb_spec a b : kind_eqb a b = true <-> a = b.
Proof. destruct a, b; split; intros; cbn in *; congruence. Qed.

(** a loop whose body is a sequence of steps is one *)
Lemma fold_psteps {A} cf (f : client -> A -> client) : (forall a s, c_phase s = ACTIVE -> psteps cf (IDLE, s) (IDLE, f s a)) ->
  forall l s, c_phase s = ACTIVE -> psteps cf (IDLE, s) (IDLE, fold_left f l s).
Proof.
  intros H l. induction l as [|a l IH]; intros s Ha; [apply S_refl|]. cbn [fold_left]. eapply psteps_trans; [apply (H a s Ha)|]. apply IH.
  eapply psteps_active; [|apply H]; assumption.
Qed.

Section decomp.
Context (cf : config).
Notation ps := (psteps cf).

Lemma complete_steps g o r s : get_op (o_id o) s = Some o -> cause g o r s -> (o_kind o = STREAM -> (forall o0 a, g <> TOOK o0 a) /\ (forall l, g <> FAILING l) /\ (forall o0, g <> CLOSED o0)) ->
  ps (g, s) (g, complete o r s).
Proof.
  intros Hg Hc Hs. unfold complete. destruct (o_kind o) eqn:Ek.
  - destruct (state_is S_PENDING_DESTROY o) eqn:E; [apply S_refl|]. apply psteps_one. apply P_complete; auto. apply state_is_not. assumption.
  - destruct (Hs eq_refl) as (H1 & H2 & H3). apply psteps_one. eapply P_complete_crash; eauto.
Qed.
Lemma fail_steps g id e s : (forall o, get_op id s = Some o -> cause g o (FAILED e) s /\ halt_cause g o e) -> ps (g, s) (g, fail id e s).
Proof.
  intros H. unfold fail. destruct (get_op id s) as [o|] eqn:E; [|apply S_refl]. destruct (H o eq_refl) as [Hc Hh]. pose proof (get_op_id _ _ _ E) as <-. destruct (o_kind o) eqn:Ek.
  - apply complete_steps; auto. congruence.
  - unfold halt. rewrite Ek. destruct (state_is S_PENDING_DESTROY o) eqn:E1; [apply S_refl|]. destruct (state_is S_TERMINAL o) eqn:E2; [apply S_refl|].
    apply psteps_one. apply P_halt; auto; apply state_is_not; assumption.
Qed.
Lemma unref_id o : o_id (unref o) = o_id o.
Proof. unfold unref. destruct (o_refs o =? 1); reflexivity. Qed.
Lemma unref_state o : o_state (unref o) = o_state o.
Proof. unfold unref. destruct (o_refs o =? 1); reflexivity. Qed.
Lemma completed_get o r s : get_op (o_id o) s = Some o -> get_op (o_id o) (completed o r s) = Some (unref (set_state S_PENDING_DESTROY o)).
Proof.
  intros H. unfold completed, release. rewrite get_op_upd_same by apply unref_id. rewrite get_op_upd_same by reflexivity. unfold emit, get_op in *. cbn [c_ops].
  rewrite H. reflexivity.
Qed.
Lemma halted_get o e s : get_op (o_id o) s = Some o -> get_op (o_id o) (halted o e s) = Some (set_state S_TERMINAL o).
Proof. intros H. unfold halted. rewrite get_op_upd_same by reflexivity. unfold emit, get_op in *. cbn [c_ops]. rewrite H. reflexivity. Qed.
Lemma fail_over id e s o : get_op id (fail id e s) = Some o -> o_state o = S_PENDING_DESTROY \/ o_state o = S_TERMINAL.
Proof.
  unfold fail. destruct (get_op id s) as [o1|] eqn:E; [|intros H; congruence]. pose proof (get_op_id _ _ _ E) as <-. unfold complete, halt. destruct (o_kind o1).
  - destruct (state_is S_PENDING_DESTROY o1) eqn:E1; [apply state_is_spec in E1; intros H; left; congruence|]. fold (completed o1 (FAILED e) s). rewrite completed_get by assumption.
    intros [= <-]. left. apply unref_state.
  - destruct (state_is S_PENDING_DESTROY o1) eqn:E1; [apply state_is_spec in E1; intros H; cbn [orb] in H; left; congruence|].
    destruct (state_is S_TERMINAL o1) eqn:E2; [apply state_is_spec in E2; intros H; cbn [orb] in H; right; congruence|]. cbn [orb]. fold (halted o1 e s). rewrite halted_get by assumption. intros [= <-]. right. reflexivity.
Qed.

(** *** The subscription manager *)
Lemma purge_one_steps ev s f : c_phase s = ACTIVE -> ps (IDLE, s) (IDLE, purge_one ev s f).
Proof.
  intros Ha. unfold purge_one. destruct (get_sub f s) as [r|] eqn:E; [|apply S_refl]. destruct (s_listeners r) as [|i l] eqn:El; [|apply S_refl].
  set (s1 := if c_connected s then unsubscribe ev false f s else s).
  assert (H1 : ps (IDLE, s) (IDLE, s1) /\ (forall r1, get_sub f s1 = Some r1 -> s_listeners r1 = [])).
  { unfold s1. destruct (c_connected s) eqn:Ec; [|split; [apply S_refl|intros r1 H; congruence]]. unfold unsubscribe. rewrite E. cbn [andb]. rewrite orb_false_r.
    destruct (s_subscribed r && negb (is_pending UNSUBSCRIBING r)) eqn:Eb; [|split; [apply S_refl|intros r1 H; congruence]].
    apply andb_prop in Eb as [E1 E2]. apply negb_true_iff, is_pending_not in E2. destruct (e_unsub ev f).
    - split; [apply psteps_one; eapply P_unsubscribe; eauto|]. intros r1. rewrite get_sub_upd_same by reflexivity. intros H. change (get_sub f (set_flights (c_flights s ++ [(false, f)]) (emit (O_UNSUBSCRIBE f true) s))) with (get_sub f s) in H.
      rewrite E in H. injection H as <-. exact El.
    - split; [apply psteps_one; apply P_unsubscribe_failed; assumption|]. intros r1 H. change (get_sub f (emit (O_UNSUBSCRIBE f false) s)) with (get_sub f s) in H. congruence. }
  destruct H1 as [H1 H2]. destruct (get_sub f s1) as [r1|] eqn:E1; [|exact H1]. destruct (negb (s_subscribed r1) && is_pending NOTHING r1) eqn:Eb; [|exact H1].
  apply andb_prop in Eb as [E3 E4]. apply negb_true_iff in E3. apply is_pending_spec in E4. eapply psteps_trans; [exact H1|]. apply psteps_one. eapply P_purge; eauto. eapply psteps_active; eassumption.
Qed.
Lemma purge_steps ev s : c_phase s = ACTIVE -> ps (IDLE, s) (IDLE, purge ev s).
Proof. intros Ha. unfold purge. apply fold_psteps; [|assumption]. intros f s1 H1. apply purge_one_steps. assumption. Qed.
Lemma activate_steps g ev f s : g = IDLE \/ (exists o, g = TAKING o []) -> c_phase s = ACTIVE -> ps (g, s) (g, snd (activate ev f s)).
Proof.
  intros Hg Ha. unfold activate. destruct (get_sub f s) as [r|] eqn:E; [|apply S_refl]. destruct (s_poisoned r) eqn:Ep; [apply S_refl|].
  destruct (c_connected s && negb match s_listeners r with [] => true | _ => false end && negb (s_subscribed r) && is_pending NOTHING r) eqn:Eb; [|apply S_refl].
  apply andb_prop in Eb as [Eb E4]. apply andb_prop in Eb as [Eb E3]. apply andb_prop in Eb as [E1 E2]. apply negb_true_iff in E3. apply is_pending_spec in E4.
  assert (E5 : s_listeners r <> []) by (destruct (s_listeners r); [discriminate|congruence]). apply psteps_one. destruct (e_sub ev f); cbn [snd].
  - eapply P_subscribe; eauto.
  - destruct (s_kind r) eqn:Ek; (rewrite notify_told; [|assumption]); [eapply P_subscribe_failed|eapply P_subscribe_halt]; eauto.
Qed.
Lemma activate_all_steps g ev fs s : g = IDLE \/ (exists o, g = TAKING o []) -> c_phase s = ACTIVE -> ps (g, s) (g, snd (activate_all ev fs s)).
Proof.
  intros Hg. revert s. induction fs as [|f fs IH]; intros s Ha; [apply S_refl|]. cbn [activate_all]. pose proof (activate_steps g ev f s Hg Ha) as H1. destruct (activate ev f s) as [ok s1]. cbn [snd] in H1.
  destruct ok; [|exact H1]. eapply psteps_trans; [exact H1|]. apply IH. eapply psteps_active; eassumption.
Qed.
Lemma on_suback_steps ev f ok retryable s : c_phase s = ACTIVE -> ps (ACKED true f ok, s) (IDLE, on_suback ev f ok retryable s).
Proof.
  intros Ha. unfold on_suback. destruct (get_sub f s) as [r|] eqn:E; [|apply psteps_one, P_acked_late; auto]. destruct (is_pending SUBSCRIBING r) eqn:Ep; cbn [negb].
  - apply is_pending_spec in Ep. destruct (s_kind r) eqn:Ek; destruct ok.
    + rewrite notify_told by assumption. apply psteps_one. pose proof (P_suback_ok cf f r s Ha E Ep) as H. rewrite Ek in H. exact H.
    + rewrite notify_told by assumption. apply psteps_one. apply P_suback_failed; assumption.
    + rewrite notify_told by assumption. apply psteps_one. pose proof (P_suback_ok cf f r s Ha E Ep) as H. rewrite Ek in H. exact H.
    + destruct retryable.
      * eapply S_step; [eapply P_suback_retry; eassumption|]. apply activate_steps; [left; reflexivity|assumption].
      * rewrite notify_told by assumption. apply psteps_one. apply P_suback_halt; assumption.
  - apply is_pending_not in Ep. apply psteps_one. eapply P_acked_crash; eauto.
Qed.
Lemma on_unsuback_steps f ok s : c_phase s = ACTIVE -> ps (ACKED false f ok, s) (IDLE, on_unsuback f ok s).
Proof.
  intros Ha. unfold on_unsuback. destruct (get_sub f s) as [r|] eqn:E; [|apply psteps_one, P_acked_late; auto]. destruct (is_pending UNSUBSCRIBING r) eqn:Ep; cbn [negb].
  - apply is_pending_spec in Ep. destruct ok.
    + unfold status. cbn [upd_sub set_subs c_phase]. rewrite Ha. cbn [active]. apply psteps_one. exact (P_unsuback_ok cf f r s Ha E Ep).
    + apply psteps_one. eapply P_unsuback_failed; eassumption.
  - apply is_pending_not in Ep. apply psteps_one. eapply P_acked_crash; eauto.
Qed.
Lemma lose_one_steps rest s f : c_phase s = ACTIVE -> ps (LOSING (f :: rest), s) (LOSING rest, lose_one s f).
Proof.
  intros Ha. unfold lose_one. destruct (get_sub f s) as [r|] eqn:E; [|apply psteps_one, P_lose_none; congruence]. destruct (s_subscribed r) eqn:Es; [|apply psteps_one, P_lose_none; congruence]. destruct (s_kind r) eqn:Ek; rewrite notify_told by assumption.
  - destruct (is_pending UNSUBSCRIBING r) eqn:Ep; [apply is_pending_spec in Ep; apply psteps_one, P_lose_leaving; assumption|].
    apply is_pending_not in Ep. apply psteps_one, P_lose_request; assumption.
  - apply psteps_one, P_lose_stream; assumption.
Qed.
Lemma lose_steps l s : c_phase s = ACTIVE -> ps (LOSING l, s) (IDLE, fold_left lose_one l s).
Proof.
  revert s. induction l as [|f l IH]; intros s Ha; [apply psteps_one, P_lose_done; assumption|]. cbn [fold_left]. pose proof (lose_one_steps l s f Ha) as H. eapply psteps_trans; [exact H|]. apply IH. eapply psteps_active; eassumption.
Qed.
Lemma on_connected_steps ev joined s : c_phase s = ACTIVE -> ps (IDLE, s) (IDLE, on_connected ev joined (emit (I_CONNECTED joined) s)).
Proof.
  intros Ha. unfold on_connected. set (s0 := set_connected true (emit (I_CONNECTED joined) s)). assert (H0 : c_phase s0 = ACTIVE) by assumption.
  set (s1 := if joined then s0 else _).
  assert (H1 : ps (IDLE, s) (IDLE, s1)).
  { unfold s1. destruct joined; [apply psteps_one, P_connected; assumption|]. assert (HL : ps (IDLE, s) (IDLE, fold_left lose_one (map s_filter (c_subs s0)) s0)).
    { eapply S_step; [apply P_session_lost; assumption|]. apply (lose_steps (map s_filter (c_subs s)) s0). assumption. }
    eapply psteps_trans; [exact HL|]. apply fold_psteps; [|exact (psteps_active cf _ _ _ _ Ha HL)].
    intros f s2 H2. unfold resubscribe_one. destruct (get_sub f s2) as [r|]; [|apply S_refl]. destruct (s_kind r); [apply S_refl|]. apply activate_steps; [left; reflexivity|assumption]. }
  eapply psteps_trans; [exact H1|]. assert (A1 : c_phase s1 = ACTIVE) by exact (psteps_active cf _ _ _ _ Ha H1). pose proof (purge_steps ev s1 A1) as H2. eapply psteps_trans; [exact H2|].
  apply fold_psteps; [|eapply psteps_active; eassumption]. intros f s2 A2. apply activate_steps; [left; reflexivity|assumption].
Qed.
Lemma listen_all_steps o fs s : c_phase s = ACTIVE -> ps (TAKING o fs, s) (TAKING o [], fold_left (listen (o_kind o) (o_id o)) fs s).
Proof.
  revert s. induction fs as [|f fs IH]; intros s Ha; [apply S_refl|]. cbn [fold_left]. eapply S_step; [apply P_listen; assumption|]. apply IH. unfold listen. destruct (get_sub f s); assumption.
Qed.
Lemma activate_unsubscribed ev f s f' r : get_sub f' s = Some r -> s_subscribed r = false -> exists r', get_sub f' (snd (activate ev f s)) = Some r' /\ s_subscribed r' = false.
Proof.
  intros Hg Hs. unfold activate. destruct (get_sub f s) as [r0|] eqn:E; [|eauto]. destruct (s_poisoned r0); [eauto|]. destruct (_ && _) in |- *; [|eauto].
  assert (K : forall s1, (forall x, get_sub x s1 = get_sub x s) -> forall g, (forall r, s_filter (g r) = s_filter r) -> (forall r, s_subscribed (g r) = s_subscribed r) ->
     exists r', get_sub f' (upd_sub f g s1) = Some r' /\ s_subscribed r' = false).
  { intros s1 H1 g G1 G2. rewrite get_sub_upd by assumption. rewrite !H1, Hg. destruct (bytes_eqb f f'); cbn [option_map]; eexists; (split; [reflexivity|]); [rewrite G2|]; assumption. }
  destruct (e_sub ev f); cbn [snd].
  - apply K; reflexivity.
  - assert (Hn : forall e s1, get_sub f' (notify e r0 s1) = get_sub f' s1).
    { intros e. unfold notify. induction (s_listeners r0) as [|i l IH]; intros s1; [reflexivity|]. cbn [fold_left]. rewrite IH. unfold status. destruct (active _); reflexivity. }
    destruct (s_kind r0); rewrite Hn; [eauto|]. apply K; reflexivity.
Qed.
Lemma activate_all_unsubscribed ev fs s f' r : get_sub f' s = Some r -> s_subscribed r = false -> exists r', get_sub f' (snd (activate_all ev fs s)) = Some r' /\ s_subscribed r' = false.
Proof.
  revert s r. induction fs as [|f fs IH]; intros s r Hg Hs; [eauto|]. cbn [activate_all]. destruct (activate_unsubscribed ev f s f' r Hg Hs) as (r1 & H1 & H2).
  destruct (activate ev f s) as [ok s1]. cbn [snd] in H1. destruct ok; [|cbn [snd]; eauto]. eapply IH; eassumption.
Qed.
Lemma listen_present k id s f f' : (exists r, get_sub f' s = Some r) \/ f' = f -> exists r, get_sub f' (listen k id s f) = Some r.
Proof.
  intros H. unfold listen. set (s1 := match get_sub f s with Some _ => _ | None => _ end).
  assert (H1 : exists r, get_sub f' s1 = Some r).
  { unfold s1. destruct (get_sub f s) as [r|] eqn:E; [destruct H as [H| ->]; eauto|].
    unfold get_sub. cbn [c_subs set_subs]. rewrite find_app. fold (get_sub f' s). destruct H as [[r H]| ->]; [rewrite H; eauto|]. rewrite E. cbn [find]. rewrite (proj2 (for_filter_spec f _)) by reflexivity. eauto. }
  destruct H1 as [r H1]. rewrite get_sub_upd by reflexivity. rewrite H1. destruct (bytes_eqb f f'); cbn [option_map]; eauto.
Qed.
Lemma listen_all_present k id fs s f' : (exists r, get_sub f' s = Some r) \/ In f' fs -> exists r, get_sub f' (fold_left (listen k id) fs s) = Some r.
Proof.
  revert s. induction fs as [|f fs IH]; intros s H; cbn [fold_left]; [destruct H as [H|[]]; assumption|]. apply IH. destruct H as [H|[H|H]]; [left; apply listen_present; auto|left; apply listen_present; auto|right; assumption].
Qed.
Lemma activate_queue ev f s : c_queue (snd (activate ev f s)) = c_queue s.
Proof.
  unfold activate. destruct (get_sub f s) as [r|]; [|reflexivity]. destruct (s_poisoned r); [reflexivity|]. destruct (_ && _); [|reflexivity]. destruct (e_sub ev f); [reflexivity|]. cbn [snd].
  assert (Hn : forall e s1, c_queue (notify e r s1) = c_queue s1).
  { intros e. unfold notify. induction (s_listeners r) as [|i l IH]; intros s1; [reflexivity|]. cbn [fold_left]. rewrite IH. unfold status. destruct (active _); reflexivity. }
  destruct (s_kind r); rewrite Hn; reflexivity.
Qed.
Lemma notify_out e r s : c_out (notify e r s) = c_out s.
Proof. unfold notify. revert s. induction (s_listeners r) as [|i l IH]; intros s; [reflexivity|]. cbn [fold_left]. rewrite IH. unfold status. destruct (active _); reflexivity. Qed.
Lemma activate_all_false ev fs s s' : activate_all ev fs s = (false, s') -> exists f, In f fs /\ In (O_SUBSCRIBE f false) (c_out s').
Proof.
  revert s. induction fs as [|f fs IH]; intros s; [discriminate|]. cbn [activate_all]. destruct (activate ev f s) as [ok s1] eqn:E. destruct ok.
  - intros H. apply IH in H as (f' & H1 & H2). exists f'. split; [right; exact H1|exact H2].
  - intros [= <-]. exists f. split; [left; reflexivity|]. unfold activate in E. destruct (get_sub f s) as [r|]; [|discriminate]. destruct (s_poisoned r); [discriminate|]. destruct (_ && _); [|discriminate]. destruct (e_sub ev f); [discriminate|].
    injection E as <-. destruct (s_kind r); rewrite notify_out; left; reflexivity.
Qed.
(** *** Taking operations from the queue *)
Lemma acquire_steps ev id o q s a s1 : c_phase s = ACTIVE -> c_queue s = id :: q -> get_op id s = Some o -> can_dequeue o s = true -> acquire cf ev (o_kind o) (o_filters o) id s = (a, s1) ->
  (a = A_BLOCKED /\ s1 = s) \/ (a <> A_BLOCKED /\ ps (IDLE, s) (TOOK o a, emit (O_INTAKE id a) (set_queue (tl (c_queue s1)) s1))).
Proof.
  intros Ha Hq Hg Hd. pose proof (get_op_id _ _ _ Hg) as Hi. unfold acquire. destruct (refuses cf (o_kind o) (o_filters o) s) as [a0|] eqn:Er.
  - intros [= <- <-]. assert (Hc : a0 = A_BLOCKED \/ a0 <> A_BLOCKED) by (destruct a0; auto; right; discriminate). destruct Hc as [->|Hb]; [left; auto|right; split; [assumption|]]. apply psteps_one. rewrite Hq. eapply P_refuse; eassumption.
  - assert (T : prim cf (IDLE, s) (TAKING o (o_filters o), s)) by (eapply P_take; eassumption).
    pose proof (listen_all_steps o (o_filters o) s Ha) as HL. rewrite Hi in HL. set (s2 := fold_left _ _ _) in *.
    assert (A2 : c_phase s2 = ACTIVE) by (eapply psteps_active; eassumption). destruct (forallb _ _) eqn:Ef.
    + intros [= <- <-]. right. split; [discriminate|]. eapply S_step; [exact T|]. eapply psteps_trans; [exact HL|]. apply psteps_one. rewrite <- Hi. apply P_took; auto; try discriminate.
      intros _ f Hf. rewrite forallb_forall in Ef. specialize (Ef f Hf). destruct (get_sub f s2) as [r|]; [eauto|discriminate].
    + assert (Hx : exists f, In f (o_filters o) /\ exists r, get_sub f s2 = Some r /\ s_subscribed r = false).
      { assert (Hx : existsb (fun f => negb match get_sub f s2 with Some r => s_subscribed r | None => false end) (o_filters o) = true).
        { revert Ef. generalize (o_filters o) as fs. clear. intros fs. induction fs as [|f fs IH]; [discriminate|]. cbn [forallb existsb]. destruct (match get_sub f s2 with Some r => s_subscribed r | None => false end); cbn [negb orb andb]; [exact IH|reflexivity]. }
        apply existsb_exists in Hx as (f & Hf & Hn). exists f. split; [assumption|]. destruct (listen_all_present (o_kind o) id (o_filters o) s f (or_intror Hf)) as [r Hr]. fold s2 in Hr. exists r. split; [assumption|].
        rewrite Hr in Hn. apply negb_true_iff in Hn. assumption. }
      pose proof (activate_all_steps (TAKING o []) ev (o_filters o) s2 (or_intror (ex_intro _ o eq_refl)) A2) as HA.
      destruct Hx as (f & Hf & r & Hr & Hs). destruct (activate_all_unsubscribed ev (o_filters o) s2 f r Hr Hs) as (r' & Hr' & Hs').
      destruct (activate_all ev (o_filters o) s2) as [ok s3] eqn:Eall. cbn [snd] in *. intros [= <- <-]. right. split; [destruct ok; discriminate|].
      eapply S_step; [exact T|]. eapply psteps_trans; [exact HL|]. eapply psteps_trans; [exact HA|]. apply psteps_one. rewrite <- Hi. apply P_took; try (destruct ok; discriminate).
      * eapply psteps_active; eassumption.
      * intros _. exists f. split; [assumption|]. exists r'. auto.
      * destruct ok; [discriminate|]. intros _. eapply activate_all_false. exact Eall.
Qed.
Lemma make_request_steps ev o s : ps (PUBLISHING o, s) (IDLE, make_request ev o s).
Proof.
  unfold make_request. destruct (o_kind o) eqn:Ek; [|apply psteps_one, P_publish_crash; assumption].
  destruct (e_pub ev (o_id o)); [apply psteps_one, P_publish; assumption|]. eapply S_step; [apply P_publish_refused; assumption|]. set (s1 := emit (O_PUBLISH (o_id o) false) s).
  destruct (get_op (o_id o) s1) as [o'|] eqn:E; [|apply psteps_one, P_refused_done; intros o' H; congruence]. pose proof (get_op_id _ _ _ E) as Hi.
  unfold complete. destruct (o_kind o') eqn:Ek'.
  - destruct (state_is S_PENDING_DESTROY o') eqn:Es; [apply psteps_one, P_refused_done; intros o2 H _; apply state_is_spec in Es; congruence|].
    eapply S_step; [apply P_complete; [rewrite Hi; exact E|assumption|apply state_is_not; assumption|apply C_publish; auto]|]. apply psteps_one. apply P_refused_done.
    intros o2. fold (completed o' (FAILED E_PUBLISH_FAILURE) s1). rewrite <- Hi. rewrite completed_get by (rewrite Hi; assumption). intros [= <-] _. apply unref_state.
  - (* the operation's kind has changed *) eapply S_step; [eapply P_complete_crash; [rewrite Hi; exact E|assumption|apply C_publish; auto|discriminate|discriminate|discriminate]|].
    apply psteps_one. apply P_refused_done. intros o2 H. change (get_op (o_id o) s1 = Some o2) in H. congruence.
Qed.
Lemma on_acquired_steps ev o a s : c_phase s = ACTIVE -> a <> A_BLOCKED -> ps (TOOK o a, s) (IDLE, on_acquired ev o a s).
Proof.
  intros Ha Hb. assert (F : forall e, refusal a e -> ps (TOOK o a, s) (IDLE, fail (o_id o) e s)).
  { intros e Hc. eapply psteps_trans; [apply fail_steps|apply psteps_one, P_failed; [destruct Hc as [[-> _]|[-> _]]; auto|apply fail_over]]. intros o' Ho. apply get_op_id in Ho. split; constructor; auto. }
  destruct a; cbn [on_acquired]; try (apply F; unfold refusal; auto); try contradiction.
  - destruct (o_kind o) eqn:Ek.
    + eapply S_step; [apply P_tables; auto|]. eapply S_step; [apply P_now; assumption|]. apply make_request_steps.
    + eapply S_step; [apply P_tables; auto|]. apply psteps_one, P_stream. assumption.
  - eapply S_step; [apply P_tables; auto|]. apply psteps_one, P_wait.
Qed.
Lemma intake_steps n ev s : c_phase s = ACTIVE -> ps (IDLE, s) (IDLE, intake n cf ev s).
Proof.
  revert s. induction n as [|n IH]; intros s Ha; [apply S_refl|]. cbn [intake]. destruct (c_queue s) as [|id q] eqn:Eq; [apply S_refl|]. destruct (get_op id s) as [o|] eqn:Eo; [|apply S_refl].
  destruct (can_dequeue o s) eqn:Ed; [|apply S_refl]. destruct (acquire cf ev (o_kind o) (o_filters o) id s) as [a s1] eqn:Ea.
  destruct (acquire_steps ev id o q s a s1 Ha Eq Eo Ed Ea) as [[-> ->]|[Hb HS]]; [apply S_refl|].
  assert (G : ps (IDLE, s) (IDLE, intake n cf ev (on_acquired ev o a (emit (O_INTAKE id a) (set_queue (tl (c_queue s1)) s1))))).
  { assert (A1 : c_phase (emit (O_INTAKE id a) (set_queue (tl (c_queue s1)) s1)) = ACTIVE) by (eapply psteps_active; eassumption).
    eapply psteps_trans; [exact HS|]. eapply psteps_trans; [apply on_acquired_steps; assumption|]. apply IH. eapply psteps_active; [|apply on_acquired_steps]; eassumption. }
  destruct a; try exact G. contradiction.
Qed.
Lemma fail_keeps id e s x : In x (c_out s) -> In x (c_out (fail id e s)).
Proof.
  intros H. unfold fail. destruct (get_op id s) as [o|]; [|assumption]. unfold complete, halt. destruct (o_kind o).
  - destruct (state_is _ _); [assumption|]. right. assumption.
  - destruct (_ || _); [assumption|]. right. assumption.
Qed.
Lemma check_timeouts_steps n now s : In (I_TICK now) (c_out s) -> ps (IDLE, s) (IDLE, check_timeouts n now s).
Proof.
  revert s. induction n as [|n IH]; intros s Ht; [apply S_refl|]. cbn [check_timeouts]. destruct (earliest (c_ops s)) as [o|] eqn:E; [|apply S_refl].
  destruct (N.ltb_spec now (o_deadline o)); [apply S_refl|]. eapply S_step; [apply (P_timeout cf o now s E H Ht)|]. apply IH, fail_keeps, Ht.
Qed.
Lemma service_steps ev s : In (I_TICK (e_now ev)) (c_out s) -> ps (IDLE, s) (IDLE, service cf ev s).
Proof.
  intros Ht. unfold service. eapply S_step; [apply P_begin|]. destruct (active (c_phase s)) eqn:Ea; [|apply S_refl]. assert (Ha : c_phase s = ACTIVE) by (destruct (c_phase s); [reflexivity|discriminate|discriminate]).
  set (s0 := set_scheduled 0 s). assert (A0 : c_phase s0 = ACTIVE) by assumption. pose proof (check_timeouts_steps (length (c_ops s0)) (e_now ev) s0 Ht) as H1. eapply psteps_trans; [exact H1|].
  set (s1 := check_timeouts _ _ _) in *. assert (A1 : c_phase s1 = ACTIVE) by exact (psteps_active cf _ _ _ _ A0 H1). pose proof (purge_steps ev s1 A1) as H2. eapply psteps_trans; [exact H2|].
  set (s2 := purge _ _) in *. assert (A2 : c_phase s2 = ACTIVE) by (eapply psteps_active; eassumption). eapply psteps_trans; [apply (intake_steps (length (c_queue s2)) ev s2 A2)|]. apply psteps_one, P_end.
Qed.
(** *** Events *)
Lemma on_status_steps ev e f id s : ps (HANDLING e f id, s) (IDLE, on_status ev e id s).
Proof.
  assert (D : dealt e id s -> ps (HANDLING e f id, s) (IDLE, s)) by (intros; apply psteps_one, P_handled; assumption).
  assert (K : forall r o, get_op id s = Some o -> e = SUBSCRIBE_FAILURE \/ e = SUBSCRIPTION_ENDED -> cause (HANDLING e f id) o r s -> ps (HANDLING e f id, s) (IDLE, complete o r s)).
  { intros r o Ho He Hc. pose proof (get_op_id _ _ _ Ho) as Hi. eapply psteps_trans; [apply complete_steps with (r := r); [rewrite Hi; exact Ho|exact Hc|repeat split; discriminate]|]. apply psteps_one, P_handled.
    intros o' Ho' _. split; [intros _ Hk|intros K; destruct He; congruence]. unfold complete in Ho'. destruct (o_kind o) eqn:Ek.
    - destruct (state_is S_PENDING_DESTROY o) eqn:E; [apply state_is_spec in E; congruence|]. fold (completed o r s) in Ho'. rewrite <- Hi in Ho'. rewrite completed_get in Ho' by (rewrite Hi; exact Ho). injection Ho' as <-. apply unref_state.
    - change (get_op id s = Some o') in Ho'. congruence. }
  assert (N : get_op id s = None -> dealt e id s) by (intros H o Ho; congruence). assert (T : forall o, get_op id s = Some o -> o_tracked o = false -> dealt e id s) by (intros o H Ht o' Ho Ht'; congruence).
  unfold on_status, tracked. destruct e; try (apply psteps_one, P_wake; auto); (destruct (get_op id s) as [o|] eqn:Eo; [|apply D, N; reflexivity]); (destruct (o_tracked o) eqn:Et; [|apply D; eapply T; eauto]); pose proof (get_op_id _ _ _ Eo) as Hi.
  - destruct (state_is S_PENDING_SUBSCRIPTION o) eqn:Es; [|apply D; intros o' Ho' _; split; [intros [K'|K']; discriminate|discriminate]]. apply state_is_spec in Es. set (p := if o_pending o =? 0 then two64 - 1 else o_pending o - 1).
    assert (Hp : p = 0 -> o_pending o = 1) by (unfold p; destruct (N.eqb_spec (o_pending o) 0); [unfold two64; lia|lia]).
    destruct (N.eqb_spec p 0) as [Ez|Ez].
    + rewrite Ez. eapply S_step; [eapply P_ready; eauto|]. apply make_request_steps.
    + apply psteps_one. eapply P_count; eauto.
  - apply K; [reflexivity|auto|]. subst id. apply C_event; auto.
  - apply K; [reflexivity|auto|]. subst id. apply C_event; auto.
  - apply psteps_one. destruct (o_kind o) eqn:Ek; [eapply P_stream_crash|eapply P_established]; eauto.
  - apply psteps_one. destruct (o_kind o) eqn:Ek; [eapply P_stream_crash|eapply P_lost]; eauto.
  - unfold halt. subst id. destruct (o_kind o) eqn:Ek; [apply psteps_one; eapply P_halt_crash; eauto|]. assert (D' : o_state o = S_PENDING_DESTROY \/ o_state o = S_TERMINAL -> dealt HALTED (o_id o) s).
    { intros Hs o' Ho' _. rewrite Eo in Ho'. injection Ho' as <-. split; [intros [K'|K']; discriminate|auto]. }
    destruct (state_is S_PENDING_DESTROY o) eqn:E1; [apply D, D'; left; apply state_is_spec; exact E1|]. destruct (state_is S_TERMINAL o) eqn:E2; [apply D, D'; right; apply state_is_spec; exact E2|]. cbn [orb].
    eapply S_step; [apply P_halt; [exact Eo|assumption|apply state_is_not; assumption|apply state_is_not; assumption|apply H_event; assumption]|]. apply psteps_one, P_handled.
    intros o' Ho' _. change (get_op (o_id o) (halted o E_SUBSCRIBE_FAILURE s) = Some o') in Ho'. rewrite halted_get in Ho' by exact Eo. injection Ho' as <-. split; [intros [K'|K']; discriminate|]. intros _ _. right. reflexivity.
Qed.
Lemma on_message_steps topic payload j s : c_phase s = ACTIVE -> ps (IDLE, s) (IDLE, on_message topic payload j (emit (I_MESSAGE topic payload j) s)).
Proof.
  intros Ha. unfold on_message. eapply S_step; [apply (P_message cf topic payload j s Ha)|]. fold (streamed topic payload (emit (I_MESSAGE topic payload j) s)). set (s2 := streamed _ _ _).
  assert (D : ps (MESSAGE topic payload j, s2) (IDLE, s2)) by apply psteps_one, P_message_done.
  destruct (find_key topic (c_paths s2)) as [[path n]|] eqn:E1; [|exact D]. destruct (token_in path j) as [t|] eqn:E2; [|exact D]. destruct (find_key t (c_tokens s2)) as [id|] eqn:E3; [|exact D].
  destruct (get_op id s2) as [o|] eqn:E4; [|exact D]. pose proof (get_op_id _ _ _ E4) as <-. eapply psteps_trans; [apply complete_steps with (r := RESPONSE topic payload); [exact E4| |repeat split; discriminate]|apply psteps_one, P_message_done].
  eapply C_response; eassumption.
Qed.
Lemma destroy_steps id o s : get_op id s = Some o -> o_doomed o = true -> ps (IDLE, s) (IDLE, destroy o s).
Proof.
  intros Hg Hd. unfold destroy. eapply S_step; [eapply P_leave; eassumption|]. fold (left o s). set (s1 := left o s). assert (A1 : c_phase s1 = c_phase s) by reflexivity.
  set (s2 := if active (c_phase s) then _ else _).
  assert (H2 : exists rest, ps (LEAVING o (o_filters o), s1) (LEAVING o rest, s2) /\ (rest = [] \/ c_phase s2 <> ACTIVE)).
  { unfold s2. destruct (c_phase s) eqn:Ep; cbn [active]; try (exists (o_filters o); split; [apply S_refl|right; congruence]). exists []. split; [|left; reflexivity].
    revert A1. generalize s1, (o_filters o). intros s3 l. revert s3. induction l as [|f l IH]; intros s3 A3; [apply S_refl|]. cbn [fold_left]. eapply S_step; [apply P_unlisten; assumption|]. apply IH.
    eapply psteps_active; [exact A3|]. apply psteps_one. apply (P_unlisten cf o f []). assumption. }
  destruct H2 as (rest & H2 & H3). eapply psteps_trans; [exact H2|]. apply psteps_one. fold (untabled o s2). apply (P_gone cf o rest s2 H3).
Qed.
Lemma submit_steps now id o s : get_op id s = Some o -> o_submitting o = true -> ps (IDLE, s) (IDLE, submit now id s).
Proof.
  intros Hg Hs. unfold submit. destruct (active (c_phase s)) eqn:Ea.
  - assert (Ha : c_phase s = ACTIVE) by (destruct (c_phase s); [reflexivity|discriminate|discriminate]). apply psteps_one. exact (P_submit cf id o now s Ha Hg Hs).
  - assert (Ha : c_phase s <> ACTIVE) by (intros Ha; rewrite Ha in Ea; discriminate). eapply S_step; [eapply P_closed; eassumption|]. eapply psteps_trans; [apply (fail_steps (CLOSED o) id E_SHUT_DOWN)|].
    + intros o' Ho. apply get_op_id in Ho. apply get_op_id in Hg. split; [apply C_closed|apply H_closed]; congruence.
    + apply psteps_one. pose proof (get_op_id _ _ _ Hg) as <-. apply P_closed_done.
Qed.
Lemma clean_up_steps ev s : c_phase s = DOWN -> ps (CLEANING (map s_filter (c_subs s)), s) (CLEANING [], clean_up ev s).
Proof.
  unfold clean_up. generalize (map s_filter (c_subs s)) as l. intros l. revert s. induction l as [|f l IH]; intros s Hd; [apply S_refl|]. cbn [fold_left].
  assert (H1 : ps (CLEANING (f :: l), s) (CLEANING (f :: l), unsubscribe ev true f s)).
  { unfold unsubscribe. destruct (get_sub f s) as [r|] eqn:E; [|apply S_refl]. cbn [andb]. destruct (_ || _) eqn:Eb; [|apply S_refl]. apply psteps_one. destruct (e_unsub ev f); [|apply P_clean_failed; assumption].
    apply (P_clean_unsubscribe cf f r l s Hd E); apply orb_prop in Eb as [Eb|Eb]; try (apply andb_prop in Eb as [E1 E2]; apply negb_true_iff, is_pending_not in E2); auto; apply is_pending_spec in Eb; [auto|congruence]. }
  unfold clean_up_one. eapply psteps_trans; [exact H1|]. apply psteps_phase in H1 as Hp. cbn [snd] in Hp. eapply S_step; [apply P_clean_drop; congruence|]. apply IH. cbn [drop_sub set_subs c_phase]. congruence.
Qed.
Lemma get_op_fail_other id e s i : i <> id -> get_op i (fail id e s) = get_op i s.
Proof.
  intros Hi. unfold fail. destruct (get_op id s) as [o|] eqn:E; [|reflexivity]. pose proof (get_op_id _ _ _ E) as <-. unfold complete, halt, release. destruct (o_kind o).
  - destruct (state_is _ _); [reflexivity|]. rewrite get_op_upd_other by (auto using unref_id). rewrite get_op_upd_other by auto. reflexivity.
  - destruct (_ || _); [reflexivity|]. rewrite get_op_upd_other by auto. reflexivity.
Qed.
Lemma fail_all_steps l s : ps (FAILING l, s) (IDLE, fold_left (fun s id => fail id E_SHUT_DOWN s) l s).
Proof.
  assert (G : forall l1 s1, incl l1 l -> (forall id o, In id l -> ~ In id l1 -> get_op id s1 = Some o -> o_state o = S_PENDING_DESTROY \/ o_state o = S_TERMINAL) ->
     ps (FAILING l, s1) (IDLE, fold_left (fun s id => fail id E_SHUT_DOWN s) l1 s1)).
  { induction l1 as [|i l1 IH]; intros s1 Hi Hd; cbn [fold_left].
    - apply psteps_one, P_fail_done. intros id o H. apply Hd; [assumption|intros []].
    - eapply psteps_trans; [apply fail_steps|apply IH].
      + intros o Ho. apply get_op_id in Ho. split; constructor; rewrite Ho; apply Hi; left; reflexivity.
      + intros x Hx. apply Hi. right. assumption.
      + intros id o H1 H2. destruct (N.eq_dec id i) as [->|Hn]; [apply fail_over|]. rewrite get_op_fail_other by assumption. apply Hd; [assumption|]. intros [?|?]; [congruence|contradiction]. }
  apply G; [apply incl_refl|]. intros id o H1 H2. contradiction.
Qed.
Lemma shutdown_steps ev s : c_phase s = ACTIVE -> (forall o, In o (c_ops s) -> o_submitting o = true -> o_kind o = STREAM) -> steps cf (IDLE, s) (IDLE, shutdown ev s).
Proof.
  intros Ha Hs. unfold shutdown. eapply B_step; [apply (B_down cf s Ha Hs)|]. set (s0 := set_scheduled 0 _). apply psteps_steps. assert (D0 : c_phase s0 = DOWN) by reflexivity.
  pose proof (clean_up_steps ev s0 D0) as H1. eapply psteps_trans; [exact H1|]. apply psteps_phase in H1. cbn [snd] in H1. eapply S_step; [apply P_cleaned; congruence|]. apply fail_all_steps.
Qed.
Lemma step_steps s x : steps cf (IDLE, s) (IDLE, step cf s x).
Proof.
  destruct x as [ev e]. unfold step. cbn [fst snd]. destruct (c_crash s); [apply B_refl|]. destruct (enabled ev e s) eqn:En; [|apply B_refl].
  eapply B_step; [apply B_prim, (P_tick cf (e_now ev) s)|]. set (s0 := emit (I_TICK (e_now ev)) s). assert (En0 : enabled ev e s0 = true) by exact En. assert (Ht : exists l, c_out s0 = I_TICK (e_now ev) :: l) by (exists (c_out s); reflexivity). clearbody s0. clear En. revert En0.
  assert (AC : active (c_phase s0) = true -> c_phase s0 = ACTIVE) by (destruct (c_phase s0); [reflexivity|discriminate|discriminate]).
  assert (SW : forall s1, set_subs (c_subs s1) s1 = s1) by (intros []; reflexivity).
  destruct e; cbn [enabled handle]; intros En.
  - unfold create. destruct (valid_work (W_REQUEST r)) eqn:Ev; [|apply B_refl]. pose proof (P_create cf (e_now ev) (W_REQUEST r) s0 (AC En) Ev Ht) as H. unfold create in H. rewrite Ev in H. apply psteps_steps, psteps_one. exact H.
  - unfold create. destruct (valid_work (W_STREAM f)) eqn:Ev; [|apply B_refl]. pose proof (P_create cf (e_now ev) (W_STREAM f) s0 (AC En) Ev Ht) as H. unfold create in H. rewrite Ev in H. apply psteps_steps, psteps_one. exact H.
  - destruct (get_op id s0) as [o|] eqn:E; [|discriminate]. apply andb_prop in En as [En E3]. apply andb_prop in En as [E1 E2]. apply kind_eqb_spec in E1. apply negb_true_iff in E3.
    apply psteps_steps, psteps_one. eapply P_activate; eassumption.
  - destruct (get_op id s0) as [o|] eqn:E; [|discriminate]. apply andb_prop in En as [E1 E2]. apply kind_eqb_spec in E1. apply psteps_steps, psteps_one. eapply P_close; eassumption.
  - destruct (get_op id s0) as [o|] eqn:E; [|discriminate]. apply psteps_steps. eapply submit_steps; eassumption.
  - apply psteps_steps, service_steps. destruct Ht as [l ->]. left. reflexivity.
  - destruct (get_op id s0) as [o|] eqn:E; [|discriminate]. apply psteps_steps. eapply destroy_steps; eassumption.
  - destruct (c_events s0) as [|[[e f] id] l] eqn:E; [discriminate|]. apply psteps_steps. eapply S_step; [eapply P_pop; exact E|]. apply on_status_steps.
  - apply andb_prop in En as [E1 E2]. apply shutdown_steps; [auto|]. intros o Ho Hs. rewrite forallb_forall in E2. specialize (E2 o Ho). rewrite Hs in E2. destruct (o_kind o); [discriminate|reflexivity].
  - destruct (c_phase s0) eqn:Ep; try discriminate. apply andb_prop in En as [En E3]. apply andb_prop in En as [E1 E2]. eapply B_step; [|apply B_refl]. apply B_over; [assumption| | |].
    + destruct (c_ops s0); [reflexivity|discriminate].
    + destruct (c_events s0); [reflexivity|discriminate].
    + destruct (c_publishes s0); [reflexivity|discriminate].
  - apply psteps_steps. eapply S_step; [apply (P_acked cf true f ok s0 En)|]. cbn iota. destruct (active (c_phase s0)) eqn:Ea; [apply on_suback_steps; auto|]. apply psteps_one, P_acked_late. left. intros Hx. cbn in Hx. rewrite Hx in Ea. discriminate.
  - apply psteps_steps. eapply S_step; [apply (P_acked cf false f ok s0 En)|]. cbn iota. destruct (active (c_phase s0)) eqn:Ea; [apply on_unsuback_steps; auto|]. apply psteps_one, P_acked_late. left. intros Hx. cbn in Hx. rewrite Hx in Ea. discriminate.
  - apply psteps_steps. eapply S_step; [apply (P_pubbed cf id ok s0 En)|]. set (s1 := emit _ _). assert (D : ps (PUBBED id ok, s1) (IDLE, s1)) by apply psteps_one, P_pubbed_done.
    unfold on_puback. destruct ok; [exact D|]. unfold tracked. destruct (get_op id s1) as [o|] eqn:E; [|exact D]. destruct (o_tracked o) eqn:Et; [|exact D].
    pose proof (get_op_id _ _ _ E) as <-. eapply psteps_trans; [apply complete_steps with (r := FAILED E_PUBLISH_FAILURE); [exact E|apply C_puback; assumption|repeat split; discriminate]|]. apply psteps_one, P_pubbed_done.
  - apply psteps_steps, on_connected_steps. auto.
  - apply psteps_steps, psteps_one, P_disconnected. auto.
  - apply psteps_steps, on_message_steps. auto.
  - apply psteps_steps, psteps_one, P_swap_subs, swap_perm.
  - apply psteps_steps, psteps_one, P_swap_listeners.
  - apply psteps_steps, psteps_one, P_swap_ops, swap_perm.
  - apply psteps_steps, psteps_one, P_swap_streams, swap_perm.
Qed.
Lemma history_steps connected l : steps cf (IDLE, client_new connected) (IDLE, history cf connected l).
Proof.
  unfold history. assert (G : forall s, steps cf (IDLE, client_new connected) (IDLE, s) -> steps cf (IDLE, client_new connected) (IDLE, fold_left (step cf) l s)); [|apply G, B_refl].
  induction l as [|x l IH]; intros s H; [exact H|]. cbn [fold_left]. apply IH. eapply steps_trans; [exact H|]. apply step_steps.
Qed.
(** how invariants of the steps become facts about all histories *)
Lemma history_inv (P : ghost -> client -> Prop) connected : P IDLE (client_new connected) -> (forall g s g' s', P g s -> big cf (g, s) (g', s') -> P g' s') -> forall l, P IDLE (history cf connected l).
Proof. intros H0 H l. exact (steps_inv cf P H IDLE _ IDLE _ H0 (history_steps connected l)). Qed.
End decomp.
