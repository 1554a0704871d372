(** How the state, the channel and the tasks of the 3.1.1 client go together *)
From Verif Require Import Base Client311_Model.

(** the parts that requests coming and going change *)
Definition part h t o c st s := set_stats st (set_crash c (set_out o (set_table t (set_heap h s)))).
Definition parts s s' := exists h t o c st, s' = part h t o c st s.
(** two states with the same fields *)
Ltac same := cbv beta iota zeta delta [part emit crash upd drop m_now m_state m_net m_closing m_slot m_clean m_keep m_ping m_op m_min m_max m_cur m_since m_reconnect m_count m_waiting m_next_ping m_ping_task m_ping_timeouts m_connack_timeouts m_byes m_heap m_table m_tasks m_ongoing m_pending m_last m_next m_tree m_stamp m_stats m_held m_over m_out m_crash set_now set_state set_net set_closing set_slot set_clean set_keep set_ping set_op set_min set_max set_cur set_since set_reconnect set_count set_waiting set_next_ping set_ping_task set_ping_timeouts set_connack_timeouts set_byes set_heap set_table set_tasks set_ongoing set_pending set_last set_next set_tree set_stamp set_stats set_held set_over set_out set_crash]; reflexivity.
Lemma parts_refl s : parts s s. Proof. exists (m_heap s), (m_table s), (m_out s), (m_crash s), (m_stats s). destruct s. same. Qed.
Lemma parts_trans a b c : parts a b -> parts b c -> parts a c.
Proof. intros (h & t & o & k & st & ->) (h' & t' & o' & k' & st' & ->). exists h', t', o', k', st'. destruct a. same. Qed.
Lemma parts_intro s s' : s' = part (m_heap s') (m_table s') (m_out s') (m_crash s') (m_stats s') s -> parts s s'. Proof. intros ->. do 5 eexists. reflexivity. Qed.
Ltac by_part s := apply parts_intro; destruct s; same.
Lemma parts_emit x s : parts s (emit x s). Proof. by_part s. Qed.
Lemma parts_crash s : parts s (crash s). Proof. by_part s. Qed.
Lemma parts_upd u f s : parts s (upd u f s). Proof. by_part s. Qed.
Lemma parts_change u a b s : parts s (change u a b s).
Proof. unfold change. destruct (get u s) as [r|]; [|apply parts_refl]. destruct (q_size r =? 0); [apply parts_refl|]. eapply parts_trans; [|apply parts_upd]. by_part s. Qed.
Lemma parts_tell r e s : parts s (tell r e s). Proof. unfold tell. destruct (q_kind r); apply parts_emit. Qed.
Lemma parts_drop r s : parts s (drop r s). Proof. by_part s. Qed.
Lemma parts_finished r e s : parts s (finished r e s).
Proof. unfold finished. eapply parts_trans; [|apply parts_drop]. eapply parts_trans; [|apply parts_change]. apply parts_tell. Qed.
Lemma parts_cancelled e u s : parts s (cancelled e u s).
Proof. unfold cancelled. destruct (get u s); [|apply parts_crash]. eapply parts_trans; [|apply parts_drop]. apply parts_tell. Qed.
Lemma parts_fold {A} (f : mqtt -> A -> mqtt) l s : (forall s x, parts s (f s x)) -> parts s (fold_left f l s).
Proof. intro H. revert s. induction l as [|x l IH]; intro s; cbn; [apply parts_refl|]. eapply parts_trans; [apply H|apply IH]. Qed.

(** ... and those that sending changes, too *)
Definition sends s s' := exists h t o c st tr sp w pt, s' = set_tree tr (set_stamp sp (set_waiting w (set_ping_timeouts pt (part h t o c st s)))).
Lemma sends_parts s s' : parts s s' -> sends s s'.
Proof. intros (h & t & o & c & st & ->). exists h, t, o, c, st, (m_tree s), (m_stamp s), (m_waiting s), (m_ping_timeouts s). destruct s. same. Qed.
Lemma sends_refl s : sends s s. Proof. apply sends_parts, parts_refl. Qed.
Lemma sends_trans a b c : sends a b -> sends b c -> sends a c.
Proof. intros (h & t & o & k & st & x1 & x2 & x3 & x4 & ->) (h' & t' & o' & k' & st' & y1 & y2 & y3 & y4 & ->). exists h', t', o', k', st', y1, y2, y3, y4. destruct a. same. Qed.
Lemma sends_intro s s' :
  s' = set_tree (m_tree s') (set_stamp (m_stamp s') (set_waiting (m_waiting s') (set_ping_timeouts (m_ping_timeouts s') (part (m_heap s') (m_table s') (m_out s') (m_crash s') (m_stats s') s)))) -> sends s s'.
Proof. intros ->. do 9 eexists. reflexivity. Qed.
Ltac by_sends s := apply sends_intro; destruct s; same.
Lemma sends_plant f q s : sends s (plant f q s). Proof. unfold plant. destruct (existsb _ _); by_sends s. Qed.
Lemma sends_plant_all l : forall s s', plant_all l s = Some s' -> sends s s'.
Proof.
  induction l as [|[f q] l IH]; intros s s' H; cbn in H; [injection H as <-; apply sends_refl|]. destruct (filter_of f); [|discriminate]. eapply sends_trans; [apply sends_plant|eapply IH; exact H].
Qed.
Lemma sends_arm r s : sends s (arm r s). Proof. unfold arm. destruct (_ || _); [apply sends_refl|apply sends_parts, parts_upd]. Qed.
Lemma sends_send enc wr r s : sends s (fst (send enc wr r s)).
Proof.
  unfold send. destruct (q_kind r) as [qos retain topic payload|topics| |f|].
  - unfold publish_send. destruct enc; cbn [negb fst]; [|apply sends_refl]. destruct wr; cbn [negb fst]; [|apply sends_parts, parts_emit].
    destruct (qos =? 0); cbn [fst]; [apply sends_parts, parts_emit|]. eapply sends_trans; [apply sends_parts, parts_emit|apply sends_arm].
  - unfold subscribe_send. destruct (if q_tree r then Some s else plant_all topics s) as [s1|] eqn:E; cbn [fst]; [|apply sends_refl].
    destruct enc; cbn [negb fst]; [|apply sends_refl].
    assert (K : sends s s1) by (destruct (q_tree r); [injection E as <-; apply sends_refl|eapply sends_plant_all; exact E]).
    eapply sends_trans; [exact K|]. eapply sends_trans; [apply sends_parts, parts_emit|]. eapply sends_trans; [apply sends_arm|apply sends_parts, parts_upd].
  - unfold resubscribe_send. destruct (m_tree s) as [|e l]; cbn [fst]; [apply sends_parts, parts_upd|].
    set (subs := match q_subs r with Some l0 => l0 | None => e :: l end). set (s1 := upd _ _ (upd _ _ s)).
    assert (K : sends s s1) by (unfold s1; eapply sends_trans; apply sends_parts, parts_upd).
    destruct (forallb _ subs); cbn [negb fst]; [|eapply sends_trans; [exact K|apply sends_parts, parts_crash]].
    destruct enc; cbn [negb fst]; [|exact K]. eapply sends_trans; [exact K|]. eapply sends_trans; [apply sends_parts, parts_emit|apply sends_arm].
  - unfold unsubscribe_send. destruct (if q_tree r then Some s else option_map (fun g => uproot g s) (filter_of f)) as [s1|] eqn:E; cbn [fst]; [|apply sends_refl].
    destruct enc; cbn [negb fst]; [|apply sends_refl]. destruct wr; cbn [negb fst]; [|apply sends_parts, parts_emit].
    assert (K : sends s s1) by (destruct (q_tree r); [injection E as <-; apply sends_refl|]; destruct (filter_of f); cbn in E; [injection E as <-; by_sends s|discriminate]).
    eapply sends_trans; [exact K|]. eapply sends_trans; [apply sends_parts, parts_emit|]. eapply sends_trans; [apply sends_arm|apply sends_parts, parts_upd].
  - unfold ping_send. destruct enc; cbn [negb fst]; [|apply sends_refl]. destruct wr; cbn [negb fst]; [|apply sends_parts, parts_emit]. by_sends s.
Qed.

Lemma in_state_true st s : in_state st s = true <-> m_state s = st.
Proof. unfold in_state. destruct (m_state s), st; cbn; split; congruence. Qed.
Lemma in_state_false st s : in_state st s = false <-> m_state s <> st.
Proof. unfold in_state. destruct (m_state s), st; cbn; split; congruence. Qed.
Lemma net_eqb_true a b : net_eqb a b = true <-> a = b. Proof. destruct a, b; cbn; split; congruence. Qed.

(** a request is made *)
Definition creates s s' := exists p t c a b, s' = set_pending p (set_tasks t (set_last a (set_next b (set_heap (m_heap c) (set_table (m_table c) (set_out (m_out c) (set_stats (m_stats c) s)))))))
  /\ (m_state s = CONNECTED \/ m_state s = DISCONNECTING -> p = m_pending s) /\ (m_state s <> CONNECTED -> t = m_tasks s).
Lemma creates_emit x s : creates s (emit x s).
Proof. exists (m_pending s), (m_tasks s), (emit x s), (m_last s), (m_next s). split; [destruct s; same|tauto]. Qed.
Lemma part_crash_change u a b s : m_crash (change u a b s) = m_crash s.
Proof. unfold change. destruct (get u s) as [r|]; [|reflexivity]. destruct (q_size r =? 0); reflexivity. Qed.
Lemma creates_create k w s : creates s (create k w s).
Proof.
  unfold create. destruct (in_state DISCONNECTING s) eqn:ED; [apply creates_emit|]. destruct (negb (retryable k) && negb (in_state CONNECTED s)); [apply creates_emit|].
  destruct (search _ _ _ _) as [id|]; [|apply creates_emit]. set (s1 := set_last _ _).
  set (s2 := if in_state CONNECTED s then _ else _). destruct (parts_change (m_next s) true false s2) as (h & t & o & c & st & E).
  pose proof (part_crash_change (m_next s) true false s2) as Ec. rewrite E in Ec |- *.
  exists (m_pending s2), (m_tasks s2), (emit (I_MADE (m_next s) id k w) (part h t o c st s2)), id, (m_next s + 1). split; [|split].
  - cbn in Ec. subst c. unfold s2, s1. destruct (in_state CONNECTED s); destruct s; same.
  - intros [K|K]; apply in_state_true in K; [|congruence]. unfold s2. rewrite K. reflexivity.
  - intro K. apply in_state_false in K. unfold s2. rewrite K. reflexivity.
Qed.
(** a request is completed *)
Definition completes s s' := exists g p n, parts (set_ongoing g (set_pending p (set_next_ping n s))) s' /\ (m_ongoing s = [] -> g = []) /\ (m_pending s = [] -> p = []).
Lemma completes_refl s : completes s s. Proof. exists (m_ongoing s), (m_pending s), (m_next_ping s). split; [|tauto]. destruct s. apply parts_refl. Qed.
Lemma completes_crash s : completes s (crash s). Proof. exists (m_ongoing s), (m_pending s), (m_next_ping s). split; [|tauto]. by_part s. Qed.
Lemma without_nil u : without u [] = []. Proof. reflexivity. Qed.
Lemma completes_request_complete e id s : completes s (request_complete e id s).
Proof.
  unfold request_complete. destruct (find_id id s) as [u|]; [|apply completes_refl]. destruct (get u s) as [r|]; [|apply completes_crash]. destruct (existsb _ _); [apply completes_crash|].
  set (s1 := change u false false s).
  set (s2 := match e with OK => _ | _ => s1 end).
  assert (K : exists n, s2 = set_next_ping n s1).
  { unfold s2. destruct e; try (exists (m_next_ping s1); destruct s1; same). destruct (_ <? _); [eexists; reflexivity|]. exists (m_next_ping s1). destruct s1. same. }
  destruct K as (n & E2). destruct (parts_change u false false s) as (h & t & o & c & st & E1). fold s1 in E1.
  exists (without u (m_ongoing s)), (without u (m_pending s)), n. split; [|split; intros ->; reflexivity].
  eapply parts_trans; [|apply parts_tell]. rewrite E2, E1. apply parts_intro. destruct s. same.
Qed.

Record ibody (s : mqtt) : Prop := {
  b_gone : m_net s <> UP -> m_tasks s = [] /\ m_ongoing s = [] /\ m_slot s = false /\ m_byes s = 0 /\ m_closing s = None /\ m_ping_task s = None /\ m_ping_timeouts s = [] /\ m_connack_timeouts s = [];
  b_calm : m_state s <> CONNECTED -> m_state s <> DISCONNECTING -> m_tasks s = [] /\ m_ongoing s = [] /\ m_ping_task s = None;
  b_connected : m_state s = CONNECTED -> m_net s = UP /\ m_slot s = true /\ m_pending s = [] /\ m_reconnect s = Some None /\ m_ping_task s <> None;
  b_disconnected : m_state s = DISCONNECTED -> m_net s = NO_CHANNEL;
  b_scheduled : forall t, m_reconnect s = Some (Some t) -> m_net s = NO_CHANNEL /\ (m_state s = RECONNECTING \/ m_state s = DISCONNECTING);
  b_again : m_state s = RECONNECTING -> m_reconnect s <> None /\ (m_net s = NO_CHANNEL -> exists t, m_reconnect s = Some (Some t));
  b_connecting : m_state s = CONNECTING -> m_net s <> NO_CHANNEL;
  b_leaving : m_state s = DISCONNECTING -> (m_net s = NO_CHANNEL -> exists t, m_reconnect s = Some (Some t)) /\ (m_net s = UP -> m_slot s = true -> m_byes s <> 0 \/ m_closing s <> None);
  b_slotless : m_net s = UP -> m_slot s = false -> m_closing s <> None;
  b_one : m_tasks s = [] /\ m_ongoing s = [] \/ m_pending s = [] }.
Definition IB (s : mqtt) : Prop := m_crash s = true \/ ibody s.
Lemma ibody_init : ibody init.
Proof. constructor; cbn; intros; repeat split; auto; try congruence; try discriminate. Qed.
Lemma ibody_parts s s' : parts s s' -> ibody s -> ibody s'.
Proof. intros (h & t & o & c & st & ->) []. constructor; cbn; assumption. Qed.
Lemma ibody_sends s s' : m_net s = UP -> sends s s' -> ibody s -> ibody s'.
Proof. intros U (h & t & o & c & st & x1 & x2 & x3 & x4 & ->) []. constructor; cbn; try assumption. intro K. destruct (K U). Qed.
Lemma ibody_creates s s' : creates s s' -> ibody s -> ibody s'.
Proof.
  intros (p & t & c & a & b & -> & Kp & Kt) H. constructor; cbn; try apply H.
  - intro N. pose proof (b_gone _ H N) as (T & R). split; [|exact R]. rewrite Kt; [exact T|]. intro C. apply (b_connected _ H) in C. tauto.
  - intros C D. rewrite Kt by exact C. apply H; assumption.
  - intro C. rewrite Kp by auto. apply H. exact C.
  - destruct (m_state s) eqn:E.
    + left. rewrite Kt by congruence. assert (A : m_state s <> CONNECTED) by congruence. assert (B : m_state s <> DISCONNECTING) by congruence. destruct (b_calm _ H A B) as (X & Y & _). auto.
    + right. rewrite Kp by auto. apply H. exact E.
    + left. rewrite Kt by congruence. assert (A : m_state s <> CONNECTED) by congruence. assert (B : m_state s <> DISCONNECTING) by congruence. destruct (b_calm _ H A B) as (X & Y & _). auto.
    + rewrite Kp, Kt by (auto; congruence). apply H.
    + left. rewrite Kt by congruence. assert (A : m_state s <> CONNECTED) by congruence. assert (B : m_state s <> DISCONNECTING) by congruence. destruct (b_calm _ H A B) as (X & Y & _). auto.
Qed.
Lemma ibody_completes s s' : completes s s' -> ibody s -> ibody s'.
Proof.
  intros (g & p & n & K & Kg & Kp) H. eapply ibody_parts; [exact K|]. constructor; cbn; try apply H.
  - intro N. destruct (b_gone _ H N) as (T & G & R). split; [exact T|]. split; [exact (Kg G)|exact R].
  - intros C D. destruct (b_calm _ H C D) as (T & G & R). split; [exact T|]. split; [exact (Kg G)|exact R].
  - intro C. destruct (b_connected _ H C) as (U & S & P & R). split; [exact U|]. split; [exact S|]. split; [exact (Kp P)|exact R].
  - destruct (b_one _ H) as [[T G]|P]; [left; split; [exact T|exact (Kg G)]|right; exact (Kp P)].
Qed.
Lemma ibody_close e s : ibody s -> m_net s = UP -> ibody (close e s).
Proof.
  intros H U. unfold close. destruct (m_closing s); [exact H|]. eapply ibody_parts; [apply parts_emit|]. constructor; cbn; try apply H.
  - intro N. destruct (N U).
  - intro D. split; [apply (b_leaving _ H D)|]. intros _ _. right. discriminate.
  - intros _ _. discriminate.
Qed.
Lemma ibody_answer p wr s : ibody s -> m_net s = UP -> ibody (answer p wr s).
Proof. intros H U. unfold answer. pose proof (ibody_parts _ _ (parts_emit (O_WRITE p wr) s) H) as K. destruct wr; [exact K|]. apply ibody_close; [exact K|exact U]. Qed.

(** ** Each step keeps it *)
Lemma parts_net s s' : parts s s' -> m_net s' = m_net s /\ m_state s' = m_state s /\ m_slot s' = m_slot s /\ m_tasks s' = m_tasks s /\ m_ongoing s' = m_ongoing s /\ m_pending s' = m_pending s /\ m_reconnect s' = m_reconnect s
  /\ m_closing s' = m_closing s /\ m_byes s' = m_byes s /\ m_held s' = m_held s /\ m_clean s' = m_clean s /\ m_over s' = m_over s.
Proof. intros (h & t & o & c & st & ->). cbn. repeat split. Qed.
Lemma parts_deliver topic payload (l : list (bytes * N * N)) s :
  parts s (fold_left (fun s e => if tree_match (fst (fst e)) topic then emit (O_DELIVER (fst (fst e)) topic payload) s else s) l s : mqtt).
Proof. apply parts_fold. intros s0 e. destruct (tree_match _ _); [apply parts_emit|apply parts_refl]. Qed.
Lemma ibody_on_publish id qos dup retain topic payload wr s : ibody s -> m_net s = UP -> ibody (on_publish id qos dup retain topic payload wr s).
Proof.
  intros H U. unfold on_publish. set (s1 := fold_left _ _ _). assert (K : parts s (emit (O_ANY_PUBLISH topic payload dup qos retain) s1)).
  { eapply parts_trans; [apply parts_deliver|apply parts_emit]. }
  destruct (_ || _); [eapply ibody_parts; eassumption|]. apply ibody_answer; [eapply ibody_parts; eassumption|]. apply parts_net in K as (-> & _). exact U.
Qed.
Lemma ibody_on_suback id codes s : ibody s -> m_net s = UP -> ibody (on_suback id codes s).
Proof.
  intros H U. unfold on_suback. destruct (find_id id s) as [u|]; [|exact H]. destruct (get u s) as [r|]; [|eapply ibody_parts; [apply parts_crash|exact H]].
  destruct (match q_kind r with K_PUBLISH _ _ _ _ => _ | _ => _ end) as [n|]; [|eapply ibody_parts; [apply parts_crash|exact H]].
  destruct (_ =? _); [|apply ibody_close; assumption]. eapply ibody_completes; [apply completes_request_complete|]. eapply ibody_parts; [apply parts_emit|exact H].
Qed.
Lemma ibody_on_connack session code s : ibody s -> m_net s = UP -> m_slot s = true -> ibody (on_connack session code s).
Proof.
  intros H U S. unfold on_connack. destruct (in_state DISCONNECTING s || in_state DISCONNECTED s) eqn:E; [exact H|].
  apply orb_false_iff in E as [ED EX]. apply in_state_false in ED, EX. destruct (code =? 0).
  2:{ apply ibody_close; [|exact U]. constructor; cbn; apply H. }
  set (s1 := set_since _ _). set (s2 := if _ && _ then _ else _).
  assert (K : exists o r, s2 = set_out o (set_reconnect r s1) /\ r = Some None).
  { unfold s2. destruct (in_state RECONNECTING s && _) eqn:E.
    - apply andb_true_iff in E as [E _]. apply in_state_true in E. destruct (b_again _ H E) as (R & _). exists (O_RESUMED session :: m_out s1), (m_reconnect s1).
      split; [destruct s; same|]. cbn. destruct (m_reconnect s) as [[t|]|] eqn:Er; [|reflexivity|congruence]. destruct (b_scheduled _ H _ Er) as (N & _). congruence.
    - destruct (m_reconnect s1) as [r|] eqn:Er.
      + exists (O_CONNECTION_COMPLETE OK code session :: m_out s1), (m_reconnect s1). split; [destruct s; same|]. rewrite Er. cbn in Er. destruct r as [t|]; [|reflexivity].
        destruct (b_scheduled _ H _ Er) as (N & _). congruence.
      + exists (O_CONNECTION_COMPLETE OK code session :: m_out s1), (Some None). split; [destruct s; same|reflexivity]. }
  destruct K as (o & r & -> & ->). unfold schedule_ping, update_next_ping. cbn [emit set_next_ping set_out set_reconnect m_ping_task s1 set_since set_count set_tasks set_pending set_state].
  destruct (m_ping_task s) as [t|] eqn:Ep.
  - constructor; cbn; try congruence; try tauto. intros _. rewrite Ep. repeat split; auto; discriminate.
  - constructor; cbn; try congruence; try tauto. intros _. repeat split; auto; discriminate.
Qed.
Lemma ibody_on_packet p wr s : ibody s -> m_net s = UP -> m_slot s = true -> ibody (on_packet p wr s).
Proof.
  intros H U S. unfold on_packet.
  assert (V : forall k, (in_state CONNECTING s = false -> ibody (k s)) -> ibody (if in_state CONNECTING s then close E_PROTOCOL s else k s)).
  { intros k Hk. destruct (in_state CONNECTING s); [apply ibody_close; assumption|auto]. }
  destruct p; try (apply ibody_close; assumption); try (apply V; intros _).
  - apply ibody_on_publish; assumption.
  - eapply ibody_completes; [apply completes_request_complete|exact H].
  - apply ibody_answer; assumption.
  - apply ibody_answer; assumption.
  - eapply ibody_completes; [apply completes_request_complete|exact H].
  - apply ibody_on_connack; assumption.
  - apply ibody_on_suback; assumption.
  - eapply ibody_completes; [apply completes_request_complete|exact H].
  - constructor; cbn; apply H.
Qed.
Lemma parts_destroy s : parts (set_over true (set_pending [] (set_reconnect None s))) (destroy s).
Proof.
  unfold destroy. set (s1 := fold_left _ _ s).
  assert (K : parts s s1) by (unfold s1; apply parts_fold; intros s0 u; destruct (get u s0); [apply parts_tell|apply parts_crash]).
  destruct K as (h & t & o & c & st & ->). destruct (m_reconnect (part h t o c st s)) as [[r|]|]; apply parts_intro; destruct s; same.
Qed.
Lemma ibody_destroy s : m_state s = DISCONNECTED -> ibody s -> ibody (destroy s).
Proof.
  intros D H. eapply ibody_parts; [apply parts_destroy|]. constructor; cbn; try congruence; try apply H; try discriminate. right. reflexivity.
Qed.
Lemma ibody_release s : m_state s = DISCONNECTED -> ibody s -> ibody (release s).
Proof. intros D H. unfold release. destruct (m_held s); [exact H|apply ibody_destroy; assumption]. Qed.
(** when there is no channel any more *)
Definition bare (s : mqtt) : Prop :=
  m_net s = NO_CHANNEL /\ m_tasks s = [] /\ m_ongoing s = [] /\ m_slot s = false /\ m_byes s = 0 /\ m_closing s = None /\ m_ping_task s = None /\ m_ping_timeouts s = [] /\ m_connack_timeouts s = [].
Lemma ibody_bare_disconnected s : bare s -> m_state s = DISCONNECTED -> (forall t, m_reconnect s <> Some (Some t)) -> ibody s.
Proof. intros (N & T & G & S & B & C & P & Q & Q') D R. constructor; try congruence; try tauto. Qed.
Lemma ibody_bare_waiting s : bare s -> (m_state s = RECONNECTING \/ m_state s = DISCONNECTING) -> (exists t, m_reconnect s = Some (Some t)) -> ibody s.
Proof. intros (N & T & G & S & B & C & P & Q & Q') D (t & R). constructor; intros; try tauto; try (destruct D; congruence). all: repeat split; eauto; congruence. Qed.
Lemma ibody_disconnected s : bare s -> (forall t, m_reconnect s <> Some (Some t)) -> ibody (disconnected s).
Proof. intros B R. unfold disconnected. apply ibody_release; [reflexivity|]. apply ibody_bare_disconnected; [exact B|reflexivity|exact R]. Qed.
Lemma ibody_schedule_reconnect s : bare s -> (m_state s = RECONNECTING \/ m_state s = DISCONNECTING) -> m_reconnect s <> None -> ibody (schedule_reconnect s).
Proof. intros B D R. unfold schedule_reconnect. destruct (m_reconnect s); [|congruence]. apply ibody_bare_waiting; [exact B|exact D|]. eexists. reflexivity. Qed.
Lemma shut_facts s : 
  m_tasks s = [] -> m_byes s = 0 -> m_ping_task s = None -> m_ping_timeouts s = [] -> m_connack_timeouts s = [] ->
  forall gone pend long : _,
  let s3 := set_closing None (set_net NO_CHANNEL (set_slot false (fold_left (fun s u => cancelled E_CLEAN_SESSION u s) gone (set_ongoing [] (set_pending pend (set_since 0 (if in_state DISCONNECTING s || long then set_cur (m_min s) s else s))))))) in
  bare s3 /\ m_reconnect s3 = m_reconnect s /\ m_state s3 = m_state s.
Proof.
  intros T B P Q Q' gone pend long s3. subst s3. set (s2 := set_ongoing _ _).
  destruct (parts_fold (fun s u => cancelled E_CLEAN_SESSION u s) gone s2 (fun s u => parts_cancelled _ u s)) as (h & t & o & c & st & ->).
  unfold s2.  destruct (in_state DISCONNECTING s || _); cbn; repeat split; assumption.
Qed.
Lemma ibody_client_shutdown e quit s :
  m_tasks s = [] -> m_byes s = 0 -> m_ping_task s = None -> m_ping_timeouts s = [] -> m_connack_timeouts s = [] -> (forall t, m_reconnect s <> Some (Some t))
  -> (m_state s = CONNECTED \/ m_state s = RECONNECTING -> m_reconnect s <> None) -> m_state s <> DISCONNECTED -> ibody (client_shutdown e quit s).
Proof.
  intros T B P Q Q' R R' D. unfold client_shutdown. 
  match goal with |- context [set_closing None (set_net NO_CHANNEL (set_slot false (fold_left _ ?g (set_ongoing [] (set_pending ?p (set_since 0 (if _ || ?l then _ else _)))))))] => pose proof (shut_facts s T B P Q Q' g p l) as K end.
  match type of K with let s3 := ?x in _ => set (s3 := x) in *; clearbody s3 end.  cbv zeta in K.
  destruct K as (Kb & Kr & Ks).  destruct (m_state s) eqn:E.
  - apply ibody_release; [reflexivity|]. apply ibody_bare_disconnected; [exact Kb|reflexivity|]. cbn. rewrite Kr. exact R.
  - destruct quit.
    + apply ibody_disconnected; [exact Kb|]. cbn. rewrite Kr. exact R.
    + apply ibody_schedule_reconnect; [exact Kb|left; reflexivity|]. cbn. rewrite Kr. auto.
  - apply ibody_schedule_reconnect; [exact Kb|left; exact Ks|]. rewrite Kr. auto.
  - apply ibody_disconnected; [exact Kb|]. rewrite Kr. exact R.
  - congruence.
Qed.
Lemma cancel_task_fields l : forall s, exists p, parts (set_pending p s) (fold_left cancel_task l s).
Proof.
  induction l as [|u l IH]; intro s; cbn; [exists (m_pending s); destruct s; apply parts_refl|]. destruct (IH (cancel_task s u)) as (p & K). exists p. eapply parts_trans; [|exact K].
  assert (E : exists p', parts (set_pending p' s) (cancel_task s u)).
  { unfold cancel_task. destruct (get u s) as [r|]; [|exists (m_pending s); by_part s]. destruct (retryable (q_kind r)).
    - destruct (parts_change u true false s) as (h & t & o & c & st & ->). exists (m_pending s ++ [u]). apply parts_intro. destruct s. same.
    - destruct (parts_finished r E_NOT_CONNECTED s) as (h & t & o & c & st & ->). exists (m_pending s). apply parts_intro. destruct s. same. }
  destruct E as (p' & (h & t & o & c & st & ->)). apply parts_intro. destruct s. same.
Qed.
Lemma ibody_on_down e graceful wr quit s : ibody s -> m_net s = UP -> ibody (on_down e graceful wr quit s).
Proof.
  intros H U. unfold on_down. set (s0 := match e with OK => _ | _ => s end).
  assert (K0 : parts s s0) by (unfold s0; destruct e; try apply parts_refl; destruct (_ && _); [apply parts_emit|apply parts_refl]).
  pose proof (ibody_parts _ _ K0 H) as H0. apply parts_net in K0. destruct K0 as (N0 & S0 & _). destruct (cancel_task_fields (m_tasks s0) (set_tasks [] s0)) as (p & (h & t & o & c & st & ->)).
  set (s2 := set_heap _ _). set (s3 := set_byes 0 _).
  assert (K : m_tasks s3 = [] /\ m_byes s3 = 0 /\ m_ping_task s3 = None /\ m_ping_timeouts s3 = [] /\ m_connack_timeouts s3 = [] /\ m_state s3 = m_state s0
              /\ (m_reconnect s3 = m_reconnect s0 \/ m_reconnect s3 = None /\ m_state s0 = DISCONNECTING)).
  { unfold s3. destruct (m_byes s2 =? 0); cbn; [repeat split; auto|]. unfold bye. destruct (in_state DISCONNECTING s2) eqn:E; cbn; repeat split; auto. right. apply in_state_true in E. auto. }
  destruct K as (T & B & P & Q & Q' & S & R). clearbody s3. apply ibody_client_shutdown; try assumption.
  - intros x K. destruct R as [R|[R _]]; [|congruence]. rewrite R in K. destruct (b_scheduled _ H0 _ K). congruence.
  - intros K. rewrite S in K. destruct R as [R|[R D]]; [|destruct K; congruence]. rewrite R. destruct K as [K|K]; [destruct (b_connected _ H0 K) as (_ & _ & _ & -> & _); discriminate|apply (b_again _ H0 K)].
  - intro K. rewrite S in K. pose proof (b_disconnected _ H0 K). congruence.
Qed.
Lemma ibody_on_setup o quit s : ibody s -> m_net s = DIALLING -> ibody (on_setup o quit s).
Proof.
  intros H U. assert (N : m_net s <> UP) by congruence. pose proof (b_gone _ H N) as (T & G & S & B & C & P & Q & Q').
  assert (R : forall t, m_reconnect s <> Some (Some t)) by (intros t K; destruct (b_scheduled _ H _ K); congruence).
  assert (D : m_state s <> DISCONNECTED) by (intro K; pose proof (b_disconnected _ H K); congruence).
  assert (CC : m_state s <> CONNECTED) by (intro K; destruct (b_connected _ H K); congruence).
  destruct o as [e|e|enc wr]; cbn [on_setup].
  - apply ibody_client_shutdown; try assumption. intros [K|K]; [congruence|apply (b_again _ H K)].
  - constructor; cbn; try congruence; try (intros; repeat split; auto; discriminate).
    + intro K. split; [apply (b_again _ H K)|discriminate].
    + intro K. split; [discriminate|intros; congruence].
  - destruct (in_state DISCONNECTING s) eqn:E.
    + constructor; cbn; try congruence; try (intros; repeat split; auto; discriminate).
      * intro K. split; [apply (b_again _ H K)|discriminate].
      * intro K. split; [discriminate|intros; congruence].
    + apply in_state_false in E. set (s1 := set_connack_timeouts _ _).
      assert (K1 : ibody s1).
      { constructor; cbn; try congruence; try (intros; repeat split; auto; discriminate).
        intro K. split; [apply (b_again _ H K)|discriminate]. }
      set (s2 := if enc then _ else s1). assert (K2 : parts s1 s2) by (unfold s2; destruct enc; [apply parts_emit|apply parts_refl]).
      pose proof (ibody_parts _ _ K2 K1) as H2. destruct (enc && wr); [exact H2|]. apply ibody_close.
      * eapply ibody_parts; [apply parts_emit|]. eapply ibody_parts; [apply parts_emit|exact H2].
      * apply parts_net in K2. cbn. destruct K2 as (-> & _). reflexivity.
Qed.
Lemma ibody_attempt_reconnect ok s t : ibody s -> m_reconnect s = Some (Some t) -> ibody (attempt_reconnect ok s).
Proof.
  intros H R. destruct (b_scheduled _ H _ R) as (N & ST). assert (NU : m_net s <> UP) by congruence. pose proof (b_gone _ H NU) as (T & G & S & B & C & P & Q & Q').
  unfold attempt_reconnect. rewrite S. destruct (in_state DISCONNECTING s) eqn:E.
  - apply ibody_disconnected; [unfold bare; cbn; repeat split; assumption|discriminate].
  - apply in_state_false in E. destruct ST as [ST|ST]; [|congruence]. destruct ok.
    + eapply ibody_parts; [apply parts_emit|]. constructor; cbn; try congruence; try (intros; repeat split; auto; discriminate).
    + apply ibody_schedule_reconnect; [unfold bare; cbn; repeat split; assumption|left; exact ST|cbn; congruence].
Qed.
Lemma IB_connect clean keep_s ping_ms op_ms ok s : ibody s -> IB (connect clean keep_s ping_ms op_ms ok s).
Proof.
  intros H. unfold connect. destruct (in_state DISCONNECTED s) eqn:E; cbn [negb]; [|right; exact H]. apply in_state_true in E.
  pose proof (b_disconnected _ H E) as N. assert (NU : m_net s <> UP) by congruence. pose proof (b_gone _ H NU) as (T & G & S & B & C & P & Q & Q').
  assert (R : forall t, m_reconnect s <> Some (Some t)) by (intros t K; destruct (b_scheduled _ H _ K) as (_ & [|]); congruence).
  set (s1 := set_count 0 _). set (s2 := set_ping _ _). destruct (_ <=? _); [left; reflexivity|right].
  set (s3 := if clean then _ else s2). assert (K : exists p, parts (set_pending p s2) s3).
  { unfold s3. destruct clean; [|exists (m_pending s2); destruct s2; apply parts_refl]. exists []. apply parts_fold. intros. apply parts_cancelled. }
  destruct K as (p & (h & t & o & c & st & ->)). destruct ok; (eapply ibody_parts; [apply parts_emit|]) || idtac.
  - constructor; cbn; try congruence; try (intros; repeat split; auto; discriminate).
  - constructor; cbn; try congruence; try (intros; repeat split; auto; discriminate).
Qed.
Lemma ibody_disconnect s : ibody s -> ibody (disconnect s).
Proof.
  intros H. unfold disconnect. destruct (in_state CONNECTED s || in_state RECONNECTING s) eqn:E; [|exact H]. set (s1 := emit _ _).
  assert (K1 : m_state s = CONNECTED \/ m_state s = RECONNECTING) by (apply orb_true_iff in E as [E|E]; apply in_state_true in E; auto).
  assert (L : m_net s = NO_CHANNEL -> exists t, m_reconnect s = Some (Some t)).
  { intro N. destruct K1 as [K|K]; [destruct (b_connected _ H K); congruence|apply (b_again _ H K); exact N]. }
  change (m_slot s1) with (m_slot s). change (m_byes s1) with (m_byes s). destruct (m_slot s) eqn:S.
  - assert (U : m_net s = UP) by (destruct (m_net s) eqn:N; try reflexivity; assert (NU : m_net s <> UP) by congruence; pose proof (b_gone _ H NU); intuition congruence).
    constructor; cbn; try congruence; try tauto.
    + intros t R. destruct (b_scheduled _ H _ R). congruence.
    + intros _. split; [congruence|]. intros _ _. left. lia.
    + apply H.
  - constructor; cbn; try congruence; try tauto; try apply H.
    + intros t R. destruct (b_scheduled _ H _ R). auto.
    + intros _. split; [exact L|]. congruence.
Qed.
Lemma ibody_bye s : m_net s <> NO_CHANNEL -> ibody s -> ibody (bye s).
Proof.
  intros N H. unfold bye. destruct (in_state DISCONNECTING s) eqn:E; [|exact H]. apply in_state_true in E. constructor; cbn; try congruence; try apply H; try tauto.
  intro D. split; [congruence|]. apply (b_leaving _ H D).
Qed.
Lemma step_ib s ev : IB s -> IB (step s ev).
Proof.
  intros [C|H]; unfold step; [rewrite C; left; exact C|]. destruct (m_crash s || m_over s) eqn:EC; [right; exact H|clear EC]. destruct (enabled ev s) eqn:En; [|right; exact H].
  assert (UP' : up s = true -> m_net s = UP) by (unfold up; apply net_eqb_true).
  destruct ev as [t|k w|clean keep_s ping_ms op_ms ok| | |lo hi|o quit|enc wr| |p wr| | | |u|ok|e|graceful wr quit]; cbn [handle enabled] in *.
  - right. eapply ibody_parts; [apply parts_emit|]. constructor; cbn; apply H.
  - right. destruct (acceptable k); [eapply ibody_creates; [apply creates_create|exact H]|]. eapply ibody_parts; [apply parts_emit|exact H].
  - apply IB_connect, H.
  - right. apply ibody_disconnect, H.
  - right. assert (K : ibody (set_held false s)) by (constructor; cbn; apply H). destruct (in_state DISCONNECTED s) eqn:E; [|exact K]. apply in_state_true in E. apply ibody_destroy; [exact E|exact K].
  - right. unfold set_timeouts. destruct (_ || _); [|exact H]. constructor; cbn; apply H.
  - right. apply net_eqb_true in En. apply ibody_on_setup; destruct o; try exact H; try exact En; (eapply ibody_parts; [apply parts_emit|exact H]).
  - right. apply andb_true_iff in En as [U _]. apply UP' in U. unfold run_task. destruct (m_tasks s) as [|u l] eqn:ET; [exact H|]. set (s0 := set_tasks l s).
    assert (ST : m_state s = CONNECTED \/ m_state s = DISCONNECTING).
    { destruct (m_state s) eqn:ES; auto; exfalso; assert (m_state s <> CONNECTED /\ m_state s <> DISCONNECTING) as [A B] by (split; congruence);
      pose proof (b_calm _ H A B) as (K & _); congruence. }
    assert (PE : m_pending s = []) by (destruct (b_one _ H) as [[T _]|P]; [congruence|exact P]).
    assert (H0 : ibody s0).
    { constructor; cbn; try apply H; [congruence| |]. - intros A B. destruct ST; congruence. - right. exact PE. }
    destruct (get u s0) as [r|]; [|eapply ibody_parts; [apply parts_crash|exact H0]]. pose proof (sends_send enc wr r s0) as K. destruct (send enc wr r s0) as [s1 res]. cbn [fst] in K.
    set (s2 := upd _ _ _). assert (K2 : sends s0 s2) by (eapply sends_trans; [exact K|apply sends_parts, parts_upd]). assert (H2 : ibody s2) by (exact (ibody_sends s0 s2 U K2 H0)).
    destruct res.
    + set (s3 := change _ _ _ _). assert (K3 : parts s2 s3) by apply parts_change. pose proof (ibody_parts _ _ K3 H2) as H3.
      assert (N3 : m_net s3 = UP /\ m_state s3 = m_state s /\ m_pending s3 = []).
      { apply parts_net in K3. destruct K3 as (-> & -> & _ & _ & _ & -> & _). destruct K2 as (h & t & o & c & st & x1 & x2 & x3 & x4 & E). clear -E U PE. rewrite E. cbn. auto. }
      clearbody s3. constructor; cbn; try apply H3.
      * intro X. destruct X. apply N3.
      * intros A B. exfalso. destruct N3 as (_ & N3 & _). destruct ST; congruence.
      * right. apply N3.
    + eapply ibody_parts; [apply parts_finished|exact H2].
    + eapply ibody_parts; [apply parts_finished|exact H2].
  - right. apply andb_true_iff in En as [U B]. apply UP' in U. apply negb_true_iff in B. apply N.eqb_neq in B.
    destruct (m_slot s) eqn:S.
    + (* the channel is shut down *)
      unfold close. set (s1 := bye _).
      assert (F : m_closing s1 = m_closing s /\ m_net s1 = UP) by (unfold s1, bye; destruct (in_state DISCONNECTING _); cbn; auto). destruct F as (F & F').
      assert (K : forall o c, c <> None -> ibody (set_out o (set_closing c s1))).
      { intros o c Hc. unfold s1, bye. destruct (in_state DISCONNECTING _) eqn:E; [apply in_state_true in E|apply in_state_false in E]; cbn in E; constructor; cbn; try congruence; try apply H; try tauto.
        all: intros; repeat split; intros; try congruence; try (right; exact Hc). }
      destruct (m_closing s1) as [e|] eqn:E; [|apply (K (I_SHUTDOWN OK :: m_out s1) (Some OK)); discriminate].
      specialize (K (m_out s1) (Some e)). replace s1 with (set_out (m_out s1) (set_closing (Some e) s1)); [apply K; discriminate|]. rewrite <- E. destruct s1. same.
    + apply ibody_bye; [cbn; congruence|]. constructor; cbn; try apply H; [congruence|]. intro D. split; [apply (b_leaving _ H D)|congruence].
  - right. apply andb_true_iff in En as [U S]. apply UP' in U. apply ibody_on_packet; [eapply ibody_parts; [apply parts_emit|exact H]|exact U|exact S].
  - apply andb_true_iff in En as [U D]. apply UP' in U. right. set (s1 := if _ <=? _ then _ else _).
    assert (K : exists c, m_ping_task c = m_ping_task s /\ ibody c /\ m_ping_task s1 = None /\ m_net c = UP /\ m_state c = m_state s /\ s1 = set_ping_task None c).
    { unfold s1. destruct (_ <=? _).
      - set (c0 := set_next_ping (add_checked (m_now s) (m_keep s)) s). assert (H0 : ibody c0) by (constructor; cbn; apply H).
        exists (create K_PING 0 c0). pose proof (creates_create K_PING 0 c0) as K. pose proof (ibody_creates _ _ K H0) as H1.
        assert (E : create K_PING 0 (update_next_ping (set_ping_task None s)) = set_ping_task None (create K_PING 0 c0)).
        { unfold create. change (in_state DISCONNECTING (update_next_ping (set_ping_task None s))) with (in_state DISCONNECTING c0). destruct (in_state DISCONNECTING c0); [destruct s; same|].
          change (in_state CONNECTED (update_next_ping (set_ping_task None s))) with (in_state CONNECTED c0). destruct (_ && _); [destruct s; same|].
          change (m_table (update_next_ping (set_ping_task None s))) with (m_table c0). change (m_last (update_next_ping (set_ping_task None s))) with (m_last c0).
          destruct (search _ _ _ _); [|destruct s; same]. unfold change, get. destruct (in_state CONNECTED c0); cbn;
          (destruct (find _ _) as [r|]; [destruct (q_size r =? 0)|]; destruct s; same). }
        destruct K as (p & t & c & a & b & K & _). rewrite E. split; [rewrite K; reflexivity|]. split; [exact H1|]. split; [reflexivity|]. split; [rewrite K; exact U|]. split; [rewrite K; reflexivity|reflexivity].
      - exists s. split; [reflexivity|]. split; [exact H|]. split; [reflexivity|]. split; [exact U|]. split; reflexivity. }
    destruct K as (c & Ep & Hc & En & Un & Us & ->). unfold schedule_ping. cbn [m_ping_task set_ping_task]. destruct (m_ping_task s) as [t|] eqn:Ept; [|discriminate].
    assert (ST : m_state s = CONNECTED \/ m_state s = DISCONNECTING).
    { destruct (m_state s) eqn:ES; auto; exfalso; assert (m_state s <> CONNECTED /\ m_state s <> DISCONNECTING) as [A B] by (split; congruence);
      pose proof (b_calm _ H A B) as (_ & _ & K); congruence. }
    constructor; cbn; try apply Hc; [congruence| |].
    + intros A B. rewrite Us in A, B. destruct ST; congruence.
    + intro A. destruct (b_connected _ Hc A) as (X1 & X2 & X3 & X4 & _). repeat split; auto. discriminate.
  - right. apply andb_true_iff in En as [U D]. apply UP' in U.
    assert (K : ibody (set_ping_timeouts (tl (m_ping_timeouts s)) s)) by (constructor; cbn; try apply H; congruence).
    destruct (m_waiting s); [|exact K]. apply ibody_close; [constructor; cbn; apply K|exact U].
  - right. apply andb_true_iff in En as [U D]. apply UP' in U.
    assert (K : ibody (set_connack_timeouts (tl (m_connack_timeouts s)) s)) by (constructor; cbn; try apply H; congruence).
    destruct (_ || _); [|exact K]. apply ibody_close; [exact K|exact U].
  - right. destruct (get u s); [|exact H]. eapply ibody_completes; [apply completes_request_complete|exact H].
  - right. destruct (m_reconnect s) as [[t|]|] eqn:R; try discriminate. eapply ibody_attempt_reconnect; [exact H|exact R].
  - right. apply ibody_close; [exact H|apply UP', En].
  - right. apply andb_true_iff in En as [U D]. apply UP' in U. destruct (m_closing s); [|exact H]. apply ibody_on_down; [eapply ibody_parts; [apply parts_emit|exact H]|exact U].
Qed.
Lemma history_snoc evs ev : history (evs ++ [ev]) = step (history evs) ev.
Proof. unfold history. rewrite fold_left_app. reflexivity. Qed.
Lemma history_ib evs : IB (history evs).
Proof. induction evs as [|ev evs IH] using rev_ind; [right; apply ibody_init|]. rewrite history_snoc. apply step_ib, IH. Qed.
