(** The callbacks about the connection *)
From Verif Require Import Base Client311_Model Client311_States Client311_Spec Client311_Steps.

Definition neutral (x : out) : Prop :=
  match x with
  | I_CONNECT _ | I_DIAL _ | I_UP | I_DOWN _ | I_DISCONNECT | O_CONNECTION_COMPLETE _ _ _ | O_CONNECTION_FAILURE _ | O_CONNECTION_SUCCESS _ | O_INTERRUPTED _ | O_RESUMED _ | O_DISCONNECT | O_CLOSED | O_TERMINATED => False
  | _ => True
  end.
Definition plain (s s' : mqtt) : Prop := m_state s' = m_state s /\ m_over s' = m_over s /\ m_count s' = m_count s /\ exists x, m_out s' = x ++ m_out s /\ Forall neutral x.
Lemma plain_same s s' : m_state s' = m_state s -> m_over s' = m_over s -> m_count s' = m_count s -> m_out s' = m_out s -> plain s s'.
Proof. intros A B C D. repeat split; auto. exists []. split; [exact D|constructor]. Qed.
Ltac idle := apply plain_same; reflexivity.
Lemma plain_refl s : plain s s. Proof. idle. Qed.
Lemma plain_trans a b c : plain a b -> plain b c -> plain a c.
Proof. intros (A & B & C & x & E & F) (A' & B' & C' & y & E' & F'). repeat split; try congruence. exists (y ++ x). split; [rewrite E', E, app_assoc; reflexivity|apply Forall_app; auto]. Qed.
Lemma plain_emit x s : neutral x -> plain s (emit x s). Proof. intro H. repeat split. exists [x]. split; [reflexivity|repeat constructor; exact H]. Qed.
Lemma plain_change u a b s : plain s (change u a b s).
Proof. unfold change. destruct (get u s) as [r|]; [|apply plain_refl]. destruct (q_size r =? 0); idle. Qed.
Lemma plain_tell r e s : plain s (tell r e s). Proof. unfold tell. destruct (q_kind r); apply plain_emit; exact I. Qed.
Lemma plain_drop r s : plain s (drop r s). Proof. idle. Qed.
Lemma plain_finished r e s : plain s (finished r e s).
Proof. unfold finished. eapply plain_trans; [|apply plain_drop]. eapply plain_trans; [|apply plain_change]. apply plain_tell. Qed.
Lemma plain_cancelled e u s : plain s (cancelled e u s).
Proof. unfold cancelled. destruct (get u s); [|idle]. eapply plain_trans; [|apply plain_drop]. apply plain_tell. Qed.
Lemma plain_fold {A} (f : mqtt -> A -> mqtt) l s : (forall s x, plain s (f s x)) -> plain s (fold_left f l s).
Proof. intro H. revert s. induction l as [|x l IH]; intro s; cbn; [apply plain_refl|]. eapply plain_trans; [apply H|apply IH]. Qed.
Lemma plain_create k w s : plain s (create k w s).
Proof.
  unfold create. destruct (in_state _ _); [apply plain_emit; exact I|]. destruct (_ && _); [apply plain_emit; exact I|]. destruct (search _ _ _ _); [|apply plain_emit; exact I]. cbv zeta.
  set (s1 := set_last _ _). set (s2 := if in_state CONNECTED s then _ else _). assert (P : plain s s2) by (unfold s2; destruct (in_state CONNECTED s); idle). eapply plain_trans; [exact P|]. eapply plain_trans; [apply plain_change|apply plain_emit; exact I].
Qed.
Lemma plain_close e s : plain s (close e s).
Proof. unfold close. destruct (m_closing s); [apply plain_refl|]. eapply plain_trans with (b := set_closing (Some e) s); [idle|apply plain_emit; exact I]. Qed.
Lemma plain_arm r s : plain s (arm r s). Proof. unfold arm. destruct (_ || _); idle. Qed.
Lemma plain_plant f q s : plain s (plant f q s). Proof. unfold plant. destruct (existsb _ _); idle. Qed.
Lemma plain_plant_all l : forall s s', plant_all l s = Some s' -> plain s s'.
Proof. induction l as [|[f q] l IH]; intros s s' H; cbn in H; [injection H as <-; apply plain_refl|]. destruct (filter_of f); [|discriminate]. eapply plain_trans; [apply plain_plant|eapply IH; exact H]. Qed.
Lemma plain_send enc wr r s : plain s (fst (send enc wr r s)).
Proof.
  assert (N : forall u p ok, neutral (O_SEND u p ok)) by (intros; exact I).
  unfold send. destruct (q_kind r) as [qos retain topic payload|topics| |f|].
  - unfold publish_send. destruct enc; cbn [negb fst]; [|apply plain_refl]. destruct wr; cbn [negb fst]; [|apply plain_emit, N].
    destruct (qos =? 0); cbn [fst]; [apply plain_emit, N|]. eapply plain_trans; [apply plain_emit, N|apply plain_arm].
  - unfold subscribe_send. destruct (if q_tree r then Some s else plant_all topics s) as [s1|] eqn:E; cbn [fst]; [|apply plain_refl].
    destruct enc; cbn [negb fst]; [|apply plain_refl].
    assert (K : plain s s1) by (destruct (q_tree r); [injection E as <-; apply plain_refl|eapply plain_plant_all; exact E]).
    eapply plain_trans; [exact K|]. eapply plain_trans; [apply plain_emit, N|]. eapply plain_trans; [apply plain_arm|idle].
  - unfold resubscribe_send. destruct (m_tree s) as [|e l]; cbn [fst]; [idle|].
    set (subs := match q_subs r with Some l0 => l0 | None => e :: l end). set (s1 := upd _ _ (upd _ _ s)).
    assert (K : plain s s1) by idle. clearbody s1.
    destruct (forallb _ subs); cbn [negb fst]; [|eapply plain_trans; [exact K|idle]].
    destruct enc; cbn [negb fst]; [|exact K]. eapply plain_trans; [exact K|]. eapply plain_trans; [apply plain_emit, N|apply plain_arm].
  - unfold unsubscribe_send. destruct (if q_tree r then Some s else option_map (fun g => uproot g s) (filter_of f)) as [s1|] eqn:E; cbn [fst]; [|apply plain_refl].
    destruct enc; cbn [negb fst]; [|apply plain_refl]. destruct wr; cbn [negb fst]; [|apply plain_emit, N].
    assert (K : plain s s1) by (destruct (q_tree r); [injection E as <-; apply plain_refl|]; destruct (filter_of f); cbn in E; [injection E as <-; idle|discriminate]).
    eapply plain_trans; [exact K|]. eapply plain_trans; [apply plain_emit, N|]. eapply plain_trans; [apply plain_arm|idle].
  - unfold ping_send. destruct enc; cbn [negb fst]; [|apply plain_refl]. destruct wr; cbn [negb fst]; [|apply plain_emit, N]. eapply plain_trans; [apply (plain_emit (O_SEND (q_uid r) PINGREQ true)), N|idle].
Qed.
Lemma plain_run_task enc wr s : plain s (run_task enc wr s).
Proof.
  unfold run_task. destruct (m_tasks s) as [|u l]; [apply plain_refl|]. cbv zeta. set (s0 := set_tasks l s). assert (P0 : plain s s0) by idle. clearbody s0. destruct (get u s0) as [r|]; [|eapply plain_trans; [exact P0|idle]].
  pose proof (plain_send enc wr r s0) as K. destruct (send enc wr r s0) as [s1 res]. cbn [fst] in K. assert (P1 := plain_trans _ _ _ P0 K). set (s2 := upd _ _ s1). assert (P2 : plain s s2) by (eapply plain_trans; [exact P1|idle]). clearbody s2. eapply plain_trans; [exact P2|].
  destruct res; try apply plain_finished. eapply plain_trans; [apply plain_change|idle].
Qed.
Lemma plain_request_complete e id s : plain s (request_complete e id s).
Proof.
  unfold request_complete. destruct (find_id id s) as [u|]; [|apply plain_refl]. destruct (get u s) as [r|]; [|idle]. destruct (existsb _ _); [idle|]. cbv zeta. eapply plain_trans; [|apply plain_tell].
  set (s1 := change u false false s). assert (P1 : plain s s1) by apply plain_change. clearbody s1. eapply plain_trans; [exact P1|]. set (s2 := match e with OK => _ | _ => s1 end). assert (P2 : plain s1 s2) by (unfold s2; destruct e; try apply plain_refl; destruct (_ <? _); idle). clearbody s2. eapply plain_trans; [exact P2|]. idle.
Qed.
Lemma plain_answer p wr s : plain s (answer p wr s).
Proof. unfold answer. cbv zeta. destruct wr; [apply plain_emit; exact I|]. eapply plain_trans; [|apply plain_close]. apply plain_emit; exact I. Qed.
Lemma plain_schedule_ping s : plain s (schedule_ping s). Proof. unfold schedule_ping. destruct (m_ping_task s); idle. Qed.
Lemma plain_on_publish id qos dup retain topic payload wr s : plain s (on_publish id qos dup retain topic payload wr s).
Proof.
  unfold on_publish. cbv zeta. set (s1 := fold_left _ _ s). assert (P1 : plain s s1) by (apply plain_fold; intros z x; destruct (tree_match _ _); [apply plain_emit; exact I|apply plain_refl]). clearbody s1. eapply plain_trans; [exact P1|].
  destruct (_ || _); [apply plain_emit; exact I|]. eapply plain_trans; [|apply plain_answer]. apply plain_emit. exact I.
Qed.
Lemma plain_on_suback id codes s : plain s (on_suback id codes s).
Proof.
  unfold on_suback. destruct (find_id id s) as [u|]; [|apply plain_refl]. destruct (get u s) as [r|]; [|idle]. destruct (match q_kind r with K_SUBSCRIBE _ => _ | K_RESUBSCRIBE => _ | _ => None end); [|idle].
  destruct (_ =? _); [|apply plain_close]. eapply plain_trans; [|apply plain_request_complete]. apply plain_emit. exact I.
Qed.
Lemma plain_on_packet p wr s : (forall session code, p <> CONNACK session code) -> plain s (on_packet p wr s).
Proof.
  intro N. assert (Vd : forall k : mqtt -> mqtt, plain s (k s) -> plain s (if in_state CONNECTING s then close E_PROTOCOL s else k s)) by (intros k K; destruct (in_state CONNECTING s); [apply plain_close|exact K]).
  destruct p as [clean ka|id qos dup retain topic payload|id|id|id|id|id topics|id f| | |session code|id codes|id|]; cbn [on_packet]; try apply plain_close.
  - apply (Vd (on_publish id qos dup retain topic payload wr)), plain_on_publish.
  - apply Vd, plain_request_complete.
  - apply (Vd (answer (PUBREL id) wr)), plain_answer.
  - apply (Vd (answer (PUBCOMP id) wr)), plain_answer.
  - apply Vd, plain_request_complete.
  - destruct (N session code eq_refl).
  - apply (Vd (on_suback id codes)), plain_on_suback.
  - apply Vd, plain_request_complete.
  - idle.
Qed.
Lemma plain_cancel_task s u : plain s (cancel_task s u).
Proof. unfold cancel_task. destruct (get u s) as [r|]; [|idle]. destruct (retryable _); [|apply plain_finished]. eapply plain_trans; [apply plain_change|idle]. Qed.
Lemma plain_schedule_reconnect s : plain s (schedule_reconnect s). Proof. unfold schedule_reconnect. destruct (m_reconnect s); idle. Qed.

(** ** The invariant *)
Record PH (s : mqtt) : Prop := { ph_state : m_state s = phase (m_out s); ph_proper : each proper (m_out s); ph_over : m_over s = false -> ~ In O_TERMINATED (m_out s); ph_count : m_state s = CONNECTED \/ m_state s = RECONNECTING -> 1 <= m_count s; ph_gone : m_over s = true -> In O_TERMINATED (m_out s) }.
(** ... while something is happening *)
Definition mid (p : cstate) (s : mqtt) : Prop := phase (m_out s) = p /\ each proper (m_out s) /\ ~ In O_TERMINATED (m_out s) /\ m_over s = false.
Lemma mid_PH s : mid (m_state s) s -> (m_state s = CONNECTED \/ m_state s = RECONNECTING -> 1 <= m_count s) -> PH s. Proof. intros (A & B & C & O) D. constructor; auto. congruence. Qed.
Lemma PH_mid s : m_over s = false -> PH s -> mid (m_state s) s. Proof. intros E [A B C]. repeat split; auto. Qed.
Lemma neutral_phase x l : neutral x -> phase (x :: l) = phase l. Proof. destruct x; cbn; intro H; try reflexivity; destruct H. Qed.
Lemma neutral_proper x l : neutral x -> ~ In O_TERMINATED l -> proper x l. Proof. intros H K. split; [exact K|]. destruct x; try exact I; destruct H. Qed.
Lemma neutral_not x l : neutral x -> ~ In O_TERMINATED l -> ~ In O_TERMINATED (x :: l). Proof. intros H K [->|J]; [exact H|tauto]. Qed.
Lemma mid_list p x l : Forall neutral x -> phase l = p /\ each proper l /\ ~ In O_TERMINATED l -> phase (x ++ l) = p /\ each proper (x ++ l) /\ ~ In O_TERMINATED (x ++ l).
Proof.
  intros F (A & B & C). induction F as [|y x H F (IA & IB & IC)]; [auto|]. cbn [app each]. rewrite (neutral_phase y _ H). split; [exact IA|]. split; [split; [apply neutral_proper; assumption|exact IB]|apply neutral_not; assumption].
Qed.
Lemma mid_plain p s s' : plain s s' -> mid p s -> mid p s'.
Proof. intros (_ & O & _ & x & E & F) (A & B & C & D). unfold mid. rewrite E, O. destruct (mid_list p x (m_out s) F) as (A' & B' & C'); auto. Qed.
Lemma mid_emit p q x s : mid p s -> proper x (m_out s) -> x <> O_TERMINATED -> phase (x :: m_out s) = q -> mid q (emit x s).
Proof. intros (A & B & C & O) P N E. repeat split; cbn [emit m_out set_out]; auto; try apply P. intros [K|K]; [congruence|tauto]. Qed.
Lemma PH_plain s s' : m_over s = false -> plain s s' -> PH s -> PH s'.
Proof. intros O P H. pose proof P as (A & B & C & _). apply mid_PH; [rewrite A; apply (mid_plain _ _ _ P), PH_mid; assumption|]. rewrite A, C. apply H. Qed.
Lemma PH_destroy s : m_state s = DISCONNECTED -> mid DISCONNECTED s -> PH (destroy s).
Proof.
  intros E M. unfold destroy. cbv zeta. set (s1 := fold_left _ _ s). assert (P : plain s s1) by (apply plain_fold; intros z x; destruct (get x z); [apply plain_tell|idle]). clearbody s1. assert (M1 := mid_plain _ _ _ P M). destruct P as (P1 & _).
  set (s2 := match m_reconnect s1 with Some (Some _) => _ | _ => s1 end). assert (P2 : plain s1 s2) by (unfold s2; destruct (m_reconnect s1) as [[|]|]; idle). clearbody s2. assert (M2 := mid_plain _ _ _ P2 M1). destruct P2 as (P2 & _). destruct M2 as (A & B & C & _).
  constructor; cbn -[proper phase].
  - cbn. congruence.
  - split; [|exact B]. split; [exact C|exact A].
  - discriminate.
  - rewrite P2, P1, E. intros [K|K]; discriminate.
  - left. reflexivity.
Qed.
Lemma PH_release s : m_state s = DISCONNECTED -> mid DISCONNECTED s -> PH (release s).
Proof. intros E M. unfold release. destruct (m_held s); [|apply PH_destroy; assumption]. apply mid_PH; rewrite E; [exact M|intros [K|K]; discriminate]. Qed.
Lemma PH_disconnected s : mid DISCONNECTING s -> PH (disconnected s).
Proof.
  intro M. unfold disconnected. apply PH_release; [reflexivity|]. set (s1 := set_state DISCONNECTED s). assert (M1 : mid DISCONNECTING s1) by exact M. clearbody s1.
  assert (M2 : mid DISCONNECTED (emit O_DISCONNECT s1)) by (apply (mid_emit DISCONNECTING); [exact M1|split; apply M1|discriminate|reflexivity]).
  apply (mid_emit DISCONNECTED); [exact M2|split; [apply M2|cbn; eauto]|discriminate|reflexivity].
Qed.
Definition fallen (p : cstate) : cstate := match p with CONNECTING => DISCONNECTED | p => p end.
Lemma PH_client_shutdown e quit s : mid (fallen (m_state s)) s -> m_state s <> DISCONNECTED -> (m_state s = CONNECTED \/ m_state s = RECONNECTING -> 1 <= m_count s) -> PH (client_shutdown e quit s).
Proof.
  intros M ND Ct. unfold client_shutdown. cbv zeta. set (s1 := set_since 0 _). assert (P1 : plain s s1) by (unfold s1; destruct (_ || _); idle). clearbody s1. set (s2 := set_ongoing _ _). assert (P2 : plain s s2) by (eapply plain_trans; [exact P1|idle]). clearbody s2.
  set (s3 := set_closing None _). assert (P3 : plain s s3).
  { eapply plain_trans; [exact P2|]. assert (Q : plain s2 (fold_left (fun s u => cancelled E_CLEAN_SESSION u s) (if m_clean s then m_ongoing s ++ m_pending s else []) s2)) by (apply plain_fold; intros; apply plain_cancelled). eapply plain_trans; [exact Q|]. idle. }
  clearbody s3. clear s1 P1 s2 P2. assert (M3 := mid_plain _ _ _ P3 M). destruct P3 as (P3 & _ & C3 & _). clear M. rewrite <- C3 in Ct. destruct (m_state s) eqn:E; cbn [fallen] in M3.
  - set (e' := match e with OK => E_HANGUP | _ => e end). assert (Ne : e' <> OK) by (unfold e'; destruct e; discriminate). clearbody e'. apply PH_release; [reflexivity|].
    set (s4 := set_state DISCONNECTED s3). assert (M4 : mid DISCONNECTED s4) by exact M3. clearbody s4.
    assert (M5 : mid DISCONNECTED (emit (O_CONNECTION_COMPLETE e' 0 false) s4)).
    { apply (mid_emit DISCONNECTED); [exact M4| |discriminate|apply M4]. split; [apply M4|]. assert (A := proj1 M4). destruct e'; try congruence; left; exact A. }
    apply (mid_emit DISCONNECTED); [exact M5| |discriminate|apply M5]. split; [apply M5|]. split; [exact Ne|cbn; eauto].
  - set (e' := match e with OK => E_HANGUP | _ => e end). assert (Ne : e' <> OK) by (unfold e'; destruct e; discriminate). clearbody e'.
    set (s4 := emit (O_INTERRUPTED e') _). assert (M4 : mid RECONNECTING s4).
    { unfold s4. apply (mid_emit CONNECTED); [exact M3| |discriminate|reflexivity]. split; [apply M3|]. split; [exact Ne|apply M3]. }
    assert (S4 : m_state s4 = RECONNECTING) by reflexivity. assert (C4 : 1 <= m_count s4) by (apply Ct; auto). clearbody s4. destruct quit.
    + apply PH_disconnected. apply (mid_emit RECONNECTING); [exact M4| |discriminate|reflexivity]. split; [apply M4|]. right. apply M4.
    + assert (P := plain_schedule_reconnect s4). pose proof P as (PS & _ & PC & _). apply mid_PH; rewrite PS, ?PC; [rewrite S4; apply (mid_plain _ _ _ P), M4|auto].
  - assert (P := plain_schedule_reconnect s3). pose proof P as (PS & _ & PC & _). apply mid_PH; rewrite PS, ?PC; [rewrite P3; apply (mid_plain _ _ _ P), M3|auto].
  - apply PH_disconnected, M3.
  - destruct ND. reflexivity.
Qed.
Lemma mid_down p e s : mid p s -> mid (fallen p) (emit (I_DOWN e) s).
Proof. intro M. apply (mid_emit p); [exact M|split; [apply M|exact I]|discriminate|]. cbn. rewrite (proj1 M). destruct p; reflexivity. Qed.
Lemma PH_on_down e graceful wr quit s : mid (fallen (m_state s)) s -> m_state s <> DISCONNECTED -> (m_state s = CONNECTED \/ m_state s = RECONNECTING -> 1 <= m_count s) -> PH (on_down e graceful wr quit s).
Proof.
  intros M ND Ct. unfold on_down. cbv zeta. set (s0 := match e with OK => _ | _ => s end). assert (P0 : plain s s0) by (unfold s0; destruct e; try apply plain_refl; destruct (_ && _); [apply plain_emit; exact I|apply plain_refl]). clearbody s0.
  set (s1 := fold_left cancel_task _ _). assert (P1 : plain s s1) by (eapply plain_trans; [exact P0|]; eapply plain_trans with (b := set_tasks [] s0); [idle|apply plain_fold; intros; apply plain_cancel_task]). clearbody s1.
  set (s2 := set_heap _ _). assert (P2 : plain s s2) by (eapply plain_trans; [exact P1|idle]). clearbody s2. set (s3 := set_byes 0 _). assert (P3 : plain s s3) by (eapply plain_trans; [exact P2|]; unfold s3, bye; destruct (m_byes s2 =? 0); [|destruct (in_state _ _)]; idle). clearbody s3.
  pose proof P3 as (A & _ & C & _). apply PH_client_shutdown; rewrite ?A, ?C; auto. apply (mid_plain _ _ _ P3 M).
Qed.
Lemma PH_on_connack session code s m : m_out s = I_PACKET (CONNACK session code) :: m -> mid (m_state s) s -> (m_state s = CONNECTED \/ m_state s = RECONNECTING -> 1 <= m_count s) -> PH (on_connack session code s).
Proof.
  intros L M Ct. unfold on_connack. destruct (in_state DISCONNECTING s) eqn:E1; [apply mid_PH; assumption|]. destruct (in_state DISCONNECTED s) eqn:E2; [apply mid_PH; assumption|]. cbn [orb]. cbv zeta.
  apply in_state_false in E1, E2. destruct (code =? 0) eqn:Z.
  - apply N.eqb_eq in Z. subst code. set (s1 := set_since _ _). assert (F : m_out s1 = m_out s /\ m_state s1 = CONNECTED /\ m_count s1 = m_count s + 1) by (repeat split). assert (M1 : mid (m_state s) s1) by exact M. clearbody s1. destruct F as (F1 & F2 & F3).
    set (s2 := if _ && _ then _ else _). assert (G : m_state s2 = CONNECTED /\ 1 <= m_count s2 /\ mid (m_state s) s2 /\ exists m', m_out s2 = O_RESUMED session :: m' \/ m_out s2 = O_CONNECTION_COMPLETE OK 0 session :: m').
    { unfold s2. destruct (in_state RECONNECTING s) eqn:R; cbn [andb].
      - apply in_state_true in R. assert (C1 : 1 < m_count s1) by (rewrite F3; assert (1 <= m_count s) by auto; lia). apply N.ltb_lt in C1. rewrite C1. apply N.ltb_lt in C1. split; [exact F2|]. split; [cbn; lia|]. split; [|exists (m_out s1); left; reflexivity].
        apply (mid_emit (m_state s)); [exact M1| |discriminate|apply M1]. split; [apply M1|]. rewrite F1. split; [rewrite (proj1 M); exact R|rewrite L; eauto].
      - apply in_state_false in R. set (s1' := match m_reconnect s1 with None => _ | Some _ => s1 end). assert (F' : m_out s1' = m_out s /\ m_state s1' = CONNECTED /\ m_count s1' = m_count s + 1) by (unfold s1'; destruct (m_reconnect s1); auto). assert (M1' : mid (m_state s) s1') by (unfold s1'; destruct (m_reconnect s1); exact M1). clearbody s1'. destruct F' as (G1 & G2 & G3).
        split; [exact G2|]. split; [cbn; lia|]. split; [|exists (m_out s1'); right; reflexivity].
        apply (mid_emit (m_state s)); [exact M1'| |discriminate|apply M1']. split; [apply M1'|]. rewrite G1. split; [reflexivity|]. split; [rewrite L; eauto|]. rewrite (proj1 M). destruct (m_state s); auto; congruence. }
    clearbody s2. destruct G as (G1 & G2 & G3 & m' & G4). set (s3 := emit (O_CONNECTION_SUCCESS session) s2). assert (M3 : mid CONNECTED s3) by (apply (mid_emit (m_state s)); [exact G3| |discriminate|reflexivity]; split; [apply G3|eauto]).
    assert (S3 : m_state s3 = CONNECTED) by exact G1. assert (C3 : 1 <= m_count s3) by exact G2. clearbody s3. assert (P : plain s3 (schedule_ping (update_next_ping s3))) by (eapply plain_trans; [|apply plain_schedule_ping]; idle). pose proof P as (PS & _ & PC & _). apply mid_PH; rewrite PS, ?PC; [rewrite S3; apply (mid_plain _ _ _ P), M3|auto].
  - set (s1 := set_count _ s). assert (P := plain_close E_PROTOCOL s1). pose proof P as (PS & _ & PC & _). apply mid_PH; rewrite PS, ?PC; [apply (mid_plain _ _ _ P); exact M|]. intro K. unfold s1. cbn. lia.
Qed.
Lemma PH_on_setup o quit s : mid (match o with FAILED _ => fallen (m_state s) | _ => m_state s end) s -> m_state s <> DISCONNECTED -> m_state s <> CONNECTED -> (m_state s = CONNECTED \/ m_state s = RECONNECTING -> 1 <= m_count s) -> PH (on_setup o quit s).
Proof.
  intros M ND NC Ct. destruct o as [e|e|enc wr]; cbn [on_setup].
  - apply PH_client_shutdown; assumption.
  - apply mid_PH; assumption.
  - destruct (in_state DISCONNECTING s) eqn:E; [apply mid_PH; assumption|]. apply in_state_false in E. cbv zeta. set (s1 := set_connack_timeouts _ _). assert (P1 : plain s s1) by idle. clearbody s1. set (s2 := if enc then _ else _). assert (P2 : plain s s2) by (unfold s2; destruct enc; [eapply plain_trans; [exact P1|apply plain_emit; exact I]|exact P1]). clearbody s2.
    assert (M2 := mid_plain _ _ _ P2 M). destruct P2 as (A & _ & C & _). destruct (enc && wr); [apply mid_PH; rewrite ?A, ?C; assumption|].
    assert (M3 : mid (m_state s) (emit (O_CONNECTION_COMPLETE E_SEND 0 false) s2)).
    { apply (mid_emit (m_state s)); [exact M2| |discriminate|apply M2]. split; [apply M2|]. right. split; [reflexivity|]. rewrite (proj1 M2). destruct (m_state s); auto; congruence. }
    set (s4 := emit (O_CONNECTION_FAILURE E_SEND) _). assert (M4 : mid (m_state s) s4) by (apply (mid_emit (m_state s)); [exact M3| |discriminate|apply M3]; split; [apply M3|]; split; [discriminate|cbn; eauto]).
    assert (P := plain_close E_SEND s4). pose proof P as (PS & _ & PC & _). apply mid_PH; rewrite PS, ?PC; [change (m_state s4) with (m_state s2); rewrite A; apply (mid_plain _ _ _ P), M4|]. change (m_state s4) with (m_state s2). change (m_count s4) with (m_count s2). rewrite A, C. exact Ct.
Qed.
Lemma PH_connect clean keep_s ping_ms op_ms ok s : m_over s = false -> PH s -> PH (connect clean keep_s ping_ms op_ms ok s).
Proof.
  intros O H. unfold connect. destruct (in_state DISCONNECTED s) eqn:E; [|exact H]. cbn [negb]. cbv zeta. apply in_state_true in E. assert (M := PH_mid s O H). rewrite E in M.
  set (s0 := emit (I_CONNECT clean) _). assert (M0 : mid CONNECTING s0) by (apply (mid_emit DISCONNECTED); [exact M|split; apply M|discriminate|reflexivity]). assert (S0 : m_state s0 = CONNECTING) by reflexivity. clearbody s0.
  set (s1 := set_count 0 _). set (s2 := set_ping _ _). assert (F2 : mid CONNECTING s2 /\ m_state s2 = CONNECTING) by (split; [exact M0|exact S0]). clearbody s2. clear s1. destruct F2 as [M2 S2].
  destruct (_ <=? _); [apply mid_PH; cbn [m_state crash set_crash]; rewrite S2; [exact M2|intros [K|K]; discriminate]|].
  set (s3 := if clean then _ else s2). assert (P3 : plain s2 s3) by (unfold s3; destruct clean; [|apply plain_refl]; eapply plain_trans with (b := set_pending [] s2); [idle|apply plain_fold; intros; apply plain_cancelled]). clearbody s3. assert (M3 := mid_plain _ _ _ P3 M2). assert (S3 : m_state s3 = CONNECTING) by (destruct P3; congruence).
  destruct ok.
  - apply mid_PH; [|cbn; rewrite S3; intros [K|K]; discriminate]. change (m_state (emit (I_DIAL true) (set_net DIALLING s3))) with (m_state s3). rewrite S3. apply (mid_emit CONNECTING); [exact M3|split; [apply M3|left; apply M3]|discriminate|apply M3].
  - apply mid_PH; [|cbn; intros [K|K]; discriminate]. cbn [m_state set_state]. change (mid DISCONNECTED (emit (I_DIAL false) s3)). apply (mid_emit CONNECTING); [exact M3|split; [apply M3|left; apply M3]|discriminate|]. cbn. rewrite (proj1 M3). reflexivity.
Qed.
Lemma PH_attempt_reconnect ok s : m_over s = false -> PH s -> m_state s = RECONNECTING \/ m_state s = DISCONNECTING -> PH (attempt_reconnect ok s).
Proof.
  intros O H St. assert (M := PH_mid s O H). assert (Ct := ph_count _ H). unfold attempt_reconnect. destruct (in_state DISCONNECTING s) eqn:E.
  - apply in_state_true in E. destruct (m_slot s); [apply (PH_plain s); [exact O|idle|exact H]|]. apply PH_disconnected. rewrite E in M. exact M.
  - apply in_state_false in E. destruct St as [St|St]; [|congruence]. rewrite St in M. cbv zeta. set (s1 := set_cur _ s). assert (F : mid RECONNECTING s1 /\ m_state s1 = RECONNECTING /\ 1 <= m_count s1) by (repeat split; try apply M; [exact St|apply Ct; auto]). clearbody s1. destruct F as (M1 & S1 & C1).
    assert (D : forall b z, mid RECONNECTING z -> mid RECONNECTING (emit (I_DIAL b) z)) by (intros b z Mz; apply (mid_emit RECONNECTING); [exact Mz|split; [apply Mz|right; apply Mz]|discriminate|cbn; rewrite (proj1 Mz); destruct b; reflexivity]).
    destruct ok.
    + apply mid_PH; [|intros _; exact C1]. change (m_state (emit (I_DIAL true) (set_net DIALLING (set_reconnect (Some None) s1)))) with (m_state s1). rewrite S1. apply D. exact M1.
    + assert (P := plain_schedule_reconnect (emit (I_DIAL false) s1)). pose proof P as (PS & _ & PC & _). apply mid_PH; rewrite PS, ?PC; [change (m_state (emit (I_DIAL false) s1)) with (m_state s1); rewrite S1; apply (mid_plain _ _ _ P), D, M1|intros _; exact C1].
Qed.
Lemma step_PH s ev : PH s -> IB s -> PH (step s ev).
Proof.
  intros H HB. unfold step. destruct (m_crash s || m_over s) eqn:EC; [exact H|]. apply orb_false_iff in EC as [NC O]. destruct (enabled ev s) eqn:En; [|exact H]. destruct HB as [HB|B]; [congruence|].
  assert (M := PH_mid s O H). assert (Ct := ph_count _ H). assert (Pl : plain s (handle ev s) -> PH (handle ev s)) by (intro P; apply (PH_plain s); assumption).
  destruct ev as [t|k w|clean keep_s ping_ms op_ms ok| | |lo hi|o quit|enc wr| |p wr| | | |u|ok|e|graceful wr quit]; cbn [handle enabled] in *.
  - apply Pl. eapply plain_trans with (b := set_now t s); [idle|apply plain_emit; exact I].
  - apply Pl. destruct (acceptable k); [apply plain_create|apply plain_emit; exact I].
  - apply PH_connect; assumption.
  - unfold disconnect. destruct (in_state CONNECTED s || in_state RECONNECTING s) eqn:E; [|exact H]. cbv zeta. set (s1 := emit I_DISCONNECT _). assert (M1 : mid DISCONNECTING s1).
    { apply (mid_emit (m_state s)); [exact M| |discriminate|reflexivity]. split; [apply M|]. cbn. rewrite (proj1 M). apply orb_true_iff in E as [E|E]; apply in_state_true in E; auto. }
    assert (S1 : m_state s1 = DISCONNECTING) by reflexivity. clearbody s1. destruct (m_slot s1); apply mid_PH; cbn [m_state set_byes]; rewrite S1; try exact M1; intros [K|K]; discriminate.
  - destruct (in_state DISCONNECTED s) eqn:E; [|apply (PH_plain s); [exact O|idle|exact H]]. apply in_state_true in E. rewrite E in M. apply PH_destroy; [exact E|exact M].
  - unfold set_timeouts. destruct (_ || _); [apply (PH_plain s); [exact O|idle|exact H]|exact H].
  - apply net_eqb_true in En. assert (ND : m_state s <> DISCONNECTED) by (intro K; apply (b_disconnected _ B) in K; congruence). assert (NCo : m_state s <> CONNECTED) by (intro K; destruct (b_connected _ B K); congruence).
    destruct o as [e|e|enc wr]; (apply PH_on_setup; [|exact ND|exact NCo|exact Ct]).
    + apply mid_down, M.
    + exact M.
    + apply (mid_emit (m_state s)); [exact M|split; [apply M|exact I]|discriminate|apply M].
  - apply Pl, plain_run_task.
  - apply Pl. set (s1 := bye _). assert (P : plain s s1) by (unfold s1, bye; destruct (in_state _ _); idle). destruct (m_slot s); [eapply plain_trans; [exact P|apply plain_close]|exact P].
  - assert (D : (exists session code, p = CONNACK session code) \/ (forall session code, p <> CONNACK session code)) by (destruct p; try (right; discriminate); eauto). destruct D as [(session & code & ->)|D].
    + cbn [on_packet]. apply (PH_on_connack session code _ (m_out s)); [reflexivity| |exact Ct]. apply (mid_plain _ s); [apply plain_emit; exact I|exact M].
    + apply Pl. eapply plain_trans; [|apply plain_on_packet, D]. apply plain_emit. exact I.
  - apply Pl. eapply plain_trans; [|apply plain_schedule_ping]. destruct (_ <=? _); [|idle]. eapply plain_trans; [|apply plain_create]. idle.
  - apply Pl. destruct (m_waiting s); [|idle]. eapply plain_trans; [|apply plain_close]. idle.
  - apply Pl. destruct (_ || _); [|idle]. eapply plain_trans; [|apply plain_close]. idle.
  - apply Pl. destruct (get u s); [apply plain_request_complete|idle].
  - destruct (m_reconnect s) as [[t|]|] eqn:R; try discriminate. destruct (b_scheduled _ B t R) as [_ St]. apply PH_attempt_reconnect; assumption.
  - apply Pl, plain_close.
  - destruct (m_closing s) as [e|]; [|exact H]. apply andb_true_iff in En as [En _]. apply net_eqb_true in En. apply PH_on_down; [apply mid_down, M| |exact Ct]. intro K. apply (b_disconnected _ B) in K. cbn in K. congruence.
Qed.
Lemma PH_init : PH init. Proof. constructor; cbn; auto; [|discriminate]. intros [K|K]; discriminate. Qed.
Lemma history_PH evs : PH (history evs).
Proof. induction evs as [|ev evs IH] using rev_ind; [apply PH_init|]. rewrite history_snoc. apply step_PH; [exact IH|apply history_ib]. Qed.
