(** The claims about the 3.1.1 client. [m_out (history evs)] is all that happened in a history, the newest first; [newer ++ x :: older] splits it at the event [x] *)
From Verif Require Import Base Client311_Model Client311_States Client311_Spec Client311_Requests Client311_Phases Client311_Claims Client311_Examples.

(** ** C60: packet ids *)
(** an operation's packet id is one of 1 ... 65535, and no operation that is not over yet has it *)
Theorem C60_packet_ids evs newer u id k w older : m_out (history evs) = newer ++ I_MADE u id k w :: older ->
  1 <= id <= 65535 /\ (forall v idv kv wv, In (I_MADE v idv kv wv) older -> ~ over v older -> idv <> id).
Proof. intro E. destruct (fine_at _ _ _ _ E) as (A & _ & _ & B & _). auto. Qed.
Print Assumptions C60_packet_ids.
Example C60_packet_ids_case : exists newer older, m_out (history a_life) = newer ++ I_MADE 1 2 (K_SUBSCRIBE [([97], 1)]) 0 :: older /\ In (I_MADE 0 1 (a_publish 1 1) 0) older.
Proof. rewrite life_out. exists (firstn 17 o_life), (skipn 18 o_life). split; [reflexivity|cbn; auto 20]. Qed.
(** an operation is refused because the queue is full only if every packet id belongs to an operation that is not over *)
Theorem C60_queue_full evs newer k older : m_out (history evs) = newer ++ I_REFUSED k E_QUEUE_FULL :: older ->
  forall id, 1 <= id <= 65535 -> exists u k w, In (I_MADE u id k w) older /\ ~ over u older.
Proof. intro E. exact (fine_at _ _ _ _ E). Qed.
Print Assumptions C60_queue_full.

(** ** C61: completion *)
(** an operation's completion callback is called at most once *)
Theorem C61_completed_at_most_once evs u : (completions u (m_out (history evs)) <= 1)%nat.
Proof. apply completions_once, history_fine. Qed.
Print Assumptions C61_completed_at_most_once.
(** when the connection has gone, that of each operation (pings are none of the user's) has been called exactly once *)
Theorem C61_completed_in_the_end evs u id k w : In O_TERMINATED (m_out (history evs)) -> In (I_MADE u id k w) (m_out (history evs)) -> k <> K_PING -> completions u (m_out (history evs)) = 1%nat.
Proof. apply terminated_over. Qed.
Print Assumptions C61_completed_in_the_end.
Example C61_completed_in_the_end_case : In O_TERMINATED (m_out (history a_life)) /\ In (I_MADE 0 1 (a_publish 1 1) 0) (m_out (history a_life)) /\ completions 0 (m_out (history a_life)) = 1%nat.
Proof. rewrite life_out. cbn. auto 40. Qed.
(** nothing happens after that *)
Theorem C61_nothing_after_the_end evs newer older : m_out (history evs) = newer ++ O_TERMINATED :: older -> newer = [].
Proof. apply terminated_last. Qed.
Print Assumptions C61_nothing_after_the_end.
(** only operations that were asked for are completed, with the packet id the call returned, and never after they are over *)
Theorem C61_completed_once_made evs newer u id e older : m_out (history evs) = newer ++ O_COMPLETE u id e :: older -> exists k w, In (I_MADE u id k w) older /\ ~ over u older.
Proof. intro E. destruct (fine_at _ _ _ _ E) as (k & w & M & N & _). eauto. Qed.
Print Assumptions C61_completed_once_made.

(** ** C62: the reasons for completion *)
(** an operation succeeds when the server has just answered a packet with its id; a QoS 0 publish when its packet has just been sent; a resubscribe if there was nothing to resubscribe to, too.
    That the answer is of the right type is missing *)
Theorem C62_success_has_its_reason_partial evs newer u id older : m_out (history evs) = newer ++ O_COMPLETE u id OK :: older ->
  exists k w, In (I_MADE u id k w) older /\ (just_acked u id k older \/ (exists retain topic payload m, k = K_PUBLISH 0 retain topic payload /\ older = O_SEND u (PUBLISH 0 0 false retain topic payload) true :: m) \/ k = K_RESUBSCRIBE).
Proof. intro E. destruct (fine_at _ _ _ _ E) as (k & w & M & _ & B). eauto. Qed.
Print Assumptions C62_success_has_its_reason_partial.
(** ... and false: any acknowledgement with the id will do *)
Definition right_answer (id : N) (k : kind) (l : list out) : Prop :=
  match k with
  | K_PUBLISH qos _ _ _ => qos = 0 \/ exists m, l = I_PACKET (if qos =? 1 then PUBACK id else PUBCOMP id) :: m
  | K_UNSUBSCRIBE _ => exists m, l = I_PACKET (UNSUBACK id) :: m
  | K_SUBSCRIBE _ => exists u codes m, l = O_SUBACK u codes :: I_PACKET (SUBACK id codes) :: m
  | _ => True
  end.
Theorem C62_success_has_its_reason_refuted : ~ forall evs newer u id k w older, m_out (history evs) = newer ++ O_COMPLETE u id OK :: older -> In (I_MADE u id k w) older -> right_answer id k older.
Proof.
  intro H. specialize (H a_wrong_answer [] 0 1 (a_publish 1 1) 0 (tl o_wrong) wrong_out ltac:(cbn; auto 20)). destruct H as [H|(m & H)]; discriminate.
Qed.
Print Assumptions C62_success_has_its_reason_refuted.
(** an operation fails for lack of a connection, or for a clean session, only if there is no connection, or the session is clean; and only those that are not resent for lack of a connection *)
Theorem C62_failure_has_its_reason evs newer u id e older : m_out (history evs) = newer ++ O_COMPLETE u id e :: older ->
  exists k w, In (I_MADE u id k w) older /\
    match e with
    | E_NOT_CONNECTED => retryable k = false /\ linked older = false
    | E_CLEAN_SESSION => wants_clean older = true
    | OK | E_TIMEOUT | E_SEND | E_DESTROYED => True
    | _ => False
    end.
Proof. intro E. destruct (fine_at _ _ _ _ E) as (k & w & M & _ & B). exists k, w. split; [exact M|]. destruct e; cbn in B; tauto. Qed.
Print Assumptions C62_failure_has_its_reason.
Example C62_failure_has_its_reason_case : exists newer older, m_out (history a_clean_loss) = newer ++ O_COMPLETE 1 2 E_CLEAN_SESSION :: older /\ wants_clean older = true.
Proof. rewrite clean_loss_out. exists (firstn 1 o_clean_loss), (skipn 2 o_clean_loss). split; reflexivity. Qed.

(** ** C63: packets *)
(** a packet that is sent is that of an operation which is not over, sent on a connection that the server has accepted. It carries what was asked for, with the operation's id, and DUP says whether it was sent before. QoS 0 publishes and pings are not sent again *)
Theorem C63_packets_sent evs newer u p ok older : m_out (history evs) = newer ++ O_SEND u p ok :: older ->
  exists id k w, In (I_MADE u id k w) older /\ ~ over u older /\ linked older = true /\ (exists dup, carries id k dup p /\ (dup = true <-> attempted u older)) /\ (attempted u older -> retryable k = true).
Proof. intro E. destruct (fine_at _ _ _ _ E) as (id & k & w & A & B & C & _ & D & F & _). exists id, k, w. auto. Qed.
Print Assumptions C63_packets_sent.
Example C63_packets_sent_case : exists newer older, m_out (history (a_loss ++ again ++ [EvRun true true; EvRun true true])) = newer ++ O_SEND 0 (PUBLISH 1 1 true false [97] [1]) true :: older /\ attempted 0 older.
Proof. rewrite loss_sent_out. exists [], (tl o_loss_sent). split; [reflexivity|]. exists (PUBLISH 1 1 false false [97] [1]), true. cbn. auto 30. Qed.

(** ** C64: order *)
(** operations are first sent in the order in which they were made, but for those that are over before. Missing: that those sent again keep this order too *)
Theorem C64_sent_in_order_partial evs newer u p ok older : m_out (history evs) = newer ++ O_SEND u p ok :: older -> ~ attempted u older -> forall v, made v older -> v < u -> attempted v older \/ over v older.
Proof. intro E. destruct (fine_at _ _ _ _ E) as (id & k & w & _ & _ & _ & _ & _ & _ & O). exact O. Qed.
Print Assumptions C64_sent_in_order_partial.
Example C64_sent_in_order_case : exists newer older, m_out (history a_life) = newer ++ O_SEND 2 (PUBLISH 0 0 false false [97] [2]) true :: older /\ made 0 older /\ 0 < 2.
Proof. rewrite life_out. exists (firstn 13 o_life), (skipn 14 o_life). split; [reflexivity|]. split; [exists 1, (a_publish 1 1), 0; cbn; auto 20|reflexivity]. Qed.
(** numbers are given in the order of the calls *)
Theorem C64_numbers evs newer u id k w older : m_out (history evs) = newer ++ I_MADE u id k w :: older -> forall v, made v older -> v < u.
Proof. intro E. destruct (fine_at _ _ _ _ E) as (_ & _ & A & _). exact A. Qed.
Print Assumptions C64_numbers.
(** ... and on a new connection those sent again come after those which were scheduled when the old one was lost *)
Theorem C64_sent_in_order_refuted : ~ forall evs newer u p ok older v, m_out (history evs) = newer ++ O_SEND u p ok :: older -> made v older -> v < u -> ~ over v older -> lately v older.
Proof.
  intro H. refine (H (a_loss ++ again ++ [EvRun true true]) [] 1 (PUBLISH 2 1 false false [97] [2]) true (tl o_loss_sent_1) 0 loss_sent_1_out _ eq_refl (proj2 loss_not_over)). exists 1, (a_publish 1 1), 0. cbn. auto 20.
Qed.
Print Assumptions C64_sent_in_order_refuted.

(** ** C65: clean sessions *)
(** an operation that is not over was made in the present session, if sessions are clean *)
Theorem C65_clean_session_forgets evs u : m_crash (history evs) = false -> made u (m_out (history evs)) -> ~ over u (m_out (history evs)) -> same_session u (m_out (history evs)).
Proof. apply live_session. Qed.
Print Assumptions C65_clean_session_forgets.
Example C65_clean_session_forgets_case : m_crash (history a_clean_loss) = false /\ made 0 (m_out (history a_clean_loss)) /\ over 0 (m_out (history a_clean_loss)) /\ ~ same_session 0 (m_out (history a_clean_loss)).
Proof. rewrite clean_loss_out. split; [exact clean_loss_calm|]. split; [exists 1, (a_publish 1 1), 0; cbn; auto 20|]. split; [left; exists 1, E_CLEAN_SESSION; cbn; auto 20|]. cbn. intros [K _]. discriminate. Qed.
(** nothing is sent for an operation made in an earlier one *)
Theorem C65_sent_in_its_session evs newer u p ok older : m_out (history evs) = newer ++ O_SEND u p ok :: older -> same_session u older.
Proof. intro E. destruct (fine_at _ _ _ _ E) as (id & k & w & _ & _ & _ & S & _). exact S. Qed.
Print Assumptions C65_sent_in_its_session.

(** ** C66: operations survive the loss of a connection *)
(** while connected, when no task is left to run, every operation that is not over has been sent on this connection *)
Theorem C66_sent_on_this_connection evs u : m_crash (history evs) = false -> phase (m_out (history evs)) = CONNECTED -> m_tasks (history evs) = [] -> made u (m_out (history evs)) -> ~ over u (m_out (history evs)) ->
  exists newer p ok older, m_out (history evs) = newer ++ O_SEND u p ok :: older /\ (forall x, In x newer -> x <> I_UP /\ (forall e, x <> I_DOWN e)).
Proof. intros. apply lately_split, connected_sent; assumption. Qed.
Print Assumptions C66_sent_on_this_connection.
Example C66_sent_on_this_connection_case : let s := history (a_loss ++ again ++ [EvRun true true; EvRun true true]) in m_crash s = false /\ phase (m_out s) = CONNECTED /\ m_tasks s = [] /\ made 0 (m_out s) /\ ~ over 0 (m_out s).
Proof. cbv zeta. rewrite loss_sent_out. split; [exact loss_sent_calm|]. split; [reflexivity|]. split; [vm_compute; reflexivity|]. split; [exists 1, (a_publish 1 1), 0; cbn; auto 40|exact (proj1 loss_not_over)]. Qed.
(** the tasks can be run, and each run leaves one less *)
Theorem C66_tasks_run evs enc wr : m_crash (history evs) = false -> m_over (history evs) = false -> m_tasks (history evs) <> [] ->
  enabled (EvRun enc wr) (history evs) = true /\ m_tasks (history (evs ++ [EvRun enc wr])) = tl (m_tasks (history evs)).
Proof. intros C O T. split; [apply tasks_run; assumption|apply run_tasks; assumption]. Qed.
Print Assumptions C66_tasks_run.

(** ** C67: time-outs *)
(** an operation times out only if it has been waiting for its time since it was last sent *)
Theorem C67_not_too_early evs newer u id older : m_out (history evs) = newer ++ O_COMPLETE u id E_TIMEOUT :: older ->
  exists k w, In (I_MADE u id k w) older /\ 0 < w < two64 - 1 /\ exists since p ok before, older = since ++ O_SEND u p ok :: before /\ ~ attempted u since /\ sat_add (clock before) w <= clock older.
Proof. intro E. destruct (fine_at _ _ _ _ E) as (k & w & M & _ & B). exists k, w. split; [exact M|exact B]. Qed.
Print Assumptions C67_not_too_early.
(** once an operation, sent on this connection, has waited for its time, its timeout task completes it. Missing: if the channel did not take the packet *)
Theorem C67_in_time_partial evs newer older u id k w p : m_crash (history evs) = false -> In (I_MADE u id k w) (m_out (history evs)) -> 0 < w < two64 - 1 ->
  m_out (history evs) = newer ++ O_SEND u p true :: older -> ~ attempted u newer -> (forall x, In x newer -> x <> I_UP /\ (forall e, x <> I_DOWN e)) ->
  ~ over u (m_out (history evs)) -> sat_add (clock older) w <= clock (m_out (history evs)) ->
  m_out (history (evs ++ [EvTimeout u])) = O_COMPLETE u id E_TIMEOUT :: m_out (history evs).
Proof. apply times_out. Qed.
Print Assumptions C67_in_time_partial.
Example C67_in_time_case : m_crash (history (a_wait true)) = false /\ exists newer older, m_out (history (a_wait true)) = newer ++ O_SEND 0 (PUBLISH 1 1 false false [97] [1]) true :: older /\ sat_add (clock older) 5000 <= clock (m_out (history (a_wait true))).
Proof. rewrite wait_out. split; [exact wait_calm|]. exists (firstn 1 o_wait), (skipn 2 o_wait). split; [reflexivity|discriminate]. Qed.
(** ... and false then: a publish which the channel did not take never times out while that connection lasts *)
Theorem C67_in_time_refuted : ~ forall evs newer older u id k w p ok, m_crash (history evs) = false -> In (I_MADE u id k w) (m_out (history evs)) -> 0 < w < two64 - 1 ->
  m_out (history evs) = newer ++ O_SEND u p ok :: older -> ~ attempted u newer -> (forall x, In x newer -> x <> I_UP /\ (forall e, x <> I_DOWN e)) ->
  ~ over u (m_out (history evs)) -> sat_add (clock older) w <= clock (m_out (history evs)) -> over u (m_out (history (evs ++ [EvTimeout u]))).
Proof.
  intro H. specialize (H (a_wait false) [I_TICK 5000] (skipn 2 o_unanswered) 0 1 (a_publish 1 1) 5000 (PUBLISH 1 1 false false [97] [1]) false unanswered_calm). rewrite unanswered_out, unanswered_later in H.
  apply unanswered_not_over, H.
  - cbn. auto 20.
  - split; reflexivity.
  - reflexivity.
  - intros (p & ok & [K|[]]). discriminate.
  - intros x [<-|[]]. split; [discriminate|intro; discriminate].
  - exact unanswered_not_over.
  - discriminate.
Qed.
Print Assumptions C67_in_time_refuted.

(** ** C68: the callbacks about the connection *)
(** on_interrupted is called only while connected, always with an error; on_resumed only after it, when the server has just accepted a new connection *)
Theorem C68_interrupted evs newer e older : m_out (history evs) = newer ++ O_INTERRUPTED e :: older -> e <> OK /\ phase older = CONNECTED.
Proof. intro E. exact (proj2 (proper_at _ _ _ _ E)). Qed.
Print Assumptions C68_interrupted.
Example C68_interrupted_case : exists newer older, m_out (history a_loss) = newer ++ O_INTERRUPTED E_HANGUP :: older.
Proof. rewrite loss_out. exists [], (tl o_loss). reflexivity. Qed.
Theorem C68_resumed evs newer session older : m_out (history evs) = newer ++ O_RESUMED session :: older -> phase older = RECONNECTING /\ exists m, older = I_PACKET (CONNACK session 0) :: m.
Proof. intro E. exact (proj2 (proper_at _ _ _ _ E)). Qed.
Print Assumptions C68_resumed.
Example C68_resumed_case : exists newer older, m_out (history (a_loss ++ again)) = newer ++ O_RESUMED true :: older.
Proof. rewrite loss_again_out. exists (firstn 1 o_loss_again), (skipn 2 o_loss_again). reflexivity. Qed.
(** on_disconnect and on_closed are called, in this order, only when the user asked to disconnect and was not told yet that this has happened *)
Theorem C68_disconnected evs newer older : m_out (history evs) = newer ++ O_DISCONNECT :: older -> phase older = DISCONNECTING.
Proof. intro E. exact (proj2 (proper_at _ _ _ _ E)). Qed.
Print Assumptions C68_disconnected.
Theorem C68_closed evs newer older : m_out (history evs) = newer ++ O_CLOSED :: older -> exists m, older = O_DISCONNECT :: m.
Proof. intro E. exact (proj2 (proper_at _ _ _ _ E)). Qed.
Print Assumptions C68_closed.
Example C68_closed_case : exists newer older, m_out (history a_life) = newer ++ O_CLOSED :: older.
Proof. rewrite life_out. exists (firstn 1 o_life), (skipn 2 o_life). reflexivity. Qed.
(** on_connection_complete reports success only if the server has just accepted a connection, and not while reconnecting; on_connection_success follows it or on_resumed, on_connection_failure follows its reporting of a failure *)
Theorem C68_connection_complete evs newer code session older : m_out (history evs) = newer ++ O_CONNECTION_COMPLETE OK code session :: older ->
  code = 0 /\ (exists m, older = I_PACKET (CONNACK session 0) :: m) /\ (phase older = CONNECTING \/ phase older = CONNECTED).
Proof. intro E. exact (proj2 (proper_at _ _ _ _ E)). Qed.
Print Assumptions C68_connection_complete.
Theorem C68_connection_success evs newer session older : m_out (history evs) = newer ++ O_CONNECTION_SUCCESS session :: older -> exists m, older = O_RESUMED session :: m \/ older = O_CONNECTION_COMPLETE OK 0 session :: m.
Proof. intro E. exact (proj2 (proper_at _ _ _ _ E)). Qed.
Print Assumptions C68_connection_success.
Example C68_connection_success_case : exists newer older, m_out (history (connecting true)) = newer ++ O_CONNECTION_SUCCESS false :: O_CONNECTION_COMPLETE OK 0 false :: older.
Proof. rewrite connected_out. exists [], (skipn 2 o_connected). reflexivity. Qed.
Theorem C68_connection_failure evs newer e older : m_out (history evs) = newer ++ O_CONNECTION_FAILURE e :: older -> e <> OK /\ exists m, older = O_CONNECTION_COMPLETE e 0 false :: m.
Proof. intro E. exact (proj2 (proper_at _ _ _ _ E)). Qed.
Print Assumptions C68_connection_failure.
(** a call to connect is accepted only when the user has been told that there is no connection, and the connection goes away only then *)
Theorem C68_connect_while_disconnected evs newer x older : m_out (history evs) = newer ++ x :: older -> x = O_TERMINATED \/ (exists clean, x = I_CONNECT clean) -> phase older = DISCONNECTED.
Proof. intros E H. pose proof (proj2 (proper_at _ _ _ _ E)) as P. destruct H as [->|(clean & ->)]; exact P. Qed.
Print Assumptions C68_connect_while_disconnected.
(** a call to connect is not always answered by one call of on_connection_complete: if the channel does not take the CONNECT packet there are two *)
Theorem C68_completed_once_refuted : ~ forall evs newer clean older, m_out (history evs) = newer ++ I_CONNECT clean :: older -> (forall c, ~ In (I_CONNECT c) newer) -> (length (filter is_complete newer) <= 1)%nat.
Proof.
  intro H. specialize (H no_connect (firstn 9 o_no_connect) true [] no_connect_out). assert (K : (length (filter is_complete (firstn 9 o_no_connect)) <= 1)%nat); [|cbn in K; lia].
  apply H. intros c K. cbn in K. repeat (destruct K as [K|K]; [discriminate|]). exact K.
Qed.
Print Assumptions C68_completed_once_refuted.
