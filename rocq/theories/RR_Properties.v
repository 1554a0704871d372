(** Properties of the request-response client. *)
From Verif Require Import Base Split TopicAlias_Model SubSet_Model RR_Model RR_Spec RR_Examples RR_All RR_Requests RR_Streams RR_Publish RR_Timeouts.
From Verif Require SubSet_Spec TopicTree_Spec.

(** C50. The completion callback of a request is called at most once; what is missing: unless the request is taken from the queue after having
    been completed (which happens when its time is up while it is in the queue, C50_completed_once_refuted). *)
Theorem C50_completed_once_partial cf connected l id : config_ok cf -> ~ taken_too_late id (trace (history cf connected l)) -> (count (completes id) (trace (history cf connected l)) <= 1)%nat.
Proof. exact (completed_once cf connected l id). Qed.
Print Assumptions C50_completed_once_partial.
Theorem C50_completed_twice_at_most cf connected l id : config_ok cf -> (count (completes id) (trace (history cf connected l)) <= 2)%nat.
Proof. exact (completed_twice cf connected l id). Qed.
Print Assumptions C50_completed_twice_at_most.
Theorem C50_completed_once_refuted : exists cf connected l id, config_ok cf /\ count (completes id) (trace (history cf connected l)) = 2%nat.
Proof. exists limits, true, (too_late ++ [(at_ 10000000002, EShutdown)]), 1. split; reflexivity. Qed.
Print Assumptions C50_completed_once_refuted.
(** ... and once the client has been shut down each request it accepted has been completed. *)
Theorem C50_completed_in_the_end cf connected l id r d : config_ok cf -> In I_SHUTDOWN (trace (history cf connected l)) -> In (I_OPERATION id (W_REQUEST r) d) (trace (history cf connected l)) ->
  exists x, In (O_COMPLETE id x) (trace (history cf connected l)).
Proof. exact (completed_in_the_end cf connected l id r d). Qed.
Print Assumptions C50_completed_in_the_end.
Example C50_nonvacuous : count (completes 1) (trace (history limits true answered)) = 1%nat /\ In (O_COMPLETE 1 (RESPONSE [114] [8])) (trace (history limits true answered)) /\ In I_SHUTDOWN (trace (history limits true (both ++ [(at_ 8, EShutdown)]))) /\
  In (O_COMPLETE 1 (FAILED E_SHUT_DOWN)) (trace (history limits true (both ++ [(at_ 8, EShutdown)]))).
Proof. vm_compute. intuition. Qed.

(** C53. The message of a request is handed to the protocol client at most once ... *)
Theorem C53_published_once cf connected l id : config_ok cf -> (count (publishes id) (trace (history cf connected l)) <= 1)%nat.
Proof. exact (published_once cf connected l id). Qed.
Print Assumptions C53_published_once.
(** ... and not after the request has been completed; what is missing: unless the request is taken from the queue after having been completed. *)
Theorem C53_published_before_completion_partial cf connected l id : config_ok cf -> ~ taken_too_late id (trace (history cf connected l)) -> ~ published_too_late id (trace (history cf connected l)).
Proof. intros Hc Hn Hp. exact (Hn (published_in_time cf connected l id Hc Hp)). Qed.
Print Assumptions C53_published_before_completion_partial.
Theorem C53_published_before_completion_refuted : exists cf connected l id, config_ok cf /\ published_too_late id (trace (history cf connected l)).
Proof.
  exists limits, true, too_late_subscribed, 3. split; [reflexivity|]. exists (firstn 27 (trace (history limits true too_late_subscribed))), true, [], (FAILED E_TIMEOUT). split; [vm_compute; reflexivity|]. vm_compute. tauto.
Qed.
Print Assumptions C53_published_before_completion_refuted.
(** ... and only when the client is, or has been since it took the request from the queue, subscribed to every filter a response may arrive under. *)
Theorem C53_only_when_subscribed cf connected l tr1 id ok tr2 : config_ok cf -> trace (history cf connected l) = tr1 ++ O_PUBLISH id ok :: tr2 ->
  exists r, is_op id (W_REQUEST r) tr1 /\ forall f, In f (r_filters r) -> subscribed_for id f tr1.
Proof. exact (published_subscribed cf connected l tr1 id ok tr2). Qed.
Print Assumptions C53_only_when_subscribed.
Example C53_nonvacuous : count (publishes 1) (trace (history limits true answered)) = 1%nat.
Proof. reflexivity. Qed.
Example C53_nonvacuous_two : count (publishes 1) (trace (history limits true two_acks)) = 1%nat /\ count (publishes 1) (trace (history limits true (removelast two_acks))) = 0%nat.
Proof. split; reflexivity. Qed.

(** C54. At any moment before the user lets go of the client, the filters it is subscribed to or has asked to be subscribed to, and which only operations of
    one kind use, are no more than the client was allowed for that kind. *)
Theorem C54_subscription_budget cf connected l tr1 tr2 k L : config_ok cf -> trace (history cf connected l) = tr1 ++ tr2 -> running tr1 ->
  NoDup L -> (forall f, In f L -> occupied f tr1 /\ forall k', used_for k' f tr1 -> k' = k) -> len L <= allowance cf k.
Proof. intros Hc Ht Hr. exact (within_all cf connected k l tr1 tr2 Hc Ht Hr L). Qed.
Print Assumptions C54_subscription_budget.
(** ... and all together no more than it was allowed for both. *)
Theorem C54_subscription_total cf connected l tr1 tr2 L : config_ok cf -> trace (history cf connected l) = tr1 ++ tr2 -> running tr1 ->
  NoDup L -> (forall f, In f L -> occupied f tr1) -> len L <= cf_max_requests cf + cf_max_streams cf.
Proof. intros Hc Ht Hr. exact (within_total_all cf connected l tr1 tr2 Hc Ht Hr L). Qed.
Print Assumptions C54_subscription_total.
Example C54_nonvacuous : running (trace (history limits true both)) /\ occupied [114] (trace (history limits true both)) /\ occupied [115; 47; 43] (trace (history limits true both)).
Proof. vm_compute. repeat split; auto. intuition discriminate. Qed.

(** C55. No assertion of the client fails ... *)
Theorem C55_no_assertion_fails cf connected l : config_ok cf -> c_crash (history cf connected l) = false.
Proof. exact (no_crash cf connected l). Qed.
Print Assumptions C55_no_assertion_fails.
(** ... and until the user lets go of it, it has at most one request to subscribe to or unsubscribe from a filter under way. *)
Theorem C55_one_request_per_filter cf connected l tr1 tr2 f : config_ok cf -> trace (history cf connected l) = tr1 ++ tr2 -> running tr1 -> (waiting true f tr1 + waiting false f tr1 <= 1)%nat.
Proof. intros Hc Ht Hr. exact (alone_all cf connected f l tr1 tr2 Hc Ht Hr). Qed.
Print Assumptions C55_one_request_per_filter.
Example C55_nonvacuous : waiting true [114] (trace (history limits true (firstn 6 both))) = 1%nat.
Proof. reflexivity. Qed.

(** C51. A request is not failed with a timeout before its time is up: it was made when the clock showed [t0], and before it failed the clock
    showed [now], the request timeout later (unless the sum exceeds 64 bits, which nanoseconds since the start of the machine do not). *)
Theorem C51_not_early cf connected l tr1 id tr2 : config_ok cf -> trace (history cf connected l) = tr1 ++ O_COMPLETE id (FAILED E_TIMEOUT) :: tr2 ->
  exists tr0 t0 r d mid now, tr1 = tr0 ++ I_TICK t0 :: I_OPERATION id (W_REQUEST r) d :: mid /\ In (I_TICK now) tr1 /\ (t0 + cf_timeout_s cf * 1000000000 < two64 -> t0 + cf_timeout_s cf * 1000000000 <= now).
Proof. exact (not_early cf connected l tr1 id tr2). Qed.
Print Assumptions C51_not_early.
(** ... and when its time is up it is completed: if it has not been completed before, the service task is due, and once that has run it has been. The clock must not
    have shown a later time before, nor zero, and the timeout must not wrap around. *)
Theorem C51_on_time cf connected l ev id r d : config_ok cf -> (forall x, In x l -> 0 < e_now (fst x) <= e_now ev /\ e_now (fst x) + cf_timeout_s cf * 1000000000 < two64) -> running (trace (history cf connected l)) ->
  In (I_OPERATION id (W_REQUEST r) d) (trace (history cf connected l)) -> enabled ev (ESubmit id) (history cf connected l) = false -> d <= e_now ev ->
  (exists x, In (O_COMPLETE id x) (trace (history cf connected l))) \/
  (enabled ev EService (history cf connected l) = true /\ exists x, In (O_COMPLETE id x) (trace (history cf connected (l ++ [(ev, EService)])))).
Proof. exact (on_time cf connected l ev id r d). Qed.
Print Assumptions C51_on_time.
Example C51_nonvacuous_on_time : let l := removelast unanswered in let ev := at_ 10000000001 in
  (forall x, In x l -> 0 < e_now (fst x) <= e_now ev /\ e_now (fst x) + cf_timeout_s limits * 1000000000 < two64) /\ running (trace (history limits true l)) /\
  In (I_OPERATION 1 (W_REQUEST ask_q) 10000000001) (trace (history limits true l)) /\ enabled ev (ESubmit 1) (history limits true l) = false /\ count (completes 1) (trace (history limits true l)) = 0%nat.
Proof.
  cbv zeta. split; [|vm_compute; intuition discriminate]. intros x Hx. cbn in Hx. repeat (destruct Hx as [<-|Hx]; [vm_compute; intuition discriminate|]). destruct Hx.
Qed.
Example C51_nonvacuous : exists tr1 tr2, trace (history limits true unanswered) = tr1 ++ O_COMPLETE 1 (FAILED E_TIMEOUT) :: tr2.
Proof. apply in_split. vm_compute. tauto. Qed.

(** C52. A request is completed with a message as its response only if that message arrived, and the JSON document in it holds the request's correlation token at the path
    which a request gave for the topic of the message. What is missing: it need not be this request which gave that topic and path (C52_own_path_refuted). *)
Theorem C52_response_matches_partial cf connected l tr1 id topic payload tr2 : config_ok cf -> trace (history cf connected l) = tr1 ++ O_COMPLETE id (RESPONSE topic payload) :: tr2 ->
  exists r j path, is_op id (W_REQUEST r) tr1 /\ In (I_MESSAGE topic payload j) tr1 /\ token_in path j = Some (r_token r) /\ exists id' r', is_op id' (W_REQUEST r') tr1 /\ In (topic, path) (r_paths r').
Proof. intros Hc H. exact (reasons cf connected l _ _ _ Hc H). Qed.
Print Assumptions C52_response_matches_partial.
(** the client completes a request with a message on a topic which the request did not mention, nor subscribe to, if it bears the request's token *)
Theorem C52_own_path_refuted : exists cf connected l tr1 id topic payload, config_ok cf /\ trace (history cf connected l) = tr1 ++ [O_COMPLETE id (RESPONSE topic payload)] /\
  forall r path, is_op id (W_REQUEST r) tr1 -> ~ In (topic, path) (r_paths r) /\ ~ In topic (r_filters r).
Proof.
  exists limits, true, crossed, (removelast (trace (history limits true crossed))), 1, [119], [8]. split; [reflexivity|]. split; [vm_compute; reflexivity|].
  intros r path [d K]. cut (r = ask_q); [intros ->; cbn; intuition discriminate|]. revert K. vm_compute. intuition congruence.
Qed.
Print Assumptions C52_own_path_refuted.
Example C52_nonvacuous : exists tr1 tr2, trace (history limits true answered) = tr1 ++ O_COMPLETE 1 (RESPONSE [114] [8]) :: tr2.
Proof. apply in_split. vm_compute. tauto. Qed.

(** C56. Each callback has its reason ([has_reason] says which): a request is not completed, a stream not told that it is established, lost or halted, a message not
    delivered, unless what that says has happened. *)
Theorem C56_reasons cf connected l tr1 x tr2 : config_ok cf -> trace (history cf connected l) = tr1 ++ x :: tr2 -> has_reason cf tr1 x.
Proof. exact (reasons cf connected l tr1 x tr2). Qed.
Print Assumptions C56_reasons.
Example C56_nonvacuous : In (O_STATUS 2 S_ESTABLISHED) (trace (history limits true answered)) /\ In (O_STATUS 2 S_LOST) (trace (history limits true (answered ++ [(at_ 14, EDisconnected); (at_ 15, EConnected false); (at_ 16, EStatus); (at_ 17, EStatus)]))) /\
  In (O_STATUS 1 (S_HALTED E_SUBSCRIBE_FAILURE)) (trace (history two_streams true (firstn 7 parent ++ [(at_ 8, ESuback [112; 47; 35] false false); (at_ 9, EStatus)]))).
Proof. vm_compute. intuition. Qed.

(** C57. A message which arrives while the client is running is given to each stream it matches, once, and to no other. What is missing: a stream on
    "a/#" does not get messages on "a" (C57_parent_level_refuted). *)
Theorem C57_delivered_once_partial cf connected l ev topic payload j : config_ok cf -> running (trace (history cf connected l)) ->
  exists new, trace (history cf connected (l ++ [(ev, EMessage topic payload j)])) = trace (history cf connected l) ++ new /\
  forall id f, is_op id (W_STREAM f) (trace (history cf connected l)) ->
    (in_use id (trace (history cf connected l)) /\ SubSet_Spec.topic_matches f topic /\ ~ TopicTree_Spec.parent_level_only f topic -> count (gets id topic payload) new = 1%nat) /\
    (~ in_use id (trace (history cf connected l)) \/ ~ SubSet_Spec.topic_matches f topic -> count (gets id topic payload) new = 0%nat).
Proof.
  intros Hc Hr. destruct (delivered cf connected l ev topic payload j Hc Hr) as (new & Hn & H). exists new. split; [exact Hn|]. intros id f Ho. destruct (H id f Ho) as [H1 H2]. split; [exact H1|].
  intros K. apply H2. unfold TopicTree_Spec.tree_matches. tauto.
Qed.
Print Assumptions C57_delivered_once_partial.
Theorem C57_parent_level_refuted : exists cf connected l ev topic payload j id f, config_ok cf /\ is_op id (W_STREAM f) (trace (history cf connected l)) /\ in_use id (trace (history cf connected l)) /\ held f (trace (history cf connected l)) = true /\
  SubSet_Spec.topic_matches f topic /\ count (gets id topic payload) (trace (history cf connected (l ++ [(ev, EMessage topic payload j)]))) = 0%nat.
Proof.
  exists two_streams, true, parent, (at_ 10), [112], [1], None, 1, [112; 47; 35]. split; [reflexivity|]. split; [eexists; vm_compute; intuition|]. split; [vm_compute; intuition discriminate|]. split; [reflexivity|]. split; [|reflexivity].
  unfold SubSet_Spec.topic_matches. cbn. repeat constructor.
Qed.
Print Assumptions C57_parent_level_refuted.
(** A stream is given messages only after it has been accepted, and none after it has been told that it has come to a halt, or after the end of it. *)
Theorem C57_only_in_use cf connected l tr1 id topic payload tr2 : config_ok cf -> trace (history cf connected l) = tr1 ++ O_MESSAGE id topic payload :: tr2 -> in_use id tr1.
Proof. exact (only_in_use cf connected l tr1 id topic payload tr2). Qed.
Print Assumptions C57_only_in_use.
Example C57_nonvacuous : running (trace (history two_streams true parent)) /\ in_use 1 (trace (history two_streams true parent)) /\ in_use 2 (trace (history two_streams true parent)) /\
  count (gets 2 [112; 47; 120] [1]) (trace (history two_streams true (parent ++ [(at_ 10, EMessage [112; 47; 120] [1] None)]))) = 1%nat.
Proof. vm_compute. intuition discriminate. Qed.

(** C58. A request is published as soon as it is subscribed to all its filters: not so if it was subscribed to one of them, and not to another, when
    it was taken from the queue. Here nothing is left to be done but to wait for the timeout. *)
Theorem C58_published_when_subscribed_refuted : exists cf connected l id r, config_ok cf /\ is_op id (W_REQUEST r) (trace (history cf connected l)) /\ In (O_INTAKE id A_SUBSCRIBING) (trace (history cf connected l)) /\
  (forall f, In f (r_filters r) -> held f (trace (history cf connected l)) = true) /\ (forall ev, enabled ev EStatus (history cf connected l) = false) /\ (forall b f, waiting b f (trace (history cf connected l)) = 0%nat \/ ~ In f (r_filters r)) /\
  count (publishes id) (trace (history cf connected l)) = 0%nat.
Proof.
  exists limits, true, half_subscribed, 2, ask_two. split; [reflexivity|]. split; [eexists; vm_compute; intuition|]. split; [vm_compute; intuition|]. split; [intros f [<-|[<-|[]]]; reflexivity|]. split; [reflexivity|]. split; [|reflexivity].
  intros b f. destruct (in_dec (list_eq_dec N.eq_dec) f (r_filters ask_two)) as [K|K]; [left|right; exact K]. destruct K as [<-|[<-|[]]]; destruct b; reflexivity.
Qed.
Print Assumptions C58_published_when_subscribed_refuted.
(** What holds is that a request which is subscribed to all its filters when it is taken from the queue is published at once; what is missing: the case in which
    the last of the subscriptions is made afterwards, where it is not published if another of them was there before. *)
Theorem C58_published_at_once_partial cf connected l tr1 id r tr2 : config_ok cf -> trace (history cf connected l) = tr1 ++ O_INTAKE id A_SUBSCRIBED :: tr2 -> is_op id (W_REQUEST r) tr1 ->
  exists ok tr3, tr2 = O_PUBLISH id ok :: tr3.
Proof. exact (published_at_once cf connected l tr1 id r tr2). Qed.
Print Assumptions C58_published_at_once_partial.
Example C58_nonvacuous : exists tr1 tr2 r, trace (history limits true already) = tr1 ++ O_INTAKE 2 A_SUBSCRIBED :: tr2 /\ is_op 2 (W_REQUEST r) tr1.
Proof.
  exists (firstn (length (trace (history limits true already)) - 2) (trace (history limits true already))), [O_PUBLISH 2 true], ask_again. split; [vm_compute; reflexivity|]. eexists. vm_compute. intuition.
Qed.
