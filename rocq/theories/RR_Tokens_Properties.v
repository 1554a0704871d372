(** Properties of the request-response client: correlation tokens. *)
From Verif Require Import Base TopicAlias_Model SubSet_Model RR_Model RR_Spec RR_Examples RR_All RR_Tokens.

(** C86. Requests with the same correlation token are never in progress at the same time: when the message of one is handed to the protocol client, each request
    with this token whose message was handed to it before has been completed. *)
Theorem C86_published_apart cf connected l tr1 id2 ok2 tr2 id1 ok1 r1 r2 : config_ok cf -> trace (history cf connected l) = tr1 ++ O_PUBLISH id2 ok2 :: tr2 -> In (O_PUBLISH id1 ok1) tr1 -> id1 <> id2 ->
  is_op id1 (W_REQUEST r1) tr1 -> is_op id2 (W_REQUEST r2) tr1 -> r_token r1 = r_token r2 -> exists x, In (O_COMPLETE id1 x) tr1.
Proof. exact (published_apart cf connected l tr1 id2 ok2 tr2 id1 ok1 r1 r2). Qed.
Print Assumptions C86_published_apart.
(** ... and so it is when they are taken from the queue, before they are published. *)
Theorem C86_taken_apart cf connected l tr1 id2 a2 tr2 id1 a1 r1 r2 : config_ok cf -> trace (history cf connected l) = tr1 ++ O_INTAKE id2 a2 :: tr2 -> a2 = A_SUBSCRIBING \/ a2 = A_SUBSCRIBED ->
  a1 = A_SUBSCRIBING \/ a1 = A_SUBSCRIBED -> In (O_INTAKE id1 a1) tr1 -> is_op id1 (W_REQUEST r1) tr1 -> is_op id2 (W_REQUEST r2) tr1 -> r_token r1 = r_token r2 -> exists x, In (O_COMPLETE id1 x) tr1.
Proof. exact (one_at_a_time cf connected l tr1 id2 a2 tr2 id1 a1 r1 r2). Qed.
Print Assumptions C86_taken_apart.
(** The third of these requests has the token of the first, and is not published before the first has been answered, but then it is. *)
Example C86_case : count (publishes 1) (trace (history limits true same_token)) = 1%nat /\ count (publishes 2) (trace (history limits true same_token)) = 1%nat /\ count (publishes 3) (trace (history limits true same_token)) = 0%nat /\
  count (publishes 3) (trace (history limits true token_again)) = 1%nat.
Proof. vm_compute. auto. Qed.
Example C86_nonvacuous : exists tr1 tr2, trace (history limits true token_again) = tr1 ++ O_PUBLISH 3 true :: tr2 /\ In (O_PUBLISH 1 true) tr1 /\ In (O_INTAKE 1 A_SUBSCRIBING) tr1 /\ is_op 1 (W_REQUEST ask_q) tr1 /\ is_op 3 (W_REQUEST ask_q) tr1.
Proof.
  exists (firstn 37 (trace (history limits true token_again))), [O_SUBSCRIBE [119] true; O_INTAKE 4 A_SUBSCRIBING]. split; [rewrite <- (firstn_skipn 37 (trace (history limits true token_again))) at 1; f_equal; vm_compute; reflexivity|].
  split; [apply (nth_error_In _ 19); vm_compute; reflexivity|]. split; [apply (nth_error_In _ 14); vm_compute; reflexivity|]. split; [exists 10000000001; apply (nth_error_In _ 1); vm_compute; reflexivity|exists 10000000005; apply (nth_error_In _ 9); vm_compute; reflexivity].
Qed.

(** C87. A request which waits for its correlation token is taken from the queue when the token is free: not so. Here all other requests with the token of the request
    are over, all others have been taken from the queue, the client is connected and subscribed to its filters, and nothing is left to be done until the time of the first is up,
    ten seconds after it was made. *)
Theorem C87_taken_when_free_refuted : exists cf l id r, config_ok cf /\ is_op id (W_REQUEST r) (trace (history cf true l)) /\ In (I_QUEUED id) (trace (history cf true l)) /\ count (takes id) (trace (history cf true l)) = 0%nat /\
  (forall id' r', is_op id' (W_REQUEST r') (trace (history cf true l)) -> r_token r' = r_token r -> id' = id \/ In (O_GONE id') (trace (history cf true l))) /\
  (forall id', In (I_QUEUED id') (trace (history cf true l)) -> id' = id \/ exists a, In (O_INTAKE id' a) (trace (history cf true l))) /\
  (forall f, In f (r_filters r) -> held f (trace (history cf true l)) = true) /\ ~ In I_DISCONNECTED (trace (history cf true l)) /\
  (forall ev i, enabled ev (ESubmit i) (history cf true l) = false /\ enabled ev (EDestroy i) (history cf true l) = false /\ enabled ev EStatus (history cf true l) = false) /\
  (forall ev b f, waiting b f (trace (history cf true l)) = 0%nat /\ (e_now ev < 10000000001 -> enabled ev EService (history cf true l) = false)).
Proof.
  exists limits, token_free, 3, ask_q. split; [reflexivity|]. split; [exists 10000000005; apply (nth_error_In _ 9); vm_compute; reflexivity|]. split; [apply (nth_error_In _ 11); vm_compute; reflexivity|]. split; [vm_compute; reflexivity|]. split; [|split; [|split; [|split; [|split]]]].
  - intros id' r' [d K] Hr. assert (H : forallb (fun x => match x with I_OPERATION i (W_REQUEST q) _ => negb (bytes_eqb (r_token q) [53]) || (i =? 3) || (i =? 1) | _ => true end) (trace (history limits true token_free)) = true) by (vm_compute; reflexivity).
    rewrite forallb_forall in H. specialize (H _ K). cbv beta iota in H. rewrite Hr in H. apply orb_prop in H as [H|H]; [|apply N.eqb_eq in H; subst id'; right; apply (nth_error_In _ 30); vm_compute; reflexivity]. apply orb_prop in H as [H|H]; [discriminate H|left; apply N.eqb_eq; exact H].
  - intros id' K. assert (H : forallb (fun x => match x with I_QUEUED i => (i =? 3) || (i =? 1) || (i =? 2) | _ => true end) (trace (history limits true token_free)) = true) by (vm_compute; reflexivity).
    rewrite forallb_forall in H. specialize (H _ K). cbv beta iota in H. apply orb_prop in H as [H|H]; [|apply N.eqb_eq in H; subst id'; right; exists A_SUBSCRIBING; apply (nth_error_In _ 15); vm_compute; reflexivity]. apply orb_prop in H as [H|H]; apply N.eqb_eq in H; subst id'; [left; reflexivity|right; exists A_SUBSCRIBING; apply (nth_error_In _ 14); vm_compute; reflexivity].
  - intros f [<-|[]]. vm_compute. reflexivity.
  - intros K. assert (H : forallb (fun x => match x with I_DISCONNECTED => false | _ => true end) (trace (history limits true token_free)) = true) by (vm_compute; reflexivity). rewrite forallb_forall in H. specialize (H _ K). discriminate H.
  - apply idle_tasks; vm_compute; reflexivity.
  - apply idle_until; vm_compute; reflexivity.
Qed.
Print Assumptions C87_taken_when_free_refuted.
