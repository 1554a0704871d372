(** Properties C23, C24, C25, C27, C28, C29, C30, C31, C34, C36, C43, C44, C45, C46: the MQTT 5 client over all histories.

    A history is any list of API calls, network events, received bytes and clock readings ([client_history]); [c_out] is its trace, newest
    entry first. The vocabulary is in Client5_Spec.v. *)
From Verif Require Import Base Mqtt5_Views Negotiated_Model TopicAlias_Model Encoder5_Model Client5_State Client5_Model Client5_Spec
  Client5_Steps Client5_Ops Client5_Conn Client5_Events Client5_Ids Client5_Timeouts Client5_Stats Client5_Order Client5_Acks Client5_Examples Client5_Collision.

(** ** C23: the packet ids of operations sent on a connection and not finished are distinct 16-bit numbers other than 0. Not so if the client
    fails only QoS 0 publishes while offline. *)
Theorem C23_ids_distinct_partial : forall cf now0 l, cf_queue cf <> FAIL_QOS0_PUBLISH ->
  c_crash (client_history cf now0 l) = None ->
  forall later o earlier, c_out (client_history cf now0 l) = later ++ O_SENT o :: earlier -> answered (op_packet o) = true ->
  0 < id_of (op_packet o) /\ id_of (op_packet o) < 65536 /\
  forall o' t', sent_here o' t' earlier -> answered (op_packet o') = true -> ~ In (op_uid o') (map op_uid (finished earlier)) ->
  id_of (op_packet o') <> id_of (op_packet o).
Proof.
  intros cf now0 l Hp Ok x o y E Ha. destruct (sent_range cf now0 Hp _ _ _ _ _ (history_reach cf now0 l) Ok E Ha) as [H1 H2].
  split; [exact H1|]. split; [exact H2|]. exact (fun o' t' Hs => ids_distinct cf now0 Hp _ _ _ _ _ _ _ (history_reach cf now0 l) Ok E Ha Hs).
Qed.
Print Assumptions C23_ids_distinct_partial.
Definition cf2 : config := ex_config FAIL_NON_QOS1_PUBLISH REJOIN_POST_SUCCESS BDisabled.
(** a publish and a subscribe in flight, with ids 1 and 2 *)
Example C23_example : let s := client_history cf2 1 (connected connack_bytes ++ [submit_at 1010 (pub 1 7); submit_at 1010 sub_a] ++ serve 1011) in
  c_crash s = None /\ map (fun o => id_of (op_packet o)) (firstn 2 (sent (c_out s))) = [2; 1].
Proof. vm_compute. repeat split. Qed.
Theorem C23_ids_distinct_refuted : ~ forall cf now0 l, c_crash (client_history cf now0 l) = None ->
  forall later o earlier, c_out (client_history cf now0 l) = later ++ O_SENT o :: earlier -> answered (op_packet o) = true ->
  forall o' t', sent_here o' t' earlier -> answered (op_packet o') = true -> ~ In (op_uid o') (map op_uid (finished earlier)) ->
  id_of (op_packet o') <> id_of (op_packet o).
Proof.
  intros H. destruct ids_collide as (cf & now0 & l & later & o & earlier & o' & t' & H1 & H2 & H3 & H4 & H5 & H6 & H7).
  exact (H cf now0 l H1 later o earlier H2 H3 o' t' H4 H5 H6 H7).
Qed.
Print Assumptions C23_ids_distinct_refuted.

(** ** C24: on each connection, publishes with QoS 1 or 2 sent, less PUBACKs received, stay within the server's receive maximum; before a
    connection is announced none is sent *)
Theorem C24_receive_maximum : forall cf now0 l, let T := c_out (client_history cf now0 l) in
  c_crash (client_history cf now0 l) = None ->
  match settings_of T with
  | Some n => count_here publish_sent T <= ng_receive_maximum n + count_here puback_came T
  | None => count_here publish_sent T = 0
  end.
Proof. exact (fun cf now0 l => in_flight cf now0 _ _ (history_reach cf now0 l)). Qed.
Print Assumptions C24_receive_maximum.
(** the receive maximum 1 is used up *)
Example C24_example : let s := client_history cf1 1 (firstn 9 flooding) in c_crash s = None /\
  count_here publish_sent (c_out s) = 1 /\ option_map ng_receive_maximum (settings_of (c_out s)) = Some 1.
Proof. vm_compute. repeat split. Qed.

(** ** C25: operations complete at most once, and a completion means what it says *)
Theorem C25_at_most_once : forall cf now0 l, let T := c_out (client_history cf now0 l) in
  c_crash (client_history cf now0 l) = None ->
  NoDup (map op_uid (submitted T)) /\ NoDup (map op_uid (completed T)).
Proof. exact (fun cf now0 l => once cf now0 _ _ (history_reach cf now0 l)). Qed.
Print Assumptions C25_at_most_once.
(** every completion reported to the user is that of an operation submitted before, the same object asking for the same thing *)
Theorem C25_completes_what_was_submitted : forall cf now0 l later o e ack earlier,
  c_crash (client_history cf now0 l) = None ->
  c_out (client_history cf now0 l) = later ++ O_DONE o e ack :: earlier -> op_owner o = BY_USER ->
  exists o0, In o0 (submitted earlier) /\ identity_of o0 = identity_of o /\ ~ In (op_uid o) (map op_uid (completed earlier)).
Proof. exact (fun cf now0 l x o e ack y Ok => done_belongs cf now0 _ _ x o e ack y (history_reach cf now0 l) Ok). Qed.
Print Assumptions C25_completes_what_was_submitted.
(** success of an operation that is answered: it was sent on this connection, and the packet just received, which the callback gets,
    carries its packet id *)
Theorem C25_success_means_acknowledged : forall cf now0 l later o ack earlier,
  c_crash (client_history cf now0 l) = None ->
  c_out (client_history cf now0 l) = later ++ O_DONE o K_SUCCESS ack :: earlier -> answered (op_packet o) = true ->
  exists a rest o' t, ack = Some a /\ earlier = I_PACKET a :: rest /\ ack_id a = id_of (op_packet o) /\
    sent_here o' t earlier /\ identity_of o' = identity_of o /\ id_of (op_packet o') = id_of (op_packet o).
Proof. exact (fun cf now0 l x o ack y Ok => success_acked cf now0 _ _ x o ack y (history_reach cf now0 l) Ok). Qed.
Print Assumptions C25_success_means_acknowledged.
(** success of any operation: it was sent on this connection *)
Theorem C25_success_means_sent : forall cf now0 l later o ack earlier,
  c_crash (client_history cf now0 l) = None ->
  c_out (client_history cf now0 l) = later ++ O_DONE o K_SUCCESS ack :: earlier ->
  exists o' t, sent_here o' t earlier /\ identity_of o' = identity_of o.
Proof. exact (fun cf now0 l x o ack y Ok => success_sent cf now0 _ _ x o ack y (history_reach cf now0 l) Ok). Qed.
Print Assumptions C25_success_means_sent.
(** failure: the callback gets no packet *)
Theorem C25_failure_without_packet : forall cf now0 l later o e ack earlier,
  c_crash (client_history cf now0 l) = None ->
  c_out (client_history cf now0 l) = later ++ O_DONE o e ack :: earlier -> e <> K_SUCCESS -> ack = None.
Proof. exact (fun cf now0 l x o e ack y Ok => failure_no_ack cf now0 _ _ x o e ack y (history_reach cf now0 l) Ok). Qed.
Print Assumptions C25_failure_without_packet.
Example C25_example : let s := client_history cf1 1 ordinary in c_crash s = None /\ in_short s =
  [B_ATTEMPT; B_SENT 0 0; B_DONE 0 K_SUCCESS; B_RECEIVED 2; B_SUCCESS; B_SUBMIT 1; B_SUBMIT 2; B_SENT 1 1; B_SENT 2 2; B_RECEIVED 4;
   B_DONE 1 K_SUCCESS; B_RECEIVED 9; B_DONE 2 K_SUCCESS; B_RECEIVED 3; B_PUBLISH 9 None; B_SENT 3 0; B_DONE 3 K_SUCCESS; B_SUBMIT 4;
   B_SENT 4 0; B_DONE 4 K_SUCCESS; B_SUBMIT 5; B_DISCONNECTION K_USER_REQUESTED_STOP; B_DONE 5 K_USER_REQUESTED_STOP; B_STOPPED].
Proof. vm_compute. repeat split. Qed.

(** ** C44: by the time the client reports that it has stopped or terminated, every operation has been completed (false: see below) *)
Theorem C44_finished_when_stopped_partial : forall cf now0 l later ev earlier,
  c_crash (client_history cf now0 l) = None ->
  c_out (client_history cf now0 l) = later ++ ev :: earlier -> ev = O_LIFE STOPPED_EVENT \/ ev = O_TERMINATED ->
  forall o, In o (submitted earlier) -> exists o', identity_of o' = identity_of o /\ (In o' (completed earlier) \/ In o' (lost earlier)).
Proof. exact (fun cf now0 l x ev y Ok => stopped_finished cf now0 _ _ x ev y (history_reach cf now0 l) Ok). Qed.
Print Assumptions C44_finished_when_stopped_partial.
(** a user's operation is dropped only if it is the DISCONNECT just given to stop(), if every packet id is in use, or if the encoder
    refuses the packet *)
Theorem C44_lost_only_if_partial : forall cf now0 l later o earlier,
  c_crash (client_history cf now0 l) = None ->
  c_out (client_history cf now0 l) = later ++ O_LOST o :: earlier -> op_owner o = BY_USER ->
  (exists v rest, op_packet o = P_DISCONNECT v /\ earlier = I_SUBMIT o :: rest) \/
  (id_of (op_packet o) = 0 /\ ids_exhausted earlier) \/
  (exists enc err, snd (append_packet enc (op_packet o)) = A_FAILED err).
Proof. exact (fun cf now0 l x o y Ok => lost_why cf now0 _ _ x o y (history_reach cf now0 l) Ok). Qed.
Print Assumptions C44_lost_only_if_partial.
(** and this happens: a publish whose topic alias the server does not allow is accepted and never completed *)
Theorem C44_refuted : exists cf now0 l rest o, c_crash (client_history cf now0 l) = None /\
  c_out (client_history cf now0 l) = O_LIFE STOPPED_EVENT :: rest /\ In o (submitted rest) /\ is_request (op_packet o) = true /\
  ~ In (op_uid o) (map op_uid (completed rest)).
Proof.
  exists cf_manual_alias, 1, dropping, (tl (c_out (client_history cf_manual_alias 1 dropping))),
    (hd (op_new 0 BY_USER (pub 0 0) 0) (submitted (c_out (client_history cf_manual_alias 1 dropping)))).
  vm_compute. repeat split; [left; reflexivity|]. intuition discriminate.
Qed.
Print Assumptions C44_refuted.
Example C44_example : in_short (client_history cf_manual_alias 1 dropping) =
  [B_ATTEMPT; B_SENT 0 0; B_DONE 0 K_SUCCESS; B_RECEIVED 2; B_SUCCESS; B_SUBMIT 1; B_LOST 1; B_DISCONNECTION K_PROCESSING_FAILURE; B_STOPPED].
Proof. vm_compute. reflexivity. Qed.

(** ** C26: the statistics are the number and the total size of the requests submitted and not completed, and of those among them that were
    sent on the latest connection and are still to be answered. The counters are 64 bit wide. *)
Theorem C26_incomplete : forall cf now0 l, let s := client_history cf now0 l in c_crash s = None ->
  inc_n s = N.of_nat (length (pending_sizes (c_out s))) mod 18446744073709551616 /\ inc_b s = sum (pending_sizes (c_out s)) mod 18446744073709551616.
Proof. exact (fun cf now0 l => inc_counts cf now0 _ (history_reach cf now0 l)). Qed.
Print Assumptions C26_incomplete.
Theorem C26_unacknowledged : forall cf now0 l, let s := client_history cf now0 l in c_crash s = None ->
  una_n s = N.of_nat (length (unanswered_sizes (c_out s))) mod 18446744073709551616 /\ una_b s = sum (unanswered_sizes (c_out s)) mod 18446744073709551616.
Proof. exact (fun cf now0 l => una_counts cf now0 _ (history_reach cf now0 l)). Qed.
Print Assumptions C26_unacknowledged.
Definition counting : list (env * event) := connected connack_bytes ++ [submit_at 1010 (pub 1 7); submit_at 1010 sub_a] ++ serve 1011 ++ [submit_at 1012 (pub 0 8)].
Example C26_example : let s := client_history cf1 1 counting in c_crash s = None /\ (inc_n s, inc_b s, una_n s, una_b s) = (3, 23, 2, 16) /\
  pending_sizes (c_out s) = [7; 9; 7] /\ unanswered_sizes (c_out s) = [9; 7].
Proof. vm_compute. repeat split. Qed.
(** ... but the size of a publish with QoS 1 is taken before it has a packet id: the two bytes of the id are not counted *)
Theorem C26_bytes_sent_refuted : exists cf now0 l o, let s := client_history cf now0 l in c_crash s = None /\ una_n s = 1 /\
  sent_since_success (c_out s) = [o] /\ get_encoded_size (op_packet o) = Ok (una_b s + 2).
Proof.
  exists cf1, 1, (connected connack_bytes ++ [submit_at 1010 (pub 1 7)] ++ serve 1011).
  exists (hd (op_new 0 BY_USER sub_a 0) (sent_since_success (c_out (client_history cf1 1 (connected connack_bytes ++ [submit_at 1010 (pub 1 7)] ++ serve 1011))))).
  vm_compute. repeat split.
Qed.
Print Assumptions C26_bytes_sent_refuted.

(** ** C27: the lifecycle events follow the grammar, as long as stop() is not given a DISCONNECT packet; with one, a connection may be
    announced after its attempt was reported to have failed, and nothing else goes wrong *)
Theorem C27_lifecycle : forall cf now0 l, let T := c_out (client_history cf now0 l) in
  c_crash (client_history cf now0 l) = None -> plain_stops T -> exists phase, lifecycle phase (life_events T).
Proof. exact (fun cf now0 l Ok P => ex_intro _ _ (proj2 (life_grammar cf now0 _ _ (history_reach cf now0 l) Ok) P)). Qed.
Print Assumptions C27_lifecycle.
Theorem C27_lifecycle_always : forall cf now0 l, let T := c_out (client_history cf now0 l) in
  c_crash (client_history cf now0 l) = None -> exists phase, loose_lifecycle phase (life_events T).
Proof. exact (fun cf now0 l Ok => ex_intro _ _ (proj1 (life_grammar cf now0 _ _ (history_reach cf now0 l) Ok))). Qed.
Print Assumptions C27_lifecycle_always.
Example C27_example : let s := client_history cf1 1 ordinary in plain_stops (c_out s) /\
  lifecycle LS_NONE (life_events (c_out s)) /\ length (life_events (c_out s)) = 4%nat.
Proof. vm_compute. split; [repeat constructor|]. split; [repeat constructor|reflexivity]. Qed.

(** ** C46: the lifecycle events follow the grammar whatever the user does (false) *)
Theorem C46_lifecycle_refuted : exists cf now0 l, c_crash (client_history cf now0 l) = None /\
  forall phase, ~ lifecycle phase (life_events (c_out (client_history cf now0 l))).
Proof.
  exists cf1, 1, late. split; [vm_compute; reflexivity|]. intros phase H.
  repeat match type of H with lifecycle _ ?l => let l' := eval vm_compute in l in change (lifecycle phase l') in H end.
  repeat match goal with H : lifecycle _ _ |- _ => inversion H; subst; clear H end.
Qed.
Print Assumptions C46_lifecycle_refuted.
Example C46_example : in_short (client_history cf1 1 late) =
  [B_ATTEMPT; B_SUBMIT 0; B_LOST 0; B_FAILURE K_USER_REQUESTED_STOP; B_SENT 1 0; B_DONE 1 K_SUCCESS; B_RECEIVED 2; B_SUCCESS].
Proof. vm_compute. reflexivity. Qed.

(** ** C28: while there is no connection, the requests the offline policy does not keep are refused or completed, and no others *)
Theorem C28_refused_offline : forall cf now0 l later o earlier,
  c_crash (client_history cf now0 l) = None ->
  c_out (client_history cf now0 l) = later ++ I_SUBMIT o :: earlier -> is_request (op_packet o) = true ->
  phase_of earlier <> LS_CONNECTED -> keeps cf (op_packet o) = false ->
  exists later' e, later = later' ++ [O_DONE o e None] /\ (e = K_OFFLINE_QUEUE_POLICY \/ e = K_CLIENT_TERMINATED).
Proof. exact (fun cf now0 l x o y Ok => refused_offline cf now0 _ _ x o y (history_reach cf now0 l) Ok). Qed.
Print Assumptions C28_refused_offline.
Theorem C28_offline_error : forall cf now0 l later o ack earlier,
  c_crash (client_history cf now0 l) = None ->
  c_out (client_history cf now0 l) = later ++ O_DONE o K_OFFLINE_QUEUE_POLICY ack :: earlier -> keeps cf (op_packet o) = false.
Proof. exact (fun cf now0 l x o ack y Ok => offline_error cf now0 _ _ x o ack y (history_reach cf now0 l) Ok). Qed.
Print Assumptions C28_offline_error.
(** when a connection is attempted, the requests still waiting or unacknowledged are kept ones, or publishes of QoS 1 or 2 that were sent; each
    request that has been submitted and not finished is among them. [line_of] keeps them in the order of submission. *)
Theorem C28_kept : forall cf now0 l later earlier,
  c_crash (client_history cf now0 l) = None ->
  c_out (client_history cf now0 l) = later ++ O_LIFE ATTEMPTING_CONNECT :: earlier ->
  Forall (fun o => keeps cf (op_packet o) = true) (waiting_line (line_of earlier)) /\
  Forall (fun o => keeps cf (op_packet o) = true \/ exists v, op_packet o = P_PUBLISH v /\ pb_qos v <> 0) (sent_line (line_of earlier)) /\
  forall o, In o (submitted earlier) -> is_request (op_packet o) = true -> ~ In (op_uid o) (map op_uid (finished earlier)) ->
    exists o', In o' (waiting_line (line_of earlier) ++ sent_line (line_of earlier)) /\ identity_of o' = identity_of o.
Proof. exact (fun cf now0 l x y Ok => kept_at_attempt cf now0 _ _ x y (history_reach cf now0 l) Ok). Qed.
Print Assumptions C28_kept.
Example C28_example : let s := client_history cf2 1 offline in c_crash s = None /\
  in_short s = [B_SUBMIT 0; B_DONE 0 K_OFFLINE_QUEUE_POLICY; B_SUBMIT 1; B_SUBMIT 2; B_DONE 2 K_OFFLINE_QUEUE_POLICY; B_ATTEMPT] /\
  keeps cf2 sub_a = false /\ keeps cf2 (pub 1 7) = true /\ map op_uid (waiting_line (line_of (c_out s))) = [1].
Proof. vm_compute. repeat split. Qed.

(** ** C30: requests are sent in the order of submission; after a reconnection the unacknowledged ones come first ([requeued]), and a publish of
    QoS 1 or 2 that was sent before is sent again as it was, marked as a duplicate *)
Theorem C30_order : forall cf now0 l later o earlier,
  c_crash (client_history cf now0 l) = None ->
  c_out (client_history cf now0 l) = later ++ O_SENT o :: earlier -> is_request (op_packet o) = true ->
  exists o0 rest, waiting_line (line_of earlier) = o0 :: rest /\ identity_of o0 = identity_of o.
Proof. exact (fun cf now0 l x o y Ok => sent_next cf now0 _ _ x o y (history_reach cf now0 l) Ok). Qed.
Print Assumptions C30_order.
Theorem C30_redelivery : forall cf now0 l later o earlier o0 v,
  c_crash (client_history cf now0 l) = None ->
  c_out (client_history cf now0 l) = later ++ O_SENT o :: earlier -> In o0 (sent earlier) -> op_uid o0 = op_uid o ->
  op_packet o = P_PUBLISH v -> pb_qos v <> 0 -> exists v0, op_packet o0 = P_PUBLISH v0 /\ v = redelivered v0.
Proof. exact (fun cf now0 l x o y o0 v Ok E Hi Hu => sent_again cf now0 _ _ x o y o0 (history_reach cf now0 l) Ok E Hi Hu v). Qed.
Print Assumptions C30_redelivery.
(** the subscription 1 and the publishes 2 and 3 were sent and 4 was waiting: 2 and 3 keep their ids, 1 gets a new one *)
Example C30_example : let s := client_history cf1 1 resuming in c_crash s = None /\
  in_short s = [B_ATTEMPT; B_SENT 0 0; B_DONE 0 K_SUCCESS; B_RECEIVED 2; B_SUCCESS; B_SUBMIT 1; B_SUBMIT 2; B_SUBMIT 3;
    B_SENT 1 1; B_SENT 2 2; B_SENT 3 3; B_SUBMIT 4; B_DISCONNECTION (K_ENV 5); B_ATTEMPT; B_SENT 5 0; B_DONE 5 K_SUCCESS; B_RECEIVED 2; B_SUCCESS;
    B_SENT 2 2; B_SENT 3 3; B_SENT 1 4; B_SENT 4 5] /\
  flat_map (fun o => match op_packet o with P_PUBLISH v => [(op_uid o, pb_duplicate v)] | _ => [] end) (sent (c_out s)) =
    [(4, false); (3, true); (2, true); (3, false); (2, false)].
Proof. vm_compute. repeat split. Qed.

(** ** C29: the acknowledgements of received messages: [due (acks_of earlier)] are the packet ids still to be acknowledged, oldest first *)
Theorem C29_in_order : forall cf now0 l later o earlier p,
  c_crash (client_history cf now0 l) = None ->
  c_out (client_history cf now0 l) = later ++ O_SENT o :: earlier -> acks_fit earlier -> op_packet o = P_PUBACK p ->
  p = mkpuback (pa_packet_id p) 0 None [] /\ exists rest, due (acks_of earlier) = pa_packet_id p :: rest.
Proof. exact (fun cf now0 l x o y p Ok => sent_puback cf now0 _ _ x o y p (history_reach cf now0 l) Ok). Qed.
Print Assumptions C29_in_order.
(** ... requests of the user are not sent before the acknowledgements that were due when the previous packet was sent *)
Theorem C29_first : forall cf now0 l later o earlier,
  c_crash (client_history cf now0 l) = None ->
  c_out (client_history cf now0 l) = later ++ O_SENT o :: earlier -> acks_fit earlier -> is_request (op_packet o) = true ->
  owed (acks_of earlier) = [].
Proof. exact (fun cf now0 l x o y Ok => sent_request cf now0 _ _ x o y (history_reach cf now0 l) Ok). Qed.
Print Assumptions C29_first.
(** ... and the PUBACKs waiting in the client, the packet being written first, are those due: none is missing and none is there twice *)
Theorem C29_exactly : forall cf now0 l, let s := client_history cf now0 l in
  c_crash s = None -> acks_fit (c_out s) -> current s = CONNECTED ->
  puback_ids (match curop s with Some o => [o] | None => [] end ++ queued s) = due (acks_of (c_out s)).
Proof. exact (fun cf now0 l Ok => held_acks cf now0 _ (history_reach cf now0 l) Ok). Qed.
Print Assumptions C29_exactly.
(** ... every message received on an established connection is handed to the user, and is thereby due; nothing else is handed to the user *)
Theorem C29_delivered : forall cf now0 l later v earlier,
  c_crash (client_history cf now0 l) = None ->
  c_out (client_history cf now0 l) = later ++ I_PACKET (P_PUBLISH v) :: earlier -> phase_of earlier = LS_CONNECTED ->
  exists later' handle, later = later' ++ [O_PUBLISH v handle].
Proof. exact (fun cf now0 l x v y Ok => delivered cf now0 _ _ x v y (history_reach cf now0 l) Ok). Qed.
Print Assumptions C29_delivered.
Theorem C29_delivered_once : forall cf now0 l later v handle earlier,
  c_crash (client_history cf now0 l) = None ->
  c_out (client_history cf now0 l) = later ++ O_PUBLISH v handle :: earlier -> exists earlier', earlier = I_PACKET (P_PUBLISH v) :: earlier'.
Proof. exact (fun cf now0 l x v c y Ok => delivered_once cf now0 _ _ x v c y (history_reach cf now0 l) Ok). Qed.
Print Assumptions C29_delivered_once.
(** three messages arrive; then there is room for one packet at a time, and a request is submitted *)
Definition acknowledging : list (env * event) :=
  connected connack_bytes ++ [submit_at 1010 (pub 1 7); (at_ 1012, ERead (publish_bytes 9 ++ publish_bytes 4 ++ publish_bytes 7))] ++ serve 1013.
Example C29_example : let s := client_history cf1 1 (firstn 8 acknowledging) in let s' := client_history cf1 1 acknowledging in
  c_crash s = None /\ c_crash s' = None /\ current s = CONNECTED /\ due (acks_of (c_out s)) = [9; 4; 7] /\ puback_ids (queued s) = [9; 4; 7] /\ due (acks_of (c_out s')) = [] /\
  in_short s' = [B_ATTEMPT; B_SENT 0 0; B_DONE 0 K_SUCCESS; B_RECEIVED 2; B_SUCCESS; B_SUBMIT 1; B_RECEIVED 3; B_PUBLISH 9 None; B_RECEIVED 3; B_PUBLISH 4 None;
    B_RECEIVED 3; B_PUBLISH 7 None; B_SENT 2 0; B_SENT 3 0; B_SENT 4 0; B_SENT 1 1; B_DONE 2 K_SUCCESS; B_DONE 3 K_SUCCESS; B_DONE 4 K_SUCCESS].
Proof. vm_compute. repeat split. Qed.
Example C29_fits : acks_fit (c_out (client_history cf1 1 acknowledging)).
Proof. apply fits_ok. vm_compute. reflexivity. Qed.

(** ** C31: an acknowledgement timeout is reported only for an operation that was sent on this connection and is overdue *)
Theorem C31_only_overdue_partial : forall cf now0 l later o ack earlier,
  c_crash (client_history cf now0 l) = None ->
  c_out (client_history cf now0 l) = later ++ O_DONE o K_TIMEOUT ack :: earlier ->
  answered (op_packet o) = true /\
  exists now o' t, clock earlier = Some now /\ sent_here o' t earlier /\ identity_of o' = identity_of o /\ overdue cf t o' now.
Proof. exact (fun cf now0 l x o ack y Ok => timeout_overdue cf now0 _ _ x o ack y (history_reach cf now0 l) Ok). Qed.
Print Assumptions C31_only_overdue_partial.
(** ... and when the service task has run on a connection, every overdue operation has been finished with *)
Theorem C31_none_overdue_partial : forall cf now0 l ev, cf_queue cf <> FAIL_QOS0_PUBLISH ->
  let s := client_history cf now0 l in let s' := client_history cf now0 (l ++ [(ev, EService)]) in
  c_crash s' = None -> enabled ev EService s = true -> phase_of (c_out s) = LS_CONNECTED -> phase_of (c_out s') = LS_CONNECTED ->
  forall o t, sent_here o t (c_out s) -> answered (op_packet o) = true -> overdue cf t o (e_now ev) ->
  In (op_uid o) (map op_uid (finished (c_out s'))).
Proof. exact (fun cf now0 l ev Hp => no_overdue cf now0 Hp ev l). Qed.
Print Assumptions C31_none_overdue_partial.
Definition timing_out : list (env * event) :=
  connected connack_bytes ++ [(at_ 1010, ESubmit (pub 1 7) 3)] ++ serve 1011 ++ [(at_ 3000001011, EService)].
Example C31_example : let s := client_history cf1 1 timing_out in c_crash s = None /\
  in_short s = [B_ATTEMPT; B_SENT 0 0; B_DONE 0 K_SUCCESS; B_RECEIVED 2; B_SUCCESS; B_SUBMIT 1; B_SENT 1 1; B_DONE 1 K_TIMEOUT].
Proof. vm_compute. repeat split. Qed.

Example C31_none_overdue_example : let l := firstn (length timing_out - 1) timing_out in let s := client_history cf2 1 l in
  let s' := client_history cf2 1 (l ++ [(at_ 3000001011, EService)]) in
  c_crash s' = None /\ enabled (at_ 3000001011) EService s = true /\ phase_of (c_out s) = LS_CONNECTED /\ phase_of (c_out s') = LS_CONNECTED /\
  map op_uid (finished (c_out s)) = [0] /\ map op_uid (finished (c_out s')) = [1; 0].
Proof. vm_compute. repeat split. Qed.

(** ** C34: handles for acknowledging messages oneself are not 0; a message with the packet id of one still to be acknowledged has its
    handle, any other a handle never given out before *)
Theorem C34_handles : forall cf now0 l later v c earlier,
  c_crash (client_history cf now0 l) = None ->
  c_out (client_history cf now0 l) = later ++ O_PUBLISH v (Some c) :: earlier -> acks_fit (O_PUBLISH v (Some c) :: earlier) ->
  pb_qos v <> 0 /\ c <> 0 /\
  (handle_of c earlier = UNKNOWN /\ (forall c', ~ In (c', pb_packet_id v) (taken (acks_of earlier))) \/
   handle_of c earlier = OPEN (pb_packet_id v) /\ In (c, pb_packet_id v) (taken (acks_of earlier))) /\
  (forall c' id, In (c', id) (taken (acks_of earlier)) -> (c' = c <-> id = pb_packet_id v)).
Proof. exact (fun cf now0 l x v c y Ok => handle_given cf now0 _ _ x v c y (history_reach cf now0 l) Ok). Qed.
Print Assumptions C34_handles.
(** using a handle which is not open is INVALID; using one of an earlier connection is CANCELLED ... *)
Theorem C34_unusable : forall cf now0 l later c earlier,
  c_crash (client_history cf now0 l) = None ->
  c_out (client_history cf now0 l) = later ++ I_ACK c :: earlier -> acks_fit earlier ->
  match handle_of c earlier with
  | OPEN id => ~ In (c, id) (taken (acks_of earlier)) -> exists later', later = later' ++ [O_ACK_RESULT c MPAR_CANCELLED]
  | _ => exists later', later = later' ++ [O_ACK_RESULT c MPAR_INVALID]
  end.
Proof. exact (fun cf now0 l x c y Ok => handle_used cf now0 _ _ x c y (history_reach cf now0 l) Ok). Qed.
Print Assumptions C34_unusable.
(** ... and these are the only reasons: a handle taken on a connection which is still up is accepted (and then C29_exactly says
    that exactly one PUBACK with its packet id is waiting to be sent) *)
Theorem C34_usable : forall cf now0 l later c r earlier,
  c_crash (client_history cf now0 l) = None ->
  c_out (client_history cf now0 l) = later ++ O_ACK_RESULT c r :: earlier -> acks_fit earlier ->
  exists earlier', earlier = I_ACK c :: earlier' /\
    match handle_of c earlier' with
    | OPEN id => r = MPAR_CANCELLED /\ ~ (phase_of earlier' = LS_CONNECTED /\ In (c, id) (taken (acks_of earlier')))
    | _ => r = MPAR_INVALID
    end.
Proof. exact (fun cf now0 l x c r y Ok => handle_answer cf now0 _ _ x c r y (history_reach cf now0 l) Ok). Qed.
Print Assumptions C34_usable.
(** messages 9 and 4 arrive, 9 again; 4's handle is used, twice; the connection is lost; 9's handle is used, twice *)
Definition by_hand : list (env * event) :=
  connected connack_bytes ++ [(manual_at 1012, ERead (publish_bytes 9 ++ publish_bytes 4 ++ publish_bytes 9)); (at_ 1013, EAck 2)] ++ serve 1013 ++
  [(at_ 1014, EAck 2); (at_ 1015, EShutdown (Some 5)); (at_ 1016, EAck 1); (at_ 1016, EAck 1)].
Example C34_example : let s := client_history cf1 1 by_hand in c_crash s = None /\
  skipn 5 (in_short s) = [B_RECEIVED 3; B_PUBLISH 9 (Some 1); B_RECEIVED 3; B_PUBLISH 4 (Some 2); B_RECEIVED 3; B_PUBLISH 9 (Some 1);
    B_SENT 1 0; B_DONE 1 K_SUCCESS; B_RESULT 2 MPAR_INVALID; B_DISCONNECTION (K_ENV 5); B_RESULT 1 MPAR_CANCELLED; B_RESULT 1 MPAR_INVALID] /\
  taken (acks_of (c_out (client_history cf1 1 (firstn 7 by_hand)))) = [(2, 4); (1, 9)] /\ map (fun c => handle_of c (c_out s)) [0; 1; 2] = [UNKNOWN; SPENT; SPENT].
Proof. vm_compute. repeat split. Qed.
Example C34_fits : acks_fit (c_out (client_history cf1 1 by_hand)).
Proof. apply fits_ok. vm_compute. reflexivity. Qed.

(** ** C36: when a connection is announced, its settings are those agreed on in CONNECT and CONNACK, and publishes keep to them *)
Theorem C36_settings_agreed : forall cf now0 l later n v earlier,
  c_crash (client_history cf now0 l) = None ->
  c_out (client_history cf now0 l) = later ++ O_LIFE (CONNECTION_SUCCESS n v) :: earlier ->
  received_here (P_CONNACK v) earlier /\ ca_reason_code v < 128 /\ settled_on cf v n.
Proof. exact (fun cf now0 l x n v y Ok => success_settled cf now0 _ _ x n v y (history_reach cf now0 l) Ok). Qed.
Print Assumptions C36_settings_agreed.
Theorem C36_limits_kept : forall cf now0 l later o earlier n,
  c_crash (client_history cf now0 l) = None ->
  c_out (client_history cf now0 l) = later ++ O_SENT o :: earlier -> settings_of earlier = Some n -> allowed n (op_packet o).
Proof. exact (fun cf now0 l x o y n Ok => sent_allowed cf now0 _ _ x o y n (history_reach cf now0 l) Ok). Qed.
Print Assumptions C36_limits_kept.
(** the retained publish is not sent to a server without retained messages *)
Example C36_example : let s := client_history cf1 1 (firstn 10 flooding ++ [(at_ 1013, EService)]) in c_crash s = None /\
  in_short s = [B_ATTEMPT; B_SENT 0 0; B_DONE 0 K_SUCCESS; B_RECEIVED 2; B_SUCCESS; B_SUBMIT 1; B_SENT 1 1; B_SUBMIT 2; B_DONE 2 K_VALIDATION] /\
  option_map (fun n => (ng_receive_maximum n, ng_retain n, ng_keep_alive n)) (settings_of (c_out s)) = Some (1, false, 1200).
Proof. vm_compute. repeat split. Qed.

(** ** C43: an assertion of the client fails only if the server sends DISCONNECT after the attempt was announced and before the
    connection is, or if a publish comes up after at least the receive maximum were sent *)
Theorem C43_assertions : forall cf now0 l r, let T := c_out (client_history cf now0 l) in
  c_crash (client_history cf now0 l) = Some r ->
  (r = CR_LIFECYCLE /\ exists later v earlier, T = later ++ I_PACKET (P_DISCONNECT v) :: earlier /\ phase_of earlier = LS_CONNECTING) \/
  (r = CR_RECEIVE_MAXIMUM /\ exists later earlier n, T = later ++ earlier /\ settings_of earlier = Some n /\
     ng_receive_maximum n <= count_here publish_sent earlier).
Proof. exact (fun cf now0 l r => crash_why cf now0 _ _ r (history_reach cf now0 l)). Qed.
Print Assumptions C43_assertions.
Example C43_example : c_crash (client_history cf1 1 hostile) = Some CR_LIFECYCLE /\ c_crash (client_history cf1 1 flooding) = Some CR_RECEIVE_MAXIMUM.
Proof. vm_compute. repeat split. Qed.

(** ** C45: no API use and no server makes the client fail an assertion (false) *)
Theorem C45_hostile_server_refuted : exists cf now0 l, c_crash (client_history cf now0 l) = Some CR_LIFECYCLE /\
  forall ev p o, ~ In (ev, ESubmit p o) l.
Proof. exists cf1, 1, hostile. split; [vm_compute; reflexivity|]. intros ev p o. cbn. intuition discriminate. Qed.
Print Assumptions C45_hostile_server_refuted.
Theorem C45_flow_control_refuted : exists cf now0 l, c_crash (client_history cf now0 l) = Some CR_RECEIVE_MAXIMUM.
Proof. exists cf1, 1, flooding. vm_compute. reflexivity. Qed.
Print Assumptions C45_flow_control_refuted.
