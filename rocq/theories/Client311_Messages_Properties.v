(** The claims about messages at the 3.1.1 client. [m_out (history evs)] is all that happened in a history, the newest first; that a further event changes it says that the event can happen then *)
From Verif Require Import Base TopicTree_Spec Client311_Model Client311_States Client311_Spec Client311_Requests Client311_Phases Client311_Tree Client311_Claims Client311_Examples Client311_Messages.

(** ** C69: delivery *)
(** when a PUBLISH comes in, its message is delivered once for each filter which there is a subscription for and which matches, for no other, and to the handler for any message after that *)
Theorem C69_delivered_to_each evs id qos dup retain topic payload wr l l' : l = m_out (history evs) -> l' = m_out (history (evs ++ [EvPacket (PUBLISH id qos dup retain topic payload) wr])) -> l' <> l -> phase l <> CONNECTING ->
  exists answer ds, l' = answer ++ O_ANY_PUBLISH topic payload dup qos retain :: ds ++ I_PACKET (PUBLISH id qos dup retain topic payload) :: l
    /\ NoDup ds /\ (forall x, In x ds <-> exists f, x = O_DELIVER f topic payload /\ subscribed f l /\ tree_matches f topic) /\ (forall x, In x answer -> (exists p, x = O_WRITE p wr) \/ exists e, x = I_SHUTDOWN e).
Proof.
  intros E -> N P. destruct (publish_taken evs id qos dup retain topic payload wr l E N P) as (ds & answer & A & B & C & D). exists answer, ds. repeat split; try apply C; try assumption.
  intros x I. destruct (_ || _); [subst; destruct I|]. destruct D as (more & -> & D). apply in_app_or in I. destruct I as [I|[<-|[]]]; eauto.
Qed.
Print Assumptions C69_delivered_to_each.
Example C69_delivered_to_each_case : o_once <> o_subscribe /\ phase o_subscribe <> CONNECTING /\ subscribed [43] o_subscribe /\ exists answer, o_once = answer ++ [O_ANY_PUBLISH [97] [1] false 2 false; O_DELIVER [43] [97] [1]; O_DELIVER [97] [97] [1]; I_PACKET (PUBLISH 7 2 false false [97] [1])] ++ o_subscribe.
Proof. split; [discriminate|]. split; [discriminate|]. split; [exact subscribe_plus|]. exists [O_WRITE (PUBREC 7) true]. reflexivity. Qed.
(** nothing is delivered at any other time *)
Theorem C69_delivered_only_then evs newer f topic payload older : m_out (history evs) = newer ++ O_DELIVER f topic payload :: older ->
  exists ds id qos dup retain m, older = ds ++ I_PACKET (PUBLISH id qos dup retain topic payload) :: m /\ (forall y, In y ds -> exists g, g <> f /\ y = O_DELIVER g topic payload) /\ subscribed f m /\ tree_matches f topic.
Proof. intro E. exact (each_at rightly _ newer _ older (t_right _ (history_TI evs)) E). Qed.
Print Assumptions C69_delivered_only_then.
Theorem C69_any_only_then evs newer topic payload dup qos retain older : m_out (history evs) = newer ++ O_ANY_PUBLISH topic payload dup qos retain :: older ->
  exists ds id m, older = ds ++ I_PACKET (PUBLISH id qos dup retain topic payload) :: m /\ (forall y, In y ds -> exists g, y = O_DELIVER g topic payload) /\ (forall f, subscribed f m -> tree_matches f topic -> In (O_DELIVER f topic payload) ds).
Proof. intro E. exact (each_at rightly _ newer _ older (t_right _ (history_TI evs)) E). Qed.
Print Assumptions C69_any_only_then.

(** ** C70: acknowledgements *)
(** a PUBLISH with QoS 1 is answered by PUBACK, one with QoS 2 by PUBREC, one with QoS 0 not at all, after the message has been delivered. If the answer cannot be sent, the connection is closed *)
Theorem C70_publish_answered evs id qos dup retain topic payload wr l l' : l = m_out (history evs) -> l' = m_out (history (evs ++ [EvPacket (PUBLISH id qos dup retain topic payload) wr])) -> l' <> l -> phase l <> CONNECTING -> id <> 0 ->
  exists answer ds, l' = answer ++ O_ANY_PUBLISH topic payload dup qos retain :: ds ++ I_PACKET (PUBLISH id qos dup retain topic payload) :: l
    /\ (forall x, In x ds -> exists f, x = O_DELIVER f topic payload) /\ (qos = 0 -> answer = [])
    /\ (qos = 1 -> exists more, answer = more ++ [O_WRITE (PUBACK id) wr] /\ forall x, In x more -> exists e, x = I_SHUTDOWN e)
    /\ (qos = 2 -> exists more, answer = more ++ [O_WRITE (PUBREC id) wr] /\ forall x, In x more -> exists e, x = I_SHUTDOWN e).
Proof.
  intros E -> N P Z. destruct (publish_taken evs id qos dup retain topic payload wr l E N P) as (ds & answer & A & _ & C & D). exists answer, ds. split; [exact A|]. split; [intros x I; apply C in I; destruct I as (f & I & _); eauto|].
  apply N.eqb_neq in Z. rewrite Z in D. repeat split; intros ->; exact D.
Qed.
Print Assumptions C70_publish_answered.
(** PUBREC is answered by PUBREL, PUBREL by PUBCOMP *)
Theorem C70_pubrec_answered evs id wr l l' : l = m_out (history evs) -> l' = m_out (history (evs ++ [EvPacket (PUBREC id) wr])) -> l' <> l -> phase l <> CONNECTING ->
  exists more, l' = more ++ O_WRITE (PUBREL id) wr :: I_PACKET (PUBREC id) :: l /\ forall x, In x more -> exists e, x = I_SHUTDOWN e.
Proof. intros E -> N P. exact (handshake evs id wr l _ _ (or_introl eq_refl) E N P). Qed.
Print Assumptions C70_pubrec_answered.
Theorem C70_pubrel_answered evs id wr l l' : l = m_out (history evs) -> l' = m_out (history (evs ++ [EvPacket (PUBREL id) wr])) -> l' <> l -> phase l <> CONNECTING ->
  exists more, l' = more ++ O_WRITE (PUBCOMP id) wr :: I_PACKET (PUBREL id) :: l /\ forall x, In x more -> exists e, x = I_SHUTDOWN e.
Proof. intros E -> N P. exact (handshake evs id wr l _ _ (or_intror eq_refl) E N P). Qed.
Print Assumptions C70_pubrel_answered.
Example C70_answered_case : o_twice <> o_once /\ phase o_once <> CONNECTING /\ exists m, o_twice = O_WRITE (PUBREC 7) true :: m.
Proof. split; [discriminate|]. split; [discriminate|]. eexists. reflexivity. Qed.
(** no acknowledgement is sent at any other time *)
Theorem C70_answers_only evs newer p ok older : m_out (history evs) = newer ++ O_WRITE p ok :: older ->
  match p with
  | PUBACK id => exists topic payload dup retain ds m, older = O_ANY_PUBLISH topic payload dup 1 retain :: ds ++ I_PACKET (PUBLISH id 1 dup retain topic payload) :: m /\ (forall y, In y ds -> exists g, y = O_DELIVER g topic payload)
  | PUBREC id => exists topic payload dup qos retain ds m, 2 <= qos /\ older = O_ANY_PUBLISH topic payload dup qos retain :: ds ++ I_PACKET (PUBLISH id qos dup retain topic payload) :: m /\ (forall y, In y ds -> exists g, y = O_DELIVER g topic payload)
  | PUBREL id => exists m, older = I_PACKET (PUBREC id) :: m
  | PUBCOMP id => exists m, older = I_PACKET (PUBREL id) :: m
  | CONNECT _ _ | DISCONNECT => True
  | _ => False
  end.
Proof. intro E. exact (each_at rightly _ newer _ older (t_right _ (history_TI evs)) E). Qed.
Print Assumptions C70_answers_only.
(** the full claim would be that a QoS 2 message which the server sends again, because it did not get the PUBREC, is not delivered again; that is false *)
Theorem C70_exactly_once_refuted : ~ forall evs newer id retain topic payload between older, m_out (history evs) = newer ++ I_PACKET (PUBLISH id 2 true retain topic payload) :: between ++ I_PACKET (PUBLISH id 2 false retain topic payload) :: older ->
  ~ In (I_PACKET (PUBREL id)) between -> forall f, In (O_DELIVER f topic payload) between -> ~ In (O_DELIVER f topic payload) newer.
Proof.
  intro H. apply (H (a_subscribe ++ twice) (firstn 4 o_twice) 7 false [97] [1] (firstn 4 (skipn 5 o_twice)) (skipn 10 o_twice)) with (f := [97]); [rewrite twice_out; reflexivity| |cbn; auto|cbn; auto].
  cbn. intros [K|[K|[K|[K|[]]]]]; discriminate.
Qed.
Print Assumptions C70_exactly_once_refuted.
(** ... and that a QoS 2 message the client publishes is not published again once the server has it (PUBREC); that is false *)
Theorem C70_not_published_again_refuted : ~ forall evs newer u id dup retain topic payload ok between w older,
  m_out (history evs) = newer ++ O_SEND u (PUBLISH id 2 dup retain topic payload) ok :: between ++ I_MADE u id (K_PUBLISH 2 retain topic payload) w :: older -> ~ In (I_PACKET (PUBREC id)) between.
Proof.
  intro H. apply (H a_received [] 0 1 true false [97] [1] true (firstn 13 (skipn 1 o_received)) 0 (skipn 15 o_received)); [rewrite received_out; reflexivity|]. cbn. auto 20.
Qed.
Print Assumptions C70_not_published_again_refuted.

(** ** C71: resubscribing *)
(** when a resubscribe is sent first, its SUBSCRIBE has each filter which there is a subscription for, once, and no other. That the subscription is shared is lost *)
Theorem C71_resubscribes_to_all_partial evs newer u id topics ok older w : m_out (history evs) = newer ++ O_SEND u (SUBSCRIBE id topics) ok :: older -> In (I_MADE u id K_RESUBSCRIBE w) older -> ~ attempted u older ->
  NoDup (map fst topics) /\ forall f, In f (map fst topics) <-> subscribed f older.
Proof. intros E M A. exact (each_at rightly _ newer _ older (t_right _ (history_TI evs)) E (ex_intro _ w M) A). Qed.
Print Assumptions C71_resubscribes_to_all_partial.
Example C71_resubscribes_to_all_partial_case : m_out (history a_resubscribe) = O_SEND 1 (SUBSCRIBE 2 [([97], 2); ([43], 0); ([98], 1)]) true :: tl o_resubscribe /\ In (I_MADE 1 2 K_RESUBSCRIBE 0) (tl o_resubscribe) /\ ~ attempted 1 (tl o_resubscribe).
Proof. rewrite resubscribe_out. split; [reflexivity|]. split; [cbn; auto|]. intros (p & ok & K). cbn in K. repeat destruct K as [K|K]; try discriminate. destruct K. Qed.
(** the filters the user has subscribed to, as given *)
Fixpoint subscribed_as (g : bytes) (l : list out) : Prop :=
  match l with
  | [] => False
  | O_SEND u (SUBSCRIBE id topics) _ :: m => subscribed_as g m \/ ((exists w, In (I_MADE u id (K_SUBSCRIBE topics) w) m) /\ exists qos, In (g, qos) topics)
  | O_SEND u (UNSUBSCRIBE _ h) true :: m => subscribed_as g m /\ h <> g
  | _ :: m => subscribed_as g m
  end.
(** a subscription to "$share/g/a" becomes one to "a" *)
Theorem C71_resubscribes_to_all_refuted : ~ forall evs newer u id topics ok older w g, m_out (history evs) = newer ++ O_SEND u (SUBSCRIBE id topics) ok :: older -> In (I_MADE u id K_RESUBSCRIBE w) older -> ~ attempted u older ->
  subscribed_as g older -> In g (map fst topics).
Proof.
  intro H. specialize (H a_share [] 1 2 [([97], 1)] true (tl o_share) 0 shared_a). rewrite share_out in H. specialize (H eq_refl ltac:(cbn; auto)).
  destruct H as [K|[]]; [|cbn; right; split; [exists 0; auto|exists 1; auto]|discriminate].
  intros (p & ok & K). cbn in K. repeat destruct K as [K|K]; try discriminate. destruct K.
Qed.
Print Assumptions C71_resubscribes_to_all_refuted.
