(** What happens when packets about messages come in; concrete histories *)
From Verif Require Import Base TopicTree_Spec Client311_Model Client311_States Client311_Spec Client311_Requests Client311_Steps Client311_Phases Client311_Tree Client311_Claims Client311_Examples.

Lemma taken evs ev : m_out (history (evs ++ [ev])) <> m_out (history evs) -> history (evs ++ [ev]) = handle ev (history evs).
Proof. rewrite history_snoc. unfold step. destruct (_ || _); [congruence|]. destruct (enabled _ _); [reflexivity|congruence]. Qed.
Lemma answer_out p wr s : exists more, m_out (answer p wr s) = more ++ O_WRITE p wr :: m_out s /\ (forall x, In x more -> exists e, x = I_SHUTDOWN e).
Proof.
  unfold answer, close. cbv zeta. destruct wr; [exists []; split; [reflexivity|intros x []]|]. cbn [m_closing emit set_out]. destruct (m_closing s); [exists []; split; [reflexivity|intros x []]|]. exists [I_SHUTDOWN (E_OTHER 0)]. split; [reflexivity|]. intros x [<-|[]]. eauto.
Qed.
Lemma history_TT evs : TT (history evs). Proof. assert (H := history_TI evs). split; [apply H|split; apply H]. Qed.
Lemma not_connecting evs x : phase (m_out (history evs)) <> CONNECTING -> in_state CONNECTING (emit x (history evs)) = false.
Proof. intro P. apply in_state_false. cbn [m_state emit set_out]. rewrite (ph_state _ (history_PH evs)). exact P. Qed.
Lemma publish_taken evs id qos dup retain topic payload wr l : l = m_out (history evs) -> m_out (history (evs ++ [EvPacket (PUBLISH id qos dup retain topic payload) wr])) <> l -> phase l <> CONNECTING ->
  exists ds answer, m_out (history (evs ++ [EvPacket (PUBLISH id qos dup retain topic payload) wr])) = answer ++ O_ANY_PUBLISH topic payload dup qos retain :: ds ++ I_PACKET (PUBLISH id qos dup retain topic payload) :: l
    /\ NoDup ds /\ (forall x, In x ds <-> exists f, x = O_DELIVER f topic payload /\ subscribed f l /\ tree_matches f topic)
    /\ (if (qos =? 0) || (id =? 0) then answer = [] else exists more, answer = more ++ [O_WRITE (if qos =? 1 then PUBACK id else PUBREC id) wr] /\ forall x, In x more -> exists e, x = I_SHUTDOWN e).
Proof.
  intros -> N P. rewrite (taken _ _ N). cbn [handle on_packet]. rewrite (not_connecting evs _ P). set (s := history evs). set (s1 := emit _ s). assert (T1 : TT s1) by exact (TT_tame s s1 (tame_emit (I_PACKET (PUBLISH id qos dup retain topic payload)) s I) (history_TT evs)).
  destruct (on_publish_shape id qos dup retain topic payload wr s1) as (s2 & A & _ & _ & _ & ->). assert (E1 : m_out s1 = I_PACKET (PUBLISH id qos dup retain topic payload) :: m_out s) by reflexivity. clearbody s1. exists (rev (map (deliver topic payload) (matching topic (filters s1)))).
  assert (G : forall answer l', l' = answer ++ m_out s2 -> (if (qos =? 0) || (id =? 0) then answer = [] else exists more, answer = more ++ [O_WRITE (if qos =? 1 then PUBACK id else PUBREC id) wr] /\ forall x, In x more -> exists e, x = I_SHUTDOWN e) ->
    l' = answer ++ O_ANY_PUBLISH topic payload dup qos retain :: rev (map (deliver topic payload) (matching topic (filters s1))) ++ I_PACKET (PUBLISH id qos dup retain topic payload) :: m_out s
    /\ NoDup (rev (map (deliver topic payload) (matching topic (filters s1)))) /\ (forall x, In x (rev (map (deliver topic payload) (matching topic (filters s1)))) <-> exists f, x = O_DELIVER f topic payload /\ subscribed f (m_out s) /\ tree_matches f topic)
    /\ (if (qos =? 0) || (id =? 0) then answer = [] else exists more, answer = more ++ [O_WRITE (if qos =? 1 then PUBACK id else PUBREC id) wr] /\ forall x, In x more -> exists e, x = I_SHUTDOWN e)).
  { intros answer l' -> Q. split; [rewrite A, E1; reflexivity|]. split; [|split; [|exact Q]].
    - apply NoDup_rev. apply FinFun.Injective_map_NoDup; [intros f g K; injection K; auto|]. apply NoDup_filter, T1.
    - intro x. rewrite <- in_rev, in_map_iff. split.
      + intros (f & <- & K). exists f. split; [reflexivity|]. apply (matching_spec s1 topic f T1) in K. rewrite E1 in K. exact K.
      + intros (f & -> & K). exists f. split; [reflexivity|]. apply (matching_spec s1 topic f T1). rewrite E1. exact K. }
  destruct ((qos =? 0) || (id =? 0)) eqn:Q; [exists []; apply G; reflexivity|]. destruct (answer_out (if qos =? 1 then PUBACK id else PUBREC id) wr s2) as (more & M1 & M2). exists (more ++ [O_WRITE (if qos =? 1 then PUBACK id else PUBREC id) wr]). apply G; [rewrite M1, <- app_assoc; reflexivity|]. eauto.
Qed.
Lemma handshake evs id wr l p q : (p, q) = (PUBREC id, PUBREL id) \/ (p, q) = (PUBREL id, PUBCOMP id) -> l = m_out (history evs) -> m_out (history (evs ++ [EvPacket p wr])) <> l -> phase l <> CONNECTING ->
  exists more, m_out (history (evs ++ [EvPacket p wr])) = more ++ O_WRITE q wr :: I_PACKET p :: l /\ forall x, In x more -> exists e, x = I_SHUTDOWN e.
Proof.
  intros D -> N P. rewrite (taken _ _ N). destruct D as [D|D]; injection D as -> ->; cbn [handle on_packet]; rewrite (not_connecting evs _ P); apply (answer_out _ wr (emit _ (history evs))).
Qed.

(** ** Concrete histories *)
Definition a_subscribe : list event := connecting false ++ [EvRequest (K_SUBSCRIBE [([97], 2); ([43], 0); ([98], 1)]) 0; EvRun true true; EvPacket (SUBACK 1 [2; 0; 1]) true].
(** a QoS 2 message comes in twice *)
Definition twice : list event := [EvPacket (PUBLISH 7 2 false false [97] [1]) true; EvPacket (PUBLISH 7 2 true false [97] [1]) true].
(** a QoS 2 publish is received by the server; the connection is lost; the client connects again *)
Definition a_received : list event := connecting false ++ [EvRequest (a_publish 2 1) 0; EvRun true true; EvPacket (PUBREC 1) true; EvClose E_HANGUP; EvDown false true false] ++ again ++ [EvRun true true].
(** a shared subscription "$share/g/a", and a resubscribe *)
Definition shared_a : bytes := [36; 115; 104; 97; 114; 101; 47; 103; 47; 97].
Definition a_share : list event := connecting false ++ [EvRequest (K_SUBSCRIBE [(shared_a, 1)]) 0; EvRun true true; EvPacket (SUBACK 1 [1]) true; EvRequest K_RESUBSCRIBE 0; EvRun true true].
Definition o_subscribe : list out := Eval vm_compute in m_out (history a_subscribe).
Lemma subscribe_out : m_out (history a_subscribe) = o_subscribe. Proof. vm_compute. reflexivity. Qed.
Definition o_once : list out := Eval vm_compute in m_out (history (a_subscribe ++ [EvPacket (PUBLISH 7 2 false false [97] [1]) true])).
Lemma once_out : m_out (history (a_subscribe ++ [EvPacket (PUBLISH 7 2 false false [97] [1]) true])) = o_once. Proof. vm_compute. reflexivity. Qed.
Definition o_twice : list out := Eval vm_compute in m_out (history (a_subscribe ++ twice)).
Lemma twice_out : m_out (history (a_subscribe ++ twice)) = o_twice. Proof. vm_compute. reflexivity. Qed.
Definition o_received : list out := Eval vm_compute in m_out (history a_received).
Lemma received_out : m_out (history a_received) = o_received. Proof. vm_compute. reflexivity. Qed.
Definition o_share : list out := Eval vm_compute in m_out (history a_share).
Lemma share_out : m_out (history a_share) = o_share. Proof. vm_compute. reflexivity. Qed.
Definition a_resubscribe : list event := a_subscribe ++ [EvRequest K_RESUBSCRIBE 0; EvRun true true].
Definition o_resubscribe : list out := Eval vm_compute in m_out (history a_resubscribe).
Lemma resubscribe_out : m_out (history a_resubscribe) = o_resubscribe. Proof. vm_compute. reflexivity. Qed.
Lemma subscribe_plus : subscribed [43] o_subscribe.
Proof.
  unfold o_subscribe. right. split; [intros (p & ok & K); cbn in K; repeat destruct K as [K|K]; try discriminate; destruct K|]. split; [exists 0; cbn; auto|]. exists [43], 0. split; [cbn; auto|]. right. split; [intros m K; discriminate|reflexivity].
Qed.
