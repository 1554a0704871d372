(** Concrete histories of the 3.1.1 client *)
From Verif Require Import Base Client311_Model Client311_Spec.

Definition a_publish (qos : N) (c : N) : kind := K_PUBLISH qos false [97] [c].
(** connecting, without or with a clean session *)
Definition connecting (clean : bool) : list event := [EvConnect clean 0 0 0 true; EvSetup (OPENED true true) false; EvPacket (CONNACK false 0) true].
(** a publish, a subscribe and a QoS 0 publish are made, sent and answered; the connection is closed and released *)
Definition a_life : list event :=
  connecting true ++ [EvRequest (a_publish 1 1) 0; EvRequest (K_SUBSCRIBE [([97], 1)]) 0; EvRun true true; EvRun true true; EvRequest (a_publish 0 2) 0; EvRun true true; EvPacket (PUBACK 1) true; EvPacket (SUBACK 2 [1]) true;
                      EvDisconnect; EvBye; EvDown true true false; EvRelease].
(** without a clean session: the channel shuts down while one publish is unanswered and another one not sent yet; the client connects again *)
Definition a_loss : list event := connecting false ++ [EvRequest (a_publish 1 1) 0; EvRun true true; EvRequest (a_publish 1 2) 0; EvClose E_HANGUP; EvDown false true false].
Definition again : list event := [EvTick 1000000000; EvReconnect true; EvSetup (OPENED true true) false; EvPacket (CONNACK true 0) true].
(** the same, but with a clean session *)
Definition a_clean_loss : list event := connecting true ++ [EvRequest (a_publish 1 1) 0; EvRun true true; EvRequest (a_publish 1 2) 0; EvClose E_HANGUP; EvDown false true false].
(** a publish is not answered; its time is up *)
Definition a_wait (ok : bool) : list event := connecting true ++ [EvRequest (a_publish 1 1) 5000; EvRun true ok; EvTick 5000].
(** a publish is answered by an UNSUBACK *)
Definition a_wrong_answer : list event := connecting true ++ [EvRequest (a_publish 1 1) 0; EvRun true true; EvPacket (UNSUBACK 1) true].
(** the CONNECT packet is not taken by the channel *)
Definition no_connect : list event := [EvConnect true 0 0 0 true; EvSetup (OPENED true false) false; EvDown false true false].
Definition is_complete (x : out) : bool := match x with O_CONNECTION_COMPLETE _ _ _ => true | _ => false end.
(** what happens in them *)
Definition o_life : list out := Eval vm_compute in m_out (history a_life).
Lemma life_out : m_out (history a_life) = o_life. Proof. vm_compute. reflexivity. Qed.
Lemma life_calm : m_crash (history a_life) = false. Proof. vm_compute. reflexivity. Qed.
Definition o_loss : list out := Eval vm_compute in m_out (history a_loss).
Lemma loss_out : m_out (history a_loss) = o_loss. Proof. vm_compute. reflexivity. Qed.
Lemma loss_calm : m_crash (history a_loss) = false. Proof. vm_compute. reflexivity. Qed.
Definition o_loss_again : list out := Eval vm_compute in m_out (history (a_loss ++ again)).
Lemma loss_again_out : m_out (history (a_loss ++ again)) = o_loss_again. Proof. vm_compute. reflexivity. Qed.
Lemma loss_again_calm : m_crash (history (a_loss ++ again)) = false. Proof. vm_compute. reflexivity. Qed.
Definition o_loss_sent_1 : list out := Eval vm_compute in m_out (history (a_loss ++ again ++ [EvRun true true])).
Lemma loss_sent_1_out : m_out (history (a_loss ++ again ++ [EvRun true true])) = o_loss_sent_1. Proof. vm_compute. reflexivity. Qed.
Lemma loss_sent_1_calm : m_crash (history (a_loss ++ again ++ [EvRun true true])) = false. Proof. vm_compute. reflexivity. Qed.
Definition o_loss_sent : list out := Eval vm_compute in m_out (history (a_loss ++ again ++ [EvRun true true; EvRun true true])).
Lemma loss_sent_out : m_out (history (a_loss ++ again ++ [EvRun true true; EvRun true true])) = o_loss_sent. Proof. vm_compute. reflexivity. Qed.
Lemma loss_sent_calm : m_crash (history (a_loss ++ again ++ [EvRun true true; EvRun true true])) = false. Proof. vm_compute. reflexivity. Qed.
Definition o_clean_loss : list out := Eval vm_compute in m_out (history a_clean_loss).
Lemma clean_loss_out : m_out (history a_clean_loss) = o_clean_loss. Proof. vm_compute. reflexivity. Qed.
Lemma clean_loss_calm : m_crash (history a_clean_loss) = false. Proof. vm_compute. reflexivity. Qed.
Definition o_wait : list out := Eval vm_compute in m_out (history (a_wait true)).
Lemma wait_out : m_out (history (a_wait true)) = o_wait. Proof. vm_compute. reflexivity. Qed.
Lemma wait_calm : m_crash (history (a_wait true)) = false. Proof. vm_compute. reflexivity. Qed.
Definition o_unanswered : list out := Eval vm_compute in m_out (history (a_wait false)).
Lemma unanswered_out : m_out (history (a_wait false)) = o_unanswered. Proof. vm_compute. reflexivity. Qed.
Lemma unanswered_calm : m_crash (history (a_wait false)) = false. Proof. vm_compute. reflexivity. Qed.
Definition o_wrong : list out := Eval vm_compute in m_out (history a_wrong_answer).
Lemma wrong_out : m_out (history a_wrong_answer) = o_wrong. Proof. vm_compute. reflexivity. Qed.
Lemma wrong_calm : m_crash (history a_wrong_answer) = false. Proof. vm_compute. reflexivity. Qed.
Definition o_no_connect : list out := Eval vm_compute in m_out (history no_connect).
Lemma no_connect_out : m_out (history no_connect) = o_no_connect. Proof. vm_compute. reflexivity. Qed.
Lemma no_connect_calm : m_crash (history no_connect) = false. Proof. vm_compute. reflexivity. Qed.
Definition o_connected : list out := Eval vm_compute in m_out (history (connecting true)).
Lemma connected_out : m_out (history (connecting true)) = o_connected. Proof. vm_compute. reflexivity. Qed.
Lemma connected_calm : m_crash (history (connecting true)) = false. Proof. vm_compute. reflexivity. Qed.
Lemma unanswered_later : m_out (history (a_wait false ++ [EvTimeout 0])) = o_unanswered. Proof. vm_compute. reflexivity. Qed.
Lemma unanswered_not_over : ~ over 0 o_unanswered.
Proof. unfold over, o_unanswered. cbn. intros [(id & e & K)|K]; repeat (destruct K as [K|K]; [discriminate|]); exact K. Qed.
Lemma loss_not_over : ~ over 0 o_loss_sent /\ ~ over 0 (tl o_loss_sent_1).
Proof. unfold over, o_loss_sent, o_loss_sent_1. cbn. split; intros [(id & e & K)|K]; repeat (destruct K as [K|K]; [discriminate|]); exact K. Qed.
