(** Concrete histories of the MQTT5 client for the examples and refutations in Client5_Properties.v. *)
From Verif Require Import Base Mqtt5_Views TopicAlias_Model Encoder5_Model Decoder5_Model RateLimiter_Model Validate5_Model Negotiated_Model
  Client5_State Client5_Model Client5_Spec.

(** client id "c", keep alive 1200 s, server resources default *)
Definition ex_connect : connect := mkconnect 1200 [99] None None false None None None None None None None None [] None None.
Definition ex_config (q : queue_behavior) (b : session_behavior) (alias : behavior) : config :=
  mkconfig ex_connect q b false 30000 20000 0 1000 120000 JITTER_NONE 30000 alias None.
(** the environment at a time: everything works, io messages hold 4096 bytes, no acknowledgement is taken over *)
Definition at_ (now : N) : env := mkenv now (Some 7) None None (Some 4096) true (fun _ => false) (fun _ => false).
(** the same, but every acknowledgement is taken over by the user *)
Definition manual_at (now : N) : env := mkenv now (Some 7) None None (Some 4096) true (fun _ => true) (fun _ => false).

(** packets: a publish on topic "a" with a payload of one byte; a subscription to "a"; CONNACKs (without properties; with a session;
    receive maximum 1; maximum QoS 0), PUBACK, SUBACK, PINGRESP, DISCONNECT *)
Definition pub (qos : N) (payload : N) : packet5 :=
  P_PUBLISH (mkpublish [payload] 0 qos false false [97] None None None None None [] None []).
Definition sub_a : packet5 := P_SUBSCRIBE (mksubscribe 0 [mksubscription [97] 1 false false 0] None []).
Definition connack_bytes : bytes := [32; 3; 0; 0; 0].
Definition connack_session : bytes := [32; 3; 1; 0; 0].
Definition connack_rm1 : bytes := [32; 6; 0; 0; 3; 33; 0; 1].
Definition puback_bytes (id : N) : bytes := [64; 2; id / 256; id mod 256].
Definition suback_bytes (id : N) : bytes := [144; 4; id / 256; id mod 256; 0; 1].
Definition disconnect_bytes : bytes := [224; 0].
Definition publish_bytes (id : N) : bytes := [50; 6; 0; 1; 97; id / 256; id mod 256; 0].

(** from start() to a working connection, at times t .. t + 5 *)
Definition connecting (t : N) : list (env * event) := [(at_ t, EStart); (at_ t, EService)].
Definition handshake (t : N) (ack : bytes) : list (env * event) :=
  [(at_ (t + 1), ESetup None); (at_ (t + 2), EService); (at_ (t + 3), EWritten None); (at_ (t + 4), ERead ack)].
Definition connected (ack : bytes) : list (env * event) := connecting 1000 ++ handshake 1000 ack.
(** servicing the queue once: one io message, and its write completion *)
Definition serve (t : N) : list (env * event) := [(at_ t, EService); (at_ t, EWritten None)].
Definition submit_at (t : N) (p : packet5) : env * event := (at_ t, ESubmit p 0).

(** a trace in short: which operation (by number) was submitted, sent (with its packet id), completed, lost; which lifecycle events *)
Inductive brief :=
| B_ATTEMPT | B_SUCCESS | B_FAILURE (e : code) | B_DISCONNECTION (e : code) | B_STOPPED
| B_SUBMIT (o : N) | B_SENT (o : N) (id : N) | B_DONE (o : N) (e : code) | B_LOST (o : N) | B_PUBLISH (id : N) (control : option N) | B_RESULT (control : N) (r : ack_result)
| B_RECEIVED (type : N) | B_TERMINATED.
Definition ptype (p : packet5) : N :=
  match p with P_CONNECT _ => 1 | P_CONNACK _ => 2 | P_PUBLISH _ => 3 | P_PUBACK _ => 4 | P_SUBSCRIBE _ => 8 | P_SUBACK _ => 9
  | P_UNSUBSCRIBE _ => 10 | P_UNSUBACK _ => 11 | P_PINGREQ => 12 | P_PINGRESP => 13 | P_DISCONNECT _ => 14 end.
Definition brief_of (x : out) : list brief :=
  match x with
  | O_LIFE ATTEMPTING_CONNECT => [B_ATTEMPT] | O_LIFE (CONNECTION_SUCCESS _ _) => [B_SUCCESS] | O_LIFE (CONNECTION_FAILURE e _) => [B_FAILURE e]
  | O_LIFE (DISCONNECTION e _) => [B_DISCONNECTION e] | O_LIFE STOPPED_EVENT => [B_STOPPED]
  | I_SUBMIT o => [B_SUBMIT (op_uid o)] | O_SENT o => [B_SENT (op_uid o) (id_of (op_packet o))] | O_DONE o e _ => [B_DONE (op_uid o) e] | O_LOST o => [B_LOST (op_uid o)]
  | O_PUBLISH v c => [B_PUBLISH (pb_packet_id v) c] | O_ACK_RESULT c r => [B_RESULT c r] | I_PACKET p => [B_RECEIVED (ptype p)] | O_TERMINATED => [B_TERMINATED]
  | _ => []
  end.
(** oldest first *)
Definition in_short (s : client) : list brief := flat_map brief_of (rev (c_out s)).

(** ** Ordinary life: connect, publish, subscribe, both acknowledged, a message received, stop *)
Definition cf1 : config := ex_config FAIL_QOS0_PUBLISH REJOIN_POST_SUCCESS BDisabled.
Definition ordinary : list (env * event) :=
  connected connack_bytes ++ [submit_at 1010 (pub 1 7); submit_at 1010 sub_a] ++ serve 1011 ++
  [(at_ 1012, ERead (puback_bytes 1 ++ suback_bytes 2 ++ publish_bytes 9))] ++ serve 1013 ++
  [submit_at 1013 (pub 0 8)] ++ serve 1013 ++ [submit_at 1013 (pub 1 9)] ++
  [(at_ 1014, EStop None); (at_ 1015, EService); (at_ 1016, EShutdown None)].
(** ** A publish with a topic alias beyond the server's maximum is dropped when it is to be sent *)
Definition pub_alias (alias : N) : packet5 :=
  P_PUBLISH (mkpublish [7] 0 1 false false [97] None None (Some alias) None None [] None []).
Definition cf_manual_alias : config := ex_config FAIL_QOS0_PUBLISH REJOIN_POST_SUCCESS BManual.
Definition dropping : list (env * event) :=
  connected connack_bytes ++ [submit_at 1010 (pub_alias 5); (at_ 1011, EService); (at_ 1012, EShutdown None);
    (at_ 1013, EStop None); (at_ 1014, EService)].
(** ** The receive maximum is 1 and one publish is out; a retained publish, which the server does not support, hides the next one *)
Definition connack_rm1_qos0 : bytes := [32; 8; 0; 0; 5; 33; 0; 1; 37; 0].
Definition pub_retain : packet5 := P_PUBLISH (mkpublish [7] 0 0 false true [97] None None None None None [] None []).
Definition flooding : list (env * event) :=
  connected connack_rm1_qos0 ++ [submit_at 1010 (pub 1 7)] ++ serve 1011 ++ [submit_at 1012 pub_retain; submit_at 1012 (pub 1 8); (at_ 1013, EService)].
(** ** A server that answers CONNECT with PINGRESP and then DISCONNECT *)
Definition hostile : list (env * event) :=
  connecting 1000 ++ [(at_ 1001, ESetup None); (at_ 1002, EService); (at_ 1003, EWritten None); (at_ 1004, ERead ([208; 0] ++ disconnect_bytes))].
(** ** stop() with a DISCONNECT packet while the connection is being established, then start() again *)
Definition ex_disconnect : disconnect := mkdisconnect 0 None None [] None.
Definition late : list (env * event) :=
  connecting 1000 ++ [(at_ 1001, EStop (Some ex_disconnect)); (at_ 1001, EStart)] ++ handshake 1001 connack_bytes.
(** ** Three requests sent, one waiting, when the connection closes; the session is resumed *)
Definition resuming : list (env * event) :=
  connected connack_bytes ++ [submit_at 1010 sub_a; submit_at 1010 (pub 1 7); submit_at 1010 (pub 1 8)] ++ serve 1011 ++
  [submit_at 1012 (pub 1 9); (at_ 1013, EShutdown (Some 5)); (at_ 2000000000, EService)] ++ handshake 3000000000 connack_session ++ serve 3000001000.
(** ** Requests before start() *)
Definition offline : list (env * event) := [submit_at 10 sub_a; submit_at 10 (pub 1 7); submit_at 11 (pub 0 8)] ++ connecting 1000.
(** whether a trace meets the assumptions of the statements about acknowledgements *)
Definition fits (l : list out) : bool :=
  forallb (fun x => match x with O_LIFE (CONNECTION_SUCCESS n _) => 4 <=? ng_maximum_packet_size n | _ => true end) l && (N.of_nat (length l) <? two64 - 1).
Lemma fits_ok l : fits l = true -> acks_fit l.
Proof.
  unfold fits. rewrite andb_true_iff, forallb_forall, N.ltb_lt. intros [H1 H2]. split; [|exact H2]. intros n v H. specialize (H1 _ H). apply N.leb_le. exact H1.
Qed.
(** ** stop() with a DISCONNECT packet on a connection, and a message that arrives before it is sent *)
Definition blocked : list (env * event) :=
  connected connack_bytes ++ [(at_ 1010, EStop (Some ex_disconnect)); (at_ 1011, ERead (publish_bytes 9)); (at_ 1012, EService); (at_ 1013, EService)].
