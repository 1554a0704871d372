(** Property C48: which session the MQTT 5 client asks the server for. The vocabulary is in Client5_Session_Spec.v. *)
From Verif Require Import Base Mqtt5_Views Negotiated_Model TopicAlias_Model Encoder5_Model RateLimiter_Model Client5_State Client5_Model Client5_Spec Client5_Session_Spec
  Client5_Events Client5_Session Client5_Examples.

(** ** C48: every CONNECT packet sent is the configured one, except that it asks for a new session exactly when the configuration and the
    events the user was told about before the attempt say so, and that an empty client id is replaced by the one the server assigned *)
Theorem C48_connect : forall cf now0 l later o earlier v,
  c_crash (client_history cf now0 l) = None ->
  c_out (client_history cf now0 l) = later ++ O_SENT o :: earlier -> op_packet o = P_CONNECT v -> asks cf (before_attempt earlier) v.
Proof. exact (fun cf now0 l x o y v Ok => connect_sent cf now0 _ _ x o y v (history_reach cf now0 l) Ok). Qed.
Print Assumptions C48_connect.
(** ... and no connection is announced whose session the client has not asked for *)
Theorem C48_session : forall cf now0 l later n v earlier,
  c_crash (client_history cf now0 l) = None ->
  c_out (client_history cf now0 l) = later ++ O_LIFE (CONNECTION_SUCCESS n v) :: earlier -> ca_session_present v = true ->
  resumes cf (before_attempt earlier) = true.
Proof. exact (fun cf now0 l x n v y Ok => success_session cf now0 _ _ x n v y (history_reach cf now0 l) Ok). Qed.
Print Assumptions C48_session.

(** connected, reconnected, stopped, and started again: the second attempt resumes the session, the first and the third do not; a server
    which has a session nevertheless is not believed *)
Definition again : list (env * event) :=
  resuming ++ [(at_ 3000002000, EStop None); (at_ 3000002001, EService); (at_ 3000002002, EShutdown None); (at_ 3000002003, EService)] ++
  connecting 4000000000 ++ handshake 4000000000 connack_session.
Definition cleans (l : list out) : list bool :=
  flat_map (fun x => match x with O_SENT o => match op_packet o with P_CONNECT v => [cn_clean_start v] | _ => [] end | _ => [] end) l.
Definition announced (l : list out) : list bool :=
  flat_map (fun x => match x with O_LIFE (CONNECTION_SUCCESS _ v) => [ca_session_present v] | _ => [] end) l.
Example C48_example : let s := client_history cf1 1 again in c_crash s = None /\ cleans (c_out s) = [true; false; true] /\
  announced (c_out s) = [true; false] /\ current s = CHANNEL_SHUTDOWN.
Proof. vm_compute. repeat split. Qed.
(** the client id is empty and the server assigns "zz", which is used from then on *)
Definition cf_no_id : config :=
  mkconfig (mkconnect 1200 [] None None false None None None None None None None None [] None None) FAIL_QOS0_PUBLISH REJOIN_ALWAYS false 30000 20000 0 1000 120000 JITTER_NONE 30000 BDisabled (Some 9).
Definition connack_id : bytes := [32; 8; 0; 0; 5; 18; 0; 2; 122; 122].
Definition assigned : list (env * event) :=
  connected connack_id ++ [(at_ 1013, EShutdown (Some 5)); (at_ 2000000000, EService)] ++ handshake 3000000000 connack_session.
Definition ids_sent (l : list out) : list (bool * bytes * option N) :=
  flat_map (fun x => match x with O_SENT o => match op_packet o with P_CONNECT v => [(cn_clean_start v, cn_client_id v, cn_topic_alias_maximum v)] | _ => [] end | _ => [] end) l.
Example C48_ids : let s := client_history cf_no_id 1 assigned in c_crash s = None /\
  ids_sent (c_out s) = [(false, [122; 122], Some 9); (false, [], Some 9)] /\ announced (c_out s) = [true; false].
Proof. vm_compute. repeat split. Qed.
