(** Vocabulary for the properties of the MQTT 5 client which speak of sessions: what it asks the server for when it connects. Traces are
    newest first. *)
From Verif Require Import Base Mqtt5_Views Negotiated_Model Client5_State Client5_Model Client5_Spec.

(** the user was told of a connection, and not since then that the client has stopped *)
Fixpoint connected_before (l : list out) : bool :=
  match l with
  | [] => false
  | O_LIFE (CONNECTION_SUCCESS _ _) :: _ => true
  | O_LIFE STOPPED_EVENT :: _ => false
  | _ :: l => connected_before l
  end.
(** whether the next connection is to resume the session the server may have *)
Definition resumes (cf : config) (l : list out) : bool :=
  match cf_session cf with SESSION_CLEAN => false | REJOIN_POST_SUCCESS => connected_before l | REJOIN_ALWAYS => true end.
(** what had happened when the latest attempt to connect was announced *)
Fixpoint before_attempt (l : list out) : list out :=
  match l with [] => [] | O_LIFE ATTEMPTING_CONNECT :: l => l | _ :: l => before_attempt l end.
(** the client id to use after [l]: the configured one; if that is empty, none or one that a server has assigned, always the same once a
    connection with it was announced *)
Definition id_known (cf : config) (l : list out) (id : bytes) : Prop :=
  (cn_client_id (cf_connect cf) <> [] -> id = cn_client_id (cf_connect cf)) /\
  (id = cn_client_id (cf_connect cf) \/ exists v, In (I_PACKET (P_CONNACK v)) l /\ ca_assigned_client_id v = Some id) /\
  (forall n v, In (O_LIFE (CONNECTION_SUCCESS n v)) l -> ng_client_id n <> [] -> id = ng_client_id n).
(** the CONNECT packet of an attempt made after [l] *)
Definition asks (cf : config) (l : list out) (v : connect) : Prop :=
  let c := cf_connect cf in
  cn_clean_start v = negb (resumes cf l) /\ id_known cf l (cn_client_id v) /\
  cn_topic_alias_maximum v = match cf_alias_in cf with Some n => Some n | None => cn_topic_alias_maximum c end /\
  cn_keep_alive v = cn_keep_alive c /\ cn_username v = cn_username c /\ cn_password v = cn_password c /\
  cn_session_expiry v = cn_session_expiry c /\ cn_request_response_info v = cn_request_response_info c /\
  cn_request_problem_info v = cn_request_problem_info c /\ cn_receive_maximum v = cn_receive_maximum c /\
  cn_maximum_packet_size v = cn_maximum_packet_size c /\ cn_will_delay v = cn_will_delay c /\ cn_will v = cn_will c /\
  cn_user_properties v = cn_user_properties c /\ cn_auth_method v = cn_auth_method c /\ cn_auth_data v = cn_auth_data c.
