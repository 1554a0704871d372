(** Model of the connection state of source/v5/mqtt5_to_mqtt3_adapter.c: a 3.1.1 connection that runs on an MQTT 5 client.
    Modelled: connect and disconnect, their tasks, and the handler of the client's lifecycle events. Simplifications: the event loop runs tasks in the order in which they were scheduled and does not cancel them; allocation does not fail and the options are valid;
    all callbacks are set (a missing one is not called, and nothing else depends on it but that nothing is stored); what connect changes in the configuration of the client is left out. The lifecycle events, and starts and stops of the client by others, are arbitrary.
    Operations, subscriptions and destruction are not modelled. *)
From Verif Require Import Base.

(** error codes: those of MQTT 5, and then those of 3.1.1 *)
Inductive code :=
| SUCCESS | RESET_FOR_CONNECT | ENCODE_FAILURE | DECODE_ERROR | CONNACK_REFUSED | CONNACK_TIMEOUT | PING_TIMEOUT | USER_STOP | CLIENT_TERMINATED | DISCONNECT_RECEIVED | OFFLINE_POLICY | UNSUPPORTED_TYPE | PROCESSING_FAILURE | INVALID_UTF8
| PROTOCOL_ERROR | TIMED_OUT | SOCKET_CLOSED | HANGUP | CANCELLED | INVALID_TYPE | INVALID_TOPIC | ALREADY_CONNECTED | SHUTDOWN | OTHER_CODE (n : N).
(** s_translate_mqtt5_error_code_to_mqtt311, mqtt5_to_mqtt3_adapter.c:20-55 *)
Definition translate (c : code) : code :=
  match c with
  | ENCODE_FAILURE | DECODE_ERROR | CONNACK_REFUSED | PROCESSING_FAILURE => PROTOCOL_ERROR
  | CONNACK_TIMEOUT | PING_TIMEOUT => TIMED_OUT
  | USER_STOP | CLIENT_TERMINATED => SOCKET_CLOSED
  | DISCONNECT_RECEIVED => HANGUP
  | OFFLINE_POLICY => CANCELLED
  | UNSUPPORTED_TYPE => INVALID_TYPE
  | INVALID_UTF8 => INVALID_TOPIC
  | c => c
  end.
Definition is_reset (c : code) : bool := match c with RESET_FOR_CONNECT => true | _ => false end.
(** lifecycle events of the client, mqtt5_client.h *)
Inductive lifecycle := CONNECTED (session : bool) | FAILED (c : code) | LOST (c : code) | STOPPED | ATTEMPTING.
(** the trace. I_: calls by the user, T_: a task runs, E_: an event of the client, I_DESIRE: somebody else starts or stops the client, O_: callbacks, and requests to the client *)
Inductive event :=
| I_CONNECT (id : N) | I_DISCONNECT (id : N) | I_DESIRE (stop : bool) | T_CONNECT (id : N) | T_DISCONNECT (id : N) | E_EVENT (e : lifecycle)
| O_COMPLETE (id : N) (c : code) (session : bool) | O_DISCONNECTED (id : N) | O_CLOSED | O_SUCCESS (session : bool) | O_FAILURE (c : code) | O_INTERRUPTED (c : code) | O_RESUMED (session : bool) | O_START | O_STOP.
(** enum aws_mqtt_adapter_state, mqtt5_to_mqtt3_adapter_impl.h:198-221 *)
Inductive phase := FIRST_CONNECT | STAY_CONNECTED | STAY_DISCONNECTED.
Inductive task := DO_CONNECT (id : N) | DO_DISCONNECT (id : N).
(** struct aws_mqtt_client_connection_5_impl: adapter_state, on_connection_complete, on_disconnect; whether the desired state of the client is STOPPED; the scheduled tasks *)
Record state := mkstate { b_phase : phase; b_complete : option N; b_disconnect : option N; b_stopped : bool; b_tasks : list task; b_count : N; b_out : list event }.
(** aws_mqtt_client_connection_new_from_mqtt5_client, :2987-3025: the client may be started already *)
Definition initial (stopped : bool) : state := mkstate STAY_DISCONNECTED None None stopped [] 0 [].
Definition emit (e : event) (s : state) : state := mkstate (b_phase s) (b_complete s) (b_disconnect s) (b_stopped s) (b_tasks s) (b_count s) (e :: b_out s).
Definition set_phase (p : phase) (s : state) : state := mkstate p (b_complete s) (b_disconnect s) (b_stopped s) (b_tasks s) (b_count s) (b_out s).
Definition set_complete (o : option N) (s : state) : state := mkstate (b_phase s) o (b_disconnect s) (b_stopped s) (b_tasks s) (b_count s) (b_out s).
Definition set_disconnect (o : option N) (s : state) : state := mkstate (b_phase s) (b_complete s) o (b_stopped s) (b_tasks s) (b_count s) (b_out s).
Definition set_stopped (b : bool) (s : state) : state := mkstate (b_phase s) (b_complete s) (b_disconnect s) b (b_tasks s) (b_count s) (b_out s).
(** the stored callbacks are called and forgotten, :370-381, :473-478 *)
Definition call_complete (c : code) (session : bool) (s : state) : state := match b_complete s with None => s | Some id => set_complete None (emit (O_COMPLETE id c session) s) end.
Definition call_disconnect (s : state) : state := match b_disconnect s with None => s | Some id => set_disconnect None (emit (O_DISCONNECTED id) s) end.
(** s_aws_mqtt5_to_mqtt3_adapter_lifecycle_handler, :344-497 *)
Definition lifecycle_handler (e : lifecycle) (s : state) : state :=
  match e with
  | CONNECTED session =>
    match b_phase s with
    | STAY_DISCONNECTED => s
    | FIRST_CONNECT => set_phase STAY_CONNECTED (call_complete SUCCESS session (emit (O_SUCCESS session) s))
    | STAY_CONNECTED => emit (O_RESUMED session) (emit (O_SUCCESS session) s)
    end
  | FAILED c =>
    if is_reset c then s else
    match b_phase s with
    | STAY_DISCONNECTED => s
    | FIRST_CONNECT => set_phase STAY_DISCONNECTED (call_complete (translate c) false (emit (O_FAILURE (translate c)) s))
    | STAY_CONNECTED => emit (O_FAILURE (translate c)) s
    end
  | LOST c => match b_phase s with STAY_CONNECTED => if is_reset c then s else emit (O_INTERRUPTED (translate c)) s | _ => s end
  | STOPPED => set_phase STAY_DISCONNECTED (emit O_CLOSED (call_disconnect s))
  | ATTEMPTING => s
  end.
(** s_aws_mqtt5_to_mqtt3_adapter_disconnect_handler, :499-562 *)
Definition disconnect_handler (id : N) (s : state) : state :=
  match b_phase s with
  | STAY_DISCONNECTED => emit (O_DISCONNECTED id) s
  | p =>
    let s1 := set_phase STAY_DISCONNECTED (match p with FIRST_CONNECT => call_complete SHUTDOWN false s | _ => s end) in
    if b_stopped s1 then emit O_CLOSED (emit (O_DISCONNECTED id) s1)
    else set_disconnect (Some id) (emit O_STOP (set_stopped true s1))
  end.
(** s_aws_mqtt5_to_mqtt3_adapter_connect_handler, :630-676 *)
Definition connect_handler (id : N) (s : state) : state :=
  match b_phase s with
  | STAY_DISCONNECTED => set_complete (Some id) (emit O_START (set_stopped false (set_phase FIRST_CONNECT (call_disconnect s))))
  | _ => emit (O_COMPLETE id ALREADY_CONNECTED false) s
  end.
Inductive op := CONNECT | DISCONNECT | RUN | EVENT (e : lifecycle) | DESIRE (stop : bool).
(** s_aws_mqtt_client_connection_5_connect, :315-342; _disconnect, :171-195; the tasks, :564-580, :678-694. DESIRE: aws_mqtt5_client_start and _stop by others, mqtt5_client.c:2173-2196 *)
Definition handle (s : state) (o : op) : state :=
  match o with
  | CONNECT => mkstate (b_phase s) (b_complete s) (b_disconnect s) (b_stopped s) (b_tasks s ++ [DO_CONNECT (b_count s)]) (b_count s + 1) (I_CONNECT (b_count s) :: b_out s)
  | DISCONNECT => mkstate (b_phase s) (b_complete s) (b_disconnect s) (b_stopped s) (b_tasks s ++ [DO_DISCONNECT (b_count s)]) (b_count s + 1) (I_DISCONNECT (b_count s) :: b_out s)
  | RUN =>
    match b_tasks s with
    | [] => s
    | t :: l =>
      let s1 := mkstate (b_phase s) (b_complete s) (b_disconnect s) (b_stopped s) l (b_count s) (b_out s) in
      match t with DO_CONNECT id => connect_handler id (emit (T_CONNECT id) s1) | DO_DISCONNECT id => disconnect_handler id (emit (T_DISCONNECT id) s1) end
    end
  | EVENT e => lifecycle_handler e (emit (E_EVENT e) s)
  | DESIRE b => emit (I_DESIRE b) (set_stopped b s)
  end.
Definition history (stopped : bool) (l : list op) : state := fold_left handle l (initial stopped).
