(** What a 3.1.1 connection over an MQTT 5 client should report, in terms of the trace (newest first) *)
From Verif Require Import Base Bridge_Model.

(** the connects that were carried out and not answered, the newest first *)
Fixpoint waiting (tr : list event) : list N :=
  match tr with [] => [] | T_CONNECT id :: l => id :: waiting l | O_COMPLETE id _ _ :: l => filter (fun v => negb (v =? id)) (waiting l) | _ :: l => waiting l end.
(** the disconnects that were carried out and not answered *)
Fixpoint leaving (tr : list event) : list N :=
  match tr with [] => [] | T_DISCONNECT id :: l => id :: leaving l | O_DISCONNECTED id :: l => filter (fun v => negb (v =? id)) (leaving l) | _ :: l => leaving l end.
(** how often a connect, a disconnect was answered *)
Fixpoint answers (id : N) (tr : list event) : nat := match tr with [] => O | O_COMPLETE v _ _ :: l => if v =? id then S (answers id l) else answers id l | _ :: l => answers id l end.
Fixpoint farewells (id : N) (tr : list event) : nat := match tr with [] => O | O_DISCONNECTED v :: l => if v =? id then S (farewells id l) else farewells id l | _ :: l => farewells id l end.
(** connected, as the user sees it: a connect has succeeded, and since then there was no disconnect and the client has not stopped *)
Fixpoint on (tr : list event) : bool :=
  match tr with [] => false | O_COMPLETE _ SUCCESS _ :: _ => true | T_DISCONNECT _ :: _ | E_EVENT STOPPED :: _ => false | _ :: l => on l end.
(** nobody else stops the client while a connect waits *)
Definition undisturbed (tr : list event) : Prop := forall later earlier, tr = later ++ E_EVENT STOPPED :: earlier -> waiting earlier = [].
(** what settles a connect *)
Definition settles (e : event) : Prop := match e with E_EVENT (CONNECTED _) | T_DISCONNECT _ => True | E_EVENT (FAILED c) => c <> RESET_FOR_CONNECT | _ => False end.
(** what an answer to a connect may be, and when ([l]: what was before); it is for one that waits *)
Definition reason (id : N) (c : code) (session : bool) (l : list event) : Prop :=
  In id (waiting l) /\
  ((c = SUCCESS /\ exists m, l = O_SUCCESS session :: E_EVENT (CONNECTED session) :: m)
  \/ (c = ALREADY_CONNECTED /\ session = false /\ exists m, l = T_CONNECT id :: m /\ (on m = true \/ waiting m <> []))
  \/ (c = SHUTDOWN /\ session = false /\ exists d m, l = T_DISCONNECT d :: m)
  \/ (exists c' m, c' <> RESET_FOR_CONNECT /\ c = translate c' /\ session = false /\ l = O_FAILURE c :: E_EVENT (FAILED c') :: m)).
Fixpoint each (fits : event -> list event -> Prop) (tr : list event) : Prop := match tr with [] => True | e :: l => fits e l /\ each fits l end.
(** a connection attempt that fails does so with an error *)
Definition sane (tr : list event) : Prop := ~ In (E_EVENT (FAILED SUCCESS)) tr.
(** the 3.1.1 code for each MQTT 5 code that has one *)
Definition table : list (code * code) :=
  [(ENCODE_FAILURE, PROTOCOL_ERROR); (DECODE_ERROR, PROTOCOL_ERROR); (PROCESSING_FAILURE, PROTOCOL_ERROR); (CONNACK_REFUSED, PROTOCOL_ERROR); (CONNACK_TIMEOUT, TIMED_OUT); (PING_TIMEOUT, TIMED_OUT);
   (USER_STOP, SOCKET_CLOSED); (CLIENT_TERMINATED, SOCKET_CLOSED); (DISCONNECT_RECEIVED, HANGUP); (OFFLINE_POLICY, CANCELLED); (UNSUPPORTED_TYPE, INVALID_TYPE); (INVALID_UTF8, INVALID_TOPIC)].
