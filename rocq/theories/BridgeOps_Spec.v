(** What the operations of a 3.1.1 connection over an MQTT 5 client should lead to, in terms of the trace (newest first) *)
From Verif Require Import Base BridgeOps_Model.

(** the operations that were accepted and not reported, with their ids, the oldest first *)
Fixpoint open (tr : list event) : list (N * N) :=
  match tr with [] => [] | O_ACCEPTED h id :: l => open l ++ [(id, h)] | O_DONE h _ _ :: l => filter (fun p => negb (snd p =? h)) (open l) | _ :: l => open l end.
(** how often the callback of an operation was called *)
Fixpoint dones (h : N) (tr : list event) : nat := match tr with [] => O | O_DONE v _ _ :: l => if v =? h then S (dones h l) else dones h l | _ :: l => dones h l end.
Definition accepted (h : N) (tr : list event) : Prop := exists id, In (O_ACCEPTED h id) tr.
(** what is reported when the client completes an operation with an error code and, for a publish, the reason code of a PUBACK *)
Definition outcome (k : kind) (c : code) (puback : option N) (c' : code) : Prop :=
  let refused := k = PUB /\ c = OK /\ exists r, puback = Some r /\ 128 <= r in (refused /\ c' = ACK_FAILURE) \/ (~ refused /\ c' = c).
(** why an operation is reported with a code ([l]: what was before): the client has just completed it, there was nothing to resubscribe to, or the connection is being destroyed *)
Definition why (h : N) (c : code) (l : list event) : Prop :=
  (exists k c' p m, l = I_COMPLETED h c' p :: m /\ In (I_CALL h k) m /\ outcome k c' p c)
  \/ (c = NO_TOPICS /\ In (I_CALL h RESUB) l /\ exists m, l = I_TASK h :: m)
  \/ (c = DESTROYED /\ In I_DESTROY l).
Definition output (e : event) : bool := match e with O_ACCEPTED _ _ | O_FULL _ | O_INVALID _ | O_SENT _ | O_DONE _ _ _ | O_TERMINATED => true | _ => false end.
Fixpoint each (fits : event -> list event -> Prop) (tr : list event) : Prop := match tr with [] => True | e :: l => fits e l /\ each fits l end.
