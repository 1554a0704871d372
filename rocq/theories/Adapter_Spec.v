(** What a protocol adapter should report, in terms of the trace (newest first) *)
From Verif Require Import Base Adapter_Model.

(** what is used: an adapter until it is terminated, which happens once; an operation is completed once, and only if the client took it *)
Definition allowed (e : event) (before : list event) : Prop :=
  match e with
  | I_CALL _ _ _ | I_INCOMING _ | I_HAPPENS _ | I_TERMINATE => ~ In O_TERMINATED before
  | I_COMPLETED id _ => (exists k, In (I_CALL id k true) before) /\ forall r, ~ In (I_COMPLETED id r) before
  | _ => True
  end.
Definition proper (tr : list event) : Prop := forall later e before, tr = later ++ e :: before -> allowed e before.
(** the client was told by the server that all is well: one reason code, which is no failure; for 3.1.1 a SUBACK with such a code *)
Definition granted (r : result) : Prop := r_error r = OK /\ exists c, r_codes r = Some [c] /\ c < 128.
(** the error that is to be reported: none if it was granted, that of the client if there is one, or else FAILING_REASON_CODE *)
Definition reported (good : Prop) (r : result) (e : error) : Prop := (good /\ e = OK) \/ (~ good /\ r_error r <> OK /\ e = r_error r) \/ (~ good /\ r_error r = OK /\ e = FAILING_REASON_CODE).
(** what a 3.1.1 connection gives: the QoS for a SUBACK, nothing otherwise *)
Definition result_of (five : bool) (k : kind) (r : result) : Prop :=
  match k with
  | SUB _ => five = true \/ (exists c, r_codes r = Some [c])
  | UNSUB _ => True
  | PUB => r_codes r = None \/ exists c, r_codes r = Some [c]
  end.
(** a publish is well if there is no error and no PUBACK that says otherwise *)
Definition sent (five : bool) (r : result) : Prop := r_error r = OK /\ (five = true -> forall c, r_codes r = Some [c] -> c < 128).
(** when it is worth trying again: not if the client found the packet invalid, and not if the server said no for good *)
Definition worth_sub (five : bool) (r : result) : Prop :=
  five = false \/ (r_error r <> PACKET_VALIDATION /\ r_error r <> SUBSCRIBE_VALIDATION /\ (r_error r = OK -> forall c l, r_codes r = Some (c :: l) -> In c [0; 1; 2; 128; 131; 145; 151])).
Definition worth_unsub (five : bool) (r : result) : Prop :=
  r_error r = TIMEOUT \/ (five = true /\ r_error r <> PACKET_VALIDATION /\ r_error r <> UNSUBSCRIBE_VALIDATION /\ exists c l, r_codes r = Some (c :: l) /\ (c = 128 \/ c = 131)).
(** what the completion of an operation of a kind leads to *)
Inductive answer (five : bool) (id : N) (r : result) : kind -> event -> Prop :=
| A_sub f e b : reported (granted r) r e -> (b = true <-> worth_sub five r) -> answer five id r (SUB f) (O_EVENT true f e b)
| A_unsub f e b : (five = true -> reported (granted r) r e) -> (five = false -> e = r_error r) -> (b = true <-> worth_unsub five r) -> answer five id r (UNSUB f) (O_EVENT false f e b)
| A_pub e : reported (sent five r) r e -> answer five id r PUB (O_PUBLISHED id e).
(** the operations the client took and has not completed, the oldest first *)
Fixpoint open (tr : list event) : list (N * kind) :=
  match tr with
  | [] => []
  | I_CALL id k true :: l => open l ++ [(id, k)]
  | I_COMPLETED id _ :: l => filter (fun p => negb (fst p =? id)) (open l)
  | _ :: l => open l
  end.
(** how often the completion callback of a publish was called *)
Fixpoint calls (id : N) (tr : list event) : nat := match tr with [] => O | O_PUBLISHED v _ :: l => if v =? id then S (calls id l) else calls id l | _ :: l => calls id l end.
