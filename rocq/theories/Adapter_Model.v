(** Model of source/request-response/protocol_adapter.c: the protocol adapter through which the request-response client uses an MQTT 5 client or a 3.1.1 connection.
    Simplifications: allocation does not fail; the callbacks in the options are not NULL (the request-response client sets all of them); the packets handed to the client are not modelled beyond their kind and topic filter;
    aws_linked_list_remove, push_back and swap_contents have their documented meaning. That the client completes an operation once, and that a listener gets nothing after its termination callback, are C25, C61 and C76. *)
From Verif Require Import Base.

(** the error codes that are told apart *)
Inductive error := OK | PACKET_VALIDATION | SUBSCRIBE_VALIDATION | UNSUBSCRIBE_VALIDATION | TIMEOUT | FAILING_REASON_CODE | SHUT_DOWN | OTHER (n : N).
Definition error_eqb (a b : error) : bool :=
  match a, b with
  | OK, OK | PACKET_VALIDATION, PACKET_VALIDATION | SUBSCRIBE_VALIDATION, SUBSCRIBE_VALIDATION | UNSUBSCRIBE_VALIDATION, UNSUBSCRIBE_VALIDATION | TIMEOUT, TIMEOUT
  | FAILING_REASON_CODE, FAILING_REASON_CODE | SHUT_DOWN, SHUT_DOWN => true
  | OTHER n, OTHER m => n =? m
  | _, _ => false
  end.
(** how the client completes an operation: the error code, and the reason codes of the acknowledgement if there is one (for 3.1.1 the granted QoS) *)
Record result := mkresult { r_error : error; r_codes : option (list N) }.
Inductive kind := SUB (filter : bytes) | UNSUB (filter : bytes) | PUB.
(** what happens to the client: lifecycle events (mqtt5_client.h) or connection callbacks (mqtt311_listener.h) *)
Inductive happening := CONNECTED (session : bool) | LOST | ELSE.
(** the trace. I_CALL: an operation is asked for, and whether the client takes it *)
Inductive event :=
| I_CALL (id : N) (k : kind) (taken : bool) | I_COMPLETED (id : N) (r : result) | I_INCOMING (m : N) | I_HAPPENS (h : happening) | I_TERMINATE
| O_REFUSED (id : N) | O_EVENT (subscribe : bool) (filter : bytes) (e : error) (retryable : bool) | O_PUBLISHED (id : N) (e : error) | O_INCOMING (m : N) | O_CONNECTED (session : bool) | O_DISCONNECTED | O_TERMINATED.
(** struct aws_mqtt_protocol_adapter_operation_userdata, protocol_adapter.c:52-64: its kind and whether the pointer to the adapter is set *)
Record userdata := mkdata { d_kind : kind; d_adapter : bool }.
(** struct aws_mqtt_protocol_adapter_311_impl and _5_impl, :120-130, :527-536: whether it exists, incomplete_operations; the data that exists *)
Record state := mkstate { a_alive : bool; a_list : list N; a_data : N -> option userdata; a_count : N; a_out : list event; a_crash : bool }.
Definition initial : state := mkstate true [] (fun _ => None) 0 [] false.
Definition put (u : N) (o : option userdata) (f : N -> option userdata) : N -> option userdata := fun v => if v =? u then o else f v.
Definition emit (e : event) (s : state) : state := mkstate (a_alive s) (a_list s) (a_data s) (a_count s) (e :: a_out s) (a_crash s).
Definition crash (s : state) : state := mkstate (a_alive s) (a_list s) (a_data s) (a_count s) (a_out s) true.
(** s_aws_mqtt_protocol_adapter_operation_user_data_destroy, :101-116 *)
Definition destroy (id : N) (s : state) : state := mkstate (a_alive s) (filter (fun v => negb (v =? id)) (a_list s)) (put id None (a_data s)) (a_count s) (a_out s) (a_crash s).
(** subscribe, unsubscribe and publish, :66-99, :179-210, :247-274, :302-332, :606-641, :701-731, :762-789 *)
Definition call (k : kind) (taken : bool) (s : state) : state :=
  let id := a_count s in
  let s1 := mkstate (a_alive s) (a_list s ++ [id]) (put id (Some (mkdata k true)) (a_data s)) (id + 1) (I_CALL id k taken :: a_out s) (a_crash s) in
  if negb (a_alive s) then crash s1 else if taken then s1 else emit (O_REFUSED id) (destroy id s1).
(** the reason code that is looked at: the first one, or else 0 *)
Definition first_code (r : result) : N := match r_codes r with Some (c :: _) => c | _ => 0 end.
(** s_is_retryable_subscribe, :547-567; for 3.1.1 always, :169; reason codes: mqtt5_types.h *)
Definition sub_retryable (five : bool) (r : result) : bool :=
  if negb five then true
  else if error_eqb (r_error r) PACKET_VALIDATION || error_eqb (r_error r) SUBSCRIBE_VALIDATION then false
  else if negb (error_eqb (r_error r) OK) then true
  else existsb (N.eqb (first_code r)) [0; 1; 2; 128; 145; 131; 151].
(** s_is_retryable_unsubscribe5, :645-661; s_is_retryable_unsubscribe311, :214-216 *)
Definition unsub_retryable (five : bool) (r : result) : bool :=
  if negb five then error_eqb (r_error r) TIMEOUT
  else if error_eqb (r_error r) PACKET_VALIDATION || error_eqb (r_error r) UNSUBSCRIBE_VALIDATION then false
  else if error_eqb (r_error r) TIMEOUT then true
  else existsb (N.eqb (first_code r)) [128; 131].
(** the error codes that are reported, :159-163, :586-590 *)
Definition one_good (r : result) : bool := match r_codes r with Some [c] => negb (128 <=? c) | _ => false end.
Definition sub_error (five : bool) (r : result) : error :=
  if error_eqb (r_error r) OK then if five then (if one_good r then OK else FAILING_REASON_CODE) else if 128 <=? first_code r then FAILING_REASON_CODE else OK else r_error r.
(** :233-238, :681-685 *)
Definition unsub_error (five : bool) (r : result) : error := if five && error_eqb (r_error r) OK then if one_good r then OK else FAILING_REASON_CODE else r_error r.
(** :294-295, :747-752: without a PUBACK there are no codes *)
Definition pub_error (five : bool) (r : result) : error := if five && error_eqb (r_error r) OK then if 128 <=? first_code r then FAILING_REASON_CODE else OK else r_error r.
(** the completion functions, :141-177, :218-245, :278-300, :569-604, :663-699, :735-760 *)
Definition complete (five : bool) (id : N) (r : result) (s : state) : state :=
  match a_data s id with
  | None => crash s
  | Some d =>
    let s1 := if d_adapter d then
                if a_alive s then
                  match d_kind d with
                  | SUB f => emit (O_EVENT true f (sub_error five r) (sub_retryable five r)) s
                  | UNSUB f => emit (O_EVENT false f (unsub_error five r) (unsub_retryable five r)) s
                  | PUB => emit (O_PUBLISHED id (pub_error five r)) s
                  end
                else crash s
              else s in
    destroy id s1
  end.
(** s_release_incomplete_operations, :421-441 *)
Fixpoint release_all (l : list N) (s : state) : state :=
  match l with
  | [] => s
  | id :: l =>
    match a_data s id with
    | None => crash s
    | Some d =>
      let s1 := mkstate (a_alive s) (a_list s) (put id (Some (mkdata (d_kind d) false)) (a_data s)) (a_count s) (a_out s) (a_crash s) in
      release_all l (match d_kind d with PUB => emit (O_PUBLISHED id SHUT_DOWN) s1 | _ => s1 end)
    end
  end.
(** the termination callback of the listener, :443-461, :848-865 *)
Definition terminate (s : state) : state :=
  if negb (a_alive s) then crash s
  else let s1 := release_all (a_list s) (mkstate (a_alive s) [] (a_data s) (a_count s) (a_out s) (a_crash s)) in
       emit O_TERMINATED (mkstate false (a_list s1) (a_data s1) (a_count s1) (a_out s1) (a_crash s1)).
(** the callbacks of the listener, :334-406, :801-846. A connection that is interrupted or disconnected is LOST; the other lifecycle events are ELSE *)
Definition happens (h : happening) (s : state) : state :=
  if negb (a_alive s) then crash s else match h with CONNECTED b => emit (O_CONNECTED b) s | LOST => emit O_DISCONNECTED s | ELSE => s end.
Definition incoming (m : N) (s : state) : state := if negb (a_alive s) then crash s else emit (O_INCOMING m) s.
Inductive op := CALL (k : kind) (taken : bool) | COMPLETE (id : N) (r : result) | INCOMING (m : N) | HAPPENS (h : happening) | TERMINATE.
Definition handle (five : bool) (s : state) (o : op) : state :=
  if a_crash s then s else
  match o with
  | CALL k taken => call k taken s
  | COMPLETE id r => complete five id r (emit (I_COMPLETED id r) s)
  | INCOMING m => incoming m (emit (I_INCOMING m) s)
  | HAPPENS h => happens h (emit (I_HAPPENS h) s)
  | TERMINATE => terminate (emit I_TERMINATE s)
  end.
Definition history (five : bool) (l : list op) : state := fold_left (handle five) l initial.
