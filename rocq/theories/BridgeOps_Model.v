(** Model of the operations of source/v5/mqtt5_to_mqtt3_adapter.c: publish, subscribe and unsubscribe on a 3.1.1 connection that runs on an MQTT 5 client, the ids it gives them, the references between them and the connection, and its destruction.
    Simplifications: the user holds one reference; what is subscribed to and published is left out, and so is the tree of subscriptions; all callbacks are set; tasks are not cancelled and may run in any order (one order is the code's); creating the MQTT 5 operation does not fail once the 3.1.1 checks have passed;
    the hash table is a list in the order of insertion. The client completes an operation once, after it was handed to it, at any time. Steps that are not possible are skipped. *)
From Verif Require Import Base.

(** error codes; ACK_FAILURE: AWS_ERROR_MQTT_ACK_REASON_CODE_FAILURE, NO_TOPICS: AWS_ERROR_MQTT_CONNECTION_RESUBSCRIBE_NO_TOPICS, DESTROYED: AWS_ERROR_MQTT_CONNECTION_DESTROYED *)
Inductive code := OK | ACK_FAILURE | NO_TOPICS | DESTROYED | OTHER (n : N).
(** RESUB: resubscribe_existing_topics *)
Inductive kind := PUB | SUB | UNSUB | RESUB.
(** the trace. [h]: a number for each call. I_: calls, tasks, and what the client and the listener do. O_ACCEPTED: the call returns this id; O_FULL, O_INVALID: it returns 0; O_SENT: the operation is handed to the client; O_DONE: its callback is called *)
Inductive event :=
| I_CALL (h : N) (k : kind) | I_TASK (h : N) | I_COMPLETED (h : N) (c : code) (puback : option N) | I_RELEASE | I_DETACHED | I_DESTROY
| O_ACCEPTED (h id : N) | O_FULL (h : N) | O_INVALID (h : N) | O_SENT (h : N) | O_DONE (h id : N) (c : code) | O_TERMINATED.
(** struct aws_mqtt5_to_mqtt3_adapter_operation_base, mqtt5_to_mqtt3_adapter_impl.h: id, ref_count, holding_adapter_ref *)
Record data := mkdata { o_kind : kind; o_id : N; o_refs : N; o_hold : bool }.
(** struct aws_mqtt_client_connection_5_impl: external_refs ([t_user]), internal_refs, operational_state; scheduled tasks: [t_pending], [t_dying]. [t_ops]: the operations that are not freed; [t_sent]: those the client has; [t_armed]: those whose MQTT 5 operation has a completion callback; [t_gone]: the adapter is freed *)
Record state := mkstate { t_user : bool; t_detached : bool; t_refs : N; t_dying : bool; t_gone : bool; t_next : N; t_table : list (N * N); t_ops : N -> option data; t_pending : list N; t_sent : list N; t_armed : N -> bool; t_count : N; t_out : list event; t_crash : bool }.
(** aws_mqtt_client_connection_new_from_mqtt5_client, :2987-3025; table_init :3029-3042 *)
Definition initial : state := mkstate true false 1 false false 1 [] (fun _ => None) [] [] (fun _ => false) 0 [] false.
Definition emit (e : event) (s : state) : state := mkstate (t_user s) (t_detached s) (t_refs s) (t_dying s) (t_gone s) (t_next s) (t_table s) (t_ops s) (t_pending s) (t_sent s) (t_armed s) (t_count s) (e :: t_out s) (t_crash s).
(** something undefined: memory is used that was freed *)
Definition crash (s : state) : state := mkstate (t_user s) (t_detached s) (t_refs s) (t_dying s) (t_gone s) (t_next s) (t_table s) (t_ops s) (t_pending s) (t_sent s) (t_armed s) (t_count s) (t_out s) true.
Definition put {A} (h : N) (a : A) (f : N -> A) (x : N) : A := if x =? h then a else f x.
Definition without (h : N) (l : list N) : list N := filter (fun x => negb (x =? h)) l.
Definition set_op (h : N) (d : option data) (s : state) : state := mkstate (t_user s) (t_detached s) (t_refs s) (t_dying s) (t_gone s) (t_next s) (t_table s) (put h d (t_ops s)) (t_pending s) (t_sent s) (t_armed s) (t_count s) (t_out s) (t_crash s).
Definition set_armed (h : N) (b : bool) (s : state) : state := mkstate (t_user s) (t_detached s) (t_refs s) (t_dying s) (t_gone s) (t_next s) (t_table s) (t_ops s) (t_pending s) (t_sent s) (put h b (t_armed s)) (t_count s) (t_out s) (t_crash s).
Definition set_table (t : list (N * N)) (s : state) : state := mkstate (t_user s) (t_detached s) (t_refs s) (t_dying s) (t_gone s) (t_next s) t (t_ops s) (t_pending s) (t_sent s) (t_armed s) (t_count s) (t_out s) (t_crash s).
(** release of internal_refs; the last one schedules the final destruction, :1703-1707, :121-146 *)
Definition release_adapter (s : state) : state :=
  if t_gone s || (t_refs s =? 0) then crash s
  else mkstate (t_user s) (t_detached s) (t_refs s - 1) (t_refs s =? 1) (t_gone s) (t_next s) (t_table s) (t_ops s) (t_pending s) (t_sent s) (t_armed s) (t_count s) (t_out s) (t_crash s).
(** aws_mqtt5_to_mqtt3_adapter_operation_release, :3129-3136, and the destroy functions, :1784-1808, :1995-2030, :2530-2556: the MQTT 5 operation loses its completion callback *)
Definition release_op (h : N) (s : state) : state :=
  match t_ops s h with
  | None => crash s
  | Some d =>
    if o_refs d =? 1 then let s1 := set_armed h false (set_op h None s) in if o_hold d then release_adapter s1 else s1
    else set_op h (Some (mkdata (o_kind d) (o_id d) (o_refs d - 1) (o_hold d))) s
  end.
(** s_aws_mqtt5_to_mqtt3_adapter_operation_release_cross_thread_refs, :1774-1782 *)
Definition release_cross (h : N) (s : state) : state :=
  match t_ops s h with
  | None => crash s
  | Some d => release_op h (if o_hold d then release_adapter (set_op h (Some (mkdata (o_kind d) (o_id d) (o_refs d) false)) s) else s)
  end.
(** s_next_adapter_id, :3074-3080 *)
Definition next_id (id : N) : N := let i := (id + 1) mod 65536 in if i =? 0 then 1 else i.
Definition used (id : N) (t : list (N * N)) : bool := existsb (fun p => fst p =? id) t.
(** the loop of aws_mqtt5_to_mqtt3_adapter_operation_table_add_operation, :3090-3107 *)
Fixpoint find_id (rounds : nat) (t : list (N * N)) (id : N) : option N := match rounds with O => None | S r => if used id t then find_id r t (next_id id) else Some id end.
(** aws_mqtt5_to_mqtt3_adapter_operation_table_remove_operation, :3113-3127 *)
Definition remove (id : N) (s : state) : state :=
  if t_gone s then crash s else
  match find (fun p => fst p =? id) (t_table s) with
  | None => s
  | Some p => release_op (snd p) (set_table (filter (fun q => negb (fst q =? id)) (t_table s)) s)
  end.
(** publish :1913-1992, subscribe :2375-2527, unsubscribe :2656-2734, resubscribe_existing_topics :2872-2945. [valid]: the arguments are *)
Definition call (k : kind) (valid : bool) (s : state) : state :=
  let h := t_count s in
  let s1 := mkstate (t_user s) (t_detached s) (t_refs s) (t_dying s) (t_gone s) (t_next s) (t_table s) (t_ops s) (t_pending s) (t_sent s) (t_armed s) (h + 1) (I_CALL h k :: t_out s) (t_crash s) in
  if negb valid then emit (O_INVALID h) s1 else
  match find_id (N.to_nat 65535) (t_table s1) (t_next s1) with
  | None => emit (O_FULL h) (release_op h (set_armed h true (set_op h (Some (mkdata k 0 1 false)) s1)))
  | Some id =>
    let s2 := set_armed h true (set_op h (Some (mkdata k id 2 true)) s1) in
    emit (O_ACCEPTED h id) (mkstate (t_user s2) (t_detached s2) (t_refs s2 + 1) (t_dying s2) (t_gone s2) (next_id id) (t_table s2 ++ [(id, h)]) (t_ops s2) (t_pending s2 ++ [h]) (t_sent s2) (t_armed s2) (t_count s2) (t_out s2) (t_crash s2))
  end.
(** the completion functions, :1810-1837, :2141-2152, :2558-2576: only a publish looks at the reason code *)
Definition final (k : kind) (c : code) (puback : option N) : code := match k, c, puback with PUB, OK, Some r => if 128 <=? r then ACK_FAILURE else OK | _, _, _ => c end.
(** the submission tasks, :1898-1911, :2319-2373, :2638-2654. NOTHING: there is nothing to resubscribe to; AT_ONCE: the client completes the operation while it is handed over *)
Inductive way := QUEUED | NOTHING | AT_ONCE (c : code) (puback : option N).
Definition submit (h : N) (w : way) (s : state) : state :=
  let s1 := mkstate (t_user s) (t_detached s) (t_refs s) (t_dying s) (t_gone s) (t_next s) (t_table s) (t_ops s) (without h (t_pending s)) (t_sent s) (t_armed s) (t_count s) (I_TASK h :: t_out s) (t_crash s) in
  match t_ops s1 h with
  | None => crash s1
  | Some d =>
    release_cross h
      (match o_kind d, w with
       | RESUB, NOTHING => remove (o_id d) (emit (O_DONE h (o_id d) NO_TOPICS) s1)
       | k, AT_ONCE c p => remove (o_id d) (emit (O_DONE h (o_id d) (final k c p)) (emit (I_COMPLETED h c p) (emit (O_SENT h) s1)))
       | _, _ => emit (O_SENT h) (mkstate (t_user s1) (t_detached s1) (t_refs s1) (t_dying s1) (t_gone s1) (t_next s1) (t_table s1) (t_ops s1) (t_pending s1) (t_sent s1 ++ [h]) (t_armed s1) (t_count s1) (t_out s1) (t_crash s1))
       end)
  end.
(** a completion by the client: nothing happens if the callback was taken away *)
Definition complete (h : N) (c : code) (puback : option N) (s : state) : state :=
  let s1 := mkstate (t_user s) (t_detached s) (t_refs s) (t_dying s) (t_gone s) (t_next s) (t_table s) (t_ops s) (t_pending s) (without h (t_sent s)) (t_armed s) (t_count s) (I_COMPLETED h c puback :: t_out s) (t_crash s) in
  if negb (t_armed s h) then s1 else
  match t_ops s1 h with None => crash s1 | Some d => remove (o_id d) (emit (O_DONE h (o_id d) (final (o_kind d) c puback)) s1) end.
(** s_adapter_operation_fail, s_adapter_operation_clean_up, :3044-3062 *)
Fixpoint fail_all (t : list (N * N)) (s : state) : state :=
  match t with [] => s | (_, h) :: l => fail_all l (match t_ops s h with None => crash s | Some d => emit (O_DONE h (o_id d) DESTROYED) s end) end.
Fixpoint release_all (t : list (N * N)) (s : state) : state := match t with [] => s | (_, h) :: l => release_all l (release_op h s) end.
(** s_mqtt_adapter_final_destroy_task_fn, :62-104; table_clean_up, :3064-3072 *)
Definition destroy (s : state) : state :=
  let s1 := release_all (t_table s) (fail_all (t_table s) (emit I_DESTROY s)) in
  emit O_TERMINATED (mkstate (t_user s1) (t_detached s1) (t_refs s1) (t_dying s1) true (t_next s1) [] (t_ops s1) (t_pending s1) (t_sent s1) (t_armed s1) (t_count s1) (t_out s1) (t_crash s1)).
Definition mem (h : N) (l : list N) : bool := existsb (N.eqb h) l.
Inductive op := CALL (k : kind) (valid : bool) | SUBMIT (h : N) (w : way) | COMPLETE (h : N) (c : code) (puback : option N) | RELEASE | DETACHED | DESTROY.
(** RELEASE: s_aws_mqtt_client_connection_5_release, :1748-1752: the listener is released, and after that calls DETACHED once, :1709-1717, :1727-1746 *)
Definition handle (s : state) (o : op) : state :=
  match o with
  | CALL k v => if t_user s then call k v s else s
  | SUBMIT h w => if mem h (t_pending s) then submit h w s else s
  | COMPLETE h c p => if mem h (t_sent s) then complete h c p s else s
  | RELEASE => if t_user s then emit I_RELEASE (mkstate false (t_detached s) (t_refs s) (t_dying s) (t_gone s) (t_next s) (t_table s) (t_ops s) (t_pending s) (t_sent s) (t_armed s) (t_count s) (t_out s) (t_crash s)) else s
  | DETACHED => if negb (t_user s) && negb (t_detached s) then release_adapter (emit I_DETACHED (mkstate (t_user s) true (t_refs s) (t_dying s) (t_gone s) (t_next s) (t_table s) (t_ops s) (t_pending s) (t_sent s) (t_armed s) (t_count s) (t_out s) (t_crash s))) else s
  | DESTROY => if t_dying s && negb (t_gone s) then destroy s else s
  end.
Definition history (l : list op) : state := fold_left handle l initial.
