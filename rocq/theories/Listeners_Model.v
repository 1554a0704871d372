(** Model of source/v5/mqtt5_callbacks.c, source/v5/mqtt5_listener.c and source/mqtt311_listener.c: listeners of one client, and who gets its events.
    Simplifications: the event loop runs the tasks that are scheduled in any order, and cancels none (a listener holds its client, which holds the event loop group; so the branches for cancelled tasks,
    mqtt5_listener.c:54-56, are left out); allocation does not fail. What a handler does itself (acquire, release, make a listener) only changes counts and schedules tasks, so it is modelled as done after the event.
    aws_ref_count_acquire and aws_ref_count_release (aws-c-common) stop the program if the count is 0. *)
From Verif Require Import Base.

(** struct aws_mqtt5_callback_set (include/aws/mqtt/v5/mqtt5_client.h) and struct aws_mqtt311_callback_set (include/aws/mqtt/private/mqtt311_listener.h): which handlers are not NULL.
    The other events are numbered; for MQTT 5 they are lifecycle events with one handler, for 3.1.1 connection success, interruption and disconnection *)
Record handlers := mkhandlers { h_publish : bool; h_event : N -> bool }.
(** the client: MQTT 5 or 3.1.1, and, for MQTT 5, which handlers of its own it has (client->config) *)
Record config := mkconfig { cf_five : bool; cf_publish : bool; cf_event : bool }.
(** what can be seen, and (T_INIT) that the event loop has run the task which initializes a listener *)
Inductive event :=
| I_NEW (u : N) (h : handlers) | I_ACQUIRE (u : N) | I_RELEASE (u : N) | T_INIT (u : N)
| O_PUBLISH (u : N) (m : N) | O_OWN_PUBLISH (m : N) | O_EVENT (u : N) (e : N) | O_OWN_EVENT (e : N) | O_TERMINATED (u : N).
(** initialize_task and terminate_task, mqtt5_listener.c:20-21, mqtt311_listener.c:34-35 *)
Inductive task := INIT (u : N) | TERM (u : N).
(** struct aws_mqtt5_listener, mqtt5_listener.c:11-22; mqtt311_listener.c:25-36 *)
Record obj := mkobj { o_refs : N; o_set : N; o_handlers : handlers }.
(** struct aws_mqtt5_callback_set_manager: the next id and the entries; the listeners that exist; how many were made; the references to the client they hold; the tasks; the trace, newest first; a failed assertion or use after free *)
Record state := mkstate { s_next : N; s_sets : list (N * (N * handlers)); s_objs : N -> option obj; s_count : N; s_client : N; s_tasks : list task; s_out : list event; s_crash : bool }.
(** aws_mqtt5_callback_set_manager_init, mqtt5_callbacks.c:24-32; mqtt311_listener.c:154-164 *)
Definition initial : state := mkstate 1 [] (fun _ => None) 0 0 [] [] false.
Definition put (u : N) (o : option obj) (f : N -> option obj) : N -> option obj := fun v => if v =? u then o else f v.
Definition emit (e : event) (s : state) : state := mkstate (s_next s) (s_sets s) (s_objs s) (s_count s) (s_client s) (s_tasks s) (e :: s_out s) (s_crash s).
Definition crash (s : state) : state := mkstate (s_next s) (s_sets s) (s_objs s) (s_count s) (s_client s) (s_tasks s) (s_out s) true.
Definition set_objs f (s : state) : state := mkstate (s_next s) (s_sets s) f (s_count s) (s_client s) (s_tasks s) (s_out s) (s_crash s).
Definition set_tasks t (s : state) : state := mkstate (s_next s) (s_sets s) (s_objs s) (s_count s) (s_client s) t (s_out s) (s_crash s).
(** aws_mqtt5_listener_new, mqtt5_listener.c:83-106; mqtt311_listener.c:94-125: a reference for the caller and one for the task *)
Definition new (h : handlers) (s : state) : state :=
  let u := s_count s in
  emit (I_NEW u h) (mkstate (s_next s) (s_sets s) (put u (Some (mkobj 2 0 h)) (s_objs s)) (u + 1) (s_client s + 1) (s_tasks s ++ [INIT u]) (s_out s) (s_crash s)).
(** aws_mqtt5_listener_acquire, mqtt5_listener.c:108-114; mqtt311_listener.c:127-133 *)
Definition acquire (u : N) (s : state) : state :=
  match s_objs s u with
  | None => crash s
  | Some o => if o_refs o =? 0 then crash s else set_objs (put u (Some (mkobj (o_refs o + 1) (o_set o) (o_handlers o))) (s_objs s)) s
  end.
(** aws_mqtt5_listener_release and s_aws_mqtt5_listener_on_zero_ref_count, mqtt5_listener.c:77-81, :116-122; mqtt311_listener.c:87-92, :135-141 *)
Definition release (u : N) (s : state) : state :=
  match s_objs s u with
  | None => crash s
  | Some o =>
    if o_refs o =? 0 then crash s
    else let s1 := set_objs (put u (Some (mkobj (o_refs o - 1) (o_set o) (o_handlers o))) (s_objs s)) s in
         if o_refs o =? 1 then set_tasks (s_tasks s1 ++ [TERM u]) s1 else s1
  end.
(** s_mqtt5_listener_initialize_task_fn, mqtt5_listener.c:39-57, and aws_mqtt5_callback_set_manager_push_front, mqtt5_callbacks.c:45-75; mqtt311_listener.c:51-69, :180-214 *)
Definition init_task (u : N) (s : state) : state :=
  match s_objs s u with
  | None => crash s
  | Some o =>
    let id := s_next s in
    release u (mkstate ((id + 1) mod two64) ((id, (u, o_handlers o)) :: s_sets s) (put u (Some (mkobj (o_refs o) id (o_handlers o))) (s_objs s)) (s_count s) (s_client s) (s_tasks s) (s_out s) (s_crash s))
  end.
(** aws_mqtt5_callback_set_manager_remove, mqtt5_callbacks.c:77-103; mqtt311_listener.c:216-247 *)
Fixpoint remove_set (id : N) (l : list (N * (N * handlers))) : list (N * (N * handlers)) := match l with [] => [] | e :: m => if fst e =? id then m else e :: remove_set id m end.
(** s_mqtt5_listener_terminate_task_fn and s_mqtt5_listener_destroy, mqtt5_listener.c:24-37, :59-75; mqtt311_listener.c:38-49, :71-85. A termination callback is given *)
Definition term_task (u : N) (s : state) : state :=
  match s_objs s u with
  | None => crash s
  | Some o => emit (O_TERMINATED u) (mkstate (s_next s) (remove_set (o_set o) (s_sets s)) (put u None (s_objs s)) (s_count s) (s_client s - 1) (s_tasks s) (s_out s) (s_crash s))
  end.
(** aws_mqtt5_callback_set_manager_on_publish_received, mqtt5_callbacks.c:105-131; [answer]: what the handler of a listener returns. mqtt311_listener.c:249-276, where handlers return nothing *)
Fixpoint publish (cf : config) (m : N) (answer : N -> bool) (l : list (N * (N * handlers))) (s : state) : state :=
  match l with
  | [] => if cf_five cf && cf_publish cf then emit (O_OWN_PUBLISH m) s else s
  | (_, (u, h)) :: l => if h_publish h then let s1 := emit (O_PUBLISH u m) s in if cf_five cf && answer u then s1 else publish cf m answer l s1 else publish cf m answer l s
  end.
(** aws_mqtt5_callback_set_manager_on_lifecycle_event, mqtt5_callbacks.c:133-162; mqtt311_listener.c:278-340 *)
Fixpoint tell (cf : config) (e : N) (l : list (N * (N * handlers))) (s : state) : state :=
  match l with
  | [] => if cf_five cf && cf_event cf then emit (O_OWN_EVENT e) s else s
  | (_, (u, h)) :: l => tell cf e l (if h_event h e then emit (O_EVENT u e) s else s)
  end.
(** what happens: calls of the user, the event loop runs the n-th of the tasks that are scheduled, a message or another event of the client *)
Inductive op := NEW (h : handlers) | ACQUIRE (u : N) | RELEASE (u : N) | RUN (n : nat) | PUBLISH (m : N) (answer : N -> bool) | EVENT (e : N).
Fixpoint drop (n : nat) (l : list task) : list task := match l, n with [], _ => [] | _ :: l, O => l | x :: l, S n => x :: drop n l end.
Definition handle (cf : config) (s : state) (o : op) : state :=
  if s_crash s then s else
  match o with
  | NEW h => new h s
  | ACQUIRE u => acquire u (emit (I_ACQUIRE u) s)
  | RELEASE u => release u (emit (I_RELEASE u) s)
  | RUN n => match nth_error (s_tasks s) n with
             | None => s
             | Some (INIT u) => init_task u (emit (T_INIT u) (set_tasks (drop n (s_tasks s)) s))
             | Some (TERM u) => term_task u (set_tasks (drop n (s_tasks s)) s)
             end
  | PUBLISH m answer => publish cf m answer (s_sets s) s
  | EVENT e => tell cf e (s_sets s) s
  end.
Definition history (cf : config) (l : list op) : state := fold_left (handle cf) l initial.
