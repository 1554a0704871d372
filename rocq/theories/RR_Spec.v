(** Vocabulary for the properties of the request-response client: what an observer sees of it. The client's outputs are its calls to the user's
    callbacks and its requests to the protocol client; its inputs are API calls, completions and events from the protocol client. *)
From Verif Require Import Base Split TopicAlias_Model SubSet_Model RR_Model.
From Verif Require Topic_Spec SubSet_Spec TopicTree_Spec.

(** everything that has been observed, in order *)
Definition trace (s : client) : list out := rev (c_out s).
Definition count {A} (p : A -> bool) (l : list A) : nat := length (filter p l).
(** the user has not yet let go of the client *)
Definition running (tr : list out) : Prop := ~ In I_SHUTDOWN tr.

(** *** Subscriptions *)
(** a request to subscribe ([true]) or unsubscribe from [f] was passed on to the protocol client *)
Definition asks (b : bool) (f : bytes) (x : out) : bool :=
  match b, x with true, O_SUBSCRIBE g true | false, O_UNSUBSCRIBE g true => bytes_eqb f g | _, _ => false end.
(** ... and was completed *)
Definition acks (b : bool) (f : bytes) (x : out) : bool :=
  match b, x with true, I_SUBACK g _ | false, I_UNSUBACK g _ => bytes_eqb f g | _, _ => false end.
(** how many of them are under way *)
Definition waiting (b : bool) (f : bytes) (tr : list out) : nat := (count (asks b f) tr - count (acks b f) tr)%nat.
(** whether the client has a subscription to [f]: the last thing heard about it was that it was granted *)
Definition hears (f : bytes) (h : bool) (x : out) : bool :=
  match x with
  | I_SUBACK g true => if bytes_eqb f g then true else h
  | I_UNSUBACK g true => if bytes_eqb f g then false else h
  | I_CONNECTED false => false
  | _ => h
  end.
Definition held (f : bytes) (tr : list out) : bool := fold_left (hears f) tr false.
(** subscriptions a broker may count: held or asked for *)
Definition occupied (f : bytes) (tr : list out) : Prop := held f tr = true \/ (0 < waiting true f tr)%nat.
(** [f] is a filter of some operation of kind [k] *)
Definition used_for (k : kind) (f : bytes) (tr : list out) : Prop := exists id w d, In (I_OPERATION id w d) tr /\ In f (filters_of w) /\ kind_of w = k.
(** how many subscriptions a client may hold for each kind of operation *)
Definition allowance (cf : config) (k : kind) : N := match k with REQUEST => cf_max_requests cf | STREAM => cf_max_streams cf end.
(** the options are 64-bit numbers *)
Definition config_ok (cf : config) : Prop := cf_max_requests cf < two64.

(** *** Requests *)
(** the completion callback of request [id] is called; its message is handed to the protocol client (whether or not it is accepted); it is taken from the queue *)
Definition completes (id : N) (x : out) : bool := match x with O_COMPLETE i _ => N.eqb i id | _ => false end.
Definition publishes (id : N) (x : out) : bool := match x with O_PUBLISH i _ => N.eqb i id | _ => false end.
Definition takes (id : N) (x : out) : bool := match x with O_INTAKE i _ => N.eqb i id | _ => false end.
(** request [id] had been completed when it was taken from the queue *)
Definition taken_too_late (id : N) (tr : list out) : Prop := exists tr1 a tr2 r, tr = tr1 ++ O_INTAKE id a :: tr2 /\ In (O_COMPLETE id r) tr1.
(** ... and when its message was published *)
Definition published_too_late (id : N) (tr : list out) : Prop := exists tr1 ok tr2 r, tr = tr1 ++ O_PUBLISH id ok :: tr2 /\ In (O_COMPLETE id r) tr1.

(** *** Reasons *)
(** operation [id] is one of [w], with deadline [d] *)
Definition is_op (id : N) (w : work) (tr : list out) : Prop := exists d, In (I_OPERATION id w d) tr.
(** [f] is one of its filters *)
Definition uses (id : N) (f : bytes) (tr : list out) : Prop := exists w, is_op id w tr /\ In f (filters_of w).
(** a subscription to [f] has been refused, by the protocol client or by the server *)
Definition refused (f : bytes) (tr : list out) : Prop := In (O_SUBSCRIBE f false) tr \/ In (I_SUBACK f false) tr.
(** a filter of [id] is in use by operations of the other kind *)
Definition clashes (id : N) (tr : list out) : Prop := exists w f k, is_op id w tr /\ In f (filters_of w) /\ used_for k f tr /\ k <> kind_of w.
(** what must have happened for each callback *)
Definition has_reason (cf : config) (tr : list out) (x : out) : Prop :=
  match x with
  | O_COMPLETE id (RESPONSE topic payload) => exists r j path, is_op id (W_REQUEST r) tr /\ In (I_MESSAGE topic payload j) tr /\ token_in path j = Some (r_token r) /\
      exists id' r', is_op id' (W_REQUEST r') tr /\ In (topic, path) (r_paths r')
  | O_COMPLETE id (FAILED E_TIMEOUT) => exists r d now, In (I_OPERATION id (W_REQUEST r) d) tr /\ In (I_TICK now) tr /\ d <= now
  | O_COMPLETE _ (FAILED E_SHUT_DOWN) | O_STATUS _ (S_HALTED E_SHUT_DOWN) => In I_SHUTDOWN tr
  | O_COMPLETE id (FAILED E_PUBLISH_FAILURE) => In (O_PUBLISH id false) tr \/ In (I_PUBACK id false) tr
  | O_COMPLETE id (FAILED E_SUBSCRIBE_FAILURE) => clashes id tr \/ exists f, uses id f tr /\ (refused f tr \/ (In (I_SUBACK f true) tr /\ In (I_CONNECTED false) tr))
  | O_COMPLETE _ (FAILED E_NO_CAPACITY) => False
  | O_STATUS id S_ESTABLISHED => exists f, is_op id (W_STREAM f) tr /\ In (I_SUBACK f true) tr
  | O_STATUS id S_LOST => exists f, is_op id (W_STREAM f) tr /\ In (I_SUBACK f true) tr /\ In (I_CONNECTED false) tr
  | O_STATUS id (S_HALTED E_SUBSCRIBE_FAILURE) => clashes id tr \/ exists f, is_op id (W_STREAM f) tr /\ refused f tr
  | O_STATUS id (S_HALTED E_NO_CAPACITY) => In (O_INTAKE id A_NO_CAPACITY) tr
  | O_STATUS _ (S_HALTED _) => False
  | O_MESSAGE id topic payload => exists f j, is_op id (W_STREAM f) tr /\ In (I_MESSAGE topic payload j) tr /\ SubSet_Spec.topic_matches f topic
  | I_OPERATION _ w d => Forall Topic_Spec.topic_filter (filters_of w) /\ match w with W_REQUEST _ => exists now tr', tr = tr' ++ [I_TICK now] /\ d = (now + cf_timeout_s cf * 1000000000) mod two64 | W_STREAM _ => True end
  | O_INTAKE id A_FAILURE => clashes id tr \/ exists f, uses id f tr /\ refused f tr
  | _ => True
  end.
(** *** Streams *)
(** stream [id] has been accepted, has not been told that it has come to a halt, and is not yet gone *)
Definition in_use (id : N) (tr : list out) : Prop :=
  (In (O_INTAKE id A_SUBSCRIBING) tr \/ In (O_INTAKE id A_SUBSCRIBED) tr) /\ (forall e, ~ In (O_STATUS id (S_HALTED e)) tr) /\ ~ In (O_GONE id) tr.
(** it is given the message *)
Definition gets (id : N) (topic payload : bytes) (x : out) : bool := match x with O_MESSAGE i t p => N.eqb i id && bytes_eqb t topic && bytes_eqb p payload | _ => false end.
(** *** Publishing *)
(** the client was subscribed to [f] when it took request [id] from the queue, or has been since; [tr] ends when its message is published *)
Definition subscribed_for (id : N) (f : bytes) (tr : list out) : Prop :=
  exists tr0 a mid, tr = tr0 ++ O_INTAKE id a :: mid /\ ((a = A_SUBSCRIBED /\ held f tr0 = true) \/ In (I_SUBACK f true) mid).
