(** The claims about a 3.1.1 connection that runs on an MQTT 5 client. [history b l]: after the operations [l], the client being stopped at first ([b]) or not; [b_out]: the trace, newest first *)
From Verif Require Import Base Bridge_Model Bridge_Spec Bridge_Proofs.

(** C80. The completion callback of a connect is called at most once, and not before the connect is carried out *)
Theorem C80_at_most_once b l id : let tr := b_out (history b l) in sane tr -> (answers id tr <= 1)%nat /\ (~ In (T_CONNECT id) tr -> answers id tr = O).
Proof. intros tr S. assert (V := history_inv b l S). split; [apply (v_answers _ V)|apply answers_in, V]. Qed.
Print Assumptions C80_at_most_once.
(** It is called, unless nothing has settled the connect yet: no connection, no failure, no disconnect. This holds if nobody else stops the client meanwhile *)
Theorem C80_answered b l : let tr := b_out (history b l) in sane tr -> undisturbed tr ->
  waiting tr = [] \/ exists id mid rest, waiting tr = [id] /\ tr = mid ++ T_CONNECT id :: rest /\ forall e, In e mid -> ~ settles e.
Proof.
  intros tr S U. assert (V := history_inv b l S). assert (W := history_one b l S U). unfold one in W. fold tr in W. destruct (b_phase (history b l)) eqn:P; auto. destruct (v_first _ V P) as (id & A & _ & _ & B). rewrite A in W. right. destruct (unsettled_at _ _ B) as (mid & rest & E & F). exists id, mid, rest. auto.
Qed.
Print Assumptions C80_answered.
(** If somebody does, the callback is never called: a connect, the client is stopped by others, and a second connect that succeeds *)
Theorem C80_answered_refuted : ~ (forall b l, let tr := b_out (history b l) in sane tr -> waiting tr = [] \/ exists id mid rest, waiting tr = [id] /\ tr = mid ++ T_CONNECT id :: rest /\ forall e, In e mid -> ~ settles e).
Proof.
  intro H. specialize (H true [CONNECT; RUN; EVENT STOPPED; CONNECT; RUN; EVENT (CONNECTED false)]). destruct H as [H|(id & mid & rest & H & E & F)]; [vm_compute; intuition discriminate|vm_compute in H; discriminate|].
  vm_compute in H, E. injection H as <-. apply (F (E_EVENT (CONNECTED false))); [|exact I]. do 2 (destruct mid as [|? mid]; [discriminate|injection E as _ E]). destruct mid as [|x mid]; [discriminate|]. injection E as <- _. cbn. auto.
Qed.
Print Assumptions C80_answered_refuted.
(** What it is told is true: success with the session flag of the CONNACK when the client has connected, ALREADY_CONNECTED if connected or connecting, SHUTDOWN for a disconnect, or why the attempt failed *)
Theorem C80_reason b l later id c session earlier : sane (b_out (history b l)) -> b_out (history b l) = later ++ O_COMPLETE id c session :: earlier -> reason id c session earlier.
Proof. intros S E. exact (each_at _ (v_each _ (history_inv b l S)) _ _ _ E). Qed.
Print Assumptions C80_reason.
(** A connect that is carried out while not connected nor connecting starts the client *)
Theorem C80_starts b l id ts : let s := history b l in sane (b_out s) -> b_tasks s = DO_CONNECT id :: ts -> on (b_out s) = false -> waiting (b_out s) = [] ->
  exists x, b_out (history b (l ++ [RUN])) = O_START :: x ++ T_CONNECT id :: b_out s /\ x = map O_DISCONNECTED (leaving (b_out s)).
Proof.
  intros s S T O W. assert (V := history_inv b l S). fold s in V. unfold history. rewrite fold_left_app. fold (history b l). fold s. cbn [fold_left handle]. rewrite T. unfold connect_handler. cbn [emit b_phase]. destruct (b_phase s) eqn:P.
  - destruct (v_first _ V P) as (id' & _ & K & _). rewrite W in K. destruct K.
  - apply (v_on _ V) in P. congruence.
  - assert (K := v_leaving _ V). unfold call_disconnect. cbn [emit b_disconnect]. destruct (b_disconnect s) as [d|]; [destruct K as (_ & -> & _); exists [O_DISCONNECTED d]|rewrite K; exists []]; split; reflexivity.
Qed.
Print Assumptions C80_starts.

(** C81. The callback of a disconnect is called at most once *)
Theorem C81_at_most_once b l id : let tr := b_out (history b l) in sane tr -> (farewells id tr <= 1)%nat /\ (~ In (T_DISCONNECT id) tr -> farewells id tr = O).
Proof. intros tr S. assert (V := history_inv b l S). split; [apply (v_farewells _ V)|apply farewells_in, V]. Qed.
Print Assumptions C81_at_most_once.
(** It is called, unless the client was told to stop by it and since then has not stopped, and there was no connect *)
Theorem C81_answered b l : let tr := b_out (history b l) in sane tr ->
  leaving tr = [] \/ exists id mid near rest, leaving tr = [id] /\ tr = mid ++ O_STOP :: near ++ T_DISCONNECT id :: rest /\ (near = [] \/ exists c e b', near = [O_COMPLETE c e b']) /\ forall e, In e mid -> e <> E_EVENT STOPPED /\ forall v, e <> T_CONNECT v.
Proof.
  intros tr S. assert (K := v_leaving _ (history_inv b l S)). fold tr in K. destruct (b_disconnect (history b l)) as [id|]; [|auto]. destruct K as (_ & A & _ & _ & B). right. destruct (asked_at _ _ B) as (mid & near & rest & C & D & E). exists id, mid, near, rest. auto.
Qed.
Print Assumptions C81_answered.

(** C82. The user is told of interruptions and resumptions only while connected, as the user sees it, and each for an event of the client *)
Theorem C82_only_then b l later e earlier : sane (b_out (history b l)) -> b_out (history b l) = later ++ e :: earlier ->
  match e with
  | O_INTERRUPTED c => on earlier = true /\ exists c' m, c' <> RESET_FOR_CONNECT /\ c = translate c' /\ earlier = E_EVENT (LOST c') :: m
  | O_RESUMED s => on earlier = true /\ exists m, earlier = O_SUCCESS s :: E_EVENT (CONNECTED s) :: m
  | _ => True
  end.
Proof. intros S E. assert (K := each_at _ (v_each _ (history_inv b l S)) _ _ _ E). destruct e; try exact I; exact K. Qed.
Print Assumptions C82_only_then.
(** While connected, every event of the client is passed on, but for those caused by a connect *)
Theorem C82_relayed b l e : let tr := b_out (history b l) in sane tr -> on tr = true -> b_out (history b (l ++ [EVENT e])) =
  match e with
  | CONNECTED s => [O_RESUMED s; O_SUCCESS s]
  | FAILED RESET_FOR_CONNECT | LOST RESET_FOR_CONNECT | ATTEMPTING => []
  | FAILED c => [O_FAILURE (translate c)]
  | LOST c => [O_INTERRUPTED (translate c)]
  | STOPPED => [O_CLOSED]
  end ++ E_EVENT e :: tr.
Proof.
  intros tr S O. assert (V := history_inv b l S). assert (P := proj2 (v_on _ V) O). assert (K := v_leaving _ V). unfold history. rewrite fold_left_app. fold (history b l). cbn [fold_left handle]. unfold lifecycle_handler. destruct e; cbn [emit b_phase]; rewrite ?P; try reflexivity; try (destruct c; reflexivity).
  unfold call_disconnect. cbn [emit b_disconnect]. destruct (b_disconnect (history b l)); [destruct K; congruence|reflexivity].
Qed.
Print Assumptions C82_relayed.
(** [translate]: the codes of the table are replaced, the others are kept *)
Theorem C82_translated c : In (c, translate c) table \/ (~ In c (map fst table) /\ translate c = c).
Proof. destruct c; cbn; tauto || (right; intuition discriminate). Qed.
Print Assumptions C82_translated.
(** While neither connected nor connecting, none is *)
Theorem C82_silent b l e : let tr := b_out (history b l) in sane tr -> on tr = false -> waiting tr = [] -> e <> STOPPED -> b_out (history b (l ++ [EVENT e])) = E_EVENT e :: tr.
Proof.
  intros tr S O W E. assert (V := history_inv b l S). unfold history. rewrite fold_left_app. fold (history b l). cbn [fold_left handle]. unfold lifecycle_handler. cbn [emit b_phase]. destruct (b_phase (history b l)) eqn:P.
  - destruct (v_first _ V P) as (id' & _ & K & _). fold tr in K. rewrite W in K. destruct K.
  - apply (v_on _ V) in P. fold tr in P. congruence.
  - destruct e; try reflexivity; [destruct (is_reset c); reflexivity|congruence].
Qed.
Print Assumptions C82_silent.

(** connect, a second one that is refused, the connection is lost and resumed, disconnect and connect again before the client has stopped, which fails, and disconnect *)
Definition a_use : list op := [CONNECT; CONNECT; RUN; RUN; EVENT ATTEMPTING; EVENT (CONNECTED false); EVENT (LOST PING_TIMEOUT); EVENT (CONNECTED true); DISCONNECT; RUN; CONNECT; RUN; EVENT (LOST RESET_FOR_CONNECT); EVENT (FAILED CONNACK_REFUSED); DISCONNECT; RUN].
Example C80_case : sane (b_out (history true a_use)) /\ undisturbed (b_out (history true a_use)) /\ rev (b_out (history true a_use)) =
  [I_CONNECT 0; I_CONNECT 1; T_CONNECT 0; O_START; T_CONNECT 1; O_COMPLETE 1 ALREADY_CONNECTED false; E_EVENT ATTEMPTING; E_EVENT (CONNECTED false); O_SUCCESS false; O_COMPLETE 0 SUCCESS false; E_EVENT (LOST PING_TIMEOUT); O_INTERRUPTED TIMED_OUT;
   E_EVENT (CONNECTED true); O_SUCCESS true; O_RESUMED true; I_DISCONNECT 2; T_DISCONNECT 2; O_STOP; I_CONNECT 3; T_CONNECT 3; O_DISCONNECTED 2; O_START; E_EVENT (LOST RESET_FOR_CONNECT); E_EVENT (FAILED CONNACK_REFUSED); O_FAILURE PROTOCOL_ERROR; O_COMPLETE 3 PROTOCOL_ERROR false;
   I_DISCONNECT 4; T_DISCONNECT 4; O_DISCONNECTED 4].
Proof.
  split; [vm_compute; intuition discriminate|]. split; [|vm_compute; reflexivity]. intros later earlier E. assert (K : In (E_EVENT STOPPED) (b_out (history true a_use))) by (rewrite E; apply in_app_iff; right; left; reflexivity). vm_compute in K. exfalso. intuition discriminate.
Qed.
(** connected; and waiting for the client to stop *)
Example C82_case : on (b_out (history true (firstn 6 a_use))) = true /\ leaving (b_out (history true (firstn 10 a_use))) = [2] /\ on (b_out (history true (firstn 10 a_use))) = false /\ waiting (b_out (history true (firstn 10 a_use))) = [] /\ waiting (b_out (history true (firstn 4 a_use))) = [0].
Proof. vm_compute. auto. Qed.
