(** The request-response client's functions as sequences of small steps. *)
From Verif Require Import Base Split TopicAlias_Model TopicAlias_Proofs SubSet_Model Topic_Model Paths RR_Model.
From Coq Require Import Permutation.

(** ** Lookup in lists *)
Lemma for_filter_spec f r : for_filter f r = true <-> f = s_filter r.
Proof. unfold for_filter. rewrite bytes_eqb_spec. tauto. Qed.
Lemma has_id_spec id o : has_id id o = true <-> id = o_id o.
Proof. unfold has_id. apply N.eqb_eq. Qed.
Lemma get_sub_filter f s r : get_sub f s = Some r -> s_filter r = f.
Proof. unfold get_sub. intros H. apply find_some in H as [_ H]. apply for_filter_spec in H. auto. Qed.
Lemma get_sub_in f s r : get_sub f s = Some r -> In r (c_subs s).
Proof. unfold get_sub. intros H. apply find_some in H. apply H. Qed.
Lemma get_op_id id s o : get_op id s = Some o -> o_id o = id.
Proof. unfold get_op. intros H. apply find_some in H as [_ H]. apply has_id_spec in H. auto. Qed.
Lemma get_op_in id s o : get_op id s = Some o -> In o (c_ops s).
Proof. unfold get_op. intros H. apply find_some in H. apply H. Qed.
Lemma find_map_keep {A} (p : A -> bool) (g : A -> A) l : (forall x, p (g x) = p x) -> find p (map g l) = option_map g (find p l).
Proof. intros H. induction l as [|x l IH]; [reflexivity|]. cbn [map find]. rewrite H. destruct (p x); [reflexivity|assumption]. Qed.
Lemma find_app {A} (p : A -> bool) l l' : find p (l ++ l') = match find p l with Some x => Some x | None => find p l' end.
Proof. induction l as [|x l IH]; [reflexivity|]. cbn [app find]. destruct (p x); [reflexivity|assumption]. Qed.
Lemma find_none_iff {A} (p : A -> bool) l : find p l = None <-> forall x, In x l -> p x = false.
Proof. split; [apply find_none|]. induction l as [|x l IH]; intros H; [reflexivity|]. cbn [find]. rewrite (H x (or_introl eq_refl)). apply IH. intros y Hy. apply H. right. assumption. Qed.
Lemma find_filter {A} (p q : A -> bool) l : (forall x, In x l -> p x = true -> q x = true) -> find p (filter q l) = find p l.
Proof.
  induction l as [|x l IH]; intros H; [reflexivity|]. cbn [filter find]. assert (IH' := IH (fun y Hy => H y (or_intror Hy))).
  destruct (q x) eqn:E; cbn [find]; destruct (p x) eqn:E2; try reflexivity; try assumption. rewrite (H x (or_introl eq_refl) E2) in E. discriminate.
Qed.
Lemma find_filter_none {A} (p q : A -> bool) l : (forall x, p x = true -> q x = false) -> find p (filter q l) = None.
Proof. intros H. apply find_none_iff. intros x Hx. apply filter_In in Hx as [_ Hq]. destruct (p x) eqn:E; [|reflexivity]. rewrite (H x E) in Hq. discriminate. Qed.

(** [upd_op] and [upd_sub] seen through lookup *)
Lemma get_op_upd id g s i : (forall o, o_id (g o) = o_id o) -> get_op i (upd_op id g s) = (if i =? id then option_map g (get_op i s) else get_op i s).
Proof.
  intros Hg. unfold get_op, upd_op. cbn [c_ops set_ops]. rewrite find_map_keep.
  - destruct (find (has_id i) (c_ops s)) as [o|] eqn:E; cbn [option_map]; [|destruct (i =? id); reflexivity].
    apply find_some in E as [_ E]. apply has_id_spec in E. subst i. unfold has_id. rewrite N.eqb_sym. destruct (o_id o =? id) eqn:E; reflexivity.
  - intros o. unfold has_id. destruct (id =? o_id o); [rewrite Hg|]; reflexivity.
Qed.
Lemma get_op_upd_same id g s : (forall o, o_id (g o) = o_id o) -> get_op id (upd_op id g s) = option_map g (get_op id s).
Proof. intros H. rewrite get_op_upd by assumption. rewrite N.eqb_refl. reflexivity. Qed.
Lemma get_op_upd_other id g s i : i <> id -> (forall o, o_id (g o) = o_id o) -> get_op i (upd_op id g s) = get_op i s.
Proof. intros Hi H. rewrite get_op_upd by assumption. destruct (N.eqb_spec i id); [contradiction|reflexivity]. Qed.
Lemma get_sub_upd f g s f' : (forall r, s_filter (g r) = s_filter r) -> get_sub f' (upd_sub f g s) = (if bytes_eqb f f' then option_map g (get_sub f' s) else get_sub f' s).
Proof.
  intros Hg. unfold get_sub, upd_sub. cbn [c_subs set_subs]. rewrite find_map_keep.
  - destruct (find (for_filter f') (c_subs s)) as [o|] eqn:E; cbn [option_map]; [|destruct (bytes_eqb f f'); reflexivity].
    apply find_some in E as [_ E]. apply for_filter_spec in E. subst f'. unfold for_filter. destruct (bytes_eqb f (s_filter o)); reflexivity.
  - intros o. unfold for_filter. destruct (bytes_eqb f (s_filter o)); [rewrite Hg|]; reflexivity.
Qed.
Lemma get_sub_upd_same f g s : (forall r, s_filter (g r) = s_filter r) -> get_sub f (upd_sub f g s) = option_map g (get_sub f s).
Proof. intros H. rewrite get_sub_upd by assumption. rewrite bytes_eqb_refl. reflexivity. Qed.
Lemma get_sub_upd_other f g s f' : f <> f' -> (forall r, s_filter (g r) = s_filter r) -> get_sub f' (upd_sub f g s) = get_sub f' s.
Proof. intros Hi H. rewrite get_sub_upd by assumption. rewrite (proj2 (bytes_eqb_false f f') Hi). reflexivity. Qed.
Lemma get_sub_drop f s f' : get_sub f' (drop_sub f s) = if bytes_eqb f f' then None else get_sub f' s.
Proof.
  unfold get_sub, drop_sub. cbn [c_subs set_subs]. destruct (bytes_eqb f f') eqn:E.
  - apply bytes_eqb_spec in E. subst f'. apply find_filter_none. intros x Hx. rewrite Hx. reflexivity.
  - apply find_filter. intros x _ Hx. apply for_filter_spec in Hx. unfold for_filter. rewrite <- Hx, E. reflexivity.
Qed.
Lemma nodup_map_keep {A B} (h : A -> B) (g : A -> A) l : (forall x, h (g x) = h x) -> map h (map g l) = map h l.
Proof. intros H. rewrite map_map. apply map_ext. assumption. Qed.
Lemma upd_sub_filters f g s : (forall r, s_filter (g r) = s_filter r) -> map s_filter (c_subs (upd_sub f g s)) = map s_filter (c_subs s).
Proof. intros H. apply nodup_map_keep. intros r. destruct (for_filter f r); [apply H|reflexivity]. Qed.
Lemma upd_op_ids id g s : (forall o, o_id (g o) = o_id o) -> map o_id (c_ops (upd_op id g s)) = map o_id (c_ops s).
Proof. intros H. apply nodup_map_keep. intros r. destruct (has_id id r); [apply H|reflexivity]. Qed.
Lemma in_get_sub s r : NoDup (map s_filter (c_subs s)) -> In r (c_subs s) -> get_sub (s_filter r) s = Some r.
Proof.
  unfold get_sub. induction (c_subs s) as [|x l IH]; intros Hn Hi; [destruct Hi|]. cbn [map] in Hn. inversion Hn as [|y z Hx Hl]; subst.
  cbn [find]. destruct Hi as [->|Hi]; [rewrite (proj2 (for_filter_spec _ r) eq_refl); reflexivity|].
  destruct (for_filter (s_filter r) x) eqn:E; [|auto]. apply for_filter_spec in E. exfalso. apply Hx. rewrite <- E. apply in_map. assumption.
Qed.
Lemma in_get_op s o : NoDup (map o_id (c_ops s)) -> In o (c_ops s) -> get_op (o_id o) s = Some o.
Proof.
  unfold get_op. induction (c_ops s) as [|x l IH]; intros Hn Hi; [destruct Hi|]. cbn [map] in Hn. inversion Hn as [|y z Hx Hl]; subst.
  cbn [find]. destruct Hi as [->|Hi]; [rewrite (proj2 (has_id_spec _ o) eq_refl); reflexivity|].
  destruct (has_id (o_id o) x) eqn:E; [|auto]. apply has_id_spec in E. exfalso. apply Hx. rewrite <- E. apply in_map. assumption.
Qed.
Lemma swap_perm {A} n (l : list A) : Permutation (swap n l) l.
Proof.
  revert l. induction n as [|n IH]; intros [|a l]; cbn [swap]; auto.
  destruct l as [|b l]; [auto|constructor].
Qed.
Lemma get_perm_sub s l : NoDup (map s_filter (c_subs s)) -> Permutation l (c_subs s) -> forall f, get_sub f (set_subs l s) = get_sub f s.
Proof.
  intros Hn Hp f. assert (Hn' : NoDup (map s_filter (c_subs (set_subs l s)))) by (cbn [c_subs set_subs]; eapply Permutation_NoDup; [apply Permutation_map, Permutation_sym, Hp|assumption]).
  destruct (get_sub f s) as [r|] eqn:E.
  - pose proof (get_sub_filter _ _ _ E) as <-. apply (in_get_sub (set_subs l s)); [assumption|]. cbn [c_subs set_subs]. eapply Permutation_in; [apply Permutation_sym, Hp|]. apply get_sub_in with (1 := E).
  - unfold get_sub in *. cbn [c_subs set_subs]. apply find_none_iff. intros x Hx. rewrite find_none_iff in E. apply E. eapply Permutation_in; eassumption.
Qed.
Lemma get_perm_op s l : NoDup (map o_id (c_ops s)) -> Permutation l (c_ops s) -> forall f, get_op f (set_ops l s) = get_op f s.
Proof.
  intros Hn Hp f. assert (Hn' : NoDup (map o_id (c_ops (set_ops l s)))) by (cbn [c_ops set_ops]; eapply Permutation_NoDup; [apply Permutation_map, Permutation_sym, Hp|assumption]).
  destruct (get_op f s) as [r|] eqn:E.
  - pose proof (get_op_id _ _ _ E) as <-. apply (in_get_op (set_ops l s)); [assumption|]. cbn [c_ops set_ops]. eapply Permutation_in; [apply Permutation_sym, Hp|]. apply get_op_in with (1 := E).
  - unfold get_op in *. cbn [c_ops set_ops]. apply find_none_iff. intros x Hx. rewrite find_none_iff in E. apply E. eapply Permutation_in; eassumption.
Qed.

(** notifications, all at once *)
Definition told (e : sub_event) (r : sub) (s : client) : client := set_events (c_events s ++ map (fun id => (e, s_filter r, id)) (s_listeners r)) s.
Lemma notify_told e r s : c_phase s = ACTIVE -> notify e r s = told e r s.
Proof.
  unfold notify, told. intros Ha. revert s Ha. induction (s_listeners r) as [|id l IH]; intros s Ha; cbn [fold_left map].
  - rewrite app_nil_r. destruct s. reflexivity.
  - rewrite IH; unfold status; rewrite Ha; cbn [active set_events c_events c_phase]; [rewrite <- app_assoc; reflexivity|assumption].
Qed.

(** ** Steps *)
(** what the client is in the middle of *)
Inductive ghost :=
| IDLE
| TAKING (o : op) (rest : list bytes)                   (* acquiring the filters of the head of the queue *)
| TOOK (o : op) (a : acquired)                          (* it has been taken from the queue *)
| TABLED (o : op) (a : acquired)                        (* it is in the tables *)
| PUBLISHING (o : op)                                   (* its publish is about to be made *)
| REFUSED (o : op)                                      (* ... has been refused *)
| HANDLING (e : sub_event) (f : bytes) (id : N)         (* a status event *)
| ACKED (b : bool) (f : bytes) (ok : bool)              (* a completion of a subscribe (true), unsubscribe (false) *)
| PUBBED (id : N) (ok : bool)
| MESSAGE (topic payload : bytes) (j : option json)
| LEAVING (o : op) (rest : list bytes)                  (* destroying an operation *)
| LOSING (rest : list bytes)                            (* the session has been lost *)
| CLEANING (rest : list bytes)
| FAILING (rest : list N)                               (* shutting down *)
| CLOSED (o : op).                                      (* a submit task after shutdown *)

(** what the user is told when an operation cannot have its subscriptions *)
Definition refusal (a : acquired) (e : failure) : Prop := (a = A_FAILURE /\ e = E_SUBSCRIBE_FAILURE) \/ (a = A_NO_CAPACITY /\ e = E_NO_CAPACITY).
(** why a request may be completed *)
Inductive cause : ghost -> op -> result -> client -> Prop :=
| C_refused o o' a e s : o_id o = o_id o' -> refusal a e -> cause (TOOK o a) o' (FAILED e) s
| C_publish o o' s : o_id o = o_id o' -> cause (REFUSED o) o' (FAILED E_PUBLISH_FAILURE) s
| C_event e f o s : (e = SUBSCRIBE_FAILURE \/ e = SUBSCRIPTION_ENDED) -> o_tracked o = true -> cause (HANDLING e f (o_id o)) o (FAILED E_SUBSCRIBE_FAILURE) s
| C_puback o s : o_tracked o = true -> cause (PUBBED (o_id o) false) o (FAILED E_PUBLISH_FAILURE) s
| C_shutdown o l s : In (o_id o) l -> cause (FAILING l) o (FAILED E_SHUT_DOWN) s
| C_closed o o' s : o_id o = o_id o' -> cause (CLOSED o) o' (FAILED E_SHUT_DOWN) s
| C_response o topic payload j path n t s : find_key topic (c_paths s) = Some (path, n) -> token_in path j = Some t -> find_key t (c_tokens s) = Some (o_id o) ->
    cause (MESSAGE topic payload j) o (RESPONSE topic payload) s.
Definition completed (o : op) (r : result) (s : client) : client := release (o_id o) (upd_op (o_id o) (set_state S_PENDING_DESTROY) (emit (O_COMPLETE (o_id o) r) s)).
Definition halted (o : op) (e : failure) (s : client) : client := upd_op (o_id o) (set_state S_TERMINAL) (emit (O_STATUS (o_id o) (S_HALTED e)) s).
Inductive halt_cause : ghost -> op -> failure -> Prop :=
| H_refused o o' a e : o_id o = o_id o' -> refusal a e -> halt_cause (TOOK o a) o' e
| H_event f o : o_tracked o = true -> halt_cause (HANDLING HALTED f (o_id o)) o E_SUBSCRIBE_FAILURE
| H_shutdown o l : In (o_id o) l -> halt_cause (FAILING l) o E_SHUT_DOWN
| H_closed o o' : o_id o = o_id o' -> halt_cause (CLOSED o) o' E_SHUT_DOWN.
Definition submitted (id : N) (now : N) (s : client) : client :=
  release id (wake now (emit (I_QUEUED id) (upd_op id (set_state S_QUEUED) (set_queue (c_queue s ++ [id])
         (upd_op id (fun o => set_timed (match o_kind o with REQUEST => true | STREAM => false end) (set_tracked true o)) (upd_op id (set_submitting false) s)))))).
(** the operation is forgotten, but for its filters, token and paths *)
Definition left (o : op) (s : client) : client :=
  let s0 := set_ops (filter (fun x => negb (has_id (o_id o) x)) (c_ops s)) s in
  let not_me := fun i => negb (N.eqb (o_id o) i) in
  set_streams (map (fun e => (fst e, filter not_me (snd e))) (c_streams s0)) (set_queue (filter not_me (c_queue s0)) s0).
Definition untabled (o : op) (s : client) : client :=
  match o_work o with
  | W_STREAM _ => s
  | W_REQUEST r => if o_tables o then fold_left drop_path (r_paths r) (set_tokens (remove_key (r_token r) (c_tokens s)) s) else s
  end.
(** an incoming message, streaming operations only *)
Definition streamed (topic payload : bytes) (s : client) : client :=
  let s1 := match find_key topic (filter (fun e => negb (has_wildcard (fst e))) (c_streams s)) with Some l => fold_left (deliver topic payload) l s | None => s end in
  fold_left (fun s e => if topic_matched topic (fst e) then fold_left (deliver topic payload) (snd e) s else s) (filter (fun e => has_wildcard (fst e)) (c_streams s)) s1.
Definition subscribing (f : bytes) (s : client) : client := upd_sub f (with_pending SUBSCRIBING) (set_flights (c_flights s ++ [(true, f)]) (emit (O_SUBSCRIBE f true) s)).
Definition unsubscribing (f : bytes) (s : client) : client := upd_sub f (with_pending UNSUBSCRIBING) (set_flights (c_flights s ++ [(false, f)]) (emit (O_UNSUBSCRIBE f true) s)).

(** an event which ends an operation has been dealt with *)
Definition dealt (e : sub_event) (id : N) (s : client) : Prop := forall o, get_op id s = Some o -> o_tracked o = true ->
  (e = SUBSCRIBE_FAILURE \/ e = SUBSCRIPTION_ENDED -> o_kind o = REQUEST -> o_state o = S_PENDING_DESTROY) /\ (e = HALTED -> o_kind o = STREAM -> o_state o = S_PENDING_DESTROY \/ o_state o = S_TERMINAL).
Inductive prim (cf : config) : ghost * client -> ghost * client -> Prop :=
(* API and tasks *)
| P_tick now s : prim cf (IDLE, s) (IDLE, emit (I_TICK now) s)
| P_create now w s : c_phase s = ACTIVE -> valid_work w = true -> (exists l, c_out s = I_TICK now :: l) -> prim cf (IDLE, s) (IDLE, create cf now w s)
| P_activate id o s : get_op id s = Some o -> o_kind o = STREAM -> o_open o = true -> o_activated o = false -> prim cf (IDLE, s) (IDLE, activate_stream id s)
| P_close id o s : get_op id s = Some o -> o_kind o = STREAM -> o_open o = true -> prim cf (IDLE, s) (IDLE, release id (upd_op id (set_open false) (emit (I_CLOSE id) s)))
| P_submit id o now s : c_phase s = ACTIVE -> get_op id s = Some o -> o_submitting o = true -> prim cf (IDLE, s) (IDLE, submitted id now s)
| P_closed id o s : c_phase s <> ACTIVE -> get_op id s = Some o -> o_submitting o = true -> prim cf (IDLE, s) (CLOSED o, upd_op id (set_submitting false) s)
| P_closed_done o s : prim cf (CLOSED o, s) (IDLE, release (o_id o) s)
| P_begin s : prim cf (IDLE, s) (IDLE, set_scheduled 0 s)
| P_end n s : prim cf (IDLE, s) (IDLE, set_scheduled n s)
| P_timeout o now s : earliest (c_ops s) = Some o -> o_deadline o <= now -> In (I_TICK now) (c_out s) -> prim cf (IDLE, s) (IDLE, fail (o_id o) E_TIMEOUT (upd_op (o_id o) (set_timed false) s))
| P_take id o q s : c_phase s = ACTIVE -> c_queue s = id :: q -> get_op id s = Some o -> can_dequeue o s = true -> refuses cf (o_kind o) (o_filters o) s = None ->
    prim cf (IDLE, s) (TAKING o (o_filters o), s)
| P_refuse id o q a s : c_phase s = ACTIVE -> c_queue s = id :: q -> get_op id s = Some o -> can_dequeue o s = true -> refuses cf (o_kind o) (o_filters o) s = Some a -> a <> A_BLOCKED ->
    prim cf (IDLE, s) (TOOK o a, emit (O_INTAKE id a) (set_queue q s))
| P_listen o f rest s : c_phase s = ACTIVE -> prim cf (TAKING o (f :: rest), s) (TAKING o rest, listen (o_kind o) (o_id o) s f)
| P_took o a s : c_phase s = ACTIVE -> a <> A_BLOCKED -> a <> A_NO_CAPACITY -> (a = A_SUBSCRIBED -> forall f, In f (o_filters o) -> exists r, get_sub f s = Some r /\ s_subscribed r = true) ->
    (a = A_SUBSCRIBING -> exists f, In f (o_filters o) /\ exists r, get_sub f s = Some r /\ s_subscribed r = false) ->
    (a = A_FAILURE -> exists f, In f (o_filters o) /\ In (O_SUBSCRIBE f false) (c_out s)) ->
    prim cf (TAKING o [], s) (TOOK o a, emit (O_INTAKE (o_id o) a) (set_queue (tl (c_queue s)) s))
| P_failed o a s : a = A_FAILURE \/ a = A_NO_CAPACITY -> (forall o', get_op (o_id o) s = Some o' -> o_state o' = S_PENDING_DESTROY \/ o_state o' = S_TERMINAL) -> prim cf (TOOK o a, s) (IDLE, s)
| P_tables o a s : c_phase s = ACTIVE -> a = A_SUBSCRIBING \/ a = A_SUBSCRIBED -> prim cf (TOOK o a, s) (TABLED o a, add_tables o s)
| P_wait o s : prim cf (TABLED o A_SUBSCRIBING, s) (IDLE, upd_op (o_id o) (set_state S_PENDING_SUBSCRIPTION) s)
| P_stream o s : o_kind o = STREAM -> prim cf (TABLED o A_SUBSCRIBED, s) (IDLE, emit (O_STATUS (o_id o) S_ESTABLISHED) (upd_op (o_id o) (set_state S_SUBSCRIBED) s))
| P_now o s : o_kind o = REQUEST -> prim cf (TABLED o A_SUBSCRIBED, s) (PUBLISHING o, s)
| P_publish o s : o_kind o = REQUEST -> prim cf (PUBLISHING o, s) (IDLE, set_publishes (c_publishes s ++ [o_id o]) (emit (O_PUBLISH (o_id o) true) s))
| P_publish_refused o s : o_kind o = REQUEST -> prim cf (PUBLISHING o, s) (REFUSED o, emit (O_PUBLISH (o_id o) false) s)
| P_refused_done o s : (forall o', get_op (o_id o) s = Some o' -> o_kind o' = REQUEST -> o_state o' = S_PENDING_DESTROY) -> prim cf (REFUSED o, s) (IDLE, s)
| P_complete g o r s : get_op (o_id o) s = Some o -> o_kind o = REQUEST -> o_state o <> S_PENDING_DESTROY -> cause g o r s -> prim cf (g, s) (g, completed o r s)
| P_complete_crash g o r s : get_op (o_id o) s = Some o -> o_kind o = STREAM -> cause g o r s -> (forall o0 a, g <> TOOK o0 a) -> (forall l, g <> FAILING l) -> (forall o0, g <> CLOSED o0) ->
    prim cf (g, s) (g, crash s)
| P_halt g o e s : get_op (o_id o) s = Some o -> o_kind o = STREAM -> o_state o <> S_PENDING_DESTROY -> o_state o <> S_TERMINAL -> halt_cause g o e -> prim cf (g, s) (g, halted o e s)
| P_halt_crash f o s : get_op (o_id o) s = Some o -> o_kind o = REQUEST -> o_tracked o = true -> prim cf (HANDLING HALTED f (o_id o), s) (IDLE, crash s)
(* status events *)
| P_pop e f id l s : c_events s = (e, f, id) :: l -> prim cf (IDLE, s) (HANDLING e f id, set_events l s)
| P_handled e f id s : dealt e id s -> prim cf (HANDLING e f id, s) (IDLE, s)
| P_wake e f id now s : e = EMPTY \/ e = UNSUBSCRIBE_COMPLETE -> prim cf (HANDLING e f id, s) (IDLE, wake now s)
| P_count f id o p s : get_op id s = Some o -> o_tracked o = true -> o_state o = S_PENDING_SUBSCRIPTION -> p = (if o_pending o =? 0 then two64 - 1 else o_pending o - 1) -> p <> 0 ->
    prim cf (HANDLING SUBSCRIBE_SUCCESS f id, s) (IDLE, upd_op id (set_pending p) s)
| P_ready f id o s : get_op id s = Some o -> o_tracked o = true -> o_state o = S_PENDING_SUBSCRIPTION -> o_pending o = 1 ->
    prim cf (HANDLING SUBSCRIBE_SUCCESS f id, s) (PUBLISHING o, upd_op id (set_state S_PENDING_RESPONSE) (upd_op id (set_pending 0) s))
| P_publish_crash o s : o_kind o = STREAM -> prim cf (PUBLISHING o, s) (IDLE, crash s)
| P_established f id o s : get_op id s = Some o -> o_tracked o = true -> o_kind o = STREAM ->
    prim cf (HANDLING ESTABLISHED f id, s) (IDLE, emit (O_STATUS id S_ESTABLISHED) (if state_is S_PENDING_SUBSCRIPTION o then upd_op id (set_state S_SUBSCRIBED) s else s))
| P_lost f id o s : get_op id s = Some o -> o_tracked o = true -> o_kind o = STREAM -> prim cf (HANDLING LOST f id, s) (IDLE, emit (O_STATUS id S_LOST) s)
| P_stream_crash e f id o s : e = ESTABLISHED \/ e = LOST -> get_op id s = Some o -> o_kind o = REQUEST -> prim cf (HANDLING e f id, s) (IDLE, crash s)
(* completions and events from the protocol client *)
| P_acked b f ok s : existsb (flight_eqb (b, f)) (c_flights s) = true ->
    prim cf (IDLE, s) (ACKED b f ok, emit (if b then I_SUBACK f ok else I_UNSUBACK f ok) (set_flights (remove_first flight_eqb (b, f) (c_flights s)) s))
| P_acked_late b f ok s : c_phase s <> ACTIVE \/ get_sub f s = None -> prim cf (ACKED b f ok, s) (IDLE, s)
| P_acked_crash (b : bool) f ok r s : c_phase s = ACTIVE -> get_sub f s = Some r -> s_pending r <> (if b then SUBSCRIBING else UNSUBSCRIBING) -> prim cf (ACKED b f ok, s) (IDLE, crash s)
| P_suback_ok f r s : c_phase s = ACTIVE -> get_sub f s = Some r -> s_pending r = SUBSCRIBING ->
    prim cf (ACKED true f true, s) (IDLE, told (match s_kind r with REQUEST => SUBSCRIBE_SUCCESS | STREAM => ESTABLISHED end) r (upd_sub f (with_subscribed true) (upd_sub f (with_pending NOTHING) s)))
| P_suback_failed f r s : c_phase s = ACTIVE -> get_sub f s = Some r -> s_pending r = SUBSCRIBING -> s_kind r = REQUEST ->
    prim cf (ACKED true f false, s) (IDLE, told SUBSCRIBE_FAILURE r (upd_sub f (with_pending NOTHING) s))
| P_suback_retry f r s : c_phase s = ACTIVE -> get_sub f s = Some r -> s_pending r = SUBSCRIBING -> s_kind r = STREAM ->
    prim cf (ACKED true f false, s) (IDLE, upd_sub f (with_pending NOTHING) s)
| P_suback_halt f r s : c_phase s = ACTIVE -> get_sub f s = Some r -> s_pending r = SUBSCRIBING -> s_kind r = STREAM ->
    prim cf (ACKED true f false, s) (IDLE, told HALTED r (upd_sub f poisoned (upd_sub f (with_pending NOTHING) s)))
| P_unsuback_ok f r s : c_phase s = ACTIVE -> get_sub f s = Some r -> s_pending r = UNSUBSCRIBING ->
    prim cf (ACKED false f true, s) (IDLE, set_events (c_events s ++ [(UNSUBSCRIBE_COMPLETE, f, 0)]) (upd_sub f (with_subscribed false) (upd_sub f (with_pending NOTHING) s)))
| P_unsuback_failed f r s : c_phase s = ACTIVE -> get_sub f s = Some r -> s_pending r = UNSUBSCRIBING -> prim cf (ACKED false f false, s) (IDLE, upd_sub f (with_pending NOTHING) s)
| P_pubbed id ok s : existsb (N.eqb id) (c_publishes s) = true -> prim cf (IDLE, s) (PUBBED id ok, emit (I_PUBACK id ok) (set_publishes (remove_first N.eqb id (c_publishes s)) s))
| P_pubbed_done id ok s : prim cf (PUBBED id ok, s) (IDLE, s)
| P_connected s : c_phase s = ACTIVE -> prim cf (IDLE, s) (IDLE, set_connected true (emit (I_CONNECTED true) s))
| P_session_lost s : c_phase s = ACTIVE -> prim cf (IDLE, s) (LOSING (map s_filter (c_subs s)), set_connected true (emit (I_CONNECTED false) s))
| P_lose_none f rest s : (forall r, get_sub f s = Some r -> s_subscribed r = false) -> prim cf (LOSING (f :: rest), s) (LOSING rest, s)
| P_lose_done s : c_phase s = ACTIVE -> prim cf (LOSING [], s) (IDLE, s)
| P_disconnected s : c_phase s = ACTIVE -> prim cf (IDLE, s) (IDLE, set_connected false (emit I_DISCONNECTED s))
| P_lose_request f r rest s : c_phase s = ACTIVE -> get_sub f s = Some r -> s_subscribed r = true -> s_kind r = REQUEST -> s_pending r <> UNSUBSCRIBING ->
    prim cf (LOSING (f :: rest), s) (LOSING rest, drop_sub f (told SUBSCRIPTION_ENDED r (upd_sub f (with_subscribed false) s)))
| P_lose_leaving f r rest s : c_phase s = ACTIVE -> get_sub f s = Some r -> s_subscribed r = true -> s_kind r = REQUEST -> s_pending r = UNSUBSCRIBING ->
    prim cf (LOSING (f :: rest), s) (LOSING rest, told SUBSCRIPTION_ENDED r (upd_sub f (with_subscribed false) s))
| P_lose_stream f r rest s : c_phase s = ACTIVE -> get_sub f s = Some r -> s_subscribed r = true -> s_kind r = STREAM ->
    prim cf (LOSING (f :: rest), s) (LOSING rest, told LOST r (upd_sub f (with_subscribed false) s))
(* subscribing and unsubscribing *)
| P_subscribe g f r s : c_phase s = ACTIVE -> g = IDLE \/ (exists o, g = TAKING o []) -> get_sub f s = Some r -> s_poisoned r = false -> c_connected s = true -> s_listeners r <> [] -> s_subscribed r = false -> s_pending r = NOTHING ->
    prim cf (g, s) (g, subscribing f s)
| P_subscribe_failed g f r s : c_phase s = ACTIVE -> g = IDLE \/ (exists o, g = TAKING o []) -> get_sub f s = Some r -> s_poisoned r = false -> s_subscribed r = false -> s_pending r = NOTHING -> s_kind r = REQUEST ->
    prim cf (g, s) (g, told SUBSCRIBE_FAILURE r (emit (O_SUBSCRIBE f false) s))
| P_subscribe_halt g f r s : c_phase s = ACTIVE -> g = IDLE \/ (exists o, g = TAKING o []) -> get_sub f s = Some r -> s_poisoned r = false -> s_subscribed r = false -> s_pending r = NOTHING -> s_kind r = STREAM ->
    prim cf (g, s) (g, told HALTED r (upd_sub f poisoned (emit (O_SUBSCRIBE f false) s)))
| P_unsubscribe f r s : c_phase s = ACTIVE -> get_sub f s = Some r -> s_listeners r = [] -> c_connected s = true -> s_subscribed r = true -> s_pending r <> UNSUBSCRIBING -> prim cf (IDLE, s) (IDLE, unsubscribing f s)
| P_unsubscribe_failed f s : c_phase s = ACTIVE -> prim cf (IDLE, s) (IDLE, emit (O_UNSUBSCRIBE f false) s)
| P_purge f r s : c_phase s = ACTIVE -> get_sub f s = Some r -> s_listeners r = [] -> s_subscribed r = false -> s_pending r = NOTHING -> prim cf (IDLE, s) (IDLE, drop_sub f s)
(* messages *)
| P_message topic payload j s : c_phase s = ACTIVE -> prim cf (IDLE, s) (MESSAGE topic payload j, streamed topic payload (emit (I_MESSAGE topic payload j) s))
| P_message_done topic payload j s : prim cf (MESSAGE topic payload j, s) (IDLE, s)
(* the end of an operation *)
| P_leave id o s : get_op id s = Some o -> o_doomed o = true -> prim cf (IDLE, s) (LEAVING o (o_filters o), left o s)
| P_unlisten o f rest s : c_phase s = ACTIVE -> prim cf (LEAVING o (f :: rest), s) (LEAVING o rest, unlisten (o_id o) s f)
| P_gone o rest s : rest = [] \/ c_phase s <> ACTIVE -> prim cf (LEAVING o rest, s) (IDLE, emit (O_GONE (o_id o)) (untabled o s))
(* the end of the client *)
| P_clean_unsubscribe f r rest s : c_phase s = DOWN -> get_sub f s = Some r -> s_subscribed r = true \/ s_pending r = SUBSCRIBING -> s_pending r <> UNSUBSCRIBING -> prim cf (CLEANING (f :: rest), s) (CLEANING (f :: rest), unsubscribing f s)
| P_clean_failed f rest s : c_phase s = DOWN -> prim cf (CLEANING (f :: rest), s) (CLEANING (f :: rest), emit (O_UNSUBSCRIBE f false) s)
| P_clean_drop f rest s : c_phase s = DOWN -> prim cf (CLEANING (f :: rest), s) (CLEANING rest, drop_sub f s)
| P_cleaned s : c_phase s = DOWN -> prim cf (CLEANING [], s) (FAILING (map o_id (filter o_tracked (c_ops s))), s)
| P_fail_done l s : (forall id o, In id l -> get_op id s = Some o -> o_state o = S_PENDING_DESTROY \/ o_state o = S_TERMINAL) -> prim cf (FAILING l, s) (IDLE, s)
(* hash tables in any order *)
| P_swap_subs l s : Permutation l (c_subs s) -> prim cf (IDLE, s) (IDLE, set_subs l s)
| P_swap_listeners f n s : prim cf (IDLE, s) (IDLE, upd_sub f (fun r => with_listeners (swap n (s_listeners r)) r) s)
| P_swap_ops l s : Permutation l (c_ops s) -> prim cf (IDLE, s) (IDLE, set_ops l s)
| P_swap_streams l s : Permutation l (c_streams s) -> prim cf (IDLE, s) (IDLE, set_streams l s).
(** ... and those which change the phase *)
Inductive big (cf : config) : ghost * client -> ghost * client -> Prop :=
| B_prim x y : prim cf x y -> big cf x y
| B_down s : c_phase s = ACTIVE -> (forall o, In o (c_ops s) -> o_submitting o = true -> o_kind o = STREAM) ->
    big cf (IDLE, s) (CLEANING (map s_filter (c_subs s)), set_scheduled 0 (set_phase DOWN (emit I_SHUTDOWN s)))
| B_over s : c_phase s = DOWN -> c_ops s = [] -> c_events s = [] -> c_publishes s = [] -> big cf (IDLE, s) (IDLE, set_phase OVER (emit O_TERMINATED s)).
Inductive psteps (cf : config) : ghost * client -> ghost * client -> Prop :=
| S_refl x : psteps cf x x
| S_step x y z : prim cf x y -> psteps cf y z -> psteps cf x z.
Lemma psteps_trans cf x y z : psteps cf x y -> psteps cf y z -> psteps cf x z.
Proof. induction 1; eauto using psteps. Qed.
Lemma psteps_one cf x y : prim cf x y -> psteps cf x y.
Proof. intros H. eapply S_step; [apply H|apply S_refl]. Qed.
Inductive steps (cf : config) : ghost * client -> ghost * client -> Prop :=
| B_refl x : steps cf x x
| B_step x y z : big cf x y -> steps cf y z -> steps cf x z.
Lemma steps_trans cf x y z : steps cf x y -> steps cf y z -> steps cf x z.
Proof. induction 1; eauto using steps. Qed.
Lemma psteps_steps cf x y : psteps cf x y -> steps cf x y.
Proof. induction 1; econstructor; eauto. apply B_prim. assumption. Qed.
(** an invariant of [big] is one of [steps] *)
Lemma steps_inv cf (P : ghost -> client -> Prop) : (forall g s g' s', P g s -> big cf (g, s) (g', s') -> P g' s') -> forall g s g' s', P g s -> steps cf (g, s) (g', s') -> P g' s'.
Proof.
  intros H g s g' s' HP HS. remember (g, s) as x eqn:Ex. remember (g', s') as y eqn:Ey. revert g s Ex HP.
  induction HS as [x|x [g1 s1] z Hb HS IH]; intros g s -> HP; [injection Ey as -> ->; assumption|]. apply (IH Ey g1 s1); [reflexivity|]. eapply H; eassumption.
Qed.
