(** The request-response client: requests time out when their time is up. *)
From Verif Require Import Base Split TopicAlias_Model TopicAlias_Proofs SubSet_Model Paths RR_Model RR_Steps RR_Decomp RR_Subs RR_Flights RR_Kinds RR_Spec RR_Trace RR_OpsTrace RR_Filters RR_All RR_Lives RR_Requests RR_Why RR_Streams.

(** ** Steps which do not touch the clock or start a timer *)
Record calm (s s' : client) : Prop := {
  calm_sched : c_scheduled s' = c_scheduled s;
  calm_phase : c_phase s' = c_phase s;
  calm_ops : forall o', In o' (c_ops s') -> exists o, In o (c_ops s) /\ o_deadline o' = o_deadline o /\ (o_timed o' = true -> o_timed o = true) }.
Lemma calm_refl s : calm s s.
Proof. constructor; eauto. Qed.
Lemma calm_trans a b c : calm a b -> calm b c -> calm a c.
Proof.
  intros [H1 H2 H3] [K1 K2 K3]. constructor; [congruence|congruence|]. intros o Ho. destruct (K3 o Ho) as (x & X1 & X2 & X3). destruct (H3 x X1) as (y & Y1 & Y2 & Y3). exists y. split; [exact Y1|]. split; [congruence|auto].
Qed.
Lemma calm_fold {A} (f : client -> A -> client) l : (forall a s, calm s (f s a)) -> forall s, calm s (fold_left f l s).
Proof. intros H. induction l as [|a l IH]; intros s; [apply calm_refl|]. cbn [fold_left]. eapply calm_trans; [apply H|apply IH]. Qed.
Lemma calm_upd id h s : (forall o, o_deadline (h o) = o_deadline o /\ (o_timed (h o) = true -> o_timed o = true)) -> calm s (upd_op id h s).
Proof.
  intros H. constructor; [reflexivity|reflexivity|]. intros o' Ho. cbn [upd_op set_ops c_ops] in Ho. apply in_map_iff in Ho as (o & E & Ho). exists o. split; [exact Ho|]. destruct (has_id id o); subst o'; [apply H|auto].
Qed.
Lemma calm_release id s : calm s (release id s).
Proof. apply calm_upd. intros o. unfold unref. destruct (o_refs o =? 1); auto. Qed.
Ltac calm0 := constructor; [reflexivity|reflexivity|intros; eexists; split; [eassumption|split; [reflexivity|exact (fun h => h)]]].
Ltac calmu := apply calm_upd; intros; split; [reflexivity|exact (fun h => h)].
Lemma calm_emit x s : calm s (emit x s). Proof. calm0. Qed.
Lemma calm_crash s : calm s (crash s). Proof. calm0. Qed.
Lemma calm_subs f h s : calm s (upd_sub f h s). Proof. calm0. Qed.
Lemma calm_drop f s : calm s (drop_sub f s). Proof. calm0. Qed.
Lemma calm_status e f id s : calm s (status e f id s).
Proof. unfold status. destruct (active _); calm0. Qed.
Lemma calm_notify e r s : calm s (notify e r s).
Proof. apply calm_fold. intros. apply calm_status. Qed.
Lemma calm_complete o r s : calm s (complete o r s).
Proof. unfold complete. destruct (o_kind o); [|apply calm_crash]. destruct (state_is _ _); [apply calm_refl|]. eapply calm_trans; [apply calm_emit|]. eapply calm_trans; [|apply calm_release]. calmu. Qed.
Lemma calm_halt o r s : calm s (halt o r s).
Proof. unfold halt. destruct (o_kind o); [apply calm_crash|]. destruct (_ || _); [apply calm_refl|]. eapply calm_trans; [apply calm_emit|]. calmu. Qed.
Lemma calm_fail id e s : calm s (fail id e s).
Proof. unfold fail. destruct (get_op id s) as [o|]; [|apply calm_refl]. destruct (o_kind o); [apply calm_complete|apply calm_halt]. Qed.
Lemma calm_unsubscribe ev b f s : calm s (unsubscribe ev b f s).
Proof. unfold unsubscribe. destruct (get_sub f s); [|apply calm_refl]. destruct (_ || _); [|apply calm_refl]. destruct (e_unsub ev f); calm0. Qed.
Lemma calm_purge_one ev f s : calm s (purge_one ev s f).
Proof.
  unfold purge_one. destruct (get_sub f s) as [r|]; [|apply calm_refl]. destruct (s_listeners r); [|apply calm_refl]. set (s1 := if c_connected s then _ else _). assert (K : calm s s1) by (unfold s1; destruct (c_connected s); [apply calm_unsubscribe|apply calm_refl]).
  clearbody s1. destruct (get_sub f s1); [|exact K]. destruct (_ && _); [|exact K]. eapply calm_trans; [exact K|apply calm_drop].
Qed.
Lemma calm_purge ev s : calm s (purge ev s).
Proof. apply calm_fold. intros. apply calm_purge_one. Qed.
Lemma calm_activate ev f s : calm s (snd (activate ev f s)).
Proof.
  unfold activate. destruct (get_sub f s) as [r|]; [|apply calm_refl]. destruct (s_poisoned r); [apply calm_refl|]. destruct (_ && _); [|apply calm_refl]. destruct (e_sub ev f); cbn [snd]; [calm0|].
  destruct (s_kind r); (eapply calm_trans; [|apply calm_notify]); calm0.
Qed.
Lemma calm_activate_all ev fs s : calm s (snd (activate_all ev fs s)).
Proof.
  revert s. induction fs as [|f fs IH]; intros s; [apply calm_refl|]. cbn [activate_all]. pose proof (calm_activate ev f s) as K. destruct (activate ev f s) as [ok s1]. cbn [snd] in K. destruct ok; [|exact K]. eapply calm_trans; [exact K|apply IH].
Qed.
Lemma calm_listen k id f s : calm s (listen k id s f).
Proof. unfold listen. destruct (get_sub f s); calm0. Qed.
Lemma calm_acquire cf ev k fs id s : calm s (snd (acquire cf ev k fs id s)).
Proof.
  unfold acquire. destruct (refuses _ _ _ _); [apply calm_refl|]. set (s1 := fold_left _ _ _). assert (K : calm s s1) by (apply calm_fold; intros; apply calm_listen). clearbody s1. destruct (forallb _ _); [exact K|].
  pose proof (calm_activate_all ev fs s1) as L. destruct (activate_all ev fs s1) as [ok s2]. cbn [snd] in *. eapply calm_trans; [exact K|exact L].
Qed.
Lemma calm_unlisten id f s : calm s (unlisten id s f).
Proof. unfold unlisten. destruct (get_sub f s); [|apply calm_refl]. destruct (filter _ _); [|apply calm_subs]. eapply calm_trans; [apply calm_subs|apply calm_status]. Qed.
Lemma calm_on_suback ev f ok retryable s : calm s (on_suback ev f ok retryable s).
Proof.
  unfold on_suback. destruct (get_sub f s) as [r|]; [|apply calm_refl]. destruct (negb _); [apply calm_crash|]. cbv zeta. eapply calm_trans; [apply (calm_subs f (with_pending NOTHING))|]. generalize (upd_sub f (with_pending NOTHING) s). intros s1.
  destruct (s_kind r), ok; try destruct retryable; try (eapply calm_trans; [|apply calm_notify]; first [apply calm_refl|apply calm_subs]). apply calm_activate.
Qed.
Lemma calm_on_unsuback f ok s : calm s (on_unsuback f ok s).
Proof. unfold on_unsuback. destruct (get_sub f s) as [r|]; [|apply calm_refl]. destruct (negb _); [apply calm_crash|]. cbv zeta. destruct ok; [|apply calm_subs]. eapply calm_trans; [|apply calm_status]. eapply calm_trans; [|apply calm_subs]. apply calm_subs. Qed.
Lemma calm_lose_one f s : calm s (lose_one s f).
Proof.
  unfold lose_one. destruct (get_sub f s) as [r|]; [|apply calm_refl]. destruct (s_subscribed r); [|apply calm_refl]. cbv zeta. destruct (s_kind r); [destruct (is_pending _ _)|]; try (eapply calm_trans; [|apply calm_notify]; apply calm_subs).
  eapply calm_trans; [|apply calm_drop]. eapply calm_trans; [|apply calm_notify]. apply calm_subs.
Qed.
Lemma calm_on_connected ev joined s : calm s (on_connected ev joined s).
Proof.
  unfold on_connected. cbv zeta. eapply calm_trans; [|apply calm_fold; intros; apply calm_activate]. eapply calm_trans; [|apply calm_purge]. destruct joined; [calm0|]. eapply calm_trans; [|apply calm_fold; intros].
  - eapply calm_trans; [|apply calm_fold; intros; apply calm_lose_one]. calm0.
  - unfold resubscribe_one. destruct (get_sub _ _) as [r|]; [|apply calm_refl]. destruct (s_kind r); [apply calm_refl|apply calm_activate].
Qed.
Lemma calm_make_request ev o s : calm s (make_request ev o s).
Proof.
  unfold make_request. destruct (o_kind o); [|apply calm_crash]. destruct (e_pub ev _); [calm0|]. cbv zeta. destruct (get_op _ _); [|apply calm_emit]. eapply calm_trans; [apply calm_emit|apply calm_complete].
Qed.
Lemma calm_on_puback id ok s : calm s (on_puback id ok s).
Proof. unfold on_puback. destruct ok; [apply calm_refl|]. destruct (tracked id s); [apply calm_complete|apply calm_refl]. Qed.
Lemma calm_add_path p s : calm s (add_path s p).
Proof. unfold add_path. destruct (find_key _ _) as [[j n]|]; calm0. Qed.
Lemma calm_drop_path p s : calm s (drop_path s p).
Proof. unfold drop_path. destruct (find_key _ _) as [[j n]|]; calm0. Qed.
Lemma calm_add_tables o s : calm s (add_tables o s).
Proof.
  unfold add_tables. cbv zeta. eapply calm_trans; [|calmu]. destruct (o_work o) as [r|f]; [|calm0]. eapply calm_trans; [apply (calm_fold add_path (r_paths r)); intros; apply calm_add_path|calm0].
Qed.
Lemma calm_on_acquired ev o a s : calm s (on_acquired ev o a s).
Proof.
  destruct a; cbn [on_acquired]; try apply calm_fail; (eapply calm_trans; [apply (calm_add_tables o)|]); [|calmu]. destruct (o_kind o); [apply calm_make_request|]. eapply calm_trans; [|apply calm_emit]. calmu.
Qed.
Lemma calm_intake n cf ev s : calm s (intake n cf ev s).
Proof.
  revert s. induction n as [|n IH]; intros s; [apply calm_refl|]. cbn [intake]. destruct (c_queue s) as [|id q]; [apply calm_refl|]. destruct (get_op id s) as [o|]; [|apply calm_refl]. destruct (can_dequeue o s); [|apply calm_refl].
  pose proof (calm_acquire cf ev (o_kind o) (o_filters o) id s) as K. destruct (acquire _ _ _ _ _ _) as [a s1]. cbn [snd] in K. assert (L : calm s (intake n cf ev (on_acquired ev o a (emit (O_INTAKE id a) (set_queue (tl (c_queue s1)) s1))))).
  { eapply calm_trans; [|apply IH]. eapply calm_trans; [|apply calm_on_acquired]. eapply calm_trans; [exact K|]. calm0. }
  destruct a; assumption.
Qed.
Lemma calm_on_message topic payload j s : calm s (on_message topic payload j s).
Proof.
  unfold on_message. cbv zeta. assert (D : forall id s, calm s (deliver topic payload s id)). { intros id x. unfold deliver. destruct (get_op id x) as [o|]; [|apply calm_refl]. destruct (o_kind o); [apply calm_refl|]. destruct (_ || _); [apply calm_refl|apply calm_emit]. }
  set (s2 := streamed topic payload s). assert (K : calm s s2).
  { unfold s2, streamed. cbv zeta. eapply calm_trans; [|apply calm_fold; intros a x; destruct (topic_matched _ _); [apply calm_fold; intros; apply D|apply calm_refl]]. destruct (find_key _ _); [apply calm_fold; intros; apply D|apply calm_refl]. }
  match goal with |- calm _ (match find_key topic (c_paths ?x) with _ => _ end) => change x with s2 end.
  clearbody s2. destruct (find_key topic _) as [[p n]|]; [|exact K]. destruct (token_in p j); [|exact K]. destruct (find_key _ _); [|exact K]. destruct (get_op _ _); [|exact K]. eapply calm_trans; [exact K|apply calm_complete].
Qed.
Lemma calm_destroy o s : calm s (destroy o s).
Proof.
  unfold destroy. cbv zeta. eapply calm_trans; [|apply calm_emit]. set (s1 := set_streams _ _). assert (K : calm s s1). { constructor; [reflexivity|reflexivity|]. intros x Hx. cbn in Hx. apply filter_In in Hx as [Hx _]. eauto. }
  clearbody s1. eapply calm_trans; [exact K|]. set (s2 := if active (c_phase s) then _ else _). assert (L : calm s1 s2) by (unfold s2; destruct (active _); [apply calm_fold; intros; apply calm_unlisten|apply calm_refl]). clearbody s2. eapply calm_trans; [exact L|].
  destruct (o_work o); [|apply calm_refl]. destruct (o_tables o); [|apply calm_refl]. eapply calm_trans; [|apply calm_fold; intros; apply calm_drop_path]. calm0.
Qed.

(** ** The clock *)
(** [on_clock T s]: the service task is scheduled, and not for later than it needs to be *)
Record on_clock (T : N) (s : client) : Prop := {
  oc_sched : c_phase s = ACTIVE -> 0 < c_scheduled s;
  oc_due : c_phase s = ACTIVE -> forall o, In o (c_ops s) -> o_timed o = true -> c_scheduled s <= N.max T (o_deadline o);
  oc_pos : forall o, In o (c_ops s) -> 0 < o_deadline o }.
Lemma calm_clock T s s' : calm s s' -> on_clock T s -> on_clock T s'.
Proof.
  intros [C1 C2 C3] [O1 O2 O3]. constructor.
  - rewrite C1, C2. exact O1.
  - rewrite C1, C2. intros Ha o' Ho Ht. destruct (C3 o' Ho) as (o & H1 & H2 & H3). rewrite H2. apply O2; auto.
  - intros o' Ho. destruct (C3 o' Ho) as (o & H1 & H2 & _). rewrite H2. auto.
Qed.
Lemma wake_clock T now s : 0 < now <= T -> on_clock T s -> on_clock T (wake now s).
Proof.
  intros Hn [O1 O2 O3]. unfold wake. destruct (active (c_phase s)) eqn:Ea; [|constructor; assumption]. destruct (_ || _) eqn:E; [|constructor; assumption]. constructor; cbn [set_scheduled c_scheduled c_phase c_ops]; [lia|intros; lia|exact O3].
Qed.
Lemma calm_on_status T ev e id s : 0 < e_now ev <= T -> on_clock T s -> on_clock T (on_status ev e id s).
Proof.
  intros Hn K. destruct e; cbn [on_status]; try (apply wake_clock; assumption); (destruct (tracked id s) as [o|]; [|exact K]); try (eapply calm_clock; [|exact K]; first [apply calm_complete|apply calm_halt|apply calm_refl]).
  all: eapply calm_clock; [|exact K].
  - destruct (state_is _ _); [|apply calm_refl]. cbv zeta. destruct (_ =? 0); [|calmu]. eapply calm_trans; [|apply calm_make_request]. eapply calm_trans; [|calmu]. calmu.
  - destruct (o_kind o); [apply calm_crash|]. eapply calm_trans; [|apply calm_emit]. destruct (state_is _ _); [calmu|apply calm_refl].
  - destruct (o_kind o); [apply calm_crash|apply calm_emit].
Qed.
Lemma wake_soon T now s : 0 < now <= T -> (c_phase s = ACTIVE -> 0 < c_scheduled s) -> (forall o, In o (c_ops s) -> 0 < o_deadline o) -> on_clock T (wake now s).
Proof.
  intros Hn H1 H2. unfold wake. destruct (c_phase s) eqn:Ea; cbn [active].
  - specialize (H1 eq_refl). destruct ((c_scheduled s =? 0) || (now <? c_scheduled s)) eqn:E.
    + constructor; cbn [set_scheduled c_scheduled c_ops]; intros; [lia|lia|auto].
    + apply orb_false_iff in E as [_ E]. apply N.ltb_ge in E. constructor; intros; [assumption|lia|auto].
  - constructor; [congruence|congruence|assumption].
  - constructor; [congruence|congruence|assumption].
Qed.
Lemma submit_clock T now id s : 0 < now <= T -> on_clock T s -> on_clock T (submit now id s).
Proof.
  intros Hn K. unfold submit. cbv zeta. eapply calm_clock; [apply calm_release|]. destruct (active (c_phase s)).
  - destruct K as [O1 O2 O3]. apply wake_soon; [exact Hn|exact O1|]. intros o Ho. cbn [emit upd_op set_ops set_queue c_ops] in Ho. rewrite !map_map in Ho. apply in_map_iff in Ho as (x & <- & Hx). specialize (O3 x Hx).
    repeat match goal with |- context [if has_id ?a ?b then _ else _] => destruct (has_id a b) end; exact O3.
  - eapply calm_clock; [|exact K]. eapply calm_trans; [|apply calm_fail]. calmu.
Qed.
Lemma create_clock cf T now w s : 0 < now <= T -> now + cf_timeout_s cf * 1000000000 < two64 -> on_clock T s -> on_clock T (create cf now w s).
Proof.
  intros Hn Hw K. unfold create. destruct (valid_work w); [|exact K]. destruct K as [O1 O2 O3]. cbv zeta. constructor; cbn [emit set_next set_ops c_phase c_scheduled c_ops].
  - exact O1.
  - intros Ha o Ho Ht. apply in_app_or in Ho as [Ho|[<-|[]]]; [auto|]. discriminate.
  - intros o Ho. apply in_app_or in Ho as [Ho|[<-|[]]]; [auto|]. cbn [o_deadline]. destruct w; [rewrite N.mod_small by exact Hw; lia|reflexivity].
Qed.
Lemma timed_out_calm id s : calm s (fail id E_TIMEOUT (upd_op id (set_timed false) s)).
Proof. eapply calm_trans; [|apply calm_fail]. apply calm_upd. intros o. split; [reflexivity|discriminate]. Qed.
Lemma calm_check n now s : calm s (check_timeouts n now s).
Proof.
  revert s. induction n as [|n IH]; intros s; [apply calm_refl|]. cbn [check_timeouts]. destruct (earliest (c_ops s)) as [o|]; [|apply calm_refl]. destruct (now <? o_deadline o); [apply calm_refl|]. eapply calm_trans; [apply timed_out_calm|apply IH].
Qed.
Lemma service_clock cf T ev s : on_clock T s -> on_clock T (service cf ev s).
Proof.
  intros [O1 O2 O3]. unfold service. cbv zeta. destruct (active (c_phase s)) eqn:Ea; [|constructor; cbn [set_scheduled c_phase c_ops]; [intros K; rewrite K in Ea; discriminate|intros K; rewrite K in Ea; discriminate|exact O3]].
  set (s0 := set_scheduled 0 s). set (s1 := check_timeouts _ _ s0). set (s2 := purge ev s1). set (s3 := intake _ cf ev s2).
  assert (K : calm s0 s3). { eapply calm_trans; [|apply calm_intake]. eapply calm_trans; [|apply calm_purge]. apply calm_check. }
  clearbody s3. assert (P3 : forall o, In o (c_ops s3) -> 0 < o_deadline o). { intros o Ho. destruct (calm_ops _ _ K o Ho) as (x & X1 & X2 & _). rewrite X2. apply O3. exact X1. }
  pose proof (earliest_spec (c_ops s3)) as E. destruct (earliest (c_ops s3)) as [o|].
  - destruct E as (E1 & E2 & E3). constructor; cbn [set_scheduled c_phase c_scheduled c_ops]; [intros _; auto|intros _ x Hx Ht; specialize (E3 x Hx Ht); lia|exact P3].
  - constructor; cbn [set_scheduled c_phase c_scheduled c_ops]; [reflexivity|intros _ x Hx Ht; rewrite (E x Hx) in Ht; discriminate|exact P3].
Qed.
Lemma shutdown_clock T ev s : on_clock T s -> on_clock T (shutdown ev s).
Proof.
  intros [O1 O2 O3]. unfold shutdown. cbv zeta. eapply calm_clock; [apply calm_fold; intros; apply calm_fail|]. eapply calm_clock; [apply calm_fold; intros a x; eapply calm_trans; [apply calm_unsubscribe|apply calm_drop]|].
  constructor; [discriminate|discriminate|exact O3].
Qed.
Lemma step_clock cf T s x : 0 < e_now (fst x) <= T -> e_now (fst x) + cf_timeout_s cf * 1000000000 < two64 -> on_clock T s -> on_clock T (step cf s x).
Proof.
  intros Hn Hw K. unfold step. destruct (c_crash s); [exact K|]. destruct (enabled _ _ s); [|exact K]. destruct x as [ev e]. cbn [fst snd] in *. set (s0 := emit _ s). assert (K0 : on_clock T s0) by (eapply calm_clock; [apply calm_emit|exact K]). clearbody s0. clear K s.
  destruct e; cbn [handle]; try (apply create_clock; assumption); try (apply submit_clock; assumption); try (apply service_clock; assumption); try (apply shutdown_clock; assumption).
  - eapply calm_clock; [|exact K0]. unfold activate_stream. eapply calm_trans; [apply calm_emit|]. calmu.
  - eapply calm_clock; [|exact K0]. eapply calm_trans; [|apply calm_release]. eapply calm_trans; [apply calm_emit|]. calmu.
  - destruct (get_op id s0); [|exact K0]. eapply calm_clock; [apply calm_destroy|exact K0].
  - destruct (c_events s0) as [|[[e f] id] q]; [exact K0|]. apply calm_on_status; [exact Hn|]. eapply calm_clock; [|exact K0]. calm0.
  - destruct K0 as [O1 O2 O3]. constructor; [discriminate|discriminate|exact O3].
  - eapply calm_clock; [|exact K0]. destruct (active _); [eapply calm_trans; [|apply calm_on_suback]|]; calm0.
  - eapply calm_clock; [|exact K0]. destruct (active _); [eapply calm_trans; [|apply calm_on_unsuback]|]; calm0.
  - eapply calm_clock; [|exact K0]. eapply calm_trans; [|apply calm_on_puback]. calm0.
  - eapply calm_clock; [|exact K0]. eapply calm_trans; [|apply calm_on_connected]. calm0.
  - eapply calm_clock; [|exact K0]. calm0.
  - eapply calm_clock; [|exact K0]. eapply calm_trans; [|apply calm_on_message]. calm0.
  - eapply calm_clock; [|exact K0]. calm0.
  - eapply calm_clock; [|exact K0]. calm0.
  - eapply calm_clock; [|exact K0]. constructor; [reflexivity|reflexivity|]. intros o Ho. exists o. split; [|auto]. eapply Permutation.Permutation_in; [apply swap_perm|exact Ho].
  - eapply calm_clock; [|exact K0]. calm0.
Qed.
Lemma history_clock cf T connected l : (forall x, In x l -> 0 < e_now (fst x) <= T /\ e_now (fst x) + cf_timeout_s cf * 1000000000 < two64) -> on_clock T (history cf connected l).
Proof.
  intros H. unfold history. assert (K : on_clock T (client_new connected)) by (constructor; [reflexivity|intros _ o []|intros o []]). revert K. generalize (client_new connected). revert H. induction l as [|x l IH]; intros H s K; [exact K|].
  cbn [fold_left]. apply IH; [intros y Hy; apply H; right; exact Hy|]. destruct (H x (or_introl eq_refl)) as [H1 H2]. apply step_clock; assumption.
Qed.

(** ** The service task *)
Definition timers (s : client) : nat := length (filter o_timed (c_ops s)).
Lemma timers_upd id h s : (forall o, o_timed (h o) = true -> o_timed o = true) -> (timers (upd_op id h s) <= timers s)%nat.
Proof.
  intros H. unfold timers, upd_op. cbn [set_ops c_ops]. induction (c_ops s) as [|o l IH]; [reflexivity|]. cbn [map filter]. pose proof (H o) as Ho. destruct (has_id id o).
  - destruct (o_timed (h o)) eqn:E; [rewrite (Ho eq_refl); cbn [length]; lia|]. destruct (o_timed o); cbn [length]; lia.
  - destruct (o_timed o); cbn [length]; lia.
Qed.
Lemma timers_fail id e s : (timers (fail id e s) <= timers s)%nat.
Proof.
  assert (U : forall i x, (timers (release i x) <= timers x)%nat) by (intros; apply timers_upd; intros o; unfold unref; destruct (o_refs o =? 1); auto).
  unfold fail. destruct (get_op id s) as [o|]; [|reflexivity]. unfold complete, halt. destruct (o_kind o); [destruct (state_is _ _); [reflexivity|]|destruct (_ || _); [reflexivity|]].
  - etransitivity; [apply U|]. etransitivity; [apply timers_upd; auto|reflexivity].
  - etransitivity; [apply timers_upd; auto|reflexivity].
Qed.
Lemma timers_less o s : In o (c_ops s) -> o_timed o = true -> (timers (upd_op (o_id o) (set_timed false) s) < timers s)%nat.
Proof.
  unfold timers, upd_op. cbn [set_ops c_ops]. intros Hi Ht. assert (L : forall l, (length (filter o_timed (map (fun x => if has_id (o_id o) x then set_timed false x else x) l)) <= length (filter o_timed l))%nat).
  { induction l as [|x l IH]; [reflexivity|]. cbn [map filter]. destruct (has_id _ x); [cbn [o_timed set_timed]|]; destruct (o_timed x); cbn [length]; lia. }
  induction (c_ops s) as [|x l IH]; [destruct Hi|]. cbn [map filter]. destruct Hi as [->|Hi].
  - unfold has_id at 1. rewrite N.eqb_refl. cbn [o_timed set_timed]. rewrite Ht. cbn [length]. specialize (L l). lia.
  - specialize (IH Hi). destruct (has_id _ x); [cbn [o_timed set_timed]|]; destruct (o_timed x); cbn [length]; lia.
Qed.
Lemma check_done n now s : (timers s <= n)%nat -> forall o, In o (c_ops (check_timeouts n now s)) -> o_timed o = true -> now < o_deadline o.
Proof.
  revert s. induction n as [|n IH]; intros s Hn o Ho Ht.
  - cbn [check_timeouts] in Ho. exfalso. unfold timers in Hn. assert (K : In o (filter o_timed (c_ops s))) by (apply filter_In; auto). destruct (filter o_timed (c_ops s)); [destruct K|cbn [length] in Hn; lia].
  - cbn [check_timeouts] in Ho. pose proof (earliest_spec (c_ops s)) as E. destruct (earliest (c_ops s)) as [x|].
    + destruct E as (E1 & E2 & E3). destruct (N.ltb_spec now (o_deadline x)) as [Hx|Hx]; [specialize (E3 o Ho Ht); lia|]. apply (IH _) in Ho; [exact Ho| |exact Ht].
      pose proof (timers_fail (o_id x) E_TIMEOUT (upd_op (o_id x) (set_timed false) s)). pose proof (timers_less x s E1 E2). lia.
    + rewrite (E o Ho) in Ht. discriminate.
Qed.
Definition idle (id : N) (o : op) : Prop := o_id o = id -> o_submitting o = false.
Lemma idle_upd id i h s : (forall o, o_id (h o) = o_id o /\ o_submitting (h o) = o_submitting o) -> Forall (idle id) (c_ops s) -> Forall (idle id) (c_ops (upd_op i h s)).
Proof.
  intros H K. cbn [upd_op set_ops c_ops]. apply Forall_forall. intros x Hx. apply in_map_iff in Hx as (o & <- & Ho). rewrite Forall_forall in K. specialize (K o Ho). destruct (has_id i o); [|exact K]. unfold idle in *. destruct (H o) as [-> ->]. exact K.
Qed.
Lemma idle_check id n now s : Forall (idle id) (c_ops s) -> Forall (idle id) (c_ops (check_timeouts n now s)).
Proof.
  revert s. induction n as [|n IH]; intros s K; [exact K|]. cbn [check_timeouts]. destruct (earliest (c_ops s)) as [o|]; [|exact K]. destruct (now <? o_deadline o); [exact K|]. apply IH.
  assert (K1 : Forall (idle id) (c_ops (upd_op (o_id o) (set_timed false) s))) by (apply idle_upd; [auto|exact K]). set (s1 := upd_op _ _ s) in *. clearbody s1. unfold fail. destruct (get_op (o_id o) s1) as [x|]; [|exact K1].
  unfold complete, halt. destruct (o_kind x); [destruct (state_is _ _); [exact K1|]|destruct (_ || _); [exact K1|]].
  - apply idle_upd; [intros y; unfold unref; destruct (o_refs y =? 1); auto|]. apply idle_upd; [auto|]. exact K1.
  - apply idle_upd; [auto|]. exact K1.
Qed.
Lemma psteps_out cf x y : psteps cf x y -> exists l, c_out (snd y) = l ++ c_out (snd x).
Proof.
  induction 1 as [x|[g s] [g1 s1] z P S IH]; [exists []; reflexivity|]. destruct IH as [l IH]. destruct (prim_ends _ _ _ _ _ P) as (l1 & E & _). exists (l ++ l1). rewrite IH. cbn [snd]. rewrite E, app_assoc. reflexivity.
Qed.
(** an uncompleted request of a running client, whose submission has been dealt with *)
Lemma open_request cf s id r d : JB cf IDLE s -> c_phase s = ACTIVE -> In (I_OPERATION id (W_REQUEST r) d) (c_out s) -> count (completes id) (c_out s) = 0%nat -> Forall (idle id) (c_ops s) ->
  exists o, get_op id s = Some o /\ o_timed o = true /\ o_deadline o = d.
Proof.
  intros J Ha Hop Hn Hi. destruct (j5_out _ _ (ja5 _ _ _ (jba _ _ _ J)) _ _ _ Hop) as (_ & [(o & K1 & K2 & K3)|[(o & rest & K & _)|K]]); [|discriminate|].
  - exists o. split; [exact K1|]. split; [|exact K3]. pose proof (j7_live _ _ (jb7 _ _ _ J) id o K1) as L. assert (Hk : o_kind o = REQUEST) by (unfold o_kind; rewrite K2; reflexivity). apply (l_timed _ _ _ _ _ _ _ _ L Hk); [|exact Hn].
    destruct (o_tracked o) eqn:Et; [reflexivity|]. destruct (l_fresh _ _ _ _ _ _ _ _ L Et) as (_ & _ & _ & K). destruct (K Hk) as [K4 _]. rewrite Forall_forall in Hi. rewrite (Hi o (get_op_in _ _ _ K1) (get_op_id _ _ _ K1)) in K4. discriminate.
  - exfalso. destruct (j5_gone _ _ (ja5 _ _ _ (jba _ _ _ J)) _ K) as [K1 _]. pose proof (j7_dead _ _ (jb7 _ _ _ J) _ _ _ K1 Hop). lia.
Qed.
Lemma history_snoc cf connected l x : history cf connected (l ++ [x]) = step cf (history cf connected l) x.
Proof. unfold history. rewrite fold_left_app. reflexivity. Qed.
Lemma on_time cf connected l ev id r d : cf_ok cf -> (forall x, In x l -> 0 < e_now (fst x) <= e_now ev /\ e_now (fst x) + cf_timeout_s cf * 1000000000 < two64) -> running (trace (history cf connected l)) ->
  In (I_OPERATION id (W_REQUEST r) d) (trace (history cf connected l)) -> enabled ev (ESubmit id) (history cf connected l) = false -> d <= e_now ev ->
  (exists x, In (O_COMPLETE id x) (trace (history cf connected l))) \/
  (enabled ev EService (history cf connected l) = true /\ exists x, In (O_COMPLETE id x) (trace (history cf connected (l ++ [(ev, EService)])))).
Proof.
  intros Hc Hl Hr Hop Hsub Hd. pose proof (JB_history cf connected l Hc) as J. pose proof (history_clock cf (e_now ev) connected l Hl) as K. pose proof (no_crash cf connected l Hc) as Hcr. rewrite history_snoc. set (s := history cf connected l) in *. clearbody s.
  assert (Ha : c_phase s = ACTIVE) by (eapply running_active; [exact (jba _ _ _ J)|exact Hr]). assert (Hop' : In (I_OPERATION id (W_REQUEST r) d) (c_out s)) by (apply in_rev; exact Hop).
  destruct (count (completes id) (c_out s)) as [|n] eqn:En; [right|left; destruct (completes_some id (c_out s)) as [x Hx]; [lia|]; exists x; unfold trace; apply -> in_rev; exact Hx].
  assert (Hi : Forall (idle id) (c_ops s)). { apply Forall_forall. intros o Ho E. assert (G : get_op id s = Some o) by (rewrite <- E; eapply in_get_op; [exact (j2_ids _ _ (ja2 _ _ _ (jba _ _ _ J)))|exact Ho]). cbn [enabled] in Hsub. rewrite G in Hsub. exact Hsub. }
  destruct (open_request cf s id r d J Ha Hop' En Hi) as (o & G1 & G2 & G3). destruct K as [O1 O2 O3]. specialize (O1 Ha). specialize (O2 Ha o (get_op_in _ _ _ G1) G2). rewrite G3 in O2.
  assert (Hen : enabled ev EService s = true) by (cbn [enabled]; apply andb_true_intro; split; [apply N.ltb_lt; exact O1|apply N.leb_le; lia]). split; [exact Hen|].
  unfold step. cbn [fst snd]. rewrite Hcr, Hen. cbn [handle]. set (s0 := emit (I_TICK (e_now ev)) s). unfold service. cbv zeta. assert (Ea : active (c_phase s0) = true) by (change (c_phase s0) with (c_phase s); rewrite Ha; reflexivity). rewrite Ea.
  set (s0' := set_scheduled 0 s0). set (s1 := check_timeouts _ _ s0'). set (s2 := purge ev s1). set (s3 := intake _ cf ev s2).
  assert (S1 : psteps cf (IDLE, s) (IDLE, s1)). { eapply S_step; [apply (P_tick cf (e_now ev))|]. eapply S_step; [apply P_begin|]. apply check_timeouts_steps. left. reflexivity. }
  assert (J1 : JB cf IDLE s1) by (eapply (steps_inv cf (JB cf)); [apply JB_step; exact Hc|exact J|apply psteps_steps; exact S1]).
  assert (A1 : c_phase s1 = ACTIVE) by (eapply psteps_active; eassumption). destruct (psteps_out _ _ _ S1) as [m Em]. cbn [snd] in Em.
  pose proof (purge_steps cf ev s1 A1) as S2. change (purge ev s1) with s2 in S2. assert (A2 : c_phase s2 = ACTIVE) by (eapply psteps_active; eassumption). pose proof (intake_steps cf (length (c_queue s2)) ev s2 A2) as S3. change (intake _ cf ev s2) with s3 in S3.
  assert (Hdone : exists x, In (O_COMPLETE id x) (c_out s1)).
  { destruct (count (completes id) (c_out s1)) as [|n] eqn:En1; [exfalso|apply completes_some; lia].
    destruct (open_request cf s1 id r d J1 A1) as (o1 & L1 & L2 & L3); [rewrite Em; apply in_or_app; right; exact Hop'|exact En1|apply idle_check; exact Hi|].
    assert (Hlt : e_now ev < o_deadline o1); [|lia]. apply (check_done (length (c_ops s0')) (e_now ev) s0'); [|apply (get_op_in _ _ _ L1)|exact L2]. unfold timers. clear. induction (c_ops s0') as [|x l IH]; [reflexivity|]. cbn [filter]. destruct (o_timed x); cbn [length]; lia. }
  destruct Hdone as [x Hx]. exists x. unfold trace. apply -> in_rev. cbn [set_scheduled c_out]. destruct (psteps_out _ _ _ S2) as [m2 E2]. destruct (psteps_out _ _ _ S3) as [m3 E3]. cbn [snd] in *. rewrite E3, E2. apply in_or_app. right. apply in_or_app. right. exact Hx.
Qed.
