(** Nothing is reported to the user of the request-response client without a reason. *)
From Verif Require Import Base Split TopicAlias_Model TopicAlias_Proofs SubSet_Model Topic_Model Paths RR_Model RR_Spec RR_Steps RR_Decomp RR_Subs RR_Flights RR_Kinds RR_Trace RR_OpsTrace RR_Filters RR_All RR_Lives RR_Requests.
From Verif Require Topic_Spec Topic_Proofs SubSet_Spec SubSet_Proofs TopicTree_Model TopicTree_Spec TopicTree_Func.
From Coq Require Import Permutation.

Definition event_ok (tr : list out) (e : sub_event) (f : bytes) (id : N) : Prop :=
  match e with
  | SUBSCRIBE_SUCCESS | ESTABLISHED => uses id f tr /\ In (I_SUBACK f true) tr
  | SUBSCRIBE_FAILURE | HALTED => uses id f tr /\ refused f tr
  | SUBSCRIPTION_ENDED | LOST => uses id f tr /\ In (I_SUBACK f true) tr /\ In (I_CONNECTED false) tr
  | EMPTY | UNSUBSCRIBE_COMPLETE => True
  end.
Definition sub_ok (tr : list out) (f : bytes) (r : sub) : Prop :=
  (forall id, In id (s_listeners r) -> uses id f tr) /\ (s_subscribed r = true -> In (I_SUBACK f true) tr) /\ (s_poisoned r = true -> refused f tr).
Record tables_ok (tr : list out) (s : client) : Prop := {
  t_paths : forall t p n, find_key t (c_paths s) = Some (p, n) -> exists id r, is_op id (W_REQUEST r) tr /\ In (t, p) (r_paths r);
  t_tokens : forall t id, find_key t (c_tokens s) = Some id -> exists r, is_op id (W_REQUEST r) tr /\ r_token r = t;
  t_streams : forall f ids id, In (f, ids) (c_streams s) -> In id ids -> is_op id (W_STREAM f) tr }.
Definition timed_ok (o : op) : Prop := (o_timed o = true -> o_kind o = REQUEST) /\ o_filters o <> [].
Definition failing (tr : list out) (id : N) : Prop := clashes id tr \/ exists f, uses id f tr /\ refused f tr.
Definition about_ok (tr : list out) (g : ghost) : Prop :=
  match g with
  | TOOK o a => (a = A_FAILURE -> failing tr (o_id o)) /\ In (O_INTAKE (o_id o) a) tr /\ (a = A_NO_CAPACITY -> o_kind o = STREAM) /\ (a = A_SUBSCRIBED -> forall f, In f (o_filters o) -> In (I_SUBACK f true) tr)
  | TABLED o a => a = A_SUBSCRIBED -> forall f, In f (o_filters o) -> In (I_SUBACK f true) tr
  | REFUSED o => In (O_PUBLISH (o_id o) false) tr
  | ACKED b f ok => In (if b then I_SUBACK f ok else I_UNSUBACK f ok) tr
  | PUBBED id ok => In (I_PUBACK id ok) tr
  | MESSAGE t p j => In (I_MESSAGE t p j) tr
  | LOSING _ => In (I_CONNECTED false) tr
  | CLEANING _ | FAILING _ | CLOSED _ => In I_SHUTDOWN tr
  | _ => True
  end.
Record J9 (cf : config) (g : ghost) (s : client) : Prop := {
  j9_events : forall e f id, In (e, f, id) (evs g s) -> event_ok (trace s) e f id;
  j9_subs : forall f r, get_sub f s = Some r -> sub_ok (trace s) f r;
  j9_tables : tables_ok (trace s) s;
  j9_timed : Forall timed_ok (c_ops s);
  j9_about : about_ok (trace s) g;
  j9_all : forall tr1 x tr2, trace s = tr1 ++ x :: tr2 -> has_reason cf tr1 x }.

(** ** What has happened has happened *)
Section mono.
  Context (tr tr' : list out) (H : incl tr tr').
  Lemma is_op_mono id w : is_op id w tr -> is_op id w tr'. Proof. intros [d K]. exists d. auto. Qed.
  Lemma uses_mono id f : uses id f tr -> uses id f tr'. Proof. intros (w & K & K'). exists w. split; [apply is_op_mono; exact K|exact K']. Qed.
  Lemma refused_mono f : refused f tr -> refused f tr'. Proof. intros [K|K]; [left|right]; auto. Qed.
  Lemma event_ok_mono e f id : event_ok tr e f id -> event_ok tr' e f id.
  Proof. destruct e; cbn [event_ok]; intuition auto using uses_mono, refused_mono. Qed.
  Lemma sub_ok_mono f r : sub_ok tr f r -> sub_ok tr' f r.
  Proof. intros (A & B & C). repeat split; auto using uses_mono, refused_mono. Qed.
  Lemma tables_mono s : tables_ok tr s -> tables_ok tr' s.
  Proof.
    intros [A B C]. constructor.
    - intros t p n K. destruct (A t p n K) as (id & r & K1 & K2). exists id, r. split; [apply is_op_mono; exact K1|exact K2].
    - intros t id K. destruct (B t id K) as (r & K1 & K2). exists r. split; [apply is_op_mono; exact K1|exact K2].
    - intros f ids id K1 K2. apply is_op_mono. eapply C; eassumption.
  Qed.
  Lemma used_mono k f : used_for k f tr -> used_for k f tr'. Proof. intros (i & w & d & K & K'). exists i, w, d. auto. Qed.
  Lemma clashes_mono id : clashes id tr -> clashes id tr'. Proof. intros (w & f & k & K1 & K2 & K3 & K4). exists w, f, k. auto using is_op_mono, used_mono. Qed.
  Lemma failing_mono id : failing tr id -> failing tr' id.
  Proof. intros [K|(f & K1 & K2)]; [left; apply clashes_mono; exact K|right; exists f; auto using uses_mono, refused_mono]. Qed.
  Lemma about_mono g : about_ok tr g -> about_ok tr' g.
  Proof. destruct g; cbn [about_ok]; auto; intuition auto using failing_mono. Qed.
End mono.
Definition weaker (s s' : client) : Prop := forall f r, get_sub f s' = Some r -> exists r0, get_sub f s = Some r0 /\ incl (s_listeners r) (s_listeners r0) /\ (s_subscribed r = true -> s_subscribed r0 = true) /\ (s_poisoned r = true -> s_poisoned r0 = true).
Lemma j9_go cf g s g' s' m : J9 cf g s -> c_out s' = m ++ c_out s ->
  (forall a x b, m = a ++ x :: b -> has_reason cf (rev (b ++ c_out s)) x) ->
  (forall e f id, In (e, f, id) (evs g' s') -> In (e, f, id) (evs g s) \/ event_ok (trace s') e f id) ->
  (forall f r, get_sub f s' = Some r -> (exists r0, get_sub f s = Some r0 /\ incl (s_listeners r) (s_listeners r0) /\ (s_subscribed r = true -> s_subscribed r0 = true) /\ (s_poisoned r = true -> s_poisoned r0 = true)) \/ sub_ok (trace s') f r) ->
  (tables_ok (trace s') s -> tables_ok (trace s') s') -> (Forall timed_ok (c_ops s) -> Forall timed_ok (c_ops s')) -> (about_ok (trace s') g -> about_ok (trace s') g') -> J9 cf g' s'.
Proof.
  intros [A B C D E F] Ho Hm He Hs Ht Hd Hg. assert (Htr : trace s' = trace s ++ rev m) by (apply trace_app; exact Ho).
  assert (Hi : incl (trace s) (trace s')) by (rewrite Htr; apply incl_appl, incl_refl). constructor.
  - intros e f id K. destruct (He _ _ _ K) as [K'|K']; [|exact K']. eapply event_ok_mono; [exact Hi|]. auto.
  - intros f r K. destruct (Hs _ _ K) as [(r0 & K0 & K1 & K2 & K3)|K']; [|exact K']. destruct (B f r0 K0) as (L1 & L2 & L3). eapply sub_ok_mono; [exact Hi|]. repeat split; auto.
  - apply Ht. eapply tables_mono; eassumption.
  - auto.
  - apply Hg. eapply about_mono; eassumption.
  - intros tr1 x tr2 K. assert (Hc : c_out s' = rev tr2 ++ x :: rev tr1). { unfold trace in K. apply (f_equal (@rev _)) in K. rewrite rev_involutive in K. rewrite K, rev_app_distr. cbn [rev]. rewrite <- app_assoc. reflexivity. }
    rewrite Ho in Hc. clear - F Hm Hc. revert Hc. generalize (rev tr2) as l. intros l Hc. rewrite <- (rev_involutive tr1). set (l0 := rev tr1) in *. clearbody l0.
    assert (K : forall m, (forall a y b, m = a ++ y :: b -> has_reason cf (rev (b ++ c_out s)) y) -> forall l, m ++ c_out s = l ++ x :: l0 -> has_reason cf (rev l0) x).
    { clear - F. induction m as [|y m IH]; intros Hm l Hc.
      - apply (F (rev l0) x (rev l)). unfold trace. cbn [app] in Hc. rewrite Hc, rev_app_distr. cbn [rev]. rewrite <- app_assoc. reflexivity.
      - destruct l as [|z l].
        + injection Hc as <- <-. exact (Hm [] y m eq_refl).
        + injection Hc as <- Hc. apply (IH) with (l := l); [|exact Hc]. intros a y0 b ->. exact (Hm (y :: a) y0 b eq_refl). }
    exact (K m Hm l Hc).
Qed.
Lemma forall_upd (P : op -> Prop) id h s : (forall o, P o -> P (h o)) -> Forall P (c_ops s) -> Forall P (c_ops (upd_op id h s)).
Proof. intros Hh H. cbn [upd_op set_ops c_ops]. rewrite Forall_forall in *. intros x Hx. apply in_map_iff in Hx as (o & <- & Ho). destruct (has_id id o); auto. Qed.
Lemma timed_unref o : timed_ok o -> timed_ok (unref o).
Proof. unfold timed_ok, unref. destruct (o_refs o =? 1); auto. Qed.
Lemma tables_same tr s s' : c_paths s' = c_paths s -> c_tokens s' = c_tokens s -> c_streams s' = c_streams s -> tables_ok tr s -> tables_ok tr s'.
Proof. intros E1 E2 E3 [A B C]. constructor; [rewrite E1|rewrite E2|rewrite E3]; assumption. Qed.
Lemma one_reason cf x s : has_reason cf (trace s) x -> forall a y b, [x] = a ++ y :: b -> has_reason cf (rev (b ++ c_out s)) y.
Proof. intros H a y b E. destruct a as [|z a]; [injection E as <- <-; exact H|destruct a; discriminate]. Qed.
Lemma no_reason cf s : forall a (y : out) b, [] = a ++ y :: b -> has_reason cf (rev (b ++ c_out s)) y.
Proof. intros a y b E. destruct a; discriminate. Qed.
Lemma sub_left s s' f r : c_subs s' = c_subs s -> get_sub f s' = Some r -> (exists r0, get_sub f s = Some r0 /\ incl (s_listeners r) (s_listeners r0) /\ (s_subscribed r = true -> s_subscribed r0 = true) /\ (s_poisoned r = true -> s_poisoned r0 = true)) \/ sub_ok (trace s') f r.
Proof. intros E H. left. exists r. unfold get_sub in *. rewrite E in H. split; [exact H|]. split; [apply incl_refl|auto]. Qed.
Lemma in_trace x s s' m : c_out s' = m ++ c_out s -> In x m \/ In x (trace s) -> In x (trace s').
Proof. intros E. rewrite (trace_app m s s' E). intros [H|H]; apply in_or_app; [right; apply -> in_rev; exact H|left; exact H]. Qed.
Lemma in_emit x s s' : c_out s' = x :: c_out s -> In x (trace s').
Proof. intros E. apply (in_trace x s s' [x] E). left. left. reflexivity. Qed.
(* operations *)
Lemma op_is g s id o : J5 g s -> get_op id s = Some o -> is_op id (o_work o) (trace s).
Proof. intros J Ho. exists (o_deadline o). unfold trace. apply -> in_rev. apply (j5_in _ _ J). exact Ho. Qed.

(** ** Messages for streams *)
Definition listening (s : client) (id : N) : bool :=
  match get_op id s with Some o => kind_eqb (o_kind o) STREAM && negb (state_is S_PENDING_DESTROY o || state_is S_TERMINAL o) | None => false end.
Definition recipients (topic : bytes) (s : client) : list N :=
  (match find_key topic (filter (fun e => negb (has_wildcard (fst e))) (c_streams s)) with Some l => l | None => [] end) ++
  flat_map (fun e => if topic_matched topic (fst e) then snd e else []) (filter (fun e => has_wildcard (fst e)) (c_streams s)).
Definition messages (topic payload : bytes) (l : list N) : list out := rev (map (fun id => O_MESSAGE id topic payload) l).
Lemma messages_app topic payload l l' : messages topic payload l' ++ messages topic payload l = messages topic payload (l ++ l').
Proof. unfold messages. rewrite map_app, rev_app_distr. reflexivity. Qed.
Lemma listening_emits l s id : listening (emits l s) id = listening s id. Proof. reflexivity. Qed.
Lemma deliver_exact topic payload l m s : fold_left (deliver topic payload) l (emits m s) = emits (messages topic payload (filter (listening s) l) ++ m) s.
Proof.
  revert m. induction l as [|id l IH]; intros m; [reflexivity|]. cbn [fold_left filter]. assert (D : deliver topic payload (emits m s) id = emits ((if listening s id then [O_MESSAGE id topic payload] else []) ++ m) s).
  { unfold deliver, listening. change (get_op id (emits m s)) with (get_op id s). destruct (get_op id s) as [o|]; [|reflexivity]. destruct (o_kind o); [reflexivity|]. change (kind_eqb STREAM STREAM) with true. cbn [andb]. destruct (_ || _); reflexivity. }
  rewrite D, IH. destruct (listening s id); [|reflexivity]. unfold messages. cbn [map rev]. rewrite <- app_assoc. reflexivity.
Qed.
Lemma streamed_exact topic payload s : streamed topic payload s = emits (messages topic payload (filter (listening s) (recipients topic s))) s.
Proof.
  unfold streamed, recipients. set (s1 := match find_key _ _ with Some l => _ | None => _ end). set (l1 := match find_key _ _ with Some l => _ | None => _ end).
  assert (H1 : s1 = emits (messages topic payload (filter (listening s) l1)) s). { unfold s1, l1. destruct (find_key _ _) as [l|]; [|destruct s; reflexivity]. pose proof (deliver_exact topic payload l [] s) as D. rewrite app_nil_r in D. rewrite <- D. f_equal. destruct s; reflexivity. }
  rewrite H1. clear H1 s1. rewrite filter_app, <- messages_app. generalize (messages topic payload (filter (listening s) l1)) as m. clear l1. induction (filter (fun e => has_wildcard (fst e)) (c_streams s)) as [|e l IH]; intros m; [reflexivity|].
  cbn [fold_left flat_map]. destruct (topic_matched _ _); [|apply IH]. rewrite deliver_exact, IH, filter_app, <- messages_app, app_assoc. reflexivity.
Qed.
Lemma recipients_in topic s id : In id (recipients topic s) -> exists f ids, In (f, ids) (c_streams s) /\ In id ids /\ (f = topic \/ topic_matched topic f = true).
Proof.
  unfold recipients. rewrite in_app_iff. intros [H|H].
  - destruct (find_key _ _) as [l|] eqn:E; [|destruct H]. apply find_key_in in E. apply filter_In in E as [E _]. exists topic, l. auto.
  - apply in_flat_map in H as ([f ids] & H1 & H2). apply filter_In in H1 as [H1 _]. cbn [fst snd] in H2. destruct (topic_matched topic f) eqn:E; [|destruct H2]. exists f, ids. auto.
Qed.

(** ** Tables *)
Lemma add_paths_find l s t p n : find_key t (c_paths (fold_left add_path l s)) = Some (p, n) -> (exists n, find_key t (c_paths s) = Some (p, n)) \/ In (t, p) l.
Proof.
  revert s. induction l as [|[t0 p0] l IH]; intros s; [eauto|]. cbn [fold_left]. intros H. apply IH in H as [[n0 H]|H]; [|right; right; exact H]. unfold add_path in H. cbn [fst snd] in H.
  destruct (find_key t0 (c_paths s)) as [[p1 n1]|] eqn:E; cbn [set_paths c_paths] in H; rewrite find_put in H; destruct (bytes_eqb t t0) eqn:Et; [|eauto| |eauto]; apply bytes_eqb_spec in Et; subst t0; injection H as <- <-; [eauto|right; left; reflexivity].
Qed.
Lemma drop_paths_find l s t p n : find_key t (c_paths (fold_left drop_path l s)) = Some (p, n) -> exists n, find_key t (c_paths s) = Some (p, n).
Proof.
  revert s n. induction l as [|[t0 p0] l IH]; intros s n; [eauto|]. cbn [fold_left]. intros H. apply IH in H as [n0 H]. unfold drop_path in H. cbn [fst snd] in H.
  destruct (find_key t0 (c_paths s)) as [[p1 n1]|] eqn:E; [|eauto]. cbn [set_paths c_paths] in H. destruct (n1 =? 1).
  - destruct (bytes_eqb t t0) eqn:Et; [apply bytes_eqb_spec in Et; subst; rewrite find_remove_same in H; discriminate|]. apply bytes_eqb_false in Et. rewrite find_remove_other in H by exact Et. eauto.
  - rewrite find_put in H. destruct (bytes_eqb t t0) eqn:Et; [|eauto]. apply bytes_eqb_spec in Et. subst. injection H as <- <-. eauto.
Qed.
Lemma paths_streams l s : c_streams (fold_left add_path l s) = c_streams s.
Proof. revert s. induction l as [|p l IH]; intros s; [reflexivity|]. cbn [fold_left]. rewrite IH. unfold add_path. destruct (find_key _ _) as [[? ?]|]; reflexivity. Qed.
Lemma paths_ops l s : c_ops (fold_left add_path l s) = c_ops s.
Proof. revert s. induction l as [|p l IH]; intros s; [reflexivity|]. cbn [fold_left]. rewrite IH. unfold add_path. destruct (find_key _ _) as [[? ?]|]; reflexivity. Qed.
Lemma tables_added tr o s : is_op (o_id o) (o_work o) tr -> tables_ok tr s -> tables_ok tr (add_tables o s).
Proof.
  intros Ho [A B C]. unfold add_tables. destruct (o_work o) as [r|f] eqn:Ew; constructor; cbn [upd_op set_ops set_tokens set_streams c_paths c_tokens c_streams].
  - intros t p n H. apply add_paths_find in H as [[n0 H]|H]; [eauto|]. exists (o_id o), r. auto.
  - intros t id. rewrite find_put. destruct (bytes_eqb t (r_token r)) eqn:E; [|rewrite add_paths_tokens; apply B]. apply bytes_eqb_spec in E. subst t. intros [= <-]. exists r. auto.
  - rewrite paths_streams. exact C.
  - exact A.
  - exact B.
  - intros f0 ids id. destruct (find_key f (c_streams s)) as [l|].
    + intros H Hi. apply in_map_iff in H as ([f1 ids1] & H & H1). cbn [fst snd] in H. destruct (bytes_eqb f f1) eqn:E; injection H as <- <-; [|eapply C; eassumption]. apply bytes_eqb_spec in E. subst f1. apply in_app_or in Hi as [Hi|[<-|[]]]; [eapply C; eassumption|exact Ho].
    + intros H Hi. apply in_app_or in H as [H|[H|[]]]; [eapply C; eassumption|]. injection H as <- <-. destruct Hi as [<-|[]]. exact Ho.
Qed.
Lemma tables_removed tr o s : tables_ok tr s -> tables_ok tr (untabled o s).
Proof.
  intros [A B C]. unfold untabled. destruct (o_work o) as [r|f] eqn:Ew; [|constructor; assumption]. destruct (o_tables o); [|constructor; assumption]. constructor.
  - intros t p n H. apply drop_paths_find in H as [n0 H]. eauto.
  - intros t id. rewrite drop_paths_tokens. cbn [set_tokens c_tokens]. destruct (bytes_eqb t (r_token r)) eqn:E; [apply bytes_eqb_spec in E; subst t; rewrite find_remove_same; discriminate|]. apply bytes_eqb_false in E. rewrite find_remove_other by exact E. apply B.
  - assert (G : forall l s1, c_streams (fold_left drop_path l s1) = c_streams s1). { clear. induction l as [|p l IH]; intros s1; [reflexivity|]. cbn [fold_left]. rewrite IH. unfold drop_path. destruct (find_key _ _) as [[? ?]|]; reflexivity. }
    rewrite G. exact C.
Qed.

(** ** Records *)
Definition no_more (r' r : sub) : Prop := s_filter r' = s_filter r /\ incl (s_listeners r') (s_listeners r) /\ (s_subscribed r' = true -> s_subscribed r = true) /\ (s_poisoned r' = true -> s_poisoned r = true).
Lemma sub_upd s s' tr f h : c_subs s' = c_subs (upd_sub f h s) -> (forall r, get_sub f s = Some r -> no_more (h r) r \/ sub_ok tr f (h r)) -> (forall r, s_filter (h r) = s_filter r) ->
  forall f' r', get_sub f' s' = Some r' -> (exists r0, get_sub f' s = Some r0 /\ incl (s_listeners r') (s_listeners r0) /\ (s_subscribed r' = true -> s_subscribed r0 = true) /\ (s_poisoned r' = true -> s_poisoned r0 = true)) \/ sub_ok tr f' r'.
Proof.
  intros E Hn Hf f' r' H. rewrite (get_sub_subs f' (upd_sub f h s) s' E) in H. rewrite get_sub_upd in H by exact Hf. destruct (bytes_eqb f f') eqn:Eb.
  - apply bytes_eqb_spec in Eb. subst f'. destruct (get_sub f s) as [r|]; [|discriminate]. injection H as <-. destruct (Hn r eq_refl) as [(_ & K1 & K2 & K3)|K]; [left; exists r; auto|right; exact K].
  - left. exists r'. split; [exact H|]. split; [apply incl_refl|auto].
Qed.
Lemma told_in e0 f0 id e r s : In (e0, f0, id) (c_events (told e r s)) -> In (e0, f0, id) (c_events s) \/ (e0 = e /\ f0 = s_filter r /\ In id (s_listeners r)).
Proof. unfold told. cbn [set_events c_events]. rewrite in_app_iff. intros [H|H]; [auto|]. apply in_map_iff in H as (i & [= <- <- <-] & H). auto. Qed.
(** ** Operations *)
Lemma is_op_uniq g s id w w' : J5 g s -> is_op id w (trace s) -> is_op id w' (trace s) -> w = w'.
Proof. intros J [d H] [d' H']. unfold trace in H, H'. rewrite <- in_rev in H, H'. destruct (j5_uniq _ _ J _ _ _ _ _ H H') as [E _]. exact E. Qed.
Lemma uses_stream g s id o f : J5 g s -> get_op id s = Some o -> o_kind o = STREAM -> uses id f (trace s) -> is_op id (W_STREAM f) (trace s).
Proof.
  intros J Ho Hk (w & Hw & Hf). pose proof (op_is g s id o J Ho) as Hi. rewrite (is_op_uniq _ _ _ _ _ J Hw Hi) in Hf. unfold o_kind in Hk. destruct (o_work o) as [r|f0]; [discriminate|]. destruct Hf as [<-|[]]. exact Hi.
Qed.
Lemma gop_is g s o : J2 g s -> J5 g s -> gop g = Some o -> is_op (o_id o) (o_work o) (trace s).
Proof. intros HJ2 HJ5 H. destruct (gop_get _ _ _ HJ2 H) as (o' & Ho & Hw). rewrite <- Hw. apply (op_is g s _ _ HJ5 Ho). Qed.
Lemma gop_kind g s o o' : J2 g s -> gop g = Some o -> get_op (o_id o') s = Some o' -> o_id o = o_id o' -> o_kind o = o_kind o'.
Proof. intros HJ2 H Ho' E. destruct (gop_get _ _ _ HJ2 H) as (o1 & Ho & Hw). rewrite E, Ho' in Ho. injection Ho as <-. unfold o_kind. rewrite Hw. reflexivity. Qed.

Lemma complete_reason cf g s o r : J2 g s -> J5 g s -> J9 cf g s -> get_op (o_id o) s = Some o -> o_kind o = REQUEST -> cause g o r s -> has_reason cf (trace s) (O_COMPLETE (o_id o) r).
Proof.
  intros HJ2 HJ5 J Ho Hk C. pose proof (j9_about _ _ _ J) as A. inversion C; subst; cbn [about_ok] in A; cbn [has_reason].
  - destruct A as (A1 & A2 & A3 & _). destruct H0 as [[-> ->]|[-> ->]].
    + rewrite H in A1. destruct (A1 eq_refl) as [K|(f & K1 & K2)]; [left; exact K|right; exists f; auto].
    + pose proof (gop_kind _ _ _ _ HJ2 (eq_refl : gop (TOOK o0 A_NO_CAPACITY) = Some o0) Ho H) as E. rewrite A3, Hk in E by reflexivity. discriminate.
  - rewrite H in A. left. exact A.
  - pose proof (j9_events _ _ _ J _ _ _ (or_introl eq_refl)) as K. right. exists f. destruct H as [->| ->]; cbn [event_ok] in K; tauto.
  - right. exact A.
  - exact A.
  - exact A.
  - destruct (t_paths _ _ (j9_tables _ _ _ J) _ _ _ H) as (id' & r' & K1 & K2). destruct (t_tokens _ _ (j9_tables _ _ _ J) _ _ H1) as (r & K3 & K4). exists r, j, path. split; [exact K3|]. split; [exact A|]. split; [rewrite K4; exact H0|]. exists id', r'. auto.
Qed.
Lemma halt_reason cf g s o e : J2 g s -> J5 g s -> J9 cf g s -> get_op (o_id o) s = Some o -> o_kind o = STREAM -> halt_cause g o e -> has_reason cf (trace s) (O_STATUS (o_id o) (S_HALTED e)).
Proof.
  intros HJ2 HJ5 J Ho Hk C. pose proof (j9_about _ _ _ J) as A. inversion C; subst; cbn [about_ok] in A; cbn [has_reason].
  - destruct A as (A1 & A2 & A3 & _). destruct H0 as [[-> ->]|[-> ->]].
    + rewrite H in A1. destruct (A1 eq_refl) as [K|(f & K1 & K2)]; [left; exact K|right; exists f]. split; [|exact K2]. apply (uses_stream _ _ _ _ _ HJ5 Ho Hk K1).
    + rewrite H in A2. exact A2.
  - pose proof (j9_events _ _ _ J _ _ _ (or_introl eq_refl)) as [K1 K2]. right. exists f. split; [|exact K2]. apply (uses_stream _ _ _ _ _ HJ5 Ho Hk K1).
  - exact A.
  - exact A.
Qed.
Lemma refuse_reason cf g s o a : J2 g s -> J5 g s -> J4 g s -> J9 cf g s -> get_op (o_id o) s = Some o -> refuses cf (o_kind o) (o_filters o) s = Some a ->
  (a = A_FAILURE -> failing (trace s) (o_id o)) /\ (a = A_NO_CAPACITY -> o_kind o = STREAM) /\ a <> A_SUBSCRIBED.
Proof.
  intros HJ2 HJ5 HJ4 J Ho H. pose proof (op_is _ _ _ _ HJ5 Ho) as Hi. pose proof (j9_timed _ _ _ J) as Ht. rewrite Forall_forall in Ht. destruct (Ht _ (get_op_in _ _ _ Ho)) as [_ Hne].
  unfold refuses in H. assert (Hm : forall (X : Type) (a b : X), match o_filters o with [] => a | _ :: _ => b end = b) by (intros; destruct (o_filters o); [destruct (Hne eq_refl)|reflexivity]). rewrite Hm in H. clear Hne Hm. destruct (existsb _ (o_filters o)) eqn:Eb.
  - injection H as <-. split; [|split; discriminate]. intros _. apply existsb_exists in Eb as (f & Hf & Hb). destruct (get_sub f s) as [r|] eqn:Er; [|discriminate]. apply orb_true_iff in Hb as [Hb|Hb].
    + right. exists f. split; [exists (o_work o); auto|]. exact (proj2 (proj2 (j9_subs _ _ _ J f r Er)) Hb).
    + left. exists (o_work o), f, (s_kind r). split; [exact Hi|]. split; [exact Hf|]. split; [apply (j4_kind _ _ HJ4 f r Er)|]. intros E. change (kind_of (o_work o)) with (o_kind o) in E. rewrite E in Hb. destruct (o_kind o); discriminate.
  - clear Eb. destruct (existsb _ (o_filters o)); [injection H as <-; repeat split; discriminate|]. destruct (_ =? 0); [discriminate|]. destruct (o_kind o).
    + destruct (_ <? _); [injection H as <-; repeat split; discriminate|discriminate].
    + destruct (_ <? _); [|discriminate]. destruct (_ <=? _); injection H as <-; repeat split; discriminate.
Qed.
Lemma valid_filters w : valid_work w = true -> Forall Topic_Spec.topic_filter (filters_of w).
Proof.
  destruct w as [r|f]; cbn [valid_work filters_of]; intros H.
  - rewrite !andb_true_iff in H. destruct H as ((((_ & _) & _) & H) & _). rewrite forallb_forall in H. rewrite Forall_forall. intros f Hf. apply Topic_Proofs.valid_filter_spec. auto.
  - constructor; [apply Topic_Proofs.valid_filter_spec; exact H|constructor].
Qed.
Lemma op_valid cf g s id w : J9 cf g s -> is_op id w (trace s) -> Forall Topic_Spec.topic_filter (filters_of w).
Proof. intros J [d H]. apply in_split in H as (tr1 & tr2 & H). exact (proj1 (j9_all _ _ _ J _ _ _ H)). Qed.
Lemma lm_refl f : SubSet_Spec.topic_matches f f.
Proof. unfold SubSet_Spec.topic_matches. induction (split 47 f); [constructor|apply SubSet_Spec.lm_same; assumption]. Qed.
Lemma levels_tmb fs ts : SubSet_Proofs.hash_last fs -> match_levels fs ts = TopicTree_Func.tmb fs ts.
Proof.
  revert ts. induction fs as [|f fs IH]; intros ts H; [destruct ts; reflexivity|]. destruct ts as [|t ts]; [reflexivity|]. destruct H as [H1 H2]. cbn [match_levels TopicTree_Func.tmb]. destruct (bytes_eqb f [35]) eqn:E.
  - apply bytes_eqb_spec in E. rewrite (H1 E). subst f. reflexivity.
  - assert (E' : bytes_eqb f hash = false) by exact E. rewrite E'. cbn [andb]. rewrite IH by exact H2. change plus with [43]. assert (S : bytes_eqb t f = bytes_eqb f t). { destruct (bytes_eqb t f) eqn:E1; [apply bytes_eqb_spec in E1; subst; symmetry; apply bytes_eqb_refl|]. destruct (bytes_eqb f t) eqn:E2; [|reflexivity]. apply bytes_eqb_spec in E2. subst. rewrite bytes_eqb_refl in E1. discriminate. }
    rewrite S. destruct (bytes_eqb f [43]), (bytes_eqb f t); reflexivity.
Qed.
Lemma matched_exact topic f : Topic_Spec.topic_filter f -> topic_matched topic f = true <-> TopicTree_Spec.tree_matches f topic.
Proof.
  intros H. apply Topic_Proofs.valid_filter_spec, SubSet_Proofs.valid_hash_last in H. unfold topic_matched. rewrite levels_tmb by exact H. apply TopicTree_Func.tmb_spec. exact H.
Qed.
Lemma matched_spec topic f : Topic_Spec.topic_filter f -> topic_matched topic f = true -> SubSet_Spec.topic_matches f topic.
Proof. intros H K. apply (matched_exact topic f H) in K. exact (proj1 K). Qed.
Lemma in_dec_shutdown l : {In I_SHUTDOWN l} + {~ In I_SHUTDOWN l}.
Proof.
  induction l as [|x l [IH|IH]]; [right; exact (fun h => h)|left; right; exact IH|]. destruct x; try (right; intros [K|K]; [discriminate|exact (IH K)]). left. left. reflexivity.
Qed.
Lemma wake_is now s : exists n, wake now s = set_scheduled n s.
Proof. assert (D : s = set_scheduled (c_scheduled s) s) by (destruct s; reflexivity). unfold wake. destruct (active _); [|eauto]. destruct (_ || _); eauto. Qed.
Lemma submitted_is id now s : exists n, submitted id now s = release id (set_scheduled n (emit (I_QUEUED id) (upd_op id (set_state S_QUEUED) (set_queue (c_queue s ++ [id])
         (upd_op id (fun o => set_timed (match o_kind o with REQUEST => true | STREAM => false end) (set_tracked true o)) (upd_op id (set_submitting false) s)))))).
Proof. unfold submitted. destruct (wake_is now (emit (I_QUEUED id) (upd_op id (set_state S_QUEUED) (set_queue (c_queue s ++ [id]) (upd_op id (fun o => set_timed (match o_kind o with REQUEST => true | STREAM => false end) (set_tracked true o)) (upd_op id (set_submitting false) s)))))) as [n ->]. exists n. reflexivity. Qed.
Lemma incl_emit x s s' : c_out s' = x :: c_out s -> incl (trace s) (trace s').
Proof. intros E. rewrite (trace_emit x s s' E). apply incl_appl, incl_refl. Qed.
Ltac wevs := intros ? ? ? K; left; first [exact K|right; exact K].
Ltac wsub := intros ? ? K; apply sub_left; [reflexivity|exact K].
Ltac wtab := apply tables_same; reflexivity.
Ltac wtimed := first [exact (fun h => h)|intros HT; repeat (first [exact HT|apply forall_upd; [intros ?; first [apply timed_unref|exact (fun h => h)]|]])].
Ltac wabout := cbn [about_ok]; first [exact (fun h => h)|tauto|auto].
Ltac w0 := solve [eapply (j9_go _ _ _ _ _ []); [eassumption|reflexivity|apply no_reason|wevs|wsub|wtab|wtimed|wabout]].
Ltac w1 := solve [match goal with |- J9 _ _ ?s' => let x := eval cbn [completed halted subscribing unsubscribing told activate_stream release upd_op upd_sub set_ops set_subs set_queue set_flights set_publishes set_events set_connected set_scheduled set_phase emit c_out] in (c_out s') in match x with ?y :: _ =>
  eapply (j9_go _ _ _ _ _ [y]); [eassumption|reflexivity|apply one_reason; exact I|wevs|wsub|wtab|wtimed|wabout] end end].
Lemma J9_step cf g s g' s' : JA cf g s -> J9 cf g s -> big cf (g, s) (g', s') -> J9 cf g' s'.
Proof.
  intros HA J B. pose proof (ja2 _ _ _ HA) as HJ2. pose proof (ja5 _ _ _ HA) as HJ5. pose proof (ja4 _ _ _ HA) as HJ4. pose proof (ja6 _ _ _ HA) as HJ6. inversion B as [x y P|s0 Ha Hs|s0 Hp Ho He Hu]; subst.
  2: { eapply (j9_go _ _ _ _ _ [I_SHUTDOWN]); [eassumption|reflexivity|apply one_reason; exact I|wevs|wsub|wtab|wtimed|]. intros _. eapply in_emit. reflexivity. }
  2: { eapply (j9_go _ _ _ _ _ [O_TERMINATED]); [eassumption|reflexivity|apply one_reason; exact I|wevs|wsub|wtab|wtimed|wabout]. }
  clear B. inversion P; subst; try w0; try w1.
  - (* create *) match goal with H : valid_work w = true |- _ => rename H into Hv end. match goal with H : exists l, c_out s = _ |- _ => destruct H as [l Hl] end.
    eapply (j9_go _ _ _ _ _ [I_OPERATION (c_next s) w (o_deadline (new_op cf now w s))]); [eassumption|rewrite create_shape by exact Hv; reflexivity| | | | | |wabout].
    + apply one_reason. cbn [has_reason]. split; [apply valid_filters; exact Hv|]. destruct w as [r|f]; [|exact I]. exists now, (rev l). split; [unfold trace; rewrite Hl; reflexivity|reflexivity].
    + intros e f id K. rewrite create_shape in K by exact Hv. left. exact K.
    + intros f r K. rewrite create_shape in * by exact Hv. apply sub_left; [reflexivity|exact K].
    + apply tables_same; rewrite create_shape by exact Hv; reflexivity.
    + intros HT. rewrite create_shape by exact Hv. cbn [emit set_next set_ops c_ops]. apply Forall_app. split; [exact HT|]. constructor; [|constructor]. split; [discriminate|]. unfold o_filters, new_op. cbn [o_work]. destruct w as [r|f]; [|discriminate]. cbn [filters_of]. cbn [valid_work] in Hv.
      destruct (r_filters r); [|discriminate]. rewrite !andb_true_iff in Hv. cbn [is_nil negb] in Hv. intuition discriminate.
  - (* submitted *) destruct (submitted_is id now s) as [n En]. rewrite En. eapply (j9_go _ _ _ _ _ [I_QUEUED id]); [eassumption|reflexivity|apply one_reason; exact I|wevs|wsub|wtab| |wabout].
    intros HT. apply (forall_upd timed_ok id unref); [apply timed_unref|]. apply (forall_upd timed_ok id (set_state S_QUEUED) (upd_op id (fun o => set_timed (match o_kind o with REQUEST => true | STREAM => false end) (set_tracked true o)) (upd_op id (set_submitting false) s))); [exact (fun x h => h)|]. apply forall_upd; [|apply forall_upd; [exact (fun x h => h)|exact HT]].
    intros x [_ Hx]. split; [|exact Hx]. change (o_kind (set_timed (match o_kind x with REQUEST => true | STREAM => false end) (set_tracked true x))) with (o_kind x). cbn [o_timed set_timed]. destruct (o_kind x); [reflexivity|discriminate].
  - (* closed *) eapply (j9_go _ _ _ _ _ []); [eassumption|reflexivity|apply no_reason|wevs|wsub|wtab|wtimed|]. intros _. cbn [about_ok]. match goal with H : c_phase s <> ACTIVE |- _ => rename H into Hp end. change (In I_SHUTDOWN (trace s)). unfold trace. apply -> in_rev. destruct HJ6 as [K _].
    destruct (in_dec_shutdown (c_out s)) as [Hd|Hd]; [exact Hd|]. destruct (Hp (proj2 K Hd)).
  - (* timeout *) match goal with H : earliest _ = Some _ |- _ => rename H into He end. pose proof (earliest_spec (c_ops s)) as Hsp. rewrite He in Hsp. destruct Hsp as (Hin & Htd & _). pose proof (in_get_op _ _ (j2_ids _ _ HJ2) Hin) as Ho. pose proof (j9_timed _ _ _ J) as Ht. rewrite Forall_forall in Ht. pose proof (proj1 (Ht _ Hin) Htd) as Hk.
    assert (J1 : J9 cf IDLE (upd_op (o_id o) (set_timed false) s)). { eapply (j9_go _ _ _ _ _ []); [eassumption|reflexivity|apply no_reason|wevs|wsub|wtab| |wabout]. apply forall_upd. intros x [_ Hx]. split; [discriminate|exact Hx]. }
    unfold fail. rewrite get_op_upd_same, Ho by reflexivity. cbn [option_map]. change (o_kind (set_timed false o)) with (o_kind o). rewrite Hk. unfold complete. change (o_kind (set_timed false o)) with (o_kind o). rewrite Hk. destruct (state_is _ _); [exact J1|].
    eapply (j9_go _ _ _ _ _ [O_COMPLETE (o_id o) (FAILED E_TIMEOUT)]); [exact J1|reflexivity| |wevs|wsub|wtab|wtimed|wabout]. apply one_reason. cbn [has_reason]. assert (Hw : exists r, o_work o = W_REQUEST r) by (unfold o_kind in Hk; destruct (o_work o) as [r|]; [exists r; reflexivity|discriminate]). destruct Hw as [r Hw]. exists r, (o_deadline o), now. rewrite <- Hw. split; [|split; [|assumption]].
    * change (In (I_OPERATION (o_id o) (o_work o) (o_deadline o)) (trace s)). unfold trace. apply -> in_rev. apply (j5_in _ _ HJ5). exact Ho.
    * change (In (I_TICK now) (trace s)). unfold trace. apply -> in_rev. assumption.
  - (* refuse *) match goal with H : refuses _ _ _ _ = Some _ |- _ => rename H into Hr end. match goal with H : get_op id s = Some o |- _ => rename H into Ho end. pose proof (get_op_id _ _ _ Ho) as Hid. subst id. destruct (refuse_reason _ _ _ _ _ HJ2 HJ5 HJ4 J Ho Hr) as (R1 & R2 & R3).
    eapply (j9_go _ _ _ _ _ [O_INTAKE (o_id o) a]); [eassumption|reflexivity| |wevs|wsub|wtab|wtimed|].
    + apply one_reason. cbn [has_reason]. destruct a; try exact I. apply R1. reflexivity.
    + intros _. cbn [about_ok]. split; [|split; [|split; [exact R2|]]].
      * intros E. eapply failing_mono; [eapply (incl_emit _ s); reflexivity|apply R1; exact E].
      * eapply in_emit. reflexivity.
      * intros E. destruct (R3 E).
  - (* listen *) eapply (j9_go _ _ _ _ _ []); [eassumption|unfold listen; destruct (get_sub f s); reflexivity|apply no_reason| | | | |wabout].
    + intros e f0 id K. left. unfold listen in K. destruct (get_sub f s); exact K.
    + intros f0 r K. right. pose proof (gop_is _ _ o HJ2 HJ5 eq_refl) as Hi. assert (Hf : In f (o_filters o)) by (apply (j5_taking _ _ HJ5 o (f :: rest) eq_refl); left; reflexivity). assert (Et : trace (listen (o_kind o) (o_id o) s f) = trace s) by (unfold listen; destruct (get_sub f s); reflexivity). rewrite Et.
      rewrite get_sub_listen in K. destruct (bytes_eqb f f0) eqn:E; [|apply (j9_subs _ _ _ J); exact K]. apply bytes_eqb_spec in E. subst f0. assert (Hu : uses (o_id o) f (trace s)) by (exists (o_work o); auto). destruct (get_sub f s) as [r0|] eqn:Er; injection K as <-.
      * destruct (j9_subs _ _ _ J f r0 Er) as (L1 & L2 & L3). split; [|split; assumption]. cbn [with_listeners s_listeners]. intros id. destruct (existsb _ _); [apply L1|]. rewrite in_app_iff. intros [L|[<-|[]]]; [apply L1; exact L|exact Hu].
      * split; [|split; discriminate]. intros id [<-|[]]. exact Hu.
    + apply tables_same; unfold listen; destruct (get_sub f s); reflexivity.
    + unfold listen; destruct (get_sub f s); exact (fun h => h).
  - (* took *) pose proof (gop_is _ _ o HJ2 HJ5 eq_refl) as Hi. match goal with H : a = A_FAILURE -> _ |- _ => rename H into Hf end. match goal with H : a = A_SUBSCRIBED -> _ |- _ => rename H into Hs end.
    assert (R1 : a = A_FAILURE -> failing (trace s) (o_id o)). { intros E. destruct (Hf E) as (f & K1 & K2). right. exists f. split; [exists (o_work o); auto|]. left. unfold trace. apply -> in_rev. exact K2. }
    eapply (j9_go _ _ _ _ _ [O_INTAKE (o_id o) a]); [eassumption|reflexivity| |wevs|wsub|wtab|wtimed|].
    + apply one_reason. cbn [has_reason]. destruct a; try exact I. apply R1. reflexivity.
    + intros _. cbn [about_ok]. split; [|split; [|split]].
      * intros E. eapply failing_mono; [eapply (incl_emit _ s); reflexivity|apply R1; exact E].
      * eapply in_emit. reflexivity.
      * intros E. congruence.
      * intros E f Hff. destruct (Hs E f Hff) as (r & K1 & K2). eapply (in_trace _ s _ [_]); [reflexivity|]. right. exact (proj1 (proj2 (j9_subs _ _ _ J f r K1)) K2).
  - (* tables *) pose proof (gop_is _ _ o HJ2 HJ5 eq_refl) as Hi. destruct (add_tables_frame o s) as (F1 & F2 & F3 & F4 & F5 & F6 & F7 & F8). assert (Et : trace (add_tables o s) = trace s) by (unfold trace; rewrite F8; reflexivity).
    eapply (j9_go _ _ _ _ _ []); [eassumption|exact F8|apply no_reason| | | | |].
    + intros e f id K. left. cbn [evs] in *. rewrite F4 in K. exact K.
    + intros f r K. apply sub_left; [apply add_tables_subs|exact K].
    + rewrite Et. apply tables_added. exact Hi.
    + intros HT. unfold add_tables. apply forall_upd; [exact (fun x h => h)|]. destruct (o_work o); [cbn [set_tokens c_ops]; rewrite paths_ops|]; exact HT.
    + cbn [about_ok]. tauto.
  - (* established at once *) pose proof (gop_is _ _ o HJ2 HJ5 eq_refl) as Hi. pose proof (j9_about _ _ _ J) as A. cbn [about_ok] in A.
    eapply (j9_go _ _ _ _ _ [_]); [eassumption|reflexivity| |wevs|wsub|wtab|wtimed|wabout]. apply one_reason. cbn [has_reason]. match goal with H : o_kind o = STREAM |- _ => rename H into Hk end. unfold o_kind in Hk. unfold o_filters in A. destruct (o_work o) as [r|f] eqn:Ew; [discriminate|]. exists f. split; [exact Hi|]. apply (A eq_refl). left. reflexivity.
  - (* publish refused *) eapply (j9_go _ _ _ _ _ [_]); [eassumption|reflexivity|apply one_reason; exact I|wevs|wsub|wtab|wtimed|]. intros _. eapply in_emit. reflexivity.
  - (* completed *) eapply (j9_go _ _ _ _ _ [_]); [eassumption|reflexivity|apply one_reason; eapply complete_reason; eassumption| |wsub|wtab|wtimed|wabout]. intros ? ? ? K. left. destruct g'; exact K.
  - (* halted *) eapply (j9_go _ _ _ _ _ [_]); [eassumption|reflexivity|apply one_reason; eapply halt_reason; eassumption| |wsub|wtab|wtimed|wabout]. intros ? ? ? K. left. destruct g'; exact K.
  - (* pop *) match goal with H : c_events s = _ |- _ => rename H into Hev end. eapply (j9_go _ _ _ _ _ []); [eassumption|reflexivity|apply no_reason| |wsub|wtab|wtimed|wabout]. intros e0 f0 id0 K. left. cbn [evs] in *. rewrite Hev. exact K.
  - (* wake *) destruct (wake_is now s) as [n ->]. w0.
  - (* established *) match goal with H : get_op id s = Some o |- _ => rename H into Ho end. pose proof (j9_events _ _ _ J _ _ _ (or_introl eq_refl)) as [K1 K2]. match goal with H : o_kind o = STREAM |- _ => pose proof (uses_stream _ _ _ _ _ HJ5 Ho H K1) as K3 end.
    clear P. match goal with |- context [if ?b then _ else _] => generalize b end. intros bb.
    eapply (j9_go _ _ _ _ _ [O_STATUS id S_ESTABLISHED]); [eassumption|destruct bb; reflexivity| | | | | |wabout].
    + apply one_reason. cbn [has_reason]. exists f. auto.
    + intros e0 f0 id0 K. left. right. destruct bb; exact K.
    + intros f0 r K. apply sub_left; [destruct bb; reflexivity|exact K].
    + apply tables_same; destruct bb; reflexivity.
    + destruct bb; wtimed.
  - (* lost *) match goal with H : get_op id s = Some o |- _ => rename H into Ho end. pose proof (j9_events _ _ _ J _ _ _ (or_introl eq_refl)) as (K1 & K2 & K2'). match goal with H : o_kind o = STREAM |- _ => pose proof (uses_stream _ _ _ _ _ HJ5 Ho H K1) as K3 end.
    eapply (j9_go _ _ _ _ _ [_]); [eassumption|reflexivity| |wevs|wsub|wtab|wtimed|wabout]. apply one_reason. cbn [has_reason]. exists f. auto.
  - (* acked *) eapply (j9_go _ _ _ _ _ [_]); [eassumption|reflexivity|apply one_reason; destruct b; exact I|wevs|wsub|wtab|wtimed|]. intros _. cbn [about_ok]. eapply in_emit. reflexivity.
  - (* suback ok *) match goal with H : get_sub f s = Some r |- _ => rename H into Hr end. pose proof (j9_about _ _ _ J) as A. cbn [about_ok] in A. pose proof (get_sub_filter _ _ _ Hr) as Hfl. destruct (j9_subs _ _ _ J f r Hr) as (L1 & L2 & L3).
    eapply (j9_go _ _ _ _ _ []); [eassumption|reflexivity|apply no_reason| | |wtab|wtimed|wabout].
    + intros e0 f0 id0 K. cbn [evs] in *. apply told_in in K as [K|(-> & -> & K)]; [left; exact K|right]. rewrite Hfl. destruct (s_kind r); (split; [apply L1; exact K|exact A]).
    + eapply (sub_upd s _ _ f (fun r => with_subscribed true (with_pending NOTHING r))); [unfold told; cbn [set_events c_subs]; rewrite upd_sub_twice by reflexivity; reflexivity| |reflexivity]. intros r0 Hr0. right. destruct (j9_subs _ _ _ J f r0 Hr0) as (N1 & N2 & N3). split; [exact N1|]. split; [intros _; exact A|exact N3].
  - (* suback failed *) match goal with H : get_sub f s = Some r |- _ => rename H into Hr end. pose proof (j9_about _ _ _ J) as A. cbn [about_ok] in A. pose proof (get_sub_filter _ _ _ Hr) as Hfl. destruct (j9_subs _ _ _ J f r Hr) as (L1 & L2 & L3).
    eapply (j9_go _ _ _ _ _ []); [eassumption|reflexivity|apply no_reason| | |wtab|wtimed|wabout].
    + intros e0 f0 id0 K. cbn [evs] in *. apply told_in in K as [K|(-> & -> & K)]; [left; exact K|right]. rewrite Hfl. split; [apply L1; exact K|right; exact A].
    + eapply (sub_upd s _ _ f (with_pending NOTHING)); [reflexivity| |reflexivity]. intros r0 Hr0. left. unfold no_more. cbn. auto using incl_refl.
  - (* suback retry *) eapply (j9_go _ _ _ _ _ []); [eassumption|reflexivity|apply no_reason|wevs| |wtab|wtimed|wabout]. eapply (sub_upd s _ _ f (with_pending NOTHING)); [reflexivity| |reflexivity]. intros r0 Hr0. left. unfold no_more. cbn. auto using incl_refl.
  - (* suback halt *) match goal with H : get_sub f s = Some r |- _ => rename H into Hr end. pose proof (j9_about _ _ _ J) as A. cbn [about_ok] in A. pose proof (get_sub_filter _ _ _ Hr) as Hfl. destruct (j9_subs _ _ _ J f r Hr) as (L1 & L2 & L3).
    eapply (j9_go _ _ _ _ _ []); [eassumption|reflexivity|apply no_reason| | |wtab|wtimed|wabout].
    + intros e0 f0 id0 K. cbn [evs] in *. apply told_in in K as [K|(-> & -> & K)]; [left; exact K|right]. rewrite Hfl. split; [apply L1; exact K|right; exact A].
    + eapply (sub_upd s _ _ f (fun r => poisoned (with_pending NOTHING r))); [unfold told; cbn [set_events c_subs]; rewrite upd_sub_twice by reflexivity; reflexivity| |reflexivity]. intros r0 Hr0. right. destruct (j9_subs _ _ _ J f r0 Hr0) as (N1 & N2 & N3). split; [exact N1|]. split; [exact N2|intros _; right; exact A].
  - (* unsuback ok *) eapply (j9_go _ _ _ _ _ []); [eassumption|reflexivity|apply no_reason| | |wtab|wtimed|wabout].
    + intros e0 f0 id0 K. cbn [evs set_events c_events] in *. apply in_app_or in K as [K|[[= <- <- <-]|[]]]; [left; exact K|right; exact I].
    + eapply (sub_upd s _ _ f (fun r => with_subscribed false (with_pending NOTHING r))); [cbn [set_events c_subs]; rewrite upd_sub_twice by reflexivity; reflexivity| |reflexivity]. intros r0 Hr0. left. unfold no_more. cbn. repeat split; auto using incl_refl; discriminate.
  - (* unsuback failed *) eapply (j9_go _ _ _ _ _ []); [eassumption|reflexivity|apply no_reason|wevs| |wtab|wtimed|wabout]. eapply (sub_upd s _ _ f (with_pending NOTHING)); [reflexivity| |reflexivity]. intros r0 Hr0. left. unfold no_more. cbn. auto using incl_refl.
  - (* pubbed *) eapply (j9_go _ _ _ _ _ [_]); [eassumption|reflexivity|apply one_reason; exact I|wevs|wsub|wtab|wtimed|]. intros _. cbn [about_ok]. eapply in_emit. reflexivity.
  - (* session lost *) eapply (j9_go _ _ _ _ _ [_]); [eassumption|reflexivity|apply one_reason; exact I|wevs|wsub|wtab|wtimed|]. intros _. cbn [about_ok]. eapply in_emit. reflexivity.
  - (* lose request *) match goal with H : get_sub f s = Some r |- _ => rename H into Hr end. match goal with H : s_subscribed r = true |- _ => rename H into Hsb end. pose proof (j9_about _ _ _ J) as A. cbn [about_ok] in A. pose proof (get_sub_filter _ _ _ Hr) as Hfl. destruct (j9_subs _ _ _ J f r Hr) as (L1 & L2 & L3).
    eapply (j9_go _ _ _ _ _ []); [eassumption|reflexivity|apply no_reason| | |wtab|wtimed|wabout].
    + intros e0 f0 id0 K. cbn [evs] in *. change (In (e0, f0, id0) (c_events (told SUBSCRIPTION_ENDED r (upd_sub f (with_subscribed false) s)))) in K. apply told_in in K as [K|(-> & -> & K)]; [left; exact K|right]. rewrite Hfl. split; [apply L1; exact K|]. split; [apply L2; exact Hsb|exact A].
    + intros f0 r0 K. rewrite get_sub_drop in K. destruct (bytes_eqb f f0) eqn:E; [discriminate|]. revert f0 r0 E K. intros f0 r0 _. apply (sub_upd s (told SUBSCRIPTION_ENDED r (upd_sub f (with_subscribed false) s)) _ f (with_subscribed false)); [reflexivity| |reflexivity]. intros r1 Hr1. left. unfold no_more. cbn. repeat split; auto using incl_refl; discriminate.
  - (* lose leaving *) match goal with H : get_sub f s = Some r |- _ => rename H into Hr end. match goal with H : s_subscribed r = true |- _ => rename H into Hsb end. pose proof (j9_about _ _ _ J) as A. cbn [about_ok] in A. pose proof (get_sub_filter _ _ _ Hr) as Hfl. destruct (j9_subs _ _ _ J f r Hr) as (L1 & L2 & L3).
    eapply (j9_go _ _ _ _ _ []); [eassumption|reflexivity|apply no_reason| | |wtab|wtimed|wabout].
    + intros e0 f0 id0 K. cbn [evs] in *. apply told_in in K as [K|(-> & -> & K)]; [left; exact K|right]. rewrite Hfl. split; [apply L1; exact K|]. split; [apply L2; exact Hsb|exact A].
    + eapply (sub_upd s _ _ f (with_subscribed false)); [reflexivity| |reflexivity]. intros r1 Hr1. left. unfold no_more. cbn. repeat split; auto using incl_refl; discriminate.
  - (* lose stream *) match goal with H : get_sub f s = Some r |- _ => rename H into Hr end. match goal with H : s_subscribed r = true |- _ => rename H into Hsb end. pose proof (j9_about _ _ _ J) as A. cbn [about_ok] in A. pose proof (get_sub_filter _ _ _ Hr) as Hfl. destruct (j9_subs _ _ _ J f r Hr) as (L1 & L2 & L3).
    eapply (j9_go _ _ _ _ _ []); [eassumption|reflexivity|apply no_reason| | |wtab|wtimed|wabout].
    + intros e0 f0 id0 K. cbn [evs] in *. apply told_in in K as [K|(-> & -> & K)]; [left; exact K|right]. rewrite Hfl. split; [apply L1; exact K|]. split; [apply L2; exact Hsb|exact A].
    + eapply (sub_upd s _ _ f (with_subscribed false)); [reflexivity| |reflexivity]. intros r1 Hr1. left. unfold no_more. cbn. repeat split; auto using incl_refl; discriminate.
  - (* subscribing *) eapply (j9_go _ _ _ _ _ [_]); [eassumption|reflexivity|apply one_reason; exact I| | |wtab|wtimed|wabout].
    + intros ? ? ? K. left. destruct g'; exact K.
    + eapply (sub_upd s _ _ f (with_pending SUBSCRIBING)); [reflexivity| |reflexivity]. intros r0 Hr0. left. unfold no_more. cbn. auto using incl_refl.
  - (* subscribe failed *) match goal with H : get_sub f s = Some r |- _ => rename H into Hr end. pose proof (get_sub_filter _ _ _ Hr) as Hfl. destruct (j9_subs _ _ _ J f r Hr) as (L1 & L2 & L3). set (s' := told SUBSCRIBE_FAILURE r (emit (O_SUBSCRIBE f false) s)). assert (Hin : In (O_SUBSCRIBE f false) (trace s')) by (eapply in_emit; reflexivity).
    eapply (j9_go _ _ _ _ _ [_]); [eassumption|reflexivity|apply one_reason; exact I| |wsub|wtab|wtimed|wabout].
    intros e0 f0 id0 K. assert (K' : In (e0, f0, id0) (evs g' s) \/ (e0 = SUBSCRIBE_FAILURE /\ f0 = s_filter r /\ In id0 (s_listeners r))). { match goal with H : g' = IDLE \/ _ |- _ => destruct H as [->|[o ->]]; cbn [evs] in *; apply told_in in K; exact K end. }
    destruct K' as [K'|(-> & -> & K')]; [left; exact K'|right]. rewrite Hfl. split; [|left; exact Hin]. eapply uses_mono; [eapply (incl_emit _ s); reflexivity|apply L1; exact K'].
  - (* subscribe halt *) match goal with H : get_sub f s = Some r |- _ => rename H into Hr end. pose proof (get_sub_filter _ _ _ Hr) as Hfl. destruct (j9_subs _ _ _ J f r Hr) as (L1 & L2 & L3). set (s' := told HALTED r (upd_sub f poisoned (emit (O_SUBSCRIBE f false) s))). assert (Hin : In (O_SUBSCRIBE f false) (trace s')) by (eapply in_emit; reflexivity).
    assert (Hm : incl (trace s) (trace s')) by (eapply (incl_emit _ s s'); reflexivity).
    eapply (j9_go _ _ _ _ _ [_]); [eassumption|reflexivity|apply one_reason; exact I| | |wtab|wtimed|wabout].
    + intros e0 f0 id0 K. assert (K' : In (e0, f0, id0) (evs g' s) \/ (e0 = HALTED /\ f0 = s_filter r /\ In id0 (s_listeners r))). { match goal with H : g' = IDLE \/ _ |- _ => destruct H as [->|[o ->]]; cbn [evs] in *; apply told_in in K; exact K end. }
      destruct K' as [K'|(-> & -> & K')]; [left; exact K'|right]. rewrite Hfl. split; [|left; exact Hin]. eapply uses_mono; [exact Hm|apply L1; exact K'].
    + eapply (sub_upd s _ _ f poisoned); [reflexivity| |reflexivity]. intros r0 Hr0. right. destruct (j9_subs _ _ _ J f r0 Hr0) as (N1 & N2 & N3). eapply sub_ok_mono with (tr := trace s') ; [apply incl_refl|]. split; [intros id Hid; eapply uses_mono; [exact Hm|apply N1; exact Hid]|]. split; [intros K; apply Hm; apply N2; exact K|intros _; left; exact Hin].
  - (* unsubscribing *) eapply (j9_go _ _ _ _ _ [_]); [eassumption|reflexivity|apply one_reason; exact I|wevs| |wtab|wtimed|wabout]. eapply (sub_upd s _ _ f (with_pending UNSUBSCRIBING)); [reflexivity| |reflexivity]. intros r0 Hr0. left. unfold no_more. cbn. auto using incl_refl.
  - (* purge *) eapply (j9_go _ _ _ _ _ []); [eassumption|reflexivity|apply no_reason|wevs| |wtab|wtimed|wabout]. intros f0 r0 K. rewrite get_sub_drop in K. destruct (bytes_eqb f f0); [discriminate|]. left. exists r0. auto using incl_refl.
  - (* message *) assert (J1 : J9 cf (MESSAGE topic payload j) (emit (I_MESSAGE topic payload j) s)). { eapply (j9_go _ _ _ _ _ [_]); [eassumption|reflexivity|apply one_reason; exact I|wevs|wsub|wtab|wtimed|]. intros _. cbn [about_ok]. eapply in_emit. reflexivity. }
    set (s1 := emit (I_MESSAGE topic payload j) s) in *. rewrite streamed_exact. eapply (j9_go _ _ _ _ _ (messages topic payload (filter (listening s1) (recipients topic s1)))); [exact J1|reflexivity| |wevs|wsub|wtab|wtimed|wabout].
    intros a x b E. assert (Hx : In x (messages topic payload (filter (listening s1) (recipients topic s1)))) by (rewrite E; apply in_or_app; right; left; reflexivity). unfold messages in Hx. rewrite <- in_rev in Hx. apply in_map_iff in Hx as (id & <- & Hid). apply filter_In in Hid as [Hid _].
    destruct (recipients_in _ _ _ Hid) as (f & ids & K1 & K2 & K3). pose proof (t_streams _ _ (j9_tables _ _ _ J1) _ _ _ K1 K2) as K4. cbn [has_reason]. exists f, j.
    assert (Hm : incl (trace s1) (rev (b ++ c_out s1))) by (unfold trace; rewrite rev_app_distr; apply incl_appl, incl_refl). split; [eapply is_op_mono; [exact Hm|exact K4]|]. split; [apply Hm; eapply in_emit; reflexivity|]. pose proof (op_valid _ _ _ _ _ J1 K4) as Hv. inversion Hv; subst. destruct K3 as [->|K3]; [apply lm_refl|]. apply (matched_spec topic f); assumption.
  - (* leave *) eapply (j9_go _ _ _ _ _ []); [eassumption|reflexivity|apply no_reason|wevs|wsub| | |wabout].
    + intros [A B C]. constructor; [exact A|exact B|]. intros f ids id0 K1 K2. unfold left in K1. cbn [set_streams c_streams set_queue set_ops] in K1. apply in_map_iff in K1 as ([f1 ids1] & [= <- <-] & K1). apply filter_In in K2 as [K2 _]. eapply C; eassumption.
    + intros HT. unfold left. cbn [set_streams set_queue set_ops c_ops]. rewrite Forall_forall in *. intros x Hx. apply filter_In in Hx as [Hx _]. auto.
  - (* unlisten *) eapply (j9_go _ _ _ _ _ []); [eassumption| |apply no_reason| | | | |wabout].
    + unfold unlisten, status. destruct (get_sub f s); [|reflexivity]. destruct (filter _ _); [|reflexivity]. destruct (active _); reflexivity.
    + intros e0 f0 id0 K. cbn [evs] in *. unfold unlisten, status in K. destruct (get_sub f s); [|left; exact K]. destruct (filter _ _); [|left; exact K]. destruct (active _); [|left; exact K]. cbn [set_events c_events] in K. apply in_app_or in K as [K|[[= <- <- <-]|[]]]; [left; exact K|right; exact I].
    + intros f0 r0 K. destruct (get_sub f s) as [r|] eqn:Er.
      * revert f0 r0 K. apply (sub_upd s _ _ f (with_listeners (filter (fun i => negb (N.eqb (o_id o) i)) (s_listeners r)))); [unfold unlisten, status; rewrite Er; destruct (filter _ _); [destruct (active _)|]; reflexivity| |reflexivity]. intros r1 Hr1. left. rewrite Er in Hr1. injection Hr1 as <-. unfold no_more. cbn. split; [reflexivity|]. split; [|auto]. intros i Hi. apply filter_In in Hi as [Hi _]. exact Hi.
      * apply sub_left; [unfold unlisten; rewrite Er; reflexivity|exact K].
    + apply tables_same; (unfold unlisten, status; destruct (get_sub f s); [|reflexivity]; destruct (filter _ _); [|reflexivity]; destruct (active _); reflexivity).
    + unfold unlisten, status. destruct (get_sub f s); [|exact (fun h => h)]. destruct (filter _ _); [|exact (fun h => h)]. destruct (active _); exact (fun h => h).
  - (* gone *) destruct (untabled_frame o s) as (F1 & F2 & F3 & F4 & F5 & F6 & F7 & F8 & F9 & F10).
    eapply (j9_go _ _ _ _ _ [_]); [eassumption|cbn [emit c_out]; rewrite F8; reflexivity|apply one_reason; exact I| | | | |wabout].
    + intros e0 f0 id0 K. left. cbn [evs emit c_events] in *. rewrite F4 in K. exact K.
    + intros f0 r0 K. apply sub_left; [apply untabled_subs|exact K].
    + intros K. apply (tables_same _ (untabled o s)); [reflexivity|reflexivity|reflexivity|]. apply tables_removed. exact K.
    + cbn [emit c_ops]. rewrite F9. exact (fun h => h).
  - (* clean unsubscribe *) eapply (j9_go _ _ _ _ _ [_]); [eassumption|reflexivity|apply one_reason; exact I|wevs| |wtab|wtimed|wabout]. eapply (sub_upd s _ _ f (with_pending UNSUBSCRIBING)); [reflexivity| |reflexivity]. intros r0 Hr0. left. unfold no_more. cbn. auto using incl_refl.
  - (* clean drop *) eapply (j9_go _ _ _ _ _ []); [eassumption|reflexivity|apply no_reason|wevs| |wtab|wtimed|wabout]. intros f0 r0 K. rewrite get_sub_drop in K. destruct (bytes_eqb f f0); [discriminate|]. left. exists r0. auto using incl_refl.
  - (* swap subs *) eapply (j9_go _ _ _ _ _ []); [eassumption|reflexivity|apply no_reason|wevs| |wtab|wtimed|wabout]. intros f0 r0 K. rewrite get_perm_sub in K; [|exact (j1_nodup _ _ _ (ja1 _ _ _ HA))|assumption]. left. exists r0. auto using incl_refl.
  - (* swap listeners *) eapply (j9_go _ _ _ _ _ []); [eassumption|reflexivity|apply no_reason|wevs| |wtab|wtimed|wabout]. eapply (sub_upd s _ _ f (fun r => with_listeners (swap n (s_listeners r)) r)); [reflexivity| |reflexivity]. intros r0 Hr0. left. unfold no_more. cbn. split; [reflexivity|]. split; [|auto]. intros i Hi. eapply Permutation_in; [apply swap_perm|exact Hi].
  - (* swap ops *) eapply (j9_go _ _ _ _ _ []); [eassumption|reflexivity|apply no_reason|wevs|wsub|wtab| |wabout]. intros HT. cbn [set_ops c_ops]. rewrite Forall_forall in *. intros x Hx. apply HT. eapply Permutation_in; [|exact Hx]. assumption.
  - (* swap streams *) eapply (j9_go _ _ _ _ _ []); [eassumption|reflexivity|apply no_reason|wevs|wsub| |wtimed|wabout]. intros [A B C]. constructor; [exact A|exact B|]. intros f0 ids id0 K1 K2. eapply C; [|exact K2]. eapply Permutation_in; [|exact K1]. assumption.
Qed.
