(** Subscriptions and the messages delivered for them *)
From Verif Require Import Base Split Topic_Model TopicAlias_Model TopicAlias_Proofs TopicTree_Spec Client311_Model Client311_States Client311_Spec Client311_Requests Client311_Steps.
From Verif Require SubSet_Spec SubSet_Proofs TopicTree_Func SubSet_Model.

(** ** All but sending and delivering leaves the tree alone *)
Definition dull (x : out) : Prop := match x with O_SEND _ _ _ | O_DELIVER _ _ _ | O_ANY_PUBLISH _ _ _ _ _ => False | O_WRITE (CONNECT _ _ | DISCONNECT) _ => True | O_WRITE _ _ => False | _ => True end.
Definition legal (k : kind) : Prop := match k with K_SUBSCRIBE topics => forallb (fun e => is_valid_topic_filter (fst e)) topics = true | _ => True end.
Definition alike (r r' : req) : Prop := q_kind r' = q_kind r /\ q_tree r' = q_tree r /\ q_sent r' = q_sent r /\ q_subs r' = q_subs r.
Definition fresh (r : req) : Prop := q_tree r = false /\ q_sent r = false /\ q_subs r = None /\ legal (q_kind r).
Definition tame (s s' : mqtt) : Prop :=
  m_tree s' = m_tree s /\ (exists x, m_out s' = x ++ m_out s /\ Forall dull x) /\ (forall r', In r' (m_heap s') -> fresh r' \/ exists r, In r (m_heap s) /\ alike r r').
Lemma alike_refl r : alike r r. Proof. repeat split. Qed.
Lemma alike_trans a b c : alike a b -> alike b c -> alike a c. Proof. intros (A & B & C & D) (A' & B' & C' & D'). repeat split; congruence. Qed.
Lemma alike_fresh a b : alike a b -> fresh a -> fresh b. Proof. intros (A & B & C & G) (D & E & H & F). split; [congruence|]. split; [congruence|]. split; [congruence|]. rewrite A. exact F. Qed.
Lemma tame_same s s' : m_tree s' = m_tree s -> m_out s' = m_out s -> m_heap s' = m_heap s -> tame s s'.
Proof. intros A B C. split; [exact A|]. split; [exists []; split; [exact B|constructor]|]. rewrite C. intros r H. right. exists r. split; [exact H|apply alike_refl]. Qed.
Ltac rest := apply tame_same; reflexivity.
Lemma tame_refl s : tame s s. Proof. rest. Qed.
Lemma tame_trans a b c : tame a b -> tame b c -> tame a c.
Proof.
  intros (A & (x & B & B') & C) (A' & (y & D & D') & C'). split; [congruence|]. split; [exists (y ++ x); split; [rewrite D, B, app_assoc; reflexivity|apply Forall_app; auto]|].
  intros r H. destruct (C' r H) as [K|(r1 & K1 & K2)]; [auto|]. destruct (C r1 K1) as [K|(r2 & K3 & K4)]; [left; apply (alike_fresh r1); assumption|]. right. exists r2. split; [exact K3|eapply alike_trans; eassumption].
Qed.
Lemma tame_emit x s : dull x -> tame s (emit x s).
Proof. intro H. split; [reflexivity|]. split; [exists [x]; split; [reflexivity|repeat constructor; exact H]|]. intros r K. right. exists r. split; [exact K|apply alike_refl]. Qed.
Lemma tame_heap f s : (forall r', In r' (f (m_heap s)) -> exists r, In r (m_heap s) /\ alike r r') -> tame s (set_heap (f (m_heap s)) s).
Proof. intro H. split; [reflexivity|]. split; [exists []; split; [reflexivity|constructor]|]. intros r K. right. auto. Qed.
Lemma tame_upd u f s : (forall r, alike r (f r)) -> tame s (upd u f s).
Proof. intro H. apply (tame_heap (map (fun r => if is_uid u r then f r else r))). intros r K. apply in_map_iff in K as (r0 & <- & K). exists r0. split; [exact K|]. destruct (is_uid u r0); [apply H|apply alike_refl]. Qed.
Lemma tame_drop r s : tame s (drop r s).
Proof.
  unfold drop. set (s1 := set_table _ s). assert (P : tame s s1) by rest. change (m_heap s) with (m_heap s1). clearbody s1. eapply tame_trans; [exact P|].
  apply (tame_heap (filter (fun x => negb (is_uid (q_uid r) x)))). intros z K. apply filter_In in K as [K _]. exists z. split; [exact K|apply alike_refl].
Qed.
Lemma tame_change u a b s : tame s (change u a b s).
Proof.
  unfold change. destruct (get u s) as [r|]; [|apply tame_refl]. destruct (q_size r =? 0); [apply tame_refl|]. cbv zeta. set (s1 := set_stats _ s). assert (P : tame s s1) by rest. clearbody s1. eapply tame_trans; [exact P|]. apply tame_upd. intro z. repeat split.
Qed.
Lemma tame_tell r e s : tame s (tell r e s). Proof. unfold tell. destruct (q_kind r); apply tame_emit; exact I. Qed.
Lemma tame_finished r e s : tame s (finished r e s).
Proof. unfold finished. eapply tame_trans; [|apply tame_drop]. eapply tame_trans; [|apply tame_change]. apply tame_tell. Qed.
Lemma tame_cancelled e u s : tame s (cancelled e u s).
Proof. unfold cancelled. destruct (get u s); [|rest]. eapply tame_trans; [|apply tame_drop]. apply tame_tell. Qed.
Lemma tame_fold {A} (f : mqtt -> A -> mqtt) l s : (forall s x, tame s (f s x)) -> tame s (fold_left f l s).
Proof. intro H. revert s. induction l as [|x l IH]; intro s; cbn; [apply tame_refl|]. eapply tame_trans; [apply H|apply IH]. Qed.
Lemma tame_create k w s : legal k -> tame s (create k w s).
Proof.
  intro L. unfold create. destruct (in_state _ _); [apply tame_emit; exact I|]. destruct (_ && _); [apply tame_emit; exact I|]. destruct (search _ _ _ _) as [id|]; [|apply tame_emit; exact I]. cbv zeta.
  set (s1 := set_last _ _). assert (P1 : tame s s1). { split; [reflexivity|]. split; [exists []; split; [reflexivity|constructor]|]. intros r K. unfold s1 in K. cbn in K. apply in_app_iff in K as [K|[<-|[]]]; [right; exists r; split; [exact K|apply alike_refl]|left; repeat split; exact L]. }
  set (s2 := if in_state CONNECTED s then _ else _). assert (P2 : tame s1 s2) by (unfold s2; destruct (in_state CONNECTED s); rest). clearbody s1 s2. eapply tame_trans; [exact P1|]. eapply tame_trans; [exact P2|]. eapply tame_trans; [apply tame_change|apply tame_emit; exact I].
Qed.
Lemma tame_close e s : tame s (close e s).
Proof. unfold close. destruct (m_closing s); [apply tame_refl|]. eapply tame_trans with (b := set_closing (Some e) s); [rest|apply tame_emit; exact I]. Qed.
Lemma tame_request_complete e id s : tame s (request_complete e id s).
Proof.
  unfold request_complete. destruct (find_id id s) as [u|]; [|apply tame_refl]. destruct (get u s) as [r|]; [|rest]. destruct (existsb _ _); [rest|]. cbv zeta. eapply tame_trans; [|apply tame_tell].
  set (s1 := change u false false s). assert (P1 : tame s s1) by apply tame_change. clearbody s1. eapply tame_trans; [exact P1|]. set (s2 := match e with OK => _ | _ => s1 end). assert (P2 : tame s1 s2) by (unfold s2; destruct e; try apply tame_refl; destruct (_ <? _); rest). clearbody s2. eapply tame_trans; [exact P2|]. eapply tame_trans; [apply tame_drop|]. rest.
Qed.
Lemma tame_schedule_ping s : tame s (schedule_ping s). Proof. unfold schedule_ping. destruct (m_ping_task s); rest. Qed.
Lemma tame_on_suback id codes s : tame s (on_suback id codes s).
Proof.
  unfold on_suback. destruct (find_id id s) as [u|]; [|apply tame_refl]. destruct (get u s) as [r|]; [|rest]. destruct (match q_kind r with K_SUBSCRIBE _ => _ | K_RESUBSCRIBE => _ | _ => None end); [|rest].
  destruct (_ =? _); [|apply tame_close]. eapply tame_trans; [|apply tame_request_complete]. apply tame_emit. exact I.
Qed.
Lemma tame_on_connack session code s : tame s (on_connack session code s).
Proof.
  unfold on_connack. destruct (_ || _); [apply tame_refl|]. cbv zeta. destruct (code =? 0); [|eapply tame_trans; [|apply tame_close]; rest].
  set (s1 := set_since _ _). assert (P1 : tame s s1) by rest. clearbody s1. set (s2 := if _ && _ then _ else _). assert (P2 : tame s1 s2).
  { unfold s2. destruct (_ && _); [apply tame_emit; exact I|]. destruct (m_reconnect s1); [apply tame_emit; exact I|]. eapply tame_trans with (b := set_reconnect (Some None) s1); [rest|apply tame_emit; exact I]. }
  clearbody s2. eapply tame_trans; [exact P1|]. eapply tame_trans; [exact P2|]. eapply tame_trans; [|apply tame_schedule_ping]. eapply tame_trans; [apply (tame_emit (O_CONNECTION_SUCCESS session)); exact I|]. rest.
Qed.
Definition talks (p : packet) : bool := match p with PUBLISH _ _ _ _ _ _ | PUBREC _ | PUBREL _ => true | _ => false end.
Lemma tame_on_packet p wr s : talks p = false -> tame s (on_packet p wr s).
Proof.
  intro N. assert (Vd : forall k : mqtt -> mqtt, tame s (k s) -> tame s (if in_state CONNECTING s then close E_PROTOCOL s else k s)) by (intros k K; destruct (in_state CONNECTING s); [apply tame_close|exact K]).
  destruct p as [clean ka|id qos dup retain topic payload|id|id|id|id|id topics|id f| | |session code|id codes|id|]; cbn [on_packet]; try discriminate N; try apply tame_close.
  - apply Vd, tame_request_complete.
  - apply Vd, tame_request_complete.
  - apply tame_on_connack.
  - apply (Vd (on_suback id codes)), tame_on_suback.
  - apply Vd, tame_request_complete.
  - rest.
Qed.
Lemma tame_cancel_task s u : tame s (cancel_task s u).
Proof. unfold cancel_task. destruct (get u s) as [r|]; [|rest]. destruct (retryable _); [|apply tame_finished]. eapply tame_trans; [apply tame_change|rest]. Qed.
Lemma tame_schedule_reconnect s : tame s (schedule_reconnect s). Proof. unfold schedule_reconnect. destruct (m_reconnect s); rest. Qed.
Lemma tame_destroy s : tame s (destroy s).
Proof.
  unfold destroy. cbv zeta. set (s1 := fold_left _ _ s). assert (P : tame s s1) by (apply tame_fold; intros z x; destruct (get x z); [apply tame_tell|rest]). clearbody s1.
  set (s2 := match m_reconnect s1 with Some (Some _) => _ | _ => s1 end). assert (P2 : tame s1 s2) by (unfold s2; destruct (m_reconnect s1) as [[|]|]; rest). clearbody s2. eapply tame_trans; [exact P|]. eapply tame_trans; [exact P2|].
  split; [reflexivity|]. split; [exists [O_TERMINATED]; split; [reflexivity|repeat constructor]|]. intros r [].
Qed.
Lemma tame_release s : tame s (release s). Proof. unfold release. destruct (m_held s); [apply tame_refl|apply tame_destroy]. Qed.
Lemma tame_disconnected s : tame s (disconnected s).
Proof. unfold disconnected. eapply tame_trans; [|apply tame_release]. eapply tame_trans; [|apply tame_emit; exact I]. eapply tame_trans with (b := set_state DISCONNECTED s); [rest|apply tame_emit; exact I]. Qed.
Lemma tame_client_shutdown e quit s : tame s (client_shutdown e quit s).
Proof.
  unfold client_shutdown. cbv zeta. set (s1 := set_since 0 _). assert (P1 : tame s s1) by (unfold s1; destruct (_ || _); rest). clearbody s1. set (s2 := set_ongoing _ _). assert (P2 : tame s s2) by (eapply tame_trans; [exact P1|rest]). clearbody s2.
  set (s3 := set_closing None _). assert (P3 : tame s s3).
  { eapply tame_trans; [exact P2|]. assert (Q : tame s2 (fold_left (fun s u => cancelled E_CLEAN_SESSION u s) (if m_clean s then m_ongoing s ++ m_pending s else []) s2)) by (apply tame_fold; intros; apply tame_cancelled). eapply tame_trans; [exact Q|]. rest. }
  clearbody s3. eapply tame_trans; [exact P3|]. destruct (m_state s).
  - eapply tame_trans; [|apply tame_release]. eapply tame_trans; [|apply tame_emit; exact I]. eapply tame_trans with (b := set_state DISCONNECTED s3); [rest|apply tame_emit; exact I].
  - set (s4 := emit (O_INTERRUPTED _) _). assert (P4 : tame s3 s4) by (eapply tame_trans with (b := set_state RECONNECTING s3); [rest|apply tame_emit; exact I]). clearbody s4. eapply tame_trans; [exact P4|]. destruct quit; [eapply tame_trans; [|apply tame_disconnected]; apply tame_emit; exact I|apply tame_schedule_reconnect].
  - apply tame_schedule_reconnect.
  - apply tame_disconnected.
  - apply tame_refl.
Qed.
Lemma tame_on_down e graceful wr quit s : tame s (on_down e graceful wr quit s).
Proof.
  unfold on_down. cbv zeta. set (s0 := match e with OK => _ | _ => s end). assert (P0 : tame s s0) by (unfold s0; destruct e; try apply tame_refl; destruct (_ && _); [apply tame_emit; exact I|apply tame_refl]). clearbody s0.
  set (s1 := fold_left cancel_task _ _). assert (P1 : tame s s1) by (eapply tame_trans; [exact P0|]; eapply tame_trans with (b := set_tasks [] s0); [rest|apply tame_fold; intros; apply tame_cancel_task]). clearbody s1.
  set (s2 := set_heap _ _). assert (P2 : tame s s2).
  { eapply tame_trans; [exact P1|]. unfold s2. set (z := set_connack_timeouts _ _). assert (Pz : tame s1 z) by rest. change (m_heap s1) with (m_heap z). clearbody z. eapply tame_trans; [exact Pz|]. apply (tame_heap (map (with_timer None))). intros r K. apply in_map_iff in K as (r0 & <- & K). exists r0. split; [exact K|repeat split]. }
  clearbody s2. set (s3 := set_byes 0 _). assert (P3 : tame s s3) by (eapply tame_trans; [exact P2|]; unfold s3, bye; destruct (m_byes s2 =? 0); [|destruct (in_state _ _)]; rest). clearbody s3. eapply tame_trans; [exact P3|apply tame_client_shutdown].
Qed.
Lemma tame_on_setup o quit s : tame s (on_setup o quit s).
Proof.
  destruct o as [e|e|enc wr]; cbn [on_setup]; [apply tame_client_shutdown|rest|]. destruct (in_state DISCONNECTING s); [rest|]. cbv zeta. set (s1 := set_connack_timeouts _ _). assert (P1 : tame s s1) by rest. clearbody s1. set (s2 := if enc then _ else _). assert (P2 : tame s s2) by (unfold s2; destruct enc; [eapply tame_trans; [exact P1|apply tame_emit; exact I]|exact P1]). clearbody s2.
  eapply tame_trans; [exact P2|]. destruct (enc && wr); [apply tame_refl|]. eapply tame_trans; [|apply tame_close]. eapply tame_trans; [|apply tame_emit; exact I]. apply tame_emit; exact I.
Qed.
Lemma tame_connect clean keep_s ping_ms op_ms ok s : tame s (connect clean keep_s ping_ms op_ms ok s).
Proof.
  unfold connect. destruct (negb _); [apply tame_refl|]. cbv zeta. set (s0 := emit (I_CONNECT clean) _). assert (P0 : tame s s0) by (eapply tame_trans with (b := set_state CONNECTING s); [rest|apply tame_emit; exact I]). clearbody s0.
  set (s1 := set_count 0 _). set (s2 := set_ping _ _). assert (P2 : tame s0 s2) by rest. clearbody s2. clear s1. eapply tame_trans; [exact P0|]. eapply tame_trans; [exact P2|]. destruct (_ <=? _); [rest|].
  set (s3 := if clean then _ else s2). assert (P3 : tame s2 s3) by (unfold s3; destruct clean; [|apply tame_refl]; eapply tame_trans with (b := set_pending [] s2); [rest|apply tame_fold; intros; apply tame_cancelled]). clearbody s3. eapply tame_trans; [exact P3|].
  destruct ok; [eapply tame_trans with (b := set_net DIALLING s3); [rest|apply tame_emit; exact I]|]. eapply tame_trans; [apply (tame_emit (I_DIAL false)); exact I|]. rest.
Qed.
Lemma tame_attempt_reconnect ok s : tame s (attempt_reconnect ok s).
Proof.
  unfold attempt_reconnect. destruct (in_state DISCONNECTING s).
  - destruct (m_slot s); [rest|]. eapply tame_trans; [|apply tame_disconnected]. rest.
  - cbv zeta. set (s1 := set_cur _ s). assert (P1 : tame s s1) by rest. clearbody s1. eapply tame_trans; [exact P1|]. destruct ok; [eapply tame_trans with (b := set_net DIALLING (set_reconnect (Some None) s1)); [rest|apply tame_emit; exact I]|]. eapply tame_trans; [|apply tame_schedule_reconnect]. apply tame_emit; exact I.
Qed.
Lemma legal_acceptable k : acceptable k = true -> legal k.
Proof. destruct k; cbn; auto. intro H. apply andb_true_iff in H. apply H. Qed.
Lemma tame_handle s ev : (forall p wr, ev = EvPacket p wr -> talks p = false) -> (forall enc wr, ev <> EvRun enc wr) -> tame s (handle ev s).
Proof.
  intros NP NR. destruct ev as [t|k w|clean keep_s ping_ms op_ms ok| | |lo hi|o quit|enc wr| |p wr| | | |u|ok|e|graceful wr quit]; cbn [handle].
  - eapply tame_trans with (b := set_now t s); [rest|apply tame_emit; exact I].
  - destruct (acceptable k) eqn:A; [apply tame_create, legal_acceptable, A|apply tame_emit; exact I].
  - apply tame_connect.
  - unfold disconnect. destruct (_ || _); [|apply tame_refl]. cbv zeta. set (s1 := emit I_DISCONNECT _). assert (P : tame s s1) by (eapply tame_trans with (b := set_state DISCONNECTING s); [rest|apply tame_emit; exact I]). clearbody s1. eapply tame_trans; [exact P|]. destruct (m_slot s1); rest.
  - destruct (in_state DISCONNECTED s); [|rest]. eapply tame_trans; [|apply tame_destroy]. rest.
  - unfold set_timeouts. destruct (_ || _); rest.
  - eapply tame_trans; [|apply tame_on_setup]. destruct o; [apply tame_emit; exact I|apply tame_refl|apply tame_emit; exact I].
  - destruct (NR enc wr eq_refl).
  - set (s1 := bye _). assert (P : tame s s1) by (unfold s1, bye; destruct (in_state _ _); rest). clearbody s1. destruct (m_slot s); [eapply tame_trans; [exact P|apply tame_close]|exact P].
  - eapply tame_trans; [apply (tame_emit (I_PACKET p)); exact I|]. apply tame_on_packet, (NP p wr eq_refl).
  - eapply tame_trans; [|apply tame_schedule_ping]. destruct (_ <=? _); [|rest]. eapply tame_trans; [|apply tame_create; exact I]. rest.
  - destruct (m_waiting s); [|rest]. eapply tame_trans; [|apply tame_close]. rest.
  - destruct (_ || _); [|rest]. eapply tame_trans; [|apply tame_close]. rest.
  - destruct (get u s); [apply tame_request_complete|apply tame_refl].
  - apply tame_attempt_reconnect.
  - apply tame_close.
  - destruct (m_closing s) as [e|]; [|apply tame_refl]. eapply tame_trans; [|apply tame_on_down]. apply tame_emit; exact I.
Qed.

(** ** Filters *)
Definition filters (s : mqtt) : list bytes := map (fun e => fst (fst e)) (m_tree s).
Lemma after_slash_spec l f : after_slash l = Some f <-> exists group, l = group ++ 47 :: f /\ ~ In 47 group /\ f <> [].
Proof.
  induction l as [|c l IH]; cbn.
  - split; [discriminate|]. intros (g & E & _). destruct g; discriminate.
  - destruct (c =? 47) eqn:E.
    + apply N.eqb_eq in E. subst c. split.
      * intro H. exists []. destruct l as [|d l]; [discriminate|]. injection H as <-. split; [reflexivity|]. split; [intros []|discriminate].
      * intros ([|d g] & E & N & F); cbn in E; [injection E as ->; destruct f; [congruence|reflexivity]|]. injection E as <- _. destruct N. left. reflexivity.
    + apply N.eqb_neq in E. rewrite IH. split.
      * intros (g & -> & N & F). exists (c :: g). split; [reflexivity|]. split; [intros [K|K]; congruence|exact F].
      * intros ([|d g] & E' & N & F); cbn in E'; [injection E' as ->; congruence|]. injection E' as -> ->. exists g. split; [reflexivity|]. split; [intro K; apply N; right; exact K|exact F].
Qed.
Lemma filter_of_spec g f : filter_of g = Some f <-> denotes g f.
Proof.
  unfold filter_of, denotes. destruct (bytes_eqb (firstn 7 g) [36; 115; 104; 97; 114; 101; 47]) eqn:E.
  - apply bytes_eqb_spec in E. assert (G : g = [36; 115; 104; 97; 114; 101; 47] ++ skipn 7 g) by (rewrite <- E; symmetry; apply firstn_skipn). set (t := skipn 7 g) in *. clearbody t. clear E. subst g. destruct t as [|c l].
    + split; [discriminate|]. intros [(c & gr & K & _)|[K _]]; [apply app_inv_head in K; discriminate|destruct (K []); reflexivity].
    + rewrite after_slash_spec. split.
      * intros (gr & -> & N & F). left. exists c, gr. auto.
      * intros [(c' & gr & K & N & F)|[K _]]; [apply app_inv_head in K; injection K as _ ->; eauto|destruct (K (c :: l)); reflexivity].
  - split.
    + intro H. injection H as <-. right. split; [|reflexivity]. intros m ->. cbn in E. discriminate.
    + intros [(c & gr & -> & _)|[_ ->]]; [cbn in E; discriminate|reflexivity].
Qed.
Lemma split_after p l : exists a, split 47 (p ++ 47 :: l) = a ++ split 47 l.
Proof.
  induction p as [|c p (a & IH)]; cbn [app split].
  - exists [[]]. reflexivity.
  - rewrite IH. destruct (c =? 47); [exists ([] :: a); reflexivity|]. destruct a as [|x a]; cbn; [|eexists (_ :: a); reflexivity].
    destruct (split_cons 47 (p ++ 47 :: l)) as (x & y & K). destruct (split 47 l) as [|z q] eqn:Q; [destruct (split_nonempty 47 l Q)|]. exfalso. clear -IH Q. revert IH. intro IH.
    assert (L := split_length 47 (p ++ 47 :: l)). rewrite IH in L. cbn [app] in L. rewrite <- Q, split_length in L. rewrite count_occ_app in L. cbn [count_occ] in L. destruct (N.eq_dec 47 47); [lia|congruence].
Qed.
Lemma hash_last_app a b : SubSet_Proofs.hash_last (a ++ b) -> SubSet_Proofs.hash_last b.
Proof. induction a; cbn; [auto|]. intros [_ H]. auto. Qed.
Lemma denotes_hash g f : is_valid_topic_filter g = true -> denotes g f -> SubSet_Proofs.hash_last (split 47 f).
Proof.
  intros V [(c & gr & -> & _)|[_ ->]]; [|apply SubSet_Proofs.valid_hash_last, V]. apply SubSet_Proofs.valid_hash_last in V.
  destruct (split_after ([36; 115; 104; 97; 114; 101; 47] ++ c :: gr) f) as (a & E). rewrite <- app_assoc in E. cbn [app] in E. cbn [app] in V. rewrite E in V. eapply hash_last_app. exact V.
Qed.
Lemma tree_match_spec f topic : SubSet_Proofs.hash_last (split 47 f) -> tree_match f topic = true <-> tree_matches f topic.
Proof.
  intro H. unfold tree_match, tree_matches, SubSet_Spec.topic_matches, parent_level_only. change [35] with SubSet_Model.hash. rewrite <- TopicTree_Func.tmb_spec by exact H. generalize dependent (split 47 f). intros fs. revert topic. intro topic. generalize (split 47 topic). clear. induction fs as [|x fs IH]; intros ts H; [destruct ts; reflexivity|]. destruct ts as [|t ts]; [reflexivity|]. destruct H as [H1 H2]. cbn [levels_match TopicTree_Func.tmb].
  destruct (bytes_eqb x [35]) eqn:E.
  - apply bytes_eqb_spec in E. rewrite (H1 E). subst x. cbn. tauto.
  - assert (E' : bytes_eqb x SubSet_Model.hash = false) by exact E. rewrite E'. cbn [andb]. rewrite !andb_true_iff, IH by exact H2. reflexivity.
Qed.

(** ** The invariant *)
Definition flag (r : req) : Prop := match q_kind r with K_SUBSCRIBE _ | K_UNSUBSCRIBE _ => q_tree r = q_sent r | K_RESUBSCRIBE => q_sent r = false -> q_subs r = None | _ => True end.
Record TI (s : mqtt) : Prop := {
  t_tree : forall f, In f (filters s) <-> subscribed f (m_out s);
  t_nodup : NoDup (filters s);
  t_hash : forall f, In f (filters s) -> SubSet_Proofs.hash_last (split 47 f);
  t_flag : forall r, In r (m_heap s) -> flag r;
  t_legal : forall r, In r (m_heap s) -> legal (q_kind r);
  t_right : each rightly (m_out s) }.
Lemma dull_subscribed f x l : dull x -> subscribed f (x :: l) <-> subscribed f l. Proof. destruct x; cbn; intro H; try reflexivity; destruct H. Qed.
Lemma dull_list f x l : Forall dull x -> subscribed f (x ++ l) <-> subscribed f l. Proof. induction 1 as [|y x H _ IH]; [reflexivity|]. cbn [app]. rewrite dull_subscribed by exact H. exact IH. Qed.
Lemma dull_right x l : Forall dull x -> each rightly l -> each rightly (x ++ l). Proof. intros H L. induction H as [|y x H _ IH]; [exact L|]. split; [destruct y as [| | | | | | | | | | | | | |p| | | | | | | | | |]; try exact I; try destruct H; destruct p; try exact I; destruct H|exact IH]. Qed.
Lemma TI_tame s s' : tame s s' -> TI s -> TI s'.
Proof.
  intros (A & (x & B & B') & C) [H1 H2 H3 H4 H5 H6]. unfold filters in *. constructor; unfold filters; rewrite ?A, ?B; auto.
  - intro f. rewrite dull_list by exact B'. apply H1.
  - intros r K. destruct (C r K) as [(F1 & F2 & F3 & _)|(r0 & K0 & K1 & K2 & K3 & K4)]; [unfold flag; destruct (q_kind r); auto; congruence|]. specialize (H4 r0 K0). unfold flag in *. rewrite K1, K2, K3, K4. exact H4.
  - intros r K. destruct (C r K) as [(_ & _ & _ & F)|(r0 & K0 & K1 & _)]; [exact F|]. rewrite K1. auto.
  - apply dull_right; assumption.
Qed.
Lemma NoDup_snoc {A} (x : A) l : ~ In x l -> NoDup l -> NoDup (l ++ [x]).
Proof. intros N H. induction l as [|y l IH]; cbn; [repeat constructor; intros []|]. inversion H as [|? ? K1 K2]; subst. constructor; [|apply IH; [intro K; apply N; right; exact K|exact K2]]. intro K. apply in_app_iff in K as [K|[<-|[]]]; [auto|]. apply N. left. reflexivity. Qed.
Lemma plant_filters f q s : (forall g, In g (filters (plant f q s)) <-> g = f \/ In g (filters s)) /\ (NoDup (filters s) -> NoDup (filters (plant f q s))) /\ m_out (plant f q s) = m_out s /\ m_heap (plant f q s) = m_heap s.
Proof.
  unfold plant, filters. destruct (existsb (fun e => bytes_eqb (fst (fst e)) f) (m_tree s)) eqn:E; (split; [|split; [|split; reflexivity]]).
  - assert (K : map (fun e : bytes * N * N => fst (fst e)) (map (fun e => if bytes_eqb (fst (fst e)) f then (f, q, snd e) else e) (m_tree s)) = map (fun e => fst (fst e)) (m_tree s)).
    { rewrite map_map. apply map_ext. intro e. destruct (bytes_eqb (fst (fst e)) f) eqn:F; [|reflexivity]. apply bytes_eqb_spec in F. cbn. congruence. }
    intro g. cbn [m_tree set_tree]. rewrite K. split; [auto|]. intros [->|H]; [|exact H]. apply existsb_exists in E as (e & H & F). apply bytes_eqb_spec in F. rewrite <- F. apply (in_map (fun e => fst (fst e))). exact H.
  - cbn [m_tree set_tree]. rewrite map_map. erewrite map_ext; [intro H; exact H|]. intro e. cbn. destruct (bytes_eqb (fst (fst e)) f) eqn:F; [|reflexivity]. apply bytes_eqb_spec in F. cbn. congruence.
  - intro g. cbn [m_tree set_tree set_stamp]. rewrite map_app, in_app_iff. cbn. split; [intros [H|[H|[]]]; auto|intros [H|H]; auto].
  - cbn [m_tree set_tree set_stamp]. rewrite map_app. cbn. intro H. apply NoDup_snoc; [|exact H]. intro K. apply in_map_iff in K as (e & F & K). enough (X : true = false) by discriminate. rewrite <- E. symmetry. apply existsb_exists. exists e. split; [exact K|]. rewrite F. apply bytes_eqb_refl.
Qed.
Lemma plant_all_filters topics : forall s s', plant_all topics s = Some s' ->
  (forall f, In f (filters s') <-> In f (filters s) \/ exists g q, In (g, q) topics /\ denotes g f) /\ (NoDup (filters s) -> NoDup (filters s')) /\ m_out s' = m_out s /\ m_heap s' = m_heap s.
Proof.
  induction topics as [|[g q] l IH]; intros s s' H; cbn in H.
  - injection H as <-. split; [|auto]. intro f. split; [auto|]. intros [K|(g & q & [] & _)]. exact K.
  - destruct (filter_of g) as [f0|] eqn:E; [|discriminate]. apply filter_of_spec in E. destruct (IH _ _ H) as (A & B & C & D). destruct (plant_filters f0 q s) as (A' & B' & C' & D'). split; [|split; [auto|split; congruence]].
    intro f. rewrite A, A'. split.
    + intros [[->|K]|(g' & q' & K & L)]; [right; exists g, q; split; [left; reflexivity|exact E]|auto|right; exists g', q'; split; [right; exact K|exact L]].
    + intros [K|(g' & q' & [K|K] & L)]; [auto| |right; eauto]. injection K as -> ->. left. left. apply filter_of_spec in E, L. congruence.
Qed.
Lemma uproot_filters f s : (forall g, In g (filters (uproot f s)) <-> In g (filters s) /\ g <> f) /\ (NoDup (filters s) -> NoDup (filters (uproot f s))).
Proof.
  unfold uproot, filters. cbn [m_tree set_tree]. induction (m_tree s) as [|e l (IH1 & IH2)]; cbn; [split; [intro; tauto|auto]|]. destruct (bytes_eqb (fst (fst e)) f) eqn:E; cbn [negb].
  - apply bytes_eqb_spec in E. split; [|intro H; apply IH2; inversion H; assumption]. intro g. rewrite IH1. split; [tauto|]. intros [[K|K] N]; [congruence|tauto].
  - apply bytes_eqb_false in E. cbn. split; [|intro H; inversion H as [|? ? K1 K2]; subst; constructor; [intro K; apply IH1 in K; tauto|auto]].
    intro g. rewrite IH1. split; [|tauto]. intros [<-|K]; [auto|tauto].
Qed.

(** ** Sending *)
(** what sending [r] does to the requests: [true]: it has been planted, or uprooted *)
Definition touched (u : N) (b : bool) (s s' : mqtt) : Prop :=
  forall r', In r' (m_heap s') -> exists r, In r (m_heap s) /\ q_uid r' = q_uid r /\ q_kind r' = q_kind r /\ q_sent r' = q_sent r /\ (q_uid r <> u -> alike r r') /\ (b = true -> q_uid r = u -> q_tree r' = true).
Lemma touched_alike u s s' : (forall r', In r' (m_heap s') -> exists r, In r (m_heap s) /\ q_uid r' = q_uid r /\ alike r r') -> touched u false s s'.
Proof. intros H r' K. destruct (H r' K) as (r & A & B & C). exists r. split; [exact A|]. split; [exact B|]. destruct C as (C1 & C2 & C3 & C4). repeat split; auto. discriminate. Qed.
Lemma touched_same u s s' : m_heap s' = m_heap s -> touched u false s s'. Proof. intro H. apply touched_alike. rewrite H. intros r K. exists r. split; [exact K|]. split; [reflexivity|apply alike_refl]. Qed.
Lemma touched_trans u a b s1 s2 s3 : touched u a s1 s2 -> touched u b s2 s3 -> touched u b s1 s3.
Proof.
  intros H K r3 I3. destruct (K r3 I3) as (r2 & I2 & A & B & C & D & E). destruct (H r2 I2) as (r1 & I1 & A' & B' & C' & D' & E'). exists r1. split; [exact I1|]. split; [congruence|]. split; [congruence|]. split; [congruence|]. split; [|intros Bt Nu; apply E; [exact Bt|congruence]].
  intro N1. eapply alike_trans; [apply D', N1|apply D; congruence].
Qed.
Lemma touched_upd u f s : (forall r, q_uid (f r) = q_uid r /\ q_kind (f r) = q_kind r /\ q_sent (f r) = q_sent r) -> touched u false s (upd u f s).
Proof.
  intros H r' K. unfold upd in K. cbn in K. apply in_map_iff in K as (r & <- & K). exists r. split; [exact K|]. destruct (is_uid u r) eqn:E; [|repeat split; try discriminate]. destruct (H r) as (A & B & C). unfold is_uid in E. apply N.eqb_eq in E. repeat split; auto; try discriminate; congruence.
Qed.
Lemma touched_tree u s : touched u true s (upd u (with_tree true) s).
Proof. intros r' K. unfold upd in K. cbn in K. apply in_map_iff in K as (r & <- & K). exists r. split; [exact K|]. unfold is_uid. destruct (q_uid r =? u) eqn:E; [apply N.eqb_eq in E|apply N.eqb_neq in E]; repeat split; auto; congruence. Qed.
Lemma touched_arm r s : touched (q_uid r) false s (arm r s). Proof. unfold arm. destruct (_ || _); [apply touched_same; reflexivity|apply touched_upd; repeat split]. Qed.
Lemma arm_frame r s : m_tree (arm r s) = m_tree s /\ m_out (arm r s) = m_out s. Proof. unfold arm. destruct (_ || _); split; reflexivity. Qed.
Definition planted (k : kind) (res : sent) : bool := match res, k with R_ONGOING, (K_SUBSCRIBE _ | K_UNSUBSCRIBE _) => true | _, _ => false end.
(** the part of the invariant about the tree *)
Definition TT (s : mqtt) : Prop := (forall f, In f (filters s) <-> subscribed f (m_out s)) /\ NoDup (filters s) /\ (forall f, In f (filters s) -> SubSet_Proofs.hash_last (split 47 f)).
Lemma TT_same s s' : m_tree s' = m_tree s -> m_out s' = m_out s -> TT s -> TT s'. Proof. unfold TT, filters. intros -> ->. auto. Qed.
Definition other_packet (p : packet) : Prop := match p with SUBSCRIBE _ _ | UNSUBSCRIBE _ _ => False | _ => True end.
Lemma TT_other u p ok s s' : other_packet p -> m_tree s' = m_tree s -> m_out s' = O_SEND u p ok :: m_out s -> TT s -> TT s'.
Proof. intros O A B (H1 & H2 & H3). unfold TT, filters. rewrite A, B. split; [|auto]. intro f. rewrite (H1 f). destruct p; cbn; try reflexivity; destruct O. Qed.

Lemma send_tree enc wr r s s1 res : send enc wr r s = (s1, res) -> TT s -> flag r -> legal (q_kind r) -> (exists w, In (I_MADE (q_uid r) (q_id r) (q_kind r) w) (m_out s)) ->
  (forall id k w id' k' w', In (I_MADE (q_uid r) id k w) (m_out s) -> In (I_MADE (q_uid r) id' k' w') (m_out s) -> k = k') -> (q_sent r = true <-> attempted (q_uid r) (m_out s)) ->
  TT s1 /\ (m_out s1 = m_out s \/ exists p ok, m_out s1 = O_SEND (q_uid r) p ok :: m_out s /\ rightly (O_SEND (q_uid r) p ok) (m_out s)) /\ touched (q_uid r) (planted (q_kind r) res) s s1.
Proof.
  intros E T F L M U A. set (P := fun l => l = m_out s \/ exists p ok, l = O_SEND (q_uid r) p ok :: m_out s /\ rightly (O_SEND (q_uid r) p ok) (m_out s)). assert (Emp : P (m_out s)) by (left; reflexivity).
  assert (One : forall p ok, rightly (O_SEND (q_uid r) p ok) (m_out s) -> P (O_SEND (q_uid r) p ok :: m_out s)) by (intros p ok R; right; eauto). change (TT s1 /\ P (m_out s1) /\ touched (q_uid r) (planted (q_kind r) res) s s1).
  unfold send in E. unfold flag in F. destruct (q_kind r) as [qos retain topic payload|topics| |f|] eqn:K.
  - unfold publish_send in E. destruct enc; cbn [negb] in E; [|injection E as <- <-; split; [exact T|split; [exact Emp|apply touched_same; reflexivity]]].
    set (z := emit _ s) in E. assert (Z : TT z) by exact (TT_other (q_uid r) (PUBLISH (if qos =? 0 then 0 else q_id r) qos (q_sent r) retain topic payload) wr s z I eq_refl eq_refl T). assert (Zo := One (PUBLISH (if qos =? 0 then 0 else q_id r) qos (q_sent r) retain topic payload) wr I). change (O_SEND (q_uid r) (PUBLISH (if qos =? 0 then 0 else q_id r) qos (q_sent r) retain topic payload) wr :: m_out s) with (m_out z) in Zo. assert (Zh : m_heap z = m_heap s) by reflexivity. clearbody z.
    destruct wr; cbn [negb] in E; [|destruct (qos =? 0); injection E as <- <-; (split; [exact Z|split; [exact Zo|apply touched_same; exact Zh]])].
    destruct (qos =? 0); injection E as <- <-; [split; [exact Z|split; [exact Zo|apply touched_same; exact Zh]]|]. destruct (arm_frame r z) as [A1 A2]. split; [eapply TT_same; [exact A1|exact A2|exact Z]|]. rewrite A2. split; [exact Zo|]. eapply touched_trans; [apply touched_same; exact Zh|apply touched_arm].
  - unfold subscribe_send in E. destruct (if q_tree r then Some s else plant_all topics s) as [z|] eqn:Pl; [|injection E as <- <-; split; [exact T|split; [exact Emp|apply touched_same; reflexivity]]].
    destruct enc; cbn [negb] in E; [|injection E as <- <-; split; [exact T|split; [exact Emp|apply touched_same; reflexivity]]]. injection E as <- <-.
    set (y := emit _ z). assert (Y : TT y /\ m_out y = O_SEND (q_uid r) (SUBSCRIBE (q_id r) topics) wr :: m_out s /\ m_heap y = m_heap s).
    { destruct T as (T1 & T2 & T3). unfold TT, filters. destruct (q_tree r) eqn:Q.
      - injection Pl as <-. split; [|split; reflexivity]. split; [|split; [exact T2|exact T3]]. intro g. cbn [m_tree y emit set_out m_out subscribed]. rewrite (T1 g). split; [auto|]. intros [H|(H & _)]; [exact H|]. destruct H. apply A. congruence.
      - destruct (plant_all_filters topics s z Pl) as (P1 & P2 & P3 & P4). split; [|split; [cbn; rewrite P3; reflexivity|exact P4]]. split; [|split; [exact (P2 T2)|]].
        + intro g. cbn [m_tree y emit set_out m_out]. change (map (fun e : bytes * N * N => fst (fst e)) (m_tree z)) with (filters z). rewrite (P1 g), (T1 g), P3. cbn [subscribed]. split; [intros [H|H]; [auto|right]|intros [H|(_ & _ & H)]; auto].
          split; [intro W; apply A in W; congruence|]. split; [destruct M as (w & M); eauto|exact H].
        + intros g H. change (In g (filters z)) in H. apply P1 in H as [H|(g' & q & H & D)]; [auto|]. cbn in L. rewrite forallb_forall in L. apply (denotes_hash g'); [exact (L _ H)|exact D]. }
    clearbody y. destruct Y as (Y1 & Y2 & Y3). destruct (arm_frame r y) as [A1 A2]. assert (X : TT (arm r y)) by (eapply TT_same; [exact A1|exact A2|exact Y1]).
    split; [exact X|]. split; [cbn [upd m_out set_heap]; rewrite A2, Y2; apply One; intros (w & Q); destruct M as (w' & M); specialize (U _ _ _ _ _ _ Q M); discriminate|]. cbn [planted]. eapply touched_trans; [|apply touched_tree]. eapply touched_trans; [apply touched_same; exact Y3|apply touched_arm].
  - unfold resubscribe_send in E. destruct (m_tree s) as [|e l] eqn:Tr; [injection E as <- <-; split; [exact (TT_same s _ eq_refl eq_refl T)|split; [exact Emp|apply touched_upd; repeat split]]|].
    set (subs := match q_subs r with Some l0 => l0 | None => e :: l end) in E. set (z := upd _ _ (upd _ _ s)) in E. assert (Z : TT z) by exact (TT_same s z eq_refl eq_refl T). assert (Zt : touched (q_uid r) false s z) by (eapply touched_trans; apply touched_upd; repeat split).
    assert (Zo : m_out z = m_out s) by reflexivity. assert (Rg : rightly (O_SEND (q_uid r) (SUBSCRIBE (q_id r) (map fst subs)) wr) (m_out s)).
    { intros _ NA. assert (Q : q_subs r = None) by (apply F; destruct (q_sent r); [destruct NA; apply A; reflexivity|reflexivity]). unfold subs. rewrite Q, <- Tr, map_map. destruct T as (T1 & T2 & _). split; [exact T2|exact T1]. }
    clearbody z. destruct (forallb _ subs); cbn [negb] in E; [|injection E as <- <-; split; [exact (TT_same z _ eq_refl eq_refl Z)|split; [unfold P; left; exact Zo|eapply touched_trans; [exact Zt|apply touched_same; reflexivity]]]].
    destruct enc; cbn [negb] in E; injection E as <- <-; [|split; [exact Z|split; [unfold P; left; exact Zo|exact Zt]]].
    set (y := emit _ z). assert (Y : TT y). { destruct Z as (T1 & T2 & T3). unfold TT, filters. split; [|split; [exact T2|exact T3]]. intro g. cbn [m_tree y emit set_out m_out subscribed]. rewrite (T1 g). split; [auto|]. intros [H|(_ & (w & H) & _)]; [exact H|]. destruct M as (w' & M). rewrite Zo in H. specialize (U _ _ _ _ _ _ H M). discriminate. }
    assert (Yo : m_out y = O_SEND (q_uid r) (SUBSCRIBE (q_id r) (map fst subs)) wr :: m_out z) by reflexivity. assert (Yh : m_heap y = m_heap z) by reflexivity. clearbody y. destruct (arm_frame r y) as [A1 A2].
    split; [eapply TT_same; [exact A1|exact A2|exact Y]|]. split; [rewrite A2, Yo, Zo; apply One, Rg|]. cbn [planted]. eapply touched_trans; [exact Zt|]. eapply touched_trans; [apply touched_same; exact Yh|apply touched_arm].
  - unfold unsubscribe_send in E. destruct (if q_tree r then Some s else option_map (fun g => uproot g s) (filter_of f)) as [z|] eqn:Pl; [|injection E as <- <-; split; [exact T|split; [exact Emp|apply touched_same; reflexivity]]].
    destruct enc; cbn [negb] in E; [|injection E as <- <-; split; [exact T|split; [exact Emp|apply touched_same; reflexivity]]].
    destruct wr; cbn [negb] in E; injection E as <- <-.
    2:{ split; [|split; [apply One; exact I|apply touched_same; reflexivity]]. destruct T as (T1 & T2 & T3). split; [exact T1|split; [exact T2|exact T3]]. }
    set (y := emit _ z). assert (Y : TT y /\ m_out y = O_SEND (q_uid r) (UNSUBSCRIBE (q_id r) f) true :: m_out s /\ m_heap y = m_heap s).
    { destruct T as (T1 & T2 & T3). unfold TT, filters. destruct (q_tree r) eqn:Q.
      - injection Pl as <-. split; [|split; reflexivity]. split; [|split; [exact T2|exact T3]]. intro g. cbn [m_tree y emit set_out m_out subscribed]. rewrite (T1 g). split; [|tauto]. intro H. split; [exact H|]. left. apply A. congruence.
      - destruct (filter_of f) as [f0|] eqn:FO; [|discriminate]. injection Pl as <-. apply filter_of_spec in FO. destruct (uproot_filters f0 s) as (P1 & P2). split; [|split; reflexivity]. split; [|split; [exact (P2 T2)|]].
        + intro g. cbn [m_tree y emit set_out m_out]. change (map (fun e : bytes * N * N => fst (fst e)) (m_tree (uproot f0 s))) with (filters (uproot f0 s)). rewrite (P1 g), (T1 g). change (m_out (uproot f0 s)) with (m_out s). cbn [subscribed]. split; intros (H & N0); (split; [exact H|]).
          * right. intro D. apply filter_of_spec in D, FO. congruence.
          * destruct N0 as [W|N0]; [apply A in W; congruence|]. intros ->. exact (N0 FO).
        + intros g H. change (In g (filters (uproot f0 s))) in H. apply P1 in H as [H _]. auto. }
    clearbody y. destruct Y as (Y1 & Y2 & Y3). destruct (arm_frame r y) as [A1 A2]. assert (X : TT (arm r y)) by (eapply TT_same; [exact A1|exact A2|exact Y1]).
    split; [exact X|]. split; [cbn [upd m_out set_heap]; rewrite A2, Y2; apply One; exact I|]. cbn [planted]. eapply touched_trans; [|apply touched_tree]. eapply touched_trans; [apply touched_same; exact Y3|apply touched_arm].
  - unfold ping_send in E. destruct enc; cbn [negb] in E; [|injection E as <- <-; split; [exact T|split; [exact Emp|apply touched_same; reflexivity]]].
    destruct wr; cbn [negb] in E; injection E as <- <-; (split; [eapply (TT_other (q_uid r) PINGREQ _ s); [exact I|reflexivity|reflexivity|exact T]|split; [apply One; exact I|apply touched_same; reflexivity]]).
Qed.

(** ** Steps *)
Lemma made_kind l u id k w id' k' w' : each fine l -> In (I_MADE u id k w) l -> In (I_MADE u id' k' w') l -> k = k'.
Proof.
  induction l as [|x l IH]; intros F H K; [destruct H|]. destruct F as [F F']. destruct H as [->|H], K as [K|K].
  - congruence.
  - exfalso. cbn in F. apply F. exists id', k', w'. exact K.
  - subst x. exfalso. cbn in F. apply F. exists id, k, w. exact H.
  - auto.
Qed.
Lemma change_heap u a b s r' : In r' (m_heap (change u a b s)) -> exists r, In r (m_heap s) /\ q_uid r' = q_uid r /\ alike r r'.
Proof.
  unfold change. destruct (get u s) as [q|]; [|intro H; exists r'; split; [exact H|split; [reflexivity|apply alike_refl]]]. destruct (q_size q =? 0); [intro H; exists r'; split; [exact H|split; [reflexivity|apply alike_refl]]|].
  cbv zeta. unfold upd. cbn [m_heap set_heap set_stats]. intro H. apply in_map_iff in H as (r & <- & H). exists r. split; [exact H|]. destruct (is_uid u r); repeat split.
Qed.
Lemma tell_heap r e s : m_heap (tell r e s) = m_heap s. Proof. unfold tell. destruct (q_kind r); reflexivity. Qed.
Lemma finished_heap r e s r' : In r' (m_heap (finished r e s)) -> exists r0, In r0 (m_heap s) /\ q_uid r0 <> q_uid r /\ alike r0 r'.
Proof.
  unfold finished, drop. cbn [m_heap set_heap]. intro H. apply filter_In in H as [H N]. unfold is_uid in N. apply negb_true_iff, N.eqb_neq in N. apply change_heap in H as (r0 & H & U & A). rewrite tell_heap in H. exists r0. split; [exact H|]. split; [congruence|exact A].
Qed.
Lemma flag_alike a b : alike a b -> flag a -> flag b. Proof. intros (A & B & C & D) H. unfold flag in *. rewrite A, B, C, D. exact H. Qed.
Lemma TT_tame s s' : tame s s' -> TT s -> TT s'.
Proof. intros (A & (x & B & B') & _) (H1 & H2 & H3). unfold TT, filters in *. rewrite A, B. split; [|auto]. intro f. rewrite dull_list by exact B'. apply H1. Qed.
Lemma TI_run enc wr s : VI (view s) -> TI s -> TI (run_task enc wr s).
Proof.
  intros V H. unfold run_task. destruct (m_tasks s) as [|u l] eqn:ET; [exact H|]. cbv zeta. set (s0 := set_tasks l s). assert (H0 : TI s0) by exact (TI_tame s s0 (tame_same _ _ eq_refl eq_refl eq_refl) H). change (get u s0) with (get u s).
  destruct (get u s) as [r|] eqn:G; [|exact (TI_tame s0 (crash s0) (tame_same s0 (crash s0) eq_refl eq_refl eq_refl) H0)]. destruct (get_in u s r G) as [Hr Eu]. destruct (get_ess u s r G) as [He _].
  assert (T0 : TT s0) by (split; [apply (t_tree _ H0)|split; [apply (t_nodup _ H0)|apply (t_hash _ H0)]]).
  assert (Mk := i_made _ V _ He). assert (Se := i_sent _ V _ He). cbn [e_uid e_id e_kind e_wait e_sent ess_of] in Mk, Se. destruct (send enc wr r s0) as [s1 res] eqn:S.
  destruct (send_tree enc wr r s0 s1 res S T0 (t_flag _ H0 r Hr) (t_legal _ H0 r Hr)) as (T1 & X & To); [exists (q_wait r); exact Mk|intros id k w id' k' w'; apply (made_kind (m_out s)); apply (i_fine _ V)|exact Se|].
  set (f := fun r0 => with_at (m_now s) (with_sent true r0)). set (s2 := upd u f s1).
  assert (T2 : TT s2) by exact (TT_same s1 s2 eq_refl eq_refl T1). assert (R2 : each rightly (m_out s2)) by (change (m_out s2) with (m_out s1); destruct X as [X|(p & ok & X & R)]; rewrite X; [apply (t_right _ H0)|split; [exact R|apply (t_right _ H0)]]).
  assert (W2 : forall r2, In r2 (m_heap s2) -> legal (q_kind r2) /\ (q_uid r2 <> u -> flag r2) /\ (q_uid r2 = u -> q_sent r2 = true /\ q_kind r2 = q_kind r /\ (planted (q_kind r) res = true -> q_tree r2 = true))).
  { intros r2 K. unfold s2, upd in K. cbn [m_heap set_heap] in K. apply in_map_iff in K as (r1 & <- & K). destruct (To r1 K) as (r0 & K0 & U0 & B0 & C0 & D0 & E0). unfold is_uid. destruct (q_uid r1 =? u) eqn:Z.
    - apply N.eqb_eq in Z. cbn. split; [rewrite B0; apply (t_legal _ H0 r0 K0)|]. split; [congruence|]. intros _. split; [reflexivity|]. split.
      + rewrite B0. assert (r0 = r); [|subst; reflexivity]. assert (N := i_uids _ V). cbn in N. rewrite map_map in N. assert (Q0 : get (q_uid r0) s = Some r0).
        { unfold get. revert N K0. change (m_heap s0) with (m_heap s). clear. induction (m_heap s) as [|q l IH]; cbn; intros N H; [destruct H|]. inversion N as [|? ? N1 N2]; subst. unfold is_uid at 1. destruct (q_uid q =? q_uid r0) eqn:E; [|destruct H as [->|H]; [rewrite N.eqb_refl in E; discriminate|auto]]. apply N.eqb_eq in E. destruct H as [->|H]; [reflexivity|]. destruct N1. rewrite E. apply (in_map (fun q => q_uid q)). exact H. }
        rewrite <- U0, Z, G in Q0. congruence.
      + intro Pl. apply E0; [exact Pl|congruence].
    - apply N.eqb_neq in Z. split; [rewrite B0; apply (t_legal _ H0 r0 K0)|]. split; [intros _|congruence]. apply (flag_alike r0); [apply D0; congruence|apply (t_flag _ H0 r0 K0)]. }
  assert (Fin : forall e, TI (finished r e s2)).
  { intro e. pose proof (tame_finished r e s2) as Ta. destruct (TT_tame _ _ Ta T2) as (A1 & A2 & A3). destruct Ta as (_ & (y & Y1 & Y2) & _). constructor; auto.
    - intros r' K. apply finished_heap in K as (r2 & K & N & Al). apply (flag_alike r2); [exact Al|]. apply (W2 r2 K). congruence.
    - intros r' K. apply finished_heap in K as (r2 & K & _ & (Al & _)). rewrite Al. apply (W2 r2 K).
    - rewrite Y1. apply dull_right; assumption. }
  destruct res; [|apply Fin|apply Fin]. assert (H2 : TI s2).
  { destruct T2 as (A1 & A2 & A3). constructor; auto; [|intros r2 K; apply (W2 r2 K)]. intros r2 K. destruct (W2 r2 K) as (_ & B & C). destruct (N.eq_dec (q_uid r2) u) as [Z|Z]; [|auto]. destruct (C Z) as (C1 & C2 & C3). unfold flag. rewrite C2, C1. destruct (q_kind r); auto; try discriminate; apply C3; reflexivity. }
  apply (TI_tame s2); [|exact H2]. eapply tame_trans; [apply tame_change|]. apply tame_same; reflexivity.
Qed.
(** ** Delivering *)
Definition deliver (topic payload : bytes) (f : bytes) : out := O_DELIVER f topic payload.
Definition matching (topic : bytes) (l : list bytes) : list bytes := filter (fun f => tree_match f topic) l.
Lemma deliver_fold topic payload (t : list (bytes * N * N)) : forall s, let s1 := fold_left (fun s e => if tree_match (fst (fst e)) topic then emit (O_DELIVER (fst (fst e)) topic payload) s else s) t s in
  m_out s1 = rev (map (deliver topic payload) (matching topic (map (fun e => fst (fst e)) t))) ++ m_out s /\ m_tree s1 = m_tree s /\ m_heap s1 = m_heap s /\ m_state s1 = m_state s /\ m_closing s1 = m_closing s.
Proof.
  induction t as [|e t IH]; intro s; [repeat split|]. cbn [fold_left map]. unfold matching in *. cbn [filter]. destruct (tree_match (fst (fst e)) topic).
  - destruct (IH (emit (O_DELIVER (fst (fst e)) topic payload) s)) as (A & B & C & D & E). cbn zeta. rewrite A, B, C, D, E. repeat split. cbn [map rev]. rewrite <- app_assoc. reflexivity.
  - apply IH.
Qed.
Lemma deliveries_right id qos dup retain topic payload m L : NoDup L -> (forall f, In f L -> subscribed f m /\ tree_matches f topic) -> each rightly (I_PACKET (PUBLISH id qos dup retain topic payload) :: m) ->
  each rightly (rev (map (deliver topic payload) L) ++ I_PACKET (PUBLISH id qos dup retain topic payload) :: m).
Proof.
  intros N H R. induction L as [|f L IH] using rev_ind; [exact R|]. rewrite map_app, rev_app_distr. cbn [map rev app each]. apply NoDup_remove in N as [N1 N2]. rewrite app_nil_r in N1, N2.
  split; [|apply IH; [exact N1|intros g K; apply H, in_app_iff; auto]]. cbn [deliver rightly]. exists (rev (map (deliver topic payload) L)), id, qos, dup, retain, m. split; [reflexivity|]. split; [|apply H, in_app_iff; right; left; reflexivity].
  intros y K. apply in_rev in K. apply in_map_iff in K as (g & <- & K). exists g. split; [|reflexivity]. intros ->. contradiction.
Qed.
Lemma on_publish_shape id qos dup retain topic payload wr s : let L := matching topic (filters s) in
  exists s2, m_out s2 = O_ANY_PUBLISH topic payload dup qos retain :: rev (map (deliver topic payload) L) ++ m_out s /\ m_tree s2 = m_tree s /\ m_heap s2 = m_heap s /\ m_closing s2 = m_closing s /\
    on_publish id qos dup retain topic payload wr s = (if (qos =? 0) || (id =? 0) then s2 else answer (if qos =? 1 then PUBACK id else PUBREC id) wr s2).
Proof.
  cbn zeta. unfold on_publish. destruct (deliver_fold topic payload (m_tree s) s) as (A & B & C & D & E). cbv zeta. set (s1 := fold_left _ _ s) in *. exists (emit (O_ANY_PUBLISH topic payload dup qos retain) s1). split; [cbn [emit m_out set_out]; rewrite A; reflexivity|]. repeat split; assumption.
Qed.
Lemma matching_spec s topic f : TT s -> In f (matching topic (filters s)) <-> subscribed f (m_out s) /\ tree_matches f topic.
Proof.
  intros (A & _ & C). unfold matching. rewrite filter_In, <- A. split; intros [H K]; (split; [exact H|]); apply (tree_match_spec f topic (C f H)); exact K.
Qed.
Definition reply (p : packet) : Prop := match p with PUBACK _ | PUBREC _ | PUBREL _ | PUBCOMP _ => True | _ => False end.
Lemma TI_answer p wr s : rightly (O_WRITE p wr) (m_out s) -> TI s -> reply p -> TI (answer p wr s).
Proof.
  intros R H Rp. unfold answer. cbv zeta. set (s1 := emit _ s). assert (H1 : TI s1) by (constructor; [exact (t_tree _ H)|exact (t_nodup _ H)|exact (t_hash _ H)|exact (t_flag _ H)|exact (t_legal _ H)|exact (conj R (t_right _ H))]). clearbody s1. destruct wr; [exact H1|]. apply (TI_tame s1); [apply tame_close|exact H1].
Qed.
Lemma TI_publish id qos dup retain topic payload wr s m : TI s -> m_out s = I_PACKET (PUBLISH id qos dup retain topic payload) :: m -> TI (on_publish id qos dup retain topic payload wr s).
Proof.
  intros H E. assert (T : TT s) by (split; [apply (t_tree _ H)|split; [apply (t_nodup _ H)|apply (t_hash _ H)]]). destruct (on_publish_shape id qos dup retain topic payload wr s) as (s2 & A & B & C & _ & ->).
  assert (Sub : forall f (L : list bytes), subscribed f (rev (map (deliver topic payload) L) ++ m_out s) <-> subscribed f (m_out s)).
  { intros f L. induction L as [|g L IH] using rev_ind; [reflexivity|]. rewrite map_app, rev_app_distr. cbn. exact IH. }
  assert (Ds : forall L y, In y (rev (map (deliver topic payload) L)) -> exists g, y = O_DELIVER g topic payload) by (intros L y K; apply in_rev in K; apply in_map_iff in K as (g & <- & _); exists g; reflexivity).
  assert (H2 : TI s2).
  { constructor; unfold filters; rewrite ?B, ?C; try apply H.
    - intro f. rewrite A. cbn [subscribed]. rewrite Sub. apply (t_tree _ H).
    - rewrite A. split.
      + cbn [rightly]. exists (rev (map (deliver topic payload) (matching topic (filters s)))), id, m. rewrite E. split; [reflexivity|]. split.
        * apply Ds.
        * intros f K1 K2. apply -> in_rev. apply (in_map (deliver topic payload)). apply (matching_spec s topic f T). rewrite E. split; assumption.
      + rewrite E. apply deliveries_right; [apply NoDup_filter, (t_nodup _ H)| |rewrite <- E; apply (t_right _ H)]. intros f K. apply (matching_spec s topic f T) in K. rewrite E in K. exact K. }
  destruct ((qos =? 0) || (id =? 0)) eqn:Q; [exact H2|]. apply orb_false_iff in Q as [Q _]. apply N.eqb_neq in Q. apply TI_answer; [|exact H2|destruct (qos =? 1); exact I]. rewrite A, E. destruct (qos =? 1) eqn:Q1; cbn [rightly].
  - apply N.eqb_eq in Q1. subst qos. eexists topic, payload, dup, retain, _, m. split; [reflexivity|]. apply Ds.
  - apply N.eqb_neq in Q1. eexists topic, payload, dup, qos, retain, _, m. split; [lia|]. split; [reflexivity|]. apply Ds.
Qed.
Lemma step_TI s ev : TI s -> SI s -> TI (step s ev).
Proof.
  intros H SV. unfold step. destruct (m_crash s || m_over s); [exact H|]. destruct (enabled ev s); [|exact H].
  assert (D : (exists enc wr, ev = EvRun enc wr) \/ (exists p wr, ev = EvPacket p wr /\ talks p = true) \/ tame s (handle ev s)).
  { destruct ev as [t|k w|clean keep_s ping_ms op_ms ok| | |lo hi|o quit|enc wr| |p wr| | | |u|ok|e|graceful wr quit]; try (right; right; apply tame_handle; discriminate); [left; eauto|]. right. destruct (talks p) eqn:Tk; [left; eauto|]. right. apply tame_handle; [intros p' wr' E; injection E as <- _; exact Tk|discriminate]. }
  destruct D as [(enc & wr & ->)|[(p & wr & -> & Tk)|D]]; [apply TI_run; [apply (s_vi _ SV)|exact H]| |apply (TI_tame s); assumption].
  cbn [handle]. set (s1 := emit (I_PACKET p) s). assert (H1 : TI s1) by (apply (TI_tame s); [apply tame_emit; exact I|exact H]). assert (E1 : m_out s1 = I_PACKET p :: m_out s) by reflexivity. clearbody s1.
  destruct p as [| id qos dup retain topic payload| |id|id| | | | | | | | |]; try discriminate Tk; cbn [on_packet]; (destruct (in_state CONNECTING s1); [apply (TI_tame s1); [apply tame_close|exact H1]|]).
  - apply (TI_publish _ _ _ _ _ _ _ _ (m_out s)); assumption.
  - apply TI_answer; [rewrite E1; exists (m_out s); reflexivity|exact H1|exact I].
  - apply TI_answer; [rewrite E1; exists (m_out s); reflexivity|exact H1|exact I].
Qed.
Lemma history_TI evs : TI (history evs).
Proof.
  induction evs as [|ev evs IH] using rev_ind; [constructor; cbn; try tauto; constructor|]. rewrite history_snoc. apply step_TI; [exact IH|apply history_SI].
Qed.
