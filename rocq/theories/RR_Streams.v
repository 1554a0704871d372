(** Streams: which of them receive a message. *)
From Verif Require Import Base Split TopicAlias_Model TopicAlias_Proofs SubSet_Model Topic_Model Paths RR_Model RR_Spec RR_Steps RR_Decomp RR_Subs RR_Flights RR_Kinds RR_Trace RR_OpsTrace RR_Filters RR_All RR_Lives RR_Requests RR_Why.
From Verif Require Topic_Spec Topic_Proofs SubSet_Spec TopicTree_Spec.
From Coq Require Import Permutation.

(** ** Only operations which have been taken from the queue hear about subscriptions *)
Definition was_taken (id : N) (s : client) : Prop := existsb (takes id) (c_out s) = true.
Definition known (g : ghost) (s : client) (id : N) : Prop := was_taken id s \/ exists o rest, g = TAKING o rest /\ o_id o = id.
Record J11 (g : ghost) (s : client) : Prop := {
  j11_events : forall e f id, In (e, f, id) (evs g s) -> directed e <> None -> known g s id;
  j11_subs : forall f r id, get_sub f s = Some r -> In id (s_listeners r) -> known g s id }.
Lemma j11_go g s g' s' m : J11 g s -> c_out s' = m ++ c_out s -> (forall o rest, g = TAKING o rest -> known g' s' (o_id o)) ->
  (forall e f id, In (e, f, id) (evs g' s') -> directed e <> None -> In (e, f, id) (evs g s) \/ known g s id) ->
  (forall f r, get_sub f s' = Some r -> (exists r0, get_sub f s = Some r0 /\ incl (s_listeners r) (s_listeners r0)) \/ (forall id, In id (s_listeners r) -> known g s id)) -> J11 g' s'.
Proof.
  intros [A B] Ho Hk He Hs. assert (M : forall id, known g s id -> known g' s' id). { intros id [K|(o & rest & K & <-)]; [left; unfold was_taken in *; rewrite Ho, existsb_app, K; apply orb_true_r|apply (Hk o rest K)]. }
  constructor.
  - intros e f id K Hd. apply M. destruct (He _ _ _ K Hd) as [K'|K']; [eapply A; eassumption|exact K'].
  - intros f r id K Hi. apply M. destruct (Hs _ _ K) as [(r0 & K0 & K1)|K']; [eapply B; [exact K0|apply K1; exact Hi]|auto].
Qed.
Lemma sub_upd11 g s s' f h : c_subs s' = c_subs (upd_sub f h s) -> (forall r, get_sub f s = Some r -> incl (s_listeners (h r)) (s_listeners r)) -> (forall r, s_filter (h r) = s_filter r) ->
  forall f' r', get_sub f' s' = Some r' -> (exists r0, get_sub f' s = Some r0 /\ incl (s_listeners r') (s_listeners r0)) \/ (forall id, In id (s_listeners r') -> known g s id).
Proof.
  intros E Hn Hf f' r' H. left. rewrite (get_sub_subs f' (upd_sub f h s) s' E) in H. rewrite get_sub_upd in H by exact Hf. destruct (bytes_eqb f f') eqn:Eb.
  - apply bytes_eqb_spec in Eb. subst f'. destruct (get_sub f s) as [r|]; [|discriminate]. injection H as <-. exists r. auto.
  - exists r'. split; [exact H|apply incl_refl].
Qed.
Lemma sub_left11 g s s' f r : c_subs s' = c_subs s -> get_sub f s' = Some r -> (exists r0, get_sub f s = Some r0 /\ incl (s_listeners r) (s_listeners r0)) \/ (forall id, In id (s_listeners r) -> known g s id).
Proof. intros E H. left. exists r. unfold get_sub in *. rewrite E in H. split; [exact H|apply incl_refl]. Qed.
Ltac kt := intros ? ? K; first [discriminate K|injection K as <- <-; right; eexists _, _; split; reflexivity|rewrite K; right; eexists _, _; split; reflexivity].
Ltac ke := intros ? ? ? K _; left; first [exact K|right; exact K|match goal with g : ghost |- _ => destruct g; exact K end].
Ltac ks := intros ? ? K; eapply sub_left11; [|exact K]; reflexivity.
Ltac kf := solve [eapply (j11_go _ _ _ _ []); [eassumption|reflexivity|kt|ke|ks]
  |match goal with |- J11 _ ?s' => let x := eval cbn [completed halted subscribing unsubscribing told activate_stream release upd_op upd_sub set_ops set_subs set_queue set_flights set_publishes set_events set_connected set_scheduled set_phase emit c_out] in (c_out s') in match x with ?y :: _ =>
  eapply (j11_go _ _ _ _ [y]); [eassumption|reflexivity|kt|ke|ks] end end].
Ltac kupd f h := eapply (sub_upd11 _ _ _ f h); [reflexivity|intros ? _; cbn; apply incl_refl|reflexivity].
Lemma told_known g s e0 f0 id e r s0 : J11 g s -> c_events s0 = c_events s -> (exists f, get_sub f s = Some r) -> In (e0, f0, id) (c_events (told e r s0)) -> In (e0, f0, id) (c_events s) \/ known g s id.
Proof. intros J E [f Hr] K. apply told_in in K as [K|(_ & _ & K)]; [left; rewrite <- E; exact K|right]. eapply (j11_subs _ _ J); eassumption. Qed.
Lemma J11_step cf g s g' s' : JA cf g s -> J11 g s -> big cf (g, s) (g', s') -> J11 g' s'.
Proof.
  intros HA J B. inversion B as [x y P|s0 Ha Hs|s0 Hp Ho He Hu]; subst; [|kf|kf].
  clear B. inversion P; subst; try kf.
  - (* create *) match goal with H : valid_work w = true |- _ => rewrite create_shape by exact H end. kf.
  - (* submitted *) destruct (submitted_is id now s) as [n ->]. kf.
  - (* timeout *) destruct (fail_shape (o_id o) E_TIMEOUT (upd_op (o_id o) (set_timed false) s)) as (l & F1 & F2 & F3 & F4). apply rest_inj in F3 as (_ & F5 & _ & _ & _ & _ & F6 & _).
    eapply (j11_go _ _ _ _ l); [eassumption|rewrite F1; reflexivity|kt| |].
    + intros e f id K _. left. cbn [evs] in *. rewrite F6 in K. exact K.
    + intros f r K. eapply sub_left11; [|exact K]. rewrite F5. reflexivity.
  - (* listen *) eapply (j11_go _ _ _ _ []); [eassumption|unfold listen; destruct (get_sub f s); reflexivity|kt| |].
    + intros e f0 id K _. left. unfold listen in K. destruct (get_sub f s); exact K.
    + intros f0 r K. rewrite get_sub_listen in K. destruct (bytes_eqb f f0) eqn:E; [|left; exists r; auto using incl_refl]. apply bytes_eqb_spec in E. subst f0. right. intros id Hi. assert (Hme : known (TAKING o (f :: rest)) s (o_id o)) by (right; eexists _, _; split; reflexivity). destruct (get_sub f s) as [r0|] eqn:Er; injection K as <-.
      * cbn [with_listeners s_listeners] in Hi. destruct (existsb _ _) in Hi; [eapply (j11_subs _ _ J); eassumption|]. apply in_app_or in Hi as [Hi|[<-|[]]]; [eapply (j11_subs _ _ J); eassumption|exact Hme].
      * destruct Hi as [<-|[]]. exact Hme.
  - (* took *) eapply (j11_go _ _ _ _ [_]); [eassumption|reflexivity| |ke|ks]. intros o0 rest [= <- <-]. left. unfold was_taken. cbn [emit c_out existsb takes]. rewrite N.eqb_refl. reflexivity.
  - (* tables *) destruct (add_tables_frame o s) as (F1 & F2 & F3 & F4 & F5 & F6 & F7 & F8). eapply (j11_go _ _ _ _ []); [eassumption|exact F8|kt| |].
    + intros e f id K _. left. cbn [evs] in *. rewrite F4 in K. exact K.
    + intros f r K. eapply sub_left11; [apply add_tables_subs|exact K].
  - (* pop *) match goal with H : c_events s = _ |- _ => rename H into Hev end. eapply (j11_go _ _ _ _ []); [eassumption|reflexivity|kt| |ks]. intros e0 f0 id0 K _. left. cbn [evs] in *. rewrite Hev. exact K.
  - (* wake *) destruct (wake_is now s) as [n ->]. kf.
  - (* established *) clear P. match goal with |- context [if ?b then _ else _] => generalize b end. intros [|]; kf.
  - (* suback ok *) eapply (j11_go _ _ _ _ []); [eassumption|reflexivity|kt| |].
    + intros e0 f0 id0 K _. cbn [evs] in *. eapply (told_known _ s _ _ _ _ _ _ J) in K; [exact K|reflexivity|eauto].
    + eapply (sub_upd11 _ s _ f (fun r => with_subscribed true (with_pending NOTHING r))); [unfold told; cbn [set_events c_subs]; rewrite upd_sub_twice by reflexivity; reflexivity|intros ? _; cbn; apply incl_refl|reflexivity].
  - eapply (j11_go _ _ _ _ []); [eassumption|reflexivity|kt| |kupd f (with_pending NOTHING)]. intros e0 f0 id0 K _. cbn [evs] in *. eapply (told_known _ s _ _ _ _ _ _ J) in K; [exact K|reflexivity|eauto].
  - eapply (j11_go _ _ _ _ []); [eassumption|reflexivity|kt|ke|kupd f (with_pending NOTHING)].
  - eapply (j11_go _ _ _ _ []); [eassumption|reflexivity|kt| |].
    + intros e0 f0 id0 K _. cbn [evs] in *. eapply (told_known _ s _ _ _ _ _ _ J) in K; [exact K|reflexivity|eauto].
    + eapply (sub_upd11 _ s _ f (fun r => poisoned (with_pending NOTHING r))); [unfold told; cbn [set_events c_subs]; rewrite upd_sub_twice by reflexivity; reflexivity|intros ? _; cbn; apply incl_refl|reflexivity].
  - eapply (j11_go _ _ _ _ []); [eassumption|reflexivity|kt| |].
    + intros e0 f0 id0 K Hd. cbn [evs set_events c_events] in *. apply in_app_or in K as [K|[[= <- <- <-]|[]]]; [left; exact K|destruct (Hd eq_refl)].
    + eapply (sub_upd11 _ s _ f (fun r => with_subscribed false (with_pending NOTHING r))); [cbn [set_events c_subs]; rewrite upd_sub_twice by reflexivity; reflexivity|intros ? _; cbn; apply incl_refl|reflexivity].
  - eapply (j11_go _ _ _ _ []); [eassumption|reflexivity|kt|ke|kupd f (with_pending NOTHING)].
  - (* lose request *) eapply (j11_go _ _ _ _ []); [eassumption|reflexivity|kt| |].
    + intros e0 f0 id0 K _. cbn [evs] in *. change (In (e0, f0, id0) (c_events (told SUBSCRIPTION_ENDED r (upd_sub f (with_subscribed false) s)))) in K. eapply (told_known _ s _ _ _ _ _ _ J) in K; [exact K|reflexivity|eauto].
    + intros f0 r0 K. rewrite get_sub_drop in K. destruct (bytes_eqb f f0) eqn:E; [discriminate|]. revert f0 r0 E K. intros f0 r0 _. apply (sub_upd11 _ s (told SUBSCRIPTION_ENDED r (upd_sub f (with_subscribed false) s)) f (with_subscribed false)); [reflexivity|intros ? _; cbn; apply incl_refl|reflexivity].
  - eapply (j11_go _ _ _ _ []); [eassumption|reflexivity|kt| |kupd f (with_subscribed false)]. intros e0 f0 id0 K _. cbn [evs] in *. eapply (told_known _ s _ _ _ _ _ _ J) in K; [exact K|reflexivity|eauto].
  - eapply (j11_go _ _ _ _ []); [eassumption|reflexivity|kt| |kupd f (with_subscribed false)]. intros e0 f0 id0 K _. cbn [evs] in *. eapply (told_known _ s _ _ _ _ _ _ J) in K; [exact K|reflexivity|eauto].
  - (* subscribing *) eapply (j11_go _ _ _ _ [_]); [eassumption|reflexivity|kt|ke|kupd f (with_pending SUBSCRIBING)].
  - eapply (j11_go _ _ _ _ [_]); [eassumption|reflexivity|kt| |ks]. intros e0 f0 id0 K _. assert (K' : In (e0, f0, id0) (c_events s) \/ known g' s id0). { eapply (told_known g' s e0 f0 id0 SUBSCRIBE_FAILURE r (emit (O_SUBSCRIBE f false) s) J); [reflexivity|eauto|]. match goal with H : g' = IDLE \/ _ |- _ => destruct H as [->|[o ->]]; exact K end. }
    destruct K' as [K'|K']; [left|right; exact K']. match goal with H : g' = IDLE \/ _ |- _ => destruct H as [->|[o ->]]; exact K' end.
  - eapply (j11_go _ _ _ _ [_]); [eassumption|reflexivity|kt| |kupd f poisoned]. intros e0 f0 id0 K _. assert (K' : In (e0, f0, id0) (c_events s) \/ known g' s id0). { eapply (told_known g' s e0 f0 id0 HALTED r (upd_sub f poisoned (emit (O_SUBSCRIBE f false) s)) J); [reflexivity|eauto|]. match goal with H : g' = IDLE \/ _ |- _ => destruct H as [->|[o ->]]; exact K end. }
    destruct K' as [K'|K']; [left|right; exact K']. match goal with H : g' = IDLE \/ _ |- _ => destruct H as [->|[o ->]]; exact K' end.
  - eapply (j11_go _ _ _ _ [_]); [eassumption|reflexivity|kt|ke|kupd f (with_pending UNSUBSCRIBING)].
  - eapply (j11_go _ _ _ _ []); [eassumption|reflexivity|kt|ke|]. intros f0 r0 K. rewrite get_sub_drop in K. destruct (bytes_eqb f f0); [discriminate|]. left. exists r0. auto using incl_refl.
  - (* message *) rewrite streamed_exact. eapply (j11_go _ _ _ _ (messages topic payload (filter (listening (emit (I_MESSAGE topic payload j) s)) (recipients topic (emit (I_MESSAGE topic payload j) s))) ++ [I_MESSAGE topic payload j])); [eassumption|cbn [emits emit c_out]; rewrite <- app_assoc; reflexivity|kt|ke|ks].
  - (* unlisten *) eapply (j11_go _ _ _ _ []); [eassumption| |kt| |].
    + unfold unlisten, status. destruct (get_sub f s); [|reflexivity]. destruct (filter _ _); [|reflexivity]. destruct (active _); reflexivity.
    + intros e0 f0 id0 K Hd. cbn [evs] in *. unfold unlisten, status in K. destruct (get_sub f s); [|left; exact K]. destruct (filter _ _); [|left; exact K]. destruct (active _); [|left; exact K]. cbn [set_events c_events] in K. apply in_app_or in K as [K|[[= <- <- <-]|[]]]; [left; exact K|destruct (Hd eq_refl)].
    + intros f0 r0 K. destruct (get_sub f s) as [r|] eqn:Er.
      * revert f0 r0 K. apply (sub_upd11 _ s _ f (with_listeners (filter (fun i => negb (N.eqb (o_id o) i)) (s_listeners r)))); [unfold unlisten, status; rewrite Er; destruct (filter _ _); [destruct (active _)|]; reflexivity| |reflexivity]. intros r1 Hr1. rewrite Er in Hr1. injection Hr1 as <-. cbn. intros i Hi. apply filter_In in Hi as [Hi _]. exact Hi.
      * eapply sub_left11; [|exact K]. unfold unlisten; rewrite Er; reflexivity.
  - (* gone *) destruct (untabled_frame o s) as (F1 & F2 & F3 & F4 & F5 & F6 & F7 & F8 & F9 & F10).
    eapply (j11_go _ _ _ _ [_]); [eassumption|cbn [emit c_out]; rewrite F8; reflexivity|kt| |].
    + intros e0 f0 id0 K _. left. cbn [evs emit c_events] in *. rewrite F4 in K. exact K.
    + intros f0 r0 K. eapply sub_left11; [apply untabled_subs|exact K].
  - eapply (j11_go _ _ _ _ [_]); [eassumption|reflexivity|kt|ke|kupd f (with_pending UNSUBSCRIBING)].
  - eapply (j11_go _ _ _ _ []); [eassumption|reflexivity|kt|ke|]. intros f0 r0 K. rewrite get_sub_drop in K. destruct (bytes_eqb f f0); [discriminate|]. left. exists r0. auto using incl_refl.
  - (* swap subs *) eapply (j11_go _ _ _ _ []); [eassumption|reflexivity|kt|ke|]. intros f0 r0 K. rewrite get_perm_sub in K; [|exact (j1_nodup _ _ _ (ja1 _ _ _ HA))|assumption]. left. exists r0. auto using incl_refl.
  - (* swap listeners *) eapply (j11_go _ _ _ _ []); [eassumption|reflexivity|kt|ke|]. eapply (sub_upd11 _ s _ f (fun r => with_listeners (swap n (s_listeners r)) r)); [reflexivity| |reflexivity]. intros r0 _ i Hi. eapply Permutation_in; [apply swap_perm|exact Hi].
Qed.
Lemma J11_new connected : J11 IDLE (client_new connected).
Proof. constructor; [intros ? ? ? []|discriminate]. Qed.

(** ** The table of streams *)
Definition accepted (a : acquired) : Prop := a = A_SUBSCRIBING \/ a = A_SUBSCRIBED.
Definition taken_in (id : N) (l : list out) : Prop := exists a, accepted a /\ In (O_INTAKE id a) l.
Definition halted_in (id : N) (l : list out) : Prop := exists e, In (O_STATUS id (S_HALTED e)) l.
Definition intaking (g : ghost) : bool := match g with TAKING _ _ | TOOK _ _ | TABLED _ _ => true | _ => false end.
Record J10 (g : ghost) (s : client) : Prop := {
  k_keys : NoDup (map fst (c_streams s));
  k_lists : forall f ids, In (f, ids) (c_streams s) -> NoDup ids /\ forall id, In id ids -> exists o, get_op id s = Some o /\ o_work o = W_STREAM f /\ o_tables o = true;
  k_op : forall id o f, get_op id s = Some o -> o_work o = W_STREAM f -> o_tables o = true -> exists ids, In (f, ids) (c_streams s) /\ In id ids;
  k_taken : forall id o, get_op id s = Some o -> taken_in id (c_out s) -> o_tables o = true \/ exists o' a, g = TOOK o' a /\ accepted a /\ o_id o' = id;
  k_tables : forall id o, get_op id s = Some o -> o_tables o = true -> taken_in id (c_out s);
  k_state : forall id o, get_op id s = Some o -> o_kind o = STREAM -> o_state o <> S_PENDING_DESTROY /\ (o_state o = S_TERMINAL <-> halted_in id (c_out s));
  k_halted : forall id, halted_in id (c_out s) -> id < c_next s /\ (was_taken id s \/ c_phase s <> ACTIVE);
  k_ghost : forall o a, g = TOOK o a \/ g = TABLED o a -> accepted a -> ~ halted_in (o_id o) (c_out s);
  k_took : forall o a, g = TOOK o a -> accepted a -> (exists o', get_op (o_id o) s = Some o' /\ o_tables o' = false);
  k_active : intaking g = true -> c_phase s = ACTIVE }.
Definition class (o : op) : N := match o_kind o with REQUEST => 0 | STREAM => match o_state o with S_PENDING_DESTROY => 1 | S_TERMINAL => 2 | _ => 0 end end.
Definition sk (o : op) := (o_work o, o_tables o, class o).
Definition same_sk (s s' : client) : Prop := forall id, option_map sk (get_op id s') = option_map sk (get_op id s).
Lemma same_get s s' id o' : same_sk s s' -> get_op id s' = Some o' -> exists o, get_op id s = Some o /\ o_work o = o_work o' /\ o_tables o = o_tables o' /\ class o = class o'.
Proof. intros H Ho. specialize (H id). rewrite Ho in H. destruct (get_op id s) as [o|]; [|discriminate]. injection H as H1 H2 H3. exists o. auto. Qed.
Lemma same_sym s s' : same_sk s s' -> same_sk s' s. Proof. intros H id. symmetry. apply H. Qed.
Definition calm (x : out) : Prop := match x with O_INTAKE _ a => ~ accepted a | O_STATUS _ (S_HALTED _) => False | _ => True end.
Lemma calm_taken m l id : Forall calm m -> taken_in id (m ++ l) <-> taken_in id l.
Proof. intros H. rewrite Forall_forall in H. split; intros (a & Ha & K); exists a; (split; [exact Ha|]); [|apply in_or_app; right; exact K]. apply in_app_or in K as [K|K]; [destruct (H _ K Ha)|exact K]. Qed.
Lemma calm_halted m l id : Forall calm m -> halted_in id (m ++ l) <-> halted_in id l.
Proof. intros H. rewrite Forall_forall in H. split; intros (e & K); exists e; [|apply in_or_app; right; exact K]. apply in_app_or in K as [K|K]; [destruct (H _ K)|exact K]. Qed.
Lemma class_state o : o_kind o = STREAM -> (o_state o <> S_PENDING_DESTROY <-> class o <> 1) /\ (o_state o = S_TERMINAL <-> class o = 2).
Proof. unfold class. intros ->. destruct (o_state o); split; split; intros; try discriminate; congruence. Qed.
Lemma taken_was m l id s : c_out s = m ++ l -> existsb (takes id) l = true -> was_taken id s.
Proof. unfold was_taken. intros -> H. rewrite existsb_app, H. apply orb_true_r. Qed.
Lemma j10_frame g s g' s' m : J10 g s -> c_out s' = m ++ c_out s -> Forall calm m -> same_sk s s' -> c_streams s' = c_streams s -> c_next s' = c_next s -> (c_phase s <> ACTIVE -> c_phase s' <> ACTIVE) ->
  (forall o a, accepted a -> g = TOOK o a -> g' = TOOK o a) -> (forall o a, accepted a -> g' = TOOK o a \/ g' = TABLED o a -> g' = g) -> (intaking g' = true -> c_phase s' = ACTIVE) -> J10 g' s'.
Proof.
  intros [A1 A2 A3 A4 A5 A6 A7 A8 A9 A10] Ho Hm Hk Hs Hn Hp G1 G2 G3. constructor; rewrite ?Hs, ?Hn, ?Ho.
  - exact A1.
  - intros f ids K. destruct (A2 f ids K) as [K1 K2]. split; [exact K1|]. intros id Hi. destruct (K2 id Hi) as (o & L1 & L2 & L3). destruct (same_get s' s id o (same_sym _ _ Hk) L1) as (o' & M1 & M2 & M3 & _). exists o'. rewrite M2, M3. auto.
  - intros id o' f K1 K2 K3. destruct (same_get s s' id o' Hk K1) as (o & M1 & M2 & M3 & _). apply (A3 id o f M1); congruence.
  - intros id o' K1 K2. rewrite calm_taken in K2 by exact Hm. destruct (same_get s s' id o' Hk K1) as (o & M1 & M2 & M3 & _). rewrite <- M3. destruct (A4 id o M1 K2) as [L|(o1 & a & L & La & L')]; [left; exact L|right]. exists o1, a. auto.
  - intros id o' K1 K2. rewrite calm_taken by exact Hm. destruct (same_get s s' id o' Hk K1) as (o & M1 & M2 & M3 & _). apply (A5 id o M1). congruence.
  - intros id o' K1 K2. rewrite calm_halted by exact Hm. destruct (same_get s s' id o' Hk K1) as (o & M1 & M2 & M3 & M4). assert (K3 : o_kind o = STREAM) by (unfold o_kind in *; rewrite M2; exact K2). destruct (A6 id o M1 K3) as [L1 L2]. destruct (class_state o K3) as [B1 B2]. destruct (class_state o' K2) as [C1 C2]. rewrite <- M4 in C1, C2. tauto.
  - intros id K. rewrite calm_halted in K by exact Hm. destruct (A7 id K) as [L1 [L2|L2]]; (split; [exact L1|]); [left|right; auto]. eapply taken_was; [exact Ho|exact L2].
  - intros o a K1 K2. rewrite calm_halted by exact Hm. pose proof (G2 o a K2 K1) as E. rewrite E in K1. apply (A8 o a K1 K2).
  - intros o a K1 K2. assert (E : g' = g) by (apply (G2 o a K2); auto). rewrite E in K1. destruct (A9 o a K1 K2) as (o' & L1 & L2). destruct (same_get s' s _ o' (same_sym _ _ Hk) L1) as (o2 & M1 & M2 & M3 & _). exists o2. split; [exact M1|congruence].
  - exact G3.
Qed.
Lemma same_ops s s' : c_ops s' = c_ops s -> same_sk s s'.
Proof. intros E id. unfold get_op. rewrite E. reflexivity. Qed.
Lemma same_trans s s1 s2 : same_sk s s1 -> same_sk s1 s2 -> same_sk s s2.
Proof. intros H1 H2 id. rewrite H2, H1. reflexivity. Qed.
Lemma same_upd id h s : (forall o, o_id (h o) = o_id o) -> (forall o, get_op id s = Some o -> sk (h o) = sk o) -> same_sk s (upd_op id h s).
Proof. intros H1 H2 i. rewrite get_op_upd by exact H1. destruct (N.eqb_spec i id) as [->|]; [|reflexivity]. destruct (get_op id s) as [o|]; [|reflexivity]. cbn [option_map]. rewrite H2; reflexivity. Qed.
Lemma unref_sk o : sk (unref o) = sk o.
Proof. unfold unref. destruct (o_refs o =? 1); reflexivity. Qed.
Ltac qs := first [apply same_ops; reflexivity|apply same_upd; [intros o1; first [apply unref_id|reflexivity]|intros o1 _; first [reflexivity|apply unref_sk]]].
Ltac qg := intros ? ? QA ; first [intros QG; discriminate QG|intros [QG|QG]; discriminate QG|intros QG; exact QG|intros _; reflexivity|intros QG; exfalso; injection QG as _ <-; destruct QA as [QA|QA]; intuition congruence].
Ltac qa := first [intros QG; discriminate QG|intros _; assumption|match goal with K : J10 _ _ |- _ => exact (k_active _ _ K) end].
Ltac qp := first [exact (fun h => h)|discriminate|intros _; discriminate].
Ltac qf m := eapply (j10_frame _ _ _ _ m); [eassumption|reflexivity|repeat constructor|qs|reflexivity|reflexivity|qp|qg|qg|qa].
Ltac qm m tac := eapply (j10_frame _ _ _ _ m); [eassumption|reflexivity|repeat constructor|tac|reflexivity|reflexivity|qp|qg|qg|qa].
Ltac q1 := match goal with |- J10 _ ?s' => let x := eval cbn [completed halted subscribing unsubscribing told activate_stream release upd_op upd_sub set_ops set_subs set_queue set_flights set_publishes set_events set_connected set_scheduled set_phase emit c_out] in (c_out s') in match x with ?y :: _ => qf [y] end end.
Lemma accepted_dec a : {accepted a} + {~ accepted a}.
Proof. unfold accepted. destruct a; (left; auto; fail) || (right; intros [K|K]; discriminate). Qed.
Lemma refuses_not cf k fs s a : refuses cf k fs s = Some a -> ~ accepted a.
Proof.
  unfold refuses, accepted. destruct fs; [intros [= <-] [K|K]; discriminate|]. destruct (existsb _ _); [intros [= <-] [K|K]; discriminate|]. destruct (existsb _ _); [intros [= <-] [K|K]; discriminate|]. destruct (_ =? 0); [discriminate|]. destruct k.
  - destruct (_ <? _); [intros [= <-] [K|K]; discriminate|discriminate].
  - destruct (_ <? _); [|discriminate]. destruct (_ <=? _); intros [= <-] [K|K]; discriminate.
Qed.
Lemma paths_phase l s : c_phase (fold_left add_path l s) = c_phase s.
Proof. revert s. induction l as [|p l IH]; intros s; [reflexivity|]. cbn [fold_left]. rewrite IH. unfold add_path. destruct (find_key _ _) as [[? ?]|]; reflexivity. Qed.
Lemma unpaths_phase l s : c_phase (fold_left drop_path l s) = c_phase s.
Proof. revert s. induction l as [|p l IH]; intros s; [reflexivity|]. cbn [fold_left]. rewrite IH. unfold drop_path. destruct (find_key _ _) as [[? ?]|]; reflexivity. Qed.
Lemma untabled_phase o s : c_phase (untabled o s) = c_phase s.
Proof. unfold untabled. destruct (o_work o); [|reflexivity]. destruct (o_tables o); [|reflexivity]. rewrite unpaths_phase. reflexivity. Qed.
Lemma in_find_some {B} k (v : B) l : NoDup (map fst l) -> In (k, v) l -> exists u, find_key k l = Some u.
Proof. intros H K. exists v. apply in_find_key; assumption. Qed.
Lemma NoDup_app_one {B} (x : B) l : NoDup l -> ~ In x l -> NoDup (l ++ [x]).
Proof. intros H Hn. apply (Permutation_NoDup (l := x :: l)); [apply Permutation_cons_append|constructor; assumption]. Qed.
Lemma J10_step cf g s g' s' : JB cf g s -> J9 cf g s -> J11 g s -> J10 g s -> big cf (g, s) (g', s') -> J10 g' s'.
Proof.
  intros HB H9 H11 J B. pose proof (jba _ _ _ HB) as HA. pose proof (ja2 _ _ _ HA) as HJ2. pose proof (ja5 _ _ _ HA) as HJ5. pose proof (ja6 _ _ _ HA) as HJ6. pose proof (jb7 _ _ _ HB) as HJ7. inversion B as [x y P|s0 Ha Hs|s0 Hp Ho He Hu]; subst.
  2: { qf [I_SHUTDOWN]. }
  2: { qf [O_TERMINATED]. }
  clear B. inversion P; subst; try solve [qf (@nil out)]; try solve [q1].
  - (* create *) match goal with H : valid_work w = true |- _ => rename H into Hv end. pose proof (create_get cf now w s Hv) as Hg. assert (Hnew : get_op (c_next s) s = None). { destruct (get_op (c_next s) s) as [x|] eqn:E; [|reflexivity]. apply (j2_next _ _ HJ2) in E. lia. }
    assert (Hold : forall id o, get_op id (create cf now w s) = Some o -> get_op id s = Some o \/ (id = c_next s /\ o = new_op cf now w s)). { intros id o. rewrite Hg. destruct (get_op id s) as [x|]; [auto|]. destruct (N.eqb_spec id (c_next s)); [|discriminate]. intros [= <-]. auto. }
    assert (Hkeep : forall id o, get_op id s = Some o -> get_op id (create cf now w s) = Some o) by (intros id o E; rewrite Hg, E; reflexivity).
    pose proof (j7_new _ _ HJ7 (c_next s) (N.le_refl _)) as (_ & _ & Ht0 & _). assert (Hnt : ~ taken_in (c_next s) (c_out s)). { intros (a & _ & K). assert (K2 : existsb (takes (c_next s)) (c_out s) = true) by (apply existsb_exists; eexists; split; [exact K|apply N.eqb_refl]). rewrite count_exists, Ht0 in K2. discriminate. }
    assert (Hnh : ~ halted_in (c_next s) (c_out s)) by (intros K; apply (k_halted _ _ J) in K as [K _]; lia).
    rewrite create_shape in * by exact Hv. destruct J as [A1 A2 A3 A4 A5 A6 A7 A8 A9 A10]. constructor; try discriminate; cbn [emit set_next set_ops c_streams c_out c_next c_phase].
    + exact A1.
    + intros f ids K. destruct (A2 f ids K) as [K1 K2]. split; [exact K1|]. intros id Hi. destruct (K2 id Hi) as (o & L1 & L2). exists o. split; [apply Hkeep; exact L1|exact L2].
    + intros id o f K1 K2 K3. apply Hold in K1 as [K1|[-> ->]]; [eapply A3; eassumption|discriminate].
    + intros id o K1 K2. change (taken_in id ([I_OPERATION (c_next s) w (o_deadline (new_op cf now w s))] ++ c_out s)) in K2. rewrite calm_taken in K2 by repeat constructor. apply Hold in K1 as [K1|[-> ->]]; [eapply A4; eassumption|destruct (Hnt K2)].
    + intros id o K1 K2. change (taken_in id ([I_OPERATION (c_next s) w (o_deadline (new_op cf now w s))] ++ c_out s)). rewrite calm_taken by repeat constructor. apply Hold in K1 as [K1|[-> ->]]; [eapply A5; eassumption|discriminate].
    + intros id o K1 K2. change (halted_in id (I_OPERATION (c_next s) w (o_deadline (new_op cf now w s)) :: c_out s)) with (halted_in id ([I_OPERATION (c_next s) w (o_deadline (new_op cf now w s))] ++ c_out s)). rewrite calm_halted by repeat constructor. apply Hold in K1 as [K1|[-> ->]]; [eapply A6; eassumption|]. split; [discriminate|]. split; [discriminate|tauto].
    + intros id K. change (halted_in id ([I_OPERATION (c_next s) w (o_deadline (new_op cf now w s))] ++ c_out s)) in K. rewrite calm_halted in K by repeat constructor. destruct (A7 id K) as [L1 L2]. split; [lia|exact L2].
    + intros o a [K|K]; discriminate.
  - (* activate *) qm [I_ACTIVATE id] ltac:(apply (same_upd id (fun o => set_submitting true (set_refs (o_refs o + 1) (set_activated true o))) s); [reflexivity|intros; reflexivity]).
  - (* close *) qm [I_CLOSE id] ltac:(eapply same_trans; [apply (same_upd id (set_open false) s); [reflexivity|intros; reflexivity]|apply (same_upd id unref (upd_op id (set_open false) s)); [apply unref_id|intros; apply unref_sk]]).
  - (* submitted *) match goal with H : get_op id s = Some o |- _ => rename H into Ho end. match goal with H : o_submitting o = true |- _ => rename H into Hsb end. match goal with H : c_phase s = ACTIVE |- _ => rename H into Hac end.
    pose proof (j7_live _ _ HJ7 _ _ Ho) as L. destruct (l_sub _ _ _ _ _ _ _ _ L Hsb) as [Htr _]. destruct (l_fresh _ _ _ _ _ _ _ _ L Htr) as (Hi0 & _).
    assert (Hnh : ~ halted_in id (c_out s)). { intros K. destruct (k_halted _ _ J id K) as [_ [K'|K']]; [unfold was_taken in K'; rewrite count_exists, Hi0 in K'; discriminate|contradiction]. }
    assert (Hcl : class o = 0). { unfold class. destruct (o_kind o) eqn:Ek; [reflexivity|]. destruct (k_state _ _ J id o Ho Ek) as [K1 K2]. destruct (o_state o); try reflexivity; [congruence|destruct (Hnh (proj1 K2 eq_refl))]. }
    destruct (submitted_is id now s) as [n ->]. qm [I_QUEUED id] ltac:(idtac). set (s1 := upd_op id (set_submitting false) s). set (h := fun o => set_timed _ _). set (s2 := upd_op id h s1).
    apply (same_trans _ s1); [apply (same_upd id (set_submitting false) s); [reflexivity|intros; reflexivity]|]. apply (same_trans _ s2); [apply (same_upd id h s1); [reflexivity|intros; reflexivity]|]. apply (same_trans _ (upd_op id (set_state S_QUEUED) s2)); [|apply (same_upd id unref (upd_op id (set_state S_QUEUED) s2)); [apply unref_id|intros; apply unref_sk]].
    apply (same_upd id (set_state S_QUEUED) s2); [reflexivity|]. intros o1 Ho1. unfold s2, s1 in Ho1. rewrite !get_op_upd_same, Ho in Ho1 by reflexivity. injection Ho1 as <-. unfold sk. change (class (h (set_submitting false o))) with (class o). rewrite Hcl. unfold class. change (o_kind (set_state S_QUEUED (h (set_submitting false o)))) with (o_kind o). cbn [o_state set_state]. destruct (o_kind o); reflexivity.
  - (* timeout *) match goal with H : earliest _ = Some _ |- _ => rename H into He end. pose proof (earliest_spec (c_ops s)) as Hsp. rewrite He in Hsp. destruct Hsp as (Hin & Htd & _). pose proof (in_get_op _ _ (j2_ids _ _ HJ2) Hin) as Ho. pose proof (j9_timed _ _ _ H9) as Ht. rewrite Forall_forall in Ht. pose proof (proj1 (Ht _ Hin) Htd) as Hk.
    set (s1 := upd_op (o_id o) (set_timed false) s). assert (S1 : same_sk s s1) by (apply same_upd; [reflexivity|intros; reflexivity]).
    unfold fail. unfold s1 at 1. rewrite get_op_upd_same, Ho by reflexivity. cbn [option_map]. change (o_kind (set_timed false o)) with (o_kind o). rewrite Hk. unfold complete. change (o_kind (set_timed false o)) with (o_kind o). rewrite Hk. destruct (state_is _ _).
    + qm (@nil out) ltac:(exact S1).
    + qm [O_COMPLETE (o_id o) (FAILED E_TIMEOUT)] ltac:(idtac). apply (same_trans _ s1 _ S1). change (o_id (set_timed false o)) with (o_id o).
      apply (same_trans _ (upd_op (o_id o) (set_state S_PENDING_DESTROY) s1)); [|apply (same_upd (o_id o) unref (upd_op (o_id o) (set_state S_PENDING_DESTROY) s1)); [apply unref_id|intros; apply unref_sk]].
      apply same_upd; [reflexivity|]. intros o1 Ho1. unfold s1 in Ho1. rewrite get_op_upd_same, Ho in Ho1 by reflexivity. injection Ho1 as <-. unfold sk, class. change (o_kind (set_state S_PENDING_DESTROY (set_timed false o))) with (o_kind o). change (o_kind (set_timed false o)) with (o_kind o). rewrite Hk. reflexivity.
  - (* refuse *) match goal with H : refuses _ _ _ _ = Some _ |- _ => rename H into Hr end. assert (Hna : ~ accepted a) by (apply (refuses_not cf (o_kind o) (o_filters o) s); exact Hr).
    eapply (j10_frame _ _ _ _ [O_INTAKE id a]); [eassumption|reflexivity|constructor; [exact Hna|constructor]|qs|reflexivity|reflexivity|qp|qg| |qa]. intros o1 a1 Ha1 [K|K]; [injection K as _ <-; contradiction|discriminate].
  - (* listen *) eapply (j10_frame _ _ _ _ []); [eassumption|unfold listen; destruct (get_sub f s); reflexivity|constructor|apply same_ops; unfold listen; destruct (get_sub f s); reflexivity|unfold listen; destruct (get_sub f s); reflexivity|unfold listen; destruct (get_sub f s); reflexivity|unfold listen; destruct (get_sub f s); exact (fun h => h)|qg|qg|].
    intros _. unfold listen; destruct (get_sub f s); assumption.
  - (* took *) match goal with H : c_phase s = ACTIVE |- _ => rename H into Hac end. destruct (j2_ghost _ _ HJ2 o eq_refl) as (oo & Hoo & Hww). destruct (j7_head _ _ HJ7 o [] eq_refl) as [qq Hq]. pose proof (j7_live _ _ HJ7 _ _ Hoo) as L. destruct (l_queue _ _ _ _ _ _ _ _ L) as [Hi0 _]; [rewrite Hq; left; reflexivity|].
    assert (Hnt : existsb (takes (o_id o)) (c_out s) = false) by (rewrite count_exists, Hi0; reflexivity).
    assert (Hnk : ~ taken_in (o_id o) (c_out s)). { intros (a1 & _ & K). assert (K2 : existsb (takes (o_id o)) (c_out s) = true) by (apply existsb_exists; eexists; split; [exact K|apply N.eqb_refl]). congruence. }
    assert (Hnh : ~ halted_in (o_id o) (c_out s)). { intros K. destruct (k_halted _ _ J _ K) as [_ [K'|K']]; [unfold was_taken in K'; congruence|contradiction]. }
    assert (Htf : o_tables oo = false). { destruct (o_tables oo) eqn:E; [|reflexivity]. destruct (Hnk (k_tables _ _ J _ _ Hoo E)). }
    destruct (accepted_dec a) as [Ha|Ha].
    + destruct J as [A1 A2 A3 A4 A5 A6 A7 A8 A9 A10]. constructor; cbn [emit set_queue c_streams c_out c_next c_phase].
      * exact A1.
      * exact A2.
      * exact A3.
      * intros id o1 K1 (a1 & Ha1 & [K2|K2]); [injection K2 as <- <-; right; exists o, a; auto|]. destruct (A4 id o1 K1) as [K|(o2 & a2 & K & _)]; [exists a1; auto|left; exact K|discriminate].
      * intros id o1 K1 K2. destruct (A5 id o1 K1 K2) as (a1 & Ha1 & K). exists a1. split; [exact Ha1|right; exact K].
      * intros id o1 K1 K2. destruct (A6 id o1 K1 K2) as [L1 L2]. split; [exact L1|]. rewrite L2. split; intros [e K]; exists e; [right; exact K|destruct K as [K|K]; [discriminate|exact K]].
      * intros id (e & [K|K]); [discriminate|]. destruct (A7 id (ex_intro _ e K)) as [L1 [L2|L2]]; (split; [exact L1|]); [left|right; exact L2]. unfold was_taken in *. cbn [emit c_out existsb]. change (c_out (set_queue (tl (c_queue s)) s)) with (c_out s). rewrite L2. apply orb_true_r.
      * intros o1 a1 K1 K2 [e K]. assert (E : o1 = o) by (destruct K1 as [K1|K1]; [injection K1 as <- <-; reflexivity|discriminate]). subst o1. destruct K as [K|K]; [discriminate|]. apply Hnh. exists e. exact K.
      * intros o1 a1 [= <- <-] _. exists oo. auto.
      * intros _. exact Hac.
    + eapply (j10_frame _ _ _ _ [O_INTAKE (o_id o) a]); [eassumption|reflexivity|constructor; [exact Ha|constructor]|qs|reflexivity|reflexivity|qp|qg| |qa]. intros o1 a1 Ha1 [K|K]; [injection K as _ <-; contradiction|discriminate].
  - (* tables *) match goal with H : a = A_SUBSCRIBING \/ a = A_SUBSCRIBED |- _ => rename H into Hacc end. match goal with H : c_phase s = ACTIVE |- _ => rename H into Hac end. destruct (add_tables_frame o s) as (F1 & F2 & F3 & F4 & F5 & F6 & F7 & F8). destruct (k_took _ _ J o a eq_refl Hacc) as (oo & Hoo & Htf). pose proof (k_ghost _ _ J o a (or_introl eq_refl) Hacc) as Hnh.
    destruct (j2_ghost _ _ HJ2 o eq_refl) as (o9 & Ho9 & Hww). rewrite Hoo in Ho9. injection Ho9 as <-.
    assert (Hg : forall i, get_op i (add_tables o s) = if i =? o_id o then option_map (set_tables true) (get_op i s) else get_op i s). { intros i. unfold add_tables. rewrite get_op_upd by reflexivity. assert (E : forall s1, c_ops s1 = c_ops s -> get_op i s1 = get_op i s) by (intros s1 E; unfold get_op; rewrite E; reflexivity). destruct (o_work o) as [r|f]; [rewrite (E (set_tokens _ _)) by (cbn [set_tokens c_ops]; apply paths_ops)|rewrite (E (set_streams _ _)) by reflexivity]; reflexivity. }
    assert (Hold : forall id o1, get_op id (add_tables o s) = Some o1 -> exists o0, get_op id s = Some o0 /\ o_work o0 = o_work o1 /\ o_state o0 = o_state o1 /\ (o_tables o1 = true -> o_tables o0 = true \/ id = o_id o) /\ (o_tables o0 = true -> o_tables o1 = true) /\ (id = o_id o -> o_tables o1 = true)).
    { intros id o1. rewrite Hg. destruct (N.eqb_spec id (o_id o)) as [->|Hne]; [rewrite Hoo; cbn [option_map]; intros [= <-]; exists oo; repeat split; auto|]. intros K. exists o1. repeat split; auto; contradiction. }
    assert (Hkeep : forall id o0, get_op id s = Some o0 -> exists o1, get_op id (add_tables o s) = Some o1 /\ o_work o1 = o_work o0 /\ (o_tables o0 = true -> o_tables o1 = true)).
    { intros id o0 K. rewrite Hg, K. destruct (id =? o_id o); [exists (set_tables true o0)|exists o0]; auto. }
    assert (Hph : c_phase (add_tables o s) = c_phase s). { unfold add_tables. destruct (o_work o); [|reflexivity]. cbn [upd_op set_ops set_tokens c_phase]. apply paths_phase. }
    assert (Htk : taken_in (o_id o) (c_out s)). { exists a. split; [exact Hacc|]. pose proof (j9_about _ _ _ H9) as A. cbn [about_ok] in A. destruct A as (_ & A & _). unfold trace in A. rewrite <- in_rev in A. exact A. }
    destruct J as [A1 A2 A3 A4 A5 A6 A7 A8 A9 A10].
    assert (Hst : c_streams (add_tables o s) = match o_work o with W_REQUEST _ => c_streams s | W_STREAM f => match find_key f (c_streams s) with Some _ => map (fun e => if bytes_eqb f (fst e) then (fst e, snd e ++ [o_id o]) else e) (c_streams s) | None => c_streams s ++ [(f, [o_id o])] end end).
    { unfold add_tables. destruct (o_work o); [|reflexivity]. cbn [upd_op set_ops set_tokens c_streams]. apply paths_streams. }
    assert (Hnin : forall f ids, In (f, ids) (c_streams s) -> ~ In (o_id o) ids). { intros f ids K1 K2. destruct (A2 f ids K1) as [_ K3]. destruct (K3 _ K2) as (o1 & L1 & _ & L3). rewrite Hoo in L1. injection L1 as <-. congruence. }
    constructor; rewrite ?Hst, ?F8, ?F2, ?Hph.
    + destruct (o_work o) as [r|f]; [exact A1|]. destruct (find_key f (c_streams s)) as [l|] eqn:E.
      * rewrite map_map. rewrite (map_ext _ fst); [exact A1|]. intros [f1 l1]. destruct (bytes_eqb f _); reflexivity.
      * rewrite map_app. cbn [map fst]. apply NoDup_app_one; [exact A1|]. intros K. apply in_map_iff in K as ([f1 l1] & E1 & K). cbn [fst] in E1. subst f1. destruct (in_find_some f l1 _ A1 K). congruence.
    + intros f ids K. assert (Hc : In (f, ids) (c_streams s) \/ (o_work o = W_STREAM f /\ ((exists l, In (f, l) (c_streams s) /\ ids = l ++ [o_id o]) \/ ids = [o_id o]))).
      { destruct (o_work o) as [r|f1]; [auto|]. destruct (find_key f1 (c_streams s)) as [l|] eqn:E.
        - apply in_map_iff in K as ([f2 l2] & E2 & K). cbn [fst snd] in E2. destruct (bytes_eqb f1 f2) eqn:E3; injection E2 as <- <-; [|auto]. apply bytes_eqb_spec in E3. subst f2. right. split; [reflexivity|]. left. exists l2. auto.
        - apply in_app_or in K as [K|[K|[]]]; [auto|]. injection K as <- <-. right. auto. }
      assert (Hme : o_work o = W_STREAM f -> exists o1, get_op (o_id o) (add_tables o s) = Some o1 /\ o_work o1 = W_STREAM f /\ o_tables o1 = true). { intros E. rewrite Hg, N.eqb_refl, Hoo. exists (set_tables true oo). split; [reflexivity|]. split; [change (o_work oo = W_STREAM f); congruence|reflexivity]. }
      destruct Hc as [Hc|[Hw [(l & Hc & ->)| ->]]].
      * destruct (A2 f ids Hc) as [K1 K2]. split; [exact K1|]. intros id Hi. destruct (K2 id Hi) as (o0 & L1 & L2 & L3). destruct (Hkeep id o0 L1) as (o1 & M1 & M2 & M3). exists o1. split; [exact M1|]. split; [congruence|auto].
      * destruct (A2 f l Hc) as [K1 K2]. split; [apply NoDup_app_one; [exact K1|apply (Hnin f l Hc)]|]. intros id Hi. apply in_app_or in Hi as [Hi|[<-|[]]]; [|apply Hme; exact Hw]. destruct (K2 id Hi) as (o0 & L1 & L2 & L3). destruct (Hkeep id o0 L1) as (o1 & M1 & M2 & M3). exists o1. split; [exact M1|]. split; [congruence|auto].
      * split; [constructor; [intros []|constructor]|]. intros id [<-|[]]. apply Hme. exact Hw.
    + intros id o1 f K1 K2 K3. destruct (Hold id o1 K1) as (o0 & L1 & L2 & L3 & L4 & L5 & L6).
      assert (Hex : (exists ids, In (f, ids) (c_streams s) /\ In id ids) \/ (id = o_id o /\ o_work o = W_STREAM f)). { destruct (L4 K3) as [L4'| ->]; [left; apply (A3 id o0 f L1); congruence|right]. split; [reflexivity|]. rewrite Hoo in L1. injection L1 as <-. congruence. }
      destruct Hex as [(ids & M1 & M2)|[-> Hw]].
      * destruct (o_work o) as [r|f1]; [eauto|]. destruct (find_key f1 (c_streams s)) as [l|] eqn:E; [|exists ids; split; [apply in_or_app; left; exact M1|exact M2]]. destruct (bytes_eqb f1 f) eqn:E3.
        -- exists (ids ++ [o_id o]). split; [|apply in_or_app; left; exact M2]. apply in_map_iff. exists (f, ids). cbn [fst snd]. rewrite E3. auto.
        -- exists ids. split; [|exact M2]. apply in_map_iff. exists (f, ids). cbn [fst snd]. rewrite E3. auto.
      * rewrite Hw. destruct (find_key f (c_streams s)) as [l|] eqn:E.
        -- apply find_key_in in E. exists (l ++ [o_id o]). split; [|apply in_or_app; right; left; reflexivity]. apply in_map_iff. exists (f, l). cbn [fst snd]. rewrite bytes_eqb_refl. auto.
        -- exists [o_id o]. split; [apply in_or_app; right; left; reflexivity|left; reflexivity].
    + intros id o1 K1 K2. left. destruct (Hold id o1 K1) as (o0 & L1 & L2 & L3 & L4 & L5 & L6). destruct (A4 id o0 L1 K2) as [K|(o2 & a2 & [= <- <-] & _ & K)]; auto.
    + intros id o1 K1 K2. destruct (Hold id o1 K1) as (o0 & L1 & L2 & L3 & L4 & L5 & L6). destruct (L4 K2) as [K| ->]; [eapply A5; eassumption|exact Htk].
    + intros id o1 K1 K2. destruct (Hold id o1 K1) as (o0 & L1 & L2 & L3 & L4 & L5 & L6). rewrite <- L3. apply (A6 id o0 L1). unfold o_kind in *. rewrite L2. exact K2.
    + intros id K. destruct (A7 id K) as [L1 L2]. split; [exact L1|]. unfold was_taken in *. rewrite F8. exact L2.
    + intros o1 a1 [K|K] _; [discriminate|]. injection K as <- <-. exact Hnh.
    + discriminate.
    + intros _. exact Hac.
  - (* wait *) pose proof (k_ghost _ _ J o A_SUBSCRIBING (or_intror eq_refl) (or_introl eq_refl)) as Hnh. qm (@nil out) ltac:(apply same_upd; [reflexivity|]). intros o1 Ho1. unfold sk, class. change (o_kind (set_state S_PENDING_SUBSCRIPTION o1)) with (o_kind o1). cbn [o_state set_state o_work o_tables]. destruct (o_kind o1) eqn:Ek; [reflexivity|].
    destruct (k_state _ _ J _ o1 Ho1 Ek) as [K1 K2]. destruct (o_state o1); try reflexivity; [congruence|destruct (Hnh (proj1 K2 eq_refl))].
  - (* stream *) pose proof (k_ghost _ _ J o A_SUBSCRIBED (or_intror eq_refl) (or_intror eq_refl)) as Hnh. qm [O_STATUS (o_id o) S_ESTABLISHED] ltac:(apply (same_upd (o_id o) (set_state S_SUBSCRIBED) s); [reflexivity|]). intros o1 Ho1. unfold sk, class. change (o_kind (set_state S_SUBSCRIBED o1)) with (o_kind o1). cbn [o_state set_state o_work o_tables]. destruct (o_kind o1) eqn:Ek; [reflexivity|].
    destruct (k_state _ _ J _ o1 Ho1 Ek) as [K1 K2]. destruct (o_state o1); try reflexivity; [congruence|destruct (Hnh (proj1 K2 eq_refl))].
  - (* completed *) match goal with H : get_op (o_id o) s = Some o |- _ => rename H into Ho end. match goal with H : o_kind o = REQUEST |- _ => rename H into Hk end. qm [O_COMPLETE (o_id o) r] ltac:(idtac).
    apply (same_trans _ (upd_op (o_id o) (set_state S_PENDING_DESTROY) s)); [|apply (same_upd (o_id o) unref (upd_op (o_id o) (set_state S_PENDING_DESTROY) s)); [apply unref_id|intros; apply unref_sk]].
    apply same_upd; [reflexivity|]. intros o1 Ho1. rewrite Ho in Ho1. injection Ho1 as <-. unfold sk, class. change (o_kind (set_state S_PENDING_DESTROY o)) with (o_kind o). rewrite Hk. reflexivity.
  - (* halted *) match goal with H : get_op (o_id o) s = Some o |- _ => rename H into Ho end. match goal with H : o_kind o = STREAM |- _ => rename H into Hk end. match goal with H : halt_cause _ _ _ |- _ => rename H into Hc end.
    assert (Hknown : was_taken (o_id o) s \/ c_phase s <> ACTIVE).
    { inversion Hc; subst.
      - left. pose proof (j9_about _ _ _ H9) as A. cbn [about_ok] in A. destruct A as (_ & A & _). unfold trace in A. rewrite <- in_rev in A. unfold was_taken. apply existsb_exists. eexists. split; [exact A|]. cbn [takes]. apply N.eqb_eq. assumption.
      - destruct (j11_events _ _ H11 _ _ _ (or_introl eq_refl)) as [K|(o1 & rest & K & _)]; [discriminate|left; exact K|discriminate].
      - right. pose proof (j9_about _ _ _ H9) as A. cbn [about_ok] in A. intros K. apply (proj1 HJ6) in K. unfold trace in A. rewrite <- in_rev in A. contradiction.
      - right. pose proof (j9_about _ _ _ H9) as A. cbn [about_ok] in A. intros K. apply (proj1 HJ6) in K. unfold trace in A. rewrite <- in_rev in A. contradiction. }
    assert (Hga : forall o1 a1, g' = TOOK o1 a1 \/ g' = TABLED o1 a1 -> accepted a1 -> False). { intros o1 a1 [K|K] Ka; subst g'; inversion Hc; subst. match goal with H : refusal _ _ |- _ => destruct H as [[-> _]|[-> _]]; destruct Ka; discriminate end. }
    assert (Hg : forall i, get_op i (halted o e s) = if i =? o_id o then Some (set_state S_TERMINAL o) else get_op i s). { intros i. unfold halted. rewrite get_op_upd by reflexivity. change (get_op i (emit (O_STATUS (o_id o) (S_HALTED e)) s)) with (get_op i s). destruct (N.eqb_spec i (o_id o)) as [->|]; [rewrite Ho|]; reflexivity. }
    assert (Hold : forall id o1, get_op id (halted o e s) = Some o1 -> exists o0, get_op id s = Some o0 /\ o_work o0 = o_work o1 /\ o_tables o0 = o_tables o1 /\ (id <> o_id o -> o0 = o1) /\ (id = o_id o -> o_state o1 = S_TERMINAL)). { intros id o1. rewrite Hg. destruct (N.eqb_spec id (o_id o)) as [->|Hne]; [intros [= <-]; exists o; repeat split; auto; contradiction|]. intros K. exists o1. repeat split; auto; contradiction. }
    assert (Htk : forall id, taken_in id (c_out (halted o e s)) <-> taken_in id (c_out s)). { intros id. cbn [halted upd_op set_ops emit c_out]. split; intros (a & Ha & K); exists a; (split; [exact Ha|]); [destruct K as [K|K]; [discriminate|exact K]|right; exact K]. }
    assert (Hhl : forall id, halted_in id (c_out (halted o e s)) <-> halted_in id (c_out s) \/ id = o_id o). { intros id. cbn [halted upd_op set_ops emit c_out]. split; [intros (e1 & [K|K]); [injection K as <- _; auto|left; exists e1; exact K]|]. intros [[e1 K]| ->]; [exists e1; right; exact K|exists e; left; reflexivity]. }
    destruct J as [A1 A2 A3 A4 A5 A6 A7 A8 A9 A10]. constructor.
    + exact A1.
    + intros f ids K. destruct (A2 f ids K) as [K1 K2]. split; [exact K1|]. intros id Hi. destruct (K2 id Hi) as (o0 & L1 & L2 & L3). rewrite Hg. destruct (N.eqb_spec id (o_id o)) as [->|]; [|eauto]. rewrite Ho in L1. injection L1 as <-. exists (set_state S_TERMINAL o). auto.
    + intros id o1 f K1 K2 K3. destruct (Hold id o1 K1) as (o0 & L1 & L2 & L3 & _). apply (A3 id o0 f L1); congruence.
    + intros id o1 K1 K2. rewrite Htk in K2. destruct (Hold id o1 K1) as (o0 & L1 & L2 & L3 & _). rewrite <- L3. apply (A4 id o0 L1 K2).
    + intros id o1 K1 K2. rewrite Htk. destruct (Hold id o1 K1) as (o0 & L1 & L2 & L3 & _). apply (A5 id o0 L1). congruence.
    + intros id o1 K1 K2. rewrite Hhl. destruct (Hold id o1 K1) as (o0 & L1 & L2 & L3 & L4 & L5). destruct (N.eq_dec id (o_id o)) as [E|E]; [rewrite (L5 E); split; [discriminate|tauto]|]. rewrite <- (L4 E) in *. destruct (A6 id o0 L1 K2) as [M1 M2]. split; [exact M1|tauto].
    + intros id K. rewrite Hhl in K. assert (Hwt : was_taken id s -> was_taken id (halted o e s)) by (unfold was_taken; intros E; cbn [halted upd_op set_ops emit c_out existsb]; rewrite E; apply orb_true_r). destruct K as [K| ->].
      * destruct (A7 id K) as [L1 [L2|L2]]; (split; [exact L1|]); [left; auto|right; exact L2].
      * split; [apply (j2_next _ _ HJ2 _ _ Ho)|]. destruct Hknown as [K|K]; [left; auto|right; exact K].
    + intros o1 a1 K1 K2. destruct (Hga o1 a1 K1 K2).
    + intros o1 a1 K1 K2. destruct (Hga o1 a1 (or_introl K1) K2).
    + exact A10.
  - (* wake *) destruct (wake_is now s) as [n ->]. qf (@nil out).
  - (* ready *) match goal with H : get_op id s = Some o |- _ => rename H into Ho end. destruct (j2_events _ _ HJ2 _ _ _ REQUEST (or_introl eq_refl) eq_refl) as [_ Hk]. specialize (Hk o Ho). qm (@nil out) ltac:(idtac).
    apply (same_trans _ (upd_op id (set_pending 0) s)); [apply same_upd; [reflexivity|intros; reflexivity]|]. apply same_upd; [reflexivity|]. intros o1 Ho1. rewrite get_op_upd_same, Ho in Ho1 by reflexivity. injection Ho1 as <-. unfold sk, class. change (o_kind (set_state S_PENDING_RESPONSE (set_pending 0 o))) with (o_kind o). change (o_kind (set_pending 0 o)) with (o_kind o). rewrite Hk. reflexivity.
  - (* established *) match goal with H : get_op id s = Some o |- _ => rename H into Ho end. clear P. destruct (o_state o) eqn:Est; try qf [O_STATUS id S_ESTABLISHED]. qm [O_STATUS id S_ESTABLISHED] ltac:(apply (same_upd id (set_state S_SUBSCRIBED) s); [reflexivity|]). intros o1 Ho1. rewrite Ho in Ho1. injection Ho1 as <-. unfold sk, class. rewrite Est. reflexivity.
  - (* acked *) eapply (j10_frame _ _ _ _ [_]); [eassumption|reflexivity|constructor; [destruct b; exact I|constructor]|qs|reflexivity|reflexivity|qp|qg|qg|qa].
  - (* message *) rewrite streamed_exact. eapply (j10_frame _ _ _ _ (messages topic payload (filter (listening (emit (I_MESSAGE topic payload j) s)) (recipients topic (emit (I_MESSAGE topic payload j) s))) ++ [I_MESSAGE topic payload j])); [eassumption|cbn [emits emit c_out]; rewrite <- app_assoc; reflexivity| |qs|reflexivity|reflexivity|qp|qg|qg|qa].
    apply Forall_app. split; [|repeat constructor]. unfold messages. rewrite Forall_forall. intros x Hx. rewrite <- in_rev in Hx. apply in_map_iff in Hx as (i & <- & _). exact I.
  - (* leave *) match goal with H : get_op id s = Some o |- _ => rename H into Ho end. pose proof (get_op_id _ _ _ Ho) as Hid. subst id.
    assert (Hg : forall i, get_op i (left o s) = if i =? o_id o then None else get_op i s). { intros i. unfold left. change (get_op i (set_streams _ _)) with (find (has_id i) (filter (fun x => negb (has_id (o_id o) x)) (c_ops s))). unfold get_op. destruct (N.eqb_spec i (o_id o)) as [->|Hne].
      - apply find_filter_none. intros x Hx. rewrite Hx. reflexivity.
      - apply find_filter. intros x _ Hx. apply has_id_spec in Hx. destruct (has_id (o_id o) x) eqn:E; [|reflexivity]. apply has_id_spec in E. congruence. }
    destruct J as [A1 A2 A3 A4 A5 A6 A7 A8 A9 A10]. constructor; try discriminate.
    + unfold left. cbn [set_streams c_streams set_queue set_ops]. rewrite map_map. cbn [fst]. exact A1.
    + intros f ids K. unfold left in K. cbn [set_streams c_streams set_queue set_ops] in K. apply in_map_iff in K as ([f1 ids1] & [= <- <-] & K). destruct (A2 f1 ids1 K) as [K1 K2]. split; [apply NoDup_filter; exact K1|]. intros i Hi. apply filter_In in Hi as [Hi Hne]. rewrite Hg. rewrite N.eqb_sym. destruct (N.eqb_spec (o_id o) i); [discriminate|]. apply K2. exact Hi.
    + intros i o1 f. rewrite Hg. destruct (N.eqb_spec i (o_id o)) as [|Hne]; [discriminate|]. intros K1 K2 K3. destruct (A3 i o1 f K1 K2 K3) as (ids & L1 & L2). exists (filter (fun i => negb (N.eqb (o_id o) i)) ids). split.
      * unfold left. cbn [set_streams c_streams set_queue set_ops]. apply in_map_iff. exists (f, ids). auto.
      * apply filter_In. split; [exact L2|]. destruct (N.eqb_spec (o_id o) i); [congruence|reflexivity].
    + intros i o1. rewrite Hg. destruct (N.eqb_spec i (o_id o)) as [|Hne]; [discriminate|]. intros K1 K2. destruct (A4 i o1 K1 K2) as [K|(o2 & a2 & K & _)]; [left; exact K|discriminate].
    + intros i o1. rewrite Hg. destruct (N.eqb_spec i (o_id o)) as [|Hne]; [discriminate|]. apply A5.
    + intros i o1. rewrite Hg. destruct (N.eqb_spec i (o_id o)) as [|Hne]; [discriminate|]. apply A6.
    + exact A7.
    + intros o1 a1 [K|K]; discriminate.
  - (* unlisten *) assert (E : exists l cr, (c_ops (unlisten (o_id o) s f), c_streams (unlisten (o_id o) s f), c_next (unlisten (o_id o) s f), c_phase (unlisten (o_id o) s f), c_out (unlisten (o_id o) s f)) = (c_ops s, c_streams s, c_next s, c_phase s, c_out s) /\ l = @nil N /\ cr = true).
    { exists [], true. split; [|auto]. unfold unlisten, status. destruct (get_sub f s); [|reflexivity]. destruct (filter _ _); [|reflexivity]. destruct (active _); reflexivity. }
    destruct E as (_ & _ & E & _). injection E as E1 E2 E3 E4 E5. eapply (j10_frame _ _ _ _ []); [eassumption|exact E5|constructor|apply same_ops; exact E1|exact E2|exact E3|rewrite E4; exact (fun h => h)|qg|qg|qa].
  - (* gone *) destruct (untabled_frame o s) as (F1 & F2 & F3 & F4 & F5 & F6 & F7 & F8 & F9 & F10).
    eapply (j10_frame _ _ _ _ [O_GONE (o_id o)]); [eassumption|cbn [emit c_out]; rewrite F8; reflexivity|repeat constructor|apply same_ops; exact F9|exact F10|exact F2| |qg|qg|qa].
    cbn [emit c_phase]. rewrite untabled_phase. exact (fun h => h).
  - (* swap ops *) eapply (j10_frame _ _ _ _ []); [eassumption|reflexivity|constructor| |reflexivity|reflexivity|qp|qg|qg|qa]. intros i. rewrite get_perm_op; [reflexivity|exact (j2_ids _ _ HJ2)|assumption].
  - (* swap streams *) match goal with H : Permutation l _ |- _ => rename H into Hp end. destruct J as [A1 A2 A3 A4 A5 A6 A7 A8 A9 A10]. constructor; try assumption; cbn [set_streams c_streams].
    + eapply Permutation_NoDup; [apply Permutation_map, Permutation_sym; exact Hp|exact A1].
    + intros f ids K. apply (A2 f ids). eapply Permutation_in; [exact Hp|exact K].
    + intros id o f K1 K2 K3. destruct (A3 id o f K1 K2 K3) as (ids & L1 & L2). exists ids. split; [|exact L2]. eapply Permutation_in; [apply Permutation_sym; exact Hp|exact L1].
Qed.
Lemma J10_new connected : J10 IDLE (client_new connected).
Proof.
  constructor; cbn.
  - constructor.
  - intros ? ? [].
  - discriminate.
  - discriminate.
  - discriminate.
  - discriminate.
  - intros id [e []].
  - intros ? ? [K|K]; discriminate.
  - discriminate.
  - discriminate.
Qed.

(** ** All together *)
Record JC (cf : config) (g : ghost) (s : client) : Prop := { jcb : JB cf g s; jc9 : J9 cf g s; jc11 : J11 g s; jc10 : J10 g s }.
Lemma J9_new cf connected : J9 cf IDLE (client_new connected).
Proof.
  constructor.
  - intros ? ? ? [].
  - discriminate.
  - constructor; [discriminate|discriminate|intros ? ? ? []].
  - constructor.
  - exact I.
  - intros tr1 x tr2 K. destruct tr1; discriminate.
Qed.
Lemma JC_step cf : cf_ok cf -> forall g s g' s', JC cf g s -> big cf (g, s) (g', s') -> JC cf g' s'.
Proof.
  intros Hc g s g' s' [HB H9 H11 H10] B. constructor.
  - eapply JB_step; eassumption.
  - eapply J9_step; [exact (jba _ _ _ HB)|exact H9|exact B].
  - eapply J11_step; [exact (jba _ _ _ HB)|exact H11|exact B].
  - eapply J10_step; eassumption.
Qed.
Lemma JC_history cf connected l : cf_ok cf -> JC cf IDLE (history cf connected l).
Proof. intros Hc. apply (history_inv cf (JC cf)); [constructor; [apply JB_new|apply J9_new|apply J11_new|apply J10_new]|apply JC_step; assumption]. Qed.
Lemma reasons cf connected l tr1 x tr2 : cf_ok cf -> trace (history cf connected l) = tr1 ++ x :: tr2 -> has_reason cf tr1 x.
Proof. intros Hc H. exact (j9_all _ _ _ (jc9 _ _ _ (JC_history cf connected l Hc)) _ _ _ H). Qed.

(** ** Who gets a message *)
Lemma lm_plain fs ts : ~ In [35] fs -> ~ In [43] fs -> SubSet_Spec.levels_match fs ts -> fs = ts.
Proof. intros H1 H2 H. induction H; [reflexivity| | |]; cbn in *; [tauto|tauto|]. f_equal. apply IHlevels_match; tauto. Qed.
Lemma plain_levels c f : ~ In c f -> ~ In [c] (split 47 f).
Proof. intros H K. destruct (N.eq_dec c 47) as [->|Hne]; [pose proof (split_no_sep 47 f) as Hs; rewrite Forall_forall in Hs; apply (Hs _ K); left; reflexivity|]. apply H. apply (split_in_iff 47 c f Hne). exists [c]. split; [exact K|left; reflexivity]. Qed.
Lemma no_wildcard f : has_wildcard f = false -> ~ In 43 f /\ ~ In 35 f.
Proof.
  unfold has_wildcard. intros H. apply orb_false_iff in H as [H1 H2]. split; intros K; [rewrite <- not_true_iff_false in H1; apply H1|rewrite <- not_true_iff_false in H2; apply H2]; apply existsb_exists; eexists; (split; [exact K|reflexivity]).
Qed.
Lemma self_matches f : Topic_Spec.topic_filter f -> TopicTree_Spec.tree_matches f f.
Proof.
  intros H. split; [apply lm_refl|]. intros (g & E & K). apply Topic_Proofs.valid_filter_spec, SubSet_Proofs.valid_hash_last in H. rewrite E in H. apply TopicTree_Func.hash_last_prefix in H. rewrite E in K. apply TopicTree_Func.lm_length in K; [|exact H]. rewrite app_length in K. cbn in K. lia.
Qed.
Lemma plain_matches f topic : has_wildcard f = false -> TopicTree_Spec.tree_matches f topic -> f = topic.
Proof. intros H [K _]. apply no_wildcard in H as [H1 H2]. apply (split_inj 47). apply lm_plain; [apply plain_levels; exact H2|apply plain_levels; exact H1|exact K]. Qed.
Definition matched (topic f : bytes) : Prop := if has_wildcard f then topic_matched topic f = true else f = topic.
Lemma matched_iff topic f : Topic_Spec.topic_filter f -> matched topic f <-> TopicTree_Spec.tree_matches f topic.
Proof.
  intros H. unfold matched. destruct (has_wildcard f) eqn:E; [apply matched_exact; exact H|]. split; [intros ->; apply self_matches; exact H|apply plain_matches; exact E].
Qed.
Lemma NoDup_app_intro {A} (l l' : list A) : NoDup l -> NoDup l' -> (forall x, In x l -> In x l' -> False) -> NoDup (l ++ l').
Proof.
  intros H1 H2 H3. induction H1 as [|x l Hx Hl IH]; [exact H2|]. cbn. constructor; [rewrite in_app_iff; intros [K|K]; [exact (Hx K)|exact (H3 x (or_introl eq_refl) K)]|apply IH; intros y K1 K2; exact (H3 y (or_intror K1) K2)].
Qed.
Lemma NoDup_map_filter {A B} (f : A -> B) (p : A -> bool) l : NoDup (map f l) -> NoDup (map f (filter p l)).
Proof.
  induction l as [|x l IH]; intros H; [constructor|]. cbn in *. inversion H as [|? ? Hn Hd]; subst. destruct (p x); [|exact (IH Hd)]. cbn. constructor; [|exact (IH Hd)]. intros K. apply Hn. apply in_map_iff in K as (y & <- & K). apply filter_In in K as [K _]. apply in_map. exact K.
Qed.
Lemma flat_nodup {A} (P : A -> list N) (L : list A) : NoDup L -> (forall e, In e L -> NoDup (P e)) -> (forall e e' id, In e L -> In e' L -> In id (P e) -> In id (P e') -> e = e') -> NoDup (flat_map P L).
Proof.
  induction L as [|e L IH]; intros H1 H2 H3; [constructor|]. cbn [flat_map]. inversion H1 as [|? ? Hn Hd]; subst. apply NoDup_app_intro.
  - apply H2. left. reflexivity.
  - apply IH; [exact Hd|intros x Hx; apply H2; right; exact Hx|intros x y id Hx Hy; apply H3; right; assumption].
  - intros id K1 K2. apply in_flat_map in K2 as (e' & K2 & K3). apply Hn. rewrite (H3 e e' id (or_introl eq_refl) (or_intror K2) K1 K3). exact K2.
Qed.
Lemma recipients_spec g s topic : J10 g s -> NoDup (recipients topic s) /\
  forall id, In id (recipients topic s) <-> exists f ids, In (f, ids) (c_streams s) /\ In id ids /\ matched topic f.
Proof.
  intros J. pose proof (k_keys _ _ J) as Hk. assert (Hone : forall f ids f' ids' id, In (f, ids) (c_streams s) -> In (f', ids') (c_streams s) -> In id ids -> In id ids' -> f = f' /\ ids = ids').
  { intros f ids f' ids' id K1 K2 K3 K4. destruct (proj2 (k_lists _ _ J _ _ K1) _ K3) as (o & L1 & L2 & _). destruct (proj2 (k_lists _ _ J _ _ K2) _ K4) as (o' & M1 & M2 & _). rewrite L1 in M1. injection M1 as <-. rewrite L2 in M2. injection M2 as <-. split; [reflexivity|].
    apply (in_find_key f ids _ Hk) in K1. apply (in_find_key f ids' _ Hk) in K2. congruence. }
  assert (Hk' : NoDup (map fst (filter (fun e => negb (has_wildcard (fst e))) (c_streams s)))) by (apply NoDup_map_filter; exact Hk).
  unfold recipients. split.
  - apply NoDup_app_intro.
    + destruct (find_key topic _) as [l|] eqn:E; [|constructor]. apply find_key_in in E. apply filter_In in E as [E _]. exact (proj1 (k_lists _ _ J _ _ E)).
    + apply flat_nodup.
      * apply NoDup_filter. apply (NoDup_map_inv fst). exact Hk.
      * intros [f ids] K. apply filter_In in K as [K _]. cbn [fst snd]. destruct (topic_matched topic f); [exact (proj1 (k_lists _ _ J _ _ K))|constructor].
      * intros [f ids] [f' ids'] id K1 K2 K3 K4. apply filter_In in K1 as [K1 _]. apply filter_In in K2 as [K2 _]. cbn [fst snd] in *. destruct (topic_matched topic f); [|destruct K3]. destruct (topic_matched topic f'); [|destruct K4]. destruct (Hone _ _ _ _ _ K1 K2 K3 K4) as [-> ->]. reflexivity.
    + intros id K1 K2. destruct (find_key topic _) as [l|] eqn:E; [|destruct K1]. apply find_key_in in E. apply filter_In in E as [E E']. apply in_flat_map in K2 as ([f ids] & K2 & K3). apply filter_In in K2 as [K2 K2']. cbn [fst snd] in *. destruct (topic_matched topic f); [|destruct K3]. destruct (Hone _ _ _ _ _ E K2 K1 K3) as [<- _]. rewrite K2' in E'. discriminate.
  - intros id. rewrite in_app_iff. split.
    + intros [K|K].
      * destruct (find_key topic _) as [l|] eqn:E; [|destruct K]. apply find_key_in in E. apply filter_In in E as [E E']. cbn [fst] in E'. exists topic, l. split; [exact E|]. split; [exact K|]. unfold matched. destruct (has_wildcard topic); [discriminate|reflexivity].
      * apply in_flat_map in K as ([f ids] & K2 & K3). apply filter_In in K2 as [K2 K2']. cbn [fst snd] in *. destruct (topic_matched topic f) eqn:E; [|destruct K3]. exists f, ids. split; [exact K2|]. split; [exact K3|]. unfold matched. rewrite K2'. exact E.
    + intros (f & ids & K1 & K2 & K3). unfold matched in K3. destruct (has_wildcard f) eqn:E.
      * right. apply in_flat_map. exists (f, ids). split; [apply filter_In; auto|]. cbn [fst snd]. rewrite K3. exact K2.
      * left. subst f. rewrite (in_find_key topic ids); [exact K2|exact Hk'|]. apply filter_In. split; [exact K1|]. cbn [fst]. rewrite E. reflexivity.
Qed.
Lemma count_messages id topic payload l : count (gets id topic payload) (messages topic payload l) = count_occ N.eq_dec l id.
Proof.
  unfold messages. rewrite count_rev. induction l as [|x l IH]; [reflexivity|]. cbn [map]. rewrite count_cons, IH. cbn [gets count_occ]. rewrite !bytes_eqb_refl, !andb_true_r. destruct (N.eqb_spec x id), (N.eq_dec x id); try contradiction; reflexivity.
Qed.
Lemma message_step cf s ev topic payload j : c_phase s = ACTIVE -> c_crash s = false -> exists tail, Forall (fun x => match x with O_MESSAGE _ _ _ => False | _ => True end) tail /\
  c_out (step cf s (ev, EMessage topic payload j)) = tail ++ messages topic payload (filter (listening s) (recipients topic s)) ++ I_MESSAGE topic payload j :: I_TICK (e_now ev) :: c_out s.
Proof.
  intros Ha Hc. unfold step. rewrite Hc. cbn [snd fst enabled]. rewrite Ha. cbn [active handle]. unfold on_message. set (s1 := emit (I_MESSAGE topic payload j) (emit (I_TICK (e_now ev)) s)). fold (streamed topic payload s1). rewrite streamed_exact.
  change (recipients topic s1) with (recipients topic s). change (filter (listening s1)) with (filter (listening s)). set (M := messages _ _ _). set (s2 := emits M s1).
  assert (D : exists tail, Forall (fun x => match x with O_MESSAGE _ _ _ => False | _ => True end) tail /\ c_out s2 = tail ++ M ++ I_MESSAGE topic payload j :: I_TICK (e_now ev) :: c_out s) by (exists []; split; [constructor|reflexivity]).
  destruct (find_key topic (c_paths s2)) as [[path n]|]; [|exact D]. destruct (token_in path j) as [t|]; [|exact D]. destruct (find_key t (c_tokens s2)) as [id|]; [|exact D]. destruct (get_op id s2) as [o|]; [|exact D].
  unfold complete. destruct (o_kind o); [|exact D]. destruct (state_is _ _); [exact D|]. exists [O_COMPLETE (o_id o) (RESPONSE topic payload)]. split; [repeat constructor|reflexivity].
Qed.
Lemma delivered cf connected l ev topic payload j : cf_ok cf -> running (trace (history cf connected l)) ->
  exists new, trace (history cf connected (l ++ [(ev, EMessage topic payload j)])) = trace (history cf connected l) ++ new /\
  forall id f, is_op id (W_STREAM f) (trace (history cf connected l)) ->
    (in_use id (trace (history cf connected l)) /\ TopicTree_Spec.tree_matches f topic -> count (gets id topic payload) new = 1%nat) /\
    (~ (in_use id (trace (history cf connected l)) /\ TopicTree_Spec.tree_matches f topic) -> count (gets id topic payload) new = 0%nat).
Proof.
  intros Hc Hr. pose proof (JC_history cf connected l Hc) as J. unfold history at 1. rewrite fold_left_app. cbn [fold_left]. fold (history cf connected l). set (s := history cf connected l) in *.
  pose proof (jba _ _ _ (jcb _ _ _ J)) as HA. pose proof (running_active cf IDLE s HA Hr) as Hac. destruct (message_step cf s ev topic payload j Hac (j2_crash _ _ (ja2 _ _ _ HA))) as (tail & Ht & Ho).
  set (M := filter (listening s) (recipients topic s)) in *. exists (rev (tail ++ messages topic payload M ++ [I_MESSAGE topic payload j; I_TICK (e_now ev)])). split.
  { apply trace_app. rewrite Ho, <- !app_assoc. reflexivity. }
  intros id f Hop. rewrite count_rev. assert (Hcnt : count (gets id topic payload) (tail ++ messages topic payload M ++ [I_MESSAGE topic payload j; I_TICK (e_now ev)]) = count_occ N.eq_dec M id).
  { rewrite !count_app, count_messages. assert (E : count (gets id topic payload) tail = 0%nat). { clear Ho. induction Ht as [|x tl Hx Ht IH]; [reflexivity|]. rewrite count_cons, IH. destruct x; try reflexivity. destruct Hx. } rewrite E. cbn [count filter gets length]. unfold count. cbn [filter gets length]. lia. }
  rewrite Hcnt. pose proof (jc10 _ _ _ J) as H10. destruct (recipients_spec _ _ topic H10) as [Rn Ri]. pose proof (op_valid _ _ _ _ _ (jc9 _ _ _ J) Hop) as Hv. inversion Hv as [|? ? Hvf _]; subst.
  assert (Hin : In id M <-> in_use id (trace s) /\ TopicTree_Spec.tree_matches f topic).
  { unfold M. rewrite filter_In, Ri. split.
    - intros [(f1 & ids & K1 & K2 & K3) K4]. destruct (proj2 (k_lists _ _ H10 _ _ K1) _ K2) as (o & L1 & L2 & L3). assert (E : f1 = f). { pose proof (op_is _ _ _ _ (ja5 _ _ _ HA) L1) as Hi. rewrite L2 in Hi. pose proof (is_op_uniq _ _ _ _ _ (ja5 _ _ _ HA) Hop Hi) as E. injection E as ->. reflexivity. } subst f1.
      split; [|apply (matched_iff topic f Hvf); exact K3]. assert (Hks : o_kind o = STREAM) by (unfold o_kind; rewrite L2; reflexivity). destruct (k_state _ _ H10 id o L1 Hks) as [_ Hterm]. split; [|split].
      + destruct (k_tables _ _ H10 id o L1 L3) as (a & [-> | ->] & K); [left|right]; unfold trace; apply -> in_rev; exact K.
      + intros e K. unfold trace in K. rewrite <- in_rev in K. assert (Et : o_state o = S_TERMINAL) by (apply Hterm; exists e; exact K). unfold listening in K4. rewrite L1, Hks in K4. unfold state_is in K4. rewrite Et in K4. discriminate.
      + intros K. unfold trace in K. rewrite <- in_rev in K. destruct (j5_gone _ _ (ja5 _ _ _ HA) id K) as [K' _]. congruence.
    - intros [(U1 & U2 & U3) Hm]. destruct Hop as [d Hd]. unfold trace in Hd. rewrite <- in_rev in Hd. destruct (j5_out _ _ (ja5 _ _ _ HA) _ _ _ Hd) as [_ [(o & L1 & L2 & _)|[(o & rest & K & _)|K]]]; [|discriminate|destruct U3; unfold trace; apply -> in_rev; exact K].
      assert (Hks : o_kind o = STREAM) by (unfold o_kind; rewrite L2; reflexivity). assert (Htk : taken_in id (c_out s)). { destruct U1 as [K|K]; unfold trace in K; rewrite <- in_rev in K; eexists; (split; [|exact K]); [left|right]; reflexivity. }
      destruct (k_taken _ _ H10 id o L1 Htk) as [L3|(o1 & a1 & K & _)]; [|discriminate]. destruct (k_op _ _ H10 id o f L1 L2 L3) as (ids & M1 & M2). split; [exists f, ids; split; [exact M1|]; split; [exact M2|apply (matched_iff topic f Hvf); exact Hm]|].
      unfold listening. rewrite L1, Hks. change (kind_eqb STREAM STREAM) with true. cbn [andb]. destruct (k_state _ _ H10 id o L1 Hks) as [Hpd Hterm]. unfold state_is. destruct (o_state o); try reflexivity; [congruence|]. destruct (proj1 Hterm eq_refl) as [e K]. destruct (U2 e). unfold trace. apply -> in_rev. exact K. }
  split; intros K.
  - apply NoDup_count_occ'; [apply NoDup_filter; exact Rn|apply Hin; exact K].
  - apply count_occ_not_In. rewrite Hin. exact K.
Qed.

(** ** Timeouts are not early *)
Lemma not_early cf connected l tr1 id tr2 : cf_ok cf -> trace (history cf connected l) = tr1 ++ O_COMPLETE id (FAILED E_TIMEOUT) :: tr2 ->
  exists tr0 t0 r d mid now, tr1 = tr0 ++ I_TICK t0 :: I_OPERATION id (W_REQUEST r) d :: mid /\ In (I_TICK now) tr1 /\ (t0 + cf_timeout_s cf * 1000000000 < two64 -> t0 + cf_timeout_s cf * 1000000000 <= now).
Proof.
  intros Hc H. destruct (reasons _ _ _ _ _ _ Hc H) as (r & d & now & K1 & K2 & K3). apply in_split in K1 as (a & b & ->). rewrite <- app_assoc in H. cbn [app] in H. destruct (reasons _ _ _ _ _ _ Hc H) as [_ (t0 & tr0 & -> & Hd)].
  exists tr0, t0, r, d, b, now. split; [rewrite <- app_assoc; reflexivity|]. split; [exact K2|]. intros Ht. rewrite N.mod_small in Hd by exact Ht. rewrite <- Hd. exact K3.
Qed.

(** ** A stream is only given messages while it is in use *)
Definition plain (x : out) : Prop := match x with O_MESSAGE _ _ _ => False | _ => True end.
Lemma prim_messages cf g s g' s' : prim cf (g, s) (g', s') -> exists l, c_out s' = l ++ c_out s /\
  (Forall plain l \/ exists topic payload j, l = messages topic payload (filter (listening s) (recipients topic s)) ++ [I_MESSAGE topic payload j]).
Proof.
  intros P. set (R := fun s' => exists l, c_out s' = l ++ c_out s /\ (Forall plain l \/ exists topic payload j, l = messages topic payload (filter (listening s) (recipients topic s)) ++ [I_MESSAGE topic payload j])). change (R s').
  assert (E0 : forall s', c_out s' = c_out s -> R s') by (intros z H; exists []; split; [exact H|left; constructor]).
  assert (E1 : forall s' x, c_out s' = x :: c_out s -> plain x -> R s') by (intros z x H Hx; exists [x]; split; [exact H|left; constructor; [exact Hx|constructor]]).
  inversion P; subst; try (apply E0; reflexivity); try (eapply E1; [reflexivity|exact I]).
  - rewrite create_shape in * by assumption. eapply E1; [reflexivity|exact I].
  - eapply E1; [apply submitted_out|exact I].
  - set (s1 := upd_op _ _ s). unfold fail. destruct (get_op _ s1) as [x|]; [|apply E0; reflexivity]. unfold complete, halt. destruct (o_kind x).
    + destruct (state_is _ _); [apply E0; reflexivity|]. eapply E1; [reflexivity|exact I].
    + destruct (_ || _); [apply E0; reflexivity|]. eapply E1; [reflexivity|exact I].
  - apply E0, listen_out.
  - apply E0, add_tables_out.
  - apply E0, wake_out.
  - destruct (o_state o); (eapply E1; [reflexivity|exact I]).
  - destruct b; (eapply E1; [reflexivity|exact I]).
  - rewrite streamed_exact. eexists. split; [|right; exists topic, payload, j; reflexivity]. rewrite <- app_assoc. reflexivity.
  - apply E0, unlisten_out.
  - eapply E1; [cbn [emit c_out]; rewrite untabled_out; reflexivity|exact I].
Qed.
Lemma in_use_rev id l : in_use id (rev l) <-> in_use id l.
Proof. unfold in_use. rewrite <- !in_rev. split; intros (A & B & C); (split; [exact A|split; [|exact C]]); intros e K; apply (B e); [apply -> in_rev|apply in_rev]; exact K. Qed.
Lemma in_use_more id l m : Forall (fun x => match x with O_MESSAGE _ _ _ | I_MESSAGE _ _ _ => True | _ => False end) m -> in_use id l -> in_use id (m ++ l).
Proof.
  intros H (A & B & C). rewrite Forall_forall in H. split; [rewrite !in_app_iff; tauto|]. split; [intros e K|intros K]; apply in_app_or in K as [K|K]; [exact (H _ K)|exact (B e K)|exact (H _ K)|exact (C K)].
Qed.
Lemma recipient_in_use cf g s topic id : JA cf g s -> J10 g s -> In id (filter (listening s) (recipients topic s)) -> in_use id (c_out s).
Proof.
  intros HA H10 K. apply filter_In in K as [K K4]. apply (proj2 (recipients_spec _ _ topic H10)) in K as (f & ids & K1 & K2 & K3). destruct (proj2 (k_lists _ _ H10 _ _ K1) _ K2) as (o & L1 & L2 & L3).
  assert (Hks : o_kind o = STREAM) by (unfold o_kind; rewrite L2; reflexivity). destruct (k_state _ _ H10 id o L1 Hks) as [_ Hterm]. split; [|split].
  - destruct (k_tables _ _ H10 id o L1 L3) as (a & [-> | ->] & K); [left|right]; exact K.
  - intros e K. assert (Et : o_state o = S_TERMINAL) by (apply Hterm; exists e; exact K). unfold listening in K4. rewrite L1, Hks in K4. unfold state_is in K4. rewrite Et in K4. discriminate.
  - intros K. destruct (j5_gone _ _ (ja5 _ _ _ HA) id K) as [K' _]. congruence.
Qed.
Definition J12 (s : client) : Prop := forall l1 id t p l2, c_out s = l1 ++ O_MESSAGE id t p :: l2 -> in_use id l2.
Lemma split_more {A} (m l l1 l2 : list A) x : m ++ l = l1 ++ x :: l2 -> (exists a, l = a ++ x :: l2) \/ (exists b, m = l1 ++ x :: b /\ l2 = b ++ l).
Proof.
  revert l1. induction m as [|y m IH]; intros l1 H; [left; exists l1; exact H|]. destruct l1 as [|z l1]; [injection H as -> <-; right; exists m; auto|]. injection H as -> H. destruct (IH _ H) as [K|(b & -> & ->)]; [left; exact K|right; exists b; auto].
Qed.
Lemma J12_step cf g s g' s' : JA cf g s -> J10 g s -> J12 s -> big cf (g, s) (g', s') -> J12 s'.
Proof.
  intros HA H10 J B. assert (Hone : forall x, plain x -> c_out s' = x :: c_out s -> J12 s'). { intros x Hx E l1 id t p l2 H. rewrite E in H. destruct l1 as [|y l1]; [injection H as -> _; destruct Hx|]. injection H as -> H. exact (J _ _ _ _ _ H). }
  inversion B as [x y P|s0 Ha Hs|s0 Hp Ho He Hu]; subst; try (eapply Hone; [|reflexivity]; exact I).
  destruct (prim_messages _ _ _ _ _ P) as (m & E & [Hm|(topic & payload & j & Hm)]); intros l1 id t p l2 H; rewrite E in H; destruct (split_more _ _ _ _ _ H) as [(a & K)|(b & K & ->)]; try (exact (J _ _ _ _ _ K)).
  - rewrite K in Hm. apply Forall_app in Hm as [_ Hm]. inversion Hm as [|? ? Hx _]; subst. destruct Hx.
  - rewrite Hm in K. set (M := filter _ _) in *. assert (Hall : Forall (fun x => match x with O_MESSAGE _ _ _ | I_MESSAGE _ _ _ => True | _ => False end) (messages topic payload M ++ [I_MESSAGE topic payload j])).
    { apply Forall_app. split; [|constructor; [exact I|constructor]]. unfold messages. apply Forall_rev, Forall_forall. intros x Hx. apply in_map_iff in Hx as (i & <- & _). exact I. }
    apply in_use_more; [rewrite K in Hall; apply Forall_app in Hall as [_ Hall]; inversion Hall; assumption|]. apply (recipient_in_use cf g s topic id HA H10). fold M.
    assert (Hin : In (O_MESSAGE id t p) (messages topic payload M ++ [I_MESSAGE topic payload j])) by (rewrite K; apply in_or_app; right; left; reflexivity). apply in_app_or in Hin as [Hin|[Hin|[]]]; [|discriminate]. unfold messages in Hin. rewrite <- in_rev in Hin. apply in_map_iff in Hin as (i & Hi & Hin). injection Hi as -> _ _. exact Hin.
Qed.
Lemma only_in_use cf connected l tr1 id t p tr2 : cf_ok cf -> trace (history cf connected l) = tr1 ++ O_MESSAGE id t p :: tr2 -> in_use id tr1.
Proof.
  intros Hc H. assert (K : JC cf IDLE (history cf connected l) /\ J12 (history cf connected l)).
  { apply (history_inv cf (fun g s => JC cf g s /\ J12 s)); [split; [constructor; [apply JB_new|apply J9_new|apply J11_new|apply J10_new]|intros l1 i t' p' l2 K; destruct l1; discriminate]|].
    intros g s g' s' [J1 J2] B. split; [eapply JC_step; eassumption|]. eapply J12_step; [exact (jba _ _ _ (jcb _ _ _ J1))|exact (jc10 _ _ _ J1)|exact J2|exact B]. }
  destruct K as [_ K]. rewrite <- (rev_involutive tr1). apply in_use_rev. apply (K (rev tr2) id t p). apply (f_equal (@rev out)) in H. unfold trace in H. rewrite rev_involutive, rev_app_distr in H. cbn [rev] in H. rewrite <- app_assoc in H. exact H.
Qed.
