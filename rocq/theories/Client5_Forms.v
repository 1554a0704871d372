(** What the updates of Client5_Steps.v do, in closed form; the trace and the clock. *)
From Verif Require Import Base BaseLemmas Mqtt5_Views TopicAlias_Model Encoder5_Model Decoder5_Model RateLimiter_Model RateLimiter_Spec
  RateLimiter_Proofs Validate5_Model Negotiated_Model Client5_State Client5_Model Client5_Spec Client5_Steps Client5_Decomp.
From Coq Require Import Permutation.
Ltac Zify.zify_post_hook ::= idtac.

Lemma not_ok_crash r s : ~ ok (crash r s).
Proof. unfold ok. rewrite crash_eq. discriminate. Qed.
Lemma pq_top_in l e : pq_top l = Some e -> In e l.
Proof.
  revert e. induction l as [|x l IH]; intros e; cbn [pq_top]; [discriminate|]. destruct (pq_top l) as [y|].
  - destruct (fst y <? fst x); intros E; injection E as <-; [right; apply IH; reflexivity|left; reflexivity].
  - intros E; injection E as <-. left; reflexivity.
Qed.
Lemma find_op_in u l o : find_op u l = Some o -> In o l.
Proof. unfold find_op. intros H. apply find_some in H. tauto. Qed.
Definition all_acked (s : client) : Prop := Forall (fun o => requires_ack (op_packet o) = true) (unacked s).
(** ** Closed forms of the composite updates *)
Lemma enqueue_eq p override s : exists o x,
  enqueue p override s = set_queued (queued s ++ [o]) (set_c_sta x (emit (I_SUBMIT (op_new (uid s) BY_USER p override)) (set_uid (uid s + 1) s))) /\
  op_packet o = set_packet_id 0 p /\ op_uid o = uid s /\ op_owner o = BY_USER /\ op_override o = override.
Proof.
  unfold enqueue. set (s1 := emit (I_SUBMIT (op_new (uid s) BY_USER p override)) (set_uid (uid s + 1) s)).
  set (o0 := set_packet (set_packet_id 0 p) (op_new (uid s) BY_USER p override)). rewrite change_statistics_eq.
  destruct (negb (is_request (op_packet o0))).
  - exists o0, (c_sta s). split; [|repeat split]. destruct s; reflexivity.
  - destruct (size_of o0) as [size|e].
    + eexists _, _. split; [reflexivity|]. repeat split.
    + exists o0, (c_sta s). split; [|repeat split]. destruct s; reflexivity.
Qed.
Definition sent_op (o o' : op) : Prop := op_packet o' = op_packet o /\ op_uid o' = op_uid o /\ op_owner o' = op_owner o /\ op_override o' = op_override o.
Section Forms.
Variable cf : config.
Lemma finish_eq now o s : (is_acked_publish (op_packet o) = true -> 0 < tokens s) -> (requires_ack (op_packet o) = true -> packet_id (op_packet o) <> 0) ->
  let s1 := if is_acked_publish (op_packet o) then set_tokens (tokens s - 1) s else s in
  if requires_ack (op_packet o) then
    exists o' x, finish_operation cf now o s =
      emit (O_SENT o) (set_curop None (set_unacked (unacked s ++ [o']) (set_c_sta x (set_pq (pq s ++ [(deadline_of cf now o, op_uid o)])
        (set_table (put (packet_id (op_packet o)) (op_uid o) (table s)) s1))))) /\ sent_op o o' /\
      (o', x) = (fst (change_statistics true true (set_deadline (deadline_of cf now o) o) s),
                 c_sta (snd (change_statistics true true (set_deadline (deadline_of cf now o) o) s)))
  else exists t, finish_operation cf now o s = emit (O_SENT o) (set_curop None (set_c_tim t (set_wc (wc s ++ [o]) s))).
Proof.
  intros T I. cbv zeta. unfold finish_operation.
  assert (on_outbound (op_packet o) s = if is_acked_publish (op_packet o) then set_tokens (tokens s - 1) s else s) as E.
  { unfold on_outbound. destruct (is_acked_publish (op_packet o)); [|reflexivity]. specialize (T eq_refl).
    destruct (N.ltb_spec 0 (tokens s)); [reflexivity|lia]. }
  rewrite E. clear E. destruct (requires_ack (op_packet o)) eqn:R.
  - specialize (I eq_refl). destruct (N.eqb_spec (packet_id (op_packet o)) 0) as [Z|_]; [contradiction|]. cbn [negb crash_unless].
    set (s1 := if is_acked_publish (op_packet o) then set_tokens (tokens s - 1) s else s). fold (deadline_of cf now o).
    assert (table s1 = table s /\ pq s1 = pq s /\ unacked s1 = unacked s /\ c_sta s1 = c_sta s) as (Et & Ep & Eu & Es)
      by (unfold s1; destruct (is_acked_publish (op_packet o)); repeat split).
    cbn [op_uid set_deadline]. change (table (set_table ?x s1)) with x.
    set (o0 := set_deadline (deadline_of cf now o) o). rewrite !change_statistics_eq.
    destruct (negb (is_request (op_packet o0))).
    { exists o0, (c_sta s). split; [|split; [split; [|split; [|split]]; reflexivity|reflexivity]]. rewrite <- Es, <- Et, <- Eu, <- Ep. clearbody s1. destruct s1; reflexivity. }
    destruct (size_of o0) as [size|e].
    + eexists _, _. split; [|split; [|reflexivity]].
      * cbn [fst snd]. rewrite <- Es, <- Et, <- Eu, <- Ep. clearbody s1. reflexivity.
      * split; [|split; [|split]]; reflexivity.
    + exists o0, (c_sta s). split; [|split; [split; [|split; [|split]]; reflexivity|reflexivity]]. rewrite <- Es, <- Et, <- Eu, <- Ep. clearbody s1. destruct s1; reflexivity.
  - assert (is_acked_publish (op_packet o) = false) as -> by (destruct (op_packet o); try reflexivity; exact R).
    destruct (is_pingreq (op_packet o)); [eexists; reflexivity|]. exists (c_tim s). destruct s; reflexivity.
Qed.
Lemma finish_not_ok now o s : c_crash s <> None -> c_crash (finish_operation cf now o s) <> None.
Proof.
  intros C. unfold finish_operation. change (c_crash (emit ?a (set_curop None ?x))) with (c_crash x).
  assert (forall b r s, c_crash s <> None -> c_crash (crash_unless b r s) <> None) as Hcu.
  { intros b r s0 H. destruct b; [exact H|]. cbn [crash_unless]. rewrite crash_eq. discriminate. }
  assert (c_crash (on_outbound (op_packet o) s) <> None) as C1.
  { unfold on_outbound. destruct (is_acked_publish (op_packet o)); [|exact C]. change (c_crash (set_tokens ?x ?y)) with (c_crash y). apply Hcu. exact C. }
  generalize dependent (on_outbound (op_packet o) s). intros s1 C1. destruct (requires_ack (op_packet o)).
  - match goal with |- context [crash_unless ?b ?r s1] => pose proof (Hcu b r s1 C1) as C2; generalize dependent (crash_unless b r s1) end. intros s2 C2.
    match goal with |- context [change_statistics true true ?a ?b] => destruct (cs_shape true true a b) as [x Hx];
      destruct (change_statistics true true a b) as [o' s3]; cbn [snd] in Hx; subst s3 end. exact C2.
  - destruct (is_pingreq (op_packet o)); exact C1.
Qed.
Lemma finish_rl now o s : rl_ok s -> rl_ok (finish_operation cf now o s).
Proof.
  intros C. unfold finish_operation.
  assert (forall b r s, rl_ok s -> rl_ok (crash_unless b r s)) as Hcu.
  { intros b r s0 H. destruct b; [exact H|]. cbn [crash_unless]. rewrite crash_eq. exact H. }
  assert (rl_ok (on_outbound (op_packet o) s)) as C1.
  { unfold on_outbound. destruct (is_acked_publish (op_packet o)); [|exact C]. change (rl_ok (set_tokens ?x ?y)) with (rl_ok y). apply Hcu. exact C. }
  generalize dependent (on_outbound (op_packet o) s). intros s1 C1. destruct (requires_ack (op_packet o)).
  - match goal with |- context [crash_unless ?b ?r s1] => pose proof (Hcu b r s1 C1) as C2; generalize dependent (crash_unless b r s1) end. intros s2 C2.
    match goal with |- context [change_statistics true true ?a ?b] => destruct (cs_shape true true a b) as [x Hx];
      destruct (change_statistics true true a b) as [o' s3]; cbn [snd] in Hx; subst s3 end. exact C2.
  - destruct (is_pingreq (op_packet o)); exact C1.
Qed.
(** everything a received publish does *)
Lemma publish_core_eq acquire v s : exists m control,
  let s1 := emit (O_PUBLISH v control) (set_c_man m s) in
  ((pb_qos v =? 0) = true /\ publish_core acquire v s = s1 /\ m = c_man s \/
   (pb_qos v =? 0) = false /\ lookup (pb_packet_id v) (mn_mp m) <> None /\ publish_core acquire v s = s1 \/
   (pb_qos v =? 0) = false /\ lookup (pb_packet_id v) (mn_mp m) = None /\ m = c_man s /\ publish_core acquire v s = puback_core BY_CLIENT (pb_packet_id v) s1) /\
  (m, control) = (if acquire && negb (pb_qos v =? 0) then
      match lookup (pb_packet_id v) (mp s) with
      | Some c => (c_man s, Some c)
      | None => (mkman (put (pb_packet_id v) (next_ctl s) (mp s)) (put (next_ctl s) (pb_packet_id v) (mc s)) (mx s) (u64 (next_ctl s + 1)), Some (next_ctl s))
      end else (c_man s, None)).
Proof.
  unfold publish_core. assert (forall s, set_c_man (c_man s) s = s) as Hid by (intros []; reflexivity).
  assert (forall s, lookup (pb_packet_id v) (mp s) = None -> lookup (pb_packet_id v) (mn_mp (c_man s)) = None) as Hmp by auto.
  destruct acquire; cbn [andb].
  - unfold acquire_ack. destruct (pb_qos v =? 0) eqn:Z; cbn [negb].
    + exists (c_man s), None. cbv zeta. rewrite Hid. split; [left; auto|reflexivity].
    + destruct (lookup (pb_packet_id v) (mp s)) as [c|] eqn:L.
      * exists (c_man s), (Some c). cbv zeta. rewrite Hid. split; [|reflexivity]. right; left. change (mp (emit ?a s)) with (mp s). rewrite L.
        split; [reflexivity|]. split; [|reflexivity]. change (mn_mp (c_man s)) with (mp s). rewrite L. discriminate.
      * eexists _, _. cbv zeta. split; [|reflexivity]. right; left. split; [reflexivity|]. split.
        { cbn [mn_mp]. unfold lookup, put. cbn [find fst]. rewrite N.eqb_refl. discriminate. }
        match goal with |- context [lookup _ (mp ?x)] => assert (lookup (pb_packet_id v) (mp x) = Some (next_ctl s)) as -> end.
        { unfold lookup. change (mp (emit ?a ?b)) with (mp b). nrmg. unfold put. cbn [find fst snd]. rewrite N.eqb_refl. reflexivity. }
        reflexivity.
  - exists (c_man s), None. cbv zeta. rewrite Hid. split; [|reflexivity]. destruct (pb_qos v =? 0) eqn:Z; [left; auto|].
    change (mp (emit ?a s)) with (mp s). destruct (lookup (pb_packet_id v) (mp s)) as [c|] eqn:L.
    + right; left. split; [reflexivity|]. split; [|reflexivity]. change (mn_mp (c_man s)) with (mp s). rewrite L. discriminate.
    + right; right. split; [reflexivity|]. split; [exact L|]. split; reflexivity.
Qed.
Lemma publish_received_eq acquire v s : exists m control,
  let s1 := emit (O_PUBLISH v control) (set_c_man m (emit (I_PACKET (P_PUBLISH v)) s)) in
  ((pb_qos v =? 0) = true /\ publish_received acquire v s = s1 /\ m = c_man s \/
   (pb_qos v =? 0) = false /\ lookup (pb_packet_id v) (mn_mp m) <> None /\ publish_received acquire v s = s1 \/
   (pb_qos v =? 0) = false /\ lookup (pb_packet_id v) (mn_mp m) = None /\ m = c_man s /\ publish_received acquire v s = puback_core BY_CLIENT (pb_packet_id v) s1) /\
  (m, control) = (if acquire && negb (pb_qos v =? 0) then
      match lookup (pb_packet_id v) (mp s) with
      | Some c => (c_man s, Some c)
      | None => (mkman (put (pb_packet_id v) (next_ctl s) (mp s)) (put (next_ctl s) (pb_packet_id v) (mc s)) (mx s) (u64 (next_ctl s + 1)), Some (next_ctl s))
      end else (c_man s, None)).
Proof. exact (publish_core_eq acquire v (emit (I_PACKET (P_PUBLISH v)) s)). Qed.
Lemma manual_core_eq control s : exists m x,
  manual_core control s = x (set_c_man m (emit (I_ACK control) s)) /\
  ((exists id, lookup control (mc s) = Some id /\ m = mkman (remove_key id (mp s)) (remove_key control (mc s)) (mx s) (next_ctl s) /\
     x = puback_core (BY_ACK control) id) \/
   (lookup control (mc s) = None /\ exists r, x = emit (O_ACK_RESULT control r) /\ mn_mc m = mc s /\ mn_mp m = mp s /\ mn_next_ctl m = next_ctl s)).
Proof.
  unfold manual_core. change (mc (emit ?a s)) with (mc s). destruct (lookup control (mc s)) as [id|] eqn:L.
  - eexists _, _. split; [reflexivity|]. left. exists id. auto.
  - change (mx (emit ?a s)) with (mx s). destruct (existsb (N.eqb control) (mx s)).
    + eexists (mkman (mp s) (mc s) (filter (fun x => negb (x =? control)) (mx s)) (next_ctl s)), _. split; [reflexivity|]. right. split; [reflexivity|].
      eexists. repeat split.
    + exists (c_man s). eexists. split; [|right; split; [reflexivity|]; eexists; repeat split]. destruct s; reflexivity.
Qed.
Lemma incomplete_eq s : exists l x, set_queued (fst (set_list_incomplete (queued s) s)) (snd (set_list_incomplete (queued s) s)) = set_queued l (set_c_sta x s) /\
  map op_packet l = map op_packet (queued s) /\ map op_uid l = map op_uid (queued s) /\ map op_owner l = map op_owner (queued s) /\
  map op_override l = map op_override (queued s).
Proof.
  assert (forall q s, exists x, snd (set_list_incomplete q s) = set_c_sta x s /\ map op_packet (fst (set_list_incomplete q s)) = map op_packet q /\
    map op_uid (fst (set_list_incomplete q s)) = map op_uid q /\ map op_owner (fst (set_list_incomplete q s)) = map op_owner q /\
    map op_override (fst (set_list_incomplete q s)) = map op_override q) as H.
  { clear s. induction q as [|o q IH]; intros s; cbn [set_list_incomplete]; [exists (c_sta s); rewrite set_sta_id; auto|].
    assert (op_packet (fst (change_statistics true false o s)) = op_packet o /\ op_uid (fst (change_statistics true false o s)) = op_uid o /\
      op_owner (fst (change_statistics true false o s)) = op_owner o /\ op_override (fst (change_statistics true false o s)) = op_override o) as (E1 & E2 & E3 & E4).
    { rewrite change_statistics_eq. destruct (negb _); [auto|]. destruct (size_of o); auto. }
    destruct (cs_shape true false o s) as [x Hx]. destruct (change_statistics true false o s) as [o' s1]. cbn [snd fst] in *. subst s1.
    destruct (IH (set_c_sta x s)) as (y & H1 & H2 & H3 & H4 & H5). destruct (set_list_incomplete q (set_c_sta x s)) as [l' s2].
    cbn [snd fst] in *. subst s2. exists y. cbn [map]. repeat split; congruence. }
  destruct (H (queued s) s) as (x & H1 & H2 & H3 & H4 & H5). exists (fst (set_list_incomplete (queued s) s)), x. rewrite H1. auto.
Qed.
Lemma bind_eq o s o' s1 : bind_packet_id o s = Some (o', s1) ->
  (o' = o /\ s1 = s /\ needs_packet_id (op_packet o) = false) \/
  (exists id, free_packet_id (S (length (table s))) (next_id s) (table s) = Some id /\ needs_packet_id (op_packet o) = true /\
    o' = set_packet (set_packet_id id (op_packet o)) o /\ s1 = set_next_id (next_packet_id id) s).
Proof.
  unfold bind_packet_id. destruct (needs_packet_id (op_packet o)); cbn [negb].
  - destruct (free_packet_id (S (length (table s))) (next_id s) (table s)) as [id|]; [|discriminate]. intros E. injection E as <- <-. right. exists id. auto.
  - intros E. injection E as <- <-. left. auto.
Qed.

Lemma core_inv s s' : core s' = core s -> current s' = current s /\ life s' = life s /\ queued s' = queued s /\ curop s' = curop s /\ wc s' = wc s /\
  unacked s' = unacked s /\ table s' = table s /\ pq s' = pq s /\ next_id s' = next_id s /\ uid s' = uid s /\ c_man s' = c_man s /\
  tokens s' = tokens s /\ c_sta s' = c_sta s /\ c_neg s' = c_neg s /\ c_enc s' = c_enc s /\ c_out s' = c_out s.
Proof. unfold core. intros E. injection E; intros. repeat split; assumption. Qed.


(** ** Crashes and rate limiters *)
Lemma not_ok_some s r : c_crash s = Some r -> ~ ok s.
Proof. unfold ok. congruence. Qed.
Lemma prim_base g s g' s' : prim cf (g, s) (g', s') -> rl_ok s -> rl_ok s' /\ (ok s' -> ok s).
Proof.
  intros P R. inversion P; subst; clear P; try (split; [exact R|intros K; exact K]).
  - match goal with H : hush _ _ |- _ => destruct H as [_ H]; destruct (H R) as [Ha Hb] end. split; [assumption|]. unfold ok. congruence.
  - split; [rewrite crash_eq; exact R|]. intros H. exfalso. exact (not_ok_crash _ _ H).
  - destruct (enqueue_eq p override s) as (o & x & -> & _). split; [exact R|intros K; exact K].
  - destruct (publish_received_eq acquire v s) as (m & c & [(_ & -> & _)|[(_ & _ & ->)|(_ & _ & _ & ->)]] & _); split; try exact R; intros K; exact K.
  - destruct (manual_core_eq control s) as (m & x & -> & [(id & _ & _ & ->)|(_ & r & -> & _)]); split; try exact R; intros K; exact K.
  - unfold reset_manual. destruct (mc s); split; try exact R; intros K; exact K.
  - destruct (cs_shape inc una o s) as [x ->]. split; [exact R|intros K; exact K].
  - destruct (incomplete_eq s) as (l & x & -> & _). split; [exact R|intros K; exact K].
  - match goal with H : bind_packet_id _ _ = _ |- _ => apply bind_eq in H as [(-> & -> & _)|(id & _ & _ & -> & ->)] end; split; try exact R; intros K; exact K.
  - match goal with H : bind_packet_id _ _ = _ |- _ => apply bind_eq in H as [(-> & -> & _)|(id & _ & _ & -> & ->)] end; split; try exact R; intros K; exact K.
  - split; [apply finish_rl; exact R|]. unfold ok. intros K. destruct (c_crash s) eqn:C; [|reflexivity]. exfalso.
    apply (finish_not_ok now o s); [congruence|exact K].
Qed.

(** ** The trace only grows *)
Lemma finish_out now o s : c_out (finish_operation cf now o s) = O_SENT o :: c_out s.
Proof.
  unfold finish_operation. change (c_out (emit (O_SENT o) (set_curop None ?x))) with (O_SENT o :: c_out x). f_equal.
  assert (forall b r s, c_out (crash_unless b r s) = c_out s) as Hcu by (intros [|] r s0; [reflexivity|cbn [crash_unless]; rewrite crash_eq; reflexivity]).
  assert (c_out (on_outbound (op_packet o) s) = c_out s) as C1.
  { unfold on_outbound. destruct (is_acked_publish (op_packet o)); [|reflexivity]. change (c_out (set_tokens ?x ?y)) with (c_out y). apply Hcu. }
  generalize dependent (on_outbound (op_packet o) s). intros s1 C1. destruct (requires_ack (op_packet o)).
  - match goal with |- context [crash_unless ?b ?r s1] => pose proof (Hcu b r s1) as C2; generalize dependent (crash_unless b r s1) end. intros s2 C2.
    match goal with |- context [change_statistics true true ?a ?b] => destruct (cs_shape true true a b) as [x Hx];
      destruct (change_statistics true true a b) as [o' s3]; cbn [snd] in Hx; subst s3 end. transitivity (c_out s2); [reflexivity|congruence].
  - destruct (is_pingreq (op_packet o)); exact C1.
Qed.
Definition tickless (l : list out) : Prop := Forall (fun x => is_tick x = None) l.
Definition grows (s s' : client) : Prop := exists l, c_out s' = l ++ c_out s /\ tickless l.
Lemma grows_0 s s' : c_out s' = c_out s -> grows s s'.
Proof. exists []. split; [assumption|constructor]. Qed.
Lemma grows_1 x s s' : c_out s' = x :: c_out s -> is_tick x = None -> grows s s'.
Proof. exists [x]. split; [assumption|constructor; [assumption|constructor]]. Qed.
Lemma grows_2 x y s s' : c_out s' = x :: y :: c_out s -> is_tick x = None -> is_tick y = None -> grows s s'.
Proof. exists [x; y]. split; [assumption|constructor; [assumption|constructor; [assumption|constructor]]]. Qed.
Lemma prim_trace g s g' s' : prim cf (g, s) (g', s') -> grows s s'.
Proof.
  intros P. inversion P; subst; clear P; try (apply grows_0; reflexivity); try (eapply grows_1; reflexivity).
  - match goal with H : hush _ _ |- _ => destruct H as [H _]; apply core_inv in H end. apply grows_0. tauto.
  - apply grows_0. rewrite crash_eq. reflexivity.
  - eapply grows_1; [reflexivity|]. destruct x; try reflexivity; discriminate.
  - destruct (enqueue_eq p override s) as (o & x & -> & _). eapply grows_1; reflexivity.
  - eapply grows_2; reflexivity.
  - eapply grows_2; reflexivity.
  - destruct (publish_received_eq acquire v s) as (m & c & [(_ & -> & _)|[(_ & _ & ->)|(_ & _ & _ & ->)]] & _); eapply grows_2; reflexivity.
  - destruct (manual_core_eq control s) as (m & x & -> & [(id & _ & _ & ->)|(_ & r & -> & _)]); [eapply grows_1|eapply grows_2]; reflexivity.
  - apply grows_0. unfold reset_manual. destruct (mc s); reflexivity.
  - apply grows_0. destruct (cs_shape inc una o s) as [x ->]. reflexivity.
  - apply grows_0. destruct (incomplete_eq s) as (l & x & -> & _). reflexivity.
  - apply grows_0. match goal with H : bind_packet_id _ _ = _ |- _ => apply bind_eq in H as [(-> & -> & _)|(id & _ & _ & -> & ->)] end; reflexivity.
  - match goal with H : bind_packet_id _ _ = _ |- _ => apply bind_eq in H as [(-> & -> & _)|(id & _ & _ & -> & ->)] end; eapply grows_1; reflexivity.
  - apply (grows_1 (O_SENT o)); [apply finish_out|reflexivity].
Qed.
Lemma steps_trace g s g' s' : steps cf (g, s) (g', s') -> grows s s'.
Proof.
  intros H. refine (steps_inv cf (fun x => grows s (snd x)) _ _ _ H _).
  - intros [g1 s1] [g2 s2] (l & E & T) P. cbn [snd] in *. destruct (prim_trace _ _ _ _ P) as (l' & E' & T'). exists (l' ++ l).
    split; [rewrite E', E, app_assoc; reflexivity|apply Forall_app; auto].
  - apply grows_0. reflexivity.
Qed.
Lemma clock_tickless l y : tickless l -> clock (l ++ y) = clock y.
Proof. induction 1 as [|x l H _ IH]; [reflexivity|]. cbn [app clock]. rewrite H. exact IH. Qed.
Lemma steps_clock g s g' s' : steps cf (g, s) (g', s') -> clock (c_out s') = clock (c_out s).
Proof. intros H. destruct (steps_trace _ _ _ _ H) as (l & -> & T). apply clock_tickless, T. Qed.
Lemma steps_stop g s g' s' : steps cf (g, s) (g', s') -> has_stop (c_out s) = true -> has_stop (c_out s') = true.
Proof. intros H Hs. destruct (steps_trace _ _ _ _ H) as (l & -> & _). unfold has_stop in *. rewrite existsb_app, Hs. apply orb_true_r. Qed.

Lemma steps_ok g s g' s' : rl_ok s -> steps cf (g, s) (g', s') -> ok s' -> ok s.
Proof.
  intros R H. assert (rl_ok s' /\ (ok s' -> ok s)) as [_ G]; [|exact G].
  refine (steps_inv cf (fun x => rl_ok (snd x) /\ (ok (snd x) -> ok s)) _ _ _ H _); [|split; [exact R|auto]].
  intros [g1 s1] [g2 s2] [R1 E] P. cbn [snd] in *. destruct (prim_base _ _ _ _ P R1). auto.
Qed.
End Forms.
