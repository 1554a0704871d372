(** What the MQTT 5 client asks the server for when it connects. *)
From Verif Require Import Base BaseLemmas Mqtt5_Views TopicAlias_Model Encoder5_Model Decoder5_Model RateLimiter_Model RateLimiter_Spec
  RateLimiter_Proofs Validate5_Model Negotiated_Model Client5_State Client5_Model Client5_Spec Client5_Steps Client5_Decomp Client5_Decomp2
  Client5_Forms Client5_Decomp3 Client5_Inv0 Client5_Flow Client5_Safety Client5_Decomp4 Client5_Ops Client5_Crash Client5_Conn Client5_Acks Client5_Timing_Spec
  Client5_Backoff Client5_Session_Spec.
From Coq Require Import Permutation.
Ltac Zify.zify_post_hook ::= idtac.

Lemma still_had d l : still d -> connected_before (d ++ l) = connected_before l.
Proof. induction 1 as [|x d Hx Hd IH]; [reflexivity|]. cbn [app connected_before]. destruct x; try exact IH; discriminate Hx. Qed.
Lemma still_before d l : still d -> before_attempt (d ++ l) = before_attempt l.
Proof. induction 1 as [|x d Hx Hd IH]; [reflexivity|]. cbn [app before_attempt]. destruct x; try exact IH; discriminate Hx. Qed.
Lemma still_resting d l : still d -> resting (d ++ l) = resting l.
Proof. induction 1 as [|x d Hx Hd IH]; [reflexivity|]. cbn [app resting]. destruct x; try exact IH; discriminate Hx. Qed.
Lemma resting_had l : resting l = true -> connected_before l = false.
Proof.
  induction l as [|x l IH]; [reflexivity|]. cbn [resting connected_before]. destruct x; try exact IH.
  match goal with e : life_event |- _ => destruct e end; intros H; first [reflexivity|discriminate H].
Qed.
Lemma known_more cf d l id : (forall n v, ~ In (O_LIFE (CONNECTION_SUCCESS n v)) d) -> id_known cf l id -> id_known cf (d ++ l) id.
Proof.
  intros Hd (H1 & H2 & H3). split; [exact H1|]. split.
  - destruct H2 as [H2|(v & H2 & H4)]; [left; exact H2|right]. exists v. split; [apply in_or_app; right; exact H2|exact H4].
  - intros n v H. apply in_app_or in H as [H|H]; [contradiction (Hd _ _ H)|exact (H3 n v H)].
Qed.
Lemma still_known cf d l id : still d -> id_known cf l id -> id_known cf (d ++ l) id.
Proof. intros H. apply known_more. intros n v Hi. unfold still in H. rewrite Forall_forall in H. discriminate (H _ Hi). Qed.

Section Session.
Context (cf : config) (now0 : N).
Notation reach := (reach cf now0).
Notation prim := (prim cf).
Notation known := (id_known cf).

Definition J24 (x : ghost * client) : Prop := let '(g, s) := x in
  (has_conn s = connected_before (c_out s) \/ (current s = CONNECTED /\ exists v, g_link g = ACKED v) \/ ((current s = STOPPED \/ current s = TERMINATED) /\ resting (c_out s) = false)) /\
  (current s = CONNECTING \/ current s = MQTT_CONNECT -> has_conn s = connected_before (before_attempt (c_out s))) /\
  (current s = CONNECTED -> (exists v, g_link g = ACKED v) -> ng_rejoined (c_neg s) = true -> resumes cf (before_attempt (c_out s)) = true) /\
  known (c_out s) (ng_client_id (c_neg s)) /\
  (current s = CONNECTING \/ (current s = MQTT_CONNECT /\ (g_link g = NEW \/ g_link g = FINE)) -> known (before_attempt (c_out s)) (ng_client_id (c_neg s))).
Lemma J24_same g s g' s' : J24 (g, s) -> current s' = current s -> has_conn s' = has_conn s -> c_neg s' = c_neg s ->
  (g_link g' = g_link g \/ g_link g = FINE /\ g_link g' = DEAD) -> (exists d, c_out s' = d ++ c_out s /\ still d) -> J24 (g', s').
Proof.
  intros (J1 & J2 & J3 & J4 & J5) Ec Eh En El (d & Eo & Hd). unfold J24. rewrite Ec, Eh, En, Eo, (still_had _ _ Hd), (still_before _ _ Hd), (still_resting _ _ Hd).
  split; [|split; [exact J2|split; [|split; [apply still_known; assumption|]]]].
  - destruct J1 as [J1|[[C [v V]]|J1]]; [left; exact J1| |right; right; exact J1]. right; left. split; [exact C|]. exists v. destruct El as [E|[E _]]; congruence.
  - intros C [v V]. apply J3; [exact C|]. exists v. destruct El as [E|[_ E]]; congruence.
  - intros [C|[C V]]; apply J5; [left; exact C|right; split; [exact C|]]. destruct El as [<-|[E _]]; [exact V|right; exact E].
Qed.
Lemma resume_eq s l : has_conn s = connected_before l -> should_resume cf s = resumes cf l.
Proof. intros H. unfold should_resume, resumes. destruct (cf_session cf); auto. Qed.
Lemma apply_known y id v : id_known cf y id -> In (I_PACKET (P_CONNACK v)) y -> id_known cf y (apply_client_id id (ca_assigned_client_id v)).
Proof.
  intros (H1 & H2 & H3) Hi. unfold apply_client_id. destruct (ca_assigned_client_id v) as [c|] eqn:E; [|repeat split; assumption]. destruct (N.eqb_spec (len id) 0) as [Z|Z]; [|repeat split; assumption].
  assert (id = []) as -> by (destruct id; [reflexivity|unfold len in Z; cbn [length] in Z; lia]). cbn [app]. split; [|split].
  - intros H. specialize (H1 H). congruence.
  - right. exists v. split; [exact Hi|exact E].
  - intros n w H Hn. specialize (H3 n w H Hn). congruence.
Qed.
Ltac same J := eapply (J24_same _ _ _ _ J); [reflexivity|reflexivity|reflexivity|left; reflexivity|].
Lemma reach_J24 g s : reach (g, s) -> ok s -> J24 (g, s).
Proof.
  intros R Ok. refine (reach_inv cf now0 J24 _ _ _ (g, s) R Ok).
  - assert (known [] (cn_client_id (cf_connect cf))) as H by (split; [reflexivity|split; [left; reflexivity|intros n v []]]).
    split; [left; reflexivity|]. split; [intros _; reflexivity|]. split; [discriminate|]. split; [exact H|intros _; exact H].
  - intros s1 now _ _ J. same J. exists [I_TICK now]. split; [reflexivity|repeat constructor].
  - clear. intros g s g' s' R Ok Ok' J P. pose proof J as (J1 & J2 & J3 & J4 & J5). pose proof (reach_J21 cf now0 _ _ R Ok) as (_ & Jr & _).
    inversion P; subst; clear P; repeat match goal with H : ok _ -> _ |- _ => specialize (H Ok) end;
      try (same J; exists []; split; [reflexivity|constructor]; fail);
      try (same J; eexists [_]; split; [reflexivity|repeat constructor]; fail); try (same J; eexists [_; _]; split; [reflexivity|repeat constructor]; fail).
    + (* quiet *) match goal with H : hush _ _ |- _ => destruct H as [H _]; apply core_inv in H end. assert (current s' = current s /\ c_neg s' = c_neg s /\ c_out s' = c_out s) as (E1 & E2 & E3) by tauto.
      match goal with H : rejoin _ _ _ |- _ => rename H into T end. remember (has_conn s') as h eqn:Eh. destruct T as [|C V|C V].
      * apply (J24_same _ _ _ _ J E1 (eq_sym Eh) E2 (or_introl eq_refl)). exists []. split; [exact E3|constructor].
      * unfold J24. rewrite E1, E2, E3. split; [right; left; split; assumption|]. split; [intros [D|D]; congruence|]. split; [exact J3|]. split; [exact J4|exact J5].
      * unfold J24. rewrite E1, E2, E3, <- Eh. split; [|split; [intros [D|D]; congruence|split; [exact J3|split; [exact J4|exact J5]]]].
        destruct (resting (c_out s)) eqn:Er; [|right; right; split; [left; exact C|reflexivity]]. left. rewrite (resting_had _ Er). reflexivity.
    + exfalso. exact (not_ok_crash _ _ Ok').
    + (* neutral *) same J. exists [x]. split; [reflexivity|]. constructor; [|constructor]. destruct x; try reflexivity; discriminate.
    + (* failure *)
      assert (known (O_LIFE (CONNECTION_FAILURE e v) :: c_out s) (ng_client_id (c_neg s))) as H by (apply (known_more cf [_]); [intros n w [D|[]]; discriminate D|exact J4]).
      split; [|split; [exact J2|split; [exact J3|split; [exact H|exact J5]]]]. destruct J1 as [J1|[J1|[C J1]]]; [left; exact J1|right; left; exact J1|right; right; split; [exact C|reflexivity]].
    + (* disconnection *)
      assert (known (O_LIFE (DISCONNECTION e v) :: c_out s) (ng_client_id (c_neg s))) as H by (apply (known_more cf [_]); [intros n w [D|[]]; discriminate D|exact J4]).
      split; [|split; [exact J2|split; [exact J3|split; [exact H|exact J5]]]]. destruct J1 as [J1|[J1|[C J1]]]; [left; exact J1|right; left; exact J1|right; right; split; [exact C|reflexivity]].
    + (* attempt *) match goal with H : (current s = _ \/ _) /\ _ |- _ => destruct H as [C _] end. match goal with H : g_link _ = FINE |- _ => rename H into Lk end.
      assert (has_conn s = connected_before (c_out s)) as Hh.
      { destruct J1 as [J1|[[D _]|[D J1]]]; [exact J1|destruct C; congruence|]. destruct D as [D|D]; [|destruct C; congruence]. destruct (Jr D) as [E|E]; [congruence|]. apply rest_iff in E. congruence. }
      split; [left; exact Hh|]. split; [intros _; exact Hh|]. split; [discriminate|]. split; [|intros _; exact J4]. apply (known_more cf [_]); [intros n w [D|[]]; discriminate D|exact J4].
    + (* success *) match goal with H : startable s /\ _ |- _ => destruct H as (_ & C & Lk & _) end. match goal with H : has_conn s = true |- _ => rename H into Hh end.
      split; [left; exact Hh|]. change (current (emit ?a (set_life ?b s))) with (current s). split; [intros [D|D]; congruence|]. split; [intros _ [w D]; discriminate D|]. split.
      * destruct J4 as (K1 & K2 & K3). split; [exact K1|]. split; [destruct K2 as [K2|(w & K2 & K4)]; [left; exact K2|right; exists w; split; [right; exact K2|exact K4]]|].
        intros n w [D|D] Hn; [injection D as <- <-; reflexivity|exact (K3 n w D Hn)].
      * intros [D|[D _]]; congruence.
    + (* stopped *) match goal with H : current s = STOPPED /\ _ |- _ => destruct H as (C & _) end. match goal with H : has_conn s = false |- _ => rename H into Hh end.
      split; [left; exact Hh|]. change (current (emit ?a s)) with (current s). split; [intros [D|D]; congruence|]. split; [intros D; congruence|]. split; [|intros [D|[D _]]; congruence].
      apply (known_more cf [_]); [intros n w [D|[]]; discriminate D|exact J4].
    + (* state *) match goal with H : edge _ _ _ _ |- _ => rename H into Ed end. match goal with H : calm _ _ |- _ => rename H into Ca end. match goal with H : c = STOPPED -> _ |- _ => rename H into Hs end. match goal with H : c = CONNECTED -> _ |- _ => rename H into Hr end.
      match goal with H : entered _ _ _ _ |- _ => rename H into En end.
      set (g' := match c with MQTT_CONNECT => with_link NEW g | _ => g end).
      unfold J24. change (current (set_current c ?y)) with c. change (has_conn (set_current c (set_c_tim t s))) with (has_conn s). change (c_out (set_current c (set_c_tim t s))) with (c_out s). change (c_neg (set_current c (set_c_tim t s))) with (c_neg s).
      split; [|split; [|split; [|split; [exact J4|]]]].
      * destruct J1 as [J1|[[C [v V]]|[C J1]]]; [left; exact J1|contradiction (Ca C v V)|]. right; right. split; [|exact J1].
        destruct c; cbn [edge entered] in Ed, En; auto; exfalso; destruct C as [C|C]; rewrite C in *; try contradiction; try discriminate; repeat match goal with H : _ /\ _ |- _ => destruct H | H : _ \/ _ |- _ => destruct H end; discriminate.
      * intros [-> | ->]; [contradiction Ed|]. apply J2. left. exact Ed.
      * intros -> [v V] Hj. specialize (Hr eq_refl Hj). rewrite <- Hr. symmetry. apply resume_eq, J2. right. apply Ed.
      * intros [-> |[-> _]]; [contradiction Ed|]. apply J5. left. exact Ed.
    + (* open *) match goal with H : current s = _ /\ _ |- _ => destruct H as (C & Lk & _) end. unfold J24. change (ng_client_id (c_neg (set_c_neg (ng_reset ?m ?v) ?y))) with (ng_client_id m).
      split; [destruct J1 as [J1|[[D _]|[D _]]]; [left; exact J1|congruence|destruct D; congruence]|]. split; [exact J2|]. split; [intros D; change (current s = CONNECTED) in D; congruence|]. split; [exact J4|].
      intros _. apply J5. right. split; [exact C|left; exact Lk].
    + (* apply *) match goal with H : current s = _ /\ _ |- _ => destruct H as (C & Lk & _ & y & Hy) end.
      split; [destruct J1 as [J1|[[D _]|[D _]]]; [left; exact J1|congruence|destruct D; congruence]|]. split; [exact J2|]. split; [intros D; change (current s = CONNECTED) in D; congruence|]. split.
      * change (known (c_out s) (apply_client_id (ng_client_id (c_neg s)) (ca_assigned_client_id v))). apply apply_known; [exact J4|]. rewrite Hy. left. reflexivity.
      * intros [D|[_ [D|D]]]; [change (current s = CONNECTING) in D; congruence|discriminate D|discriminate D].
    + (* die *) eapply (J24_same _ _ _ _ J); try reflexivity; [right; split; [assumption|reflexivity]|]. exists []. split; [reflexivity|constructor].
    + (* closed *) match goal with H : sending _ = false |- _ => rename H into Hs end. split; [destruct J1 as [J1|[[D _]|J1]]; [left; exact J1|rewrite D in Hs; discriminate Hs|right; right; exact J1]|].
      split; [exact J2|]. split; [intros D; rewrite D in Hs; discriminate Hs|]. split; [exact J4|]. intros [D|[D _]]; [apply J5; left; exact D|rewrite D in Hs; discriminate Hs].
    + destruct (enqueue_eq p override s) as (o & x & -> & _). same J. eexists [_]. split; [reflexivity|repeat constructor].
    + destruct (publish_received_eq acquire v s) as (m & c & [(_ & -> & _)|[(_ & _ & ->)|(_ & _ & _ & ->)]] & _); same J; eexists [_; _]; (split; [reflexivity|repeat constructor]).
    + destruct (manual_core_eq control s) as (m & x & -> & [(id & _ & _ & ->)|(_ & r & -> & _)]); same J; [eexists [_]|eexists [_; _]]; (split; [reflexivity|repeat constructor]).
    + unfold reset_manual. destruct (mc s); same J; exists []; (split; [reflexivity|constructor]).
    + destruct (cs_shape inc una o s) as [x ->]. same J. exists []. split; [reflexivity|constructor].
    + destruct (incomplete_eq s) as (l & x & -> & _). same J. exists []. split; [reflexivity|constructor].
    + match goal with H : bind_packet_id _ _ = _ |- _ => pose proof (bind_eq _ _ _ _ H) as Hb end. destruct Hb as [(-> & -> & _)|(id & _ & _ & -> & ->)]; same J; exists []; (split; [reflexivity|constructor]).
    + eapply (J24_same _ _ _ _ J); try reflexivity; [right; split; [assumption|reflexivity]|]. eexists [_]. split; [reflexivity|repeat constructor].
    + match goal with H : bind_packet_id _ _ = _ |- _ => pose proof (bind_eq _ _ _ _ H) as Hb end. destruct Hb as [(-> & -> & _)|(id & _ & _ & -> & ->)]; (eapply (J24_same _ _ _ _ J); try reflexivity; [right; split; [assumption|reflexivity]|]; eexists [_]; split; [reflexivity|repeat constructor]).
    + pose proof (finish_ctl cf now o s) as E. destruct (finish_encneg cf now o s) as [_ E2].
      eapply (J24_same _ _ _ _ J); [unfold current; rewrite E; reflexivity|unfold has_conn; rewrite E; reflexivity|exact E2|left; reflexivity|exists [O_SENT o]; split; [rewrite finish_out; reflexivity|repeat constructor]].
Qed.

(** ** The CONNECT packets waiting to be sent *)
Notation asks := (asks cf).
Definition J25 (x : ghost * client) : Prop := let '(g, s) := x in forall v, In (P_CONNECT v) (cur s ++ pk (queued s)) -> asks (before_attempt (c_out s)) v.
Lemma J25_same g s g' s' : J25 (g, s) -> (forall v, In (P_CONNECT v) (cur s' ++ pk (queued s')) -> In (P_CONNECT v) (cur s ++ pk (queued s))) -> before_attempt (c_out s') = before_attempt (c_out s) -> J25 (g', s').
Proof. intros J H E v Hv. rewrite E. apply J, H, Hv. Qed.
Lemma connect_asks g s : reach (g, s) -> ok s -> current s = MQTT_CONNECT -> g_link g = FINE -> asks (before_attempt (c_out s)) (with_client_id (ng_client_id (c_neg s)) (connect_view cf s)).
Proof.
  intros R Ok C Lk. destruct (reach_J24 _ _ R Ok) as (_ & J2 & _ & _ & J5). split; [|split; [|repeat split]].
  - change (negb (should_resume cf s) = negb (resumes cf (before_attempt (c_out s)))). f_equal. apply resume_eq, J2. right. exact C.
  - apply J5. right. auto.
Qed.
Lemma no_connect p : is_request p = true \/ is_puback p = true \/ satisfies_policy cf p = true \/ requires_ack p = true -> forall v, p <> P_CONNECT v.
Proof. intros H v ->. destruct H as [H|[H|[H|H]]]; try discriminate H. unfold satisfies_policy in H. destruct (cf_queue cf); discriminate H. Qed.
Ltac jsm J := eapply (J25_same _ _ _ _ J); [intros v0 Hv0; try exact Hv0|reflexivity].
Lemma reach_J25 g s : reach (g, s) -> ok s -> J25 (g, s).
Proof.
  intros R Ok. refine (reach_inv cf now0 J25 _ _ _ (g, s) R Ok).
  - intros v [].
  - intros s1 now _ _ J. exact J.
  - clear. intros g s g' s' R Ok Ok' J P. pose proof (reach_J0 cf now0 _ _ R Ok) as (Ja & _ & _ & Jp).
    inversion P; subst; clear P; repeat match goal with H : ok _ -> _ |- _ => specialize (H Ok) end; try exact J.
    all: try (jsm J; fail).
    + match goal with H : hush _ _ |- _ => destruct H as [H _]; apply core_inv in H end. assert (curop s' = curop s /\ queued s' = queued s /\ c_out s' = c_out s) as (E1 & E2 & E3) by tauto.
      unfold J25, cur in *. rewrite E1, E2, E3. exact J.
    + exfalso. exact (not_ok_crash _ _ Ok').
    + (* neutral *) destruct x; try discriminate; jsm J.
    + (* attempt *) match goal with H : (current s = _ \/ _) /\ _ |- _ => destruct H as [C _] end. destruct Jp as (Hcu & _ & _ & _ & Hq & _); [destruct C as [-> | ->]; reflexivity|].
      intros v Hv. exfalso. change (In (P_CONNECT v) (cur s ++ pk (queued s))) in Hv. unfold cur in Hv. rewrite Hcu in Hv. apply in_map_iff in Hv as (o & E & Hi). rewrite Forall_forall in Hq. specialize (Hq o Hi). exact (no_connect _ (or_intror (or_intror (or_introl Hq))) _ E).
    + (* enqueue *) destruct (enqueue_eq p override s) as (o & x & -> & Hp & _). match goal with H : is_request p = true /\ _ |- _ => destruct H as [Hr _] end.
      jsm J. change (In (P_CONNECT v0) (cur s ++ pk (queued s ++ [o]))) in Hv0. unfold pk in *. rewrite map_app, !in_app_iff in Hv0. rewrite in_app_iff. destruct Hv0 as [H|[H|[H|[]]]]; auto. exfalso.
      rewrite Hp in H. destruct p; try discriminate Hr; discriminate H.
    + (* push front *) match goal with H : forall v, p = P_CONNECT v -> _ |- _ => rename H into Hv end. intros v Hi. change (In (P_CONNECT v) (cur s ++ p :: pk (queued s))) in Hi.
      apply in_app_iff in Hi as [Hi|[->|Hi]]; [apply J, in_or_app; auto| |apply J, in_or_app; auto].
      match goal with H : current s = _ /\ _ |- _ => destruct H as (C & Lk & _) end. rewrite (Hv v eq_refl). exact (connect_asks g' s R Ok C Lk).
    + (* push disconnect *) jsm J. change (In (P_CONNECT v0) (cur s ++ P_DISCONNECT v :: pk (queued s))) in Hv0. rewrite in_app_iff in *. destruct Hv0 as [H|[H|H]]; auto. discriminate H.
    + (* publish *) assert (forall id w m l, In (P_CONNECT l) (cur s ++ pk (insert_puback (op_new id w (P_PUBACK m) 0) (queued s))) -> In (P_CONNECT l) (cur s ++ pk (queued s))) as Hin.
      { intros id w m l Hi. rewrite in_app_iff in *. destruct Hi as [Hi|Hi]; [auto|]. apply in_map_iff in Hi as (o & E & Hi). apply (Permutation_in o (insert_puback_perm _ _)) in Hi as [<-|Hi]; [discriminate E|]. right. apply in_map_iff. eauto. }
      destruct (publish_received_eq acquire v s) as (m & c & [(_ & -> & _)|[(_ & _ & ->)|(_ & _ & _ & ->)]] & _); jsm J. exact (Hin _ _ _ _ Hv0).
    + (* manual *) assert (forall id w m l, In (P_CONNECT l) (cur s ++ pk (insert_puback (op_new id w (P_PUBACK m) 0) (queued s))) -> In (P_CONNECT l) (cur s ++ pk (queued s))) as Hin.
      { intros id w m l Hi. rewrite in_app_iff in *. destruct Hi as [Hi|Hi]; [auto|]. apply in_map_iff in Hi as (o & E & Hi). apply (Permutation_in o (insert_puback_perm _ _)) in Hi as [<-|Hi]; [discriminate E|]. right. apply in_map_iff. eauto. }
      destruct (manual_core_eq control s) as (m & x & -> & [(id & _ & _ & ->)|(_ & r & -> & _)]); jsm J. exact (Hin _ _ _ _ Hv0).
    + unfold reset_manual. destruct (mc s); jsm J.
    + (* take *) match goal with H : queued s = _ |- _ => rename H into Hq end. jsm J. change (In (P_CONNECT v0) (cur s ++ pk q)) in Hv0. rewrite Hq. rewrite in_app_iff in *. destruct Hv0 as [H|H]; [auto|right; right; exact H].
    + (* take queued *) match goal with H : Permutation _ _ /\ down _ _ |- _ => destruct H as [Hp Hd] end. jsm J. change (In (P_CONNECT v0) (cur s ++ pk q)) in Hv0. rewrite in_app_iff in *. destruct Hv0 as [H|H]; [auto|right].
      apply in_map_iff in H as (o & E & Hi). apply in_map_iff. exists o. split; [exact E|]. rewrite Hp. apply in_or_app. auto.
    + destruct (cs_shape inc una o s) as [x ->]. jsm J.
    + (* unsend *) match goal with H : curop s = Some o |- _ => rename H into Hcu end. jsm J. unfold cur in *. rewrite Hcu. exact Hv0.
    + (* requeue *) jsm J. unfold all_acked in Ja. rewrite Forall_forall in Ja. apply in_app_iff in Hv0 as [H|H]; [apply in_or_app; auto|]. apply in_map_iff in H as (o & E & Hi). change (queued (set_unacked ?a (set_queued ?b ?c))) with b in Hi.
      rewrite !in_app_iff, !filter_In in Hi. destruct Hi as [[Hi _]|[[Hi _]|Hi]]; [exfalso|exfalso|apply in_or_app; right; apply in_map_iff; eauto]; exact (no_connect _ (or_intror (or_intror (or_intror (Ja o Hi)))) _ E).
    + (* refile *) jsm J. unfold all_acked in Ja. rewrite Forall_forall in Ja. apply in_app_iff in Hv0 as [H|H]; [apply in_or_app; auto|]. apply in_map_iff in H as (o & E & Hi). change (queued (set_queued ?b ?c)) with b in Hi.
      rewrite !in_app_iff, !filter_In in Hi. destruct Hi as [[Hi _]|Hi]; [exfalso|apply in_or_app; right; apply in_map_iff; eauto]; exact (no_connect _ (or_intror (or_intror (or_intror (Ja o Hi)))) _ E).
    + (* incomplete *) destruct (incomplete_eq s) as (l & x & -> & Hp & _). jsm J. change (In (P_CONNECT v0) (cur s ++ pk l)) in Hv0. unfold pk in *. rewrite Hp in Hv0. exact Hv0.
    + (* start *) match goal with H : queued s = _ |- _ => rename H into Hq end. match goal with H : bind_packet_id _ _ = _ |- _ => pose proof (bind_eq _ _ _ _ H) as Hb end.
      assert (op_packet o' = op_packet o \/ forall v, op_packet o' <> P_CONNECT v) as Ho by (destruct Hb as [(-> & _)|(id & _ & Hn & -> & _)]; [auto|right; intros v E; cbn [op_packet set_packet] in E; destruct (op_packet o); try discriminate Hn; discriminate E]).
      assert (c_out s1 = c_out s /\ queued s1 = q) as [E1 E2] by (destruct Hb as [(-> & -> & _)|(id & _ & _ & -> & ->)]; split; reflexivity).
      eapply (J25_same _ _ _ _ J); [|change (c_out (set_curop ?a (set_c_enc e s1))) with (c_out s1); rewrite E1; reflexivity].
      intros v Hv. change (In (P_CONNECT v) (op_packet o' :: pk (queued s1))) in Hv. rewrite E2 in Hv. rewrite Hq. apply in_or_app. right. destruct Hv as [Hv|Hv]; [|right; exact Hv]. left. destruct Ho as [Ho|Ho]; [congruence|contradiction (Ho _ Hv)].
    + (* start fails *) match goal with H : queued s = _ |- _ => rename H into Hq end. jsm J. change (In (P_CONNECT v0) (cur s ++ pk q)) in Hv0. rewrite Hq. rewrite in_app_iff in *. destruct Hv0 as [H|H]; [auto|right; right; exact H].
    + (* append fails *) match goal with H : queued s = _ |- _ => rename H into Hq end. match goal with H : bind_packet_id _ _ = _ |- _ => pose proof (bind_eq _ _ _ _ H) as Hb end.
      assert (c_out s1 = c_out s /\ queued s1 = q /\ curop s1 = curop s) as (E1 & E2 & E3) by (destruct Hb as [(-> & -> & _)|(id & _ & _ & -> & ->)]; repeat split).
      eapply (J25_same _ _ _ _ J); [|change (c_out (emit ?a (set_c_enc e s1))) with (a :: c_out s1); rewrite E1; reflexivity].
      intros v Hv. change (In (P_CONNECT v) (cur s1 ++ pk (queued s1))) in Hv. unfold cur in *. rewrite E2, E3 in Hv. rewrite Hq. rewrite in_app_iff in *. destruct Hv as [H|H]; [auto|right; right; exact H].
    + (* sent *) match goal with H : g_link _ = FINE /\ _ |- _ => destruct H as (Hg & _ & _ & Hs & _ & Ht & Hi) end.
      assert (exists s1, finish_operation cf now o s = s1 /\ queued s1 = queued s /\ c_out s1 = O_SENT o :: c_out s /\ curop s1 = None) as (s1 & -> & E3 & E4 & E5).
      { eexists. split; [reflexivity|]. pose proof (finish_eq cf now o s Ht Hi) as F. cbv zeta in F. destruct (requires_ack (op_packet o)); [destruct F as (o' & x & -> & _)|destruct F as (t & ->)]; [destruct (is_acked_publish (op_packet o)); repeat split|repeat split]. }
      eapply (J25_same _ _ _ _ J); [|rewrite E4; reflexivity]. unfold cur. rewrite E5, E3. intros v Hv. apply in_or_app. right. exact Hv.
Qed.

(** what is sent and what is announced *)
Lemma connect_sent g s later o earlier v : reach (g, s) -> ok s -> c_out s = later ++ O_SENT o :: earlier -> op_packet o = P_CONNECT v -> asks (before_attempt earlier) v.
Proof.
  intros R Ok E Ev. destruct (event_cause _ _ _ _ _ _ _ R Ok E) as (g1 & s1 & g2 & s2 & d1 & d2 & x' & R1 & O1 & _ & _ & Cs & _ & Ey & _).
  pose proof (reach_J25 _ _ R1 O1) as J. inversion Cs; subst; try discriminate. 
  cbn [app]. apply J. unfold cur. match goal with H : curop s1 = Some o |- _ => rewrite H end. left. exact Ev.
Qed.
Lemma success_session g s later n v earlier : reach (g, s) -> ok s -> c_out s = later ++ O_LIFE (CONNECTION_SUCCESS n v) :: earlier -> ca_session_present v = true -> resumes cf (before_attempt earlier) = true.
Proof.
  intros R Ok E Ev. destruct (event_cause _ _ _ _ _ _ _ R Ok E) as (g1 & s1 & g2 & s2 & d1 & d2 & x' & R1 & O1 & _ & _ & Cs & _ & Ey & _).
  destruct (reach_J24 _ _ R1 O1) as (_ & _ & J & _). destruct (reach_J10 cf now0 _ _ R1 O1) as (_ & _ & J10). inversion Cs; subst; try discriminate. 
  match goal with H : g_link g1 = ACKED v |- _ => rename H into Lk end. destruct (J10 v Lk) as (_ & _ & m & s0 & Hn). cbn [app]. apply J; [assumption|eauto|]. rewrite Hn. exact Ev.
Qed.
End Session.
