(** The present connection: what was negotiated, what may be sent, how much may be in flight. *)
From Verif Require Import Base BaseLemmas Mqtt5_Views TopicAlias_Model Encoder5_Model Decoder5_Model RateLimiter_Model RateLimiter_Spec
  RateLimiter_Proofs Validate5_Model Negotiated_Model Client5_State Client5_Model Client5_Spec Client5_Steps Client5_Decomp Client5_Decomp2
  Client5_Forms Client5_Decomp3 Client5_Inv0 Client5_Flow Client5_Safety Client5_Decomp4 Client5_Ops Client5_Crash.
From Coq Require Import Permutation.
Ltac Zify.zify_post_hook ::= idtac.

(** within the limits, apart from the two bytes of a packet id that is assigned after the check (3376, 3392) *)
Lemma needs_id_0 p : needs_packet_id p = true -> packet_id p = 0.
Proof. destruct p; cbn [needs_packet_id packet_id]; try discriminate; try (destruct (pb_qos v =? 0); [discriminate|]); cbn [packet_id]; intros E; apply N.eqb_eq, E. Qed.
Definition within (l : limits) (p : packet5) : Prop := validate_vs_settings l p = true \/ validate_vs_settings l (set_packet_id 0 p) = true.
Lemma set_id_back id p : packet_id p = 0 -> set_packet_id 0 (set_packet_id id p) = p.
Proof. destruct p; cbn [packet_id set_packet_id]; intros E; try reflexivity; destruct v; cbn in *; subst; reflexivity. Qed.

Section Conn.
Variable cf : config.
Variable now0 : N.
Notation prim := (prim cf).
Notation reach := (reach cf now0).

(** ** The settings are those of the CONNECT and CONNACK of this connection *)
Definition rx_here (p : packet5) (l : list out) : Prop :=
  exists later earlier, l = later ++ I_PACKET p :: earlier /\ Forall (fun x => is_attempt x = false) later.
Lemma rx_here_more p d l : rx_here p l -> Forall (fun x => is_attempt x = false) d -> rx_here p (d ++ l).
Proof. intros (a & b & -> & H) Hd. exists (d ++ a), b. split; [apply app_assoc|]. apply Forall_app. auto. Qed.
Definition J10 (x : ghost * client) : Prop := let '(g, s) := x in
  ng_receive_maximum (c_neg s) < 65536 /\
  (current s = MQTT_CONNECT -> g_link g = FINE -> exists m s0, c_neg s = ng_reset m (connect_view cf s0)) /\
  (forall v, g_link g = ACKED v -> rx_here (P_CONNACK v) (c_out s) /\ ca_reason_code v < 128 /\ exists m s0, c_neg s = ng_apply (ng_reset m (connect_view cf s0)) v).
Lemma J10_same g s g' s' : J10 (g, s) -> c_neg s' = c_neg s -> current s' = current s -> g_link g' = g_link g ->
  (exists d, c_out s' = d ++ c_out s /\ Forall (fun x => is_attempt x = false) d) -> J10 (g', s').
Proof.
  intros (J1 & J2 & J3) E1 E2 E3 (d & E4 & Hd). unfold J10. rewrite E1, E2, E3, E4. split; [exact J1|]. split; [exact J2|].
  intros v Hv. destruct (J3 _ Hv) as (H1 & H2). split; [apply rx_here_more; assumption|exact H2].
Qed.
Lemma prim_attempts g s g' s' : ok s -> prim (g, s) (g', s') ->
  (c_out s' = O_LIFE ATTEMPTING_CONNECT :: c_out s /\ g' = g /\ s' = emit (O_LIFE ATTEMPTING_CONNECT) (set_life LS_CONNECTING (set_current CONNECTING s)) /\
    g_link g = FINE /\ (current s = STOPPED \/ current s = PENDING_RECONNECT)) \/ exists d, c_out s' = d ++ c_out s /\ Forall (fun x => is_attempt x = false) d.
Proof.
  intros Ok P. inversion P; subst; clear P; repeat match goal with H : ok _ -> _ |- _ => specialize (H Ok) end;
    try (right; exists []; split; [reflexivity|constructor]; fail);
    try (right; eexists [_]; split; [reflexivity|repeat constructor]; fail); try (right; eexists [_; _]; split; [reflexivity|repeat constructor]; fail).
  - match goal with H : hush _ _ |- _ => destruct H as [H _]; apply core_inv in H end. right. exists []. split; [cbn [app]; tauto|constructor].
  - right. exists []. rewrite crash_eq. split; [reflexivity|constructor].
  - right. exists [x]. split; [reflexivity|]. constructor; [destruct x; try discriminate; reflexivity|constructor].
  - left. tauto.
  - right. destruct (enqueue_eq p override s) as (o & x & -> & _). eexists [_]. split; [reflexivity|repeat constructor].
  - right. destruct (publish_received_eq acquire v s) as (m & c & [(_ & -> & _)|[(_ & _ & ->)|(_ & _ & _ & ->)]] & _); eexists [_; _]; (split; [reflexivity|repeat constructor]).
  - right. destruct (manual_core_eq control s) as (m & x & -> & [(id & _ & _ & ->)|(_ & r & -> & _)]); [eexists [_]|eexists [_; _]]; (split; [reflexivity|repeat constructor]).
  - right. exists []. unfold reset_manual. destruct (mc s); (split; [reflexivity|constructor]).
  - right. exists []. destruct (cs_shape inc una o s) as [x ->]. split; [reflexivity|constructor].
  - right. exists []. destruct (incomplete_eq s) as (l & x & -> & _). split; [reflexivity|constructor].
  - right. exists []. match goal with H : bind_packet_id _ _ = _ |- _ => pose proof (bind_eq _ _ _ _ H) as Hb end. destruct Hb as [(-> & -> & _)|(id & _ & _ & -> & ->)]; (split; [reflexivity|constructor]).
  - right. eexists [_]. match goal with H : bind_packet_id _ _ = _ |- _ => pose proof (bind_eq _ _ _ _ H) as Hb end. destruct Hb as [(-> & -> & _)|(id & _ & _ & -> & ->)]; (split; [reflexivity|repeat constructor]).
  - right. eexists [_]. rewrite finish_out. split; [reflexivity|repeat constructor].
Qed.
Lemma reach_J10 g s : reach (g, s) -> ok s -> J10 (g, s).
Proof.
  intros R Ok. refine (reach_inv cf now0 J10 _ _ _ (g, s) R Ok).
  - split; [reflexivity|]. split; [discriminate|discriminate].
  - intros s1 now _ _ J. apply (J10_same _ _ _ _ J); try reflexivity. exists [I_TICK now]. split; [reflexivity|repeat constructor].
  - clear. intros g s g' s' R Ok Ok' J P. destruct (prim_attempts _ _ _ _ Ok P) as [(Ha & -> & -> & Hg & Hc)|Hd].
    { destruct J as (J1 & J2 & J3). split; [exact J1|]. split; [discriminate|]. congruence. }
    inversion P; subst; clear P; repeat match goal with H : ok _ -> _ |- _ => specialize (H Ok) end;
      try (refine (J10_same _ _ _ _ J _ _ _ Hd); reflexivity).
    + match goal with H : hush _ _ |- _ => destruct H as [H _]; apply core_inv in H end. refine (J10_same _ _ _ _ J _ _ _ Hd); first [reflexivity|tauto].
    + exfalso. exact (not_ok_crash _ _ Ok').
    + (* attempt *) exfalso. destruct Hd as (d & Hd & Hf). change (c_out (emit ?a ?b)) with (a :: c_out s) in Hd. destruct d as [|x d]; [apply (f_equal (@length _)) in Hd; cbn [app length] in Hd; lia|].
      injection Hd as <- _. inversion Hf; subst. discriminate.
    + (* success *) destruct J as (J1 & J2 & J3). split; [exact J1|]. split; [|discriminate]. intros E. change (current s = MQTT_CONNECT) in E. intuition congruence.
    + (* state *) destruct J as (J1 & J2 & J3). split; [exact J1|]. change (current (set_current c ?b)) with c. change (c_out (set_current c ?b)) with (c_out s). change (c_neg (set_current c ?b)) with (c_neg s).
      destruct c; cbn [edge g_link with_link] in *; (split; [discriminate|]); try exact J3; discriminate.
    + (* open *) split; [reflexivity|]. split; [|discriminate]. intros _ _. eexists _, _. reflexivity.
    + (* apply *) match goal with H : _ /\ _ |- _ => destruct H as (Hc & Hg & Hr & y & Hy) end. destruct J as (J1 & J2 & J3). destruct (J2 Hc Hg) as (m & s0 & E).
      change (c_neg (set_c_neg ?a s)) with a. change (c_out (set_c_neg ?a s)) with (c_out s). split; [|split; [discriminate|]].
      * change (or_else16 (ca_receive_maximum v) (ng_receive_maximum (c_neg s)) < 65536). unfold or_else16. destruct (ca_receive_maximum v) as [x|]; [apply N.mod_lt; discriminate|exact J1].
      * intros v' Hv'. injection Hv' as <-. split; [exists [], y; split; [exact Hy|constructor]|]. split; [exact Hr|]. exists m, s0. change (ng_apply (c_neg s) v = ng_apply (ng_reset m (connect_view cf s0)) v). rewrite E. reflexivity.
    + (* die *) destruct J as (J1 & J2 & J3). split; [exact J1|]. split; discriminate.
    + (* closed *) destruct J as (J1 & J2 & J3). split; [exact J1|]. split; [|discriminate]. intros E. rewrite E in *. discriminate.
    + destruct (enqueue_eq p override s) as (o & x & E & _). rewrite E in *. refine (J10_same _ _ _ _ J _ _ _ Hd); reflexivity.
    + destruct (publish_received_eq acquire v s) as (m & c & [(_ & E & _)|[(_ & _ & E)|(_ & _ & _ & E)]] & _); rewrite E in *; refine (J10_same _ _ _ _ J _ _ _ Hd); reflexivity.
    + destruct (manual_core_eq control s) as (m & x & E & [(id & _ & _ & ->)|(_ & r & -> & _)]); rewrite E in *; refine (J10_same _ _ _ _ J _ _ _ Hd); reflexivity.
    + unfold reset_manual in *. destruct (mc s); refine (J10_same _ _ _ _ J _ _ _ Hd); reflexivity.
    + destruct (cs_shape inc una o s) as [x E]. rewrite E in *. refine (J10_same _ _ _ _ J _ _ _ Hd); reflexivity.
    + destruct (incomplete_eq s) as (l & x & E & _). rewrite E in *. refine (J10_same _ _ _ _ J _ _ _ Hd); reflexivity.
    + match goal with H : bind_packet_id _ _ = _ |- _ => pose proof (bind_eq _ _ _ _ H) as Hb; clear H end. destruct Hb as [(-> & -> & _)|(id & _ & _ & -> & ->)]; refine (J10_same _ _ _ _ J _ _ _ Hd); reflexivity.
    + destruct J as (J1 & J2 & J3). split; [exact J1|]. split; discriminate.
    + match goal with H : bind_packet_id _ _ = _ |- _ => pose proof (bind_eq _ _ _ _ H) as Hb; clear H end. destruct J as (J1 & J2 & J3).
      destruct Hb as [(-> & -> & _)|(id & _ & _ & -> & ->)]; (split; [exact J1|]; split; discriminate).
    + refine (J10_same _ _ _ _ J _ _ _ Hd); [apply finish_encneg|unfold current; rewrite finish_ctl; reflexivity|reflexivity].
Qed.
Definition opening (p : packet5) : bool := is_connect p || is_disconnect p.
Definition J8 (x : ghost * client) : Prop := let '(g, s) := x in
  match settings_of (c_out s) with
  | Some n =>
    c_neg s = n /\ current s <> CONNECTING /\ current s <> MQTT_CONNECT /\ (forall v, g_link g <> ACKED v) /\
    (forall o, curop s = Some o -> opening (op_packet o) = true \/ within (limits_of cf s) (op_packet o)) /\
    count_here publish_sent (c_out s) + tokens s <= ng_receive_maximum n + count_here puback_came (c_out s) /\
    tokens s <= ng_receive_maximum n /\ ng_receive_maximum n <= tokens s + count_here publish_sent (c_out s)
  | None =>
    (forall o, curop s = Some o -> opening (op_packet o) = true) /\ (current s = CONNECTED -> exists v, g_link g = ACKED v) /\ count_here publish_sent (c_out s) = 0
  end.
(** nothing of this changes *)
Definition same8 (g : ghost) (s : client) (g' : ghost) (s' : client) : Prop :=
  c_neg s' = c_neg s /\ current s' = current s /\ g_link g' = g_link g /\ tokens s' = tokens s /\ (curop s' = None \/ curop s' = curop s) /\
  exists d, c_out s' = d ++ c_out s /\ Forall (fun x => match x with O_LIFE (CONNECTION_SUCCESS _ _) | O_LIFE ATTEMPTING_CONNECT | O_SENT _ => False | _ => True end) d.
Lemma count_app f d l : Forall (fun x => match x with O_LIFE (CONNECTION_SUCCESS _ _) | O_LIFE ATTEMPTING_CONNECT | O_SENT _ => False | _ => True end) d ->
  count_here f l <= count_here f (d ++ l) /\ settings_of (d ++ l) = settings_of l /\ count_here publish_sent (d ++ l) = count_here publish_sent l.
Proof.
  induction 1 as [|x d Hx Hd (I1 & I2 & I3)]; [repeat split; apply N.le_refl|].
  cbn [app]. destruct x as [e| | | | | | | | | | | | |]; try contradiction; try destruct e; try contradiction; cbn [count_here settings_of publish_sent];
    (split; [try (destruct (f _)); lia|split; [exact I2|try exact I3; rewrite I3; reflexivity]]).
Qed.
Lemma J8_same g s g' s' : same8 g s g' s' -> J8 (g, s) -> J8 (g', s').
Proof.
  intros (E1 & E2 & E3 & E4 & E5 & d & E6 & Hd) J. unfold J8 in *. rewrite E6. destruct (count_app puback_came _ (c_out s) Hd) as (C1 & -> & ->).
  assert (limits_of cf s' = limits_of cf s) as El by (unfold limits_of; rewrite E1; reflexivity). rewrite E1, E2, E3, E4, El.
  destruct (settings_of (c_out s)) as [n|].
  - destruct J as (J1 & J2 & J3 & J4 & J5 & J6). repeat (split; [assumption|]). split; [|lia]. intros o Ho. destruct E5 as [E5|E5]; rewrite E5 in Ho; [discriminate|auto].
  - destruct J as (J1 & J2 & J3). split; [|auto]. intros o Ho. destruct E5 as [E5|E5]; rewrite E5 in Ho; [discriminate|auto].
Qed.
Lemma same8_0 g s g' s' : c_neg s' = c_neg s -> current s' = current s -> g_link g' = g_link g -> tokens s' = tokens s -> curop s' = curop s -> c_out s' = c_out s -> same8 g s g' s'.
Proof. intros. repeat (split; [assumption||auto|]). exists []. split; [assumption|constructor]. Qed.
Lemma same8_1 a g s g' s' : c_neg s' = c_neg s -> current s' = current s -> g_link g' = g_link g -> tokens s' = tokens s -> curop s' = curop s -> c_out s' = a :: c_out s ->
  match a with O_LIFE (CONNECTION_SUCCESS _ _) | O_LIFE ATTEMPTING_CONNECT | O_SENT _ => False | _ => True end -> same8 g s g' s'.
Proof. intros. repeat (split; [assumption||auto|]). exists [a]. split; [assumption|constructor; [assumption|constructor]]. Qed.
Lemma same8_2 a b g s g' s' : c_neg s' = c_neg s -> current s' = current s -> g_link g' = g_link g -> tokens s' = tokens s -> curop s' = curop s -> c_out s' = a :: b :: c_out s ->
  match a with O_LIFE (CONNECTION_SUCCESS _ _) | O_LIFE ATTEMPTING_CONNECT | O_SENT _ => False | _ => True end ->
  match b with O_LIFE (CONNECTION_SUCCESS _ _) | O_LIFE ATTEMPTING_CONNECT | O_SENT _ => False | _ => True end -> same8 g s g' s'.
Proof. intros. repeat (split; [assumption||auto|]). exists [a; b]. split; [assumption|repeat (constructor; [assumption|]); constructor]. Qed.
Ltac s0 := apply same8_0; reflexivity.
Ltac s1 := first [eapply same8_1; [reflexivity|reflexivity|reflexivity|reflexivity|reflexivity|reflexivity|exact I]
                 |eapply same8_2; [reflexivity|reflexivity|reflexivity|reflexivity|reflexivity|reflexivity|exact I|exact I]].

Lemma reach_J8 g s : reach (g, s) -> ok s -> J8 (g, s).
Proof.
  intros R Ok. refine (reach_inv cf now0 J8 _ _ _ (g, s) R Ok).
  - split; [discriminate|]. split; [discriminate|reflexivity].
  - intros s1 now _ _. apply J8_same. s1.
  - clear. intros g s g' s' R Ok Ok' J P. pose proof (reach_J0 cf now0 _ _ R Ok) as J0.
    assert (forall g1, g_link g1 = FINE -> (current s = CONNECTED -> exists v, g_link g1 = ACKED v) -> current s = CONNECTED -> exists v, DEAD = ACKED v) as Hfd.
    { intros g1 H1 H2 H3. destruct (H2 H3) as [v H4]. congruence. }
    inversion P; subst; clear P; repeat match goal with H : ok _ -> _ |- _ => specialize (H Ok) end; try (refine (J8_same _ _ _ _ _ J); first [s0|s1]; fail).
    + match goal with H : hush _ _ |- _ => destruct H as [H _]; apply core_inv in H end. refine (J8_same _ _ _ _ _ J). apply same8_0; tauto.
    + exfalso. exact (not_ok_crash _ _ Ok').
    + refine (J8_same _ _ _ _ _ J). destruct x; try discriminate; s1.
    + destruct J0 as (_ & _ & _ & J0). match goal with H : _ /\ life s = _ |- _ => destruct H as [Hc Hl] end. assert (cleared cf s) as (Hcl & _) by (apply J0; destruct Hc as [-> | ->]; reflexivity).
      unfold J8. cbn [settings_of c_out emit set_c_out]. change (curop (emit ?a ?b)) with (curop s). rewrite Hcl. split; [discriminate|]. split; [discriminate|reflexivity].
    + match goal with H : startable _ /\ _ |- _ => destruct H as (Hst & Hc & Hg & _ & Ht & _) end. unfold J8. change (settings_of (c_out (emit (O_LIFE (CONNECTION_SUCCESS (c_neg s) v)) ?b))) with (Some (c_neg s)).
      cbv iota. split; [reflexivity|]. split; [change (current s <> CONNECTING); congruence|]. split; [change (current s <> MQTT_CONNECT); congruence|]. split; [discriminate|].
      split; [|change (0 + tokens s <= ng_receive_maximum (c_neg s) + 0 /\ tokens s <= ng_receive_maximum (c_neg s) /\ ng_receive_maximum (c_neg s) <= tokens s + 0); lia]. intros o Ho. change (curop s = Some o) in Ho.
      unfold J8 in J. destruct (settings_of (c_out s)) as [n|]; [|left; apply J, Ho]. exfalso. destruct J as (_ & _ & _ & J & _). exact (J _ Hg).
    + (* state *) unfold J8 in *. change (settings_of (c_out (set_current c ?b))) with (settings_of (c_out s)). change (c_neg (set_current c ?b)) with (c_neg s).
      change (current (set_current c ?b)) with c. change (curop (set_current c ?b)) with (curop s). change (tokens (set_current c ?b)) with (tokens s). change (c_out (set_current c ?b)) with (c_out s).
      change (limits_of cf (set_current c ?b)) with (limits_of cf s). destruct (settings_of (c_out s)) as [n|].
      * destruct J as (J1 & J2 & J3 & J4 & J5 & J6). split; [exact J1|]. destruct c; cbn [edge] in *; try contradiction; (split; [discriminate|]); (split; [discriminate|]); (split; [exact J4|]); auto.
      * destruct J as (J1 & J2 & J3). split; [exact J1|]. split; [|exact J3]. intros ->. cbn [edge] in *. tauto.
    + (* open *) match goal with H : _ /\ _ |- _ => destruct H as (Hc & Hg & Hn) end. unfold J8 in *. change (settings_of (c_out (set_c_neg ?a ?b))) with (settings_of (c_out s)).
      destruct (settings_of (c_out s)) as [n|]; [exfalso; destruct J as (_ & _ & J & _); exact (J Hc)|]. destruct J as (J1 & J2 & J3). split; [exact J1|]. split; [|exact J3]. change (current (set_c_neg ?a ?b)) with (current s). congruence.
    + (* apply *) match goal with H : _ /\ _ |- _ => destruct H as (Hc & Hg & Hn) end. unfold J8 in *. change (settings_of (c_out (set_c_neg ?a ?b))) with (settings_of (c_out s)).
      destruct (settings_of (c_out s)) as [n|]; [exfalso; destruct J as (_ & _ & J & _); exact (J Hc)|]. destruct J as (J1 & J2 & J3). split; [exact J1|]. split; [|exact J3]. intros _. exists v. reflexivity.
    + (* die *) unfold J8 in *. destruct (settings_of (c_out s')) as [n|].
      * destruct J as (J1 & J2 & J3 & J4 & J5 & J6). repeat (split; [assumption|]). split; [discriminate|]. auto.
      * destruct J as (J1 & J2 & J3). split; [exact J1|]. split; [apply (Hfd g); assumption|exact J3].
    + (* closed *) unfold J8 in *. destruct (settings_of (c_out s')) as [n|].
      * destruct J as (J1 & J2 & J3 & J4 & J5 & J6). repeat (split; [assumption|]). split; [discriminate|]. auto.
      * destruct J as (J1 & J2 & J3). split; [exact J1|]. split; [|exact J3]. intros E. exfalso. rewrite E in *. discriminate.
    + destruct (enqueue_eq p override s) as (o & x & -> & _). refine (J8_same _ _ _ _ _ J). s1.
    + destruct (publish_received_eq acquire v s) as (m & c & [(_ & -> & _)|[(_ & _ & ->)|(_ & _ & _ & ->)]] & _); (refine (J8_same _ _ _ _ _ J); s1).
    + destruct (manual_core_eq control s) as (m & x & -> & [(id & _ & _ & ->)|(_ & r & -> & _)]); (refine (J8_same _ _ _ _ _ J); s1).
    + unfold reset_manual. destruct (mc s); (refine (J8_same _ _ _ _ _ J); s0).
    + destruct (cs_shape inc una o s) as [x ->]. refine (J8_same _ _ _ _ _ J); s0.
    + (* unsend *) refine (J8_same _ _ _ _ _ J). repeat (split; [reflexivity|]). split; [left; reflexivity|]. exists []. split; [reflexivity|constructor].
    + destruct (incomplete_eq s) as (l & x & -> & _). refine (J8_same _ _ _ _ _ J); s0.
    + (* start *) match goal with H : bind_packet_id _ _ = _ |- _ => pose proof (bind_eq _ _ _ _ H) as Hb; clear H end. match goal with H : curop s = None /\ _ |- _ => destruct H as (Hcu & Hg & Hv & Hst) end.
      assert (c_neg s1 = c_neg s /\ current s1 = current s /\ tokens s1 = tokens s /\ c_out s1 = c_out s /\ opening (op_packet o') = opening (op_packet o) /\
        (validate_vs_settings (limits_of cf s) (op_packet o) = true -> within (limits_of cf s) (op_packet o'))) as (E1 & E2 & E3 & E4 & E5 & E6).
      { destruct Hb as [(-> & -> & _)|(id & _ & Hnd & -> & ->)]; repeat split; try (intros Hw; unfold within); [left; exact Hw|cbn [op_packet set_packet]; destruct (op_packet o); reflexivity|].
        right. cbn [op_packet set_packet]. rewrite set_id_back; [exact Hw|apply needs_id_0; assumption]. }
      unfold J8 in *. change (c_out (set_curop ?a (set_c_enc ?b s1))) with (c_out s1). change (c_neg (set_curop ?a (set_c_enc ?b s1))) with (c_neg s1).
      change (current (set_curop ?a (set_c_enc ?b s1))) with (current s1). change (tokens (set_curop ?a (set_c_enc ?b s1))) with (tokens s1). change (curop (set_curop ?a (set_c_enc ?b s1))) with a.
      assert (limits_of cf (set_curop (Some o') (set_c_enc e s1)) = limits_of cf s) as El by (unfold limits_of; change (c_neg (set_curop ?a (set_c_enc ?b s1))) with (c_neg s1); rewrite E1; reflexivity).
      rewrite El, E1, E2, E3, E4. destruct (settings_of (c_out s)) as [n|].
      * destruct J as (J1 & J2 & J3 & J4 & J5 & J6). repeat (split; [assumption|]). split; [|exact J6]. intros x Hx. injection Hx as <-. right. apply E6.
        unfold validate_operation in Hv. assert (settings_valid s = true) as Hsv. { unfold settings_valid. destruct Hst as [[Hc _]|[Hc|[Hc _]]]; [congruence|rewrite Hc; reflexivity|rewrite Hc; reflexivity]. }
        rewrite Hsv in Hv. exact Hv.
      * destruct J as (J1 & J2 & J3). split; [|auto]. intros x Hx. injection Hx as <-. rewrite E5. unfold opening. destruct Hst as [[_ Hc]|[Hc|[_ Hc]]]; [rewrite Hc; reflexivity|exfalso; destruct (J2 Hc) as [v Hva]; congruence|rewrite Hc; apply orb_true_r].
    + (* start fails *) unfold J8 in *. change (c_out (emit (O_LOST o) (set_queued q s))) with (O_LOST o :: c_out s). cbn [settings_of count_here]. destruct (settings_of (c_out s)) as [n|].
      * destruct J as (J1 & J2 & J3 & J4 & J5 & J6). repeat (split; [assumption|]). split; [discriminate|]. split; [exact J5|]. exact J6.
      * destruct J as (J1 & J2 & J3). split; [exact J1|]. split; [apply (Hfd g); assumption|exact J3].
    + (* append fails *) match goal with H : bind_packet_id _ _ = _ |- _ => pose proof (bind_eq _ _ _ _ H) as Hb; clear H end.
      assert (J8 (g, s1)) as Js.
      { refine (J8_same _ _ _ _ _ J). destruct Hb as [(-> & -> & _)|(id & _ & _ & -> & ->)]; s0. }
      unfold J8 in *. change (c_out (emit (O_LOST o') (set_c_enc e s1))) with (O_LOST o' :: c_out s1). cbn [settings_of count_here]. destruct (settings_of (c_out s1)) as [n|].
      * destruct Js as (J1 & J2 & J3 & J4 & J5 & J6). repeat (split; [assumption|]). split; [discriminate|]. split; [exact J5|]. exact J6.
      * destruct Js as (J1 & J2 & J3). split; [exact J1|]. split; [intros E; change (current s1 = CONNECTED) in E; destruct (J2 E); congruence|exact J3].
    + (* sent *) match goal with H : g_link _ = FINE /\ _ |- _ => destruct H as (Hg & _ & _ & Hs & _ & Ht & Hi) end. pose proof (finish_eq cf now o s Ht Hi) as F. cbv zeta in F.
      assert (c_neg (finish_operation cf now o s) = c_neg s) as E1 by apply finish_encneg. assert (current (finish_operation cf now o s) = current s) as E2 by (unfold current; rewrite finish_ctl; reflexivity).
      pose proof (finish_out cf now o s) as E3. assert (curop (finish_operation cf now o s) = None /\ tokens (finish_operation cf now o s) = if is_acked_publish (op_packet o) then tokens s - 1 else tokens s) as [E4 E5].
      { destruct (requires_ack (op_packet o)) eqn:Hr; [destruct F as (o' & x & -> & _)|destruct F as (x & ->)].
        - destruct (is_acked_publish (op_packet o)); auto.
        - split; [reflexivity|]. destruct (op_packet o); try reflexivity. cbn [requires_ack is_acked_publish] in *. rewrite Hr. reflexivity. }
      assert (publish_sent (O_SENT o) = is_acked_publish (op_packet o)) as E6 by reflexivity.
      unfold J8 in *. rewrite E1, E2, E3, E4, E5. cbn [settings_of count_here]. rewrite E6. change (puback_came (O_SENT o)) with false. cbv iota.
      assert (limits_of cf (finish_operation cf now o s) = limits_of cf s) as El by (unfold limits_of; rewrite E1; reflexivity). destruct (settings_of (c_out s)) as [n|].
      * destruct J as (J1 & J2 & J3 & J4 & J5 & J6). repeat (split; [assumption|]). split; [discriminate|]. destruct (is_acked_publish (op_packet o)); [specialize (Ht eq_refl)|]; lia.
      * destruct J as (J1 & J2 & J3). split; [discriminate|]. split; [exact J2|]. specialize (J1 _ ltac:(eassumption)). rewrite J3.
        destruct (op_packet o); try discriminate; reflexivity.
    + (* tokens *) match goal with H : _ /\ _ |- _ => destruct H as (Hc & v & Hg) end. unfold J8 in *. change (c_out (set_tokens ?a s)) with (c_out s). destruct (settings_of (c_out s)) as [n|]; [exfalso; destruct J as (_ & _ & _ & J & _); exact (J _ Hg)|]. exact J.
    + (* puback *) unfold J8 in *. change (c_out (puback_received a s)) with (I_PACKET (P_PUBACK a) :: c_out s). cbn [settings_of count_here]. change (publish_sent (I_PACKET (P_PUBACK a))) with false. change (puback_came (I_PACKET (P_PUBACK a))) with true. cbv iota.
      destruct (settings_of (c_out s)) as [n|].
      * destruct J as (J1 & J2 & J3 & J4 & J5 & J6). repeat (split; [assumption|]). change (tokens (puback_received a s)) with (N.min (ng_receive_maximum (c_neg s)) ((tokens s + 1) mod 4294967296)).
        rewrite J1. destruct (reach_J10 _ _ R Ok) as (Hm & _). rewrite J1 in Hm. rewrite (N.mod_small (tokens s + 1)) by lia. lia.
      * destruct J as (J1 & J2 & J3). split; [exact J1|]. split; [exact J2|]. rewrite J3. reflexivity.
Qed.
End Conn.
