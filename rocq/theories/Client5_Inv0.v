(** Induction over the updates of Client5_Steps.v, and the invariant the later decomposition lemmas need. *)
From Verif Require Import Base BaseLemmas Mqtt5_Views TopicAlias_Model Encoder5_Model Decoder5_Model RateLimiter_Model RateLimiter_Spec
  RateLimiter_Proofs Validate5_Model Negotiated_Model Client5_State Client5_Model Client5_Spec Client5_Steps Client5_Decomp Client5_Decomp2 Client5_Forms Client5_Decomp3.
From Coq Require Import Permutation.
Ltac Zify.zify_post_hook ::= idtac.

Section Inv.
Variable cf : config.

(** ** Reachable states *)
Variable now0 : N.
Inductive reach : ghost * client -> Prop :=
| reach_new : reach (g_idle, client_new cf now0)
| reach_tick s now : reach (g_idle, s) -> reach (g_idle, emit (I_TICK now) s)
| reach_prim x y : reach x -> prim cf x y -> reach y.
Lemma reach_trans g s x : reach (g, s) -> steps cf (g, s) x -> reach x.
Proof. intros R H. refine (steps_inv cf reach _ _ _ H R). intros a b Ra P. eapply reach_prim; eassumption. Qed.
Lemma reach_rl x : reach x -> rl_ok (snd x).
Proof.
  induction 1 as [|s now _ IH|[g s] [g' s'] _ IH P]; [split; apply rlv_reset|exact IH|]. cbn [snd] in *. eapply prim_base; eassumption.
Qed.
Lemma reach_inv (J : ghost * client -> Prop) : J (g_idle, client_new cf now0) ->
  (forall s now, reach (g_idle, s) -> ok s -> J (g_idle, s) -> J (g_idle, emit (I_TICK now) s)) ->
  (forall g s g' s', reach (g, s) -> ok s -> ok s' -> J (g, s) -> prim cf (g, s) (g', s') -> J (g', s')) ->
  forall x, reach x -> ok (snd x) -> J x.
Proof.
  intros H0 H1 H2 x R. induction R as [|s now R IH|[g s] [g' s'] R IH P]; intros K; [exact H0| |].
  - apply H1; [exact R|exact K|apply IH; exact K].
  - cbn [snd] in *. destruct (prim_base _ _ _ _ _ P (reach_rl (g, s) R)) as [_ K2]. eapply H2; eauto.
Qed.
Lemma quiet_ok s s' : rl_ok s -> quiet s s' -> ok s -> ok s'.
Proof. unfold ok. intros R (_ & H & _) K. destruct (H R) as [_ ->]. exact K. Qed.
(** ** The first invariant *)
Definition J0 (s : client) : Prop :=
  all_acked s /\ Forall (fun o => requires_ack (op_packet o) = false) (wc s) /\
  (current s = MQTT_CONNECT -> forall o, curop s = Some o -> is_connect (op_packet o) = true) /\
  (parked (current s) = true -> cleared cf s).
Lemma requires_set_id id p : requires_ack (set_packet_id id p) = requires_ack p.
Proof. destruct p; reflexivity. Qed.
Lemma requires_set_dup p : requires_ack (set_duplicate p) = requires_ack p.
Proof. destruct p; reflexivity. Qed.
Lemma requires_ufd o : requires_ack (op_packet (unacked_for_disconnect o)) = requires_ack (op_packet o).
Proof. unfold unacked_for_disconnect. destruct (is_acked_publish (op_packet o)); cbn [op_packet set_packet]; [apply requires_set_dup|apply requires_set_id]. Qed.
Lemma policy_set_id id p : satisfies_policy cf (set_packet_id id p) = satisfies_policy cf p.
Proof. destruct p; reflexivity. Qed.
Lemma connect_set_id id p : is_connect (set_packet_id id p) = is_connect p.
Proof. destruct p; reflexivity. Qed.
Lemma kept_resting l kept : kept = [] \/ kept = filter (fun o => negb (unacked_fails_policy cf o)) (map unacked_for_disconnect l) -> Forall (resting cf) kept.
Proof. intros [-> | ->]; [constructor|apply resting_kept]. Qed.
Lemma Forall_map_ext {A B} (f g : A -> B) (P : B -> Prop) l l' : map f l = map f l' -> Forall (fun x => P (f x)) l' -> Forall (fun x => P (f x)) l.
Proof. rewrite <- !(Forall_map f P). intros ->. auto. Qed.

Lemma sending_not_parked c : sending c = true -> parked c = true -> False.
Proof. destruct c; discriminate. Qed.
Lemma cleared_queue s q : cleared cf s -> Forall (fun o => satisfies_policy cf (op_packet o) = true) q -> cleared cf (set_queued q s).
Proof. intros (H1 & H2 & H3 & H4 & H5 & H6 & H7) H. repeat split; assumption. Qed.
Lemma J0_step g s g' s' : reach (g, s) -> ok s -> ok s' -> J0 s -> prim cf (g, s) (g', s') -> J0 s'.
Proof.
  intros R K K' J P. pose proof J as (Ja & Jw & Jc & Jp). inversion P; subst; clear P;
    repeat match goal with H : ok _ -> _ |- _ => specialize (H K) end; try exact J.
  - match goal with H : hush _ _ |- _ => destruct H as [H _]; apply core_inv in H as (E1 & _ & E2 & E3 & E4 & E5 & E6 & E7 & _ & _ & E8 & _) end.
    unfold J0, all_acked, cleared, mc. rewrite E1, E2, E3, E4, E5, E6, E7, E8. exact J.
  - exfalso. exact (not_ok_crash _ _ K').
  - match goal with H : _ /\ _ |- _ => destruct H as [Hc Hl] end. split; [exact Ja|]. split; [exact Jw|]. split; [discriminate|]. intros _.
    apply Jp. destruct Hc as [-> | ->]; reflexivity.
  - split; [exact Ja|]. split; [exact Jw|]. match goal with H : edge _ _ _ _ |- _ => destruct c; cbn [edge] in H;
      (split; [first [discriminate|intros _ o Ho]|first [discriminate|intros _]]) end; try tauto.
    destruct (Jp ltac:(match goal with H : current s = CONNECTING |- _ => rewrite H end; reflexivity)) as (Hn & _).
    change (curop s = Some o) in Ho. congruence.
  - match goal with H : _ /\ _ |- _ => destruct H as (Hr & Hv & Hs) end. destruct (enqueue_eq p override s) as (o & x & -> & Ho & _).
    split; [exact Ja|]. split; [exact Jw|]. split; [exact Jc|]. intros Hp. specialize (Jp Hp).
    change (cleared cf (set_queued (queued s ++ [o]) s)). apply cleared_queue; [exact Jp|]. apply Forall_app. split; [apply Jp|].
    constructor; [|constructor]. rewrite Ho, policy_set_id. destruct Hs as [[E _]|Hs]; [|exact Hs]. change (parked (current s) = true) in Hp. rewrite E in Hp. discriminate.
  - split; [exact Ja|]. split; [exact Jw|]. split; [exact Jc|]. intros Hp. change (parked (current s) = true) in Hp. exfalso.
    destruct p; try contradiction; repeat match goal with H : _ /\ _ |- _ => destruct H | H : _ \/ _ |- _ => destruct H end;
      match goal with H : current s = _ |- _ => rewrite H in Hp end; discriminate.
  - split; [exact Ja|]. split; [exact Jw|]. split; [exact Jc|]. intros Hp. change (parked (current s) = true) in Hp. exfalso.
    repeat match goal with H : _ /\ _ |- _ => destruct H | H : _ \/ _ |- _ => destruct H end;
      match goal with H : current s = _ |- _ => rewrite H in Hp end; discriminate.
  - assert (parked (current s) = true -> False) as Hn by (match goal with H : current s = _ \/ _ |- _ => destruct H as [-> | ->]; discriminate end).
    destruct (publish_received_eq acquire v s) as (m & c & [(_ & -> & _)|[(_ & _ & ->)|(_ & _ & _ & ->)]] & _);
      (split; [exact Ja|split; [exact Jw|split; [exact Jc|]]]); intros Hp; exfalso; exact (Hn Hp).
  - destruct (manual_core_eq control s) as (m & x & -> & [(id & Hl & Hm & ->)|(Hl & r & -> & Hm & _)]).
    + split; [exact Ja|split; [exact Jw|split; [exact Jc|]]]. intros Hp. exfalso. destruct (Jp Hp) as (_ & _ & _ & _ & _ & _ & Hz). rewrite Hz in Hl. discriminate.
    + split; [exact Ja|split; [exact Jw|split; [exact Jc|]]]. intros Hp. destruct (Jp Hp) as (H1 & H2 & H3 & H4 & H5 & H6 & H7).
      repeat split; try assumption. rewrite <- H7. exact Hm.
  - unfold reset_manual. destruct (mc s) eqn:M; [exact J|].
    split; [exact Ja|split; [exact Jw|split; [exact Jc|]]]. intros Hp. exfalso. destruct (Jp Hp) as (_ & _ & _ & _ & _ & _ & Hz). congruence.
  - split; [exact Ja|split; [exact Jw|split; [exact Jc|]]]. intros Hp. specialize (Jp Hp). apply cleared_queue; [exact Jp|].
    destruct Jp as (_ & _ & _ & _ & Jq & _). match goal with H : queued s = _ |- _ => rewrite H in Jq end. inversion Jq; assumption.
  - split; [exact Ja|split; [exact Jw|split; [exact Jc|]]]. intros Hp. specialize (Jp Hp). apply cleared_queue; [exact Jp|].
    destruct Jp as (_ & _ & _ & _ & Jq & _). match goal with H : q = _ \/ q = _ |- _ => destruct H as [-> | ->] end; [apply Forall_filter; exact Jq|constructor].
  - split; [exact Ja|split; [constructor|split; [exact Jc|]]]. intros Hp. destruct (Jp Hp) as (H1 & H2 & H3 & H4 & H5 & H6 & H7). repeat split; assumption.
  - match goal with H : kept = _ \/ _ |- _ => rename H into Hk end.
    assert (Forall (fun o => requires_ack (op_packet o) = true) kept) as Hak.
    { destruct Hk as [-> | ->]; [constructor|]. apply Forall_filter. rewrite Forall_map. eapply Forall_impl; [|exact Ja].
      intros o Ho. cbv beta in *. rewrite requires_ufd. exact Ho. }
    split; [exact Hak|split; [exact Jw|split; [exact Jc|]]]. intros Hp. destruct (Jp Hp) as (H1' & H2' & H3' & H4' & H5' & H6' & H7').
    repeat split; try assumption. eapply kept_resting. exact Hk.
  - split; [constructor|split; [exact Jw|split; [exact Jc|]]]. intros Hp. destruct (Jp Hp) as (H1' & H2' & H3' & H4' & H5' & H6' & H7').
    repeat split; try assumption. constructor.
  - split; [unfold remove_op; apply (Forall_filter _ _ _ Ja)|split; [exact Jw|split; [exact Jc|]]]. intros Hp. destruct (Jp Hp) as (_ & _ & Ht & _).
    exfalso. match goal with H : lookup _ (table s) = Some _ |- _ => rewrite Ht in H; discriminate H end.
  - split; [unfold remove_op; apply (Forall_filter _ _ _ Ja)|split; [exact Jw|split; [exact Jc|]]]. intros Hp. destruct (Jp Hp) as (_ & _ & _ & Ht & _).
    exfalso. match goal with H : In _ (pq s) |- _ => rewrite Ht in H; contradiction H end.
  - split; [exact Ja|split; [exact Jw|split; [exact Jc|]]]. intros Hp. destruct (Jp Hp) as (H1' & H2' & H3' & H4' & H5' & H6' & H7').
    repeat split; try assumption. change (filter (fun x : N * N => negb (snd x =? u)) (pq s) = []). rewrite H4'. reflexivity.
  - split; [exact Ja|split; [exact Jw|split; [exact Jc|]]]. intros Hp. destruct (Jp Hp) as (H1' & H2' & H3' & H4' & H5' & H6' & H7').
    repeat split; assumption.
  - destruct (cs_shape inc una o s) as [x ->]. exact J.
  - split; [exact Ja|split; [exact Jw|split; [discriminate|]]]. intros Hp. destruct (Jp Hp) as (H1' & _). congruence.
  - repeat match goal with H : _ /\ _ |- _ => destruct H end.
    split; [constructor|split; [exact Jw|split]]; [intros E|intros E]; change (current (set_unacked _ _)) with (current s) in E;
      match goal with H : current s = CONNECTED |- _ => rewrite H in E; discriminate E end.
  - repeat match goal with H : _ /\ _ |- _ => destruct H end.
    split; [constructor|split; [exact Jw|split]]; [intros E|intros E]; change (current (set_queued _ _)) with (current s) in E;
      match goal with H : current s = CONNECTED |- _ => rewrite H in E; discriminate E end.
  - destruct (incomplete_eq s) as (l & x & -> & Hl & _). split; [exact Ja|split; [exact Jw|split; [exact Jc|]]]. intros Hp. specialize (Jp Hp).
    change (cleared cf (set_queued l s)). apply cleared_queue; [exact Jp|]. destruct Jp as (_ & _ & _ & _ & Jq & _).
    rewrite <- (Forall_map op_packet (fun p => satisfies_policy cf p = true)) in Jq |- *. rewrite Hl. exact Jq.
  - match goal with H : _ /\ _ /\ _ |- _ => destruct H as (Hcn & Hk & Hv & Hm) end.
    match goal with H : bind_packet_id _ _ = _ |- _ => apply bind_eq in H end.
    assert (op_packet o' = op_packet o \/ exists id, op_packet o' = set_packet_id id (op_packet o)) as Ho'
      by (match goal with H : _ \/ exists _, _ |- _ => destruct H as [(-> & _)|(id & _ & _ & -> & _)]; [left; reflexivity|right; exists id; reflexivity] end).
    assert (all_acked s1 /\ wc s1 = wc s /\ current s1 = current s) as (Ea & Ew & Ec)
      by (match goal with H : _ \/ exists _, _ |- _ => destruct H as [(_ & -> & _)|(id & _ & _ & _ & ->)]; split; try exact Ja; split; reflexivity end).
    split; [exact Ea|split; [change (Forall (fun o : op => requires_ack (op_packet o) = false) (wc s1)); rewrite Ew; exact Jw|split]].
    + intros E. change (current s1 = MQTT_CONNECT) in E. intros o2 Eo. injection Eo as <-.
      assert (is_connect (op_packet o) = true) as Hi by (rewrite Ec in E; destruct Hm as [[_ Hm]|[Hm|[Hm _]]]; congruence).
      destruct Ho' as [-> | [id ->]]; [exact Hi|rewrite connect_set_id; exact Hi].
    + intros E. change (parked (current s1) = true) in E. rewrite Ec in E. exfalso.
      destruct Hm as [[Hm _]|[Hm|[Hm _]]]; rewrite Hm in E; discriminate.
  - split; [exact Ja|split; [exact Jw|split; [exact Jc|]]]. intros Hp. specialize (Jp Hp). change (cleared cf (set_queued q s)). apply cleared_queue; [exact Jp|].
    destruct Jp as (_ & _ & _ & _ & Jq & _). match goal with H : queued s = _ |- _ => rewrite H in Jq end. inversion Jq; assumption.
  - assert (J0 (set_queued q s)) as Jq0.
    { split; [exact Ja|split; [exact Jw|split; [exact Jc|]]]. intros Hp. specialize (Jp Hp). apply cleared_queue; [exact Jp|].
      destruct Jp as (_ & _ & _ & _ & Jq & _). match goal with H : queued s = _ |- _ => rewrite H in Jq end. inversion Jq; assumption. }
    match goal with H : bind_packet_id _ _ = _ |- _ => apply bind_eq in H as [(_ & -> & _)|(id & _ & _ & _ & ->)] end; exact Jq0.
  - match goal with H : _ /\ _ |- _ => destruct H as (Hk & Hcl & He & Hs & Hck & Ht & Hi) end.
    pose proof (finish_eq cf now o s Ht Hi) as F. cbv zeta in F. destruct (requires_ack (op_packet o)) eqn:Q0.
    + destruct F as (o' & x & -> & (Ho & _) & _). set (s1 := if is_acked_publish (op_packet o) then set_tokens (tokens s - 1) s else s).
      assert (wc s1 = wc s /\ current s1 = current s) as (Ew & Ec) by (unfold s1; destruct (is_acked_publish (op_packet o)); split; reflexivity).
      split; [apply Forall_app; split; [exact Ja|]; constructor; [congruence|constructor]|].
      split; [change (Forall (fun o : op => requires_ack (op_packet o) = false) (wc s1)); rewrite Ew; exact Jw|].
      split; [discriminate|]. intros E. change (parked (current s1) = true) in E. rewrite Ec in E. exfalso. exact (sending_not_parked _ Hs E).
    + destruct F as (x & ->). split; [exact Ja|]. split; [apply Forall_app; split; [exact Jw|]; constructor; [exact Q0|constructor]|].
      split; [discriminate|]. intros E. exfalso. exact (sending_not_parked _ Hs E).
Qed.
Lemma J0_new : J0 (client_new cf now0).
Proof. repeat split; try discriminate; constructor. Qed.
Lemma reach_J0 g s : reach (g, s) -> ok s -> J0 s.
Proof.
  intros R K. refine (reach_inv (fun x => J0 (snd x)) J0_new (fun s now _ _ J => J) _ (g, s) R K). intros g1 s1 g2 s2 R1 K1 K2 J P. eapply J0_step; eassumption.
Qed.
End Inv.
