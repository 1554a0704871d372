(** The table of unacknowledged operations, the timeout queue and the packet ids; which assertions can fail. *)
From Verif Require Import Base BaseLemmas Mqtt5_Views TopicAlias_Model Encoder5_Model Decoder5_Model RateLimiter_Model RateLimiter_Spec
  RateLimiter_Proofs Validate5_Model Negotiated_Model Client5_State Client5_Model Client5_Steps Client5_Decomp Client5_Decomp2 Client5_Forms Client5_Decomp3
  Client5_Inv0 Client5_Spec Client5_Flow.
From Coq Require Import Permutation.
Ltac Zify.zify_post_hook ::= idtac.

Lemma lookup_some_in k l u : lookup k l = Some u -> In (k, u) l.
Proof.
  unfold lookup. destruct (find _ l) as [[k' u']|] eqn:F; [|discriminate]. intros E. cbn [snd] in E. injection E as ->.
  apply find_some in F as [F1 F2]. cbn [fst] in F2. apply N.eqb_eq in F2. subst. exact F1.
Qed.
Lemma in_remove_key k' u' k l : In (k', u') (remove_key k l) -> In (k', u') l /\ k' <> k.
Proof. unfold remove_key. intros H. apply filter_In in H as [H1 H2]. split; [exact H1|]. cbn [fst] in H2. intros ->. rewrite N.eqb_refl in H2. discriminate. Qed.
Lemma in_put k' u' k u l : In (k', u') (put k u l) -> (k' = k /\ u' = u) \/ (In (k', u') l /\ k' <> k).
Proof. unfold put. intros [E|H]; [left; injection E; auto|right; apply in_remove_key; exact H]. Qed.
Lemma in_remove_op o u l : In o (remove_op u l) <-> In o l /\ op_uid o <> u.
Proof.
  unfold remove_op. rewrite filter_In. unfold with_uid. split; intros [H1 H2]; (split; [exact H1|]).
  - intros E. rewrite E in H2. rewrite N.eqb_refl in H2. discriminate.
  - destruct (N.eqb_spec (op_uid o) u); [contradiction|reflexivity].
Qed.
Lemma find_op_some u l o : find_op u l = Some o -> In o l /\ op_uid o = u.
Proof. unfold find_op. intros H. apply find_some in H as [H1 H2]. unfold with_uid in H2. apply N.eqb_eq in H2. auto. Qed.
Lemma find_op_none u l o : find_op u l = None -> In o l -> op_uid o <> u.
Proof. unfold find_op. intros H Hi E. apply (find_none _ _ H) in Hi. unfold with_uid in Hi. rewrite E, N.eqb_refl in Hi. discriminate. Qed.
Lemma nodup_map_inj {A B} (f : A -> B) l a b : NoDup (map f l) -> In a l -> In b l -> f a = f b -> a = b.
Proof.
  induction l as [|x l IH]; cbn [map In]; [contradiction|]. intros H [->|Ha] [->|Hb] E; try reflexivity; inversion H; subst.
  - exfalso. match goal with Hn : ~ In _ _ |- _ => apply Hn end. rewrite E. apply in_map. exact Hb.
  - exfalso. match goal with Hn : ~ In _ _ |- _ => apply Hn end. rewrite <- E. apply in_map. exact Ha.
  - apply IH; assumption.
Qed.
Lemma free_id_range rounds : forall id t id', free_packet_id rounds id t = Some id' -> id <> 0 -> id < 65536 -> id' <> 0 /\ id' < 65536.
Proof.
  induction rounds as [|n IH]; intros id t id'; cbn [free_packet_id]; [discriminate|]. destruct (lookup id t).
  - intros H H1 H2. apply IH in H; [exact H| |]; unfold next_packet_id.
    + destruct (N.eqb_spec ((id + 1) mod 65536) 0); [discriminate|assumption].
    + destruct ((id + 1) mod 65536 =? 0); [reflexivity|]. apply N.mod_upper_bound. discriminate.
  - intros E. injection E as <-. auto.
Qed.
Lemma next_id_range id : next_packet_id id <> 0 /\ next_packet_id id < 65536.
Proof.
  unfold next_packet_id. destruct (N.eqb_spec ((id + 1) mod 65536) 0); [split; [discriminate|reflexivity]|].
  split; [assumption|]. apply N.mod_upper_bound. discriminate.
Qed.

Section Safety.
Variable cf : config.
Variable now0 : N.
Notation prim := (prim cf).
Notation reach := (reach cf now0).

Definition J2 (x : ghost * client) : Prop := let '(g, s) := x in
  (g_clearing g = false -> forall id u, In (id, u) (table s) -> exists o, In o (unacked s) /\ op_uid o = u /\ packet_id (op_packet o) = id) /\
  (g_clearing g = false -> forall d u, In (d, u) (pq s) -> In u (map op_uid (unacked s ++ g_hand g)) /\
     forall o, In o (unacked s) -> op_uid o = u -> op_deadline o = d) /\
  (current s = MQTT_CONNECT \/ (exists v, g_link g = ACKED v) -> table s = [] /\ pq s = []) /\
  (next_id s <> 0 /\ next_id s < 65536) /\
  (forall o, curop s = Some o -> requires_ack (op_packet o) = true -> packet_id (op_packet o) <> 0).

Lemma J2_hand g s h : J2 (g, s) -> (forall u, In u (map op_uid (g_hand g)) -> In u (map op_uid h)) -> J2 (with_hand h g, s).
Proof.
  intros (T & Q & E & N & C) H. split; [exact T|]. split; [|split; [exact E|split; [exact N|exact C]]]. intros Hc d u Hi. destruct (Q Hc d u Hi) as [Q1 Q2].
  split; [|exact Q2]. rewrite map_app, in_app_iff in Q1 |- *. destruct Q1 as [Q1|Q1]; [left; exact Q1|right; apply H; exact Q1].
Qed.
Lemma J2_step g s g' s' : reach (g, s) -> ok s -> ok s' -> J2 (g, s) -> prim (g, s) (g', s') -> J2 (g', s').
Proof.
  intros R Ok Ok' J P. pose proof (reach_J1 cf now0 _ _ R Ok) as (ND & _). apply nodup_unacked in ND. pose proof (reach_J0 cf now0 _ _ R Ok) as (Ja & _ & _ & Jp).
  pose proof J as (T & Q & E & N & C). inversion P; subst; clear P;
    repeat match goal with H : ok _ -> _ |- _ => specialize (H Ok) end; try exact J.
  - match goal with H : hush _ _ |- _ => destruct H as [H _]; apply core_inv in H as (E1 & _ & E2 & E3 & E4 & E5 & E6 & E7 & E8 & _) end.
    unfold J2. rewrite E1, E3, E5, E6, E7, E8. exact J.
  - exfalso. exact (not_ok_crash _ _ Ok').
  - split; [exact T|]. split; [exact Q|]. split; [|split; [exact N|exact C]]. intros [Hx|Hx]; [discriminate Hx|]. apply E. right. exact Hx.
  - match goal with H : _ /\ _ |- _ => destruct H as (_ & Hc & _) end. split; [exact T|]. split; [exact Q|]. split; [|split; [exact N|exact C]].
    intros [Hx|[v0 Hx]]; [|discriminate Hx]. change (current s = MQTT_CONNECT) in Hx. congruence.
  - assert (g_clearing match c with MQTT_CONNECT => with_link NEW g | _ => g end = g_clearing g /\
      g_hand match c with MQTT_CONNECT => with_link NEW g | _ => g end = g_hand g) as [Ec Eh] by (destruct c; split; reflexivity).
    unfold J2. rewrite Ec, Eh. split; [exact T|]. split; [exact Q|]. split; [|split; [exact N|exact C]].
    destruct c; cbn [edge] in *; try (intros [Hx|Hx]; [discriminate Hx|apply E; right; exact Hx]).
    intros _. specialize (Jp ltac:(match goal with H : current s = CONNECTING |- _ => rewrite H end; reflexivity)). destruct Jp as (_ & _ & X1 & X2 & _). split; assumption.
  - split; [exact T|]. split; [exact Q|]. split; [|split; [exact N|exact C]]. intros [Hx|[v Hx]]; [|discriminate Hx]. apply E. left. exact Hx.
  - split; [exact T|]. split; [exact Q|]. split; [|split; [exact N|exact C]]. intros _. apply E. left. apply H0.
  - split; [exact T|]. split; [exact Q|]. split; [|split; [exact N|exact C]]. intros [Hx|[v Hx]]; [|discriminate Hx]. apply E. left. exact Hx.
  - split; [exact T|]. split; [exact Q|]. split; [|split; [exact N|exact C]]. intros [Hx|[v Hx]]; [|discriminate Hx]. apply E. left. exact Hx.
  - destruct (enqueue_eq p override s) as (o & x & -> & _). exact J.
  - destruct (publish_received_eq acquire v s) as (m & c & [(_ & -> & _)|[(_ & _ & ->)|(_ & _ & _ & ->)]] & _); exact J.
  - destruct (manual_core_eq control s) as (m & x & -> & [(id & _ & _ & ->)|(_ & r & -> & _)]); exact J.
  - unfold reset_manual. destruct (mc s); exact J.
  - apply (J2_hand g (set_queued q s)); [exact J|]. cbn [map In]. auto.
  - apply (J2_hand g (set_queued q s)); [exact J|]. intros x. rewrite map_app, in_app_iff. auto.
  - apply (J2_hand g (set_wc [] s)); [exact J|]. intros x. rewrite map_app, in_app_iff. auto.
  - match goal with H : g_clearing g = true /\ _ |- _ => destruct H as [Hc _] end. split; [|split; [|split; [exact E|split; [exact N|exact C]]]];
      intros Hx; cbn [g_clearing with_hand] in Hx; congruence.
  - match goal with H : g_clearing g = true /\ _ |- _ => destruct H as [Hc _] end. split; [|split; [|split; [exact E|split; [exact N|exact C]]]];
      intros Hx; cbn [g_clearing with_hand] in Hx; congruence.
  - match goal with H : g_clearing g = false |- _ => rename H into Hc end. specialize (T Hc). specialize (Q Hc).
    match goal with H : find_op _ _ = _ |- _ => apply find_op_some in H as [Fi Fu] end.
    match goal with H : lookup _ _ = _ |- _ => apply lookup_some_in in H as Ht end.
    split; [|split; [|split; [|split; [exact N|exact C]]]].
    + intros _ id' u' Hi. change (table (set_table ?a ?b)) with a in Hi. apply in_remove_key in Hi as [Hi Hne]. destruct (T _ _ Hi) as (o1 & O1 & O2 & O3).
      exists o1. split; [|auto]. apply in_remove_op. split; [exact O1|]. intros Eu. destruct (T _ _ Ht) as (o2 & P1 & P2 & P3).
      assert (o1 = o2) by (apply (nodup_map_inj op_uid (unacked s)); auto; congruence). congruence.
    + intros _ d u' Hi. destruct (Q d u' Hi) as [Q1 Q2]. split.
      * change (g_hand (with_hand ?a ?b)) with a. change (unacked (set_table ?a (set_unacked ?b ?c))) with b. rewrite map_app, in_app_iff in Q1 |- *. cbn [map In].
        destruct Q1 as [Q1|Q1]; [|auto]. apply in_map_iff in Q1 as (o1 & O1 & O2). destruct (N.eq_dec (op_uid o1) u) as [Eu|Eu]; [right; left; congruence|].
        left. rewrite <- O1. apply in_map. apply in_remove_op. auto.
      * intros o1 O1. apply in_remove_op in O1 as [O1 _]. apply Q2. exact O1.
    + intros Hx. destruct (E Hx) as [E1 E2]. split; [|exact E2]. change (table (set_table ?a ?b)) with a. rewrite E1. reflexivity.
  - match goal with H : g_clearing g = false |- _ => rename H into Hc end. specialize (T Hc). specialize (Q Hc).
    match goal with H : find_op _ _ = _ |- _ => apply find_op_some in H as [Fi Fu] end.
    split; [|split; [|split; [|split; [exact N|exact C]]]].
    + intros _ id' u' Hi. change (table (set_table ?a ?b)) with a in Hi. apply in_remove_key in Hi as [Hi Hne]. destruct (T _ _ Hi) as (o1 & O1 & O2 & O3).
      exists o1. split; [|auto]. apply in_remove_op. split; [exact O1|]. intros Eu.
      assert (o1 = o) by (apply (nodup_map_inj op_uid (unacked s)); auto; congruence). congruence.
    + intros _ d' u' Hi. change (pq (set_table ?a (set_unacked ?b (set_pq ?c ?d)))) with c in Hi. apply filter_In in Hi as [Hi _]. destruct (Q d' u' Hi) as [Q1 Q2]. split.
      * change (g_hand (with_hand ?a ?b)) with a. change (unacked (set_table ?a (set_unacked ?b ?c))) with b. rewrite map_app, in_app_iff in Q1 |- *. cbn [map In].
        destruct Q1 as [Q1|Q1]; [|auto]. apply in_map_iff in Q1 as (o1 & O1 & O2). destruct (N.eq_dec (op_uid o1) u) as [Eu|Eu]; [right; left; congruence|].
        left. rewrite <- O1. apply in_map. apply in_remove_op. auto.
      * intros o1 O1. apply in_remove_op in O1 as [O1 _]. apply Q2. exact O1.
    + intros Hx. destruct (E Hx) as [E1 E2]. split.
      * change (table (set_table ?a ?b)) with a. rewrite E1. reflexivity.
      * change (pq (set_table ?a (set_unacked ?b (set_pq ?c ?d)))) with c. rewrite E2. reflexivity.
  - split; [exact T|]. split; [|split; [|split; [exact N|exact C]]].
    + intros Hc d u' Hi. change (pq (set_pq ?a ?b)) with a in Hi. apply filter_In in Hi as [Hi _]. exact (Q Hc d u' Hi).
    + intros Hx. destruct (E Hx) as [E1 E2]. split; [exact E1|]. change (pq (set_pq ?a ?b)) with a. rewrite E2. reflexivity.
  - split; [discriminate|]. split; [discriminate|]. split; [exact E|split; [exact N|exact C]].
  - split; [intros _ ? ? []|]. split; [intros _ ? ? []|]. split; [split; reflexivity|split; [exact N|exact C]].
  - destruct (cs_shape inc una o s) as [x ->]. apply (J2_hand g (set_c_sta x s)); [exact J|]. match goal with H : g_hand g = _ |- _ => rewrite H end. cbn [map In]. rewrite cs_uid. auto.
  - match goal with H : _ /\ _ |- _ => destruct H as (Hn & _) end. split; [exact T|]. split; [|split; [exact E|split; [exact N|exact C]]].
    intros Hc d u Hi. destruct (Q Hc d u Hi) as [Q1 Q2]. split; [|exact Q2]. change (g_hand (with_hand ?a ?b)) with a. match goal with H : g_hand g = _ |- _ => rewrite H in Q1 end.
    rewrite map_app, in_app_iff in Q1 |- *. cbn [map In] in Q1. destruct Q1 as [Q1|[Q1|Q1]]; [left; exact Q1| |right; exact Q1].
    exfalso. unfold not_in_pq in Hn. rewrite Forall_forall in Hn. specialize (Hn _ Hi). cbn [snd] in Hn. congruence.
  - split; [exact T|]. split; [exact Q|]. split; [exact E|]. split; [exact N|]. discriminate.
  - match goal with H : _ /\ _ |- _ => destruct H as (_ & _ & _ & Hv) end. destruct (E (or_intror Hv)) as [E1 E2].
    split; [|split; [|split; [split; assumption|split; [exact N|exact C]]]].
    + intros _ id u Hi. change (In (id, u) (table s)) in Hi. rewrite E1 in Hi. contradiction.
    + intros _ d u Hi. change (In (d, u) (pq s)) in Hi. rewrite E2 in Hi. contradiction.
  - match goal with H : _ /\ _ |- _ => destruct H as (_ & _ & _ & Hv) end. destruct (E (or_intror Hv)) as [E1 E2].
    split; [|split; [|split; [split; assumption|split; [exact N|exact C]]]].
    + intros _ id u Hi. change (In (id, u) (table s)) in Hi. rewrite E1 in Hi. contradiction.
    + intros _ d u Hi. change (In (d, u) (pq s)) in Hi. rewrite E2 in Hi. contradiction.
  - destruct (incomplete_eq s) as (l & x & -> & _). exact J.
  - match goal with H : bind_packet_id _ _ = _ |- _ => apply bind_eq in H as [(-> & -> & Hn)|(id & Hf & Hn & -> & ->)] end.
    + split; [exact T|]. split; [exact Q|]. split; [exact E|]. split; [exact N|]. intros o1 Eo Hr. injection Eo as <-.
      destruct (op_packet o); try discriminate Hr; cbn [needs_packet_id packet_id requires_ack is_acked_publish] in *.
      * destruct (pb_qos v =? 0); [discriminate Hr|]. intros Z. rewrite Z in Hn. discriminate.
      * intros Z. rewrite Z in Hn. discriminate.
      * intros Z. rewrite Z in Hn. discriminate.
    + split; [exact T|]. split; [exact Q|]. split; [exact E|]. split; [apply next_id_range|]. intros o1 Eo Hr. injection Eo as <-.
      apply free_id_range in Hf as [Hf _]; [|apply N|apply N]. cbn [op_packet set_packet].
      destruct (op_packet o); try discriminate Hn; exact Hf.
  - split; [exact T|]. split; [exact Q|]. split; [|split; [exact N|exact C]]. intros [Hx|[v Hx]]; [|discriminate Hx]. apply E. left. exact Hx.
  - assert (J2 (with_buf [] (with_link DEAD g), set_queued q s)) as Jq.
    { split; [exact T|]. split; [exact Q|]. split; [|split; [exact N|exact C]]. intros [Hx|[v Hx]]; [|discriminate Hx]. apply E. left. exact Hx. }
    match goal with H : bind_packet_id _ _ = _ |- _ => apply bind_eq in H as [(_ & -> & _)|(id & _ & _ & _ & ->)] end; [exact Jq|].
    destruct Jq as (T' & Q' & E' & N' & C'). split; [exact T'|]. split; [exact Q'|]. split; [exact E'|]. split; [apply next_id_range|exact C'].
  - match goal with H : _ /\ _ |- _ => destruct H as (Hk & Hcl & He & Hs & Hck & Ht & Hi) end. match goal with H : curop s = _ |- _ => rename H into H0 end.
    pose proof (finish_eq cf now o s Ht Hi) as F. cbv zeta in F. destruct (requires_ack (op_packet o)) eqn:Q0.
    + destruct F as (o' & x & -> & (Ho & Hu & _) & Hcs). set (s1 := if is_acked_publish (op_packet o) then set_tokens (tokens s - 1) s else s).
      assert (next_id s1 = next_id s /\ current s1 = current s) as (En & Ec) by (unfold s1; destruct (is_acked_publish (op_packet o)); split; reflexivity).
      assert (op_deadline o' = deadline_of cf now o) as Hdl.
      { injection Hcs as -> _. rewrite change_statistics_eq. destruct (negb _); [reflexivity|]. destruct (size_of _); reflexivity. }
      assert (forall o1, In o1 (unacked s) -> op_uid o1 <> op_uid o) as Hfresh.
      { pose proof (reach_J1 cf now0 _ _ R Ok) as (ND1 & _). intros o1 O1 Eu. apply nodup_held in ND1. unfold held in ND1. rewrite H0 in ND1. rewrite !map_app in ND1.
        apply nodup_app_r, nodup_app_r in ND1. cbn [map app] in ND1. inversion ND1 as [|? ? Hn _]. apply Hn. rewrite in_app_iff. right.
        rewrite <- Eu. apply in_map. exact O1. }
      specialize (T Hcl). specialize (Q Hcl).
      split; [|split; [|split; [|split; [|discriminate]]]].
      * intros _ id u Hin. change (table (emit ?a (set_curop None (set_unacked ?b (set_c_sta x (set_pq ?c (set_table ?d s1))))))) with d in Hin.
        change (unacked (emit ?a (set_curop None (set_unacked ?b ?y)))) with b. apply in_put in Hin as [[-> ->]|[Hin _]].
        { exists o'. rewrite in_app_iff. cbn [In]. rewrite Hu, Ho. auto. }
        destruct (T _ _ Hin) as (o1 & O1 & O2 & O3). exists o1. rewrite in_app_iff. auto.
      * intros _ d u Hin. change (pq (emit ?a (set_curop None (set_unacked ?b (set_c_sta x (set_pq ?c ?d)))))) with c in Hin.
        change (unacked (emit ?a (set_curop None (set_unacked ?b ?y)))) with b. apply in_app_or in Hin as [Hin|[Hin|[]]].
        { destruct (Q _ _ Hin) as [Q1 Q2]. split; [rewrite !map_app, !in_app_iff in *; tauto|]. intros o1 O1 O2. apply in_app_or in O1 as [O1|[<-|[]]]; [auto|].
          exfalso. rewrite map_app, in_app_iff in Q1. destruct Q1 as [Q1|Q1].
          - apply in_map_iff in Q1 as (o1 & P1 & P2). apply (Hfresh o1 P2). congruence.
          - pose proof (reach_J1 cf now0 _ _ R Ok) as (ND1 & _). apply nodup_held in ND1. unfold held in ND1. rewrite H0 in ND1. rewrite !map_app in ND1.
            rewrite app_assoc in ND1. cbn [map app] in ND1. apply NoDup_remove_2 in ND1. apply ND1. rewrite !in_app_iff. left. left.
            rewrite <- Hu, O2. exact Q1. }
        { injection Hin as <- <-. split; [rewrite !map_app, !in_app_iff; cbn [map In]; rewrite Hu; auto|]. intros o1 O1 O2. apply in_app_or in O1 as [O1|[<-|[]]]; [|exact Hdl].
          exfalso. apply (Hfresh o1 O1). congruence. }
      * intros Hx. change (current (emit ?a (set_curop None (set_unacked ?b (set_c_sta x (set_pq ?c (set_table ?d s1))))))) with (current s1) in Hx. rewrite Ec in Hx.
        exfalso. destruct Hx as [Hx|[v Hx]]; [|congruence]. pose proof (reach_J0 cf now0 _ _ R Ok) as (_ & _ & Jc & _). specialize (Jc Hx _ H0).
        destruct (op_packet o); discriminate.
      * change (next_id (emit ?a (set_curop None (set_unacked ?b (set_c_sta x (set_pq ?c (set_table ?d s1))))))) with (next_id s1). rewrite En. exact N.
    + destruct F as (x & ->). split; [exact T|]. split; [exact Q|]. split; [exact E|]. split; [exact N|]. discriminate.
Qed.
Lemma reach_J2 g s : reach (g, s) -> ok s -> J2 (g, s).
Proof.
  intros R Ok. refine (reach_inv cf now0 J2 _ (fun s now _ _ J => J) _ (g, s) R Ok).
  - split; [intros _ ? ? []|]. split; [intros _ ? ? []|]. split; [split; reflexivity|]. split; [split; [discriminate|reflexivity]|discriminate].
  - intros g1 s1 g2 s2 R1 K1 K2 J P. eapply J2_step; eassumption.
Qed.

(** ** What waits for an acknowledgement or a write completion was sent over the present connection *)
Definition shrinks (s s' : client) : Prop := incl (table s') (table s) /\ incl (pq s') (pq s) /\ incl (wc s') (wc s) /\ adds s s'.
Lemma shrinks_1 s s' : table s' = table s -> pq s' = pq s -> wc s' = wc s -> adds s s' -> shrinks s s'.
Proof. intros E1 E2 E3 H. unfold shrinks. rewrite E1, E2, E3. repeat split; try apply incl_refl. exact H. Qed.
Definition sends (s s' : client) : Prop := exists o now, curop s = Some o /\ clock (c_out s) = Some now /\ c_out s' = O_SENT o :: c_out s /\
  ((table s' = put (packet_id (op_packet o)) (op_uid o) (table s) /\ pq s' = pq s ++ [(deadline_of cf now o, op_uid o)] /\ wc s' = wc s) \/
   (table s' = table s /\ pq s' = pq s /\ wc s' = wc s ++ [o])).
Definition attempts (s s' : client) : Prop := parked (current s) = true /\ table s' = table s /\ pq s' = pq s /\ wc s' = wc s.
Lemma prim_tables g s g' s' : ok s -> ok s' -> prim (g, s) (g', s') -> shrinks s s' \/ attempts s s' \/ sends s s'.
Proof.
  intros Ok Ok' P. inversion P; subst; clear P; repeat match goal with H : ok _ -> _ |- _ => specialize (H Ok) end;
    try (left; apply shrinks_1; [reflexivity|reflexivity|reflexivity|first [apply adds_refl; reflexivity|eapply adds_one; [reflexivity|reflexivity]]]; fail).
  - match goal with H : hush _ _ |- _ => pose proof (hush_out _ _ H) as Ho; destruct H as [H _]; apply core_inv in H as (E1 & _ & E2 & E3 & E4 & E5 & E6 & E7 & E8 & _) end.
    left. apply shrinks_1; try assumption. apply adds_refl. exact Ho.
  - exfalso. exact (not_ok_crash _ _ Ok').
  - left. apply shrinks_1; try reflexivity. eapply adds_one; [reflexivity|]. destruct x; try discriminate; reflexivity.
  - right. left. match goal with H : _ /\ _ |- _ => destruct H as [Hcu _] end. split; [|repeat split]. destruct Hcu as [-> | ->]; reflexivity.
  - left. destruct (enqueue_eq p override s) as (o & x & -> & _). apply shrinks_1; try reflexivity. eapply adds_one; reflexivity.
  - left. apply shrinks_1; try reflexivity. eexists [_; _]. split; [reflexivity|]. repeat constructor.
  - left. apply shrinks_1; try reflexivity. eexists [_; _]. split; [reflexivity|]. repeat constructor.
  - left. destruct (publish_received_eq acquire v s) as (m & c & [(_ & -> & _)|[(_ & _ & ->)|(_ & _ & _ & ->)]] & _); (apply shrinks_1; try reflexivity; eexists [_; _]; split; [reflexivity|]; repeat constructor).
  - left. destruct (manual_core_eq control s) as (m & x & -> & [(id & _ & _ & ->)|(_ & r & -> & _)]); apply shrinks_1; try reflexivity;
      [eapply adds_one; reflexivity|eexists [_; _]; split; [reflexivity|]; repeat constructor].
  - left. unfold reset_manual. destruct (mc s); (apply shrinks_1; try reflexivity; apply adds_refl; reflexivity).
  - left. split; [apply incl_refl|]. split; [apply incl_refl|]. split; [intros ? []|apply adds_refl; reflexivity].
  - left. split; [|split; [apply incl_refl|split; [apply incl_refl|apply adds_refl; reflexivity]]]. intros x Hx. unfold remove_key in Hx. apply filter_In in Hx. apply Hx.
  - left. split; [|split; [|split; [apply incl_refl|apply adds_refl; reflexivity]]]; intros x Hx; apply filter_In in Hx; apply Hx.
  - left. split; [apply incl_refl|]. split; [|split; [apply incl_refl|apply adds_refl; reflexivity]]. intros x Hx; apply filter_In in Hx; apply Hx.
  - left. split; [intros ? []|]. split; [intros ? []|]. split; [apply incl_refl|apply adds_refl; reflexivity].
  - left. destruct (cs_shape inc una o s) as [x ->]. apply shrinks_1; try reflexivity. apply adds_refl; reflexivity.
  - left. destruct (incomplete_eq s) as (l & x & -> & _). apply shrinks_1; try reflexivity. apply adds_refl; reflexivity.
  - left. match goal with H : bind_packet_id _ _ = _ |- _ => apply bind_eq in H as [(-> & -> & Hn)|(id & Hf & Hn & -> & ->)] end; (apply shrinks_1; try reflexivity; apply adds_refl; reflexivity).
  - left. match goal with H : bind_packet_id _ _ = _ |- _ => apply bind_eq in H as [(-> & -> & Hn)|(id & Hf & Hn & -> & ->)] end; (apply shrinks_1; try reflexivity; eapply adds_one; reflexivity).
  - right. right. match goal with H : _ /\ _ |- _ => destruct H as (Hk & Hcl & He & Hs & Hck & Ht & Hi) end. match goal with H : curop s = _ |- _ => rename H into H0 end.
    exists o, now. split; [exact H0|]. split; [exact Hck|]. split; [apply finish_out|].
    pose proof (finish_eq cf now o s Ht Hi) as F. cbv zeta in F. destruct (requires_ack (op_packet o)) eqn:Q0.
    + left. destruct F as (o' & x & -> & _). destruct (is_acked_publish (op_packet o)); repeat split.
    + right. destruct F as (x & ->). repeat split.
Qed.
Definition J3 (s : client) : Prop :=
  (forall id u, In (id, u) (table s) -> exists o t, sent_here o t (c_out s) /\ op_uid o = u /\ packet_id (op_packet o) = id) /\
  (forall d u, In (d, u) (pq s) -> exists o t, sent_here o t (c_out s) /\ op_uid o = u /\ deadline_of cf t o = d) /\
  (forall o, In o (wc s) -> exists t, sent_here o t (c_out s)).
Lemma sent_here_now o t l : clock l = Some t -> sent_here o t (O_SENT o :: l).
Proof. intros H. exists [], l. repeat split; [constructor|exact H]. Qed.
Lemma reach_J3 g s : reach (g, s) -> ok s -> J3 s.
Proof.
  intros R Ok. refine (reach_inv cf now0 (fun x => J3 (snd x)) _ _ _ (g, s) R Ok); clear.
  - split; [intros ? ? []|]. split; [intros ? ? []|intros ? []].
  - intros s now _ _ (T & Q & W).
    assert (forall o t, sent_here o t (c_out s) -> sent_here o t (c_out (emit (I_TICK now) s))) as M by (intros o t H; apply (sent_here_more o t [I_TICK now]); [exact H|repeat constructor]).
    split; [|split].
    + intros id u H. destruct (T _ _ H) as (o & t & H1 & H2). exists o, t. auto.
    + intros d u H. destruct (Q _ _ H) as (o & t & H1 & H2). exists o, t. auto.
    + intros o H. destruct (W _ H) as (t & H1). exists t. auto.
  - cbn [snd]. intros g s g' s' R Ok Ok' (T & Q & W) P. destruct (prim_tables _ _ _ _ Ok Ok' P) as [(I1 & I2 & I3 & d & Ed & Hd)|[(A & E1 & E2 & E3)|(o & now & Hc & Hck & Eo & HS)]].
    + assert (forall o t, sent_here o t (c_out s) -> sent_here o t (c_out s')) as M by (intros o t H; rewrite Ed; apply sent_here_more; assumption).
      split; [|split].
      * intros id u H. destruct (T _ _ (I1 _ H)) as (o & t & H1 & H2). exists o, t. auto.
      * intros d0 u H. destruct (Q _ _ (I2 _ H)) as (o & t & H1 & H2). exists o, t. auto.
      * intros o H. destruct (W _ (I3 _ H)) as (t & H1). exists t. auto.
    + pose proof (reach_J0 cf now0 _ _ R Ok) as (_ & _ & _ & Jp). destruct (Jp A) as (_ & Z3 & Z1 & Z2 & _). unfold J3. rewrite E1, E2, E3, Z1, Z2, Z3.
      split; [intros ? ? []|]. split; [intros ? ? []|intros ? []].
    + assert (forall o1 t, sent_here o1 t (c_out s) -> sent_here o1 t (c_out s')) as M by (intros o1 t H; rewrite Eo; apply (sent_here_more o1 t [O_SENT o]); [exact H|repeat constructor]).
      assert (sent_here o now (c_out s')) as M0 by (rewrite Eo; apply sent_here_now; exact Hck).
      unfold J3; destruct HS as [(-> & -> & ->)|(-> & -> & ->)]; (split; [|split]).
      * intros id u H. apply in_put in H as [[-> ->]|[H _]]; [exists o, now; auto|]. destruct (T _ _ H) as (o1 & t & H1 & H2). exists o1, t. auto.
      * intros d u H. apply in_app_or in H as [H|[H|[]]]; [|injection H as <- <-; exists o, now; auto]. destruct (Q _ _ H) as (o1 & t & H1 & H2). exists o1, t. auto.
      * intros o1 H. destruct (W _ H) as (t & H1). exists t. auto.
      * intros id u H. destruct (T _ _ H) as (o1 & t & H1 & H2). exists o1, t. auto.
      * intros d u H. destruct (Q _ _ H) as (o1 & t & H1 & H2). exists o1, t. auto.
      * intros o1 H. apply in_app_or in H as [H|[<-|[]]]; [|exists now; exact M0]. destruct (W _ H) as (t & H1). exists t. auto.
Qed.
End Safety.
