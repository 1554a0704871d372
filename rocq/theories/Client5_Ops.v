(** What becomes of operations: consequences of the invariants in terms of the trace. *)
From Verif Require Import Base BaseLemmas Mqtt5_Views TopicAlias_Model Encoder5_Model Decoder5_Model RateLimiter_Model RateLimiter_Spec
  RateLimiter_Proofs Validate5_Model Negotiated_Model Client5_State Client5_Model Client5_Spec Client5_Steps Client5_Decomp Client5_Decomp2
  Client5_Forms Client5_Decomp3 Client5_Inv0 Client5_Flow Client5_Safety Client5_Decomp4.
From Coq Require Import Permutation.
Ltac Zify.zify_post_hook ::= idtac.

Lemma completed_finished l : incl (completed l) (finished l).
Proof. intros o H. unfold completed in H. unfold finished. apply in_flat_map in H as (x & Hx & H). apply in_flat_map. exists x. split; [exact Hx|]. destruct x; try destruct H; subst; cbn; auto; contradiction. Qed.
Lemma nodup_completed l : NoDup (map op_uid (finished l)) -> NoDup (map op_uid (completed l)).
Proof.
  induction l as [|x l IH]; [constructor|]. change (finished (x :: l)) with ((match x with O_DONE o _ _ => [o] | O_LOST o => [o] | _ => [] end) ++ finished l).
  change (completed (x :: l)) with ((match x with O_DONE o _ _ => [o] | _ => [] end) ++ completed l). destruct x; cbn [app map]; auto; intros H; inversion H; subst; auto.
  constructor; auto. intros Hi. apply in_map_iff in Hi as (o' & E & Hi). apply completed_finished in Hi. match goal with H : ~ In _ _ |- _ => apply H end. rewrite <- E. apply in_map, Hi.
Qed.
Lemma finished_cases l o : In o (finished l) -> In o (completed l) \/ In o (lost l).
Proof.
  unfold finished, completed, lost. intros H. apply in_flat_map in H as (x & Hx & H). destruct x; try contradiction; destruct H as [<-|[]]; [left|right]; apply in_flat_map; eexists; (split; [exact Hx|left; reflexivity]).
Qed.
Lemma in_submitted o l : In o (submitted l) <-> In (I_SUBMIT o) l.
Proof.
  unfold submitted. rewrite in_flat_map. split.
  - intros (x & Hx & H). destruct x; try contradiction. destruct H as [<-|[]]. exact Hx.
  - intros H. exists (I_SUBMIT o). split; [exact H|left; reflexivity].
Qed.

Section Ops.
Variable cf : config.
Variable now0 : N.
Notation prim := (prim cf).
Notation reach := (reach cf now0).
Notation may_finish := (may_finish cf).

Lemma K_uid g s a b : NoDup (map kuid (K g s)) -> In a (K g s) -> In b (K g s) -> kuid a = kuid b -> a = b.
Proof. apply nodup_map_inj. Qed.
Lemma held_K g s o : In o (held g s) -> In (identity_of o) (K g s).
Proof. intros H. unfold K. apply in_or_app. left. apply in_map, H. Qed.
Lemma finished_K g s o : In o (finished (c_out s)) -> In (identity_of o) (K g s).
Proof. intros H. unfold K. apply in_or_app. right. apply in_map, H. Qed.
Lemma hand_held g s o : In o (g_hand g) -> In o (held g s).
Proof. intros H. unfold held. apply in_or_app. auto. Qed.
Lemma queued_held g s o : In o (queued s) -> In o (held g s).
Proof. intros H. unfold held. rewrite !in_app_iff. auto. Qed.
Lemma curop_held g s o : curop s = Some o -> In o (held g s).
Proof. intros H. unfold held. rewrite H, !in_app_iff. right. right. left. left. reflexivity. Qed.
Lemma unacked_held g s o : In o (unacked s) -> In o (held g s).
Proof. intros H. unfold held. rewrite !in_app_iff. auto. Qed.
(** the identity of an operation is in one place only *)
Lemma held_not_finished g s o : NoDup (map kuid (K g s)) -> In o (held g s) -> ~ In (op_uid o) (map op_uid (finished (c_out s))).
Proof.
  unfold K. rewrite map_app. intros ND Hh Hf. apply (in_map identity_of), (in_map kuid) in Hh. change (kuid (identity_of o)) with (op_uid o) in Hh.
  assert (In (op_uid o) (map kuid (map identity_of (finished (c_out s))))) as Hf' by (rewrite map_map; exact Hf).
  apply in_split in Hh as (a & b & Hh). rewrite Hh in ND. rewrite <- app_assoc in ND. apply nodup_app_r in ND. cbn [app] in ND. inversion ND; subst.
  match goal with H : ~ In _ _ |- _ => apply H end. apply in_or_app. right. exact Hf'.
Qed.

(** an operation that was sent is one of those there have been *)
Definition J4 (x : ghost * client) : Prop := let '(g, s) := x in forall o, In (O_SENT o) (c_out s) -> In (identity_of o) (K g s).
Lemma K_mono g s g' s' k : ok s -> ok s' -> NoDup (map kuid (K g s)) -> prim (g, s) (g', s') -> In k (K g s) -> In k (K g' s').
Proof.
  intros Ok Ok' ND P H. destruct (prim_flow cf _ _ _ _ Ok Ok' ND P) as [(Hp & _)|(o & Hp & _)].
  - eapply Permutation_in; [symmetry; exact Hp|exact H].
  - eapply Permutation_in; [symmetry; exact Hp|right; exact H].
Qed.
Lemma reach_J4 g s : reach (g, s) -> ok s -> J4 (g, s).
Proof.
  intros R Ok. refine (reach_inv cf now0 J4 _ _ _ (g, s) R Ok).
  - intros o [].
  - intros s1 now _ _ J o [H|H]; [discriminate H|]. exact (J o H).
  - clear. intros g s g' s' R Ok Ok' J P o H. destruct (reach_J1 cf now0 _ _ R Ok) as (ND & _).
    destruct (prim_trace cf _ _ _ _ P) as (d & Hd & _). rewrite Hd in H. apply in_app_or in H as [H|H].
    + apply in_split in H as (d1 & d2 & ->). rewrite <- app_assoc in Hd. cbn [app] in Hd. pose proof (prim_cause cf _ _ _ _ _ _ _ Ok Ok' P Hd) as C.
      inversion C; subst; try discriminate. refine (K_mono _ _ _ _ _ Ok Ok' ND P _). apply held_K, curop_held. assumption.
    + refine (K_mono _ _ _ _ _ Ok Ok' ND P _). apply J, H.
Qed.
Lemma sent_here_in o t l : sent_here o t l -> In (O_SENT o) l.
Proof. intros (a & b & -> & _). apply in_or_app. right. left. reflexivity. Qed.
Lemma sent_identity g s o o' t : reach (g, s) -> ok s -> sent_here o' t (c_out s) -> In o (held g s) -> op_uid o' = op_uid o -> identity_of o' = identity_of o.
Proof.
  intros R Ok Hs Ho E. destruct (reach_J1 cf now0 _ _ R Ok) as (ND & _). apply (K_uid g s); [exact ND|exact (reach_J4 _ _ R Ok _ (sent_here_in _ _ _ Hs))|apply held_K, Ho|exact E].
Qed.

(** ** Completions *)
Lemma once g s : reach (g, s) -> ok s -> NoDup (map op_uid (submitted (c_out s))) /\ NoDup (map op_uid (completed (c_out s))).
Proof.
  intros R Ok. destruct (reach_J1 cf now0 _ _ R Ok) as (ND & _ & Hp). split.
  - apply (Permutation_map kuid) in Hp. rewrite map_map in Hp. change (fun x => kuid (identity_of x)) with op_uid in Hp.
    eapply Permutation_NoDup; [exact Hp|]. clear Hp. induction (K g s) as [|k l IH]; [constructor|]. cbn [map] in ND. inversion ND; subst. cbn [filter].
    destruct (user_made k); [|auto]. cbn [map]. constructor; [|auto]. intros Hi. apply in_map_iff in Hi as (k' & E & Hi). apply filter_In in Hi as [Hi _].
    match goal with H : ~ In _ _ |- _ => apply H end. rewrite <- E. apply in_map, Hi.
  - apply nodup_completed. unfold K in ND. rewrite map_app in ND. apply nodup_app_r in ND. rewrite map_map in ND. exact ND.
Qed.
Lemma user_submitted g s k : reach (g, s) -> ok s -> In k (K g s) -> kowner k = BY_USER -> exists o, In o (submitted (c_out s)) /\ identity_of o = k.
Proof.
  intros R Ok Hk Hw. destruct (reach_J1 cf now0 _ _ R Ok) as (ND & _ & Hp). assert (In k (filter user_made (K g s))) as H by (apply filter_In; split; [exact Hk|unfold user_made; rewrite Hw; reflexivity]).
  eapply Permutation_in in H; [|exact Hp]. apply in_map_iff in H as (o & E & H). exists o. auto.
Qed.
Lemma done_belongs g s x o e ack y : reach (g, s) -> ok s -> c_out s = x ++ O_DONE o e ack :: y -> op_owner o = BY_USER ->
  exists o0, In o0 (submitted y) /\ identity_of o0 = identity_of o /\ ~ In (op_uid o) (map op_uid (completed y)).
Proof.
  intros R Ok E Hw. destruct (event_cause cf now0 _ _ _ _ _ R Ok E) as (g1 & s1 & g2 & s2 & d1 & d2 & x' & R1 & Ok1 & R2 & Ok2 & C & E2 & -> & _).
  inversion C; subst; try discriminate.
  - exists (op_new (uid s1) BY_USER p override). split; [left; reflexivity|]. split; [reflexivity|]. intros Hi.
    change (completed ([I_SUBMIT ?a] ++ c_out s1)) with (completed (c_out s1)) in Hi. destruct (reach_J1 cf now0 _ _ R1 Ok1) as (_ & Hlt & _).
    apply in_map_iff in Hi as (o' & Eo & Hi). apply completed_finished, (finished_K g2 s1) in Hi. rewrite Forall_forall in Hlt. specialize (Hlt _ Hi).
    change (op_uid o' = uid s1) in Eo. change (op_uid o' < uid s1) in Hlt. lia.
  - match goal with H : g_hand g1 = _ |- _ => rename H into Hh end. assert (In o (held g1 s1)) as Ho by (apply hand_held; rewrite Hh; left; reflexivity).
    destruct (user_submitted _ _ _ R1 Ok1 (held_K _ _ _ Ho) Hw) as (o0 & H1 & H2). exists o0. split; [exact H1|]. split; [exact H2|]. cbn [app].
    destruct (reach_J1 cf now0 _ _ R1 Ok1) as (ND & _). intros Hi. apply (held_not_finished _ _ _ ND Ho). apply in_map_iff in Hi as (o' & <- & Hi). apply in_map, completed_finished, Hi.
Qed.
Lemma done_finish g s x o e ack y : reach (g, s) -> ok s -> c_out s = x ++ O_DONE o e ack :: y ->
  (exists y', y = I_SUBMIT o :: y' /\ ack = None /\ op_owner o = BY_USER /\ (e = K_CLIENT_TERMINATED \/ e = K_OFFLINE_QUEUE_POLICY /\ satisfies_policy cf (op_packet o) = false)) \/
  (exists g1 s1, reach (g1, s1) /\ ok s1 /\ In o (held g1 s1) /\ c_out s1 = y /\ may_finish s1 o e ack).
Proof.
  intros R Ok E. destruct (event_cause cf now0 _ _ _ _ _ R Ok E) as (g1 & s1 & g2 & s2 & d1 & d2 & x' & R1 & Ok1 & R2 & Ok2 & C & E2 & -> & _).
  inversion C; subst; try discriminate.
  - left. exists (c_out s1). cbn [op_owner op_new op_packet]. intuition congruence.
  - right. exists g1, s1. repeat (split; [assumption|]). split; [|split; [reflexivity|assumption]]. apply hand_held. match goal with H : g_hand _ = _ |- _ => rewrite H end. left. reflexivity.
Qed.
Lemma success_acked g s x o ack y : reach (g, s) -> ok s -> c_out s = x ++ O_DONE o K_SUCCESS ack :: y -> requires_ack (op_packet o) = true ->
  exists a y' o' t, ack = Some a /\ y = I_PACKET a :: y' /\ ack_id a = packet_id (op_packet o) /\
    sent_here o' t y /\ identity_of o' = identity_of o /\ packet_id (op_packet o') = packet_id (op_packet o).
Proof.
  intros R Ok E Hr. destruct (done_finish _ _ _ _ _ _ _ R Ok E) as [(y' & _ & _ & _ & [H|[H _]])|(g1 & s1 & R1 & Ok1 & Ho & <- & M)]; try discriminate.
  unfold Client5_Steps.may_finish in M. destruct ack as [a|]; [|destruct M as [M _]; rewrite Hr in M; discriminate].
  destruct M as (_ & Hi & _ & (y' & Hy) & o' & t & Hs & Hu & Hp). exists a, y', o', t. repeat (split; [assumption||reflexivity|]).
  split; [|exact Hp]. eapply sent_identity; eassumption.
Qed.
Lemma success_sent g s x o ack y : reach (g, s) -> ok s -> c_out s = x ++ O_DONE o K_SUCCESS ack :: y ->
  exists o' t, sent_here o' t y /\ identity_of o' = identity_of o.
Proof.
  intros R Ok E. destruct (done_finish _ _ _ _ _ _ _ R Ok E) as [(y' & _ & _ & _ & [H|[H _]])|(g1 & s1 & R1 & Ok1 & Ho & <- & M)]; try discriminate.
  unfold Client5_Steps.may_finish in M. destruct ack as [a|].
  - destruct M as (_ & _ & _ & _ & o' & t & Hs & Hu & _). exists o', t. split; [exact Hs|eapply sent_identity; eassumption].
  - destruct M as (_ & o' & t & Hs & Hu). exists o', t. split; [exact Hs|eapply sent_identity; eassumption].
Qed.
Lemma failure_no_ack g s x o e ack y : reach (g, s) -> ok s -> c_out s = x ++ O_DONE o e ack :: y -> e <> K_SUCCESS -> ack = None.
Proof.
  intros R Ok E He. destruct (done_finish _ _ _ _ _ _ _ R Ok E) as [(y' & _ & H & _)|(g1 & s1 & R1 & Ok1 & Ho & <- & M)]; [exact H|].
  unfold Client5_Steps.may_finish in M. destruct e; try exact M; try (exact (proj1 M)). contradiction.
Qed.
(** ** By the time the client is stopped or terminated every operation is finished with *)
Lemma stopped_finished g s x ev y : reach (g, s) -> ok s -> c_out s = x ++ ev :: y -> ev = O_LIFE STOPPED_EVENT \/ ev = O_TERMINATED ->
  forall o, In o (submitted y) -> exists o', identity_of o' = identity_of o /\ (In o' (completed y) \/ In o' (lost y)).
Proof.
  intros R Ok E Hev o Ho. destruct (event_cause cf now0 _ _ _ _ _ R Ok E) as (g1 & s1 & g2 & s2 & d1 & d2 & x' & R1 & Ok1 & R2 & Ok2 & C & E2 & -> & _).
  assert (nothing_held s1 /\ g_hand g1 = [] /\ d2 = []) as ((H1 & H2 & H3 & H4) & Hh & ->).
  { inversion C; subst; (try (destruct Hev; discriminate)); try (destruct Hev; subst; discriminate); auto. }
  cbn [app] in Ho |- *. destruct (reach_J1 cf now0 _ _ R1 Ok1) as (_ & _ & Hp). apply (in_map identity_of) in Ho. eapply Permutation_in in Ho; [|symmetry; exact Hp].
  apply filter_In in Ho as [Ho _]. unfold K, held in Ho. rewrite Hh, H1, H2, H3, H4 in Ho. cbn [app map] in Ho. apply in_map_iff in Ho as (o' & E' & Ho).
  exists o'. split; [exact E'|]. apply finished_cases, Ho.
Qed.
End Ops.
