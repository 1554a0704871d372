(** Packet ids in flight are different; what was sent on this connection and not finished with waits for its acknowledgement and its
    timeout. This holds for the offline queue policies that do not keep a SUBSCRIBE or UNSUBSCRIBE over a disconnection. *)
From Verif Require Import Base BaseLemmas Mqtt5_Views TopicAlias_Model Encoder5_Model Decoder5_Model RateLimiter_Model RateLimiter_Spec
  RateLimiter_Proofs Validate5_Model Negotiated_Model Client5_State Client5_Model Client5_Steps Client5_Decomp Client5_Decomp2 Client5_Forms Client5_Decomp3
  Client5_Inv0 Client5_Spec Client5_Flow Client5_Safety Client5_Ops Client5_Crash Client5_Conn Client5_Events.
From Coq Require Import Permutation.
Ltac Zify.zify_post_hook ::= idtac.

(** ** Subsequences *)
Inductive sub {A} : list A -> list A -> Prop :=
| sub_nil : sub [] []
| sub_skip x l l' : sub l l' -> sub l (x :: l')
| sub_keep x l l' : sub l l' -> sub (x :: l) (x :: l').
Lemma sub_refl {A} (l : list A) : sub l l.
Proof. induction l; constructor; assumption. Qed.
Lemma sub_nil_l {A} (l : list A) : sub [] l.
Proof. induction l; constructor; assumption. Qed.
Lemma sub_filter {A} (f : A -> bool) l : sub (filter f l) l.
Proof. induction l as [|x l IH]; cbn [filter]; [constructor|]. destruct (f x); [apply sub_keep|apply sub_skip]; exact IH. Qed.
Lemma sub_filter2 {A} (f : A -> bool) l l' : sub l l' -> sub (filter f l) (filter f l').
Proof. induction 1 as [|x l l' _ IH|x l l' _ IH]; cbn [filter]; [constructor| |]; destruct (f x); first [exact IH|apply sub_keep; exact IH|apply sub_skip; exact IH]. Qed.
Lemma sub_map {A B} (f : A -> B) l l' : sub l l' -> sub (map f l) (map f l').
Proof. induction 1; cbn [map]; constructor; assumption. Qed.
Lemma sub_app {A} (l1 l1' l2 l2' : list A) : sub l1 l1' -> sub l2 l2' -> sub (l1 ++ l2) (l1' ++ l2').
Proof. induction 1; intros H2; cbn [app]; [exact H2|apply sub_skip|apply sub_keep]; auto. Qed.
Lemma sub_in {A} (l l' : list A) x : sub l l' -> In x l -> In x l'.
Proof. induction 1; cbn [In]; intros Hi; [exact Hi| |]; intuition. Qed.
Lemma sub_forall {A} (P : A -> Prop) l l' : sub l l' -> Forall P l' -> Forall P l.
Proof. intros Hs. rewrite !Forall_forall. intros H x Hx. apply H. eapply sub_in; eassumption. Qed.
Lemma sub_nodup {A} (l l' : list A) : sub l l' -> NoDup l' -> NoDup l.
Proof.
  induction 1 as [|x l l' H IH|x l l' H IH]; intros N; [exact N|inversion N; auto|]. inversion N; subst. constructor; [|auto].
  intros Hi. match goal with Hn : ~ In _ _ |- _ => apply Hn end. eapply sub_in; eassumption.
Qed.
Lemma sub_app_inv {A} (l l1 l2 : list A) : sub l (l1 ++ l2) -> exists a b, l = a ++ b /\ sub a l1 /\ sub b l2.
Proof.
  revert l. induction l1 as [|x l1 IH]; cbn [app]; intros l H.
  - exists [], l. split; [reflexivity|]. split; [constructor|exact H].
  - inversion H as [|y m m' Hm|y m m' Hm]; subst.
    + destruct (IH _ Hm) as (a & b & -> & H1 & H2). exists a, b. split; [reflexivity|]. split; [apply sub_skip; exact H1|exact H2].
    + destruct (IH _ Hm) as (a & b & -> & H1 & H2). exists (x :: a), b. split; [reflexivity|]. split; [apply sub_keep; exact H1|exact H2].
Qed.
Lemma sub_trans {A} (l1 l2 l3 : list A) : sub l1 l2 -> sub l2 l3 -> sub l1 l3.
Proof.
  intros H1 H2. revert l1 H1. induction H2 as [|x l l' H IH|x l l' H IH]; intros l1 H1; [exact H1|apply sub_skip; auto|].
  inversion H1; subst; [apply sub_skip|apply sub_keep]; auto.
Qed.

Lemma filter_all {A} (f : A -> bool) l : Forall (fun x => f x = true) l -> filter f l = l.
Proof. induction 1 as [|x l H _ IH]; cbn [filter]; [reflexivity|]. rewrite H, IH. reflexivity. Qed.

Definition pend (s : client) : list op := match curop s with Some o => [o] | None => [] end ++ queued s.
Definition need (o : op) : bool := requires_ack (op_packet o).
Definition pid (o : op) : N := packet_id (op_packet o).
(** the packet ids of the operations waiting to be sent that will be acknowledged: first those with an id, then those without *)
Definition ids (s : client) : list N := map pid (filter need (pend s)).
Definition is_id (x : N) : Prop := x <> 0 /\ x < 65536.
Definition split_ids (l u : list N) : Prop :=
  exists a b, l = a ++ b /\ Forall is_id a /\ Forall (fun x => x = 0) b /\ NoDup (a ++ u) /\ Forall is_id u.
Lemma split_sub l u l' u' : split_ids l u -> sub l' l -> sub u' u -> split_ids l' u'.
Proof.
  intros (a & b & -> & H1 & H2 & H3 & H4) Hl Hu. apply sub_app_inv in Hl as (a' & b' & -> & Ha & Hb). exists a', b'. split; [reflexivity|].
  split; [eapply sub_forall; eassumption|]. split; [eapply sub_forall; eassumption|]. split; [|eapply sub_forall; eassumption].
  eapply sub_nodup; [|exact H3]. apply sub_app; assumption.
Qed.
Lemma split_snoc l u : split_ids l u -> split_ids (l ++ [0]) u.
Proof.
  intros (a & b & -> & H1 & H2 & H3 & H4). exists a, (b ++ [0]). rewrite app_assoc. split; [reflexivity|]. split; [exact H1|]. split; [|auto].
  apply Forall_app. split; [exact H2|]. constructor; [reflexivity|constructor].
Qed.
(** the head gets an id that no operation in flight has *)
Lemma split_bind l u id : split_ids (0 :: l) u -> is_id id -> ~ In id u -> split_ids (id :: l) u.
Proof.
  intros (a & b & E & H1 & H2 & H3 & H4) Hn Hu. destruct a as [|x a]; [|injection E as <- _; inversion H1 as [|? ? [Hz _]]; congruence].
  cbn [app] in E. subst b. exists [id], l. split; [reflexivity|]. split; [constructor; [exact Hn|constructor]|]. split; [inversion H2; assumption|]. split; [|exact H4].
  cbn [app] in *. constructor; assumption.
Qed.
Lemma split_sent l u id : id <> 0 -> split_ids (id :: l) u -> split_ids l (u ++ [id]) /\ ~ In id u /\ id < 65536.
Proof.
  intros Hn (a & b & E & H1 & H2 & H3 & H4). destruct a as [|x a].
  - cbn [app] in E. subst b. inversion H2; congruence.
  - injection E as <- ->. inversion H1; subst. cbn [app] in H3. split.
    + exists a, b. split; [reflexivity|]. split; [assumption|]. split; [assumption|]. split.
      * eapply Permutation_NoDup; [|exact H3]. rewrite app_assoc. apply Permutation_cons_append.
      * apply Forall_app. split; [exact H4|]. constructor; [assumption|constructor].
    + inversion H3; subst. rewrite in_app_iff in *. unfold is_id in *. tauto.
Qed.
Lemma split_requeue l u u' : Permutation u u' -> split_ids l u -> split_ids (u' ++ l) [].
Proof.
  intros P (a & b & -> & H1 & H2 & H3 & H4). exists (u' ++ a), b. rewrite app_assoc. split; [reflexivity|]. split; [|split; [exact H2|split; [|constructor]]].
  - apply Forall_app. split; [eapply Permutation_Forall; eassumption|exact H1].
  - rewrite app_nil_r. eapply Permutation_NoDup; [|exact H3]. rewrite Permutation_app_comm. apply Permutation_app_tail. exact P.
Qed.
(** sublists may be taken of [u'] as well *)
Lemma ids_packets s s' : map op_packet (pend s') = map op_packet (pend s) -> ids s' = ids s.
Proof.
  unfold ids. generalize (pend s'), (pend s). intros l'. induction l' as [|o l' IH]; intros [|x l] E; try discriminate E; [reflexivity|]. injection E as E1 E2. cbn [filter].
  assert (need o = need x /\ pid o = pid x) as [-> Ep] by (unfold need, pid; rewrite E1; split; reflexivity).
  destruct (need x); cbn [map]; [rewrite Ep; f_equal|]; apply IH, E2.
Qed.

(** ** What was sent on this connection *)
Definition minor (x : out) : bool :=
  match x with O_LIFE (CONNECTION_SUCCESS _ _) | O_LIFE ATTEMPTING_CONNECT | O_SENT _ => false | _ => true end.
Lemma sent_here_cons o t x l : sent_here o t (x :: l) <-> (x = O_SENT o /\ clock l = Some t) \/ (is_attempt x = false /\ sent_here o t l).
Proof.
  split.
  - intros (a & b & E & H1 & H2). destruct a as [|y a]; cbn [app] in E; injection E as -> ->; [left; auto|]. right. inversion H1; subst. split; [assumption|]. exists a, b. auto.
  - intros [[-> H]|[H (a & b & -> & H1 & H2)]]; [exists [], l; repeat split; [constructor|exact H]|]. exists (x :: a), b. split; [reflexivity|]. split; [constructor; assumption|exact H2].
Qed.
Lemma minor_sent d l o t : Forall (fun x => minor x = true) d -> sent_here o t (d ++ l) <-> sent_here o t l.
Proof.
  induction 1 as [|x d Hx _ IH]; [tauto|]. cbn [app]. rewrite sent_here_cons, IH. destruct x as [e| | | | | | | | | | | | |]; try discriminate Hx; try destruct e; try discriminate Hx;
    (split; [intros [[E _]|[_ H]]; [discriminate E|exact H]|intros H; right; split; [reflexivity|exact H]]).
Qed.
Lemma minor_settings d l : Forall (fun x => minor x = true) d -> settings_of (d ++ l) = settings_of l.
Proof. induction 1 as [|x d Hx _ IH]; [reflexivity|]. cbn [app]. destruct x as [e| | | | | | | | | | | | |]; try discriminate Hx; try destruct e; try discriminate Hx; exact IH. Qed.
Lemma finished_app a b : finished (a ++ b) = finished a ++ finished b.
Proof. unfold finished. apply flat_map_app. Qed.

Section Sent.
Variable cf : config.
Variable now0 : N.
Notation prim := (prim cf).
Notation reach := (reach cf now0).
Lemma prim_minor g s g' s' : ok s -> ok s' -> prim (g, s) (g', s') ->
  (exists d, c_out s' = d ++ c_out s /\ Forall (fun x => minor x = true) d) \/
  (s' = emit (O_LIFE ATTEMPTING_CONNECT) (set_life LS_CONNECTING (set_current CONNECTING s)) /\ g' = g) \/
  (exists v, s' = emit (O_LIFE (CONNECTION_SUCCESS (c_neg s) v)) (set_life LS_CONNECTED s) /\ g' = with_link FINE g /\ fresh s /\ g_link g = ACKED v /\ current s = CONNECTED) \/
  (exists o now, s' = finish_operation cf now o s /\ g' = g /\ curop s = Some o /\ g_link g = FINE /\ g_clearing g = false /\ sending (current s) = true /\ clock (c_out s) = Some now /\
     (is_acked_publish (op_packet o) = true -> 0 < tokens s) /\ (requires_ack (op_packet o) = true -> packet_id (op_packet o) <> 0) /\ g_hand g = []).
Proof.
  intros Ok Ok' P. inversion P; subst; clear P; repeat match goal with H : ok _ -> _ |- _ => specialize (H Ok) end;
    try (left; exists []; split; [reflexivity|constructor]; fail);
    try (left; eexists [_]; split; [reflexivity|constructor; [reflexivity|constructor]]; fail); try (left; eexists [_; _]; split; [reflexivity|repeat constructor]; fail).
  - match goal with H : hush _ _ |- _ => destruct H as [H _]; apply core_inv in H end. left. exists []. split; [cbn [app]; tauto|constructor].
  - exfalso. exact (not_ok_crash _ _ Ok').
  - left. exists [x]. split; [reflexivity|]. constructor; [destruct x; try discriminate; reflexivity|constructor].
  - right. left. auto.
  - right. right. left. exists v. intuition.
  - left. destruct (enqueue_eq p override s) as (o & x & -> & _). eexists [_]. split; [reflexivity|repeat constructor].
  - left. destruct (publish_received_eq acquire v s) as (m & c & [(_ & -> & _)|[(_ & _ & ->)|(_ & _ & _ & ->)]] & _); eexists [_; _]; (split; [reflexivity|repeat constructor]).
  - left. destruct (manual_core_eq control s) as (m & x & -> & [(id & _ & _ & ->)|(_ & r & -> & _)]); [eexists [_]|eexists [_; _]]; (split; [reflexivity|repeat constructor]).
  - left. exists []. unfold reset_manual. destruct (mc s); (split; [reflexivity|constructor]).
  - left. exists []. destruct (cs_shape inc una o s) as [x ->]. split; [reflexivity|constructor].
  - left. exists []. destruct (incomplete_eq s) as (l & x & -> & _). split; [reflexivity|constructor].
  - left. exists []. match goal with H : bind_packet_id _ _ = _ |- _ => pose proof (bind_eq _ _ _ _ H) as Hb end. destruct Hb as [(-> & -> & _)|(id & _ & _ & -> & ->)]; (split; [reflexivity|constructor]).
  - left. eexists [_]. match goal with H : bind_packet_id _ _ = _ |- _ => pose proof (bind_eq _ _ _ _ H) as Hb end. destruct Hb as [(-> & -> & _)|(id & _ & _ & -> & ->)]; (split; [reflexivity|repeat constructor]).
  - right. right. right. exists o, now. intuition.
Qed.
(** the connection has been announced and is still being used *)
Definition alive (g : ghost) (s : client) : Prop := g_link g = FINE /\ sending (current s) = true /\ settings_of (c_out s) <> None.
Lemma prim_alive g s g' s' : reach (g, s) -> ok s -> ok s' -> prim (g, s) (g', s') ->
  (alive g' s' -> alive g s) \/ (exists v, g' = with_link FINE g /\ s' = emit (O_LIFE (CONNECTION_SUCCESS (c_neg s) v)) (set_life LS_CONNECTED s) /\ fresh s /\ g_link g = ACKED v /\ current s = CONNECTED).
Proof.
  intros R Ok Ok' P. pose proof (reach_J8 cf now0 _ _ R Ok) as J. unfold J8 in J. unfold alive in *.
  inversion P; subst; clear P; repeat match goal with H : ok _ -> _ |- _ => specialize (H Ok) end; try (left; intros A; exact A).
  - match goal with H : hush _ _ |- _ => destruct H as [H _]; apply core_inv in H as (E1 & _ & _ & _ & _ & _ & _ & _ & _ & _ & _ & _ & _ & _ & _ & E2) end. rewrite E1, E2. left. auto.
  - exfalso. exact (not_ok_crash _ _ Ok').
  - left. intros A. destruct x; try discriminate; exact A.
  - left. intros A. exfalso. destruct A as (_ & A & _). discriminate A.
  - right. exists v. intuition.
  - left. intros A. change (c_out (set_current c ?b)) with (c_out s) in A. change (current (set_current c ?b)) with c in A. destruct A as (A1 & A2 & A3).
    destruct c; try discriminate A2; cbn [edge g_link with_link] in *; try discriminate A1.
    + match goal with H : _ /\ _ |- _ => destruct H as (_ & v & H) end. congruence.
    + split; [exact A1|]. split; [|exact A3]. match goal with H : _ \/ _ |- _ => destruct H as [-> | ->] end; reflexivity.
  - left. intros A. exfalso. destruct A as (_ & _ & A). change (settings_of (c_out s) <> None) in A. destruct (settings_of (c_out s)) as [n|]; [|congruence]. destruct J as (_ & _ & J & _). apply J. tauto.
  - left. intros A. destruct A as (A & _). discriminate A.
  - left. intros A. destruct A as (A & _). discriminate A.
  - left. intros A. exfalso. destruct A as (_ & A & _). congruence.
  - destruct (enqueue_eq p override s) as (o & x & -> & _). left. intros A. exact A.
  - left. destruct (publish_received_eq acquire v s) as (m & c & [(_ & -> & _)|[(_ & _ & ->)|(_ & _ & _ & ->)]] & _); intros A; exact A.
  - left. destruct (manual_core_eq control s) as (m & x & -> & [(id & _ & _ & ->)|(_ & r & -> & _)]); intros A; exact A.
  - left. unfold reset_manual. destruct (mc s); intros A; exact A.
  - left. destruct (cs_shape inc una o s) as [x ->]. intros A. exact A.
  - left. destruct (incomplete_eq s) as (l & x & -> & _). intros A. exact A.
  - left. match goal with H : bind_packet_id _ _ = _ |- _ => apply bind_eq in H as [(-> & -> & _)|(id & _ & _ & -> & ->)] end; intros A; exact A.
  - left. intros A. destruct A as (A & _). discriminate A.
  - left. intros A. destruct A as (A & _). discriminate A.
  - left. intros A. rewrite finish_out in A. unfold current in *. rewrite finish_ctl in A. exact A.
Qed.

(** before the connection is announced only CONNECT and DISCONNECT are sent; after that what will be acknowledged is in flight or finished *)
Definition J12 (x : ghost * client) : Prop := let '(g, s) := x in
  (settings_of (c_out s) = None -> forall o t, sent_here o t (c_out s) -> opening (op_packet o) = true) /\
  (alive g s -> forall o t, sent_here o t (c_out s) -> need o = true ->
     (exists o', In o' (unacked s) /\ op_uid o' = op_uid o /\ pid o' = pid o /\ op_deadline o' = deadline_of cf t o) \/
     In (op_uid o) (map op_uid (g_hand g)) \/ In (op_uid o) (map op_uid (finished (c_out s)))).
Lemma prim_keeps g s g' s' : ok s -> ok s' -> prim (g, s) (g', s') -> alive g s ->
  (forall o, In o (unacked s) -> In o (unacked s') \/ In (op_uid o) (map op_uid (g_hand g'))) /\
  (forall u, In u (map op_uid (g_hand g)) -> In u (map op_uid (g_hand g')) \/ In u (map op_uid (finished (c_out s')))).
Proof.
  intros Ok Ok' P (A1 & A2 & A3). inversion P; subst; clear P; repeat match goal with H : ok _ -> _ |- _ => specialize (H Ok) end;
    try (split; [intros ? Hi; left; exact Hi|intros ? Hi; left; exact Hi]); try (split; [intros ? Hi; left; exact Hi|intros ? Hi; left; cbn [g_hand with_hand map In]; rewrite ?map_app, ?in_app_iff; auto; fail]).
  - match goal with H : hush _ _ |- _ => destruct H as [H _]; apply core_inv in H as (_ & _ & _ & _ & _ & E & _) end. rewrite E. split; auto.
  - exfalso. exact (not_ok_crash _ _ Ok').
  - split; destruct c; auto.
  - destruct (enqueue_eq p override s) as (o & x & -> & _). split; auto.
  - destruct (publish_received_eq acquire v s) as (m & c & [(_ & -> & _)|[(_ & _ & ->)|(_ & _ & _ & ->)]] & _); split; auto.
  - destruct (manual_core_eq control s) as (m & x & -> & [(id & _ & _ & ->)|(_ & r & -> & _)]); split; auto.
  - unfold reset_manual. destruct (mc s); split; auto.
  - exfalso. match goal with H : _ /\ down _ _ |- _ => destruct H as [_ [H|H]] end; congruence.
  - exfalso. match goal with H : _ /\ down _ _ |- _ => destruct H as [_ [H|H]] end; congruence.
  - match goal with H : find_op _ _ = _ |- _ => apply find_op_some in H as [Fi Fu] end. split; [|intros x Hx; left; right; exact Hx]. intros o1 O1. destruct (N.eq_dec (op_uid o1) u) as [E|E]; [right; left; congruence|].
    left. apply in_remove_op. auto.
  - match goal with H : find_op _ _ = _ |- _ => apply find_op_some in H as [Fi Fu] end. split; [|intros x Hx; left; right; exact Hx]. intros o1 O1. destruct (N.eq_dec (op_uid o1) u) as [E|E]; [right; left; congruence|].
    left. apply in_remove_op. auto.
  - destruct (cs_shape inc una o s) as [x ->]. split; [intros ? Hi; left; exact Hi|]. intros x0 Hx. left. cbn [g_hand with_hand map In]. rewrite cs_uid. match goal with H : g_hand g = _ |- _ => rewrite H in Hx end. exact Hx.
  - split; [intros ? Hi; left; exact Hi|]. intros x0 Hx. match goal with H : g_hand g = _ |- _ => rewrite H in Hx end. destruct Hx as [<-|Hx]; [right; left; reflexivity|left; exact Hx].
  - exfalso. match goal with H : _ /\ _ |- _ => destruct H as (_ & _ & _ & v & H) end. congruence.
  - exfalso. match goal with H : _ /\ _ |- _ => destruct H as (_ & _ & _ & v & H) end. congruence.
  - destruct (incomplete_eq s) as (l & x & -> & _). split; auto.
  - match goal with H : bind_packet_id _ _ = _ |- _ => apply bind_eq in H as [(-> & -> & _)|(id & _ & _ & -> & ->)] end; split; auto.
  - match goal with H : bind_packet_id _ _ = _ |- _ => apply bind_eq in H as [(-> & -> & _)|(id & _ & _ & -> & ->)] end; split; auto.
  - match goal with H : g_link _ = FINE /\ _ |- _ => destruct H as (Hg & _ & _ & Hs & _ & Ht & Hi) end. pose proof (finish_eq cf now o s Ht Hi) as F. cbv zeta in F. split; [|auto].
    intros o1 O1. left. destruct (requires_ack (op_packet o)); [destruct F as (o' & x & -> & _)|destruct F as (x & ->)]; [|exact O1].
    change (In o1 (unacked s ++ [o'])). apply in_or_app. left. exact O1.
Qed.
Lemma finished_mono g s g' s' u : prim (g, s) (g', s') -> In u (map op_uid (finished (c_out s))) -> In u (map op_uid (finished (c_out s'))).
Proof. intros P H. destruct (prim_trace cf _ _ _ _ P) as (d & -> & _). rewrite finished_app, map_app, in_app_iff. auto. Qed.
Lemma J12_step g s g' s' : reach (g, s) -> ok s -> ok s' -> J12 (g, s) -> prim (g, s) (g', s') -> J12 (g', s').
Proof.
  intros R Ok Ok' [J1 J2] P.
  assert (alive g s -> forall o t, sent_here o t (c_out s) -> need o = true ->
     (exists o', In o' (unacked s') /\ op_uid o' = op_uid o /\ pid o' = pid o /\ op_deadline o' = deadline_of cf t o) \/
     In (op_uid o) (map op_uid (g_hand g')) \/ In (op_uid o) (map op_uid (finished (c_out s')))) as Hk.
  { intros A o t Hs Hn. destruct (prim_keeps _ _ _ _ Ok Ok' P A) as [K1 K2]. destruct (J2 A o t Hs Hn) as [(o' & H1 & H2 & H3 & H4)|[H|H]].
    - destruct (K1 _ H1) as [K|K]; [left; exists o'; auto|right; left; congruence].
    - destruct (K2 _ H) as [K|K]; auto.
    - right. right. eapply finished_mono; eassumption. }
  destruct (prim_minor _ _ _ _ Ok Ok' P) as [(d & E & Hd)|[[-> ->]|[(v & -> & -> & Hf & Hg & Hc)|(o & now & -> & -> & Hcu & Hg & Hcl & Hs & Hck & Ht & Hi & Hh)]]].
  - destruct (prim_alive _ _ _ _ R Ok Ok' P) as [A|(v & _ & -> & _)].
    + unfold J12. rewrite E in Hk |- *. split.
      * rewrite minor_settings by exact Hd. intros Hn o t. rewrite minor_sent by exact Hd. apply J1, Hn.
      * intros Ha o t. rewrite minor_sent by exact Hd. apply Hk, A, Ha.
    + exfalso. change (c_out (emit ?a (set_life ?b ?c))) with (a :: c_out c) in E. destruct d as [|x d]; [apply (f_equal (@length _)) in E; cbn [app length] in E; lia|]. injection E as <- _. inversion Hd; discriminate.
  - split.
    + intros _ o t H. apply sent_here_cons in H as [[E _]|[E _]]; discriminate E.
    + intros (_ & Ha & _). discriminate Ha.
  - pose proof (reach_J8 cf now0 _ _ R Ok) as J8'. unfold J8 in J8'. destruct (settings_of (c_out s)) as [n|] eqn:En; [exfalso; destruct J8' as (_ & _ & _ & J8' & _); exact (J8' _ Hg)|].
    split; [discriminate|]. intros _ o t H Hn. apply sent_here_cons in H as [[E _]|[_ H]]; [discriminate E|]. specialize (J1 eq_refl o t H). unfold need in Hn. destruct (op_packet o); discriminate.
  - pose proof (reach_J8 cf now0 _ _ R Ok) as J8'. unfold J8 in J8'. unfold J12. rewrite finish_out in *. cbn [settings_of]. split.
    + intros En o1 t H. rewrite En in J8'. apply sent_here_cons in H as [[E _]|[_ H]]; [injection E as <-; apply J8', Hcu|exact (J1 En _ _ H)].
    + intros Ha o1 t H Hn. assert (alive g s) as Al.
      { destruct Ha as (H1 & H2 & H3). split; [exact H1|]. split; [exact Hs|]. rewrite finish_out in H3. exact H3. }
      apply sent_here_cons in H as [[E Hc]|[_ H]]; [|exact (Hk Al _ _ H Hn)]. injection E as <-. assert (t = now) by congruence. subst t. left.
      pose proof (finish_eq cf now o s Ht Hi) as F. cbv zeta in F. unfold need in Hn. rewrite Hn in F. destruct F as (o' & x & F & (Ho & Hu & _) & Hcs). exists o'.
      split; [rewrite F; change (In o' (unacked s ++ [o'])); apply in_or_app; right; left; reflexivity|]. split; [exact Hu|]. split; [unfold pid; rewrite Ho; reflexivity|].
      injection Hcs as -> _. rewrite change_statistics_eq. destruct (negb _); [reflexivity|]. destruct (size_of _); reflexivity.
Qed.
Lemma reach_J12 g s : reach (g, s) -> ok s -> J12 (g, s).
Proof.
  intros R Ok. refine (reach_inv cf now0 J12 _ _ _ (g, s) R Ok).
  - split; [intros _ o t (a & b & E & _)|intros _ o t (a & b & E & _)]; destruct a; discriminate E.
  - intros s1 now R1 Ok1 [J1 J2]. unfold J12. change (c_out (emit (I_TICK now) s1)) with ([I_TICK now] ++ c_out s1). rewrite minor_settings by repeat constructor. split.
    + intros Hn o t. rewrite minor_sent by repeat constructor. apply J1, Hn.
    + intros Ha o t. rewrite minor_sent by repeat constructor. apply J2, Ha.
  - intros g1 s1 g2 s2 R1 K1 K2 J P. eapply J12_step; eassumption.
Qed.
End Sent.

Section Ids.
Variable cf : config.
Variable now0 : N.
Notation prim := (prim cf).
Notation reach := (reach cf now0).
Hypothesis policy : cf_queue cf <> FAIL_QOS0_PUBLISH.

Definition J11 (x : ghost * client) : Prop := let '(g, s) := x in
  split_ids (ids s) (map pid (unacked s)) /\
  (alive g s -> forall o, In o (unacked s) -> In (pid o, op_uid o) (table s) /\ In (op_deadline o, op_uid o) (pq s)).
Lemma J11_same g s g' s' : J11 (g, s) -> (alive g' s' -> alive g s) -> map op_packet (pend s') = map op_packet (pend s) -> unacked s' = unacked s -> table s' = table s -> pq s' = pq s ->
  J11 (g', s').
Proof. intros [I D] A E1 E2 E3 E4. unfold J11. rewrite (ids_packets _ _ E1), E2, E3, E4. split; [exact I|]. intros Ha. apply D, A, Ha. Qed.
Lemma J11_sub g s g' s' : J11 (g, s) -> (alive g' s' -> alive g s) -> sub (map op_packet (filter need (pend s'))) (map op_packet (filter need (pend s))) -> unacked s' = unacked s -> table s' = table s -> pq s' = pq s ->
  J11 (g', s').
Proof.
  intros [I D] A E1 E2 E3 E4. unfold J11. rewrite E2, E3, E4. split; [|intros Ha; apply D, A, Ha]. eapply split_sub; [exact I| |apply sub_refl].
  unfold ids, pid. apply (sub_map packet_id) in E1. rewrite !map_map in E1. exact E1.
Qed.
Lemma ids_drop f (l1 l2 : list op) : need f = false -> map op_packet (filter need (l1 ++ f :: l2)) = map op_packet (filter need (l1 ++ l2)).
Proof. intros H. rewrite !filter_app. cbn [filter]. rewrite H. reflexivity. Qed.
Lemma insert_puback_need o l : need o = false -> filter need (insert_puback o l) = filter need l.
Proof.
  intros H. induction l as [|x l IH]; cbn [insert_puback filter]; [rewrite H; reflexivity|]. destruct (_ || _); cbn [filter]; [rewrite IH; reflexivity|]. rewrite H. reflexivity.
Qed.
Lemma sub_eq {A} (l l' : list A) : l = l' -> sub l l'.
Proof. intros ->. apply sub_refl. Qed.
Lemma lookup_none_in k l u : lookup k l = None -> ~ In (k, u) l.
Proof.
  unfold lookup. destruct (find _ l) as [e|] eqn:F; [discriminate|]. intros _ Hi. apply (find_none _ _ F) in Hi. cbn [fst] in Hi. rewrite N.eqb_refl in Hi. discriminate.
Qed.
Lemma free_id_free rounds : forall id t id', free_packet_id rounds id t = Some id' -> lookup id' t = None.
Proof. induction rounds as [|n IH]; intros id t id'; cbn [free_packet_id]; [discriminate|]. destruct (lookup id t) eqn:L; [apply IH|]. intros E. injection E as <-. exact L. Qed.
Lemma in_put_same k u l : In (k, u) (put k u l).
Proof. left. reflexivity. Qed.
Lemma in_put_other k k' u u' l : In (k, u) l -> k <> k' -> In (k, u) (put k' u' l).
Proof. intros H1 H2. right. unfold remove_key. apply filter_In. split; [exact H1|]. cbn [fst]. destruct (N.eqb_spec k k'); [contradiction|reflexivity]. Qed.
Lemma in_remove_key_other k k' u l : In (k, u) l -> k <> k' -> In (k, u) (remove_key k' l).
Proof. intros H1 H2. unfold remove_key. apply filter_In. split; [exact H1|]. cbn [fst]. destruct (N.eqb_spec k k'); [contradiction|reflexivity]. Qed.
(** what the policy keeps of the operations in flight keeps its id *)
Lemma kept_ids l : sub (map pid (filter (fun o => negb (unacked_fails_policy cf o)) (map unacked_for_disconnect l))) (map pid l).
Proof.
  induction l as [|o l IH]; cbn [map filter]; [constructor|]. destruct (unacked_fails_policy cf (unacked_for_disconnect o)) eqn:F; cbn [negb]; [apply sub_skip; exact IH|].
  cbn [map]. replace (pid (unacked_for_disconnect o)) with (pid o); [apply sub_keep; exact IH|]. unfold unacked_for_disconnect, unacked_fails_policy in *.
  destruct (is_acked_publish (op_packet o)) eqn:A; cbn [op_packet set_packet] in *; unfold pid; cbn [op_packet set_packet].
  - destruct (op_packet o); reflexivity.
  - assert (is_acked_publish (set_packet_id 0 (op_packet o)) = false) as A2 by (destruct (op_packet o); exact A || reflexivity). rewrite A2 in F. unfold satisfies_policy in F.
    destruct (cf_queue cf); [|contradiction|discriminate F]. destruct (op_packet o); try discriminate F; reflexivity || (cbn [set_packet_id is_request negb pb_qos] in F; cbn [is_acked_publish] in A; rewrite A in F; discriminate F).
Qed.
Lemma J11_step g s g' s' : reach (g, s) -> ok s -> ok s' -> J11 (g, s) -> prim (g, s) (g', s') -> J11 (g', s').
Proof.
  intros R Ok Ok' J P. destruct (prim_alive cf now0 _ _ _ _ R Ok Ok' P) as [A|(v & -> & -> & (Hu & _) & _)]; [|split; [apply J|]; intros _ o Ho; change (In o (unacked s)) in Ho; rewrite Hu in Ho; contradiction].
  pose proof (reach_J1 cf now0 _ _ R Ok) as (ND & _).
  pose proof J as [I D]. inversion P; subst; clear P;
    repeat match goal with H : ok _ -> _ |- _ => specialize (H Ok) end; try (refine (J11_same _ _ _ _ J A _ _ _ _); reflexivity).
  - match goal with H : hush _ _ |- _ => destruct H as [H _]; apply core_inv in H as (_ & _ & E1 & E2 & _ & E3 & E4 & E5 & _) end.
    refine (J11_same _ _ _ _ J A _ _ _ _); try assumption. unfold pend. rewrite E1, E2. reflexivity.
  - exfalso. exact (not_ok_crash _ _ Ok').
  - (* enqueue *) destruct (enqueue_eq p override s) as (o & x & E & Ho & _). rewrite E in *. split; [|exact D]. unfold ids, pend.
    change (curop (set_queued ?a ?b)) with (curop s). change (queued (set_queued ?a ?b)) with a. rewrite app_assoc, filter_app, map_app. cbn [filter]. fold (pend s). fold (ids s).
    change (unacked (set_queued ?a ?b)) with (unacked s). destruct (need o); [|cbn [map]; rewrite app_nil_r; exact I]. cbn [map].
    replace (pid o) with 0 by (unfold pid; rewrite Ho; destruct p; reflexivity). apply split_snoc, I.
  - (* push front *) refine (J11_sub _ _ _ _ J A _ _ _ _); try reflexivity. apply sub_eq. unfold pend. change (curop (push_front p s)) with (curop s). change (queued (push_front p s)) with (op_new (uid s) BY_CLIENT p 0 :: queued s).
    apply ids_drop. unfold need. cbn [op_packet op_new]. destruct p; try contradiction; reflexivity.
  - refine (J11_sub _ _ _ _ J A _ _ _ _); try reflexivity. apply sub_eq. unfold pend. change (curop (push_disconnect v s)) with (curop s). change (queued (push_disconnect v s)) with (op_new (uid s) BY_USER (P_DISCONNECT v) 0 :: queued s).
    apply ids_drop. reflexivity.
  - (* publish *) destruct (publish_received_eq acquire v s) as (m & c & [(_ & E & _)|[(_ & _ & E)|(_ & _ & _ & E)]] & _); rewrite E in *; [exact J|exact J|].
    refine (J11_sub _ _ _ _ J A _ _ _ _); try reflexivity. apply sub_eq. unfold pend, puback_core. change (curop (set_queued ?a ?b)) with (curop s). change (queued (set_queued ?a ?b)) with a.
    rewrite !filter_app, insert_puback_need by reflexivity. reflexivity.
  - destruct (manual_core_eq control s) as (m & x & E & [(id & _ & _ & ->)|(_ & r & -> & _)]); rewrite E in *; [|exact J].
    refine (J11_sub _ _ _ _ J A _ _ _ _); try reflexivity. apply sub_eq. unfold pend, puback_core. change (curop (set_queued ?a ?b)) with (curop s). change (queued (set_queued ?a ?b)) with a.
    rewrite !filter_app, insert_puback_need by reflexivity. reflexivity.
  - unfold reset_manual in *. destruct (mc s); exact J.
  - (* take *) refine (J11_sub _ _ _ _ J A _ _ _ _); try reflexivity. unfold pend. change (curop (set_queued q s)) with (curop s). change (queued (set_queued q s)) with q.
    match goal with H : queued s = _ |- _ => rewrite H end. apply sub_map, sub_filter2, sub_app; [apply sub_refl|]. apply sub_skip, sub_refl.
  - (* take queued *) refine (J11_sub _ _ _ _ J A _ _ _ _); try reflexivity. unfold pend. change (curop (set_queued q s)) with (curop s). change (queued (set_queued q s)) with q.
    apply sub_map, sub_filter2, sub_app; [apply sub_refl|]. match goal with H : q = _ \/ q = _ |- _ => destruct H as [-> | ->] end; [apply sub_filter|apply sub_nil_l].
  - (* unacked *) match goal with H : _ /\ down _ _ |- _ => destruct H as [_ Hd] end. split.
    + eapply split_sub; [exact I|apply sub_refl|]. change (unacked (set_unacked kept s)) with kept. match goal with H : kept = _ \/ kept = _ |- _ => destruct H as [-> | ->] end; [apply sub_nil_l|apply kept_ids].
    + intros Ha. exfalso. destruct (A Ha) as (A1 & A2 & _). destruct Hd as [Hd|Hd]; congruence.
  - (* reset *) split; [|intros _ o []]. eapply split_sub; [exact I|apply sub_refl|apply sub_nil_l].
  - (* acked *) match goal with H : find_op _ _ = _ |- _ => apply find_op_some in H as [Fi Fu] end. match goal with H : lookup _ _ = _ |- _ => apply lookup_some_in in H as Ht end.
    assert (sub (map pid (remove_op u (unacked s))) (map pid (unacked s))) as Hs by apply sub_map, sub_filter.
    split; [eapply split_sub; [exact I|apply sub_refl|exact Hs]|]. intros Ha o1 O1. change (In o1 (remove_op u (unacked s))) in O1. apply in_remove_op in O1 as [O1 O2]. destruct (D (A Ha) o1 O1) as [D1 D2]. split; [|exact D2].
    apply in_remove_key_other; [exact D1|]. destruct (reach_J2 cf now0 _ _ R Ok) as (T & _). destruct (T ltac:(assumption) _ _ Ht) as (o2 & T1 & T2 & T3). intros E. apply O2.
    destruct I as (a & b & _ & _ & _ & Hn & _). apply nodup_app_r in Hn. assert (o1 = o2) by (apply (nodup_map_inj pid (unacked s)); auto; unfold pid in *; congruence). congruence.
  - (* expired *) match goal with H : find_op _ _ = _ |- _ => apply find_op_some in H as [Fi Fu] end.
    assert (sub (map pid (remove_op u (unacked s))) (map pid (unacked s))) as Hs by apply sub_map, sub_filter.
    split; [eapply split_sub; [exact I|apply sub_refl|exact Hs]|]. intros Ha o1 O1. change (In o1 (remove_op u (unacked s))) in O1. apply in_remove_op in O1 as [O1 O2]. destruct (D (A Ha) o1 O1) as [D1 D2]. split.
    + apply in_remove_key_other; [exact D1|]. intros E. apply O2.
      destruct I as (a & b & _ & _ & _ & Hn & _). apply nodup_app_r in Hn. assert (o1 = o) by (apply (nodup_map_inj pid (unacked s)); auto). congruence.
    + change (In (op_deadline o1, op_uid o1) (filter (fun x => negb (snd x =? u)) (pq s))). apply filter_In. split; [exact D2|]. cbn [snd]. destruct (N.eqb_spec (op_uid o1) u); [contradiction|reflexivity].
  - (* forget *) split; [exact I|]. intros Ha o1 O1. destruct (D (A Ha) o1 O1) as [D1 D2]. split; [exact D1|].
    change (In (op_deadline o1, op_uid o1) (filter (fun x => negb (snd x =? u)) (pq s))). apply filter_In. split; [exact D2|]. cbn [snd]. destruct (N.eqb_spec (op_uid o1) u) as [E|]; [|reflexivity]. exfalso.
    change (In o1 (unacked s)) in O1. match goal with H : _ \/ _ |- _ => destruct H as [(o & h & H1 & H2)|(o & H1 & H2)] end.
    + apply nodup_held in ND. unfold held in ND. rewrite H1 in ND. cbn [app map] in ND. inversion ND as [|? ? Hn _]. apply Hn. rewrite !map_app, !in_app_iff. right. right. right. right. rewrite <- H2, <- E. apply in_map. exact O1.
    + apply find_op_some in H1 as [H1 H3]. apply nodup_unacked in ND. assert (o1 = o) by (apply (nodup_map_inj op_uid (unacked s)); auto; congruence). subst o1. exact (lookup_none_in _ _ _ H2 D1).
  - (* end clear *) split; [exact I|]. intros Ha. exfalso. destruct (A Ha) as (A1 & A2 & _). match goal with H : down _ _ |- _ => destruct H as [Hd|Hd] end; congruence.
  - destruct (cs_shape inc una o s) as [x E]. rewrite E in *. exact J.
  - (* unsend *) refine (J11_same _ _ _ _ J A _ _ _ _); try reflexivity. unfold pend. match goal with H : curop s = _ |- _ => rewrite H end. reflexivity.
  - (* requeue *) match goal with H : _ /\ _ |- _ => destruct H as (_ & Hc & _ & v & Hv) end. split; [|intros _ o []]. change (unacked (set_unacked [] ?b)) with (@nil op). cbn [map].
    unfold ids, pend. change (curop (set_unacked [] (set_queued ?a s))) with (curop s). change (queued (set_unacked [] (set_queued ?a s))) with a.
    assert (forall l, filter need (match curop s with Some o => [o] | None => [] end ++ l) = filter need l) as Hcn.
    { intros l. destruct (curop s) as [o|] eqn:Eo; [|reflexivity]. specialize (Hc _ eq_refl). cbn [app filter]. unfold need at 1. destruct (op_packet o); try discriminate Hc. reflexivity. }
    unfold ids, pend in I. rewrite Hcn in *. rewrite !filter_app, !map_app, app_assoc, <- map_app. eapply split_requeue; [|exact I]. apply Permutation_map.
    destruct (reach_J0 cf now0 _ _ R Ok) as (Ja & _). unfold all_acked in Ja. revert Ja. generalize (unacked s). intros l Hl. rewrite <- filter_app. rewrite filter_all.
    2:{ apply Forall_app. split; apply Forall_forall; intros y Hy; apply filter_In in Hy as [Hy _]; rewrite Forall_forall in Hl; apply Hl, Hy. }
    clear Hl. induction l as [|o l IH]; cbn [filter]; [constructor|]. destruct (is_acked_publish (op_packet o)); cbn [negb app]; [constructor; exact IH|].
    rewrite IH at 1. apply Permutation_middle.
  - (* refile *) match goal with H : _ /\ _ |- _ => destruct H as (_ & Hc & _ & v & Hv) end. split; [|intros _ o []]. change (unacked (set_queued ?a (set_unacked [] s))) with (@nil op). cbn [map].
    unfold ids, pend. change (curop (set_queued ?a (set_unacked [] s))) with (curop s). change (queued (set_queued ?a (set_unacked [] s))) with a.
    assert (forall l, filter need (match curop s with Some o => [o] | None => [] end ++ l) = filter need l) as Hcn.
    { intros l. destruct (curop s) as [o|] eqn:Eo; [|reflexivity]. specialize (Hc _ eq_refl). cbn [app filter]. unfold need at 1. destruct (op_packet o); try discriminate Hc. reflexivity. }
    unfold ids, pend in I. rewrite Hcn in *. rewrite !filter_app, !map_app. apply (split_requeue _ (map pid (unacked s)) (map pid (unacked s))) in I; [|reflexivity].
    eapply split_sub; [exact I| |constructor]. apply sub_app; [|apply sub_refl]. apply sub_map. eapply sub_trans; [apply sub_filter|apply sub_filter].
  - (* incomplete *) destruct (incomplete_eq s) as (l & x & E & Hp & _). rewrite E in *. refine (J11_same _ _ _ _ J A _ _ _ _); try reflexivity.
    unfold pend. change (curop (set_queued l (set_c_sta x s))) with (curop s). change (queued (set_queued l (set_c_sta x s))) with l. rewrite !map_app, Hp. reflexivity.
  - (* start *) match goal with H : curop s = None /\ _ |- _ => destruct H as (Hcu & Hg & Hv & Hst) end. match goal with H : queued s = _ |- _ => rename H into Hq end.
    match goal with H : bind_packet_id _ _ = _ |- _ => pose proof (bind_eq _ _ _ _ H) as Hb; clear H end. destruct Hb as [(-> & -> & Hnd)|(id & Hf & Hnd & -> & ->)].
    + refine (J11_same _ _ _ _ J A _ _ _ _); try reflexivity. unfold pend. rewrite Hcu, Hq. reflexivity.
    + assert (need o = true) as Hno by (unfold need; destruct (op_packet o); try discriminate Hnd; cbn [needs_packet_id requires_ack is_acked_publish] in *; [destruct (pb_qos v =? 0); [discriminate|]|..]; reflexivity).
      assert (current s = CONNECTED) as Hcon by (destruct Hst as [[_ H]|[H|[_ H]]]; [|exact H|]; unfold need in Hno; destruct (op_packet o); discriminate).
      assert (alive g' s) as Hal.
      { split; [exact Hg|]. split; [rewrite Hcon; reflexivity|]. pose proof (reach_J8 cf now0 _ _ R Ok) as J8'. unfold J8 in J8'. destruct (settings_of (c_out s)) as [n|]; [discriminate|].
        destruct J8' as (_ & J8' & _). destruct (J8' Hcon) as [v Hv']. congruence. }
      assert (ids s = 0 :: map pid (filter need q)) as Hi.
      { unfold ids, pend. rewrite Hcu, Hq. cbn [app filter]. rewrite Hno. cbn [map]. f_equal. unfold pid. apply needs_id_0, Hnd. }
      change (table (set_queued q s)) with (table s) in Hf. change (next_id (set_queued q s)) with (next_id s) in Hf.
      split; [|intros _; exact (D Hal)].
      change (unacked (set_curop ?a ?b)) with (unacked s). unfold ids, pend. change (curop (set_curop ?a ?b)) with a. change (queued (set_curop ?a ?b)) with q. cbn [app filter].
      replace (need (set_packet (set_packet_id id (op_packet o)) o)) with true by (unfold need in *; cbn [op_packet set_packet]; rewrite requires_set_id; congruence).
      cbn [map]. rewrite Hi in I. destruct (reach_J2 cf now0 _ _ R Ok) as (_ & _ & _ & [N1 N2] & _).
      replace (pid (set_packet (set_packet_id id (op_packet o)) o)) with id by (unfold pid; cbn [op_packet set_packet]; destruct (op_packet o); try discriminate Hnd; reflexivity).
      apply split_bind; [exact I|apply free_id_range in Hf; unfold is_id; tauto|]. intros Hin. apply in_map_iff in Hin as (o1 & Hid & O1). destruct (D Hal o1 O1) as [D1 _]. rewrite Hid in D1.
      apply free_id_free in Hf. exact (lookup_none_in _ _ _ Hf D1).
  - (* start fails *) refine (J11_sub _ _ _ _ J A _ _ _ _); try reflexivity. unfold pend. change (curop (emit ?a (set_queued q s))) with (curop s). change (queued (emit ?a (set_queued q s))) with q.
    match goal with H : queued s = _ |- _ => rewrite H end. apply sub_map, sub_filter2, sub_app; [apply sub_refl|]. apply sub_skip, sub_refl.
  - (* append fails *) match goal with H : bind_packet_id _ _ = _ |- _ => pose proof (bind_eq _ _ _ _ H) as Hb; clear H end.
    assert (curop s1 = curop s /\ queued s1 = q /\ unacked s1 = unacked s /\ table s1 = table s /\ pq s1 = pq s) as (E1 & E2 & E3 & E4 & E5) by (destruct Hb as [(-> & -> & _)|(id & _ & _ & -> & ->)]; repeat split).
    refine (J11_sub _ _ _ _ J A _ _ _ _); [|exact E3|exact E4|exact E5]. unfold pend. change (curop (emit ?a (set_c_enc ?b s1))) with (curop s1). change (queued (emit ?a (set_c_enc ?b s1))) with (queued s1). rewrite E1, E2.
    match goal with H : queued s = _ |- _ => rewrite H end. apply sub_map, sub_filter2, sub_app; [apply sub_refl|]. apply sub_skip, sub_refl.
  - (* sent *) match goal with H : g_link _ = FINE /\ _ |- _ => destruct H as (Hg & _ & _ & Hs & _ & Ht & Hi) end. match goal with H : curop s = _ |- _ => rename H into Hcu end. pose proof (finish_eq cf now o s Ht Hi) as F. cbv zeta in F.
    pose proof (finish_queued cf now o s) as Eq. pose proof (finish_curop cf now o s) as Ec.
    destruct (requires_ack (op_packet o)) eqn:Hr.
    + specialize (Hi eq_refl). destruct F as (o' & x & F & (Ho & Hu & _) & Hcs).
      assert (op_deadline o' = deadline_of cf now o) as Hdl.
      { injection Hcs as -> _. rewrite change_statistics_eq. destruct (negb _); [reflexivity|]. destruct (size_of _); reflexivity. }
      assert (unacked (finish_operation cf now o s) = unacked s ++ [o'] /\ table (finish_operation cf now o s) = put (pid o) (op_uid o) (table s) /\
        pq (finish_operation cf now o s) = pq s ++ [(deadline_of cf now o, op_uid o)]) as (E1 & E2 & E3) by (rewrite F; destruct (is_acked_publish (op_packet o)); repeat split).
      assert (ids s = pid o :: map pid (filter need (queued s))) as Ei by (unfold ids, pend; rewrite Hcu; cbn [app filter]; unfold need at 1; rewrite Hr; reflexivity).
      assert (pid o' = pid o) as Ep by (unfold pid; rewrite Ho; reflexivity).
      rewrite Ei in I. apply split_sent in I as (I1 & I2 & _); [|exact Hi].
      split; [unfold ids, pend; rewrite Eq, Ec, E1, map_app; cbn [app map]; rewrite Ep; exact I1|].
      intros Ha o1 O1. rewrite E1 in O1. rewrite E2, E3. apply in_app_or in O1 as [O1|[<-|[]]].
      * destruct (D (A Ha) o1 O1) as [D1 D2]. split; [|apply in_or_app; left; exact D2]. apply in_put_other; [exact D1|]. intros E. apply I2. rewrite <- E. apply in_map. exact O1.
      * rewrite Ep, Hu, Hdl. split; [apply in_put_same|apply in_or_app; right; left; reflexivity].
    + destruct F as (x & F). assert (unacked (finish_operation cf now o s) = unacked s /\ table (finish_operation cf now o s) = table s /\ pq (finish_operation cf now o s) = pq s) as (E1 & E2 & E3) by (rewrite F; repeat split).
      refine (J11_sub _ _ _ _ J A _ E1 E2 E3). unfold pend. rewrite Eq, Ec, Hcu. cbn [app filter]. unfold need at 2. rewrite Hr. apply sub_refl.
Qed.
Lemma reach_J11 g s : reach (g, s) -> ok s -> J11 (g, s).
Proof.
  intros R Ok. refine (reach_inv cf now0 J11 _ _ _ (g, s) R Ok).
  - split; [|intros _ o []]. exists [], []. repeat split; constructor.
  - intros s1 now _ _ J. exact J.
  - intros g1 s1 g2 s2 R1 K1 K2 J P. eapply J11_step; eassumption.
Qed.
(** ** The theorem *)
Lemma ids_distinct g s x o y o' t' : reach (g, s) -> ok s -> c_out s = x ++ O_SENT o :: y -> answered (op_packet o) = true ->
  sent_here o' t' y -> answered (op_packet o') = true -> ~ In (op_uid o') (map op_uid (finished y)) -> id_of (op_packet o') <> id_of (op_packet o).
Proof.
  intros R Ok E Ha Hs Ha' Hf. destruct (event_point cf now0 _ _ _ _ _ R Ok E) as (g1 & s1 & g2 & s2 & d1 & d2 & x' & R1 & Ok1 & M & Ok2 & R2 & E2 & -> & _).
  inversion M as [|? ? P]; subst; [apply delta1 in E2 as (_ & E2 & _); discriminate E2|].
  destruct (prim_minor _ _ _ _ _ Ok1 Ok2 P) as [(d & E3 & Hd)|[[-> ->]|[(v & -> & -> & _)|(o1 & now & -> & -> & Hcu & Hg & Hcl & Hse & Hck & Ht & Hi & Hh)]]].
  - exfalso. rewrite E3 in E2. change (d1 ++ O_SENT o :: d2 ++ c_out s1) with (d1 ++ ([O_SENT o] ++ d2) ++ c_out s1) in E2. rewrite app_assoc in E2. apply app_inv_tail in E2. subst d.
    apply Forall_app in Hd as [_ Hd]. inversion Hd; discriminate.
  - apply delta1 in E2 as (_ & E2 & _). discriminate E2.
  - apply delta1 in E2 as (_ & E2 & _). discriminate E2.
  - rewrite finish_out in E2. apply delta1 in E2 as (-> & E2 & ->). injection E2 as <-. cbn [app] in *.
    destruct (reach_J12 cf now0 _ _ R1 Ok1) as [G0 G]. assert (alive g1 s1) as Al.
    { split; [exact Hg|]. split; [exact Hse|]. intros Hn. specialize (G0 Hn _ _ Hs). destruct (op_packet o'); discriminate. }
    destruct (G Al o' t' Hs Ha') as [(o2 & H1 & H2 & H3 & _)|[H|H]]; [|rewrite Hh in H; contradiction|contradiction].
    destruct (reach_J11 _ _ R1 Ok1) as [I _]. unfold ids, pend in I. rewrite Hcu in I. cbn [app filter] in I. change (need o) with (requires_ack (op_packet o)) in I. change (answered (op_packet o)) with (requires_ack (op_packet o)) in Ha. rewrite Ha in I.
    cbn [map] in I. apply split_sent in I as (_ & I & _); [|exact (Hi Ha)]. change (id_of (op_packet o')) with (pid o'). change (id_of (op_packet o)) with (pid o). rewrite <- H3. intros E4. apply I. rewrite <- E4. apply in_map. exact H1.
Qed.
Lemma sent_range g s x o y : reach (g, s) -> ok s -> c_out s = x ++ O_SENT o :: y -> answered (op_packet o) = true -> 0 < id_of (op_packet o) /\ id_of (op_packet o) < 65536.
Proof.
  intros R Ok E Ha. pose proof (sent_id cf now0 _ _ _ _ _ R Ok E Ha) as Hn. split; [lia|].
  destruct (event_point cf now0 _ _ _ _ _ R Ok E) as (g1 & s1 & g2 & s2 & d1 & d2 & x' & R1 & Ok1 & M & Ok2 & R2 & E2 & -> & _).
  inversion M as [|? ? P]; subst; [apply delta1 in E2 as (_ & E2 & _); discriminate E2|].
  destruct (prim_minor _ _ _ _ _ Ok1 Ok2 P) as [(d & E3 & Hd)|[[-> ->]|[(v & -> & -> & _)|(o1 & now & -> & -> & Hcu & Hg & Hcl & Hse & Hck & Ht & Hi & Hh)]]].
  - exfalso. rewrite E3 in E2. change (d1 ++ O_SENT o :: d2 ++ c_out s1) with (d1 ++ ([O_SENT o] ++ d2) ++ c_out s1) in E2. rewrite app_assoc in E2. apply app_inv_tail in E2. subst d.
    apply Forall_app in Hd as [_ Hd]. inversion Hd; discriminate.
  - apply delta1 in E2 as (_ & E2 & _). discriminate E2.
  - apply delta1 in E2 as (_ & E2 & _). discriminate E2.
  - rewrite finish_out in E2. apply delta1 in E2 as (-> & E2 & ->). injection E2 as <-. cbn [app] in *.
    destruct (reach_J11 _ _ R1 Ok1) as [I _]. unfold ids, pend in I. rewrite Hcu in I. cbn [app filter] in I. change (need o) with (requires_ack (op_packet o)) in I. change (answered (op_packet o)) with (requires_ack (op_packet o)) in Ha. rewrite Ha in I.
    cbn [map] in I. apply split_sent in I as (_ & _ & I); [|exact (Hi Ha)]. exact I.
Qed.
End Ids.
