(** The order in which requests are sent: the queue of the client, seen from its trace. *)
From Verif Require Import Base BaseLemmas Mqtt5_Views TopicAlias_Model Encoder5_Model Decoder5_Model RateLimiter_Model RateLimiter_Spec
  RateLimiter_Proofs Validate5_Model Negotiated_Model Client5_State Client5_Model Client5_Steps Client5_Decomp Client5_Decomp2 Client5_Forms Client5_Decomp3
  Client5_Inv0 Client5_Spec Client5_Flow Client5_Safety Client5_Ops Client5_Crash Client5_Conn Client5_Events Client5_Ids Client5_Stats.
From Coq Require Import Permutation.
Ltac Zify.zify_post_hook ::= idtac.

(** ** Lists of identities, less those of given operations *)
Notation ident := (map identity_of).
Definition kout (h : list N) (l : list identity) : list identity := filter (fun k => negb (existsb (N.eqb (kuid k)) h)) l.
Lemma kout_in h l k : In k (kout h l) <-> In k l /\ ~ In (kuid k) h.
Proof.
  unfold kout. rewrite filter_In, negb_true_iff, <- not_true_iff_false, existsb_exists. split; intros [H1 H2]; (split; [exact H1|]); intros H; apply H2.
  - exists (kuid k). split; [exact H|apply N.eqb_refl].
  - destruct H as (x & H & E). apply N.eqb_eq in E. subst. exact H.
Qed.
Lemma filter_filter {A} (f g : A -> bool) l : filter f (filter g l) = filter (fun x => f x && g x) l.
Proof. induction l as [|x l IH]; [reflexivity|]. cbn [filter]. destruct (g x), (f x) eqn:F; cbn [andb filter]; rewrite ?F, ?IH; reflexivity. Qed.
Lemma kout_app a b l : kout (a ++ b) l = kout a (kout b l).
Proof. unfold kout. rewrite filter_filter. apply filter_ext. intros k. rewrite existsb_app, negb_orb. reflexivity. Qed.
Lemma kout_comm a b l : kout a (kout b l) = kout b (kout a l).
Proof. apply filter_comm. Qed.
Lemma kout_cons u b l : kout (u :: b) l = kout [u] (kout b l).
Proof. exact (kout_app [u] b l). Qed.
Lemma kout_nil l : kout [] l = l.
Proof. induction l as [|k l IH]; [reflexivity|]. cbn. f_equal. exact IH. Qed.
Lemma kout_dist h a b : kout h (a ++ b) = kout h a ++ kout h b.
Proof. apply filter_app. Qed.
Lemma kout_id h l : (forall k, In k l -> ~ In (kuid k) h) -> kout h l = l.
Proof.
  intros H. apply filter_all. rewrite Forall_forall. intros k Hk. apply negb_true_iff, not_true_iff_false. rewrite existsb_exists. intros (x & Hx & E). apply N.eqb_eq in E. subst. exact (H _ Hk Hx).
Qed.
Lemma kout_none h l : (forall k, In k l -> In (kuid k) h) -> kout h l = [].
Proof.
  intros H. apply filter_none. rewrite Forall_forall. intros k Hk. apply negb_false_iff. rewrite existsb_exists. exists (kuid k). split; [apply H, Hk|apply N.eqb_refl].
Qed.
Lemma ident_without u l : ident (without u l) = kout [u] (ident l).
Proof.
  unfold without, kout. rewrite <- filter_map_id. f_equal. apply filter_ext. intros o. cbn [existsb]. rewrite orb_false_r. reflexivity.
Qed.
Definition req (k : identity) : bool := is_request (snd k).
Definition kpub (k : identity) : bool := match snd k with P_PUBLISH _ => true | _ => false end.
Lemma kpub_id o : kpub (identity_of o) = publishes o.
Proof. unfold kpub, publishes, identity_of. cbn [snd]. destruct (op_packet o); reflexivity. Qed.
Lemma kpub_acked o : requires_ack (op_packet o) = true -> is_acked_publish (op_packet o) = publishes o.
Proof. unfold publishes. destruct (op_packet o); try discriminate; try reflexivity. intros H. exact H. Qed.
Lemma req_id o : req (identity_of o) = is_request (op_packet o).
Proof. unfold req, identity_of. cbn [snd]. apply request_bare. Qed.
Definition kmerge (resumed : bool) (f w : list identity) : list identity :=
  (if resumed then filter kpub f ++ filter (fun k => negb (kpub k)) f else f) ++ w.
Lemma ident_requeued b l : ident (requeued b l) = kmerge b (ident (sent_line l)) (ident (waiting_line l)).
Proof.
  unfold requeued, kmerge. rewrite map_app. f_equal. destruct b; [|reflexivity]. rewrite map_app, <- !filter_map_id. f_equal.
  - f_equal. apply filter_ext. intros o. symmetry. apply kpub_id.
  - f_equal. apply filter_ext. intros o. rewrite kpub_id. reflexivity.
Qed.
Lemma kout_merge h b f w : kout h (kmerge b f w) = kmerge b (kout h f) (kout h w).
Proof. unfold kmerge. destruct b; rewrite !kout_dist; [|reflexivity]. unfold kout. f_equal. f_equal; apply filter_comm. Qed.

(** ** The identities waiting in a state *)
Definition wait (s : client) : list identity := filter req (ident (pend s)).
Definition W (s : client) : list identity := ident (waiting_line (line_of (c_out s))).
Definition F_ (s : client) : list identity := ident (sent_line (line_of (c_out s))).
Definition hids (g : ghost) : list N := map op_uid (g_hand g).
Definition NORMAL (g : ghost) (s : client) : Prop := kout (hids g) (W s) = wait s /\ kout (hids g) (F_ s) = ident (unacked s).
Definition MERGED (g : ghost) (s : client) : Prop := current s = CONNECTED /\ (exists v, g_link g = ACKED v) /\ unacked s = [] /\
  kout (hids g) (kmerge (ng_rejoined (c_neg s)) (F_ s) (W s)) = wait s.
Definition J16 (x : ghost * client) : Prop := let '(g, s) := x in NORMAL g s \/ MERGED g s.

(** entries that leave the line as it is *)
Definition offline_entry (x : out) : bool :=
  match x with
  | O_LIFE (CONNECTION_SUCCESS _ _) | O_SENT _ | O_DONE _ _ _ | O_LOST _ => false
  | I_SUBMIT o => negb (is_request (op_packet o))
  | _ => true
  end.
Lemma line_same x l : offline_entry x = true -> line_of (x :: l) = line_of l.
Proof.
  cbn [line_of]. destruct x as [e| | | | | | | | | | | | |]; try discriminate; try reflexivity; [destruct e; try discriminate; reflexivity|].
  cbn [offline_entry line_step]. destruct (is_request (op_packet o)); [discriminate|reflexivity].
Qed.
Lemma lines_same d l : Forall (fun x => offline_entry x = true) d -> line_of (d ++ l) = line_of l.
Proof. induction 1 as [|x d H _ IH]; [reflexivity|]. cbn [app]. rewrite line_same by exact H. exact IH. Qed.
Lemma insert_wait o q : req (identity_of o) = false -> filter req (ident (insert_puback o q)) = filter req (ident q).
Proof.
  intros H. induction q as [|x q IH]; cbn [insert_puback map filter]; [rewrite H; reflexivity|].
  destruct (is_puback (op_packet x) || is_pingreq (op_packet x)); cbn [map filter]; [rewrite IH; reflexivity|]. rewrite H. reflexivity.
Qed.
Lemma filter_id_map f l l' : map identity_of l = map identity_of l' -> filter f (ident l) = filter f (ident l').
Proof. intros ->. reflexivity. Qed.
Lemma nodup_disj {A} (a b : list A) x : NoDup (a ++ b) -> In x a -> In x b -> False.
Proof. intros H Ha Hb. apply in_split in Ha as (a1 & a2 & ->). rewrite <- app_assoc in H. apply nodup_app_r in H. cbn [app] in H. inversion H; subst. match goal with H : ~ In _ _ |- _ => apply H end. apply in_or_app. auto. Qed.

Section Order.
Variable cf : config.
Variable now0 : N.
Notation prim := (prim cf).
Notation reach := (reach cf now0).

Lemma disjoint_parts g s : NoDup (map kuid (K g s)) ->
  NoDup (map op_uid (pend s)) /\ NoDup (map op_uid (unacked s)) /\
  (forall o o', In o (pend s) -> In o' (unacked s) -> op_uid o <> op_uid o') /\
  (forall o o', In o (wc s) -> In o' (pend s) \/ In o' (unacked s) -> op_uid o <> op_uid o') /\
  (forall o o', In o (g_hand g) -> In o' (pend s) \/ In o' (unacked s) -> op_uid o <> op_uid o').
Proof.
  intros ND. assert (NoDup (map op_uid (g_hand g) ++ map op_uid (pend s) ++ map op_uid (wc s) ++ map op_uid (unacked s))) as H.
  { unfold K in ND. rewrite map_app in ND. apply nodup_app_l in ND. rewrite map_map in ND. change (fun x => kuid (identity_of x)) with op_uid in ND. unfold held in ND. rewrite !map_app in ND.
    unfold pend. rewrite map_app. eapply Permutation_NoDup; [|exact ND]. apply Permutation_app_head. rewrite !app_assoc. apply Permutation_app_tail.
    apply Permutation_app_tail. apply Permutation_app_comm. }
  split; [apply nodup_app_r, nodup_app_l in H; exact H|]. split; [apply nodup_app_r, nodup_app_r, nodup_app_r in H; exact H|].
  pose proof (nodup_app_r _ _ H) as H1. pose proof (nodup_app_r _ _ H1) as H2. split; [|split].
  - intros o o' Ho Ho' E. apply (nodup_disj _ _ (op_uid o) H1); [apply in_map, Ho|]. apply in_or_app. right. rewrite E. apply in_map, Ho'.
  - intros o o' Ho [Ho'|Ho'] E.
    + apply (nodup_disj _ _ (op_uid o) H1); [rewrite E; apply in_map, Ho'|]. apply in_or_app. left. apply in_map, Ho.
    + apply (nodup_disj _ _ (op_uid o) H2); [apply in_map, Ho|rewrite E; apply in_map, Ho'].
  - intros o o' Ho Ho' E. apply (nodup_disj _ _ (op_uid o) H); [apply in_map, Ho|]. rewrite E, !in_app_iff. destruct Ho' as [Ho'|Ho']; [left|right; right]; apply in_map, Ho'.
Qed.
(** a step that leaves the line as it is, and moves the operations [l] into the client's hands *)
Lemma J16_move g s g' s' l : J16 (g, s) -> hids g' = map op_uid l ++ hids g -> line_of (c_out s') = line_of (c_out s) -> c_neg s' = c_neg s ->
  (current s = CONNECTED -> forall v, g_link g = ACKED v -> current s' = CONNECTED /\ g_link g' = ACKED v /\ (unacked s = [] -> unacked s' = [])) ->
  wait s' = kout (map op_uid l) (wait s) -> ident (unacked s') = kout (map op_uid l) (ident (unacked s)) -> J16 (g', s').
Proof.
  intros J Eh El En Hc Ew Eu. unfold J16, NORMAL, MERGED, W, F_ in *. rewrite Eh, El, En, Ew, Eu, !kout_app.
  destruct J as [[J1 J2]|(Jc & (v & Jv) & Ju & J)]; [left; rewrite J1, J2; auto|right]. destruct (Hc Jc v Jv) as (H1 & H2 & H3).
  split; [exact H1|]. split; [exists v; exact H2|]. split; [auto|]. rewrite J. reflexivity.
Qed.
Lemma J16_same g s g' s' : J16 (g, s) -> hids g' = hids g -> line_of (c_out s') = line_of (c_out s) -> c_neg s' = c_neg s ->
  (current s = CONNECTED -> forall v, g_link g = ACKED v -> current s' = CONNECTED /\ g_link g' = ACKED v) ->
  wait s' = wait s -> ident (unacked s') = ident (unacked s) -> J16 (g', s').
Proof.
  intros J Eh El En Hc Ew Eu. apply (J16_move g s g' s' [] J); cbn [map app]; rewrite ?kout_nil; try assumption.
  intros H v Hv. destruct (Hc H v Hv). repeat split; auto. intros E. rewrite E in Eu. destruct (unacked s'); [reflexivity|discriminate].
Qed.
(** away from the start of a connection *)
Lemma J16_normal g s : J16 (g, s) -> (forall v, current s = CONNECTED -> g_link g = ACKED v -> False) -> NORMAL g s.
Proof. intros [J|(Jc & (v & Jv) & _)] H; [exact J|]. exfalso. eauto. Qed.
Lemma fresh_uid g s : reach (g, s) -> ok s -> (forall k, In k (wait s) -> kuid k < uid s) /\ (forall k, In k (ident (unacked s)) -> kuid k < uid s).
Proof.
  intros R Ok. destruct (reach_J1 cf now0 _ _ R Ok) as (_ & H & _). rewrite Forall_forall in H. split; intros k Hk; apply H; unfold K; apply in_or_app; left.
  - apply filter_In in Hk as [Hk _]. apply in_map_iff in Hk as (o & <- & Hk). apply in_map. unfold pend in Hk. unfold held. rewrite !in_app_iff in *. tauto.
  - apply in_map_iff in Hk as (o & <- & Hk). apply in_map, unacked_held, Hk.
Qed.
Lemma lt_out u l : (forall k, In k l -> kuid k < u) -> kout [u] l = l.
Proof. intros H. apply kout_id. intros k Hk [E|[]]. specialize (H _ Hk). lia. Qed.
(** an operation dropped from the line *)
Lemma J16_drop g s g' s' u : J16 (g, s) -> waiting_line (line_of (c_out s')) = without u (waiting_line (line_of (c_out s))) ->
  sent_line (line_of (c_out s')) = without u (sent_line (line_of (c_out s))) -> hids g = u :: hids g' -> c_neg s' = c_neg s ->
  current s' = current s -> g_link g' = g_link g -> wait s' = wait s -> unacked s' = unacked s -> J16 (g', s').
Proof.
  intros J E1 E2 Eh En Ec Eg Ew Eu. unfold J16, NORMAL, MERGED, W, F_ in *. rewrite E1, E2, En, Ec, Eg, Ew, Eu, !ident_without. rewrite Eh in J.
  assert (forall l, kout (u :: hids g') l = kout (hids g') (kout [u] l)) as C by (intros l; rewrite kout_cons; apply kout_comm).
  destruct J as [[J1 J2]|(Jc & Jv & Ju & J)]; [left|right; split; [exact Jc|split; [exact Jv|split; [exact Ju|]]]].
  - rewrite <- !C. auto.
  - rewrite <- kout_merge, <- C. exact J.
Qed.
Lemma without_fresh g s u l : J16 (g, s) -> (forall k, In k (wait s) -> kuid k < u) -> (forall k, In k (ident (unacked s)) -> kuid k < u) ->
  forall g' s', waiting_line (line_of l) = without u (waiting_line (line_of (c_out s))) ->
  sent_line (line_of l) = without u (sent_line (line_of (c_out s))) -> c_out s' = l -> hids g' = hids g -> c_neg s' = c_neg s ->
  current s' = current s -> g_link g' = g_link g -> wait s' = wait s -> unacked s' = unacked s -> J16 (g', s').
Proof.
  intros J H1 H2 g' s' E1 E2 El Eh En Ec Eg Ew Eu. unfold J16, NORMAL, MERGED, W, F_ in *. rewrite El, E1, E2, Eh, En, Ec, Eg, Ew, Eu, !ident_without.
  destruct J as [[J1 J2]|(Jc & Jv & Ju & J)]; [left|right; split; [exact Jc|split; [exact Jv|split; [exact Ju|]]]].
  - split; rewrite kout_comm; [rewrite J1; apply lt_out, H1|rewrite J2; apply lt_out, H2].
  - rewrite <- kout_merge, kout_comm, J. apply lt_out, H1.
Qed.
Lemma ident_sub (c Q l q : list op) f : NoDup (map op_uid (c ++ Q)) -> Permutation Q (l ++ q) -> q = filter f Q ->
  kout (map op_uid l) (ident (c ++ Q)) = ident (c ++ q).
Proof.
  intros ND P E. assert (NoDup (map op_uid (l ++ q))) as NQ.
  { rewrite map_app in ND. apply nodup_app_r in ND. eapply Permutation_NoDup; [apply Permutation_map, P|exact ND]. }
  rewrite !map_app, kout_dist. f_equal.
  - apply kout_id. intros k Hk Hl. apply in_map_iff in Hk as (o & <- & Ho). rewrite map_app in ND. apply (nodup_disj _ _ (op_uid o) ND); [apply in_map, Ho|].
    rewrite P, map_app, in_app_iff. left. exact Hl.
  - unfold kout. rewrite <- filter_map_id. f_equal. rewrite E. apply filter_ext_in. intros o Ho. change (kuid (identity_of o)) with (op_uid o).
    destruct (f o) eqn:Fo.
    + apply negb_true_iff, not_true_iff_false. rewrite existsb_exists. intros (x & Hx & Ex). apply N.eqb_eq in Ex. rewrite map_app in NQ. apply (nodup_disj _ _ x NQ Hx). rewrite <- Ex. apply in_map. rewrite E. apply filter_In. auto.
    + apply negb_false_iff. rewrite existsb_exists. exists (op_uid o). split; [|apply N.eqb_refl]. apply in_map. rewrite P in Ho. apply in_app_or in Ho as [Ho|Ho]; [exact Ho|].
      rewrite E in Ho. apply filter_In in Ho as [_ Ho]. congruence.
Qed.
Lemma kout_wait h s : kout h (wait s) = filter req (kout h (ident (pend s))).
Proof. apply filter_comm. Qed.
Lemma kout_other (l l' : list op) : (forall o o', In o l -> In o' l' -> op_uid o <> op_uid o') -> kout (map op_uid l) (ident l') = ident l'.
Proof. intros H. apply kout_id. intros k Hk Hl. apply in_map_iff in Hk as (o' & <- & Hk). apply in_map_iff in Hl as (o & E & Hl). exact (H _ _ Hl Hk E). Qed.
Lemma down_normal g s : down g s -> forall v, current s = CONNECTED -> g_link g = ACKED v -> False.
Proof. intros [H|H] v Hc Hv; [congruence|rewrite Hc in H; discriminate]. Qed.
Lemma removed_ident u o l : find_op u l = Some o -> ident (remove_op u l) = kout [op_uid o] (ident l).
Proof.
  intros H. apply find_op_some in H as [_ <-]. unfold kout, remove_op. rewrite <- filter_map_id. f_equal. apply filter_ext. intros x. cbn [existsb]. rewrite orb_false_r. reflexivity.
Qed.
Lemma J16_step g s g' s' : reach (g, s) -> ok s -> ok s' -> J16 (g, s) -> prim (g, s) (g', s') -> J16 (g', s').
Proof.
  intros R Ok Ok' J P. pose proof (reach_J1 cf now0 _ _ R Ok) as (ND & Hlt & _). destruct (disjoint_parts _ _ ND) as (NP & NU & DPU & DW & DH).
  destruct (fresh_uid _ _ R Ok) as [FW FU]. destruct (reach_J0 cf now0 _ _ R Ok) as (Hack & _).
  assert (forall o, In o (g_hand g) -> op_uid o < uid s) as HH.
  { rewrite Forall_forall in Hlt. intros o Ho. apply (Hlt (identity_of o)). unfold K. apply in_or_app. left. apply in_map. unfold held. rewrite !in_app_iff. auto. }
  assert (filter req (ident (unacked s)) = ident (unacked s)) as RU.
  { apply filter_all, Forall_forall. intros k Hk. apply in_map_iff in Hk as (o & <- & Ho). unfold all_acked in Hack. rewrite Forall_forall in Hack. specialize (Hack _ Ho). rewrite req_id.
    destruct (op_packet o); try discriminate Hack; reflexivity. }
  inversion P; subst; clear P; repeat match goal with H : ok _ -> _ |- _ => specialize (H Ok) end;
    try (refine (J16_same _ _ _ _ J _ _ _ _ _ _); [reflexivity|reflexivity|reflexivity|intros Hc v0 Hv0; split; assumption|reflexivity|reflexivity]);
    try (refine (J16_same _ _ _ _ J _ _ _ _ _ _); [reflexivity|reflexivity|reflexivity| |reflexivity|reflexivity];
      intros Hc v0 Hv0; exfalso; solve [congruence | intuition congruence | unfold calm in *; eauto | match goal with H : sending _ = false |- _ => rewrite Hc in H; discriminate H end]).
  - (* quiet *) match goal with H : hush _ _ |- _ => destruct H as [H _]; apply core_inv in H as (E0 & _ & E1 & E2 & E3 & E4 & Hrest) end.
    assert (c_neg s' = c_neg s /\ c_out s' = c_out s) as [En Eo] by (clear - Hrest; tauto).
    refine (J16_same _ _ _ _ J _ _ _ _ _ _); unfold wait, pend; rewrite ?Eo, ?E1, ?E2, ?E4; try reflexivity; [exact En|]. intros Hc v Hv. rewrite E0. auto.
  - exfalso. exact (not_ok_crash _ _ Ok').
  - (* emit *) refine (J16_same _ _ _ _ J _ _ _ _ _ _); try reflexivity; [|auto]. apply line_same. destruct x; try discriminate; reflexivity.
  - (* success *) match goal with H : startable _ /\ _ |- _ => destruct H as (_ & Hc & Hv & (Hu & _)) end. match goal with H : g_hand g = [] |- _ => rename H into Hh end.
    left. unfold NORMAL, hids, W, F_. cbn [with_link g_hand]. rewrite Hh. cbn [map]. rewrite !kout_nil.
    change (c_out (emit ?a (set_life ?b s))) with (a :: c_out s). change (wait (emit ?a (set_life ?b s))) with (wait s). change (unacked (emit ?a (set_life ?b s))) with (unacked s).
    cbn [line_of line_step waiting_line sent_line]. rewrite Hu. split; [|reflexivity]. rewrite ident_requeued. fold (F_ s) (W s).
    unfold J16, NORMAL, MERGED, hids in J. rewrite Hh in J. cbn [map] in J. rewrite !kout_nil in J. destruct J as [[J1 J2]|(_ & _ & _ & J)]; [|exact J].
    rewrite J2, Hu, J1. unfold kmerge. destruct (ng_rejoined (c_neg s)); reflexivity.
  - (* state *) refine (J16_same _ _ _ _ J _ _ _ _ _ _); try reflexivity; [destruct c; reflexivity|]. intros Hc v0 Hv0. exfalso. match goal with H : calm _ _ |- _ => exact (H Hc v0 Hv0) end.
  - (* open *) match goal with H : _ /\ _ |- _ => destruct H as (Hc & _) end. left. change (NORMAL g s). apply J16_normal; [exact J|]. congruence.
  - (* apply *) match goal with H : _ /\ _ |- _ => destruct H as (Hc & _) end. left. change (NORMAL g s). apply J16_normal; [exact J|]. congruence.
  - (* enqueue *) match goal with H : _ /\ _ |- _ => destruct H as (Hr & _) end. destruct (enqueue_eq p override s) as (o & x & E & Hp & Hu & Hw & _). rewrite E in *.
    assert (identity_of o = identity_of (op_new (uid s) BY_USER p override)) as Ei.
    { apply identity_eq; [exact Hu|exact Hw|]. rewrite Hp. apply bare_id. }
    assert (kout (hids g') [identity_of (op_new (uid s) BY_USER p override)] = [identity_of (op_new (uid s) BY_USER p override)]) as Ek.
    { apply kout_id. intros k [<-|[]] Hin. apply in_map_iff in Hin as (y & Ey & Hin). specialize (HH _ Hin). rewrite Ey in HH. cbn in HH. lia. }
    assert (wait (set_queued (queued s ++ [o]) (set_c_sta x (emit (I_SUBMIT (op_new (uid s) BY_USER p override)) (set_uid (uid s + 1) s)))) = wait s ++ [identity_of o]) as Ew.
    { unfold wait, pend. change (curop (set_queued ?a ?b)) with (curop s). change (queued (set_queued ?a ?b)) with a. rewrite app_assoc, map_app, filter_app. f_equal. cbn [map filter]. rewrite req_id, Hp, request_id, Hr. reflexivity. }
    unfold J16, NORMAL, MERGED, W, F_ in *. rewrite Ew, Ei. change (c_out (set_queued ?a ?b)) with (I_SUBMIT (op_new (uid s) BY_USER p override) :: c_out s).
    change (unacked (set_queued ?a ?b)) with (unacked s). change (current (set_queued ?a ?b)) with (current s). change (c_neg (set_queued ?a ?b)) with (c_neg s).
    cbn [line_of line_step op_packet op_new]. rewrite Hr. cbn [waiting_line sent_line]. rewrite map_app. cbn [map].
    destruct J as [[J1 J2]|(Jc & Jv & Ju & J)]; [left|right; split; [exact Jc|split; [exact Jv|split; [exact Ju|]]]].
    + rewrite kout_dist, J1, J2. split; [|reflexivity]. f_equal. exact Ek.
    + unfold kmerge. rewrite app_assoc, kout_dist. unfold kmerge in J. rewrite J. f_equal. exact Ek.
  - (* refuse *) match goal with H : _ /\ _ |- _ => destruct H as (Hr & _) end.
    refine (without_fresh g' s (uid s) _ J FW FU _ _ _ _ eq_refl _ _ _ _ _ _); try reflexivity; unfold refuse; change (c_out (emit ?a (emit ?b (set_uid ?c s)))) with (a :: b :: c_out s);
      cbn [line_of line_step op_packet op_new op_uid waiting_line sent_line]; rewrite Hr; cbn [waiting_line sent_line]; [|reflexivity].
    unfold without. rewrite filter_app. cbn [filter op_uid op_new]. rewrite N.eqb_refl. cbn [negb]. apply app_nil_r.
  - (* push front *) refine (J16_same _ _ _ _ J _ _ _ _ _ _); try reflexivity; [auto|]. unfold wait, pend, push_front. change (curop (set_queued ?a ?b)) with (curop s). change (queued (set_queued ?a ?b)) with a.
    rewrite !map_app, !filter_app. cbn [map filter]. rewrite req_id. destruct p; try contradiction; reflexivity.
  - (* drop new *) refine (without_fresh g' s (uid s) _ J FW FU _ _ _ _ eq_refl _ _ _ _ _ _); reflexivity.
  - (* push disconnect *) refine (J16_same _ _ _ _ J _ _ _ _ _ _); try reflexivity; [auto|]. unfold wait, pend, push_disconnect. change (curop (set_queued ?a ?b)) with (curop s). change (queued (set_queued ?a ?b)) with a.
    rewrite !map_app, !filter_app. reflexivity.
  - (* drop disconnect *) refine (without_fresh g' s (uid s) _ J FW FU _ _ _ _ eq_refl _ _ _ _ _ _); reflexivity.
  - (* publish *) destruct (publish_received_eq acquire v s) as (m & c & [(_ & E & _)|[(_ & _ & E)|(_ & _ & _ & E)]] & _); rewrite E in *; (refine (J16_same _ _ _ _ J _ _ _ _ _ _); try reflexivity; try (intros Hc v0 Hv0; split; assumption)).
    unfold wait, pend, puback_core. change (curop (set_queued ?a ?b)) with (curop s). change (queued (set_queued ?a ?b)) with a. rewrite !map_app, !filter_app. f_equal. apply insert_wait. reflexivity.
  - (* manual *) destruct (manual_core_eq control s) as (m & x & E & [(id & _ & _ & ->)|(_ & r & -> & _)]); rewrite E in *; (refine (J16_same _ _ _ _ J _ _ _ _ _ _); try reflexivity; try (intros Hc v0 Hv0; split; assumption)).
    unfold wait, pend, puback_core. change (curop (set_queued ?a ?b)) with (curop s). change (queued (set_queued ?a ?b)) with a. rewrite !map_app, !filter_app. f_equal. apply insert_wait. reflexivity.
  - (* cancel manual *) unfold reset_manual in *. destruct (mc s); exact J.
  - (* take *) match goal with H : queued s = _ |- _ => rename H into Hq end. match goal with H : _ /\ _ |- _ => destruct H as (Hcu & _) end. refine (J16_move g s _ _ [o] J _ _ _ _ _ _); try reflexivity; [auto| |].
    + rewrite kout_wait. unfold wait. f_equal. unfold pend in *. change (curop (set_queued q s)) with (curop s). change (queued (set_queued q s)) with q. rewrite Hcu, Hq in *. cbn [app map] in *. inversion NP as [|? ? N1 _]; subst.
      unfold kout at 1. cbn [filter existsb]. change (kuid (identity_of o)) with (op_uid o) at 1. rewrite N.eqb_refl. cbn [orb negb]. symmetry. apply (kout_other [o]). intros x y [<-|[]] Hy E. apply N1. rewrite E. apply in_map, Hy.
    + symmetry. change (unacked (set_queued q s)) with (unacked s). apply (kout_other [o]). intros x y [<-|[]] Hy. apply DPU; [|exact Hy]. unfold pend. rewrite Hq, in_app_iff. right. left. reflexivity.
  - (* take queued *) match goal with H : _ /\ down _ _ |- _ => destruct H as (Hp & Hd) end. refine (J16_move g s _ _ l J _ _ _ _ _ _); try reflexivity.
    + unfold hids. cbn [with_hand g_hand]. apply map_app.
    + intros Hc v Hv. exfalso. exact (down_normal _ _ Hd v Hc Hv).
    + rewrite kout_wait. unfold wait. f_equal. unfold pend in *. symmetry. change (curop (set_queued q s)) with (curop s). change (queued (set_queued q s)) with q.
      match goal with H : q = _ \/ q = _ |- _ => destruct H as [E|E] end; (eapply ident_sub; [exact NP|exact Hp|]); [exact E|]. instantiate (1 := fun _ => false). rewrite E. clear. induction (queued s); auto.
    + symmetry. change (unacked (set_queued q s)) with (unacked s). apply kout_other. intros x y Hx Hy. apply DPU; [|exact Hy]. unfold pend. rewrite in_app_iff, Hp, in_app_iff. auto.
  - (* take written *) refine (J16_move g s _ _ (wc s) J _ _ _ _ _ _); try reflexivity; [unfold hids; cbn [with_hand g_hand]; apply map_app|auto| |].
    + rewrite kout_wait. unfold wait. f_equal. symmetry. apply kout_other. intros x y Hx Hy. apply DW; auto.
    + symmetry. apply kout_other. intros x y Hx Hy. apply DW; auto.
  - (* unacked *) match goal with H : _ /\ down _ _ |- _ => destruct H as (_ & Hd) end. match goal with H : Permutation _ _ |- _ => rename H into Hp end.
    refine (J16_move g s _ _ l J _ _ _ _ _ _); try reflexivity.
    + unfold hids. cbn [with_hand g_hand]. apply map_app.
    + intros Hc v Hv. exfalso. exact (down_normal _ _ Hd v Hc Hv).
    + rewrite kout_wait. unfold wait. f_equal. symmetry. apply kout_other. intros x y Hx Hy E. assert (In (op_uid x) (map op_uid (unacked s))) as Hin.
      { rewrite <- (map_ext _ _ ufd_uid), <- map_map, Hp, map_app, in_app_iff. left. apply in_map, Hx. }
      apply in_map_iff in Hin as (z & Ez & Hz). apply (DPU y z Hy Hz). congruence.
    + symmetry. rewrite <- map_ufd. change (unacked (set_unacked kept s)) with kept. assert (NoDup (map op_uid ([] ++ map unacked_for_disconnect (unacked s)))) as NQ by (cbn [app]; rewrite map_map, (map_ext _ _ ufd_uid); exact NU).
      match goal with H : kept = _ \/ kept = _ |- _ => destruct H as [E|E] end; (refine (ident_sub [] _ _ _ _ NQ Hp _)); [|exact E]. instantiate (1 := fun _ => false). rewrite E. clear. induction (map unacked_for_disconnect (unacked s)); auto.
  - (* reset *) match goal with H : _ /\ down _ _ |- _ => destruct H as (_ & Hd) end. refine (J16_move g s _ _ (unacked s) J _ _ _ _ _ _); try reflexivity.
    + unfold hids. cbn [with_hand g_hand]. apply map_app.
    + intros Hc v Hv. exfalso. exact (down_normal _ _ Hd v Hc Hv).
    + rewrite kout_wait. unfold wait. f_equal. symmetry. apply kout_other. intros x y Hx Hy E. apply (DPU y x Hy Hx). congruence.
    + symmetry. apply kout_none. intros k Hk. apply in_map_iff in Hk as (o & <- & Ho). exact (in_map op_uid _ _ Ho).
  - (* acked *) match goal with H : find_op _ _ = _ |- _ => rename H into Hf end. refine (J16_move g s _ _ [o] J _ _ _ _ _ _); try reflexivity.
    + intros Hc v Hv. split; [exact Hc|]. split; [exact Hv|]. intros E. change (remove_op u (unacked s) = []). rewrite E. reflexivity.
    + rewrite kout_wait. unfold wait. f_equal. symmetry. apply (kout_other [o]). intros x y [<-|[]] Hy E. apply find_op_some in Hf as [Hf _]. apply (DPU y o Hy Hf). congruence.
    + exact (removed_ident _ _ _ Hf).
  - (* expired *) match goal with H : find_op _ _ = _ |- _ => rename H into Hf end. refine (J16_move g s _ _ [o] J _ _ _ _ _ _); try reflexivity.
    + intros Hc v Hv. split; [exact Hc|]. split; [exact Hv|]. intros E. change (remove_op u (unacked s) = []). rewrite E. reflexivity.
    + rewrite kout_wait. unfold wait. f_equal. symmetry. apply (kout_other [o]). intros x y [<-|[]] Hy E. apply find_op_some in Hf as [Hf _]. apply (DPU y o Hy Hf). congruence.
    + exact (removed_ident _ _ _ Hf).
  - (* statistics *) destruct (cs_shape inc una o s) as [x E]. rewrite E in *. refine (J16_same _ _ _ _ J _ _ _ _ _ _); try reflexivity; [|auto].
    unfold hids. cbn [with_hand g_hand map]. match goal with H : g_hand g = _ |- _ => rewrite H end. cbn [map]. f_equal. apply cs_uid.
  - (* done *) match goal with H : g_hand g = _ |- _ => rename H into Hh end. refine (J16_drop g s _ _ (op_uid o) J _ _ _ _ _ _ _ _); try reflexivity. unfold hids. rewrite Hh. reflexivity.
  - (* unsend *) refine (J16_same _ _ _ _ J _ _ _ _ _ _); try reflexivity; [auto|]. unfold wait, pend. match goal with H : curop s = _ |- _ => rewrite H end. reflexivity.
  - (* requeue *) match goal with H : _ /\ _ |- _ => destruct H as (Hc & Hcu & Hh & v & Hv) end. match goal with H : ng_rejoined _ = _ |- _ => rename H into Hj end. right.
    split; [exact Hc|]. split; [exists v; exact Hv|]. split; [reflexivity|].
    assert (forall l, filter req (ident (match curop s with Some o => [o] | None => [] end ++ l)) = filter req (ident l)) as Hcn.
    { intros l. destruct (curop s) as [o|] eqn:Eo; [|reflexivity]. specialize (Hcu _ eq_refl). cbn [app map filter]. rewrite req_id. destruct (op_packet o); try discriminate Hcu. reflexivity. }
    change (c_neg (set_unacked ?a (set_queued ?b s))) with (c_neg s). change (F_ (set_unacked ?a (set_queued ?b s))) with (F_ s). change (W (set_unacked ?a (set_queued ?b s))) with (W s).
    unfold wait, pend. change (curop (set_unacked ?a (set_queued ?b s))) with (curop s). change (queued (set_unacked ?a (set_queued ?b s))) with b. rewrite Hcn.
    unfold hids. rewrite Hh. cbn [map]. rewrite kout_nil. unfold J16, NORMAL, MERGED, hids in J. rewrite Hh in J. cbn [map] in J. rewrite !kout_nil in J. unfold wait, pend in J. rewrite Hcn in J.
    destruct J as [[J1 J2]|(_ & _ & Ju & J)]; [|rewrite Ju; exact J]. rewrite J1, J2, Hj. unfold kmerge. rewrite !map_app, !filter_app, <- app_assoc.
    assert (forall f, filter req (ident (filter f (unacked s))) = ident (filter f (unacked s))) as Hr.
    { intros f. apply filter_all, Forall_forall. intros k Hk. apply in_map_iff in Hk as (o & <- & Ho). apply filter_In in Ho as [Ho _].
      assert (In (identity_of o) (filter req (ident (unacked s)))) as Hi by (rewrite RU; apply in_map, Ho). apply filter_In in Hi. apply Hi. }
    rewrite !Hr. f_equal; [|f_equal]; rewrite <- filter_map_id; f_equal; apply filter_ext_in; intros o Ho; rewrite kpub_id, kpub_acked; try reflexivity; unfold all_acked in Hack; rewrite Forall_forall in Hack; auto.
  - (* refile *) match goal with H : _ /\ _ |- _ => destruct H as (Hc & Hcu & Hh & v & Hv) end. match goal with H : ng_rejoined _ = _ |- _ => rename H into Hj end. right.
    split; [exact Hc|]. split; [exists v; exact Hv|]. split; [reflexivity|].
    assert (forall l, filter req (ident (match curop s with Some o => [o] | None => [] end ++ l)) = filter req (ident l)) as Hcn.
    { intros l. destruct (curop s) as [o|] eqn:Eo; [|reflexivity]. specialize (Hcu _ eq_refl). cbn [app map filter]. rewrite req_id. destruct (op_packet o); try discriminate Hcu. reflexivity. }
    change (c_neg (set_queued ?b (set_unacked ?a s))) with (c_neg s). change (F_ (set_queued ?b (set_unacked ?a s))) with (F_ s). change (W (set_queued ?b (set_unacked ?a s))) with (W s).
    unfold wait, pend. change (curop (set_queued ?b (set_unacked ?a s))) with (curop s). change (queued (set_queued ?b (set_unacked ?a s))) with b. rewrite Hcn.
    unfold J16, NORMAL, MERGED in J. replace (hids g) with (@nil N) in J by (unfold hids; rewrite Hh; reflexivity). rewrite !kout_nil in J. unfold wait, pend in J. rewrite Hcn in J. unfold hids. cbn [with_hand g_hand].
    destruct J as [[J1 J2]|(_ & _ & Ju & J)]; [|rewrite Ju; cbn [filter map app]; rewrite kout_nil; exact J]. rewrite J1, J2, Hj. unfold kmerge. rewrite kout_dist, map_app, filter_app. f_equal.
    + replace (ident (unacked s)) with (ident ([] ++ unacked s)) by reflexivity. rewrite (ident_sub [] (unacked s) (filter (fails_policy cf) (unacked s)) (filter (fun o => negb (fails_policy cf o)) (unacked s)) (fun o => negb (fails_policy cf o))); [|exact NU| |reflexivity].
      * cbn [app]. symmetry. apply filter_all, Forall_forall. intros k Hk. apply in_map_iff in Hk as (o & <- & Ho). apply filter_In in Ho as [Ho _].
        assert (In (identity_of o) (filter req (ident (unacked s)))) as Hi by (rewrite RU; apply in_map, Ho). apply filter_In in Hi. apply Hi.
      * clear. induction (unacked s) as [|o l IH]; cbn [filter]; [constructor|]. destruct (fails_policy cf o); cbn [negb app]; [constructor; exact IH|]. rewrite IH at 1. apply Permutation_middle.
    + unfold kout. rewrite filter_comm. fold (kout (map op_uid (filter (fails_policy cf) (unacked s))) (ident (queued s))). f_equal. apply kout_other. intros x y Hx Hy E. apply filter_In in Hx as [Hx _].
      apply (DPU y x); [unfold pend; apply in_or_app; right; exact Hy|exact Hx|congruence].
  - (* incomplete *) destruct (incomplete_eq s) as (l & x & E & Hp & Hu & Hw & _). rewrite E in *. refine (J16_same _ _ _ _ J _ _ _ _ _ _); try reflexivity; [auto|].
    unfold wait, pend. change (curop (set_queued l (set_c_sta x s))) with (curop s). change (queued (set_queued l (set_c_sta x s))) with l. rewrite !map_app, (map_identity _ _ Hp Hu Hw). reflexivity.
  - (* start *) match goal with H : curop s = None /\ _ |- _ => destruct H as (Hcu & Hg & _) end. match goal with H : queued s = _ |- _ => rename H into Hq end.
    match goal with H : bind_packet_id _ _ = _ |- _ => pose proof (bind_eq _ _ _ _ H) as Hb; clear H end.
    assert (identity_of o' = identity_of o) as Ei by (destruct Hb as [(-> & _)|(id & _ & _ & -> & _)]; [reflexivity|apply identity_eq; try reflexivity; apply bare_id]).
    assert (s1 = set_next_id (next_id s1) (set_queued q s)) as Es by (destruct Hb as [(_ & -> & _)|(id & _ & _ & _ & ->)]; [destruct s as [? []]; reflexivity|reflexivity]).
    refine (J16_same _ _ _ _ J _ _ _ _ _ _); try (rewrite Es; reflexivity); [reflexivity|congruence|].
    unfold wait, pend. rewrite Es, Hcu, Hq. change (curop (set_curop ?a ?b)) with a. change (queued (set_curop ?a ?b)) with q. cbn [app map]. rewrite Ei. reflexivity.
  - (* start fails *) match goal with H : queued s = _ |- _ => rename H into Hq end. match goal with H : _ /\ _ |- _ => destruct H as (Hcu & _) end. assert (NORMAL g s) as [J1 J2] by (apply J16_normal; [exact J|congruence]).
    left. split; unfold W, F_; change (c_out (emit ?a (set_queued ?b s))) with (a :: c_out s); cbn [line_of line_step waiting_line sent_line]; rewrite ident_without;
      change (hids (with_buf [] (with_link DEAD g))) with (hids g); rewrite kout_comm; fold (W s) (F_ s).
    + rewrite J1, kout_wait. unfold wait. f_equal. unfold pend in *. change (curop (emit ?a (set_queued q s))) with (curop s). change (queued (emit ?a (set_queued q s))) with q. rewrite Hcu, Hq in *. cbn [app map] in *. inversion NP as [|? ? N1 _]; subst.
      unfold kout at 1. cbn [filter existsb]. change (kuid (identity_of o)) with (op_uid o) at 1. rewrite N.eqb_refl. cbn [orb negb]. apply (kout_other [o]). intros x y [<-|[]] Hy E. apply N1. rewrite E. apply in_map, Hy.
    + rewrite J2. change (unacked (emit ?a (set_queued q s))) with (unacked s). apply (kout_other [o]). intros x y [<-|[]] Hy. apply DPU; [|exact Hy]. unfold pend. rewrite Hq, in_app_iff. right. left. reflexivity.
  - (* append fails *) match goal with H : queued s = _ |- _ => rename H into Hq end. match goal with H : _ /\ _ |- _ => destruct H as (Hcu & _) end. assert (NORMAL g s) as [J1 J2] by (apply J16_normal; [exact J|congruence]).
    match goal with H : bind_packet_id _ _ = _ |- _ => pose proof (bind_eq _ _ _ _ H) as Hb; clear H end.
    assert (op_uid o' = op_uid o) as Ei by (destruct Hb as [(-> & _)|(id & _ & _ & -> & _)]; reflexivity).
    assert (s1 = set_next_id (next_id s1) (set_queued q s)) as Es by (destruct Hb as [(_ & -> & _)|(id & _ & _ & _ & ->)]; [destruct s as [? []]; reflexivity|reflexivity]).
    rewrite Es. left. split; unfold W, F_; change (c_out (emit ?a (set_c_enc ?b (set_next_id ?c (set_queued q s))))) with (a :: c_out s); cbn [line_of line_step waiting_line sent_line]; rewrite ident_without, Ei;
      change (hids (with_buf [] (with_link DEAD g))) with (hids g); rewrite kout_comm; fold (W s) (F_ s).
    + rewrite J1, kout_wait. unfold wait. f_equal. unfold pend in *. change (curop (emit ?a (set_c_enc ?b (set_next_id ?c (set_queued q s))))) with (curop s). change (queued (emit ?a (set_c_enc ?b (set_next_id ?c (set_queued q s))))) with q. rewrite Hcu, Hq in *. cbn [app map] in *. inversion NP as [|? ? N1 _]; subst.
      unfold kout at 1. cbn [filter existsb]. change (kuid (identity_of o)) with (op_uid o) at 1. rewrite N.eqb_refl. cbn [orb negb]. apply (kout_other [o]). intros x1 y [<-|[]] Hy E. apply N1. rewrite E. apply in_map, Hy.
    + rewrite J2. change (unacked (emit ?a (set_c_enc ?b (set_next_id ?c (set_queued q s))))) with (unacked s). apply (kout_other [o]). intros x1 y [<-|[]] Hy. apply DPU; [|exact Hy]. unfold pend. rewrite Hq, in_app_iff. right. left. reflexivity.
  - (* sent *) match goal with H : g_link _ = FINE /\ _ |- _ => destruct H as (Hg & _ & _ & _ & _ & Ht & Hi) end. match goal with H : curop s = _ |- _ => rename H into Hcu end. match goal with H : g_hand _ = [] |- _ => rename H into Hh end.
    assert (NORMAL g' s) as [J1 J2] by (apply J16_normal; [exact J|congruence]). unfold hids in *. rewrite Hh in *. cbn [map] in *. rewrite kout_nil in *.
    pose proof (finish_eq cf now o s Ht Hi) as F. cbv zeta in F. left. unfold NORMAL, hids. rewrite Hh. cbn [map]. rewrite !kout_nil. unfold W, F_. rewrite finish_out. cbn [line_of line_step waiting_line sent_line].
    rewrite ident_without. fold (W s). rewrite J1. split.
    + rewrite kout_wait. unfold wait, pend in *. rewrite finish_queued, finish_curop, Hcu in *. cbn [app map] in *. inversion NP as [|? ? N1 _]; subst. f_equal. unfold kout. cbn [filter existsb]. change (kuid (identity_of o)) with (op_uid o) at 1.
      rewrite N.eqb_refl. cbn [orb negb]. apply (kout_other [o]). intros x1 y [<-|[]] Hy E. apply N1. rewrite E. apply in_map, Hy.
    + rewrite map_app. fold (F_ s). rewrite J2. change (answered (op_packet o)) with (requires_ack (op_packet o)). destruct (requires_ack (op_packet o)).
      * destruct F as (o' & x & -> & (Ho & Hu & Hw & _) & _). change (unacked (emit ?a (set_curop None (set_unacked ?b ?c)))) with b. rewrite map_app. cbn [map]. do 2 f_equal. symmetry. apply identity_eq; auto. rewrite Ho. reflexivity.
      * destruct F as (x & ->). cbn [map]. rewrite app_nil_r. reflexivity.
Qed.
Lemma reach_J16 g s : reach (g, s) -> ok s -> J16 (g, s).
Proof.
  intros R Ok. refine (reach_inv cf now0 J16 _ (fun s now _ _ J => J) _ (g, s) R Ok).
  - left. split; reflexivity.
  - intros g1 s1 g2 s2 R1 K1 K2 J P. eapply J16_step; eassumption.
Qed.

(** ** Every request sent is the next one waiting *)
Lemma sent_next g s x o y : reach (g, s) -> ok s -> c_out s = x ++ O_SENT o :: y -> is_request (op_packet o) = true ->
  exists o0 rest, waiting_line (line_of y) = o0 :: rest /\ identity_of o0 = identity_of o.
Proof.
  intros R Ok E Hr. destruct (event_cause cf now0 _ _ _ _ _ R Ok E) as (g1 & s1 & g2 & s2 & d1 & d2 & x' & R1 & Ok1 & _ & _ & C & _ & -> & ->).
  inversion C; subst; cbn [app] in *; try discriminate.
  match goal with H : curop s1 = _ |- _ => rename H into Hcu end. match goal with H : g_link _ = FINE |- _ => rename H into Hg end. match goal with H : g_hand _ = [] |- _ => rename H into Hh end.
  assert (NORMAL g2 s1) as [J1 _] by (apply J16_normal; [apply reach_J16; assumption|congruence]).
  unfold hids in J1. rewrite Hh in J1. cbn [map] in J1. rewrite kout_nil in J1. unfold wait, pend in J1. rewrite Hcu in J1. cbn [app map filter] in J1. rewrite req_id, Hr in J1.
  unfold W in J1. destruct (waiting_line (line_of (c_out s1))) as [|o0 rest]; [discriminate|]. exists o0, rest. split; [reflexivity|]. exact (f_equal (hd (identity_of o)) J1).
Qed.

(** ** What is kept while offline *)
Lemma keeps_policy p : keeps cf p = satisfies_policy cf p.
Proof. unfold keeps, satisfies_policy. destruct (cf_queue cf); try reflexivity; destruct p; reflexivity. Qed.
Lemma keeps_bare p : keeps cf (bare p) = keeps cf p.
Proof. unfold keeps. destruct p; reflexivity. Qed.
Lemma refused_offline g s x o y : reach (g, s) -> ok s -> c_out s = x ++ I_SUBMIT o :: y -> is_request (op_packet o) = true ->
  phase_of y <> LS_CONNECTED -> keeps cf (op_packet o) = false ->
  exists x' e, x = x' ++ [O_DONE o e None] /\ (e = K_OFFLINE_QUEUE_POLICY \/ e = K_CLIENT_TERMINATED).
Proof.
  intros R Ok E Hr Hp Hk. destruct (event_cause cf now0 _ _ _ _ _ R Ok E) as (g1 & s1 & g2 & s2 & d1 & d2 & x' & R1 & Ok1 & _ & _ & C & _ & -> & ->).
  destruct (reach_J7 cf now0 _ _ R1 Ok1) as [J7' _]. inversion C; subst; cbn [app op_packet op_new] in *; try discriminate.
  - exfalso. rewrite keeps_policy in Hk. match goal with H : _ \/ _ |- _ => destruct H as [[_ H]|H] end; congruence.
  - eexists x', _. split; [reflexivity|]. match goal with H : _ \/ _ |- _ => destruct H as [->|[-> _]] end; auto.
Qed.
Lemma offline_error g s x o ack y : reach (g, s) -> ok s -> c_out s = x ++ O_DONE o K_OFFLINE_QUEUE_POLICY ack :: y -> keeps cf (op_packet o) = false.
Proof.
  intros R Ok E. rewrite keeps_policy. destruct (done_finish cf now0 _ _ _ _ _ _ _ R Ok E) as [(y' & _ & _ & _ & [H|[_ H]])|(g1 & s1 & _ & _ & _ & _ & [_ H])]; [discriminate H|exact H|exact H].
Qed.
Lemma kept_at_attempt g s x y : reach (g, s) -> ok s -> c_out s = x ++ O_LIFE ATTEMPTING_CONNECT :: y ->
  Forall (fun o => keeps cf (op_packet o) = true) (waiting_line (line_of y)) /\
  Forall (fun o => keeps cf (op_packet o) = true \/ exists v, op_packet o = P_PUBLISH v /\ pb_qos v <> 0) (sent_line (line_of y)) /\
  forall o, In o (submitted y) -> is_request (op_packet o) = true -> ~ In (op_uid o) (map op_uid (finished y)) ->
    exists o', In o' (waiting_line (line_of y) ++ sent_line (line_of y)) /\ identity_of o' = identity_of o.
Proof.
  intros R Ok E. destruct (event_cause cf now0 _ _ _ _ _ R Ok E) as (g1 & s1 & g2 & s2 & d1 & d2 & x' & R1 & Ok1 & _ & _ & C & _ & -> & ->).
  inversion C; subst; cbn [app] in *; try discriminate. match goal with H : current _ = _ \/ _ |- _ => rename H into Hc end. match goal with H : g_hand _ = [] |- _ => rename H into Hh end.
  assert (NORMAL g2 s1) as [J1 J2] by (apply J16_normal; [apply reach_J16; assumption|intros v Hv; destruct Hc; congruence]).
  destruct (reach_J0 cf now0 _ _ R1 Ok1) as (Ja & _ & _ & Jp). destruct Jp as (Hcu & Hwc & _ & _ & Hq & Hu & _); [destruct Hc as [-> | ->]; reflexivity|].
  unfold hids in *. rewrite Hh in *. cbn [map] in *. rewrite kout_nil in *. split; [|split].
  - apply Forall_forall. intros o Ho. assert (In (identity_of o) (wait s1)) as Hi by (rewrite <- J1; apply in_map, Ho). apply filter_In in Hi as [Hi _]. apply in_map_iff in Hi as (o' & Ei & Hi).
    unfold pend in Hi. rewrite Hcu in Hi. rewrite Forall_forall in Hq. specialize (Hq _ Hi). rewrite <- keeps_policy, <- keeps_bare in Hq. rewrite <- keeps_bare. unfold identity_of in Ei. congruence.
  - apply Forall_forall. intros o Ho. assert (In (identity_of o) (ident (unacked s1))) as Hi by (rewrite <- J2; apply in_map, Ho). apply in_map_iff in Hi as (o' & Ei & Hi).
    rewrite Forall_forall in Hu. destruct (Hu _ Hi) as (_ & _ & Hf). unfold unacked_fails_policy in Hf. assert (bare (op_packet o') = bare (op_packet o)) as Eb by (unfold identity_of in Ei; congruence).
    destruct (is_acked_publish (op_packet o')) eqn:A.
    + right. destruct (op_packet o') as [| |v'| | | | | | | |] eqn:E1; try discriminate A. destruct (op_packet o) as [| |v| | | | | | | |]; try discriminate Eb. exists v. split; [reflexivity|]. cbn [bare] in Eb. injection Eb; intros.
      cbn [is_acked_publish] in A. destruct (N.eqb_spec (pb_qos v') 0); [discriminate A|]. congruence.
    + left. rewrite <- keeps_bare, <- Eb, keeps_bare, keeps_policy. destruct (satisfies_policy cf (op_packet o')); [reflexivity|discriminate Hf].
  - intros o Ho Hr Hf. destruct (reach_J1 cf now0 _ _ R1 Ok1) as (_ & _ & Hp). assert (In (identity_of o) (filter user_made (K g2 s1))) as Hi by (rewrite Hp; apply in_map, Ho).
    apply filter_In in Hi as [Hi _]. unfold K in Hi. apply in_app_or in Hi as [Hi|Hi].
    + apply in_map_iff in Hi as (o' & Ei & Hi). unfold held in Hi. rewrite Hh, Hcu, Hwc in Hi. cbn [app] in Hi. apply in_app_or in Hi as [Hi|Hi].
      * assert (In (identity_of o) (W s1)) as Hw. { rewrite J1. apply filter_In. split; [|rewrite req_id; exact Hr]. rewrite <- Ei. apply in_map. unfold pend. rewrite Hcu. exact Hi. }
        apply in_map_iff in Hw as (o1 & E1 & Hw). exists o1. split; [apply in_or_app; left; exact Hw|exact E1].
      * assert (In (identity_of o) (F_ s1)) as Hw by (rewrite J2, <- Ei; apply in_map, Hi). apply in_map_iff in Hw as (o1 & E1 & Hw). exists o1. split; [apply in_or_app; right; exact Hw|exact E1].
    + exfalso. apply Hf. apply in_map_iff in Hi as (o' & Ei & Hi). replace (op_uid o) with (op_uid o') by (unfold identity_of in Ei; congruence). apply in_map, Hi.
Qed.

(** ** Sending again *)
Definition dup (p : packet5) : packet5 := set_duplicate p.
Lemma dup_dup p : dup (dup p) = dup p. Proof. destruct p; reflexivity. Qed.
Lemma acked_dup p : is_acked_publish (dup p) = is_acked_publish p. Proof. destruct p; reflexivity. Qed.
Definition J17 (x : ghost * client) : Prop := let '(g, s) := x in
  ((current s = MQTT_CONNECT \/ exists v, g_link g = ACKED v) -> Forall (resting cf) (unacked s)) /\
  (forall o0, In o0 (sent (c_out s)) -> op_uid o0 < uid s) /\
  (forall o o0, In o0 (sent (c_out s)) -> op_uid o0 = op_uid o -> is_acked_publish (op_packet o) = true ->
    (In o (pend s) -> op_packet o = dup (op_packet o0)) /\ (In o (unacked s) -> dup (op_packet o) = dup (op_packet o0))).
Lemma J17_same g s g' s' : J17 (g, s) -> (current s' = MQTT_CONNECT \/ (exists v, g_link g' = ACKED v) -> current s = MQTT_CONNECT \/ (exists v, g_link g = ACKED v)) ->
  sent (c_out s') = sent (c_out s) -> uid s <= uid s' ->
  (forall o, is_acked_publish (op_packet o) = true -> In o (pend s') -> exists o', In o' (pend s) /\ op_uid o' = op_uid o /\ op_packet o' = op_packet o) ->
  (forall o, In o (unacked s') -> In o (unacked s)) -> J17 (g', s').
Proof.
  intros (A & B & C) H1 H2 H3 H4 H5. split; [|split].
  - intros H. specialize (A (H1 H)). rewrite Forall_forall in *. auto.
  - intros o0 H. rewrite H2 in H. specialize (B _ H). lia.
  - intros o o0 Ho Hu Ha. rewrite H2 in Ho. split.
    + intros Hp. destruct (H4 _ Ha Hp) as (o' & P1 & P2 & P3). rewrite <- P3. apply (C o' o0 Ho); congruence.
    + intros Hp. apply (C o o0 Ho Hu Ha). auto.
Qed.
Lemma in_pend o s : In o (pend s) <-> curop s = Some o \/ In o (queued s).
Proof. unfold pend. destruct (curop s) as [o1|]; cbn [app In]; [|intuition discriminate]. split; intros [H|H]; auto; left; congruence. Qed.
Lemma in_sent o l : In o (sent l) -> exists x y, l = x ++ O_SENT o :: y.
Proof. unfold sent. rewrite in_flat_map. intros (e & He & Hi). apply in_split in He as (x & y & ->). exists x, y. destruct e; try destruct Hi as [<-|[]]; try contradiction. reflexivity. Qed.
Lemma resting_dup o : resting cf o -> is_acked_publish (op_packet o) = true -> dup (op_packet o) = op_packet o.
Proof.
  intros (o' & -> & _) A. unfold unacked_for_disconnect in *. destruct (is_acked_publish (op_packet o')) eqn:B; cbn [op_packet set_packet] in *; [apply dup_dup|].
  exfalso. destruct (op_packet o'); cbn in *; congruence.
Qed.
(** operations waiting to be acknowledged go back to the queue *)
Lemma J17_requeue g s g' s' : J17 (g, s) -> (exists v, g_link g = ACKED v) -> sent (c_out s') = sent (c_out s) -> uid s' = uid s -> unacked s' = [] ->
  curop s' = curop s -> (forall o, In o (queued s') -> In o (unacked s) \/ In o (queued s)) -> J17 (g', s').
Proof.
  intros (A & B & C) Hv E1 E2 E3 E4 E5. split; [rewrite E3; constructor|]. split; [rewrite E1, E2; exact B|]. rewrite E1, E3. intros o o0 Ho Hu Ha. split; [|intros []].
  rewrite in_pend, E4. intros H. destruct (C o o0 Ho Hu Ha) as [C1 C2]. specialize (A (or_intror Hv)). rewrite Forall_forall in A. rewrite in_pend in C1.
  destruct H as [H|H]; [auto|]. apply E5 in H as [H|H]; [|auto]. rewrite <- (C2 H). symmetry. apply resting_dup; auto.
Qed.
Ltac jsame J := eapply (J17_same _ _ _ _ J); [try exact (fun H => H)|try reflexivity|try exact (N.le_refl _)|try exact (fun o _ H => ex_intro _ o (conj H (conj eq_refl eq_refl)))|try exact (fun o H => H)].
Lemma reach_J17 g s : reach (g, s) -> ok s -> J17 (g, s).
Proof.
  intros R Ok. refine (reach_inv cf now0 J17 _ (fun s now _ _ J => J) _ (g, s) R Ok).
  { split; [intros _; constructor|]. split; [intros o0 []|]. intros o o0 []. }
  clear R Ok g s. intros g s g' s' R Ok Ok' J P. destruct (reach_J0 cf now0 _ _ R Ok) as (Ja & _ & Jc & Jp).
  inversion P; subst; clear P; repeat match goal with H : ok _ -> _ |- _ => specialize (H Ok) end; try exact J.
  - (* quiet *) match goal with H : hush _ _ |- _ => destruct H as [H _]; apply core_inv in H as (E0 & _ & E1 & E2 & E3 & E4 & _ & _ & _ & E5 & Hrest) end.
    assert (c_out s' = c_out s) as Eo by (clear - Hrest; tauto). unfold J17, pend in *. rewrite E0, E1, E2, E4, E5, Eo. exact J.
  - exfalso. exact (not_ok_crash _ _ Ok').
  - jsame J. unfold emit, sent. cbn. destruct x; try discriminate; reflexivity.
  - (* attempt *) destruct J as (A & J). split; [|exact J]. intros [H|[v H]]; [discriminate H|congruence].
  - (* success *) destruct J as (A & J). split; [|exact J]. intros [H|[v' H]]; [|discriminate H]. apply A. left. exact H.
  - (* state *) destruct J as (A & J). assert (J17 (g, set_current c (set_c_tim t s)) -> J17 (match c with MQTT_CONNECT => with_link NEW g | _ => g end, set_current c (set_c_tim t s))) as Hg.
    { intros (A1 & A2). split; [|exact A2]. destruct c; try exact A1. intros _. apply A1. left. reflexivity. }
    apply Hg. split; [|exact J]. intros [H|H]; [|apply A; right; exact H]. change (c = MQTT_CONNECT) in H. subst c. match goal with H : edge _ _ _ _ |- _ => cbn [edge] in H; rewrite H in Jp end. apply (Jp eq_refl).
  - (* open *) destruct J as (A & J). split; [|exact J]. intros _. apply A. left. match goal with H : _ /\ _ |- _ => apply H end.
  - (* apply *) destruct J as (A & J). split; [|exact J]. intros _. apply A. left. match goal with H : _ /\ _ |- _ => apply H end.
  - (* die *) destruct J as (A & J). split; [|exact J]. intros [H|[v H]]; [|discriminate H]. apply A. left. exact H.
  - (* closed *) destruct J as (A & J). split; [|exact J]. intros [H|[v H]]; [|discriminate H]. apply A. left. exact H.
  - (* enqueue *) destruct (enqueue_eq p override s) as (o & x & E & Hp & Hu & Hw & _). rewrite E in *. destruct J as (A & B & C). split; [exact A|]. split.
    { intros o0 H. specialize (B o0 H). change (op_uid o0 < uid s + 1). lia. }
    intros o1 o0 Ho Hu1 Ha. specialize (B o0 Ho). destruct (C o1 o0 Ho Hu1 Ha) as [C1 C2]. split; [|exact C2]. rewrite in_pend in *. change (curop (set_queued ?a ?b)) with (curop s). change (queued (set_queued ?a ?b)) with a. rewrite in_app_iff.
    intros [H|[H|[H|[]]]]; [auto|auto|]. subst o1. exfalso. lia.
  - (* refuse *) jsame J. change (uid s <= uid s + 1). lia.
  - (* push front *) jsame J; [change (uid s <= uid s + 1); lia|]. intros o Ha. rewrite in_pend. change (curop (push_front p s)) with (curop s). change (queued (push_front p s)) with (op_new (uid s) BY_CLIENT p 0 :: queued s).
    intros [H|[H|H]]; [exists o; rewrite in_pend; auto| |exists o; rewrite in_pend; auto]. subst o. cbn [op_packet op_new] in Ha. destruct p; try discriminate Ha. contradiction.
  - (* drop new *) jsame J. change (uid s <= uid s + 1). lia.
  - (* push disconnect *) jsame J; [change (uid s <= uid s + 1); lia|]. intros o Ha. rewrite in_pend. change (curop (push_disconnect v s)) with (curop s). change (queued (push_disconnect v s)) with (op_new (uid s) BY_USER (P_DISCONNECT v) 0 :: queued s).
    intros [H|[H|H]]; [exists o; rewrite in_pend; auto| |exists o; rewrite in_pend; auto]. subst o. discriminate Ha.
  - (* drop disconnect *) jsame J. change (uid s <= uid s + 1). lia.
  - (* publish *) destruct (publish_received_eq acquire v s) as (m & c & [(_ & E & _)|[(_ & _ & E)|(_ & _ & _ & E)]] & _); rewrite E in *; try exact J.
    jsame J; [change (uid s <= uid s + 1); lia|]. intros o Ha. rewrite in_pend. change (curop (puback_core ?a ?b ?x)) with (curop s). change (queued (puback_core ?a ?b ?x)) with (insert_puback (op_new (uid s) a (P_PUBACK (mkpuback b 0 None [])) 0) (queued s)).
    rewrite insert_puback_perm. intros [H|[H|H]]; [exists o; rewrite in_pend; auto| |exists o; rewrite in_pend; auto]. subst o. discriminate Ha.
  - (* manual *) destruct (manual_core_eq control s) as (m & x & E & [(id & _ & _ & ->)|(_ & r & -> & _)]); rewrite E in *; try exact J.
    jsame J; [change (uid s <= uid s + 1); lia|]. intros o Ha. rewrite in_pend. change (curop (puback_core ?a ?b ?x)) with (curop s). change (queued (puback_core ?a ?b ?x)) with (insert_puback (op_new (uid s) a (P_PUBACK (mkpuback b 0 None [])) 0) (queued s)).
    rewrite insert_puback_perm. intros [H|[H|H]]; [exists o; rewrite in_pend; auto| |exists o; rewrite in_pend; auto]. subst o. discriminate Ha.
  - unfold reset_manual in *. destruct (mc s); exact J.
  - (* take *) jsame J. intros o1 _. rewrite in_pend. change (curop (set_queued q s)) with (curop s). change (queued (set_queued q s)) with q. intros H. exists o1. rewrite in_pend.
    match goal with H : queued s = _ |- _ => rewrite H end. cbn [In]. intuition auto.
  - (* take queued *) jsame J. intros o1 _. rewrite in_pend. change (curop (set_queued q s)) with (curop s). change (queued (set_queued q s)) with q. intros H. exists o1. rewrite in_pend.
    match goal with H : Permutation _ _ /\ _ |- _ => destruct H as [Hp _] end. rewrite Hp, in_app_iff. intuition auto.
  - (* unacked *) match goal with H : kept = _ \/ kept = _ |- _ => rename H into Hk end. destruct J as (A & B & C). split; [|split].
    + intros _. exact (kept_resting _ _ _ Hk).
    + exact B.
    + intros o o0 Ho Hu Ha. split; [apply (C o o0 Ho Hu Ha)|]. change (unacked (set_unacked kept s)) with kept. intros Hi. assert (In o (map unacked_for_disconnect (unacked s))) as Hm by (destruct Hk as [-> | ->]; [contradiction|apply filter_In in Hi; apply Hi]).
      apply in_map_iff in Hm as (o' & <- & Hm). rewrite ufd_uid in Hu. unfold unacked_for_disconnect in *. destruct (is_acked_publish (op_packet o')) eqn:A'; cbn [op_packet set_packet] in *.
      * change (dup (dup (op_packet o')) = dup (op_packet o0)). rewrite dup_dup. apply (C o' o0 Ho Hu A'). exact Hm.
      * exfalso. destruct (op_packet o'); cbn in *; congruence.
  - jsame J. intros o [].
  - jsame J. intros o1 H. change (In o1 (remove_op u (unacked s))) in H. apply in_remove_op in H. apply H.
  - jsame J. intros o1 H. change (In o1 (remove_op u (unacked s))) in H. apply in_remove_op in H. apply H.
  - destruct (cs_shape inc una o s) as [x E]. rewrite E in *. exact J.
  - (* unsend *) jsame J. intros o1 _. rewrite in_pend. change (curop (set_curop None ?b)) with (@None op). change (queued (set_curop ?a (set_queued ?b ?c))) with b. cbn [In]. intros [H|H]; [discriminate|].
    exists o1. rewrite in_pend. intuition congruence.
  - (* requeue *) eapply (J17_requeue _ _ _ _ J); [|reflexivity|reflexivity|reflexivity|reflexivity|]; [match goal with H : _ /\ _ |- _ => apply H end|]. intros o. change (queued (set_unacked ?a (set_queued ?b ?c))) with b. rewrite !in_app_iff, !filter_In. tauto.
  - (* refile *) eapply (J17_requeue _ _ _ _ J); [|reflexivity|reflexivity|reflexivity|reflexivity|]; [match goal with H : _ /\ _ |- _ => apply H end|]. intros o. change (queued (set_queued ?b ?c)) with b. rewrite !in_app_iff, !filter_In. tauto.
  - (* incomplete *) destruct (incomplete_eq s) as (l & x & E & Hp & Hu & _). rewrite E in *. jsame J. intros o1 _. rewrite in_pend. change (curop (set_queued l ?b)) with (curop s). change (queued (set_queued l ?b)) with l.
    intros [H|H]; [exists o1; rewrite in_pend; auto|]. assert (In (op_packet o1, op_uid o1) (combine (map op_packet (queued s)) (map op_uid (queued s)))) as Hi.
    { rewrite <- Hp, <- Hu. clear - H. induction l as [|y l IH]; [contradiction|]. cbn [map combine]. destruct H as [->|H]; [left; reflexivity|right; auto]. }
    clear - Hi. revert Hi. assert (forall q, In (op_packet o1, op_uid o1) (combine (map op_packet q) (map op_uid q)) -> exists o', In o' q /\ op_uid o' = op_uid o1 /\ op_packet o' = op_packet o1) as Hq.
    { induction q as [|y q IH]; [intros []|]. cbn [map combine]. intros [H|H]; [exists y; split; [left; reflexivity|]; split; congruence|]. destruct (IH H) as (o' & H1 & H2). exists o'. split; [right; exact H1|exact H2]. }
    intros Hi. destruct (Hq _ Hi) as (o' & H1 & H2). exists o'. rewrite in_pend. auto.
  - (* start *) match goal with H : queued s = _ |- _ => rename H into Hq end. match goal with H : curop s = None /\ _ |- _ => destruct H as (Hcu & _) end.
    match goal with H : bind_packet_id _ _ = _ |- _ => pose proof (bind_eq _ _ _ _ H) as Hb; clear H end. destruct Hb as [(-> & -> & _)|(id & _ & Hn & -> & ->)].
    + jsame J. intros o1 _. rewrite in_pend. change (curop (set_curop ?a ?b)) with a. change (queued (set_curop ?a ?b)) with q. intros H. exists o1. rewrite in_pend, Hq. cbn [In]. intuition congruence.
    + pose proof J as (A & B & C). split; [exact A|]. split; [exact B|]. intros o1 o0 Ho Hu Ha. destruct (C o1 o0 Ho Hu Ha) as [C1 C2]. split; [|exact C2]. rewrite in_pend in *. rewrite Hq in C1. change (curop (set_curop ?a ?b)) with a. change (queued (set_curop ?a ?b)) with q. cbn [In] in *.
      intros [H|H]; [|auto]. injection H as <-. exfalso. cbn [op_uid set_packet op_packet] in *. assert (is_acked_publish (op_packet o) = true) as Ha' by (destruct (op_packet o); exact Ha || discriminate Ha).
      destruct (C o o0 Ho Hu Ha') as [C3 _]. rewrite in_pend, Hq in C3. specialize (C3 (or_intror (or_introl eq_refl))). destruct (in_sent _ _ Ho) as (x & y & Ex).
      assert (answered (op_packet o0) = true) as Hans by (change (requires_ack (op_packet o0) = true); rewrite C3, acked_dup in Ha'; destruct (op_packet o0); try discriminate Ha'; exact Ha').
      pose proof (sent_id cf now0 _ _ _ _ _ R Ok Ex Hans) as Hid. rewrite C3 in Hn. destruct (op_packet o0); try discriminate Hans; cbn in Hn, Hid; rewrite C3 in Ha'; try discriminate Ha'. cbn in Ha'. destruct (pb_qos v =? 0); [discriminate|]. cbn in Hn.
      destruct (N.eqb_spec (pb_packet_id v) 0); [contradiction|discriminate].
  - (* start fails *) match goal with H : queued s = _ |- _ => rename H into Hq end. destruct J as (A & J). assert (J17 (g, s)) as J' by (split; assumption). jsame J'.
    + intros [H|[v H]]; [left; exact H|discriminate H].
    + intros o1 _. rewrite in_pend. change (curop (emit ?a (set_queued q s))) with (curop s). change (queued (emit ?a (set_queued q s))) with q. intros H. exists o1. rewrite in_pend, Hq. cbn [In]. intuition auto.
  - (* append fails *) match goal with H : queued s = _ |- _ => rename H into Hq end. match goal with H : bind_packet_id _ _ = _ |- _ => pose proof (bind_eq _ _ _ _ H) as Hb; clear H end.
    assert (s1 = set_next_id (next_id s1) (set_queued q s)) as Es by (destruct Hb as [(_ & -> & _)|(id & _ & _ & _ & ->)]; [destruct s as [? []]; reflexivity|reflexivity]). rewrite Es in *.
    jsame J.
    + intros [H|[v H]]; [left; exact H|discriminate H].
    + intros o1 _. rewrite in_pend. change (curop (emit ?a (set_c_enc ?b (set_next_id ?c (set_queued q s))))) with (curop s). change (queued (emit ?a (set_c_enc ?b (set_next_id ?c (set_queued q s))))) with q. intros H. exists o1. rewrite in_pend, Hq. cbn [In]. intuition auto.
  - (* sent *) match goal with H : g_link _ = FINE /\ _ |- _ => destruct H as (Hg & _ & _ & _ & _ & Ht & Hi) end. match goal with H : curop s = _ |- _ => rename H into Hcu end.
    pose proof (reach_J1 cf now0 _ _ R Ok) as (ND & Hlt & _). destruct (disjoint_parts _ _ ND) as (NP & NU & DPU & _ & _). destruct J as (A & B & C).
    pose proof (finish_eq cf now o s Ht Hi) as F. cbv zeta in F. pose proof (finish_queued cf now o s) as Eq. pose proof (finish_curop cf now o s) as Ec.
    assert (uid (finish_operation cf now o s) = uid s) as Eu.
    { destruct (requires_ack (op_packet o)); [destruct F as (o' & x & -> & _); destruct (is_acked_publish (op_packet o))|destruct F as (x & ->)]; reflexivity. }
    assert (current (finish_operation cf now o s) = current s) as Ecu by (unfold current; rewrite finish_ctl; reflexivity).
    assert (In o (pend s)) as Hop by (rewrite in_pend; auto).
    assert (forall o1, In o1 (unacked (finish_operation cf now o s)) -> In o1 (unacked s) \/ (requires_ack (op_packet o) = true /\ op_uid o1 = op_uid o /\ op_packet o1 = op_packet o)) as Hun.
    { destruct (requires_ack (op_packet o)).
      - destruct F as (o' & x & -> & (H1 & H2 & _) & _). intros o1. change (unacked (emit ?a (set_curop None (set_unacked ?b ?c)))) with b. rewrite in_app_iff. intros [H|[H|[]]]; [auto|]. subst o1. auto.
      - destruct F as (x & ->). auto. }
    split; [|split].
    + rewrite Ecu. intros [H|[v H]]; [|congruence]. specialize (A (or_introl H)). specialize (Jc H _ Hcu). rewrite Forall_forall in *. intros o1 H1. destruct (Hun _ H1) as [H2|(H2 & _)]; [auto|]. destruct (op_packet o); discriminate.
    + rewrite finish_out, Eu. intros o0 [<-|H]; [|auto]. rewrite Forall_forall in Hlt. apply (Hlt (identity_of o)). unfold K. apply in_or_app. left. apply in_map, curop_held, Hcu.
    + rewrite finish_out. intros o1 o0 Ho Hu Ha. assert (In o1 (pend (finish_operation cf now o s)) -> op_uid o1 <> op_uid o /\ In o1 (pend s)) as Hpe.
      { rewrite !in_pend, Eq, Ec. intros [H|H]; [discriminate|]. split; [|auto]. unfold pend in NP. rewrite Hcu in NP. cbn [app map] in NP. inversion NP as [|? ? N1 _]. intros E1. apply N1. rewrite <- E1. apply in_map, H. }
      change (sent (O_SENT o :: c_out s)) with (o :: sent (c_out s)) in Ho. destruct Ho as [<-|Ho].
      * split; [intros H; destruct (Hpe H) as [H1 _]; congruence|]. intros H. destruct (Hun _ H) as [H1|(_ & _ & ->)]; [|reflexivity]. exfalso. exact (DPU _ _ Hop H1 Hu).
      * split; [intros H; destruct (Hpe H) as [_ H1]; apply (C o1 o0 Ho Hu Ha); exact H1|]. intros H. destruct (Hun _ H) as [H1|(_ & H1 & H2)]; [apply (C o1 o0 Ho Hu Ha); exact H1|].
        rewrite H2 in *. rewrite H1 in Hu. destruct (C o o0 Ho Hu Ha) as [C1 _]. rewrite (C1 Hop). apply dup_dup.
Qed.
Lemma sent_again g s x o y o0 : reach (g, s) -> ok s -> c_out s = x ++ O_SENT o :: y -> In o0 (sent y) -> op_uid o0 = op_uid o ->
  forall v, op_packet o = P_PUBLISH v -> pb_qos v <> 0 -> exists v0, op_packet o0 = P_PUBLISH v0 /\ v = redelivered v0.
Proof.
  intros R Ok E Ho Hu v Hv Hq. destruct (event_cause cf now0 _ _ _ _ _ R Ok E) as (g1 & s1 & g2 & s2 & d1 & d2 & x' & R1 & Ok1 & _ & _ & C & _ & -> & ->).
  inversion C; subst; cbn [app] in *; try discriminate. match goal with H : curop s1 = _ |- _ => rename H into Hcu end.
  destruct (reach_J17 _ _ R1 Ok1) as (_ & _ & J). destruct (J o o0 Ho Hu) as [J1 _]; [rewrite Hv; cbn [is_acked_publish]; destruct (N.eqb_spec (pb_qos v) 0); [contradiction|reflexivity]|].
  rewrite in_pend in J1. specialize (J1 (or_introl Hcu)). rewrite Hv in J1. destruct (op_packet o0) as [| |v0| | | | | | | |] eqn:E0; try discriminate J1. exists v0. split; [reflexivity|]. injection J1 as ->. reflexivity.
Qed.
End Order.
