(** Operations are neither duplicated nor forgotten: what every update of Client5_Steps.v does to the operations the client holds and to those
    it has finished with. *)
From Verif Require Import Base BaseLemmas Mqtt5_Views TopicAlias_Model Encoder5_Model Decoder5_Model RateLimiter_Model RateLimiter_Spec
  RateLimiter_Proofs Validate5_Model Negotiated_Model Client5_State Client5_Model Client5_Steps Client5_Decomp Client5_Decomp2 Client5_Forms
  Client5_Decomp3 Client5_Inv0 Client5_Spec.
From Coq Require Import Permutation.
Ltac Zify.zify_post_hook ::= idtac.

Definition packet5_dec : forall a b : packet5, {a = b} + {a <> b}.
Proof. repeat decide equality. Defined.
Definition identity_dec : forall a b : identity, {a = b} + {a <> b}.
Proof. unfold identity. repeat decide equality. Defined.
Notation cnt := (count_occ identity_dec).
Lemma perm_cnt l l' : Permutation l l' -> forall x, cnt l x = cnt l' x.
Proof. apply (Permutation_count_occ identity_dec). Qed.
Lemma cnt_perm l l' : (forall x, cnt l x = cnt l' x) -> Permutation l l'.
Proof. apply (Permutation_count_occ identity_dec). Qed.
Lemma cnt_cons k l x : cnt (k :: l) x = (cnt [k] x + cnt l x)%nat.
Proof. cbn [count_occ]. destruct (identity_dec k x); reflexivity. Qed.
Ltac perm := apply cnt_perm; let x := fresh "z" in intros x;
  repeat match goal with H : Permutation _ _ |- _ => let H' := fresh "C" in pose proof (perm_cnt _ _ H x) as H'; clear H end;
  repeat match goal with
    | |- context [cnt (map ?f (?k ++ ?l)) x] => rewrite (map_app f k l)
    | |- context [cnt (?k ++ ?l) x] => rewrite (count_occ_app identity_dec k l x)
    | |- context [cnt (map ?f (?k :: ?l)) x] => change (map f (k :: l)) with (f k :: map f l)
    | |- context [cnt (map ?f []) x] => change (cnt (map f []) x) with O
    | |- context [cnt [] x] => change (cnt [] x) with O
    | |- context [cnt (?k :: ?l) x] => lazymatch l with [] => fail | _ => rewrite (cnt_cons k l x) end
    | H : context [cnt (map ?f (?k ++ ?l)) x] |- _ => rewrite (map_app f k l) in H
    | H : context [cnt (?k ++ ?l) x] |- _ => rewrite (count_occ_app identity_dec k l x) in H
    | H : context [cnt (map ?f (?k :: ?l)) x] |- _ => change (map f (k :: l)) with (f k :: map f l) in H
    | H : context [cnt (map ?f []) x] |- _ => change (cnt (map f []) x) with O in H
    | H : context [cnt [] x] |- _ => change (cnt [] x) with O in H
    | H : context [cnt (?k :: ?l) x] |- _ => lazymatch l with [] => fail | _ => rewrite (cnt_cons k l x) in H end
    end; lia.
Lemma nodup_app_l {A} (l l' : list A) : NoDup (l ++ l') -> NoDup l.
Proof. induction l as [|x l IH]; cbn [app]; intros H; [constructor|]. inversion H; subst. constructor; [rewrite in_app_iff in *; tauto|auto]. Qed.
Lemma nodup_app_r {A} (l l' : list A) : NoDup (l ++ l') -> NoDup l'.
Proof. induction l as [|x l IH]; cbn [app]; intros H; [exact H|]. inversion H; subst. auto. Qed.
Lemma bare_id id p : bare (set_packet_id id p) = bare p.
Proof. destruct p; reflexivity. Qed.
Lemma bare_dup p : bare (set_duplicate p) = bare p.
Proof. destruct p; reflexivity. Qed.
Lemma identity_eq o o' : op_uid o' = op_uid o -> op_owner o' = op_owner o -> bare (op_packet o') = bare (op_packet o) -> identity_of o' = identity_of o.
Proof. unfold identity_of. congruence. Qed.
Lemma identity_ufd o : identity_of (unacked_for_disconnect o) = identity_of o.
Proof. unfold unacked_for_disconnect. destruct (is_acked_publish (op_packet o)); apply identity_eq; try reflexivity; cbn [op_packet set_packet]; [apply bare_dup|apply bare_id]. Qed.
Lemma identity_cs inc una o s : identity_of (fst (change_statistics inc una o s)) = identity_of o.
Proof. apply identity_eq; [apply cs_uid|apply cs_owner|rewrite cs_packet; reflexivity]. Qed.
Lemma map_identity l l' : map op_packet l' = map op_packet l -> map op_uid l' = map op_uid l -> map op_owner l' = map op_owner l ->
  map identity_of l' = map identity_of l.
Proof.
  revert l'. induction l as [|o l IH]; intros [|o' l']; cbn [map]; try discriminate; intros H1 H2 H3; [reflexivity|].
  injection H1 as H1 H1'. injection H2 as H2 H2'. injection H3 as H3 H3'. f_equal; [|apply IH; assumption]. apply identity_eq; congruence.
Qed.
Lemma map_ufd l : map identity_of (map unacked_for_disconnect l) = map identity_of l.
Proof. rewrite map_map. apply map_ext. apply identity_ufd. Qed.

(** taking an operation out by identity *)
Lemma remove_op_none u l : ~ In u (map op_uid l) -> remove_op u l = l.
Proof.
  induction l as [|o l IH]; cbn [map In]; intros H; [reflexivity|]. unfold remove_op in *. cbn [filter]. unfold with_uid at 1.
  destruct (N.eqb_spec (op_uid o) u); [tauto|]. cbn [negb]. rewrite IH by tauto. reflexivity.
Qed.
Lemma remove_op_perm u l o : NoDup (map op_uid l) -> find_op u l = Some o -> Permutation l (o :: remove_op u l).
Proof.
  intros ND F. unfold find_op in F. induction l as [|x l IH]; cbn [find] in F; [discriminate|]. inversion ND; subst. unfold with_uid in F.
  unfold remove_op. cbn [filter]. unfold with_uid at 1. destruct (N.eqb_spec (op_uid x) u) as [E|E].
  - injection F as ->. cbn [negb]. subst u. fold (remove_op (op_uid o) l). rewrite remove_op_none by assumption. reflexivity.
  - cbn [negb]. fold (remove_op u l). rewrite perm_swap. constructor. apply IH; assumption.
Qed.
Lemma insert_puback_perm o l : Permutation (insert_puback o l) (o :: l).
Proof.
  induction l as [|x l IH]; cbn [insert_puback]; [reflexivity|]. destruct (is_puback (op_packet x) || is_pingreq (op_packet x)); [|reflexivity].
  rewrite perm_swap. constructor. exact IH.
Qed.

Section Flow.
Variable cf : config.
Variable now0 : N.
Notation prim := (prim cf).
Notation reach := (reach cf now0).

Definition held (g : ghost) (s : client) : list op :=
  g_hand g ++ queued s ++ match curop s with Some o => [o] | None => [] end ++ wc s ++ unacked s.
(** the operations there have been *)
Definition K (g : ghost) (s : client) : list identity := map identity_of (held g s) ++ map identity_of (finished (c_out s)).
Definition kuid (k : identity) : N := fst (fst k).
Definition kowner (k : identity) : owner := snd (fst k).
Definition kept g s g' s' : Prop := Permutation (K g' s') (K g s) /\ submitted (c_out s') = submitted (c_out s) /\ uid s' = uid s.
Definition added g s g' s' : Prop := exists o, Permutation (K g' s') (identity_of o :: K g s) /\ op_uid o = uid s /\ uid s' = uid s + 1 /\
  (op_owner o = BY_USER /\ submitted (c_out s') = o :: submitted (c_out s) \/ op_owner o <> BY_USER /\ is_request (op_packet o) = false /\ submitted (c_out s') = submitted (c_out s)).
Ltac kp := left; split; [unfold K, held|split; reflexivity].

Lemma nodup_part (l1 l2 l3 : list op) k : NoDup (map kuid (map identity_of (l1 ++ l2 ++ l3) ++ k)) -> NoDup (map op_uid l2).
Proof.
  rewrite map_app, map_map. intros H. apply nodup_app_l in H. rewrite !map_app in H. apply nodup_app_r, nodup_app_l in H. exact H.
Qed.
Lemma nodup_unacked g s : NoDup (map kuid (K g s)) -> NoDup (map op_uid (unacked s)).
Proof.
  unfold K, held. intros H. apply (nodup_part (g_hand g ++ queued s ++ match curop s with Some o => [o] | None => [] end ++ wc s) (unacked s) [] (map identity_of (finished (c_out s)))).
  rewrite app_nil_r, <- !app_assoc. exact H.
Qed.
Lemma nodup_held g s : NoDup (map kuid (K g s)) -> NoDup (map op_uid (held g s)).
Proof. unfold K. intros H. rewrite map_app, map_map in H. apply nodup_app_l in H. exact H. Qed.
Lemma prim_flow g s g' s' : ok s -> ok s' -> NoDup (map kuid (K g s)) -> prim (g, s) (g', s') -> kept g s g' s' \/ added g s g' s'.
Proof.
  intros Ok Ok' ND P. inversion P; subst; clear P; repeat match goal with H : ok _ -> _ |- _ => specialize (H Ok) end;
    try (left; split; [reflexivity|split; reflexivity]).
  - match goal with H : hush _ _ |- _ => destruct H as [H _]; apply core_inv in H as (E1 & E0 & E2 & E3 & E4 & E5 & E6 & E7 & E8 & E9 & E10 & E11 & E12 & E13 & E14 & E15) end.
    left. unfold kept, K, held. rewrite E2, E3, E4, E5, E9, E15. split; [reflexivity|split; reflexivity].
  - exfalso. exact (not_ok_crash _ _ Ok').
  - left. destruct x; try discriminate; (split; [reflexivity|split; reflexivity]).
  - left. destruct c; (split; [reflexivity|split; reflexivity]).
  - destruct (enqueue_eq p override s) as (o & x & -> & Ho & Hu & Hw & _). right. exists (op_new (uid s) BY_USER p override).
    split; [|split; [reflexivity|split; [reflexivity|left; split; reflexivity]]].
    assert (identity_of o = identity_of (op_new (uid s) BY_USER p override)) as <- by (apply identity_eq; [exact Hu|exact Hw|rewrite Ho; apply bare_id]).
    unfold K, held. nrm. unfold finished; cbn [flat_map app]. perm.
  - right. exists (op_new (uid s) BY_USER p override). split; [|split; [reflexivity|split; [reflexivity|left; split; reflexivity]]].
    unfold K, held, refuse. nrm. unfold finished; cbn [flat_map app]. perm.
  - right. exists (op_new (uid s) BY_CLIENT p 0). split; [|split; [reflexivity|split; [reflexivity|right; split; [discriminate|split; [|reflexivity]; try reflexivity]]]].
    { unfold K, held, push_front. nrm. perm. }
    match goal with H : match p with _ => _ end |- _ => destruct p; first [reflexivity|destruct H] end.
  - right. exists (op_new (uid s) BY_CLIENT (P_DISCONNECT v) 0). split; [|split; [reflexivity|split; [reflexivity|right; split; [discriminate|split; [|reflexivity]; try reflexivity]]]].
    unfold K, held, drop_new. nrm. unfold finished; cbn [flat_map app]. perm.
  - right. exists (op_new (uid s) BY_USER (P_DISCONNECT v) 0). split; [|split; [reflexivity|split; [reflexivity|left; split; reflexivity]]].
    unfold K, held, push_disconnect. nrm. unfold finished; cbn [flat_map app]. perm.
  - right. exists (op_new (uid s) BY_USER (P_DISCONNECT v) 0). split; [|split; [reflexivity|split; [reflexivity|left; split; reflexivity]]].
    unfold K, held, drop_disconnect. nrm. unfold finished; cbn [flat_map app]. perm.
  - destruct (publish_received_eq acquire v s) as (m & c & [(_ & -> & _)|[(_ & _ & ->)|(_ & _ & _ & ->)]] & _); try (left; split; [reflexivity|split; reflexivity]).
    right. exists (op_new (uid s) BY_CLIENT (P_PUBACK (mkpuback (pb_packet_id v) 0 None [])) 0). split; [|split; [reflexivity|split; [reflexivity|right; split; [discriminate|split; [|reflexivity]; try reflexivity]]]].
    unfold K, held, puback_core. nrm. unfold finished; cbn [flat_map app].
    match goal with |- context [insert_puback ?a ?b] => pose proof (Permutation_map identity_of (insert_puback_perm a b)) as Hp end. perm.
  - destruct (manual_core_eq control s) as (m & x & -> & [(id & _ & _ & ->)|(_ & r & -> & _)]); [|left; split; [reflexivity|split; reflexivity]].
    right. exists (op_new (uid s) (BY_ACK control) (P_PUBACK (mkpuback id 0 None [])) 0). split; [|split; [reflexivity|split; [reflexivity|right; split; [discriminate|split; [|reflexivity]; try reflexivity]]]].
    unfold K, held, puback_core. nrm. unfold finished; cbn [flat_map app].
    match goal with |- context [insert_puback ?a ?b] => pose proof (Permutation_map identity_of (insert_puback_perm a b)) as Hp end. perm.
  - left. unfold reset_manual. destruct (mc s); (split; [reflexivity|split; reflexivity]).
  - kp. nrm. cbn [g_hand with_hand]. match goal with H : _ = o :: q |- _ => rewrite H end. perm.
  - match goal with H : Permutation _ _ /\ _ |- _ => destruct H as [Hp _]; apply (Permutation_map identity_of) in Hp end.
    kp. nrm. cbn [g_hand with_hand]. perm.
  - kp. nrm. cbn [g_hand with_hand]. perm.
  - match goal with H : Permutation _ _ |- _ => apply (Permutation_map identity_of) in H; rewrite map_ufd in H end.
    kp. nrm. cbn [g_hand with_hand]. perm.
  - kp. nrm. cbn [g_hand with_hand]. perm.
  - pose proof (Permutation_map identity_of (remove_op_perm _ _ _ (nodup_unacked _ _ ND) H4)) as Hp. kp. nrm. cbn [g_hand with_hand]. perm.
  - pose proof (Permutation_map identity_of (remove_op_perm _ _ _ (nodup_unacked _ _ ND) H4)) as Hp. kp. nrm. cbn [g_hand with_hand]. perm.
  - destruct (cs_shape inc una o s) as [x Hx]. rewrite Hx. pose proof (identity_cs inc una o s) as Hi.
    generalize dependent (fst (change_statistics inc una o s)). intros o1 Hi. kp. change (g_hand (with_hand ?a ?b)) with a.
    match goal with H : g_hand g = _ |- _ => rewrite H end. nrm. rewrite !map_app. cbn [map]. rewrite Hi. perm.
  - kp. change (g_hand (with_hand ?a ?b)) with a. match goal with H : g_hand g = _ |- _ => rewrite H end. nrm. unfold finished; cbn [flat_map app]. perm.
  - kp. change (curop (set_curop ?a ?b)) with a. match goal with H : curop s = _ |- _ => rewrite H end. nrm. perm.
  - pose proof (Permutation_map identity_of (perm_filter (fun o => is_acked_publish (op_packet o)) (unacked s))) as Hp. kp. nrm. perm.
  - match goal with H : _ /\ _ |- _ => destruct H as (_ & _ & Hh & _) end.
    pose proof (Permutation_map identity_of (perm_filter (fails_policy cf) (unacked s))) as Hp. kp. rewrite Hh. nrm. cbn [g_hand with_hand]. perm.
  - destruct (incomplete_eq s) as (l & x & -> & H1' & H2' & H3' & _). pose proof (map_identity _ _ H1' H2' H3') as Hi. kp.
    change (queued (set_queued l ?y)) with l. rewrite !map_app, Hi. reflexivity.
  - match goal with H : curop s = None /\ _ |- _ => destruct H as (Hc & _) end. match goal with H : bind_packet_id _ _ = _ |- _ => apply bind_eq in H as Hb; clear H end.
    assert (identity_of o' = identity_of o /\ queued s1 = q /\ wc s1 = wc s /\ unacked s1 = unacked s /\ c_out s1 = c_out s /\ uid s1 = uid s) as (E1 & E2 & E3 & E4 & E5 & E6).
    { destruct Hb as [(-> & -> & _)|(id & _ & _ & -> & ->)]; repeat split. apply identity_eq; try reflexivity. cbn [op_packet set_packet]. apply bare_id. }
    left. unfold kept, K, held. change (uid (set_curop (Some o') (set_c_enc e s1))) with (uid s1).
    change (queued (set_curop (Some o') (set_c_enc e s1))) with (queued s1). change (wc (set_curop (Some o') (set_c_enc e s1))) with (wc s1).
    change (unacked (set_curop (Some o') (set_c_enc e s1))) with (unacked s1). change (c_out (set_curop (Some o') (set_c_enc e s1))) with (c_out s1).
    change (curop (set_curop (Some o') (set_c_enc e s1))) with (Some o'). rewrite E2, E3, E4, E5, E6, Hc.
    match goal with H : queued s = _ |- _ => rewrite H end. split; [|split; reflexivity]. rewrite !map_app. cbn [map]. rewrite E1. perm.
  - kp. match goal with H : queued s = _ |- _ => rewrite H end. nrm. unfold finished; cbn [g_hand with_hand with_buf with_link flat_map app]. perm.
  - match goal with H : curop s = None /\ _ |- _ => destruct H as (Hc & _) end. match goal with H : bind_packet_id _ _ = _ |- _ => apply bind_eq in H as Hb; clear H end.
    assert (identity_of o' = identity_of o /\ queued s1 = q /\ wc s1 = wc s /\ unacked s1 = unacked s /\ c_out s1 = c_out s /\ uid s1 = uid s /\ curop s1 = curop s) as (E1 & E2 & E3 & E4 & E5 & E6 & E7).
    { destruct Hb as [(-> & -> & _)|(id & _ & _ & -> & ->)]; repeat split. apply identity_eq; try reflexivity. cbn [op_packet set_packet]. apply bare_id. }
    left. unfold kept, K, held. change (uid (emit ?a (set_c_enc e s1))) with (uid s1).
    change (queued (emit ?a (set_c_enc e s1))) with (queued s1). change (wc (emit ?a (set_c_enc e s1))) with (wc s1).
    change (unacked (emit ?a (set_c_enc e s1))) with (unacked s1). change (c_out (emit ?a (set_c_enc e s1))) with (a :: c_out s1).
    change (curop (emit ?a (set_c_enc e s1))) with (curop s1). rewrite E2, E3, E4, E5, E6, E7.
    match goal with H : queued s = _ |- _ => rewrite H end. split; [|split; reflexivity]. rewrite !map_app. unfold finished; cbn [map g_hand with_buf with_link flat_map app]. rewrite E1. perm.
  - match goal with H : _ /\ _ |- _ => destruct H as (Hk & Hcl & He & Hs & Hck & Ht & Hi) end. match goal with H : curop s = _ |- _ => rename H into Hc end.
    pose proof (finish_eq cf now o s Ht Hi) as F. cbv zeta in F. destruct (requires_ack (op_packet o)).
    + destruct F as (o' & x & -> & (Ho & Hu & Hw & _) & _). assert (identity_of o' = identity_of o) as Hio by (apply identity_eq; congruence).
      set (s1 := if is_acked_publish (op_packet o) then set_tokens (tokens s - 1) s else s).
      assert (queued s1 = queued s /\ wc s1 = wc s /\ c_out s1 = c_out s /\ uid s1 = uid s) as (E2 & E3 & E5 & E6) by (unfold s1; destruct (is_acked_publish (op_packet o)); repeat split).
      left. unfold kept, K, held. match goal with |- context [emit ?a (set_curop None (set_unacked ?u ?y))] => 
        change (uid (emit a (set_curop None (set_unacked u y)))) with (uid s1); change (queued (emit a (set_curop None (set_unacked u y)))) with (queued s1);
        change (wc (emit a (set_curop None (set_unacked u y)))) with (wc s1); change (c_out (emit a (set_curop None (set_unacked u y)))) with (a :: c_out s1);
        change (curop (emit a (set_curop None (set_unacked u y)))) with (@None op); change (unacked (emit a (set_curop None (set_unacked u y)))) with u end.
      rewrite E2, E3, E5, E6, Hc. split; [|split; reflexivity]. rewrite !map_app. unfold finished; cbn [map flat_map app]. rewrite Hio. perm.
    + destruct F as (x & ->). kp. rewrite Hc. nrm. unfold finished; cbn [flat_map app]. perm.
Qed.


(** ** Every operation there has been is held or finished with, once *)
Definition user_made (k : identity) : bool := match kowner k with BY_USER => true | _ => false end.
Definition J1 (x : ghost * client) : Prop := let '(g, s) := x in
  NoDup (map kuid (K g s)) /\ Forall (fun k => kuid k < uid s) (K g s) /\
  Permutation (filter user_made (K g s)) (map identity_of (submitted (c_out s))).
Lemma perm_filter_map (f : identity -> bool) l l' : Permutation l l' -> Permutation (filter f l) (filter f l').
Proof.
  induction 1; cbn [filter]; [constructor| | |etransitivity; eassumption].
  - destruct (f x); [constructor|]; assumption.
  - destruct (f x), (f y); try reflexivity. constructor.
Qed.
Lemma reach_J1 g s : reach (g, s) -> ok s -> J1 (g, s).
Proof.
  intros R Ok. refine (reach_inv cf now0 J1 _ (fun s now _ _ J => J) _ (g, s) R Ok).
  - split; [constructor|split; [constructor|reflexivity]].
  - clear. intros g s g' s' R Ok Ok' (J1a & J1b & J1c) P. destruct (prim_flow _ _ _ _ Ok Ok' J1a P) as [(Hp & Hs & Hu)|(o & Hp & Hu & Hu' & Hs)].
    + split; [|split].
      * eapply Permutation_NoDup; [apply Permutation_map; symmetry; exact Hp|exact J1a].
      * rewrite Hu. eapply Permutation_Forall; [symmetry; exact Hp|exact J1b].
      * rewrite Hs, <- J1c. apply perm_filter_map, Hp.
    + split; [|split].
      * eapply Permutation_NoDup; [apply Permutation_map; symmetry; exact Hp|]. cbn [map]. constructor; [|exact J1a].
        intros Hin. apply in_map_iff in Hin as (k & E & Hk). rewrite Forall_forall in J1b. specialize (J1b _ Hk). cbn in E. lia.
      * rewrite Hu'. eapply Permutation_Forall; [symmetry; exact Hp|]. constructor; [cbn; lia|]. eapply Forall_impl; [|exact J1b]. intros k. cbv beta. lia.
      * rewrite (perm_filter_map user_made _ _ Hp). cbn [filter]. unfold user_made at 1, kowner. cbn [identity_of fst snd].
        destruct Hs as [[E ->]|(E & _ & ->)]; [rewrite E; cbn [map]; constructor; exact J1c|]. destruct (op_owner o); [contradiction| |]; exact J1c.
Qed.

(** ** The update that produced an entry of the trace *)
Inductive move : ghost * client -> ghost * client -> Prop :=
| M_tick s now : move (g_idle, s) (g_idle, emit (I_TICK now) s)
| M_prim x y : prim x y -> move x y.
Definition produced (x : list out) (ev : out) (y : list out) : Prop :=
  exists g1 s1 g2 s2 d1 d2 x', reach (g1, s1) /\ ok s1 /\ move (g1, s1) (g2, s2) /\ ok s2 /\ reach (g2, s2) /\
    c_out s2 = d1 ++ ev :: d2 ++ c_out s1 /\ y = d2 ++ c_out s1 /\ x = x' ++ d1.
Lemma split_point {A} (d : list A) ev y l : forall x, d ++ l = x ++ ev :: y ->
  (exists x1, x = d ++ x1 /\ l = x1 ++ ev :: y) \/ (exists d2, d = x ++ ev :: d2 /\ y = d2 ++ l).
Proof.
  induction d as [|z d IH]; cbn [app]; intros x E; [left; exists x; auto|].
  destruct x as [|z' x]; cbn [app] in E; injection E as -> E; [right; exists d; split; [reflexivity|symmetry; exact E]|].
  destruct (IH _ E) as [(x1 & -> & H)|(d2 & -> & ->)]; [left; exists x1|right; exists d2]; auto.
Qed.
Lemma produced_more d x ev y : produced x ev y -> produced (d ++ x) ev y.
Proof.
  intros (ga & sa & gb & sb & d1 & d2 & x' & H1 & H2 & H3 & H4 & H5 & H6 & H7 & ->).
  exists ga, sa, gb, sb, d1, d2, (d ++ x'). rewrite app_assoc. repeat (split; [assumption|]). reflexivity.
Qed.
Lemma event_point g s x ev y : reach (g, s) -> ok s -> c_out s = x ++ ev :: y -> produced x ev y.
Proof.
  intros R Ok E. change s with (snd (g, s)) in Ok, E. revert x y Ok E. generalize dependent (g, s). clear g s.
  induction 1 as [|s now R IH|[g1 s1] [g2 s2] R IH P]; intros x y Ok E; cbn [snd] in *.
  - destruct x; discriminate E.
  - change (c_out (emit (I_TICK now) s)) with ([I_TICK now] ++ c_out s) in E.
    apply split_point in E as [(x1 & -> & E)|(d2 & E1 & ->)]; [apply produced_more, IH; assumption|].
    assert (x = [] /\ ev = I_TICK now /\ d2 = []) as (-> & -> & ->).
    { destruct x as [|z [|? ?]]; [|discriminate E1|discriminate E1]. injection E1 as <- <-. auto. }
    exists g_idle, s, g_idle, (emit (I_TICK now) s), [], [], []. repeat (split; [first [assumption|constructor; assumption|reflexivity]|]). reflexivity.
  - destruct (prim_base cf _ _ _ _ P (reach_rl cf now0 (g1, s1) R)) as [_ Ok1]. specialize (Ok1 Ok).
    destruct (prim_trace cf _ _ _ _ P) as (d & Hd & _). rewrite Hd in E.
    apply split_point in E as [(x1 & -> & E)|(d2 & -> & ->)]; [apply produced_more, IH; assumption|].
    exists g1, s1, g2, s2, x, d2, []. split; [exact R|]. split; [exact Ok1|]. split; [apply M_prim; exact P|]. split; [exact Ok|].
    split; [eapply reach_prim; eassumption|]. split; [rewrite Hd, <- app_assoc; reflexivity|]. split; reflexivity.
Qed.

(** what each kind of entry means; [d1] and [d2] are the entries made by the same update after and before it *)
Inductive cause : out -> list out -> list out -> ghost -> client -> ghost -> client -> Prop :=
| C_tick s now : cause (I_TICK now) [] [] g_idle s g_idle (emit (I_TICK now) s)
| C_neutral g s x t : neutral x = true -> heard x s t -> cause x [] [] g s g (emit x (set_c_tim t s))
| C_failure g s e v : life s = LS_CONNECTING -> cause (O_LIFE (CONNECTION_FAILURE e v)) [] [] g s g (emit (O_LIFE (CONNECTION_FAILURE e v)) (set_life LS_NONE s))
| C_disconnection g s e v : life s = LS_CONNECTED -> cause (O_LIFE (DISCONNECTION e v)) [] [] g s g (emit (O_LIFE (DISCONNECTION e v)) (set_life LS_NONE s))
| C_attempt g s : current s = STOPPED \/ current s = PENDING_RECONNECT -> life s = LS_NONE -> g_link g = FINE -> g_hand g = [] ->
    (current s = PENDING_RECONNECT -> exists now, clock (c_out s) = Some now /\ reconnect_at s <= now) ->
    cause (O_LIFE ATTEMPTING_CONNECT) [] [] g s g (emit (O_LIFE ATTEMPTING_CONNECT) (set_life LS_CONNECTING (set_current CONNECTING s)))
| C_success g s v : startable s -> current s = CONNECTED -> g_link g = ACKED v -> fresh s ->
    cause (O_LIFE (CONNECTION_SUCCESS (c_neg s) v)) [] [] g s (with_link FINE g) (emit (O_LIFE (CONNECTION_SUCCESS (c_neg s) v)) (set_life LS_CONNECTED s))
| C_stopped g s : current s = STOPPED -> life s = LS_NONE -> nothing_held s -> g_hand g = [] ->
    cause (O_LIFE STOPPED_EVENT) [] [] g s g (emit (O_LIFE STOPPED_EVENT) s)
| C_terminated g s : current s = TERMINATED -> nothing_held s -> g_hand g = [] -> cause O_TERMINATED [] [] g s g (emit O_TERMINATED s)
| C_write g s : sending (current s) = true -> g_link g = FINE -> cause (O_WRITE (g_buf g)) [] [] g s (with_buf [] g) (emit (O_WRITE (g_buf g)) s)
| C_enqueue g s p override : is_request p = true -> validate_packet p = true -> (current s = CONNECTED /\ life s = LS_CONNECTED \/ satisfies_policy cf p = true) ->
    cause (I_SUBMIT (op_new (uid s) BY_USER p override)) [] [] g s g (enqueue p override s)
| C_refuse_in g s p override e : is_request p = true -> validate_packet p = true ->
    (e = K_CLIENT_TERMINATED \/ e = K_OFFLINE_QUEUE_POLICY /\ current s <> CONNECTED /\ satisfies_policy cf p = false) ->
    cause (I_SUBMIT (op_new (uid s) BY_USER p override)) [O_DONE (op_new (uid s) BY_USER p override) e None] [] g s g (refuse p override e s)
| C_refuse g s p override e : is_request p = true -> validate_packet p = true ->
    (e = K_CLIENT_TERMINATED \/ e = K_OFFLINE_QUEUE_POLICY /\ current s <> CONNECTED /\ satisfies_policy cf p = false) ->
    cause (O_DONE (op_new (uid s) BY_USER p override) e None) [] [I_SUBMIT (op_new (uid s) BY_USER p override)] g s g (refuse p override e s)
| C_drop_new g s v : cause (O_LOST (op_new (uid s) BY_CLIENT (P_DISCONNECT v) 0)) [] [] g s g (drop_new (P_DISCONNECT v) s)
| C_push_disconnect g s v : validate_disconnect v = true -> current s = CLEAN_DISCONNECT ->
    cause (I_SUBMIT (op_new (uid s) BY_USER (P_DISCONNECT v) 0)) [] [] g s g (push_disconnect v s)
| C_drop_disconnect_in g s v : validate_disconnect v = true ->
    cause (I_SUBMIT (op_new (uid s) BY_USER (P_DISCONNECT v) 0)) [O_LOST (op_new (uid s) BY_USER (P_DISCONNECT v) 0)] [] g s g (drop_disconnect v s)
| C_drop_disconnect g s v : validate_disconnect v = true ->
    cause (O_LOST (op_new (uid s) BY_USER (P_DISCONNECT v) 0)) [] [I_SUBMIT (op_new (uid s) BY_USER (P_DISCONNECT v) 0)] g s g (drop_disconnect v s)
| C_publish g s acquire v control m : g_link g = FINE -> (current s = CONNECTED \/ current s = CLEAN_DISCONNECT) ->
    (m, control) = (if acquire && negb (pb_qos v =? 0) then
      match lookup (pb_packet_id v) (mp s) with
      | Some c => (c_man s, Some c)
      | None => (mkman (put (pb_packet_id v) (next_ctl s) (mp s)) (put (next_ctl s) (pb_packet_id v) (mc s)) (mx s) (u64 (next_ctl s + 1)), Some (next_ctl s))
      end else (c_man s, None)) ->
    cause (O_PUBLISH v control) [] [I_PACKET (P_PUBLISH v)] g s g (publish_received acquire v s)
| C_publish_in g s acquire v control : g_link g = FINE -> (current s = CONNECTED \/ current s = CLEAN_DISCONNECT) ->
    cause (I_PACKET (P_PUBLISH v)) [O_PUBLISH v control] [] g s g (publish_received acquire v s)
| C_manual_in g s control d : g_link g = FINE -> cause (I_ACK control) d [] g s g (manual_core control s)
| C_manual g s control r : g_link g = FINE -> lookup control (mc s) = None -> r = (if existsb (N.eqb control) (mx s) then MPAR_CANCELLED else MPAR_INVALID) ->
    cause (O_ACK_RESULT control r) [] [I_ACK control] g s g (manual_core control s)
| C_done g s o h e ack : g_hand g = o :: h -> not_in_pq (op_uid o) s -> settled o -> may_finish cf s o e ack ->
    cause (O_DONE o e ack) [] [] g s (with_hand h g) (emit (O_DONE o e ack) s)
| C_start_fails g s o q : queued s = o :: q -> curop s = None -> g_clearing g = false -> validate_operation cf (op_packet o) s = true -> bind_packet_id o (set_queued q s) = None ->
    cause (O_LOST o) [] [] g s (with_buf [] (with_link DEAD g)) (emit (O_LOST o) (set_queued q s))
| C_append_fails g s o q o' s1 e x : queued s = o :: q -> curop s = None -> g_clearing g = false -> validate_operation cf (op_packet o) s = true -> bind_packet_id o (set_queued q s) = Some (o', s1) ->
    append_packet (c_enc s1) (op_packet o') = (e, A_FAILED x) ->
    cause (O_LOST o') [] [] g s (with_buf [] (with_link DEAD g)) (emit (O_LOST o') (set_c_enc e s1))
| C_sent g s o now : curop s = Some o -> g_link g = FINE -> g_clearing g = false -> enc_steps (c_enc s) = [] -> sending (current s) = true ->
    clock (c_out s) = Some now -> (is_acked_publish (op_packet o) = true -> 0 < tokens s) -> (requires_ack (op_packet o) = true -> packet_id (op_packet o) <> 0) -> g_hand g = [] ->
    cause (O_SENT o) [] [] g s g (finish_operation cf now o s)
| C_puback g s a : current s = CONNECTED \/ current s = CLEAN_DISCONNECT ->
    cause (I_PACKET (P_PUBACK a)) [] [] g s g (puback_received a s).

Lemma delta0 {A} (d1 : list A) ev d2 l : l = d1 ++ ev :: d2 ++ l -> False.
Proof. intros E. apply (f_equal (@length A)) in E. rewrite app_length in E. cbn [length] in E. rewrite app_length in E. lia. Qed.
Lemma delta1 {A} (d1 : list A) ev d2 a l : a :: l = d1 ++ ev :: d2 ++ l -> d1 = [] /\ ev = a /\ d2 = [].
Proof.
  destruct d1 as [|x d1]; cbn [app]; intros E; injection E as E1 E2; [|apply delta0 in E2; contradiction]. split; [reflexivity|]. split; [congruence|].
  destruct d2 as [|y d2]; [reflexivity|]. exfalso. apply (delta0 [] y d2 l). exact E2.
Qed.
Lemma delta2 {A} (d1 : list A) ev d2 a b l : a :: b :: l = d1 ++ ev :: d2 ++ l -> (d1 = [] /\ ev = a /\ d2 = [b]) \/ (d1 = [a] /\ ev = b /\ d2 = []).
Proof.
  destruct d1 as [|x d1]; cbn [app]; intros E; injection E as E1 E2.
  - left. split; [reflexivity|]. split; [congruence|]. destruct d2 as [|y d2]; cbn [app] in E2.
    + exfalso. apply (f_equal (@length A)) in E2. cbn in E2. lia.
    + injection E2 as <- E2. f_equal. destruct d2 as [|y d2]; [reflexivity|]. exfalso. apply (delta0 [] y d2 l). exact E2.
  - right. apply delta1 in E2 as (-> & -> & ->). subst. auto.
Qed.
Lemma prim_cause g s g' s' d1 ev d2 : ok s -> ok s' -> prim (g, s) (g', s') -> c_out s' = d1 ++ ev :: d2 ++ c_out s -> cause ev d1 d2 g s g' s'.
Proof.
  intros Ok Ok' P E. inversion P; subst; clear P; repeat match goal with H : ok s -> _ |- _ => specialize (H Ok) end;
    try (exfalso; exact (delta0 _ _ _ _ E));
    try (apply delta1 in E as (-> & -> & ->); repeat match goal with H : _ /\ _ |- _ => destruct H end; econstructor; eassumption).
  - exfalso. match goal with H : hush _ _ |- _ => destruct H as [H _]; apply core_inv in H end. assert (c_out s' = c_out s) as E' by tauto. rewrite E' in E. exact (delta0 _ _ _ _ E).
  - exfalso. exact (not_ok_crash _ _ Ok').
  - destruct (enqueue_eq p override s) as (o & x & Hx & _). rewrite Hx in E. apply delta1 in E as (-> & -> & ->). destruct H0 as (? & ? & ?). constructor; assumption.
  - destruct H0 as (? & ? & ?). apply delta2 in E as [(-> & -> & ->)|(-> & -> & ->)]; constructor; assumption.
  - apply delta2 in E as [(-> & -> & ->)|(-> & -> & ->)]; constructor; assumption.
  - destruct (publish_received_eq acquire v s) as (m & c & [(_ & Hx & _)|[(_ & _ & Hx)|(_ & _ & _ & Hx)]] & Hm); rewrite Hx in E;
      apply delta2 in E as [(-> & -> & ->)|(-> & -> & ->)]; econstructor; eassumption.
  - pose proof E as E0. unfold manual_core in E. change (mc (emit ?a s)) with (mc s) in E. change (mx (emit ?a s)) with (mx s) in E.
    destruct (lookup control (mc s)) eqn:L; [apply delta1 in E as (-> & -> & ->); constructor; assumption|].
    destruct (existsb (N.eqb control) (mx s)) eqn:X; apply delta2 in E as [(-> & -> & ->)|(-> & -> & ->)]; constructor; rewrite ?X; auto.
  - exfalso. unfold reset_manual in E. destruct (mc s); exact (delta0 _ _ _ _ E).
  - exfalso. destruct (cs_shape inc una o s) as [x Hx]. rewrite Hx in E. exact (delta0 _ _ _ _ E).
  - exfalso. destruct (incomplete_eq s) as (l & x & Hx & _). rewrite Hx in E. exact (delta0 _ _ _ _ E).
  - exfalso. match goal with H : bind_packet_id _ _ = _ |- _ => apply bind_eq in H as [(-> & -> & _)|(id & _ & _ & -> & ->)] end; exact (delta0 _ _ _ _ E).
  - match goal with H : bind_packet_id _ _ = _ |- _ => pose proof (bind_eq _ _ _ _ H) as Hb end.
    assert (c_out s1 = c_out s) as E1 by (destruct Hb as [(-> & -> & _)|(id & _ & _ & -> & ->)]; reflexivity).
    change (c_out (emit ?a (set_c_enc ?b s1))) with (a :: c_out s1) in E. rewrite E1 in E. apply delta1 in E as (-> & -> & ->).
    match goal with H : curop s = None /\ _ |- _ => destruct H as (? & ? & ?) end. econstructor; eassumption.
  - rewrite finish_out in E. apply delta1 in E as (-> & -> & ->). repeat match goal with H : _ /\ _ |- _ => destruct H end. constructor; assumption.
Qed.
Lemma event_cause g s x ev y : reach (g, s) -> ok s -> c_out s = x ++ ev :: y ->
  exists g1 s1 g2 s2 d1 d2 x', reach (g1, s1) /\ ok s1 /\ reach (g2, s2) /\ ok s2 /\ cause ev d1 d2 g1 s1 g2 s2 /\
    c_out s2 = d1 ++ ev :: d2 ++ c_out s1 /\ y = d2 ++ c_out s1 /\ x = x' ++ d1.
Proof.
  intros R Ok E. destruct (event_point _ _ _ _ _ R Ok E) as (g1 & s1 & g2 & s2 & d1 & d2 & x' & H1 & H2 & H3 & H4 & H5 & H6 & H7 & H8).
  exists g1, s1, g2, s2, d1, d2, x'. repeat (split; [assumption|]). split; [|auto].
  inversion H3; subst; [|eapply prim_cause; eassumption]. change (c_out (emit ?a s1)) with (a :: c_out s1) in H6. apply delta1 in H6 as (-> & -> & ->). constructor.
Qed.
End Flow.
