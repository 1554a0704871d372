(** The acknowledgements the client owes the server, and the handles given to users who acknowledge themselves. *)
From Verif Require Import Base BaseLemmas Mqtt5_Views TopicAlias_Model Encoder5_Model Decoder5_Model RateLimiter_Model RateLimiter_Spec
  RateLimiter_Proofs Validate5_Model Negotiated_Model Client5_State Client5_Model Client5_Steps Client5_Decomp Client5_Decomp2 Client5_Forms Client5_Decomp3
  Client5_Inv0 Client5_Spec Client5_Flow Client5_Safety Client5_Decomp4 Client5_Ops Client5_Crash Client5_Conn Client5_Events Client5_Ids Client5_Stats Client5_Order.
From Coq Require Import Permutation.
Ltac Zify.zify_post_hook ::= idtac.

Lemma fit_app d l : acks_fit (d ++ l) -> acks_fit l.
Proof. intros [H1 H2]. split; [intros n v H; apply (H1 n v), in_or_app; right; exact H|]. rewrite app_length in H2. lia. Qed.

(** ** Tables *)
Lemma nodup_key (l : list (N * N)) k a b : NoDup (map fst l) -> In (k, a) l -> In (k, b) l -> a = b.
Proof.
  induction l as [|[k' c] l IH]; [intros _ []|]. cbn [map fst]. intros Hn Ha Hb. inversion Hn as [|? ? Hi Hn']; subst.
  destruct Ha as [Ha|Ha]; destruct Hb as [Hb|Hb]; [congruence| | |exact (IH Hn' Ha Hb)].
  - injection Ha as -> ->. exfalso. apply Hi. apply (in_map fst) in Hb. exact Hb.
  - injection Hb as -> ->. exfalso. apply Hi. apply (in_map fst) in Ha. exact Ha.
Qed.
Lemma remove_key_sub k l : sub (map fst (remove_key k l)) (map fst l).
Proof. apply sub_map. unfold remove_key. induction l as [|x l IH]; cbn [filter]; [constructor|]. destruct (negb _); constructor; exact IH. Qed.
Lemma sub_in {A} (l l' : list A) x : sub l l' -> In x l -> In x l'.
Proof. induction 1; cbn [In]; intuition auto. Qed.
Lemma sub_nodup {A} (l l' : list A) : sub l l' -> NoDup l' -> NoDup l.
Proof. induction 1 as [|x l l' S IH|x l l' S IH]; intros H; [constructor| |]; inversion H; subst; auto. constructor; auto. intros Hi. eapply sub_in in Hi; [|exact S]. contradiction. Qed.
Lemma remove_key_none k l : lookup k l = None -> remove_key k l = l.
Proof.
  intros H. unfold remove_key. apply filter_all. rewrite Forall_forall. intros [k' u] Hi. cbn [fst]. destruct (N.eqb_spec k' k); [|reflexivity]. subst. exfalso. exact (lookup_none_in _ _ _ H Hi).
Qed.
Lemma in_lookup k l u : NoDup (map fst l) -> In (k, u) l -> lookup k l = Some u.
Proof.
  intros Hn H. destruct (lookup k l) as [u'|] eqn:L; [|exfalso; exact (lookup_none_in _ _ _ L H)]. apply lookup_in in L. f_equal. eapply nodup_key; eassumption.
Qed.

(** ** Handles *)
Definition man_inv (m : man) (l : list out) : Prop :=
  1 <= mn_next_ctl m /\ mn_next_ctl m <= 1 + N.of_nat (length l) /\
  NoDup (map fst (mn_mc m)) /\ NoDup (map fst (mn_mp m)) /\ (forall c id, In (c, id) (mn_mc m) <-> In (id, c) (mn_mp m)) /\
  (forall c, handle_of c l <> UNKNOWN -> 1 <= c < mn_next_ctl m) /\
  (forall c id, In (c, id) (mn_mc m) -> handle_of c l = OPEN id /\ ~ In c (mn_mx m)) /\
  (forall c, In c (mn_mx m) -> exists id, handle_of c l = OPEN id) /\
  (forall c id, handle_of c l = OPEN id -> In (c, id) (mn_mc m) \/ In c (mn_mx m)).
Definition handless (x : out) : Prop := match x with O_PUBLISH _ (Some _) | I_ACK _ => False | _ => True end.
Lemma handless_of c d l : Forall handless d -> handle_of c (d ++ l) = handle_of c l.
Proof. induction 1 as [|x d Hx _ IH]; [reflexivity|]. cbn [app]. destruct x as [| | | | | | | |v [?|]| | | | |]; try contradiction; exact IH. Qed.
Lemma man_eq m l l' : man_inv m l -> (forall c, handle_of c l' = handle_of c l) -> (length l <= length l')%nat -> man_inv m l'.
Proof.
  intros (A1 & A2 & A3 & A4 & A5 & A6 & A7 & A8 & A9) Hh Hl. unfold man_inv. split; [exact A1|]. split; [lia|]. split; [exact A3|]. split; [exact A4|]. split; [exact A5|].
  split; [intros c; rewrite Hh; apply A6|]. split; [intros c id; rewrite Hh; apply A7|]. split; [intros c; rewrite Hh; apply A8|]. intros c id; rewrite Hh; apply A9.
Qed.
Lemma man_same m d l : man_inv m l -> Forall handless d -> man_inv m (d ++ l).
Proof. intros J Hd. apply (man_eq _ _ _ J); [intros c; apply handless_of, Hd|]. rewrite app_length. lia. Qed.
Lemma man_reset s l : man_inv (c_man s) l -> man_inv (c_man (reset_manual s)) l.
Proof.
  intros J. unfold reset_manual. destruct (mc s) as [|e r] eqn:E; [exact J|]. destruct J as (A1 & A2 & A3 & A4 & A5 & A6 & A7 & A8 & A9).
  rewrite <- E. unfold man_inv. change (mn_mc (c_man (set_mc [] ?b))) with (@nil (N * N)). change (mn_mp (c_man (set_mc [] (set_mx ?a (set_mp [] s))))) with (@nil (N * N)).
  change (mn_mx (c_man (set_mc [] (set_mx ?a ?b)))) with a. change (mn_next_ctl (c_man (set_mc ?x (set_mx ?a (set_mp ?y s))))) with (mn_next_ctl (c_man s)).
  split; [exact A1|]. split; [exact A2|]. split; [constructor|]. split; [constructor|]. split; [cbn [In]; tauto|]. split; [exact A6|]. split; [cbn [In]; tauto|]. split.
  - intros c. rewrite in_app_iff, in_map_iff. intros [([c' id] & <- & H)|H]; [exists id; apply (A7 _ _ H)|auto].
  - intros c id H. right. apply in_or_app. destruct (A9 _ _ H) as [H1|H1]; [left; apply (in_map fst) in H1; exact H1|right; exact H1].
Qed.
Lemma open_inj a b : OPEN a = OPEN b -> a = b. Proof. congruence. Qed.
Lemma man_publish acquire v s l : man_inv (c_man s) l -> N.of_nat (length l) < two64 - 2 ->
  forall m control, (m, control) = (if acquire && negb (pb_qos v =? 0) then
      match lookup (pb_packet_id v) (mp s) with
      | Some c => (c_man s, Some c)
      | None => (mkman (put (pb_packet_id v) (next_ctl s) (mp s)) (put (next_ctl s) (pb_packet_id v) (mc s)) (mx s) (u64 (next_ctl s + 1)), Some (next_ctl s))
      end else (c_man s, None)) ->
  man_inv m (O_PUBLISH v control :: l) /\
  (acquire && negb (pb_qos v =? 0) = true -> lookup (pb_packet_id v) (mp s) = None -> mn_mc m = (next_ctl s, pb_packet_id v) :: mc s /\ handle_of (next_ctl s) l = UNKNOWN).
Proof.
  intros J Hs m control E. destruct (acquire && negb (pb_qos v =? 0)).
  2:{ injection E as -> ->. split; [|discriminate]. apply (man_same _ [_]); [exact J|constructor; [exact I|constructor]]. }
  pose proof J as (A1 & A2 & A3 & A4 & A5 & A6 & A7 & A8 & A9). set (id := pb_packet_id v) in *.
  destruct (lookup id (mp s)) as [c|] eqn:L; injection E as -> ->.
  - split; [|discriminate]. apply lookup_in in L. change (mp s) with (mn_mp (c_man s)) in L. rewrite <- A5 in L. destruct (A7 _ _ L) as [Hc Hx].
    assert (forall c', handle_of c' (O_PUBLISH v (Some c) :: l) = handle_of c' l) as Hh.
    { intros c'. cbn [handle_of]. fold id. destruct (N.eqb_spec c c'); [subst c'; symmetry; exact Hc|reflexivity]. }
    apply (man_eq _ _ _ J Hh). cbn [length]. lia.
  - set (c := next_ctl s) in *. change (mn_next_ctl (c_man s)) with c in *. change (mn_mp (c_man s)) with (mp s) in *. change (mn_mc (c_man s)) with (mc s) in *. change (mn_mx (c_man s)) with (mx s) in *.
    assert (handle_of c l = UNKNOWN) as Hc. { destruct (handle_of c l) eqn:H; [reflexivity| |]; exfalso; (assert (1 <= c < c) by (apply A6; congruence); lia). }
    assert (forall id, ~ In (c, id) (mc s)) as Hmc. { intros id' H. destruct (A7 _ _ H) as [H1 _]. congruence. }
    assert (lookup c (mc s) = None) as Lc. { destruct (lookup c (mc s)) as [u|] eqn:H; [|reflexivity]. apply lookup_in in H. exfalso. exact (Hmc _ H). }
    assert (u64 (c + 1) = c + 1) as Eu by (unfold u64; apply N.mod_small; unfold two64 in *; lia).
    split; [|intros _ _; cbn [mn_mc]; unfold put; rewrite (remove_key_none _ _ Lc); auto].
    unfold man_inv. cbn [mn_mp mn_mc mn_mx mn_next_ctl]. unfold put. rewrite Eu, (remove_key_none _ _ Lc), (remove_key_none _ _ L). cbn [map fst length]. rewrite Nat2N.inj_succ.
    assert (forall c', handle_of c' (O_PUBLISH v (Some c) :: l) = if c =? c' then OPEN id else handle_of c' l) as Hh by reflexivity.
    split; [lia|]. split; [lia|]. split; [constructor; [|exact A3]; rewrite in_map_iff; intros ([k u] & E & H); cbn [fst] in E; subst k; exact (Hmc _ H)|].
    split; [constructor; [|exact A4]; rewrite in_map_iff; intros ([k u] & E & H); cbn [fst] in E; subst k; exact (lookup_none_in _ _ _ L H)|].
    split; [intros c1 id1; cbn [In]; rewrite <- A5; split; (intros [H|H]; [left; congruence|right; exact H])|].
    split; [intros c1; rewrite Hh; destruct (N.eqb_spec c c1); [lia|]; intros H; apply A6 in H; lia|].
    split; [|split].
    + intros c1 id1. rewrite Hh. intros [H|H].
      * injection H as <- <-. rewrite N.eqb_refl. split; [reflexivity|]. intros Hx. destruct (A8 _ Hx) as [i Hi]. congruence.
      * destruct (N.eqb_spec c c1); [subst; exfalso; exact (Hmc _ H)|]. exact (A7 _ _ H).
    + intros c1 H. rewrite Hh. destruct (N.eqb_spec c c1); [eauto|auto].
    + intros c1 id1. rewrite Hh. destruct (N.eqb_spec c c1); [intros H; apply open_inj in H; subst; left; left; reflexivity|]. intros H. destruct (A9 _ _ H); [left; right; assumption|right; assumption].
Qed.
Lemma man_ack control s l d : man_inv (c_man s) l -> Forall handless d -> man_inv (c_man (manual_core control s)) (d ++ I_ACK control :: l).
Proof.
  intros J Hd. apply man_same; [|exact Hd]. clear Hd d. pose proof J as (A1 & A2 & A3 & A4 & A5 & A6 & A7 & A8 & A9).
  change (mn_next_ctl (c_man s)) with (next_ctl s) in *. change (mn_mp (c_man s)) with (mp s) in *. change (mn_mc (c_man s)) with (mc s) in *. change (mn_mx (c_man s)) with (mx s) in *.
  assert (forall c', handle_of c' (I_ACK control :: l) = if control =? c' then match handle_of c' l with UNKNOWN => UNKNOWN | _ => SPENT end else handle_of c' l) as Hh by reflexivity.
  assert (forall c', handle_of c' (I_ACK control :: l) <> UNKNOWN -> 1 <= c' < next_ctl s) as B6.
  { intros c'. rewrite Hh. intros H. apply A6. destruct (control =? c'); [destruct (handle_of c' l); congruence|exact H]. }
  unfold manual_core. change (mc (emit ?a s)) with (mc s). change (mx (emit ?a s)) with (mx s). destruct (lookup control (mc s)) as [id|] eqn:L.
  - change (c_man (puback_core ?a ?b ?x)) with (c_man x). unfold man_inv.
    change (mn_mc (c_man (set_mc ?x (set_mp ?y ?z)))) with x. change (mn_mp (c_man (set_mc ?x (set_mp ?y ?z)))) with y. change (mn_mx (c_man (set_mc ?x (set_mp ?y (emit ?a s))))) with (mx s).
    change (mn_next_ctl (c_man (set_mc ?x (set_mp ?y (emit ?a s))))) with (next_ctl s). change (mp (emit ?a s)) with (mp s). apply lookup_in in L. destruct (A7 _ _ L) as [Hc Hx]. pose proof L as L'. rewrite A5 in L'.
    cbn [length]. rewrite Nat2N.inj_succ. split; [exact A1|]. split; [lia|]. split; [exact (sub_nodup _ _ (remove_key_sub _ _) A3)|]. split; [exact (sub_nodup _ _ (remove_key_sub _ _) A4)|]. split; [|split; [exact B6|]].
    + intros c1 id1. split; intros H; apply in_remove_key in H as [H1 H2].
      * apply in_remove_key_other; [rewrite <- A5; exact H1|]. intros ->. apply H2. rewrite A5 in H1. exact (nodup_key _ _ _ _ A4 H1 L').
      * apply in_remove_key_other; [rewrite A5; exact H1|]. intros ->. apply H2. rewrite <- A5 in H1. exact (nodup_key _ _ _ _ A3 H1 L).
    + split; [|split].
      * intros c1 id1 H. apply in_remove_key in H as [H1 H2]. rewrite Hh. destruct (N.eqb_spec control c1); [congruence|]. exact (A7 _ _ H1).
      * intros c1 H. rewrite Hh. destruct (N.eqb_spec control c1); [subst; contradiction|auto].
      * intros c1 id1. rewrite Hh. destruct (N.eqb_spec control c1) as [->|Hne]; [destruct (handle_of c1 l); discriminate|]. intros H. destruct (A9 _ _ H); [left; apply in_remove_key_other; auto|right; assumption].
  - destruct (existsb (N.eqb control) (mx s)) eqn:X.
    + change (c_man (emit ?a ?b)) with (c_man b). unfold man_inv. change (mn_mc (c_man (set_mx ?x (emit ?a s)))) with (mc s). change (mn_mp (c_man (set_mx ?x (emit ?a s)))) with (mp s). change (mn_mx (c_man (set_mx ?x ?b))) with x.
      change (mn_next_ctl (c_man (set_mx ?x (emit ?a s)))) with (next_ctl s). cbn [length]. rewrite Nat2N.inj_succ. split; [exact A1|]. split; [lia|]. split; [exact A3|]. split; [exact A4|]. split; [exact A5|]. split; [exact B6|]. split; [|split].
      * intros c1 id1 H. rewrite Hh. destruct (N.eqb_spec control c1); [subst; exfalso; exact (lookup_none_in _ _ _ L H)|]. rewrite filter_In. destruct (A7 _ _ H). tauto.
      * intros c1. rewrite filter_In, Hh. intros [H1 H2]. destruct (N.eqb_spec c1 control); [discriminate|]. destruct (N.eqb_spec control c1); [congruence|auto].
      * intros c1 id1. rewrite Hh, filter_In. destruct (N.eqb_spec control c1) as [->|Hne]; [destruct (handle_of c1 l); discriminate|]. intros H. destruct (A9 _ _ H); [left; assumption|right].
        split; [assumption|]. destruct (N.eqb_spec c1 control); [congruence|reflexivity].
    + change (c_man (emit ?a (emit ?b s))) with (c_man s).
      assert (~ In control (mx s)) as Hx by (intros H; apply not_true_iff_false in X; apply X, existsb_exists; exists control; split; [exact H|apply N.eqb_refl]).
      assert (forall id, handle_of control l <> OPEN id) as Ho by (intros id H; destruct (A9 _ _ H) as [H1|H1]; [exact (lookup_none_in _ _ _ L H1)|contradiction]).
      assert (forall c', handle_of c' (I_ACK control :: l) = handle_of c' l) as Hk by (intros c'; rewrite Hh; destruct (N.eqb_spec control c'); [subst c'; destruct (handle_of control l) as [| |]; try reflexivity; exfalso; eapply Ho; reflexivity|reflexivity]).
      apply (man_eq _ _ _ J Hk). cbn [length]. lia.
Qed.

Section Acks.
Variable cf : config.
Variable now0 : N.
Notation prim := (prim cf).
Notation reach := (reach cf now0).

Definition live (g : ghost) (s : client) : Prop := sending (current s) = true /\ g_link g = FINE.
Lemma prim_man g s g' s' : ok s -> ok s' -> prim (g, s) (g', s') ->
  (c_man s' = c_man s /\ exists d, c_out s' = d ++ c_out s /\ Forall handless d) \/
  (exists acquire v, s' = publish_received acquire v s /\ live g' s) \/ (exists c, s' = manual_core c s) \/ s' = reset_manual s.
Proof.
  intros Ok Ok' P. inversion P; subst; clear P; repeat match goal with H : ok _ -> _ |- _ => specialize (H Ok) end;
    try (match goal with Ok_ : ok (publish_received _ _ _) |- _ => fail 1 | Ok_ : ok (manual_core _ _) |- _ => fail 1 | Ok_ : ok (reset_manual _) |- _ => fail 1 | Ok_ : ok (finish_operation _ _ _ _) |- _ => fail 1
           | Ok_ : ok (enqueue _ _ _) |- _ => fail 1 | Ok_ : ok (crash _ _) |- _ => fail 1 | Ok_ : context [set_list_incomplete _ _] |- _ => fail 1 | Ok_ : context [change_statistics _ _ _ _] |- _ => fail 1 | _ => idtac end;
         left; split; [reflexivity|]; first [exists []; split; [reflexivity|constructor]|eexists [_]; split; [reflexivity|repeat constructor]|eexists [_; _]; split; [reflexivity|repeat constructor]]; fail).
  - match goal with H : hush _ _ |- _ => destruct H as [H _]; apply core_inv in H end. left. split; [tauto|]. exists []. split; [cbn [app]; tauto|constructor].
  - exfalso. exact (not_ok_crash _ _ Ok').
  - left. split; [reflexivity|]. exists [x]. split; [reflexivity|]. constructor; [destruct x; try discriminate; exact I|constructor].
  - left. destruct (enqueue_eq p override s) as (o & x & -> & _). split; [reflexivity|]. eexists [_]. split; [reflexivity|repeat constructor].
  - right; left. exists acquire, v. split; [reflexivity|]. split; [|assumption]. match goal with H : current s = _ \/ _ |- _ => destruct H as [H|H]; rewrite H; reflexivity end.
  - right; right; left. eauto.
  - right; right; right. reflexivity.
  - left. destruct (cs_shape inc una o s) as [x ->]. split; [reflexivity|]. exists []. split; [reflexivity|constructor].
  - left. destruct (incomplete_eq s) as (l & x & -> & _). split; [reflexivity|]. exists []. split; [reflexivity|constructor].
  - left. match goal with H : bind_packet_id _ _ = _ |- _ => apply bind_eq in H as [(-> & -> & _)|(id & _ & _ & -> & ->)] end; (split; [reflexivity|]; exists []; split; [reflexivity|constructor]).
  - left. match goal with H : bind_packet_id _ _ = _ |- _ => apply bind_eq in H as [(-> & -> & _)|(id & _ & _ & -> & ->)] end; (split; [reflexivity|]; eexists [_]; split; [reflexivity|repeat constructor]).
  - left. split; [|exists [O_SENT o]; split; [apply finish_out|repeat constructor]].
    match goal with H : g_link _ = FINE /\ _ |- _ => destruct H as (_ & _ & _ & _ & _ & Ht & Hi) end. pose proof (finish_eq cf now o s Ht Hi) as F. cbv zeta in F.
    destruct (requires_ack (op_packet o)); [destruct F as (o' & x & -> & _)|destruct F as (t & ->)]; [destruct (is_acked_publish (op_packet o)); reflexivity|reflexivity].
Qed.
Definition J18 (x : ghost * client) : Prop := let '(g, s) := x in acks_fit (c_out s) -> man_inv (c_man s) (c_out s).
Lemma manual_out control s : exists d, c_out (manual_core control s) = d ++ I_ACK control :: c_out s /\ Forall handless d.
Proof. destruct (manual_core_eq control s) as (m & x & -> & [(id & _ & _ & ->)|(_ & r & -> & _)]); [exists []|eexists [_]]; (split; [reflexivity|repeat constructor]). Qed.
Lemma publish_out acquire v s : exists m control, c_man (publish_received acquire v s) = m /\ c_out (publish_received acquire v s) = O_PUBLISH v control :: I_PACKET (P_PUBLISH v) :: c_out s /\
  (m, control) = (if acquire && negb (pb_qos v =? 0) then
      match lookup (pb_packet_id v) (mp s) with
      | Some c => (c_man s, Some c)
      | None => (mkman (put (pb_packet_id v) (next_ctl s) (mp s)) (put (next_ctl s) (pb_packet_id v) (mc s)) (mx s) (u64 (next_ctl s + 1)), Some (next_ctl s))
      end else (c_man s, None)).
Proof. destruct (publish_received_eq acquire v s) as (m & c & H & E). exists m, c. destruct H as [(_ & -> & _)|[(_ & _ & ->)|(_ & _ & _ & ->)]]; auto. Qed.
Lemma fit_cons x l : acks_fit (x :: l) -> acks_fit l /\ N.of_nat (length l) < two64 - 2.
Proof. intros H. split; [exact (fit_app [x] l H)|]. destruct H as [_ H]. cbn [length] in H. lia. Qed.
Lemma reach_J18 g s : reach (g, s) -> ok s -> J18 (g, s).
Proof.
  intros R Ok. refine (reach_inv cf now0 J18 _ _ _ (g, s) R Ok).
  { intros _. split; [exact (N.le_refl 1)|]. split; [cbn; lia|]. split; [constructor|]. split; [constructor|]. split; [tauto|]. split; [intros c H; contradiction|]. split; [intros ? ? []|]. split; [intros ? []|discriminate]. }
  { intros s1 now _ _ J F. change (c_out (emit ?a s1)) with (a :: c_out s1) in *. change (man_inv (c_man s1) ([I_TICK now] ++ c_out s1)). apply man_same; [|repeat constructor]. apply J. apply fit_cons in F as [F _]. exact F. }
  clear R Ok g s. intros g s g' s' R Ok Ok' J P F. destruct (prim_man _ _ _ _ Ok Ok' P) as [(E & d & D & H)|[(a & v & -> & _)|[(c & ->)| ->]]].
  - rewrite D, E in *. apply man_same; [|exact H]. apply J. exact (fit_app _ _ F).
  - destruct (publish_out a v s) as (m & c & E1 & E2 & E3). rewrite E1, E2 in *. apply fit_cons in F as [F1 F2]. apply (man_publish a v s (I_PACKET (P_PUBLISH v) :: c_out s)); [|exact F2|exact E3].
    apply (man_same _ [_]); [|repeat constructor]. apply fit_cons in F1 as [F1 _]. exact (J F1).
  - destruct (manual_out c s) as (d & E & H). rewrite E in *. apply man_ack; [|exact H]. apply fit_app, fit_cons in F as [F _]. exact (J F).
  - assert (c_out (reset_manual s) = c_out s) as E by (unfold reset_manual; destruct (mc s); reflexivity). rewrite E in *. apply man_reset. exact (J F).
Qed.

(** ** PUBACKs on their way out *)
Definition pids (l : list packet5) : list N := flat_map (fun p => match p with P_PUBACK v => [pa_packet_id v] | _ => [] end) l.
Definition pk (l : list op) : list packet5 := map op_packet l.
Definition cur (s : client) : list packet5 := match curop s with Some o => [op_packet o] | None => [] end.
Definition noack (l : list packet5) : Prop := Forall (fun p => is_puback p = false) l.
Definition soon (p : packet5) : bool := is_puback p || is_pingreq p.
Lemma pids_app a b : pids (a ++ b) = pids a ++ pids b. Proof. apply flat_map_app. Qed.
Lemma noack_pids l : noack l -> pids l = [].
Proof. induction 1 as [|p l H _ IH]; [reflexivity|]. cbn [pids flat_map]. fold (pids l). rewrite IH, app_nil_r. destruct p; try reflexivity. discriminate H. Qed.
Definition front (l : list packet5) : Prop := exists a b, l = a ++ b /\ Forall (fun p => soon p = true) a /\ noack b.
Lemma noack_front l : noack l -> front l. Proof. intros H. exists [], l. repeat split; [constructor|exact H]. Qed.
Lemma front_tail p l : front (p :: l) -> front l.
Proof.
  intros (a & b & E & H1 & H2). destruct a as [|x a]; cbn [app] in E.
  - subst b. apply noack_front. inversion H2; assumption.
  - injection E as -> ->. inversion H1; subst. exists a, b. auto.
Qed.
Lemma front_first p l : front (p :: l) -> soon p = false -> pids (p :: l) = [].
Proof.
  intros (a & b & E & H1 & H2) H. destruct a as [|x a]; cbn [app] in E; [subst b; apply noack_pids, H2|]. injection E as -> ->. inversion H1; subst. congruence.
Qed.
Lemma insert_front w u id ov q : front (pk q) ->
  front (pk (insert_puback (op_new u w (P_PUBACK (mkpuback id 0 None [])) ov) q)) /\ pids (pk (insert_puback (op_new u w (P_PUBACK (mkpuback id 0 None [])) ov) q)) = pids (pk q) ++ [id].
Proof.
  induction q as [|x q IH]; intros F; cbn [insert_puback].
  - split; [|reflexivity]. exists [P_PUBACK (mkpuback id 0 None [])], []. repeat split; [repeat constructor|constructor].
  - destruct (is_puback (op_packet x) || is_pingreq (op_packet x)) eqn:S.
    + destruct (IH (front_tail _ _ F)) as [(a & b & E & H1 & H2) I2]. cbn [pk map]. split.
      * exists (op_packet x :: a), b. unfold pk in E. rewrite E. repeat split; [constructor; assumption|exact H2].
      * unfold pk in I2. change (pids (?p :: ?l)) with (pids ([p] ++ l)). rewrite !pids_app, I2, <- app_assoc. reflexivity.
    + cbn [pk map] in F. change (pk (op_new u w ?p ov :: x :: q)) with (p :: op_packet x :: pk q). pose proof (front_first _ _ F S) as E. split.
      * exists [P_PUBACK (mkpuback id 0 None [])], (op_packet x :: pk q). repeat split; [repeat constructor|]. destruct F as (a & b & E' & H1 & H2).
        destruct a as [|p a]; cbn [app] in E'; [rewrite <- E' in H2; exact H2|]. injection E' as <- _. inversion H1; subst. unfold soon in *. congruence.
      * change (map op_packet q) with (pk q) in E. change (pk (x :: q)) with (op_packet x :: pk q). rewrite E.
        change (id :: pids (op_packet x :: pk q) = [id]). rewrite E. reflexivity.
Qed.
Definition ackless (x : out) : Prop := match x with O_PUBLISH _ _ | I_ACK _ | O_SENT _ | O_LIFE ATTEMPTING_CONNECT => False | _ => True end.
Lemma ackless_of d l : Forall ackless d -> acks_of (d ++ l) = acks_of l.
Proof. induction 1 as [|x d Hx _ IH]; [reflexivity|]. cbn [app acks_of]. rewrite IH. destruct x as [e| | | | | | | | | | | | |]; try contradiction; try reflexivity. destruct e; try contradiction; reflexivity. Qed.

Definition plain (p : packet5) : Prop := match p with P_PUBACK v => v = mkpuback (pa_packet_id v) 0 None [] | _ => True end.
Definition opening_ (g : ghost) (s : client) : Prop := current s = CONNECTING \/ current s = MQTT_CONNECT \/ exists v, g_link g = ACKED v.
Definition acks_inv (g : ghost) (s : client) (a : acks) : Prop :=
  (opening_ g s -> mc s = [] /\ a = mkacks [] [] [] /\ noack (cur s) /\ noack (pk (queued s))) /\
  (live g s -> taken a = mc s) /\
  (live g s -> current s = CONNECTED -> front (pk (queued s))) /\
  (live g s -> exists rest, due a = pids (cur s) ++ rest /\ (current s = CONNECTED -> rest = pids (pk (queued s)))) /\
  (live g s -> forall o, curop s = Some o -> is_request (op_packet o) = true -> owed a = []).
Definition J19 (x : ghost * client) : Prop := let '(g, s) := x in
  Forall plain (cur s) /\ Forall plain (pk (queued s)) /\ (acks_fit (c_out s) -> acks_inv g s (acks_of (c_out s))).
Lemma noack_incl l l' : incl l l' -> noack l' -> noack l.
Proof. unfold noack. rewrite !Forall_forall. intros H1 H2 p H. auto. Qed.
Lemma inv_empty g s : mc s = [] -> noack (cur s) -> noack (pk (queued s)) -> acks_inv g s (mkacks [] [] []).
Proof.
  intros E H1 H2. split; [auto|]. split; [auto|]. split; [intros; apply noack_front, H2|]. split; [|reflexivity].
  intros _. exists []. rewrite (noack_pids _ H1), (noack_pids _ H2). auto.
Qed.
Lemma J19_same g s g' s' : J19 (g, s) -> current s' = current s -> g_link g' = g_link g -> mc s' = mc s -> curop s' = curop s -> pk (queued s') = pk (queued s) ->
  (exists d, c_out s' = d ++ c_out s /\ Forall ackless d) -> J19 (g', s').
Proof.
  intros (A & B & C) E1 E2 E3 E4 E5 (d & E6 & Hd). unfold J19, cur in *. rewrite E4, E5, E6. split; [exact A|]. split; [exact B|]. intros F. apply fit_app in F. specialize (C F). rewrite (ackless_of _ _ Hd).
  unfold acks_inv, opening_, live, cur in *. rewrite E1, E2, E3, E4, E5. exact C.
Qed.
Lemma J19_queue g s g' s' : J19 (g, s) -> current s' = current s -> g_link g' = g_link g -> mc s' = mc s -> curop s' = curop s ->
  (exists d, c_out s' = d ++ c_out s /\ Forall ackless d) ->
  (Forall plain (pk (queued s)) -> Forall plain (pk (queued s'))) ->
  (acks_fit (c_out s') -> (opening_ g s -> noack (pk (queued s)) -> noack (pk (queued s'))) /\
  (live g s -> current s = CONNECTED -> front (pk (queued s)) -> front (pk (queued s')) /\ pids (pk (queued s')) = pids (pk (queued s)))) -> J19 (g', s').
Proof.
  intros (A & B & C) E1 E2 E3 E4 (d & E6 & Hd) Hp H. unfold J19, cur in *. rewrite E4. split; [exact A|]. split; [exact (Hp B)|]. intros F. destruct (H F) as [Hn Hf]. rewrite E6 in *. apply fit_app in F.
  destruct (C F) as (C1 & C2 & C3 & C4 & C5). rewrite (ackless_of _ _ Hd). unfold acks_inv, opening_, live, cur in *. rewrite E1, E2, E3, E4. split; [|split; [exact C2|split; [|split; [|exact C5]]]].
  - intros Ho. destruct (C1 Ho) as (D1 & D2 & D3 & D4). repeat (split; [assumption|]). auto.
  - intros Hl Hc. apply (Hf Hl Hc (C3 Hl Hc)).
  - intros Hl. destruct (C4 Hl) as (rest & R1 & R2). exists rest. split; [exact R1|]. intros Hc. rewrite (R2 Hc). symmetry. apply (Hf Hl Hc (C3 Hl Hc)).
Qed.
Lemma J19_shrink g s g' s' : J19 (g, s) -> (opening_ g' s' -> opening_ g s) -> ~ live g' s' -> (mc s' = mc s \/ mc s' = []) ->
  incl (cur s' ++ pk (queued s')) (cur s ++ pk (queued s)) -> (exists d, c_out s' = d ++ c_out s /\ Forall ackless d) -> J19 (g', s').
Proof.
  intros (A & B & C) H1 H2 H3 H4 (d & E & Hd). assert (Forall plain (cur s ++ pk (queued s))) as P by (apply Forall_app; auto).
  assert (Forall plain (cur s' ++ pk (queued s'))) as P' by (rewrite Forall_forall in *; auto). apply Forall_app in P' as [P1 P2]. split; [exact P1|]. split; [exact P2|].
  rewrite E. intros F. apply fit_app in F. destruct (C F) as (C1 & _). rewrite (ackless_of _ _ Hd). split; [|repeat (split; [intros; contradiction|]); intros; contradiction].
  intros Ho. destruct (C1 (H1 Ho)) as (D1 & D2 & D3 & D4). assert (noack (cur s' ++ pk (queued s'))) as N by (eapply noack_incl; [exact H4|apply Forall_app; auto]). apply Forall_app in N as [N1 N2].
  split; [destruct H3; congruence|]. auto.
Qed.
Lemma J19_empty g s g' s' d : J19 (g, s) -> opening_ g s -> mc s' = mc s -> incl (cur s') (cur s) -> Forall (fun p => In p (pk (queued s)) \/ is_puback p = false) (pk (queued s')) ->
  c_out s' = d ++ c_out s -> Forall ackless d -> J19 (g', s').
Proof.
  intros (A & B & C) Ho E1 H1 H2 E2 Hd. split; [rewrite Forall_forall in *; auto|]. split.
  - rewrite Forall_forall in *. intros p Hp. destruct (H2 _ Hp) as [H|H]; [auto|]. destruct p; try exact I. discriminate H.
  - rewrite E2. intros F. apply fit_app in F. destruct (C F) as (C1 & _). destruct (C1 Ho) as (D1 & D2 & D3 & D4). rewrite (ackless_of _ _ Hd), D2. apply inv_empty; [congruence|eapply noack_incl; eassumption|].
    unfold noack in *. rewrite Forall_forall in *. intros p Hp. destruct (H2 _ Hp); auto.
Qed.
Lemma kept_noack l : Forall (fun o => satisfies_policy cf (op_packet o) = true) l -> noack (pk l).
Proof.
  unfold noack, pk. rewrite Forall_map. apply Forall_impl. intros o. unfold satisfies_policy. destruct (op_packet o); try reflexivity. destruct (cf_queue cf); discriminate.
Qed.
Lemma acked_noack l : Forall (fun o => requires_ack (op_packet o) = true) l -> noack (pk l).
Proof. unfold noack, pk. rewrite Forall_map. apply Forall_impl. intros o. destruct (op_packet o); try reflexivity. discriminate. Qed.
Lemma snd_taken s id l : man_inv (c_man s) l -> existsb (fun h => snd h =? id) (mc s) = match lookup id (mp s) with Some _ => true | None => false end.
Proof.
  intros (_ & _ & _ & _ & A5 & _). change (mn_mp (c_man s)) with (mp s) in *. change (mn_mc (c_man s)) with (mc s) in *. destruct (lookup id (mp s)) as [c|] eqn:L.
  - apply lookup_in in L. rewrite <- A5 in L. apply existsb_exists. exists (c, id). split; [exact L|apply N.eqb_refl].
  - apply not_true_iff_false. rewrite existsb_exists. intros ([c i] & H & E). cbn [snd] in E. apply N.eqb_eq in E. subst i. rewrite A5 in H. exact (lookup_none_in _ _ _ L H).
Qed.
Lemma fst_taken c (l : list (N * N)) : existsb (fun h => fst h =? c) l = match lookup c l with Some _ => true | None => false end.
Proof.
  unfold lookup. induction l as [|h l IH]; [reflexivity|]. cbn [existsb find]. destruct (fst h =? c); [reflexivity|exact IH].
Qed.
Lemma J19_deliver g s acquire v : J18 (g, s) -> J19 (g, s) -> current s = CONNECTED \/ current s = CLEAN_DISCONNECT -> g_link g = FINE -> J19 (g, publish_core acquire v s).
Proof.
  intros J18 (A & B & C) Hc Hg. assert (live g s) as Hl by (split; [destruct Hc as [-> | ->]; reflexivity|exact Hg]).
  destruct (publish_core_eq acquire v s) as (m & c & H & E). set (id := pb_packet_id v) in *.
  assert (forall s', current s' = current s -> ~ opening_ g s') as Hno.
  { intros s' E'. unfold opening_. rewrite E', Hg. intros [H1|[H1|[v' H1]]]; [destruct Hc; congruence|destruct Hc; congruence|discriminate]. }
  destruct H as [(Hq & -> & ->)|[(Hq & Hk & ->)|(Hq & Hk & -> & ->)]].
  - (* QoS 0 *) rewrite Hq, andb_false_r in E. injection E as ->. split; [exact A|]. split; [exact B|]. intros F. apply fit_cons in F as [F _].
    assert (acks_of (c_out (emit (O_PUBLISH v None) (set_c_man (c_man s) s))) = acks_of (c_out s)) as -> by (change (acks_step (O_PUBLISH v None) (acks_of (c_out s)) = acks_of (c_out s)); cbn [acks_step]; rewrite Hq; reflexivity).
    exact (C F).
  - (* no PUBACK *) split; [exact A|]. split; [exact B|]. change (c_out (emit ?a (set_c_man m s))) with (a :: c_out s). intros F. apply fit_cons in F as [F Fl].
    destruct (C F) as (C1 & C2 & C3 & C4 & C5). specialize (C2 Hl). pose proof (J18 F) as M.
    assert (exists t, acks_of (O_PUBLISH v c :: c_out s) = mkacks (owed (acks_of (c_out s))) (owed_since (acks_of (c_out s))) t /\ t = mn_mc m) as (t & Et & Em).
    { change (acks_of (O_PUBLISH v c :: c_out s)) with (acks_step (O_PUBLISH v c) (acks_of (c_out s))). destruct (acks_of (c_out s)) as [a1 a2 t]. cbn [owed owed_since taken] in *. subst t.
      destruct (man_publish acquire v s _ M Fl m c E) as [_ Mn]. fold id in Mn. destruct (acquire && negb (pb_qos v =? 0)) eqn:Q.
      - destruct (lookup id (mp s)) as [c'|] eqn:L; injection E as -> ->.
        + cbn [acks_step taken]. rewrite fst_taken. apply lookup_in in L. destruct M as (_ & _ & M3 & _ & M5 & _). rewrite <- M5 in L. change (mn_mc (c_man s)) with (mc s) in *. rewrite (in_lookup _ _ _ M3 L). exists (mc s). auto.
        + destruct (Mn eq_refl eq_refl) as [E1 E2]. cbn [acks_step taken owed owed_since]. rewrite fst_taken. destruct (lookup (next_ctl s) (mc s)) as [i|] eqn:L'.
          { apply lookup_in in L'. destruct M as (_ & _ & _ & _ & _ & _ & M7 & _). destruct (M7 _ _ L'). congruence. }
          fold id. exists ((next_ctl s, id) :: mc s). split; [reflexivity|]. symmetry. exact E1.
      - injection E as -> ->. cbn [acks_step taken]. fold id. rewrite Hq, (snd_taken _ _ _ M). change (mn_mp (c_man s)) with (mp s) in Hk. destruct (lookup id (mp s)); [|contradiction]. exists (mc s). auto. }
    rewrite Et, Em. split; [intros Ho; exfalso; exact (Hno (emit (O_PUBLISH v c) (set_c_man m s)) eq_refl Ho)|]. split; [reflexivity|]. split; [exact C3|]. split; [exact C4|exact C5].
  - (* a PUBACK *) change (mn_mp (c_man s)) with (mp s) in Hk. rewrite Hk in E. destruct (acquire && negb (pb_qos v =? 0)) eqn:Q; [exfalso; injection E as E; apply (f_equal mn_mp) in E; unfold put in E; change (mn_mp (c_man s)) with (mp s) in E; cbn [mn_mp] in E;
      apply (f_equal (@length _)) in E; rewrite (remove_key_none _ _ Hk) in E; cbn [length] in E; lia|]. injection E as ->.
    set (s1 := puback_core _ _ _). assert (queued s1 = insert_puback (op_new (uid s) BY_CLIENT (P_PUBACK (mkpuback id 0 None [])) 0) (queued s)) as Eq by reflexivity.
    split; [exact A|]. split.
    { rewrite Eq. unfold pk in *. rewrite Forall_map in *. rewrite Forall_forall in *. intros o Ho. rewrite insert_puback_perm in Ho; destruct Ho as [<-|Ho]; [reflexivity|auto]. }
    change (c_out s1) with (O_PUBLISH v None :: c_out s). intros F. apply fit_cons in F as [F Fl]. destruct (C F) as (C1 & C2 & C3 & C4 & C5). specialize (C2 Hl). pose proof (J18 F) as M.
    assert (acks_of (O_PUBLISH v None :: c_out s) = mkacks (owed (acks_of (c_out s))) (owed_since (acks_of (c_out s)) ++ [id]) (taken (acks_of (c_out s)))) as ->.
    { change (acks_of (O_PUBLISH v None :: c_out s)) with (acks_step (O_PUBLISH v None) (acks_of (c_out s))). cbn [acks_step]. fold id. rewrite Hq, C2, (snd_taken _ _ _ M), Hk, <- C2. reflexivity. }
    split; [intros Ho; exfalso; exact (Hno s1 eq_refl Ho)|]. split; [intros _; exact C2|]. split.
    + intros _ Hcc. rewrite Eq. apply insert_front. apply (C3 Hl Hcc).
    + split; [|exact C5]. intros _. destruct (C4 Hl) as (rest & E1 & E2). exists (rest ++ [id]). split.
      * unfold due in *. cbn [owed owed_since]. rewrite app_assoc, E1, app_assoc. reflexivity.
      * intros Hcc. rewrite Eq. rewrite (E2 Hcc). symmetry. apply insert_front. apply (C3 Hl Hcc).
Qed.
Lemma J19_publish g s acquire v : reach (g, s) -> ok s -> J19 (g, s) -> current s = CONNECTED \/ current s = CLEAN_DISCONNECT -> g_link g = FINE -> J19 (g, publish_received acquire v s).
Proof.
  intros R Ok J Hc Hg. apply J19_deliver; [| |exact Hc|exact Hg].
  - intros F. change (c_out (emit ?a s)) with (a :: c_out s) in *. apply fit_cons in F as [F _]. apply (man_same _ [_]); [|repeat constructor]. exact (reach_J18 _ _ R Ok F).
  - apply (J19_same _ _ _ _ J); try reflexivity. exists [I_PACKET (P_PUBLISH v)]. split; [reflexivity|repeat constructor].
Qed.
Lemma J19_manual g s control : reach (g, s) -> ok s -> J19 (g, s) -> J19 (g, manual_core control s).
Proof.
  intros R Ok (A & B & C). unfold manual_core. change (mc (emit ?a s)) with (mc s). change (mx (emit ?a s)) with (mx s).
  assert (forall a, existsb (fun h => fst h =? control) (taken a) = false -> acks_step (I_ACK control) a = a) as Hnone.
  { intros a H. cbn [acks_step]. rewrite fst_taken in H. unfold lookup in H. destruct (find _ (taken a)); [discriminate|reflexivity]. }
  destruct (lookup control (mc s)) as [id|] eqn:L.
  - set (s1 := puback_core _ _ _). assert (queued s1 = insert_puback (op_new (uid s) (BY_ACK control) (P_PUBACK (mkpuback id 0 None [])) 0) (queued s)) as Eq by reflexivity.
    split; [exact A|]. split.
    { rewrite Eq. unfold pk in *. rewrite Forall_map in *. rewrite Forall_forall in *. intros o Ho. rewrite insert_puback_perm in Ho; destruct Ho as [<-|Ho]; [reflexivity|auto]. }
    change (c_out s1) with (I_ACK control :: c_out s). intros F. apply fit_cons in F as [F _]. destruct (C F) as (C1 & C2 & C3 & C4 & C5).
    split; [intros Ho; exfalso; destruct (C1 Ho) as (D & _); rewrite D in L; discriminate L|].
    assert (live g s -> acks_of (I_ACK control :: c_out s) = mkacks (owed (acks_of (c_out s))) (owed_since (acks_of (c_out s)) ++ [id]) (remove_key control (mc s))) as Ea.
    { intros Hl. specialize (C2 Hl). change (acks_of (I_ACK control :: c_out s)) with (acks_step (I_ACK control) (acks_of (c_out s))). cbn [acks_step]. rewrite C2. unfold lookup in L. destruct (find _ (mc s)) as [h|]; [|discriminate]. injection L as ->. reflexivity. }
    change (live g s1) with (live g s). change (current s1) with (current s). change (cur s1) with (cur s). change (curop s1) with (curop s). change (mc s1) with (remove_key control (mc s)).
    split; [intros Hl; rewrite (Ea Hl); reflexivity|]. split; [intros Hl Hcc; rewrite Eq; apply insert_front; exact (C3 Hl Hcc)|].
    split; [|intros Hl; rewrite (Ea Hl); exact (C5 Hl)]. intros Hl. rewrite (Ea Hl). destruct (C4 Hl) as (rest & E1 & E2). exists (rest ++ [id]). split.
    + unfold due in *. cbn [owed owed_since]. rewrite app_assoc, E1, app_assoc. reflexivity.
    + intros Hcc. rewrite Eq. rewrite (E2 Hcc). symmetry. apply insert_front. exact (C3 Hl Hcc).
  - assert (forall r m, J19 (g, emit (O_ACK_RESULT control r) (set_mx m (emit (I_ACK control) s)))) as G.
    { intros r m. split; [exact A|]. split; [exact B|]. set (s1 := emit _ _). change (c_out s1) with (O_ACK_RESULT control r :: I_ACK control :: c_out s). intros F. apply fit_cons in F as [F _]. apply fit_cons in F as [F _]. destruct (C F) as (C1 & C2 & C3 & C4 & C5).
      change (acks_of (O_ACK_RESULT control r :: I_ACK control :: c_out s)) with (acks_step (I_ACK control) (acks_of (c_out s))).
      assert (live g s \/ opening_ g s -> acks_step (I_ACK control) (acks_of (c_out s)) = acks_of (c_out s)) as Ea.
      { intros [Hl|Ho]; apply Hnone; [rewrite (C2 Hl), fst_taken, L; reflexivity|]. destruct (C1 Ho) as (_ & -> & _). reflexivity. }
      split; [intros Ho; rewrite (Ea (or_intror Ho)); exact (C1 Ho)|]. split; [intros Hl; rewrite (Ea (or_introl Hl)); exact (C2 Hl)|]. split; [exact C3|]. split; [intros Hl; rewrite (Ea (or_introl Hl)); exact (C4 Hl)|intros Hl; rewrite (Ea (or_introl Hl)); exact (C5 Hl)]. }
    destruct (existsb (N.eqb control) (mx s)); [apply G|]. replace (emit (I_ACK control) s) with (set_mx (mx s) (emit (I_ACK control) s)) by (destruct s as [? ? []]; reflexivity). apply G.
Qed.
Lemma puback_valid g s v : reach (g, s) -> ok s -> acks_fit (c_out s) -> current s = CONNECTED -> g_link g = FINE -> v = mkpuback (pa_packet_id v) 0 None [] ->
  validate_operation cf (P_PUBACK v) s = true.
Proof.
  intros R Ok [F _] Hc Hg Hv. pose proof (reach_J8 cf now0 _ _ R Ok) as J. unfold J8 in J. assert (exists n, settings_of (c_out s) = Some n /\ c_neg s = n) as (n & E1 & E2).
  { destruct (settings_of (c_out s)) as [n|]; [exists n; tauto|]. destruct J as (_ & J & _). destruct (J Hc) as [x Hx]. congruence. }
  assert (exists c, In (O_LIFE (CONNECTION_SUCCESS n c)) (c_out s)) as [c Hi].
  { clear - E1. revert E1. generalize (c_out s). induction l as [|x l IH]; [discriminate|]. destruct x as [e| | | | | | | | | | | | |]; try destruct e; cbn [settings_of]; intros H;
      try discriminate H; try (injection H as ->; eexists; left; reflexivity); (destruct (IH H) as [c Hc]; exists c; right; exact Hc). }
  specialize (F _ _ Hi). unfold validate_operation, settings_valid. rewrite Hc, Hv. unfold validate_vs_settings, limits_of.
  replace (get_encoded_size (P_PUBACK (mkpuback (pa_packet_id v) 0 None []))) with (Base.Ok 4) by reflexivity. cbn [lm_packet_size]. rewrite E2.
  destruct (N.ltb_spec (ng_maximum_packet_size n) 4); [lia|reflexivity].
Qed.
Ltac same0 := exists []; split; [reflexivity|constructor].
Ltac same1 := eexists [_]; split; [reflexivity|repeat constructor].
Ltac jsm J := eapply (J19_same _ _ _ _ J); [reflexivity|reflexivity|reflexivity|reflexivity|reflexivity|].
Lemma reach_J19 g s : reach (g, s) -> ok s -> J19 (g, s).
Proof.
  intros R Ok. refine (reach_inv cf now0 J19 _ _ _ (g, s) R Ok).
  { split; [constructor|]. split; [constructor|]. intros _. apply inv_empty; [reflexivity|constructor|constructor]. }
  { intros s1 now _ _ J. jsm J. same1. }
  clear R Ok g s. intros g s g' s' R Ok Ok' J P. destruct (reach_J0 cf now0 _ _ R Ok) as (Ja & _ & Jc & Jp).
  inversion P; subst; clear P; repeat match goal with H : ok _ -> _ |- _ => specialize (H Ok) end.
  - (* quiet *) match goal with H : hush _ _ |- _ => destruct H as [H _]; apply core_inv in H as (E0 & _ & E1 & E2 & Hrest) end.
    assert (c_out s' = c_out s /\ c_man s' = c_man s) as [Eo Em] by (clear - Hrest; tauto). eapply (J19_same _ _ _ _ J); [exact E0|reflexivity|unfold mc; rewrite Em; reflexivity|exact E2|rewrite E1; reflexivity|].
    exists []. split; [exact Eo|constructor].
  - exfalso. exact (not_ok_crash _ _ Ok').
  - jsm J. exists [x]. split; [reflexivity|]. constructor; [destruct x; try discriminate; exact I|constructor].
  - jsm J. same1.
  - jsm J. same1.
  - (* attempt *) match goal with H : _ /\ life s = _ |- _ => destruct H as [Hc _] end. assert (cleared cf s) as (K1 & _ & _ & _ & K2 & _ & K3) by (apply Jp; destruct Hc as [-> | ->]; reflexivity).
    destruct J as (A & B & _). split; [exact A|]. split; [exact B|]. intros _. apply inv_empty; [exact K3|unfold cur; change (curop (emit ?a (set_life ?b (set_current ?c s)))) with (curop s); rewrite K1; constructor|].
    apply kept_noack, K2.
  - (* success *) eapply (J19_empty _ _ _ _ [_] J); [right; right; match goal with H : _ /\ _ |- _ => destruct H as (_ & _ & H & _); rewrite H; eexists; reflexivity end|reflexivity|apply incl_refl| |reflexivity|repeat constructor].
    rewrite Forall_forall. auto.
  - jsm J. same1.
  - jsm J. same1.
  - (* state *) match goal with H : edge _ _ _ _ |- _ => rename H into He end.
    assert (opening_ g s -> J19 (match c with MQTT_CONNECT => with_link NEW g | _ => g end, set_current c (set_c_tim t s))) as Hop.
    { intros Ho. eapply (J19_empty _ _ _ _ [] J Ho); [reflexivity|apply incl_refl| |reflexivity|constructor]. rewrite Forall_forall. auto. }
    assert (sending c = false -> c <> CONNECTING -> J19 (g, set_current c (set_c_tim t s))) as Hdn.
    { intros H1 H2. eapply (J19_shrink _ _ _ _ J); [|intros [H _]; change (current (set_current c ?b)) with c in H; congruence|left; reflexivity|apply incl_refl|same0].
      intros [H|[H|H]]; [contradiction|change (current (set_current c ?b)) with c in H; subst c; discriminate H1|right; right; exact H]. }
    destruct c; cbn [edge] in He; try (apply Hdn; [reflexivity|discriminate]).
    + contradiction.
    + apply Hop. left. exact He.
    + apply Hop. right; left. apply He.
    + destruct He as [He|He]; [apply Hop; right; left; exact He|]. destruct J as (A & B & C). split; [exact A|]. split; [exact B|]. intros F. destruct (C F) as (C1 & C2 & C3 & C4 & C5).
      assert (live g (set_current CLEAN_DISCONNECT s) -> live g s) as Hl by (intros [_ H]; split; [rewrite He; reflexivity|exact H]).
      split; [intros [H|[H|H]]; [discriminate H|discriminate H|apply C1; right; right; exact H]|]. split; [intros H; exact (C2 (Hl H))|]. split; [intros _ H; discriminate H|].
      split; [intros H; destruct (C4 (Hl H)) as (rest & E1 & _); exists rest; split; [exact E1|discriminate]|intros H; exact (C5 (Hl H))].
  - (* open *) eapply (J19_empty _ _ _ _ [] J); [right; left; match goal with H : _ /\ _ |- _ => apply H end|reflexivity|apply incl_refl| |reflexivity|constructor]. rewrite Forall_forall. auto.
  - (* apply *) eapply (J19_empty _ _ _ _ [] J); [right; left; match goal with H : _ /\ _ |- _ => apply H end|reflexivity|apply incl_refl| |reflexivity|constructor]. rewrite Forall_forall. auto.
  - jsm J. same0.
  - (* die *) eapply (J19_shrink _ _ _ _ J); [|intros [_ H]; discriminate H|left; reflexivity|apply incl_refl|same0]. intros [H|[H|[v H]]]; [left; exact H|right; left; exact H|discriminate H].
  - (* closed *) eapply (J19_shrink _ _ _ _ J); [|intros [H _]; congruence|left; reflexivity|apply incl_refl|same0]. intros [H|[H|[v H]]]; [left; exact H|right; left; exact H|discriminate H].
  - jsm J. same0.
  - jsm J. same1.
  - (* enqueue *) destruct (enqueue_eq p override s) as (o & x & E & Hp & _). rewrite E in *. clear E. match goal with H : is_request p = true /\ _ |- _ => destruct H as [Hr _] end.
    assert (is_puback (op_packet o) = false) as Hn by (rewrite Hp; destruct p; try discriminate Hr; reflexivity).
    eapply (J19_queue _ _ _ _ J); [reflexivity|reflexivity|reflexivity|reflexivity|same1| |intros _; split].
    + change (queued (set_queued ?a ?b)) with a. unfold pk. rewrite map_app, Forall_app. intros H. split; [exact H|]. constructor; [destruct (op_packet o); try exact I; discriminate Hn|constructor].
    + intros _. change (queued (set_queued ?a ?b)) with a. unfold pk, noack. rewrite map_app, Forall_app. intros H. split; [exact H|]. constructor; [exact Hn|constructor].
    + intros _ _ (a & b & E & H1 & H2). change (queued (set_queued ?a ?b)) with a. unfold pk in *. rewrite map_app, pids_app. split.
      * rewrite E, <- app_assoc. eexists a, _. split; [reflexivity|]. split; [exact H1|]. apply Forall_app. split; [exact H2|]. constructor; [exact Hn|constructor].
      * rewrite (noack_pids (map op_packet [o])); [apply app_nil_r|]. constructor; [exact Hn|constructor].
  - (* refuse *) jsm J. eexists [_; _]. split; [reflexivity|repeat constructor].
  - (* push front *) destruct p; match goal with H : False |- _ => contradiction | _ => idtac end.
    + eapply (J19_empty _ _ _ _ [] J); [right; left; match goal with H : _ /\ _ |- _ => apply H end|reflexivity|apply incl_refl| |reflexivity|constructor]. constructor; [right; reflexivity|]. rewrite Forall_forall. auto.
    + eapply (J19_queue _ _ _ _ J); [reflexivity|reflexivity|reflexivity|reflexivity|same0| |intros _; split].
      * intros H. constructor; [exact I|exact H].
      * intros _ H. constructor; [reflexivity|exact H].
      * intros _ _ (a & b & E & HA & HB). split; [|reflexivity]. exists (P_PINGREQ :: a), b. split; [|split; [constructor; [reflexivity|exact HA]|exact HB]]. change (P_PINGREQ :: pk (queued s) = P_PINGREQ :: a ++ b). rewrite E. reflexivity.
    + eapply (J19_queue _ _ _ _ J); [reflexivity|reflexivity|reflexivity|reflexivity|same0| |intros _; split].
      * intros H. constructor; [exact I|exact H].
      * intros _ H. constructor; [reflexivity|exact H].
      * intros _ H. congruence.
  - jsm J. same1.
  - (* push disconnect *) eapply (J19_queue _ _ _ _ J); [reflexivity|reflexivity|reflexivity|reflexivity|same1| |intros _; split].
    + intros H. constructor; [exact I|exact H].
    + intros _ H. constructor; [reflexivity|exact H].
    + intros _ H. match goal with H : _ /\ current s = CLEAN_DISCONNECT |- _ => destruct H end. congruence.
  - jsm J. eexists [_; _]. split; [reflexivity|repeat constructor].
  - (* publish *) apply J19_publish; assumption.
  - (* manual *) apply J19_manual; assumption.
  - (* cancel manual *) match goal with H : down _ _ |- _ => rename H into Hd end. assert (~ live g' s) as Hl by (intros [H1 H2]; destruct Hd as [H|H]; congruence).
    unfold reset_manual. destruct (mc s) as [|e r] eqn:E; [exact J|]. eapply (J19_shrink _ _ _ _ J); [exact (fun H => H)|exact Hl|right; reflexivity|apply incl_refl|same0].
  - (* take *) match goal with H : queued s = _ |- _ => rename H into Hq end. match goal with H : curop s = None /\ _ |- _ => destruct H as [_ Hv] end.
    eapply (J19_queue _ _ _ _ J); [reflexivity|reflexivity|reflexivity|reflexivity|same0| |intros F; split]; change (queued (set_queued q s)) with q; rewrite Hq; cbn [pk map].
    + intros H. inversion H; assumption.
    + intros _ H. inversion H; assumption.
    + intros [_ Hl] Hc H. split; [exact (front_tail _ _ H)|]. destruct (op_packet o) as [| | | | | | | |v| |] eqn:Eo; try reflexivity. exfalso.
      destruct J as (_ & B & _). rewrite Hq in B. inversion B as [|? ? B1 _]; subst. rewrite Eo in B1. rewrite (puback_valid g s v R Ok F Hc Hl B1) in Hv. discriminate Hv.
  - (* take queued *) match goal with H : Permutation _ _ /\ down _ _ |- _ => destruct H as [Hp Hd] end.
    eapply (J19_shrink _ _ _ _ J); [exact (fun H => H)|intros [H1 H2]; change (sending (current s) = true) in H1; change (g_link g = FINE) in H2; destruct Hd as [H|H]; congruence|left; reflexivity| |same0].
    apply incl_app_app; [apply incl_refl|]. apply incl_map. intros o H. rewrite Hp. apply in_or_app. right. exact H.
  - jsm J. same0.
  - jsm J. same0.
  - jsm J. same0.
  - jsm J. same0.
  - jsm J. same0.
  - jsm J. same0.
  - jsm J. same0.
  - jsm J. same0.
  - (* statistics *) destruct (cs_shape inc una o s) as [x E]. rewrite E in *. jsm J. same0.
  - jsm J. same1.
  - (* unsend *) match goal with H : curop s = Some o |- _ => rename H into Hcu end. match goal with H : down _ _ |- _ => rename H into Hd end.
    eapply (J19_shrink _ _ _ _ J); [exact (fun H => H)|intros [H1 H2]; change (sending (current s) = true) in H1; destruct Hd as [H|H]; congruence|left; reflexivity| |same0].
    unfold cur. rewrite Hcu. apply incl_refl.
  - (* requeue *) eapply (J19_empty _ _ _ _ [] J); [right; right; match goal with H : _ /\ _ |- _ => apply H end|reflexivity|apply incl_refl| |reflexivity|constructor].
    pose proof (acked_noack _ Ja) as Hn. unfold noack in Hn. unfold pk in *. rewrite Forall_map in *. rewrite Forall_forall in *. change (queued (set_unacked ?a (set_queued ?b ?c))) with b.
    intros o H. rewrite !in_app_iff, !filter_In in H. destruct H as [[H _]|[[H _]|H]]; [right; apply Hn, H|right; apply Hn, H|left; apply in_map, H].
  - (* refile *) eapply (J19_empty _ _ _ _ [] J); [right; right; match goal with H : _ /\ _ |- _ => apply H end|reflexivity|apply incl_refl| |reflexivity|constructor].
    pose proof (acked_noack _ Ja) as Hn. unfold noack in Hn. unfold pk in *. rewrite Forall_map in *. rewrite Forall_forall in *. change (queued (set_queued ?b ?c)) with b.
    intros o H. rewrite in_app_iff, filter_In in H. destruct H as [[H _]|H]; [right; apply Hn, H|left; apply in_map, H].
  - (* incomplete *) destruct (incomplete_eq s) as (l & x & E & Hp & _). rewrite E in *. eapply (J19_same _ _ _ _ J); [reflexivity|reflexivity|reflexivity|reflexivity|exact Hp|same0].
  - (* start *) match goal with H : queued s = _ |- _ => rename H into Hq end. match goal with H : curop s = None /\ _ |- _ => destruct H as (Hcu & Hg & _ & Hst) end.
    match goal with H : bind_packet_id _ _ = _ |- _ => pose proof (bind_eq _ _ _ _ H) as Hb; clear H end.
    assert (is_puback (op_packet o') = is_puback (op_packet o) /\ pids [op_packet o'] = pids [op_packet o] /\ is_request (op_packet o') = is_request (op_packet o) /\ (plain (op_packet o) -> plain (op_packet o'))) as (B1 & B2 & B3 & B4).
    { destruct Hb as [(-> & _)|(id & _ & Hn & -> & _)]; [auto|]. cbn [op_packet set_packet]. destruct (op_packet o); try discriminate Hn; repeat split; auto. }
    set (s2 := set_curop (Some o') (set_c_enc e s1)). assert (current s2 = current s /\ mc s2 = mc s /\ queued s2 = q /\ c_out s2 = c_out s /\ curop s2 = Some o') as (E1 & E2 & E3 & E4 & E5).
    { destruct Hb as [(-> & -> & _)|(id & _ & _ & -> & ->)]; repeat split. }
    clearbody s2. clear Hb Ok'. destruct J as (A & B & C). rewrite Hq in B. cbn [pk map] in B. inversion B as [|? ? Bo Bq]; subst x l.
    unfold J19, cur. rewrite E5, E3, E4. split; [constructor; [exact (B4 Bo)|constructor]|]. split; [exact Bq|]. intros F. destruct (C F) as (C1 & C2 & C3 & C4 & C5).
    rewrite Hq in C1, C3, C4. cbn [pk map] in C1, C3, C4. fold (pk q) in C1, C3, C4. unfold cur in C1, C4. rewrite Hcu in C1, C4. unfold acks_inv, cur, opening_, live in *. rewrite E1, E2, E3, E5. split; [|split; [exact C2|split; [|split]]].
    + intros Ho. destruct (C1 Ho) as (D1 & D2 & D3 & D4). inversion D4; subst. split; [exact D1|]. split; [exact D2|]. split; [constructor; [congruence|constructor]|assumption].
    + intros Hl Hc. exact (front_tail _ _ (C3 Hl Hc)).
    + intros Hl. destruct (C4 Hl) as (rest & R1 & R2). destruct Hst as [[Hc Hi]|[Hc|[Hc Hi]]].
      * exists rest. rewrite B2. split; [|congruence]. destruct (op_packet o); try discriminate Hi. exact R1.
      * exists (pids (pk q)). split; [|reflexivity]. rewrite B2, <- pids_app, R1, (R2 Hc). reflexivity.
      * exists rest. rewrite B2. split; [|congruence]. destruct (op_packet o); try discriminate Hi. exact R1.
    + intros Hl o1 Ho1 Hr. injection Ho1 as <-. destruct (C4 Hl) as (rest & R1 & R2). destruct Hst as [[Hc Hi]|[Hc|[Hc Hi]]]; [|clear Hcu|].
      * rewrite B3 in Hr. destruct (op_packet o); discriminate.
      * rewrite (R2 Hc) in R1. rewrite B3 in Hr. rewrite (front_first _ _ (C3 Hl Hc)) in R1; [|destruct (op_packet o); try discriminate Hr; reflexivity]. cbn [app] in R1. apply app_eq_nil in R1. apply R1.
      * rewrite B3 in Hr. destruct (op_packet o); discriminate.
  - (* start fails *) match goal with H : queued s = _ |- _ => rename H into Hq end.
    eapply (J19_shrink _ _ _ _ J); [|intros [_ H]; discriminate H|left; reflexivity| |same1]; [intros [H|[H|[v H]]]; [left; exact H|right; left; exact H|discriminate H]|].
    apply incl_app_app; [apply incl_refl|]. rewrite Hq. apply incl_tl, incl_refl.
  - (* append fails *) match goal with H : queued s = _ |- _ => rename H into Hq end.
    match goal with H : bind_packet_id _ _ = _ |- _ => pose proof (bind_eq _ _ _ _ H) as Hb; clear H end.
    assert (current s1 = current s /\ mc s1 = mc s /\ queued s1 = q /\ c_out s1 = c_out s /\ curop s1 = curop s) as (E1 & E2 & E3 & E4 & E5).
    { destruct Hb as [(-> & -> & _)|(id & _ & _ & -> & ->)]; repeat split. }
    eapply (J19_shrink _ _ _ _ J); [|intros [_ H]; discriminate H|left; exact E2| |exists [O_LOST o']; split; [change (O_LOST o' :: c_out s1 = O_LOST o' :: c_out s); rewrite E4; reflexivity|repeat constructor]].
    + intros [H|[H|[v H]]]; [left; change (current s1 = CONNECTING) in H; congruence|right; left; change (current s1 = MQTT_CONNECT) in H; congruence|discriminate H].
    + change (incl (cur s1 ++ pk (queued s1)) (cur s ++ pk (queued s))). unfold cur. rewrite E5, E3, Hq. apply incl_app_app; [apply incl_refl|]. apply incl_tl, incl_refl.
  - (* sent *) match goal with H : curop s = Some o |- _ => rename H into Hcu end.
    match goal with H : g_link _ = FINE /\ _ |- _ => destruct H as (Hg & _ & _ & Hs & _ & Ht & Hi) end.
    assert (exists s1, finish_operation cf now o s = s1 /\ current s1 = current s /\ mc s1 = mc s /\ queued s1 = queued s /\ c_out s1 = O_SENT o :: c_out s /\ curop s1 = None) as (s1 & -> & E1 & E2 & E3 & E4 & E5).
    { eexists. split; [reflexivity|]. pose proof (finish_eq cf now o s Ht Hi) as F. cbv zeta in F. destruct (requires_ack (op_packet o)); [destruct F as (o' & x & -> & _)|destruct F as (t & ->)]; [destruct (is_acked_publish (op_packet o)); repeat split|repeat split]. }
    destruct J as (A & B & C). unfold J19, cur. rewrite E5, E3, E4. split; [constructor|]. split; [exact B|]. intros F. apply fit_cons in F as [F _]. destruct (C F) as (C1 & C2 & C3 & C4 & C5).
    assert (live g' s) as Hl by (split; assumption). change (acks_of (O_SENT o :: c_out s)) with (acks_step (O_SENT o) (acks_of (c_out s))).
    unfold acks_inv, cur, opening_, live in *. rewrite E1, E2, E3, E5. unfold cur in C1, C4. rewrite Hcu in C1, C4. split; [|split; [exact C2|split; [exact C3|split]]].
    + intros Ho. destruct (C1 Ho) as (D1 & D2 & D3 & D4). inversion D3 as [|? ? D5 _]; subst. split; [exact D1|]. split; [rewrite D2; cbn [acks_step due owed owed_since app taken]; destruct (op_packet o); try reflexivity|]. split; [constructor|exact D4].
    + intros _. destruct (C4 Hl) as (rest & R1 & R2). exists rest. split; [|exact R2]. cbn [acks_step]. unfold due at 1. cbn [owed owed_since]. rewrite app_nil_r, R1. destruct (op_packet o); reflexivity.
    + intros _ o1 H. discriminate H.
  - jsm J. same0.
  - jsm J. same1.
Qed.

(** ** Handles still usable were taken on this connection *)
Definition J20 (x : ghost * client) : Prop := let '(g, s) := x in acks_fit (c_out s) -> incl (mc s) (taken (acks_of (c_out s))).
Lemma settled_J20 g s : reach (g, s) -> ok s -> live g s \/ opening_ g s -> J20 (g, s).
Proof.
  intros R Ok H F. destruct (reach_J19 _ _ R Ok) as (_ & _ & J). destruct (J F) as (C1 & C2 & _). destruct H as [H|H]; [rewrite (C2 H); apply incl_refl|]. destruct (C1 H) as (-> & _). intros x [].
Qed.
Definition takeless (x : out) : Prop := match x with O_PUBLISH _ (Some _) | I_ACK _ | O_LIFE ATTEMPTING_CONNECT => False | _ => True end.
Lemma takeless_of d l : Forall takeless d -> taken (acks_of (d ++ l)) = taken (acks_of l).
Proof.
  induction 1 as [|x d Hx _ IH]; [reflexivity|]. cbn [app acks_of]. destruct x as [e| | | | | | | |v [?|]| | | | |]; try contradiction; try exact IH.
  - destruct e; try contradiction; exact IH.
  - cbn [acks_step]. destruct (_ || _); exact IH.
Qed.
Lemma reach_J20 g s : reach (g, s) -> ok s -> J20 (g, s).
Proof.
  intros R Ok. refine (reach_inv cf now0 J20 _ _ _ (g, s) R Ok).
  { intros _ x []. }
  { intros s1 now _ _ J F. change (c_out (emit ?a s1)) with (a :: c_out s1) in *. apply fit_cons in F as [F _]. exact (J F). }
  clear R Ok g s. intros g s g' s' R Ok Ok' J P. assert (reach (g', s')) as R' by (eapply reach_prim; eassumption). pose proof (prim_man _ _ _ _ Ok Ok' P) as M.
  destruct (prim_attempts cf _ _ _ _ Ok P) as [(_ & -> & -> & _)|(d & D & Hd)].
  { apply settled_J20; [exact R'|exact Ok'|]. right. left. reflexivity. }
  destruct M as [(E & d' & D' & H)|[(a & v & -> & Hl)|[(c & ->)| ->]]].
  - intros F. rewrite D' in *. apply app_inv_tail in D. subst d'. unfold mc in *. rewrite E. rewrite takeless_of; [apply J; exact (fit_app _ _ F)|].
    rewrite Forall_forall in *. intros x Hx. specialize (H x Hx). specialize (Hd x Hx). destruct x as [e| | | | | | | |v [?|]| | | | |]; try contradiction; try exact I. destruct e; try exact I. discriminate Hd.
  - (* publish *) apply settled_J20; [exact R'|exact Ok'|]. left. destruct (publish_received_eq a v s) as (m & c & [(_ & E & _)|[(_ & _ & E)|(_ & _ & _ & E)]] & _); rewrite E; exact Hl.
  - (* manual *) intros F. unfold manual_core in *. change (mc (emit ?a s)) with (mc s) in *. change (mx (emit ?a s)) with (mx s) in *. destruct (lookup c (mc s)) as [id|] eqn:L.
    + set (s1 := puback_core _ _ _) in *. change (c_out s1) with (I_ACK c :: c_out s) in *. apply fit_cons in F as [F _]. specialize (J F). change (mc s1) with (remove_key c (mc s)).
      change (acks_of (I_ACK c :: c_out s)) with (acks_step (I_ACK c) (acks_of (c_out s))). cbn [acks_step]. intros h Hh. unfold remove_key in Hh. apply filter_In in Hh as [H1 H2]. apply J in H1.
      destruct (find (fun h => fst h =? c) (taken (acks_of (c_out s)))); [cbn [taken]; apply filter_In; auto|exact H1].
    + assert (forall r, acks_fit (O_ACK_RESULT c r :: I_ACK c :: c_out s) -> incl (mc s) (taken (acks_of (O_ACK_RESULT c r :: I_ACK c :: c_out s)))) as G.
      { intros r F1. apply fit_cons in F1 as [F1 _]. apply fit_cons in F1 as [F1 _]. specialize (J F1). change (acks_of (O_ACK_RESULT c r :: I_ACK c :: c_out s)) with (acks_step (I_ACK c) (acks_of (c_out s))). cbn [acks_step].
        intros h Hh. destruct (find (fun h => fst h =? c) (taken (acks_of (c_out s)))); [|exact (J _ Hh)]. cbn [taken]. apply filter_In. split; [exact (J _ Hh)|]. destruct h as [c1 i]. cbn [fst]. destruct (N.eqb_spec c1 c); [|reflexivity]. subst. exfalso. exact (lookup_none_in _ _ _ L Hh). }
      destruct (existsb (N.eqb c) (mx s)); (change (c_out (emit ?a ?b)) with (a :: c_out b) in *; exact (G _ F)).
  - (* reset *) assert (c_out (reset_manual s) = c_out s) as E by (unfold reset_manual; destruct (mc s); reflexivity). intros F. rewrite E in *. unfold reset_manual. destruct (mc s) eqn:E'; [rewrite E'|]; intros x [].
Qed.

(** ** What the trace shows *)
Lemma sent_puback g s later o earlier p : reach (g, s) -> ok s -> c_out s = later ++ O_SENT o :: earlier -> acks_fit earlier -> op_packet o = P_PUBACK p ->
  p = mkpuback (pa_packet_id p) 0 None [] /\ exists rest, due (acks_of earlier) = pa_packet_id p :: rest.
Proof.
  intros R Ok E F Hp. destruct (event_cause _ _ _ _ _ _ _ R Ok E) as (g1 & s1 & g2 & s2 & d1 & d2 & x' & R1 & O1 & _ & _ & C & _ & -> & _). inversion C; subst; clear C.
  - match goal with H : neutral _ = true |- _ => discriminate H end.
  - match goal with H : curop _ = Some o |- _ => rename H into Hcu1 end. match goal with H : sending _ = true |- _ => rename H into Hs1 end. match goal with H : g_link _ = FINE |- _ => rename H into Hg1 end.
    cbn [app] in F. destruct (reach_J19 _ _ R1 O1) as (A & _ & J). destruct (J F) as (_ & _ & _ & C4 & _). destruct (C4 (conj (Hs1) (Hg1))) as (rest & D & _).
    unfold cur in A, D. rewrite Hcu1, Hp in A, D. split; [inversion A; assumption|]. exists rest. exact D.
Qed.
Lemma sent_request g s later o earlier : reach (g, s) -> ok s -> c_out s = later ++ O_SENT o :: earlier -> acks_fit earlier -> is_request (op_packet o) = true ->
  owed (acks_of earlier) = [].
Proof.
  intros R Ok E F Hp. destruct (event_cause _ _ _ _ _ _ _ R Ok E) as (g1 & s1 & g2 & s2 & d1 & d2 & x' & R1 & O1 & _ & _ & C & _ & -> & _). inversion C; subst; clear C.
  - match goal with H : neutral _ = true |- _ => discriminate H end.
  - match goal with H : curop _ = Some o |- _ => rename H into Hcu1 end. match goal with H : sending _ = true |- _ => rename H into Hs1 end. match goal with H : g_link _ = FINE |- _ => rename H into Hg1 end.
    cbn [app] in F. destruct (reach_J19 _ _ R1 O1) as (_ & _ & J). destruct (J F) as (_ & _ & _ & _ & C5). exact (C5 (conj Hs1 Hg1) _ Hcu1 Hp).
Qed.
Lemma held_acks s : reach (g_idle, s) -> ok s -> acks_fit (c_out s) -> current s = CONNECTED ->
  puback_ids (match curop s with Some o => [o] | None => [] end ++ queued s) = due (acks_of (c_out s)).
Proof.
  assert (forall l, puback_ids l = pids (map op_packet l)) as Hids by (intros l; unfold puback_ids, pids; induction l as [|x l IH]; [reflexivity|]; cbn [flat_map map]; rewrite IH; reflexivity). rewrite Hids.
  intros R Ok F Hc. destruct (reach_J19 _ _ R Ok) as (_ & _ & J). destruct (J F) as (_ & _ & _ & C4 & _). assert (live g_idle s) as L by (split; [rewrite Hc; reflexivity|reflexivity]).
  destruct (C4 L) as (rest & -> & D). rewrite (D Hc), map_app, pids_app. f_equal. unfold cur. destruct (curop s); reflexivity.
Qed.
Lemma handle_given g s later v c earlier : reach (g, s) -> ok s -> c_out s = later ++ O_PUBLISH v (Some c) :: earlier -> acks_fit (O_PUBLISH v (Some c) :: earlier) ->
  pb_qos v <> 0 /\ c <> 0 /\ (handle_of c earlier = UNKNOWN /\ (forall c', ~ In (c', pb_packet_id v) (taken (acks_of earlier))) \/ handle_of c earlier = OPEN (pb_packet_id v) /\ In (c, pb_packet_id v) (taken (acks_of earlier))) /\
  (forall c' id, In (c', id) (taken (acks_of earlier)) -> (c' = c <-> id = pb_packet_id v)).
Proof.
  intros R Ok E F. apply fit_cons in F as [F L]. destruct (event_cause _ _ _ _ _ _ _ R Ok E) as (g1 & s1 & g2 & s2 & d1 & d2 & x' & R1 & O1 & _ & _ & C & _ & -> & _). inversion C; subst; clear C.
  - match goal with H : neutral _ = true |- _ => discriminate H end.
  - cbn [app] in *. apply fit_cons in F as [F _]. cbn [length] in L. assert (N.of_nat (length (c_out s1)) < two64 - 2) as L' by (clear - L; lia). clear L; rename L' into L.
    change (acks_of (I_PACKET (P_PUBLISH v) :: c_out s1)) with (acks_of (c_out s1)). change (handle_of c (I_PACKET (P_PUBLISH v) :: c_out s1)) with (handle_of c (c_out s1)).
    match goal with H : current s1 = _ \/ _ |- _ => rename H into Hc end. match goal with H : (m, Some c) = _ |- _ => rename H into Hm end.
    assert (live g2 s1) as Hl by (split; [destruct Hc as [-> | ->]; reflexivity|assumption]). destruct (reach_J19 _ _ R1 O1) as (_ & _ & J). destruct (J F) as (_ & C2 & _). rewrite (C2 Hl). clear J C2.
    pose proof (reach_J18 _ _ R1 O1 F) as M. cbv beta in M. pose proof (man_publish acquire v s1 (c_out s1) M L m (Some c) Hm) as [_ P2].
    destruct M as (A1 & A2 & A3 & A4 & A5 & A6 & A7 & _). destruct acquire; cbn [andb] in *; [|discriminate Hm]. destruct (N.eqb_spec (pb_qos v) 0) as [Hq|Hq]; cbn [negb] in *; [discriminate Hm|]. split; [exact Hq|].
    change (mn_mp (c_man s1)) with (mp s1) in *. change (mn_mc (c_man s1)) with (mc s1) in *.
    destruct (lookup (pb_packet_id v) (mp s1)) as [c1|] eqn:Lk; injection Hm as -> ->.
    + apply lookup_in in Lk. pose proof Lk as Lc. rewrite <- A5 in Lc. destruct (A7 _ _ Lc) as [Ho _]. split; [assert (1 <= c1 < next_ctl s1) as H by (apply A6; congruence); lia|]. split; [right; auto|].
      intros c' id H. split; [intros ->; exact (nodup_key _ _ _ _ A3 H Lc)|intros ->; rewrite A5 in H; exact (nodup_key _ _ _ _ A4 H Lk)].
    + change (mn_next_ctl (c_man s1)) with (next_ctl s1) in A1. split; [lia|]. destruct (P2 eq_refl eq_refl) as [_ Hu].
      assert (forall c', ~ In (c', pb_packet_id v) (mc s1)) as Hn by (intros c' H; rewrite A5 in H; exact (lookup_none_in _ _ _ Lk H)). split; [left; auto|].
      intros c' id H. split; [intros ->; exfalso; destruct (A7 _ _ H); congruence|intros ->; exfalso; exact (Hn _ H)].
Qed.
(** a use of a handle, and what it reports *)
Lemma handle_answer g s later c r earlier : reach (g, s) -> ok s -> c_out s = later ++ O_ACK_RESULT c r :: earlier -> acks_fit earlier ->
  exists earlier', earlier = I_ACK c :: earlier' /\
    match handle_of c earlier' with
    | OPEN id => r = MPAR_CANCELLED /\ ~ (phase_of earlier' = LS_CONNECTED /\ In (c, id) (taken (acks_of earlier')))
    | _ => r = MPAR_INVALID
    end.
Proof.
  intros R Ok E F. destruct (event_cause _ _ _ _ _ _ _ R Ok E) as (g1 & s1 & g2 & s2 & d1 & d2 & x' & R1 & O1 & _ & _ & C & _ & -> & _). inversion C; subst; clear C.
  - match goal with H : neutral _ = true |- _ => discriminate H end.
  - cbn [app] in *. exists (c_out s1). split; [reflexivity|]. apply fit_cons in F as [F _]. pose proof (reach_J18 _ _ R1 O1 F) as (_ & _ & A3 & _ & _ & _ & A7 & A8 & A9). change (mn_mc (c_man s1)) with (mc s1) in *. change (mn_mx (c_man s1)) with (mx s1) in *.
    match goal with H : lookup c (mc s1) = None |- _ => rename H into L end. assert (forall id, ~ In (c, id) (mc s1)) as Hn by (intros id H; exact (lookup_none_in _ _ _ L H)).
    assert (existsb (N.eqb c) (mx s1) = true <-> In c (mx s1)) as Hx by (rewrite existsb_exists; split; [intros (y & H & Hy); apply N.eqb_eq in Hy; subst; exact H|intros H; exists c; split; [exact H|apply N.eqb_refl]]).
    destruct (existsb (N.eqb c) (mx s1)).
    + destruct (A8 c (proj1 Hx eq_refl)) as [id ->]. split; [reflexivity|]. intros [Hp Ht]. destruct (reach_J7 _ _ _ _ R1 O1) as (J7a & J7b). rewrite <- J7a in Hp. destruct (reach_J19 _ _ R1 O1) as (_ & _ & J). destruct (J F) as (_ & C2 & _).
      rewrite C2 in Ht; [exact (Hn _ Ht)|]. split; [destruct (J7b Hp) as [-> | ->]; reflexivity|]. assumption.
    + destruct (handle_of c (c_out s1)) as [|id|] eqn:H; [reflexivity| |reflexivity]. exfalso. destruct (A9 _ _ H) as [G1|G1]; [exact (Hn _ G1)|]. apply Hx in G1. discriminate G1.
Qed.
Lemma handle_used g s later c earlier : reach (g, s) -> ok s -> c_out s = later ++ I_ACK c :: earlier -> acks_fit earlier ->
  match handle_of c earlier with
  | OPEN id => ~ In (c, id) (taken (acks_of earlier)) -> exists later', later = later' ++ [O_ACK_RESULT c MPAR_CANCELLED]
  | _ => exists later', later = later' ++ [O_ACK_RESULT c MPAR_INVALID]
  end.
Proof.
  intros R Ok E F. destruct (event_cause _ _ _ _ _ _ _ R Ok E) as (g1 & s1 & g2 & s2 & d1 & d2 & x' & R1 & O1 & _ & _ & C & Es & -> & ->). inversion C; subst; clear C.
  - match goal with H : neutral _ = true |- _ => discriminate H end.
  - cbn [app] in *. pose proof (reach_J18 _ _ R1 O1 F) as (_ & _ & A3 & _ & _ & _ & A7 & A8 & A9). pose proof (reach_J20 _ _ R1 O1 F) as K. change (mn_mc (c_man s1)) with (mc s1) in *. change (mn_mx (c_man s1)) with (mx s1) in *.
    unfold manual_core in Es. change (mc (emit ?a s1)) with (mc s1) in Es. change (mx (emit ?a s1)) with (mx s1) in Es. destruct (lookup c (mc s1)) as [id|] eqn:L.
    + apply lookup_in in L. destruct (A7 _ _ L) as [-> _]. intros H. exfalso. apply H, K, L.
    + assert (forall id, ~ In (c, id) (mc s1)) as Hn by (intros id H; exact (lookup_none_in _ _ _ L H)).
      assert (forall r, O_ACK_RESULT c r :: I_ACK c :: c_out s1 = d1 ++ I_ACK c :: c_out s1 -> d1 = [O_ACK_RESULT c r]) as G.
      { intros r H. symmetry. apply (app_inv_tail (I_ACK c :: c_out s1)). exact H. }
      assert (existsb (N.eqb c) (mx s1) = true <-> In c (mx s1)) as Hx by (rewrite existsb_exists; split; [intros (y & H & Hy); apply N.eqb_eq in Hy; subst; exact H|intros H; exists c; split; [exact H|apply N.eqb_refl]]).
      destruct (existsb (N.eqb c) (mx s1)).
      * destruct (A8 c (proj1 Hx eq_refl)) as [id ->]. intros _. exists x'. f_equal. apply G. exact Es.
      * assert (d1 = [O_ACK_RESULT c MPAR_INVALID]) as -> by (apply G; exact Es).
        destruct (handle_of c (c_out s1)) as [|id|] eqn:H; [eauto| |eauto]. exfalso. destruct (A9 _ _ H) as [G1|G1]; [exact (Hn _ G1)|]. apply Hx in G1. discriminate G1.
Qed.
(** a message received on an established connection is handed to the user at once, and nothing else is *)
Lemma delivered g s later v earlier : reach (g, s) -> ok s -> c_out s = later ++ I_PACKET (P_PUBLISH v) :: earlier -> phase_of earlier = LS_CONNECTED ->
  exists later' c, later = later' ++ [O_PUBLISH v c].
Proof.
  intros R Ok E Hp. destruct (event_cause _ _ _ _ _ _ _ R Ok E) as (g1 & s1 & g2 & s2 & d1 & d2 & x' & R1 & O1 & _ & _ & C & _ & -> & ->). inversion C; subst; clear C.
  - exfalso. cbn [app] in *. match goal with H : heard _ _ _ |- _ => destruct H as [Hu _] end. destruct (reach_J7 _ _ _ _ R1 O1) as (J7a & J7b). rewrite <- J7a in Hp.
    destruct (J7b Hp) as [C | C]; rewrite C in Hu; discriminate Hu.
  - eauto.
Qed.
Lemma delivered_once g s later v c earlier : reach (g, s) -> ok s -> c_out s = later ++ O_PUBLISH v c :: earlier -> exists earlier', earlier = I_PACKET (P_PUBLISH v) :: earlier'.
Proof.
  intros R Ok E. destruct (event_cause _ _ _ _ _ _ _ R Ok E) as (g1 & s1 & g2 & s2 & d1 & d2 & x' & R1 & O1 & _ & _ & C & _ & -> & _). inversion C; subst; clear C.
  - match goal with H : neutral _ = true |- _ => discriminate H end.
  - eexists. reflexivity.
Qed.
End Acks.
