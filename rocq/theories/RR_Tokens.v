(** Correlation tokens: no two requests in progress have the same. *)
From Verif Require Import Base Split TopicAlias_Model TopicAlias_Proofs SubSet_Model Topic_Model Paths RR_Model RR_Spec RR_Steps RR_Decomp RR_Subs RR_Flights RR_Kinds RR_Trace RR_OpsTrace RR_Filters RR_All RR_Lives RR_Requests RR_Why RR_Streams.
From Coq Require Import Permutation.

(** the ghost is taking [o] from the queue *)
Definition busy (g : ghost) (o : op) : Prop := (exists rest, g = TAKING o rest) \/ exists a, g = TOOK o a.
Record J14 (g : ghost) (s : client) : Prop := {
  t_op : forall id o r, get_op id s = Some o -> o_work o = W_REQUEST r -> o_tables o = true -> find_key (r_token r) (c_tokens s) = Some id;
  t_leaving : forall o rest r, g = LEAVING o rest -> o_work o = W_REQUEST r -> o_tables o = true -> find_key (r_token r) (c_tokens s) = Some (o_id o);
  t_busy : forall o r, busy g o -> o_work o = W_REQUEST r -> find_key (r_token r) (c_tokens s) = None }.
(** operations in the tables were there before *)
Definition tabled (s s' : client) : Prop := forall id o', get_op id s' = Some o' -> o_tables o' = true -> exists o, get_op id s = Some o /\ o_work o = o_work o' /\ o_tables o = true.
Lemma tabled_ops s s' : c_ops s' = c_ops s -> tabled s s'.
Proof. intros E id o' H Ht. unfold get_op in *. rewrite E in H. eauto. Qed.
Lemma tabled_trans s s1 s2 : tabled s s1 -> tabled s1 s2 -> tabled s s2.
Proof. intros H1 H2 id o' H Ht. destruct (H2 _ _ H Ht) as (o1 & K1 & K2 & K3). destruct (H1 _ _ K1 K3) as (o & L1 & L2 & L3). exists o. split; [exact L1|]. split; congruence. Qed.
Lemma tabled_upd id h s : (forall o, o_id (h o) = o_id o /\ o_work (h o) = o_work o /\ o_tables (h o) = o_tables o) -> tabled s (upd_op id h s).
Proof.
  intros Hh i o' H Ht. rewrite get_op_upd in H by (intros; apply Hh). destruct (i =? id); [|eauto]. destruct (get_op i s) as [o|]; [|discriminate]. injection H as <-. exists o. destruct (Hh o) as (_ & K1 & K2). rewrite K1. rewrite K2 in Ht. auto.
Qed.
Lemma unref_tabled o : o_id (unref o) = o_id o /\ o_work (unref o) = o_work o /\ o_tables (unref o) = o_tables o.
Proof. unfold unref. destruct (_ =? _); repeat split. Qed.
Lemma j14_go g s g' s' : J14 g s -> c_tokens s' = c_tokens s -> tabled s s' -> (forall o rest, g' = LEAVING o rest -> exists rest', g = LEAVING o rest') -> (forall o, busy g' o -> busy g o) -> J14 g' s'.
Proof.
  intros [A B C] Ht Hk Hl Hb. constructor; rewrite ?Ht.
  - intros id o r K1 K2 K3. destruct (Hk _ _ K1 K3) as (o0 & L1 & L2 & L3). apply (A id o0 r L1); [congruence|exact L3].
  - intros o rest r K. destruct (Hl _ _ K) as [rest' K']. apply (B o rest' r K').
  - intros o r K. apply (C o r (Hb o K)).
Qed.
Ltac hk := unfold completed, halted, release, activate_stream; repeat (first [apply tabled_ops; reflexivity|eapply tabled_trans; [|apply tabled_upd; intros ?; first [apply unref_tabled|repeat split; reflexivity]]]).
Ltac hl := intros ? ? K; first [discriminate K|injection K as <- <-; eexists; reflexivity|eexists; exact K].
Ltac hb := intros ? K; first [exact K|destruct K as [[? K]|[? K]]; solve [discriminate K|injection K as <- _; left; eexists; reflexivity|injection K as <-; left; eexists; reflexivity]].
Ltac hf := solve [eapply j14_go; [eassumption|reflexivity|hk|hl|hb]].
Lemma fail_tabled id e s : tabled s (fail id e s).
Proof.
  unfold fail. destruct (get_op id s) as [o|]; [|apply tabled_ops; reflexivity]. unfold complete, halt. destruct (o_kind o).
  - destruct (state_is _ _); [apply tabled_ops; reflexivity|]. hk.
  - destruct (_ || _); [apply tabled_ops; reflexivity|]. hk.
Qed.
Lemma J14_step cf g s g' s' : JC cf g s -> J14 g s -> big cf (g, s) (g', s') -> J14 g' s'.
Proof.
  intros HC J B. pose proof (jcb _ _ _ HC) as HB. pose proof (jba _ _ _ HB) as HA. pose proof (ja2 _ _ _ HA) as HJ2. pose proof (ja5 _ _ _ HA) as HJ5.
  inversion B as [x y P|s0 Ha Hs|s0 Hp Ho He Hu]; subst; [|hf|hf].
  clear B. inversion P; subst; try hf.
  - (* create *) match goal with H : valid_work w = true |- _ => rename H into Hv end. eapply j14_go; [eassumption|rewrite create_shape by exact Hv; reflexivity| |hl|hb].
    intros id o' K Ht. rewrite create_get in K by exact Hv. destruct (get_op id s) as [x|] eqn:Ex; [injection K as <-; eauto|]. destruct (id =? c_next s); [|discriminate]. injection K as <-. discriminate Ht.
  - (* submitted *) destruct (submitted_is id now s) as [n ->]. hf.
  - (* timeout *) set (s1 := upd_op (o_id o) (set_timed false) s). destruct (fail_shape (o_id o) E_TIMEOUT s1) as (_ & _ & _ & F3 & _). apply rest_inj in F3 as (_ & _ & _ & _ & _ & F3 & _).
    eapply j14_go; [eassumption|exact F3|eapply tabled_trans; [|apply fail_tabled]; unfold s1; hk|hl|hb].
  - (* take *) match goal with H : can_dequeue o _ = true |- _ => rename H into Hd end. destruct J as [A B C]. constructor; [exact A|discriminate|]. intros o1 r [[rest K]|[a K]] Hw; [|discriminate]. injection K as <- _. unfold can_dequeue in Hd. rewrite Hw in Hd.
    destruct (find_key _ _); [discriminate|reflexivity].
  - (* refuse *) match goal with H : can_dequeue o _ = true |- _ => rename H into Hd end. destruct J as [A B C]. constructor; [exact A|discriminate|]. intros o1 r [[rest K]|[a1 K]] Hw; [discriminate|]. injection K as <- _. unfold can_dequeue in Hd. rewrite Hw in Hd.
    cbn [emit set_queue c_tokens]. destruct (find_key _ _); [discriminate|reflexivity].
  - (* listen *) destruct (listen_frame (o_kind o) (o_id o) s f) as (A1 & A2 & A3 & A4 & A5 & _). eapply j14_go; [eassumption|exact A5|apply tabled_ops; unfold listen; destruct (get_sub f s); reflexivity|hl|hb].
  - (* tables *) destruct (add_tables_frame o s) as (_ & _ & _ & _ & _ & F6 & _ & _). destruct (j2_ghost _ _ HJ2 o eq_refl) as (oo & Hoo & Hww). destruct J as [A B C].
    assert (Hg : forall i, get_op i (add_tables o s) = if i =? o_id o then option_map (set_tables true) (get_op i s) else get_op i s).
    { intros i. unfold add_tables. rewrite get_op_upd by reflexivity. assert (E : forall s1, c_ops s1 = c_ops s -> get_op i s1 = get_op i s) by (intros s1 E; unfold get_op; rewrite E; reflexivity). destruct (o_work o) as [r|f]; [rewrite (E (set_tokens _ _)) by (cbn [set_tokens c_ops]; apply add_paths_ops)|rewrite (E (set_streams _ _)) by reflexivity]; reflexivity. }
    constructor; [|discriminate|intros o1 r [[? K]|[? K]]; discriminate].
    intros id o1 r K1 K2 K3. rewrite F6, Hg in *. destruct (N.eqb_spec id (o_id o)) as [->|Hne].
    + rewrite Hoo in K1. injection K1 as <-. change (o_work oo = W_REQUEST r) in K2. rewrite Hww in K2. rewrite K2, find_put, bytes_eqb_refl. reflexivity.
    + pose proof (A id o1 r K1 K2 K3) as K. destruct (o_work o) as [r0|f0] eqn:Ew; [|exact K]. rewrite find_put. destruct (bytes_eqb (r_token r) (r_token r0)) eqn:Eb; [|exact K].
      apply bytes_eqb_spec in Eb. rewrite Eb in K. rewrite (C o r0 (or_intror (ex_intro _ a eq_refl)) Ew) in K. discriminate.
  - (* wake *) destruct (wake_is now s) as [n ->]. hf.
  - (* established *) clear P. match goal with |- context [if ?b then _ else _] => generalize b end. intros [|]; hf.
  - (* message *) rewrite streamed_exact. hf.
  - (* leave *) match goal with H : get_op id s = Some o |- _ => rename H into Ho end. pose proof (get_op_id _ _ _ Ho) as Hid. subst id. destruct J as [A B C]. constructor.
    + intros i o1 r K1 K2 K3. rewrite get_left in K1. destruct (_ =? _); [discriminate|]. exact (A i o1 r K1 K2 K3).
    + intros o1 rest r K K2 K3. injection K as <- _. exact (A _ o r Ho K2 K3).
    + intros o1 r [[? K]|[? K]]; discriminate.
  - (* unlisten *) destruct (unlisten_frame (o_id o) s f) as (A1 & A2 & A3 & A4 & A5 & _). eapply j14_go; [eassumption|exact A5|apply tabled_ops; apply unlisten_frame|hl|hb].
  - (* gone *) destruct (untabled_frame o s) as (_ & _ & _ & _ & _ & F6 & _ & _ & F9 & _). destruct (j5_leaving _ _ HJ5 o rest eq_refl) as [Hnone _]. destruct J as [A B C]. constructor; [|discriminate|intros o1 r [[? K]|[? K]]; discriminate].
    intros id o1 r K1 K2 K3. assert (K1' : get_op id s = Some o1) by (unfold get_op in *; cbn [emit c_ops] in K1; rewrite F9 in K1; exact K1). pose proof (A id o1 r K1' K2 K3) as K. cbn [emit c_tokens]. rewrite F6.
    destruct (o_work o) as [r0|] eqn:Ew; [|exact K]. destruct (o_tables o) eqn:Et; [|exact K]. rewrite find_remove_other; [exact K|]. intros E. rewrite E, (B o rest r0 eq_refl Ew Et) in K. injection K as <-. congruence.
  - (* swap ops *) eapply j14_go; [eassumption|reflexivity| |hl|hb]. intros i x K Ht. rewrite get_perm_op in K; [eauto|exact (j2_ids _ _ HJ2)|assumption].
Qed.

(** ** Nothing is taken from the queue otherwise *)
Definition quiet (x : out) : Prop := match x with O_INTAKE _ a => ~ accepted a | _ => True end.
Lemma prim_intakes cf g s g' s' : prim cf (g, s) (g', s') -> exists l, c_out s' = l ++ c_out s /\ (Forall quiet l \/ exists o a, g = TAKING o [] /\ l = [O_INTAKE (o_id o) a]).
Proof.
  intros P. set (R := fun s' => exists l, c_out s' = l ++ c_out s /\ (Forall quiet l \/ exists o a, g = TAKING o [] /\ l = [O_INTAKE (o_id o) a])). change (R s').
  assert (E0 : forall s', c_out s' = c_out s -> R s') by (intros z H; exists []; split; [exact H|left; constructor]).
  assert (E1 : forall s' x, c_out s' = x :: c_out s -> quiet x -> R s') by (intros z x H Hx; exists [x]; split; [exact H|left; constructor; [exact Hx|constructor]]).
  inversion P; subst; try (apply E0; reflexivity); try (eapply E1; [reflexivity|exact I]).
  - rewrite create_shape in * by assumption. eapply E1; [reflexivity|exact I].
  - eapply E1; [apply submitted_out|exact I].
  - set (s1 := upd_op _ _ s). unfold fail. destruct (get_op _ s1) as [x|]; [|apply E0; reflexivity]. unfold complete, halt. destruct (o_kind x).
    + destruct (state_is _ _); [apply E0; reflexivity|]. eapply E1; [reflexivity|exact I].
    + destruct (_ || _); [apply E0; reflexivity|]. eapply E1; [reflexivity|exact I].
  - eapply E1; [reflexivity|]. cbn [quiet]. eapply refuses_not. eassumption.
  - apply E0, listen_out.
  - exists [O_INTAKE (o_id o) a]. split; [reflexivity|]. right. exists o, a. auto.
  - apply E0, add_tables_out.
  - apply E0, wake_out.
  - destruct (o_state o); (eapply E1; [reflexivity|exact I]).
  - destruct b; (eapply E1; [reflexivity|exact I]).
  - rewrite streamed_exact. exists (messages topic payload (filter (listening s) (recipients topic s)) ++ [I_MESSAGE topic payload j]). split; [rewrite <- app_assoc; reflexivity|]. left. apply Forall_app. split; [|constructor; [exact I|constructor]]. unfold messages. apply Forall_rev, Forall_forall. intros x Hx. apply in_map_iff in Hx as (i & <- & _). exact I.
  - apply E0, unlisten_out.
  - eapply E1; [cbn [emit c_out]; rewrite untabled_out; reflexivity|exact I].
Qed.
Definition J15 (s : client) : Prop := forall l1 id2 a2 l2 id1 r1 r2, c_out s = l1 ++ O_INTAKE id2 a2 :: l2 -> accepted a2 -> taken_in id1 l2 -> is_op id1 (W_REQUEST r1) l2 -> is_op id2 (W_REQUEST r2) l2 -> r_token r1 = r_token r2 ->
  exists x, In (O_COMPLETE id1 x) l2.
Lemma J15_step cf g s g' s' : JC cf g s -> J14 g s -> J15 s -> big cf (g, s) (g', s') -> J15 s'.
Proof.
  intros HC H14 J B. pose proof (jcb _ _ _ HC) as HB. pose proof (jba _ _ _ HB) as HA. pose proof (ja2 _ _ _ HA) as HJ2. pose proof (ja5 _ _ _ HA) as HJ5. pose proof (jb7 _ _ _ HB) as HJ7.
  assert (Hone : forall x, quiet x -> c_out s' = x :: c_out s -> J15 s').
  { intros x Hx E l1 id2 a2 l2 id1 r1 r2 H Ha. rewrite E in H. destruct l1 as [|y l1]; [injection H as -> _; destruct (Hx Ha)|]. injection H as -> H. exact (J _ _ _ _ _ _ _ H Ha). }
  inversion B as [x y P|s0 Ha Hs|s0 Hp Ho He Hu]; subst; try (eapply Hone; [|reflexivity]; exact I).
  destruct (prim_intakes _ _ _ _ _ P) as (m & E & [Hm|(o & a & -> & ->)]); intros l1 id2 a2 l2 id1 r1 r2 H Ha Ht1 Hop1 Hop2 Hr; rewrite E in H; destruct (split_more _ _ _ _ _ H) as [(b & K)|(b & K & ->)]; try (exact (J _ _ _ _ _ _ _ K Ha Ht1 Hop1 Hop2 Hr)).
  - rewrite K in Hm. apply Forall_app in Hm as [_ Hm]. inversion Hm as [|? ? Hx _]; subst. destruct (Hx Ha).
  - destruct l1 as [|z l1]; [|destruct l1; discriminate K]. injection K as <- <- <-. cbn [app] in *. destruct Hop1 as [d1 Hop1]. destruct Hop2 as [d2 Hop2].
    assert (Hw : o_work o = W_REQUEST r2). { destruct (j2_ghost _ _ HJ2 o eq_refl) as (oo & Hoo & Hww). rewrite <- Hww. apply (j5_uniq _ _ HJ5 _ _ _ _ _ (j5_in _ _ HJ5 _ _ Hoo) Hop2). }
    pose proof (t_busy _ _ H14 o r2 (or_introl (ex_intro _ [] eq_refl)) Hw) as Hnone.
    assert (Hdead : get_op id1 s = None).
    { destruct (get_op id1 s) as [o1|] eqn:E1; [|reflexivity]. destruct (j5_uniq _ _ HJ5 _ _ _ _ _ (j5_in _ _ HJ5 _ _ E1) Hop1) as [Hw1 _]. destruct (k_taken _ _ (jc10 _ _ _ HC) id1 o1 E1 Ht1) as [Hb|(o2 & a2 & Hb & _)]; [|discriminate].
      pose proof (t_op _ _ H14 id1 o1 r1 E1 Hw1 Hb) as K. rewrite Hr, Hnone in K. discriminate. }
    apply completes_some. eapply (j7_dead _ _ HJ7); eassumption.
Qed.
Lemma one_at_a_time cf connected l tr1 id2 a2 tr2 id1 a1 r1 r2 : cf_ok cf -> trace (history cf connected l) = tr1 ++ O_INTAKE id2 a2 :: tr2 -> accepted a2 -> accepted a1 -> In (O_INTAKE id1 a1) tr1 ->
  is_op id1 (W_REQUEST r1) tr1 -> is_op id2 (W_REQUEST r2) tr1 -> r_token r1 = r_token r2 -> exists x, In (O_COMPLETE id1 x) tr1.
Proof.
  intros Hc H Ha2 Ha1 Hi [d1 H1] [d2 H2] Hr. assert (K : JC cf IDLE (history cf connected l) /\ J14 IDLE (history cf connected l) /\ J15 (history cf connected l)).
  { apply (history_inv cf (fun g s => JC cf g s /\ J14 g s /\ J15 s)).
    - split; [constructor; [apply JB_new|apply J9_new|apply J11_new|apply J10_new]|]. split; [constructor; [discriminate|discriminate|intros o r [[? K]|[? K]]; discriminate]|]. intros l1 i2 b2 l2 i1 q1 q2 K. destruct l1; discriminate.
    - intros g s g' s' (K1 & K2 & K3) B. split; [eapply JC_step; eassumption|]. split; [eapply J14_step; eassumption|eapply J15_step; eassumption]. }
  destruct K as (_ & _ & K). destruct (K (rev tr2) id2 a2 (rev tr1) id1 r1 r2) as [x Hx].
  - apply (f_equal (@rev out)) in H. unfold trace in H. rewrite rev_involutive, rev_app_distr in H. cbn [rev] in H. rewrite <- app_assoc in H. exact H.
  - exact Ha2.
  - exists a1. split; [exact Ha1|]. apply -> in_rev. exact Hi.
  - exists d1. apply -> in_rev. exact H1.
  - exists d2. apply -> in_rev. exact H2.
  - exact Hr.
  - exists x. apply in_rev. exact Hx.
Qed.

(** ** What is published has been taken from the queue *)
Record J16 (g : ghost) (s : client) : Prop := {
  u_pub : forall id ok, In (O_PUBLISH id ok) (c_out s) -> taken_in id (c_out s);
  u_ghost : forall o, g = PUBLISHING o \/ (exists a, g = TABLED o a) -> taken_in (o_id o) (c_out s);
  u_state : forall id o, get_op id s = Some o -> o_state o = S_PENDING_SUBSCRIPTION -> taken_in id (c_out s) }.
Definition waited (s s' : client) : Prop := forall id o', get_op id s' = Some o' -> o_state o' = S_PENDING_SUBSCRIPTION -> exists o, get_op id s = Some o /\ o_state o = S_PENDING_SUBSCRIPTION.
Lemma waited_ops s s' : c_ops s' = c_ops s -> waited s s'.
Proof. intros E id o' H Ht. unfold get_op in *. rewrite E in H. eauto. Qed.
Lemma waited_trans s s1 s2 : waited s s1 -> waited s1 s2 -> waited s s2.
Proof. intros H1 H2 id o' H Ht. destruct (H2 _ _ H Ht) as (o1 & K1 & K2). exact (H1 _ _ K1 K2). Qed.
Lemma waited_upd id h s : (forall o, o_id (h o) = o_id o) -> (forall o, o_state (h o) = S_PENDING_SUBSCRIPTION -> o_state o = S_PENDING_SUBSCRIPTION) -> waited s (upd_op id h s).
Proof.
  intros Hi Hh i o' H Ht. rewrite get_op_upd in H by exact Hi. destruct (i =? id); [|eauto]. destruct (get_op i s) as [o|]; [|discriminate]. injection H as <-. exists o. auto.
Qed.
Lemma unref_state o : o_state (unref o) = o_state o.
Proof. unfold unref. destruct (_ =? _); reflexivity. Qed.
Lemma taken_more m l id : taken_in id l -> taken_in id (m ++ l).
Proof. intros (a & Ha & K). exists a. split; [exact Ha|]. apply in_or_app. right. exact K. Qed.
Definition unpublished (x : out) : Prop := match x with O_PUBLISH _ _ => False | _ => True end.
Lemma j16_go g s g' s' m : J16 g s -> c_out s' = m ++ c_out s -> Forall unpublished m -> waited s s' -> (forall o, g' = PUBLISHING o \/ (exists a, g' = TABLED o a) -> taken_in (o_id o) (c_out s')) -> J16 g' s'.
Proof.
  intros [A B C] Ho Hm Hw Hg. constructor; [| exact Hg|]; rewrite ?Ho.
  - intros id ok K. apply in_app_or in K as [K|K]; [rewrite Forall_forall in Hm; destruct (Hm _ K)|]. apply taken_more. exact (A _ _ K).
  - intros id o K1 K2. destruct (Hw _ _ K1 K2) as (o0 & L1 & L2). apply taken_more. exact (C _ _ L1 L2).
Qed.
Ltac iw := unfold completed, halted, release, activate_stream; repeat (first [apply waited_ops; reflexivity|eapply waited_trans; [|apply waited_upd; [intros ?; first [apply unref_id|reflexivity]|intros ?; first [rewrite unref_state; exact (fun h => h)|exact (fun h => h)|discriminate]]]]).
Ltac if0 := solve [eapply (j16_go _ _ _ _ []); [eassumption|reflexivity|constructor|iw|intros ? K; destruct K as [K|[? K]]; solve [discriminate K|match goal with J : J16 _ _ |- _ => eapply (u_ghost _ _ J); first [left; exact K|right; eexists; exact K|injection K as <-; right; eexists; reflexivity] end]]
  |match goal with |- J16 _ ?s' => let x := eval cbn [completed halted subscribing unsubscribing told activate_stream release upd_op upd_sub set_ops set_subs set_queue set_flights set_publishes set_events set_connected set_scheduled set_phase emit c_out] in (c_out s') in match x with ?y :: _ =>
  eapply (j16_go _ _ _ _ [y]); [eassumption|reflexivity|constructor; [exact I|constructor]|iw|intros ? K; destruct K as [K|[? K]]; solve [discriminate K|match goal with J : J16 _ _ |- _ => apply (taken_more [y]); eapply (u_ghost _ _ J); first [left; exact K|right; eexists; exact K] end]] end end].
Lemma fail_waited id e s : waited s (fail id e s).
Proof.
  unfold fail. destruct (get_op id s) as [o|]; [|apply waited_ops; reflexivity]. unfold complete, halt. destruct (o_kind o).
  - destruct (state_is _ _); [apply waited_ops; reflexivity|]. iw.
  - destruct (_ || _); [apply waited_ops; reflexivity|]. iw.
Qed.
Lemma fail_unpublished id e s : exists m, c_out (fail id e s) = m ++ c_out s /\ Forall unpublished m.
Proof.
  assert (D : exists m, c_out s = m ++ c_out s /\ Forall unpublished m) by (exists []; split; [reflexivity|constructor]).
  unfold fail. destruct (get_op id s) as [o|]; [|exact D]. unfold complete, halt. destruct (o_kind o).
  - destruct (state_is _ _); [exact D|]. eexists [_]. split; [reflexivity|]. constructor; [exact I|constructor].
  - destruct (_ || _); [exact D|]. eexists [_]. split; [reflexivity|]. constructor; [exact I|constructor].
Qed.
Lemma J16_step cf g s g' s' : JC cf g s -> J16 g s -> big cf (g, s) (g', s') -> J16 g' s'.
Proof.
  intros HC J B. pose proof (jcb _ _ _ HC) as HB. pose proof (jba _ _ _ HB) as HA. pose proof (ja2 _ _ _ HA) as HJ2. pose proof (ja5 _ _ _ HA) as HJ5.
  inversion B as [x y P|s0 Ha Hs|s0 Hp Ho He Hu]; subst; [|if0|if0].
  clear B. inversion P; subst; try if0.
  - (* create *) match goal with H : valid_work w = true |- _ => rename H into Hv end. eapply (j16_go _ _ _ _ [_]); [eassumption|rewrite create_shape by exact Hv; reflexivity|constructor; [exact I|constructor]| |intros ? [K|[? K]]; discriminate].
    intros id o' K Ht. rewrite create_get in K by exact Hv. destruct (get_op id s) as [x|] eqn:Ex; [injection K as <-; eauto|]. destruct (id =? c_next s); [|discriminate]. injection K as <-. discriminate Ht.
  - (* submitted *) destruct (submitted_is id now s) as [n ->]. if0.
  - (* timeout *) set (s1 := upd_op (o_id o) (set_timed false) s). destruct (fail_unpublished (o_id o) E_TIMEOUT s1) as (m & F1 & Fm). eapply (j16_go _ _ _ _ m); [eassumption|exact F1|exact Fm|eapply waited_trans; [|apply fail_waited]; unfold s1; iw|intros ? [K|[? K]]; discriminate].
  - (* listen *) eapply (j16_go _ _ _ _ []); [eassumption|apply listen_out|constructor|apply waited_ops; unfold listen; destruct (get_sub f s); reflexivity|intros ? [K|[? K]]; discriminate].
  - (* tables *) match goal with H : a = A_SUBSCRIBING \/ a = A_SUBSCRIBED |- _ => rename H into Hacc end. eapply (j16_go _ _ _ _ []); [eassumption|apply add_tables_out|constructor| |].
    + unfold add_tables. eapply waited_trans; [|apply waited_upd; [reflexivity|exact (fun _ h => h)]]. apply waited_ops. destruct (o_work o); [cbn [set_tokens c_ops]; apply add_paths_ops|reflexivity].
    + intros o1 [K|[a1 K]]; [discriminate|]. injection K as <- _. rewrite add_tables_out. exists a. split; [exact Hacc|]. pose proof (j9_about _ _ _ (jc9 _ _ _ HC)) as A. cbn [about_ok] in A. destruct A as (_ & A & _). unfold trace in A. rewrite <- in_rev in A. exact A.
  - (* wait *) pose proof (u_ghost _ _ J o (or_intror (ex_intro _ _ eq_refl))) as Hme. destruct J as [A B C]. constructor; [exact A|intros ? [K|[? K]]; discriminate|]. intros id o1 K1 K2. rewrite get_op_upd in K1 by reflexivity. destruct (N.eqb_spec id (o_id o)) as [->|]; [exact Hme|exact (C _ _ K1 K2)].
  - (* publish *) pose proof (u_ghost _ _ J o (or_introl eq_refl)) as Hme. destruct J as [A B C]. constructor; [|intros ? [K|[? K]]; discriminate|].
    + intros id ok [K|K]; apply (taken_more [_]); [injection K as <- _; exact Hme|exact (A _ _ K)].
    + intros id o1 K1 K2. apply (taken_more [_]). exact (C id o1 K1 K2).
  - (* publish refused *) pose proof (u_ghost _ _ J o (or_introl eq_refl)) as Hme. destruct J as [A B C]. constructor; [|intros ? [K|[? K]]; discriminate|].
    + intros id ok [K|K]; apply (taken_more [_]); [injection K as <- _; exact Hme|exact (A _ _ K)].
    + intros id o1 K1 K2. apply (taken_more [_]). exact (C id o1 K1 K2).
  - (* wake *) destruct (wake_is now s) as [n ->]. if0.
  - (* ready *) match goal with H : get_op id s = Some o |- _ => rename H into Ho end. match goal with H : o_state o = _ |- _ => rename H into Hst end. eapply (j16_go _ _ _ _ []); [eassumption|reflexivity|constructor|iw|].
    intros o1 [K|[? K]]; [|discriminate]. injection K as <-. rewrite (get_op_id _ _ _ Ho). exact (u_state _ _ J _ _ Ho Hst).
  - (* established *) clear P. match goal with |- context [if ?b then _ else _] => generalize b end. intros [|]; if0.
  - (* acked *) eapply (j16_go _ _ _ _ [_]); [eassumption|reflexivity|constructor; [destruct b; exact I|constructor]|iw|intros ? [K|[? K]]; discriminate].
  - (* message *) rewrite streamed_exact. eapply (j16_go _ _ _ _ (messages topic payload (filter (listening s) (recipients topic s)) ++ [I_MESSAGE topic payload j])); [eassumption|rewrite <- app_assoc; reflexivity| |iw|intros ? [K|[? K]]; discriminate].
    apply Forall_app. split; [|constructor; [exact I|constructor]]. unfold messages. apply Forall_rev, Forall_forall. intros x Hx. apply in_map_iff in Hx as (i & <- & _). exact I.
  - (* leave *) eapply (j16_go _ _ _ _ []); [eassumption|reflexivity|constructor| |intros ? [K|[? K]]; discriminate]. intros i x K Ht. rewrite get_left in K. destruct (_ =? _); [discriminate|eauto].
  - (* unlisten *) eapply (j16_go _ _ _ _ []); [eassumption|apply unlisten_out|constructor|apply waited_ops; apply unlisten_frame|intros ? [K|[? K]]; discriminate].
  - (* gone *) destruct (untabled_frame o s) as (_ & _ & _ & _ & _ & _ & _ & F8 & F9 & _). eapply (j16_go _ _ _ _ [_]); [eassumption|cbn [emit c_out]; rewrite F8; reflexivity|constructor; [exact I|constructor]|apply waited_ops; exact F9|intros ? [K|[? K]]; discriminate].
  - (* swap ops *) eapply (j16_go _ _ _ _ []); [eassumption|reflexivity|constructor| |intros ? [K|[? K]]; discriminate]. intros i x K Ht. rewrite get_perm_op in K; [eauto|exact (j2_ids _ _ HJ2)|assumption].
Qed.
Lemma prim_publishes cf g s g' s' : prim cf (g, s) (g', s') -> exists l, c_out s' = l ++ c_out s /\ (Forall unpublished l \/ exists o ok, g = PUBLISHING o /\ l = [O_PUBLISH (o_id o) ok]).
Proof.
  intros P. set (R := fun s' => exists l, c_out s' = l ++ c_out s /\ (Forall unpublished l \/ exists o ok, g = PUBLISHING o /\ l = [O_PUBLISH (o_id o) ok])). change (R s').
  assert (E0 : forall s', c_out s' = c_out s -> R s') by (intros z H; exists []; split; [exact H|left; constructor]).
  assert (E1 : forall s' x, c_out s' = x :: c_out s -> unpublished x -> R s') by (intros z x H Hx; exists [x]; split; [exact H|left; constructor; [exact Hx|constructor]]).
  inversion P; subst; try (apply E0; reflexivity); try (eapply E1; [reflexivity|exact I]).
  - rewrite create_shape in * by assumption. eapply E1; [reflexivity|exact I].
  - eapply E1; [apply submitted_out|exact I].
  - set (s1 := upd_op _ _ s). destruct (fail_unpublished (o_id o) E_TIMEOUT s1) as (m & F1 & Fm). exists m. split; [exact F1|left; exact Fm].
  - apply E0, listen_out.
  - apply E0, add_tables_out.
  - eexists [_]. split; [reflexivity|]. right. exists o, true. auto.
  - eexists [_]. split; [reflexivity|]. right. exists o, false. auto.
  - apply E0, wake_out.
  - destruct (o_state o); (eapply E1; [reflexivity|exact I]).
  - destruct b; (eapply E1; [reflexivity|exact I]).
  - rewrite streamed_exact. exists (messages topic payload (filter (listening s) (recipients topic s)) ++ [I_MESSAGE topic payload j]). split; [rewrite <- app_assoc; reflexivity|]. left. apply Forall_app. split; [|constructor; [exact I|constructor]]. unfold messages. apply Forall_rev, Forall_forall. intros x Hx. apply in_map_iff in Hx as (i & <- & _). exact I.
  - apply E0, unlisten_out.
  - eapply E1; [cbn [emit c_out]; rewrite untabled_out; reflexivity|exact I].
Qed.
Definition J17 (s : client) : Prop := forall l1 id2 ok2 l2 id1 ok1 r1 r2, c_out s = l1 ++ O_PUBLISH id2 ok2 :: l2 -> In (O_PUBLISH id1 ok1) l2 -> id1 <> id2 -> is_op id1 (W_REQUEST r1) l2 -> is_op id2 (W_REQUEST r2) l2 -> r_token r1 = r_token r2 ->
  exists x, In (O_COMPLETE id1 x) l2.
Lemma J17_step cf g s g' s' : JC cf g s -> J14 g s -> J16 g s -> J17 s -> big cf (g, s) (g', s') -> J17 s'.
Proof.
  intros HC H14 H16 J B. pose proof (jcb _ _ _ HC) as HB. pose proof (jba _ _ _ HB) as HA. pose proof (ja2 _ _ _ HA) as HJ2. pose proof (ja5 _ _ _ HA) as HJ5. pose proof (jb7 _ _ _ HB) as HJ7.
  assert (Hone : forall x, unpublished x -> c_out s' = x :: c_out s -> J17 s').
  { intros x Hx E l1 id2 ok2 l2 id1 ok1 r1 r2 H. rewrite E in H. destruct l1 as [|y l1]; [injection H as -> _; destruct Hx|]. injection H as -> H. exact (J _ _ _ _ _ _ _ _ H). }
  inversion B as [x y P|s0 Ha Hs|s0 Hp Ho He Hu]; subst; try (eapply Hone; [|reflexivity]; exact I).
  destruct (prim_publishes _ _ _ _ _ P) as (m & E & [Hm|(o & ok & -> & ->)]); intros l1 id2 ok2 l2 id1 ok1 r1 r2 H Hpub Hne Hop1 Hop2 Hr; rewrite E in H; destruct (split_more _ _ _ _ _ H) as [(b & K)|(b & K & ->)]; try (exact (J _ _ _ _ _ _ _ _ K Hpub Hne Hop1 Hop2 Hr)).
  - rewrite K in Hm. apply Forall_app in Hm as [_ Hm]. inversion Hm as [|? ? Hx _]; subst. destruct Hx.
  - destruct l1 as [|z l1]; [|destruct l1; discriminate K]. injection K as <- <- <-. cbn [app] in *. destruct Hop1 as [d1 Hop1]. destruct Hop2 as [d2 Hop2].
    assert (Htok : forall id r d, get_op id s <> None -> In (I_OPERATION id (W_REQUEST r) d) (c_out s) -> taken_in id (c_out s) -> find_key (r_token r) (c_tokens s) = Some id).
    { intros id r d Hl Hop Ht. destruct (get_op id s) as [o1|] eqn:E1; [|congruence]. destruct (j5_uniq _ _ HJ5 _ _ _ _ _ (j5_in _ _ HJ5 _ _ E1) Hop) as [Hw1 _]. destruct (k_taken _ _ (jc10 _ _ _ HC) id o1 E1 Ht) as [Hb|(o2 & a2 & Hb & _)]; [|discriminate].
      exact (t_op _ _ H14 id o1 r E1 Hw1 Hb). }
    assert (Hdead : get_op id1 s = None).
    { destruct (get_op id1 s) as [o1|] eqn:E1; [|reflexivity]. destruct (j2_ghost _ _ HJ2 o eq_refl) as (oo & Hoo & _). pose proof (Htok id1 r1 d1 ltac:(congruence) Hop1 (u_pub _ _ H16 _ _ Hpub)) as K1.
      pose proof (Htok (o_id o) r2 d2 ltac:(congruence) Hop2 (u_ghost _ _ H16 o (or_introl eq_refl))) as K2. congruence. }
    apply completes_some. eapply (j7_dead _ _ HJ7); eassumption.
Qed.
Lemma published_apart cf connected l tr1 id2 ok2 tr2 id1 ok1 r1 r2 : cf_ok cf -> trace (history cf connected l) = tr1 ++ O_PUBLISH id2 ok2 :: tr2 -> In (O_PUBLISH id1 ok1) tr1 -> id1 <> id2 ->
  is_op id1 (W_REQUEST r1) tr1 -> is_op id2 (W_REQUEST r2) tr1 -> r_token r1 = r_token r2 -> exists x, In (O_COMPLETE id1 x) tr1.
Proof.
  intros Hc H Hi Hne [d1 H1] [d2 H2] Hr. assert (K : JC cf IDLE (history cf connected l) /\ J14 IDLE (history cf connected l) /\ J16 IDLE (history cf connected l) /\ J17 (history cf connected l)).
  { apply (history_inv cf (fun g s => JC cf g s /\ J14 g s /\ J16 g s /\ J17 s)).
    - split; [constructor; [apply JB_new|apply J9_new|apply J11_new|apply J10_new]|]. split; [constructor; [discriminate|discriminate|intros o r [[? K]|[? K]]; discriminate]|]. split; [constructor; [intros ? ? []|intros o [K|[? K]]; discriminate|discriminate]|].
      intros l1 i2 b2 l2 i1 b1 q1 q2 K. destruct l1; discriminate.
    - intros g s g' s' (K1 & K2 & K3 & K4) B. split; [eapply JC_step; eassumption|]. split; [eapply J14_step; eassumption|]. split; [eapply J16_step; eassumption|eapply J17_step; eassumption]. }
  destruct K as (_ & _ & _ & K). destruct (K (rev tr2) id2 ok2 (rev tr1) id1 ok1 r1 r2) as [x Hx].
  - apply (f_equal (@rev out)) in H. unfold trace in H. rewrite rev_involutive, rev_app_distr in H. cbn [rev] in H. rewrite <- app_assoc in H. exact H.
  - apply -> in_rev. exact Hi.
  - exact Hne.
  - exists d1. apply -> in_rev. exact H1.
  - exists d2. apply -> in_rev. exact H2.
  - exact Hr.
  - exists x. apply in_rev. exact Hx.
Qed.

(** ** Nothing is left to be done *)
Lemma idle_tasks s : forallb (fun o => negb (o_submitting o) && negb (o_doomed o)) (c_ops s) = true -> is_nil (c_events s) = true ->
  forall ev i, enabled ev (ESubmit i) s = false /\ enabled ev (EDestroy i) s = false /\ enabled ev EStatus s = false.
Proof.
  intros H He ev i. cbn [enabled]. rewrite He. unfold get_op. destruct (find (has_id i) (c_ops s)) as [o|] eqn:E; [|repeat split]. apply find_some in E as [E _]. rewrite forallb_forall in H. specialize (H _ E). apply andb_prop in H as [H1 H2].
  apply negb_true_iff in H1, H2. rewrite H1, H2. repeat split.
Qed.
Lemma idle_until cf connected l t : cf_ok cf -> is_nil (c_flights (history cf connected l)) = true -> c_scheduled (history cf connected l) = t ->
  forall ev b f, waiting b f (trace (history cf connected l)) = 0%nat /\ (e_now ev < t -> enabled ev EService (history cf connected l) = false).
Proof.
  intros Hc Hf Ht ev b f. split.
  - rewrite (waiting_cnt IDLE _ b f (ja4 _ _ _ (JA_history cf connected l Hc))). destruct (c_flights _); [reflexivity|discriminate].
  - intros K. cbn [enabled]. rewrite Ht. assert (E : (t <=? e_now ev) = false) by (apply N.leb_gt; exact K). rewrite E. apply andb_false_r.
Qed.
