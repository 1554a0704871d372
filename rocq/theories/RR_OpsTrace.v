(** Operations of the request-response client and what has been observed of them. *)
From Verif Require Import Base Split TopicAlias_Model TopicAlias_Proofs SubSet_Model Topic_Model Paths RR_Model RR_Spec RR_Steps RR_Decomp RR_Subs RR_Flights RR_Kinds RR_Trace.
From Coq Require Import Permutation.

Record J5 (g : ghost) (s : client) : Prop := {
  j5_in : forall id o, get_op id s = Some o -> In (I_OPERATION id (o_work o) (o_deadline o)) (c_out s);
  j5_out : forall id w d, In (I_OPERATION id w d) (c_out s) -> id < c_next s /\
             ((exists o, get_op id s = Some o /\ o_work o = w /\ o_deadline o = d) \/ (exists o rest, g = LEAVING o rest /\ o_id o = id /\ o_work o = w /\ o_deadline o = d) \/ In (O_GONE id) (c_out s));
  j5_gone : forall id, In (O_GONE id) (c_out s) -> get_op id s = None /\ id < c_next s /\ (forall o rest, g = LEAVING o rest -> o_id o <> id);
  j5_leaving : forall o rest, g = LEAVING o rest -> get_op (o_id o) s = None /\ In (I_OPERATION (o_id o) (o_work o) (o_deadline o)) (c_out s);
  j5_uniq : forall id w d w' d', In (I_OPERATION id w d) (c_out s) -> In (I_OPERATION id w' d') (c_out s) -> w = w' /\ d = d';
  j5_taking : forall o rest, g = TAKING o rest -> incl rest (o_filters o) }.
Definition not_ops (x : out) : Prop := match x with I_OPERATION _ _ _ | O_GONE _ => False | _ => True end.
Lemma not_ops_in l l0 : Forall not_ops l -> (forall id w d, In (I_OPERATION id w d) (l ++ l0) <-> In (I_OPERATION id w d) l0) /\ (forall id, In (O_GONE id) (l ++ l0) <-> In (O_GONE id) l0).
Proof.
  intros H. rewrite Forall_forall in H. split; intros; rewrite in_app_iff; (split; [intros [K|K]; [destruct (H _ K)|exact K]|auto]).
Qed.
Lemma j5_frame g s g' s' l : J5 g s -> (forall id, get_op id s = None -> get_op id s' = None) -> (forall id o, get_op id s = Some o -> exists o', get_op id s' = Some o' /\ o_work o' = o_work o /\ o_deadline o' = o_deadline o) -> c_next s' = c_next s ->
  c_out s' = l ++ c_out s -> Forall not_ops l ->
  (forall o rest, g = LEAVING o rest -> exists rest', g' = LEAVING o rest') -> (forall o rest, g' = LEAVING o rest -> exists rest', g = LEAVING o rest') -> (forall o rest, g' = TAKING o rest -> incl rest (o_filters o)) -> J5 g' s'.
Proof.
  intros [H1 H2 H3 H4 H5 H6] Hn Hs Hx Ho Hl Hg1 Hg2 Ht. destruct (not_ops_in l (c_out s) Hl) as [N1 N2]. rewrite <- Ho in N1, N2. constructor.
  - intros id o' Hg. destruct (get_op id s) as [o|] eqn:E; [|rewrite (Hn _ E) in Hg; discriminate]. destruct (Hs _ _ E) as (o1 & Hg1' & Hw & Hd). rewrite Hg in Hg1'. injection Hg1' as <-. rewrite Hw, Hd. apply N1, H1. assumption.
  - intros id w d Hi. apply N1 in Hi. destruct (H2 _ _ _ Hi) as (Hlt & K). rewrite Hx. split; [assumption|]. destruct K as [(o & Hg & Hw & Hd)|[(o & rest & Hg & K)|K]].
    + left. destruct (Hs _ _ Hg) as (o1 & Hg1' & Hw' & Hd'). exists o1. intuition congruence.
    + right. left. destruct (Hg1 _ _ Hg) as (rest' & ->). eauto.
    + right. right. apply N2. assumption.
  - intros id Hi. apply N2 in Hi. destruct (H3 _ Hi) as (K1 & K2 & K3). rewrite Hx. split; [apply Hn; assumption|]. split; [assumption|]. intros o rest Hg. destruct (Hg2 _ _ Hg) as (rest' & E). eapply K3. eassumption.
  - intros o rest Hg. destruct (Hg2 _ _ Hg) as (rest' & E). destruct (H4 _ _ E) as (K1 & K2). split; [apply Hn; assumption|apply N1; assumption].
  - intros id w d w' d' K1 K2. apply N1 in K1. apply N1 in K2. eapply H5; eassumption.
  - exact Ht.
Qed.
Lemma j5_sig g s g' s' l : J5 g s -> sig s' = sig s -> c_next s' = c_next s -> c_out s' = l ++ c_out s -> Forall not_ops l ->
  (forall o rest, g = LEAVING o rest -> exists rest', g' = LEAVING o rest') -> (forall o rest, g' = LEAVING o rest -> exists rest', g = LEAVING o rest') -> (forall o rest, g' = TAKING o rest -> incl rest (o_filters o)) -> J5 g' s'.
Proof. intros J Hs Hn Ho Hl H1 H2 H3. eapply j5_frame; try eassumption; intros id; [apply (proj2 (sig_get s s' Hs id))|apply (proj1 (sig_get s s' Hs id))]. Qed.
Ltac gl := first [discriminate|eassumption|solve [eauto]|solve [eapply j5_taking; eassumption]|idtac].
Ltac no_out := repeat first [apply Forall_nil|apply Forall_cons; [exact I|]].
Ltac s0 := eapply (j5_sig _ _ _ _ []); [eassumption| |reflexivity|reflexivity|no_out| | | ]; [rewrite ?emit_sig, ?release_sig, ?wake_sig, ?upd_sig by reflexivity; reflexivity|..]; gl.
Ltac s1 x := eapply (j5_sig _ _ _ _ [x]); [eassumption| |reflexivity|reflexivity|no_out| | | ]; [rewrite ?emit_sig, ?release_sig, ?wake_sig, ?upd_sig by reflexivity; reflexivity|..]; gl.
Ltac s1_auto := match goal with |- J5 _ ?s' => let x := eval cbn [completed halted subscribing unsubscribing told release upd_op upd_sub set_ops set_subs set_queue set_flights set_publishes set_events set_connected set_scheduled set_phase emit c_out] in (c_out s') in match x with ?y :: _ => s1 y end end.
Definition new_op (cf : config) (now : N) (w : work) (s : client) : op :=
  let req := match w with W_REQUEST _ => true | W_STREAM _ => false end in
  mkop (c_next s) w (match w with W_REQUEST _ => (now + cf_timeout_s cf * 1000000000) mod two64 | W_STREAM _ => two64 - 1 end) S_NONE (len (filters_of w)) (if req then 2 else 1) false false false req false req (negb req).
Lemma create_shape cf now w s : valid_work w = true -> create cf now w s = emit (I_OPERATION (c_next s) w (o_deadline (new_op cf now w s))) (set_next (c_next s + 1) (set_ops (c_ops s ++ [new_op cf now w s]) s)).
Proof. unfold create. intros ->. reflexivity. Qed.
Lemma create_get cf now w s : valid_work w = true -> forall id, get_op id (create cf now w s) = match get_op id s with Some x => Some x | None => if id =? c_next s then Some (new_op cf now w s) else None end.
Proof. intros Hv id. rewrite create_shape by assumption. unfold get_op. cbn [c_ops emit set_ops set_next]. rewrite find_app. cbn [find]. unfold has_id at 2. reflexivity. Qed.
Lemma J5_step cf g s g' s' : J2 g s -> J5 g s -> big cf (g, s) (g', s') -> J5 g' s'.
Proof.
  intros HJ2 J B. inversion B as [x y P|s0 Ha Hs|s0 Hp Ho He Hu]; subst.
  2: { s1_auto. }
  2: { s1_auto. }
  clear B. inversion P; subst; try solve [s0]; try solve [s1_auto].
  - (* create *) pose proof (create_get cf now w s H4) as Hg. pose proof (create_shape cf now w s H4) as Hsh. assert (Hout : c_out (create cf now w s) = I_OPERATION (c_next s) w (o_deadline (new_op cf now w s)) :: c_out s) by (rewrite Hsh; reflexivity).
    assert (Hnx : c_next (create cf now w s) = c_next s + 1) by (rewrite Hsh; reflexivity). destruct J as [K1 K2 K3 K4 K5 K6]. constructor.
    + intros id o. rewrite Hg, Hout. destruct (get_op id s) as [x|] eqn:E; [intros [= <-]; right; apply K1; assumption|]. destruct (N.eqb_spec id (c_next s)) as [->|]; [|discriminate]. intros [= <-]. left. reflexivity.
    + intros id w0 d. rewrite Hout, Hnx. intros [[= <- <- <-]|Hi].
      * split; [lia|]. left. exists (new_op cf now w s). rewrite Hg. destruct (get_op (c_next s) s) as [x|] eqn:E; [apply (j2_next _ _ HJ2) in E; lia|]. rewrite N.eqb_refl. auto.
      * destruct (K2 _ _ _ Hi) as (Hlt & K). split; [lia|]. destruct K as [(o & Ho & K)|[(o & rest & Ho & K)|K]]; [|discriminate|right; right; right; assumption]. left. exists o. rewrite Hg, Ho. auto.
    + intros id. rewrite Hout, Hnx. intros [[=]|Hi]. destruct (K3 _ Hi) as (L1 & L2 & L3). rewrite Hg, L1. split; [destruct (N.eqb_spec id (c_next s)); [lia|reflexivity]|]. split; [lia|discriminate].
    + discriminate.
    + intros id w0 d0 w1 d1. rewrite Hout. intros [[= <- <- <-]|Hi] [[= <- <-]|Hi']; auto; [apply K2 in Hi' as [Hi' _]; lia|apply K2 in Hi as [Hi _]; lia|eapply K5; eassumption].
    + discriminate.
  - unfold activate_stream. s1_auto.
  - eapply (j5_sig _ _ _ _ [I_QUEUED id]); [eassumption| | |apply submitted_out|no_out| | | ]; gl.
    + unfold submitted. rewrite release_sig, wake_sig, emit_sig, upd_sig by reflexivity. unfold sig. cbn [set_queue c_ops]. fold (sig (upd_op id (fun o0 => set_timed match o_kind o0 with REQUEST => true | STREAM => false end (set_tracked true o0)) (upd_op id (set_submitting false) s))). rewrite !upd_sig by reflexivity. reflexivity.
    + unfold submitted. cbn [release upd_op set_ops c_next]. rewrite (proj1 (wake_frame now _)). reflexivity.
  - (* timeout *) set (s1 := upd_op _ _ s). destruct (fail_shape (o_id o) E_TIMEOUT s1) as (l & F1 & F2 & F3 & F4). apply rest_inj in F3 as (_ & _ & _ & _ & _ & _ & _ & _ & _ & _ & F3 & _).
    eapply (j5_sig _ _ _ _ l); [eassumption|rewrite F2; unfold s1; apply upd_sig; reflexivity|rewrite F3; reflexivity|rewrite F1; reflexivity| | | | ]; gl.
    clear - F1. unfold fail in F1. destruct (get_op (o_id o) s1) as [x|]; [|apply (app_inv_tail (c_out s1) [] l) in F1; subst; constructor]. unfold complete, halt in F1. destruct (o_kind x).
    + destruct (state_is _ _); [apply (app_inv_tail (c_out s1) [] l) in F1; subst; constructor|]. apply (app_inv_tail (c_out s1) [_] l) in F1. subst. no_out.
    + destruct (_ || _); [apply (app_inv_tail (c_out s1) [] l) in F1; subst; constructor|]. apply (app_inv_tail (c_out s1) [_] l) in F1. subst. no_out.
  - eapply (j5_sig _ _ _ _ []); [eassumption|reflexivity|reflexivity|reflexivity|no_out| | | ]; gl. intros o0 rest [= <- <-]. apply incl_refl.
  - destruct (listen_frame (o_kind o) (o_id o) s f) as (A1 & A2 & A3 & A4 & A5 & A6 & A7 & A8 & A9 & A10 & A11). eapply (j5_sig _ _ _ _ []); [eassumption|exact A1|exact A10|apply listen_out|no_out| | | ]; gl.
    intros o0 rest0 [= <- <-]. pose proof (j5_taking _ _ J o (f :: rest) eq_refl) as K. intros x Hx. apply K. right. assumption.
  - destruct (add_tables_frame o s) as (A1 & A2 & A3 & A4 & A5 & A6 & A7 & A8). eapply (j5_sig _ _ _ _ []); [eassumption|exact A1|exact A2|exact A8|no_out| | | ]; gl.
  - unfold completed. s1_auto.
  - unfold halted. s1_auto.
  - eapply (j5_sig _ _ _ _ []); [eassumption|apply wake_sig|apply (proj1 (wake_frame now s))|apply wake_out|no_out| | | ]; gl.
  - destruct (o_state o); s1_auto.
  - destruct b; s1_auto.
  - destruct (streamed_emits topic payload (emit (I_MESSAGE topic payload j) s)) as (l & -> & Hl). eapply (j5_sig _ _ _ _ (l ++ [I_MESSAGE topic payload j])); [eassumption|reflexivity|reflexivity|cbn [emits c_out emit]; rewrite <- app_assoc; reflexivity| | | | ]; gl.
    apply Forall_app. split; [|no_out]. eapply Forall_impl; [|exact Hl]. intros x (i & ->). exact I.
  - (* leave *) match goal with H : get_op id s = Some o |- _ => rename H into Ho end. pose proof (get_op_id _ _ _ Ho) as Hid. subst id. destruct J as [K1 K2 K3 K4 K5 K6]. constructor.
    + intros i x. rewrite get_left. destruct (_ =? _); [discriminate|]. apply K1.
    + intros i w d Hi. change (c_next (left o s)) with (c_next s). destruct (K2 _ _ _ Hi) as (Hlt & K). split; [assumption|]. destruct K as [(x & Hx & K)|[(x & rest & Hx & K)|K]]; [|discriminate|auto].
      destruct (N.eqb_spec (o_id o) i) as [E|E].
      * right. left. exists o, (o_filters o). subst i. rewrite Ho in Hx. injection Hx as <-. tauto.
      * left. exists x. rewrite get_left. apply N.eqb_neq in E. rewrite E. auto.
    + intros i Hi. destruct (K3 _ Hi) as (L1 & L2 & _). rewrite get_left. split; [destruct (_ =? _); auto|]. split; [assumption|]. intros o0 rest [= <- <-] E. congruence.
    + intros o0 rest [= <- <-]. rewrite get_left, N.eqb_refl. split; [reflexivity|]. apply K1. assumption.
    + exact K5.
    + discriminate.
  - destruct (unlisten_frame (o_id o) s f) as (A1 & A2 & A3 & A4 & A5 & A6 & A7 & A8 & A9 & A10). eapply (j5_sig _ _ _ _ []); [eassumption|exact A1|exact A10|apply unlisten_out|no_out| | | ]; gl.
    + intros o0 rest0 [= <- <-]. eauto.
    + intros o0 rest0 [= <- <-]. eauto.
  - (* gone *) destruct (untabled_frame o s) as (A1 & A2 & A3 & A4 & A5 & A6 & A7 & A8 & A9 & A10). assert (Hg : forall id, get_op id (emit (O_GONE (o_id o)) (untabled o s)) = get_op id s) by (intros id; unfold get_op; cbn [emit c_ops]; rewrite A9; reflexivity).
    assert (Ho : c_out (emit (O_GONE (o_id o)) (untabled o s)) = O_GONE (o_id o) :: c_out s) by (cbn [emit c_out]; rewrite A8; reflexivity). assert (Hn : c_next (emit (O_GONE (o_id o)) (untabled o s)) = c_next s) by exact A2.
    destruct J as [K1 K2 K3 K4 K5 K6]. destruct (K4 o rest eq_refl) as (L1 & L2). constructor.
    + intros id x. rewrite Hg, Ho. intros Hx. right. apply K1. assumption.
    + intros id w d. rewrite Ho, Hn. intros [[=]|Hi]. destruct (K2 _ _ _ Hi) as (Hlt & K). split; [assumption|]. destruct K as [(x & Hx & K)|[(x & r0 & [= <- <-] & K & _)|K]]; [left; exists x; rewrite Hg; auto| |right; right; right; assumption]. right. right. left. congruence.
    + intros id. rewrite Ho, Hn, Hg. intros [[= <-]|Hi]; [|destruct (K3 _ Hi) as (M1 & M2 & _); split; [assumption|split; [assumption|discriminate]]]. split; [assumption|]. split; [apply (K2 _ _ _ L2)|discriminate].
    + discriminate.
    + intros id w d w' d'. rewrite Ho. intros [[=]|Hi] [[=]|Hi']. eapply K5; eassumption.
    + discriminate.
  - match goal with H : Permutation _ _ |- _ => rename H into Hp end. pose proof (get_perm_op s l (j2_ids _ _ HJ2) Hp) as Hg. eapply (j5_frame _ _ _ _ []); [eassumption| | |reflexivity|reflexivity|no_out| | | ]; gl.
    + intros i. rewrite Hg. auto.
    + intros i o. rewrite Hg. eauto.
Qed.
Lemma J5_new connected : J5 IDLE (client_new connected).
Proof. constructor; try discriminate; cbn; tauto. Qed.
