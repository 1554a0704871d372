(** The subscriptions the request-response client keeps records of are those an observer sees. *)
From Verif Require Import Base Split TopicAlias_Model TopicAlias_Proofs SubSet_Model Topic_Model Paths RR_Model RR_Spec RR_Steps RR_Decomp RR_Subs RR_Flights RR_Kinds RR_Trace RR_OpsTrace.
From Coq Require Import Permutation.

Definition view (f : bytes) (s : client) : bool := match get_sub f s with Some r => s_subscribed r | None => false end.
Definition shown (g : ghost) (f : bytes) (s : client) : bool :=
  match g with ACKED b f0 ok => if bytes_eqb f f0 then if b then ok || view f s else negb ok && view f s else view f s | LOSING _ => false | _ => view f s end.
Record J4 (g : ghost) (s : client) : Prop := {
  j4_flight : forall b f, count (asks b f) (trace s) = (count (acks b f) (trace s) + cnt b f (c_flights s))%nat;
  j4_held : c_phase s = ACTIVE -> forall f, held f (trace s) = shown g f s;
  j4_losing : forall rest f, g = LOSING rest -> view f s = true -> In f rest;
  j4_kind : forall f r, get_sub f s = Some r -> used_for (s_kind r) f (trace s) }.
Lemma trace_emit x s s' : c_out s' = x :: c_out s -> trace s' = trace s ++ [x].
Proof. unfold trace. intros ->. reflexivity. Qed.
Lemma trace_app l s s' : c_out s' = l ++ c_out s -> trace s' = trace s ++ rev l.
Proof. unfold trace. intros ->. apply rev_app_distr. Qed.
Lemma count_app {A} (p : A -> bool) l l' : count p (l ++ l') = (count p l + count p l')%nat.
Proof. unfold count. rewrite filter_app, app_length. reflexivity. Qed.
Lemma count_one {A} (p : A -> bool) x : count p [x] = if p x then 1%nat else 0%nat.
Proof. unfold count. cbn. destruct (p x); reflexivity. Qed.
Lemma held_app f tr x : held f (tr ++ [x]) = hears f (held f tr) x.
Proof. unfold held. rewrite fold_left_app. reflexivity. Qed.
Definition silent (x : out) : Prop := match x with O_SUBSCRIBE _ true | O_UNSUBSCRIBE _ true | I_SUBACK _ _ | I_UNSUBACK _ _ | I_CONNECTED false => False | _ => True end.
Lemma silent_one x : silent x -> (forall b f, asks b f x = false /\ acks b f x = false) /\ (forall f h, hears f h x = h).
Proof. destruct x as [| | | | |g []|g []| | | | | | | | |[]| | | | | ]; cbn; try tauto; intros _; (split; [intros [] f; split; reflexivity|reflexivity]). Qed.
Lemma silent_all l tr : Forall silent l -> (forall b f, count (asks b f) (tr ++ l) = count (asks b f) tr /\ count (acks b f) (tr ++ l) = count (acks b f) tr) /\ (forall f, held f (tr ++ l) = held f tr).
Proof.
  intros H. revert tr. induction H as [|x l Hx _ IH]; intros tr; [rewrite app_nil_r; auto|]. change (x :: l) with ([x] ++ l). rewrite app_assoc. destruct (IH (tr ++ [x])) as [I1 I2]. destruct (silent_one x Hx) as [S1 S2]. split.
  - intros b f. destruct (I1 b f) as [-> ->]. destruct (S1 b f) as [E1 E2]. rewrite !count_app, !count_one, E1, E2. lia.
  - intros f. rewrite I2, held_app, S2. reflexivity.
Qed.
Lemma used_app k f tr tr' : used_for k f tr -> used_for k f (tr ++ tr').
Proof. intros (id & w & d & Hi & K). exists id, w, d. split; [apply in_or_app; auto|exact K]. Qed.
Definition plain (g : ghost) : Prop := match g with LOSING _ | ACKED _ _ _ => False | _ => True end.
(** steps which are not seen and change nothing but listeners, pending actions *)
Lemma j4_frame g s g' s' l : J4 g s -> c_out s' = l ++ c_out s -> Forall silent l -> c_flights s' = c_flights s -> (c_phase s' = ACTIVE -> c_phase s = ACTIVE) ->
  (forall f, c_phase s' = ACTIVE \/ (exists rest, g' = LOSING rest) -> view f s' = view f s) -> (forall f r, get_sub f s' = Some r -> (exists r', get_sub f s = Some r' /\ s_kind r' = s_kind r) \/ used_for (s_kind r) f (trace s)) -> g' = g \/ (plain g /\ plain g') -> J4 g' s'.
Proof.
  intros [H1 H2 H3 H4] Ho Hl Hf Hp Hv Hk Hg. rewrite <- rev_involutive in Hl. assert (Hl' : Forall silent (rev l)) by (apply Forall_rev in Hl; rewrite rev_involutive in Hl; exact Hl).
  pose proof (trace_app l s s' Ho) as Ht. destruct (silent_all (rev l) (trace s) Hl') as [S1 S2]. constructor.
  - intros b f. rewrite Ht, Hf. destruct (S1 b f) as [-> ->]. apply H1.
  - intros Ha f. rewrite Ht, S2, (H2 (Hp Ha)). destruct Hg as [->|[Hg Hg']].
    + unfold shown. rewrite Hv by auto. reflexivity.
    + specialize (Hv f (or_introl Ha)). unfold shown. destruct g; try destruct Hg; destruct g'; try destruct Hg'; auto.
  - intros rest f E. rewrite Hv by eauto. destruct Hg as [->|[Hg Hg']]; [apply H3; assumption|]. subst g'. destruct Hg'.
  - intros f r Hr. rewrite Ht. apply used_app. destruct (Hk f r Hr) as [(r' & Hr' & <-)|K]; [apply H4|]; assumption.
Qed.
Lemma j4_same g s g' s' l : J4 g s -> c_out s' = l ++ c_out s -> Forall silent l -> c_flights s' = c_flights s -> (c_phase s' = ACTIVE -> c_phase s = ACTIVE) -> c_subs s' = c_subs s -> g' = g \/ (plain g /\ plain g') -> J4 g' s'.
Proof. intros J Ho Hl Hf Hp Hs Hg. eapply j4_frame; try eassumption; intros f; unfold view, get_sub; rewrite Hs; eauto. Qed.
Lemma view_upd f h s f' : (forall r, s_filter (h r) = s_filter r) -> view f' (upd_sub f h s) = if bytes_eqb f f' then match get_sub f' s with Some r => s_subscribed (h r) | None => false end else view f' s.
Proof. intros H. unfold view. rewrite get_sub_upd by assumption. destruct (bytes_eqb f f'); [|reflexivity]. destruct (get_sub f' s); reflexivity. Qed.
Lemma kind_upd f h s : (forall r, s_filter (h r) = s_filter r) -> (forall r, s_kind (h r) = s_kind r) -> forall f' r, get_sub f' (upd_sub f h s) = Some r -> exists r', get_sub f' s = Some r' /\ s_kind r' = s_kind r.
Proof. intros H1 H2 f' r. rewrite get_sub_upd by assumption. destruct (bytes_eqb f f'); [|eauto]. destruct (get_sub f' s); [|discriminate]. intros [= <-]. rewrite H2. eauto. Qed.
Lemma upd_same_view f h s : (forall r, s_filter (h r) = s_filter r) -> (forall r, s_subscribed (h r) = s_subscribed r) -> forall f', view f' (upd_sub f h s) = view f' s.
Proof. intros H1 H2 f'. rewrite view_upd by assumption. destruct (bytes_eqb f f'); [|reflexivity]. unfold view. destruct (get_sub f' s); [apply H2|reflexivity]. Qed.
Ltac sil := repeat first [apply Forall_nil|apply Forall_cons; [exact I|]].
Ltac gg := first [left; reflexivity|right; split; exact I|idtac].
Ltac e0 := eapply (j4_same _ _ _ _ []); [eassumption|reflexivity|sil|reflexivity|first [exact (fun hh => hh)|discriminate|idtac]|reflexivity|gg].
Ltac e1 := match goal with |- J4 _ ?s' => let x := eval cbn [completed halted subscribing unsubscribing told activate_stream release upd_op upd_sub set_ops set_subs set_queue set_flights set_publishes set_events set_connected set_scheduled set_phase emit c_out] in (c_out s') in match x with ?y :: _ =>
  eapply (j4_same _ _ _ _ [y]); [eassumption|reflexivity|sil|reflexivity|first [exact (fun hh => hh)|discriminate|idtac]|reflexivity|gg] end end.
(** a completion has been dealt with *)
Lemma j4_acked (b : bool) f ok s s' : J4 (ACKED b f ok) s -> c_out s' = c_out s -> c_flights s' = c_flights s -> (c_phase s' = ACTIVE -> c_phase s = ACTIVE) -> (c_phase s = ACTIVE -> forall f', view f' s' = shown (ACKED b f ok) f' s) ->
  (forall f r, get_sub f s' = Some r -> exists r', get_sub f s = Some r' /\ s_kind r' = s_kind r) -> J4 IDLE s'.
Proof.
  intros [H1 H2 H3 H4] Ho Hf Hp Hv Hk. assert (Ht : trace s' = trace s) by (unfold trace; rewrite Ho; reflexivity). constructor.
  - intros b' f'. rewrite Ht, Hf. apply H1.
  - intros Ha f'. rewrite Ht, (H2 (Hp Ha)). symmetry. apply Hv. auto.
  - discriminate.
  - intros f' r Hr. rewrite Ht. destruct (Hk f' r Hr) as (r' & Hr' & <-). apply H4. assumption.
Qed.
(** a record is found to be lost *)
Lemma j4_lost f rest s s' : J4 (LOSING (f :: rest)) s -> c_out s' = c_out s -> c_flights s' = c_flights s -> c_phase s' = c_phase s -> (forall f', view f' s' = if bytes_eqb f f' then false else view f' s) ->
  (forall f r, get_sub f s' = Some r -> exists r', get_sub f s = Some r' /\ s_kind r' = s_kind r) -> J4 (LOSING rest) s'.
Proof.
  intros [H1 H2 H3 H4] Ho Hf Hp Hv Hk. assert (Ht : trace s' = trace s) by (unfold trace; rewrite Ho; reflexivity). constructor.
  - intros b' f'. rewrite Ht, Hf. apply H1.
  - intros Ha f'. rewrite Ht, H2 by congruence. reflexivity.
  - intros rest0 f' [= <-]. rewrite Hv. destruct (bytes_eqb f f') eqn:E; [discriminate|]. intros K. destruct (H3 _ _ eq_refl K) as [->|]; [rewrite bytes_eqb_refl in E; discriminate|assumption].
  - intros f' r Hr. rewrite Ht. destruct (Hk f' r Hr) as (r' & Hr' & <-). apply H4. assumption.
Qed.
Definition ask (b : bool) (f : bytes) : out := if b then O_SUBSCRIBE f true else O_UNSUBSCRIBE f true.
Lemma j4_ask b f g s s' : J4 g s -> c_out s' = ask b f :: c_out s -> c_flights s' = c_flights s ++ [(b, f)] -> c_phase s' = c_phase s -> (forall f', view f' s' = view f' s) ->
  (forall f r, get_sub f s' = Some r -> exists r', get_sub f s = Some r' /\ s_kind r' = s_kind r) -> J4 g s'.
Proof.
  intros [H1 H2 H3 H4] Ho Hf Hp Hv Hk. pose proof (trace_emit _ _ _ Ho) as Ht. constructor.
  - intros b' f'. rewrite Ht, Hf, !count_app, !count_one, cnt_app, H1. assert (E : acks b' f' (ask b f) = false) by (destruct b, b'; reflexivity). rewrite E. rewrite cnt_cons.
    assert (E2 : asks b' f' (ask b f) = flight_eqb (b', f') (b, f)) by (unfold flight_eqb; destruct b, b'; cbn [fst snd Bool.eqb ask asks andb]; reflexivity). rewrite E2. change (cnt b' f' []) with 0%nat. lia.
  - intros Ha f'. rewrite Ht, held_app, H2 by congruence. assert (E : forall h, hears f' h (ask b f) = h) by (destruct b; reflexivity). rewrite E. unfold shown. rewrite Hv. reflexivity.
  - intros rest f' E. rewrite Hv. apply H3. assumption.
  - intros f' r Hr. rewrite Ht. destruct (Hk f' r Hr) as (r' & Hr' & <-). apply used_app, H4. assumption.
Qed.
Lemma beq_sym a b : bytes_eqb a b = bytes_eqb b a.
Proof. destruct (bytes_eqb a b) eqn:E, (bytes_eqb b a) eqn:E'; try reflexivity; [apply bytes_eqb_spec in E|apply bytes_eqb_spec in E']; subst; rewrite bytes_eqb_refl in *; discriminate. Qed.
Ltac samek := intros ? ? ?; left; eauto.
Lemma J4_step cf g s g' s' : J1 cf g s -> J3 g s -> J2 g s -> J5 g s -> J4 g s -> big cf (g, s) (g', s') -> J4 g' s'.
Proof.
  intros HJ1 HJ3 HJ2 HJ5 J B. inversion B as [x y P|s0 Ha Hs|s0 Hp Ho He Hu]; subst.
  2: e1.
  2: e1.
  clear B. inversion P; subst; try solve [e0]; try solve [e1].
  - (* create *) rewrite create_shape by assumption. e1.
  - (* submitted *) eapply (j4_same _ _ _ _ [I_QUEUED id]); [eassumption|apply submitted_out|sil| | | |gg]; unfold submitted; cbn [release upd_op set_ops c_flights c_phase c_subs].
    + unfold wake. destruct (active _); [|reflexivity]. destruct (_ || _); reflexivity.
    + rewrite wake_phase. exact (fun h => h).
    + rewrite wake_subs. reflexivity.
  - (* timeout *) set (s1 := upd_op _ _ s). destruct (fail_out (o_id o) E_TIMEOUT s1) as [F|[x F]].
    + destruct (fail_shape (o_id o) E_TIMEOUT s1) as (_ & _ & _ & F3 & _). apply rest_inj in F3 as (_ & F3 & _ & _ & _ & _ & _ & F4 & _ & _ & _ & F5). eapply (j4_same _ _ _ _ []); [eassumption|exact F|sil|exact F4|rewrite F5; exact (fun h => h)|exact F3|gg].
    + assert (Hx : silent x). { unfold fail in F. destruct (get_op (o_id o) s1) as [y|]; [|exfalso; apply (f_equal (@length _)) in F; cbn in F; lia]. unfold complete, halt in F. destruct (o_kind y).
        - destruct (state_is _ _); [exfalso; apply (f_equal (@length _)) in F; cbn in F; lia|]. injection F as <-. exact I.
        - destruct (_ || _); [exfalso; apply (f_equal (@length _)) in F; cbn in F; lia|]. injection F as <-. exact I. }
      destruct (fail_shape (o_id o) E_TIMEOUT s1) as (_ & _ & _ & F3 & _). apply rest_inj in F3 as (_ & F3 & _ & _ & _ & _ & _ & F4 & _ & _ & _ & F5). eapply (j4_same _ _ _ _ [x]); [eassumption|exact F|constructor; [exact Hx|constructor]|exact F4|rewrite F5; exact (fun h => h)|exact F3|gg].
  - (* listen *) destruct (listen_frame (o_kind o) (o_id o) s f) as (A1 & A2 & A3 & A4 & _). eapply (j4_frame _ _ _ _ []); [eassumption|apply listen_out|sil|exact A3|rewrite A4; exact (fun h => h)| | |gg].
    + intros f' _. unfold view. rewrite get_sub_listen. destruct (bytes_eqb f f') eqn:E; [|reflexivity]. apply bytes_eqb_spec in E. subst f'. destruct (get_sub f s); reflexivity.
    + intros f' r. rewrite get_sub_listen. destruct (bytes_eqb f f') eqn:E; [|eauto]. apply bytes_eqb_spec in E. subst f'. destruct (get_sub f s) as [r0|] eqn:E; intros [= <-]; [left; eexists; split; [reflexivity|reflexivity]|].
      right. destruct (j2_ghost _ _ HJ2 o eq_refl) as (o' & Ho & Hw). pose proof (j5_in _ _ HJ5 _ _ Ho) as Hin. rewrite Hw in Hin. exists (o_id o), (o_work o), (o_deadline o'). split; [unfold trace; apply -> in_rev; exact Hin|]. split; [|reflexivity].
      apply (j5_taking _ _ HJ5 o (f :: rest) eq_refl). left. reflexivity.
  - destruct (add_tables_frame o s) as (A1 & A2 & A3 & A4 & A5 & A6 & A7 & A8). eapply (j4_same _ _ _ _ []); [eassumption|exact A8|sil| |rewrite add_tables_phase; exact (fun h => h)|apply add_tables_subs|gg].
    unfold add_tables. cbn [upd_op set_ops c_flights]. destruct (o_work o) as [rq|]; [|reflexivity]. cbn [set_tokens c_flights]. clear. revert s. induction (r_paths rq) as [|p l IH]; intros s; [reflexivity|]. cbn [fold_left]. rewrite IH. unfold add_path. destruct (find_key _ _) as [[? ?]|]; reflexivity.
  - eapply (j4_same _ _ _ _ []); [eassumption|apply wake_out|sil| |rewrite wake_phase; exact (fun h => h)|apply wake_subs|gg]. unfold wake. destruct (active _); [|reflexivity]. destruct (_ || _); reflexivity.
  - destruct (o_state o); e1.
  - (* acked *) match goal with H : existsb _ _ = true |- _ => rename H into Hx end. set (x := if b then I_SUBACK f ok else I_UNSUBACK f ok). set (s1 := emit x _). assert (Ht : trace s1 = trace s ++ [x]) by (apply trace_emit; reflexivity). destruct J as [K1 K2 K3 K4]. constructor.
    + intros b' f'. rewrite Ht, !count_app, !count_one, K1. change (c_flights s1) with (remove_first flight_eqb (b, f) (c_flights s)). rewrite <- (cnt_remove b' f' (b, f) (c_flights s) Hx). rewrite cnt_cons.
      assert (E1 : asks b' f' x = false) by (unfold x; destruct b, b'; reflexivity). assert (E2 : acks b' f' x = flight_eqb (b', f') (b, f)) by (unfold x, flight_eqb; destruct b, b'; reflexivity). rewrite E1, E2. lia.
    + intros Ha f'. rewrite Ht, held_app, K2 by assumption. cbn [shown]. change (view f' s1) with (view f' s). unfold x. destruct b, ok; cbn [hears]; rewrite ?(beq_sym f' f); destruct (bytes_eqb f f'); reflexivity.
    + discriminate.
    + intros f' r Hr. rewrite Ht. apply used_app, K4. assumption.
  - (* late *) match goal with H : _ \/ _ |- _ => rename H into Hl end. eapply j4_acked; [eassumption|reflexivity|reflexivity|auto| |eauto]. intros Ha f'. destruct Hl as [Hl|Hl]; [congruence|]. exfalso. pose proof (HJ3 Ha b f) as K. cbn [flights] in K. rewrite cnt_cons, flight_eqb_refl in K. unfold expected in K. rewrite Hl in K. discriminate.
  - (* crash *) exfalso. match goal with H : c_phase s = ACTIVE |- _ => pose proof (HJ3 H b f) as K end. cbn [flights] in K. rewrite cnt_cons, flight_eqb_refl in K. unfold expected in K. match goal with H : get_sub f s = Some r |- _ => rewrite H in K end.
    unfold pend in K. destruct b, (s_pending r); try discriminate; congruence.
  - (* suback ok *) match goal with H : get_sub f s = Some r |- _ => rename H into Hr end. eapply j4_acked; [eassumption|reflexivity|reflexivity|auto| |].
    + intros _ f'. unfold told. change (view f' (set_events _ ?x)) with (view f' x). rewrite upd_sub_twice, view_upd by reflexivity. cbn [shown]. rewrite (beq_sym f' f). destruct (bytes_eqb f f') eqn:E; [|reflexivity]. apply bytes_eqb_spec in E. subst f'. rewrite Hr. reflexivity.
    + intros f' r'. change (get_sub f' (told _ _ ?x)) with (get_sub f' x). rewrite upd_sub_twice by reflexivity. apply kind_upd; reflexivity.
  - eapply j4_acked; [eassumption|reflexivity|reflexivity|auto| |].
    + intros _ f'. unfold told. change (view f' (set_events _ ?x)) with (view f' x). rewrite upd_same_view by reflexivity. cbn [shown orb]. destruct (bytes_eqb f' f); reflexivity.
    + intros f' r'. change (get_sub f' (told _ _ ?x)) with (get_sub f' x). apply kind_upd; reflexivity.
  - eapply j4_acked; [eassumption|reflexivity|reflexivity|auto| |].
    + intros _ f'. rewrite upd_same_view by reflexivity. cbn [shown orb]. destruct (bytes_eqb f' f); reflexivity.
    + intros f' r'. apply kind_upd; reflexivity.
  - eapply j4_acked; [eassumption|reflexivity|reflexivity|auto| |].
    + intros _ f'. unfold told. change (view f' (set_events _ ?x)) with (view f' x). rewrite upd_sub_twice, upd_same_view by reflexivity. cbn [shown orb]. destruct (bytes_eqb f' f); reflexivity.
    + intros f' r'. change (get_sub f' (told _ _ ?x)) with (get_sub f' x). rewrite upd_sub_twice by reflexivity. apply kind_upd; reflexivity.
  - (* unsuback ok *) eapply j4_acked; [eassumption|reflexivity|reflexivity|auto| |].
    + intros _ f'. change (view f' (set_events _ ?x)) with (view f' x). rewrite upd_sub_twice, view_upd by reflexivity. cbn [shown negb andb]. rewrite (beq_sym f' f). destruct (bytes_eqb f f'); [|reflexivity]. destruct (get_sub f' s); reflexivity.
    + intros f' r'. change (get_sub f' (set_events _ ?x)) with (get_sub f' x). rewrite upd_sub_twice by reflexivity. apply kind_upd; reflexivity.
  - eapply j4_acked; [eassumption|reflexivity|reflexivity|auto| |].
    + intros _ f'. rewrite upd_same_view by reflexivity. cbn [shown negb andb]. destruct (bytes_eqb f' f); reflexivity.
    + intros f' r'. apply kind_upd; reflexivity.
  - (* session lost *) set (s1 := set_connected true _). assert (Ht : trace s1 = trace s ++ [I_CONNECTED false]) by (apply trace_emit; reflexivity). destruct J as [K1 K2 K3 K4]. constructor.
    + intros b f. rewrite Ht, !count_app, !count_one, K1. change (c_flights s1) with (c_flights s). destruct b; cbn [asks acks]; lia.
    + intros _ f. rewrite Ht, held_app. reflexivity.
    + intros rest f [= <-]. change (view f s1) with (view f s). unfold view. destruct (get_sub f s) as [r|] eqn:E; [|discriminate]. intros _. pose proof (get_sub_filter _ _ _ E) as <-. apply in_map. eapply get_sub_in. eassumption.
    + intros f r Hr. rewrite Ht. apply used_app, K4. assumption.
  - (* lose none *) match goal with H : forall r, get_sub f _ = _ -> _ |- _ => rename H into Hn end. eapply j4_lost; [eassumption|reflexivity|reflexivity|reflexivity| |eauto]. intros f'. destruct (bytes_eqb f f') eqn:E; [|reflexivity]. apply bytes_eqb_spec in E. subst f'. unfold view. destruct (get_sub f s') as [r|] eqn:E; [apply Hn; reflexivity|reflexivity].
  - (* lose done *) destruct J as [K1 K2 K3 K4]. constructor; [exact K1| |discriminate|exact K4]. intros Ha f. rewrite K2 by assumption. cbn [shown]. destruct (view f s') eqn:E; [|reflexivity]. destruct (K3 [] f eq_refl E).
  - eapply j4_lost; [eassumption|reflexivity|reflexivity|reflexivity| |].
    + intros f'. unfold view. rewrite get_sub_drop. destruct (bytes_eqb f f') eqn:E; [reflexivity|]. change (get_sub f' (told _ _ ?x)) with (get_sub f' x). rewrite get_sub_upd by reflexivity. rewrite E. reflexivity.
    + intros f' r'. rewrite get_sub_drop. destruct (bytes_eqb f f') eqn:E; [discriminate|]. change (get_sub f' (told _ _ ?x)) with (get_sub f' x). apply kind_upd; reflexivity.
  - eapply j4_lost; [eassumption|reflexivity|reflexivity|reflexivity| |].
    + intros f'. change (view f' (told _ _ ?x)) with (view f' x). rewrite view_upd by reflexivity. destruct (bytes_eqb f f'); [|reflexivity]. destruct (get_sub f' s); reflexivity.
    + intros f' r'. change (get_sub f' (told _ _ ?x)) with (get_sub f' x). apply kind_upd; reflexivity.
  - eapply j4_lost; [eassumption|reflexivity|reflexivity|reflexivity| |].
    + intros f'. change (view f' (told _ _ ?x)) with (view f' x). rewrite view_upd by reflexivity. destruct (bytes_eqb f f'); [|reflexivity]. destruct (get_sub f' s); reflexivity.
    + intros f' r'. change (get_sub f' (told _ _ ?x)) with (get_sub f' x). apply kind_upd; reflexivity.
  - (* subscribing *) eapply (j4_ask true f); [eassumption|reflexivity|reflexivity|reflexivity| |].
    + intros f'. exact (upd_same_view f (with_pending SUBSCRIBING) s (fun _ => eq_refl) (fun _ => eq_refl) f').
    + intros f' r'. exact (kind_upd f (with_pending SUBSCRIBING) s (fun _ => eq_refl) (fun _ => eq_refl) f' r').
  - (* subscribe halt *) eapply (j4_frame _ _ _ _ [O_SUBSCRIBE f false]); [eassumption|reflexivity|sil|reflexivity|auto| | |gg].
    + intros f' _. exact (upd_same_view f poisoned s (fun _ => eq_refl) (fun _ => eq_refl) f').
    + intros f' r' Hr. left. exact (kind_upd f poisoned s (fun _ => eq_refl) (fun _ => eq_refl) f' r' Hr).
  - (* unsubscribing *) eapply (j4_ask false f); [eassumption|reflexivity|reflexivity|reflexivity| |].
    + intros f'. exact (upd_same_view f (with_pending UNSUBSCRIBING) s (fun _ => eq_refl) (fun _ => eq_refl) f').
    + intros f' r'. exact (kind_upd f (with_pending UNSUBSCRIBING) s (fun _ => eq_refl) (fun _ => eq_refl) f' r').
  - (* purge *) match goal with H : get_sub f s = Some r |- _ => rename H into Hr end. match goal with H : s_subscribed r = false |- _ => rename H into Hsub end. eapply (j4_frame _ _ _ _ []); [eassumption|reflexivity|sil|reflexivity|auto| | |gg].
    + intros f' _. unfold view. rewrite get_sub_drop. destruct (bytes_eqb f f') eqn:E; [|reflexivity]. apply bytes_eqb_spec in E. subst f'. rewrite Hr. auto.
    + intros f' r'. rewrite get_sub_drop. destruct (bytes_eqb f f'); [discriminate|eauto].
  - (* message *) destruct (streamed_emits topic payload (emit (I_MESSAGE topic payload j) s)) as (l & -> & Hl). eapply (j4_same _ _ _ _ (l ++ [I_MESSAGE topic payload j])); [eassumption|cbn [emits c_out emit]; rewrite <- app_assoc; reflexivity| |reflexivity|auto|reflexivity|gg].
    apply Forall_app. split; [|sil]. eapply Forall_impl; [|exact Hl]. intros x (i & ->). exact I.
  - (* unlisten *) destruct (unlisten_frame (o_id o) s f) as (A1 & A2 & A3 & A4 & _). eapply (j4_frame _ _ _ _ []); [eassumption|apply unlisten_out|sil|exact A3|rewrite A4; auto| | |gg].
    + intros f' _. unfold unlisten. destruct (get_sub f s) as [r|] eqn:Er; [|reflexivity]. set (l := filter _ _). destruct l; [unfold status; destruct (active _); cbn [set_events]|]; exact (upd_same_view f (with_listeners _) s (fun _ => eq_refl) (fun _ => eq_refl) f').
    + intros f' r' Hr. left. revert Hr. unfold unlisten. destruct (get_sub f s) as [r|] eqn:Er; [|eauto]. set (l := filter _ _). destruct l; [unfold status; destruct (active _); cbn [set_events]|]; intros Hr; exact (kind_upd f (with_listeners _) s (fun _ => eq_refl) (fun _ => eq_refl) f' r' Hr).
  - (* gone *) eapply (j4_same _ _ _ _ [O_GONE (o_id o)]); [eassumption|cbn [emit c_out]; rewrite untabled_out; reflexivity|sil| |cbn [emit c_phase]; rewrite untabled_phase; auto|apply untabled_subs|gg].
    cbn [emit c_flights]. unfold untabled. destruct (o_work o) as [rq|]; [|reflexivity]. destruct (o_tables o); [|reflexivity]. assert (G : forall l s1, c_flights (fold_left drop_path l s1) = c_flights s1). { clear. induction l as [|p l IH]; intros s1; [reflexivity|]. cbn [fold_left]. rewrite IH. unfold drop_path. destruct (find_key _ _) as [[? ?]|]; reflexivity. }
    rewrite G. reflexivity.
  - (* cleaning *) eapply (j4_ask false f); [eassumption|reflexivity|reflexivity|reflexivity| |].
    + intros f'. exact (upd_same_view f (with_pending UNSUBSCRIBING) s (fun _ => eq_refl) (fun _ => eq_refl) f').
    + intros f' r'. exact (kind_upd f (with_pending UNSUBSCRIBING) s (fun _ => eq_refl) (fun _ => eq_refl) f' r').
  - eapply (j4_frame _ _ _ _ []); [eassumption|reflexivity|sil|reflexivity|auto| | |gg].
    + intros f' [Ha|[l E]]; [cbn [drop_sub set_subs c_phase] in Ha; congruence|discriminate].
    + intros f' r'. rewrite get_sub_drop. destruct (bytes_eqb f f'); [discriminate|eauto].
  - match goal with H : Permutation _ _ |- _ => rename H into Hp end. pose proof (get_perm_sub s l (j1_nodup _ _ _ HJ1) Hp) as Hg. eapply (j4_frame _ _ _ _ []); [eassumption|reflexivity|sil|reflexivity|auto| | |gg].
    + intros f' _. unfold view. rewrite Hg. reflexivity.
    + intros f' r'. rewrite Hg. eauto.
  - eapply (j4_frame _ _ _ _ []); [eassumption|reflexivity|sil|reflexivity|auto| | |gg].
    + intros f' _. apply upd_same_view; reflexivity.
    + intros f' r' Hr. left. revert Hr. apply kind_upd; reflexivity.
Qed.
Lemma J4_new connected : J4 IDLE (client_new connected).
Proof. constructor; try discriminate; reflexivity. Qed.
