(** At most one subscribe or unsubscribe request of the request-response client is under way for each filter. *)
From Verif Require Import Base Split TopicAlias_Model TopicAlias_Proofs SubSet_Model Topic_Model Paths RR_Model RR_Steps RR_Decomp RR_Subs.
From Coq Require Import Permutation.

Definition cnt (b : bool) (f : bytes) (l : list (bool * bytes)) : nat := length (filter (flight_eqb (b, f)) l).
Definition flights (g : ghost) (s : client) : list (bool * bytes) := match g with ACKED b f _ => (b, f) :: c_flights s | _ => c_flights s end.
Definition pend (b : bool) (r : sub) : nat := match b, s_pending r with true, SUBSCRIBING | false, UNSUBSCRIBING => 1%nat | _, _ => 0%nat end.
Definition expected (b : bool) (f : bytes) (s : client) : nat := match get_sub f s with Some r => pend b r | None => 0%nat end.
Definition J3 (g : ghost) (s : client) : Prop := c_phase s = ACTIVE -> forall b f, cnt b f (flights g s) = expected b f s.
Lemma flight_eqb_spec a b : flight_eqb a b = true <-> a = b.
Proof.
  destruct a as [a1 a2], b as [b1 b2]. unfold flight_eqb. cbn [fst snd]. rewrite andb_true_iff, Bool.eqb_true_iff, bytes_eqb_spec. split; [intros [-> ->]; reflexivity|intros [= -> ->]; auto].
Qed.
Lemma cnt_cons b f x l : cnt b f (x :: l) = ((if flight_eqb (b, f) x then 1 else 0) + cnt b f l)%nat.
Proof. unfold cnt. cbn [filter]. destruct (flight_eqb (b, f) x); reflexivity. Qed.
Lemma cnt_app b f l l' : cnt b f (l ++ l') = (cnt b f l + cnt b f l')%nat.
Proof. unfold cnt. rewrite filter_app, app_length. reflexivity. Qed.
Lemma cnt_remove b f x l : existsb (flight_eqb x) l = true -> cnt b f (x :: remove_first flight_eqb x l) = cnt b f l.
Proof.
  induction l as [|y l IH]; [discriminate|]. cbn [existsb remove_first]. destruct (flight_eqb x y) eqn:E; [apply flight_eqb_spec in E; subst; reflexivity|]. cbn [orb]. intros H. specialize (IH H).
  rewrite !cnt_cons in *. lia.
Qed.
Lemma flight_eqb_refl a : flight_eqb a a = true. Proof. apply flight_eqb_spec. reflexivity. Qed.
Lemma flight_other b f b' f' : f' <> f -> flight_eqb (b', f') (b, f) = false.
Proof. intros H. destruct (flight_eqb (b', f') (b, f)) eqn:E; [apply flight_eqb_spec in E; congruence|reflexivity]. Qed.

(** steps which leave records' pending actions alone *)
Lemma j3_frame g s g' s' : J3 g s -> (c_phase s' = ACTIVE -> c_phase s = ACTIVE) -> (forall b f, expected b f s' = expected b f s) -> flights g' s' = flights g s -> J3 g' s'.
Proof. intros H Hp He Hf Ha b f. rewrite He, Hf. apply H. auto. Qed.
Lemma expected_subs b f s s' : c_subs s' = c_subs s -> expected b f s' = expected b f s.
Proof. intros H. unfold expected. rewrite (get_sub_subs f s s' H). reflexivity. Qed.
Lemma expected_upd b f f' h s : (forall r, s_filter (h r) = s_filter r) -> (forall r, s_pending (h r) = s_pending r) -> expected b f' (upd_sub f h s) = expected b f' s.
Proof.
  intros Hf Hp. unfold expected. rewrite get_sub_upd by assumption. destruct (bytes_eqb f f'); [|reflexivity]. destruct (get_sub f' s) as [r|]; [|reflexivity]. cbn [option_map]. unfold pend. rewrite Hp. reflexivity.
Qed.
Lemma expected_drop b f f' s r : get_sub f s = Some r -> s_pending r = NOTHING -> expected b f' (drop_sub f s) = expected b f' s.
Proof.
  intros Hg Hp. unfold expected. rewrite get_sub_drop. destruct (bytes_eqb f f') eqn:E; [|reflexivity]. apply bytes_eqb_spec in E. subst f'. rewrite Hg. unfold pend. rewrite Hp. destruct b; reflexivity.
Qed.
(** steps which change a pending action *)
Lemma j3_change g s g' s' f r p : J3 g s -> c_phase s = ACTIVE -> get_sub f s = Some r ->
  (forall f', get_sub f' s' = if bytes_eqb f f' then Some p else get_sub f' s) ->
  (forall b f', f' <> f -> cnt b f' (flights g' s') = cnt b f' (flights g s)) ->
  (forall b, cnt b f (flights g s) = pend b r -> cnt b f (flights g' s') = pend b p) -> J3 g' s'.
Proof.
  intros H Ha Hg Hs Ho Hf _ b f'. specialize (H Ha). unfold expected in *. rewrite Hs. destruct (bytes_eqb f f') eqn:E.
  - apply bytes_eqb_spec in E. subst f'. apply Hf. rewrite H, Hg. reflexivity.
  - apply bytes_eqb_false in E. rewrite Ho by auto. apply H.
Qed.
Ltac f3 := eapply j3_frame; [eassumption|auto|intros; apply expected_subs; reflexivity|reflexivity].
Lemma upd_changed f h s r : (forall r, s_filter (h r) = s_filter r) -> get_sub f s = Some r -> forall f', get_sub f' (upd_sub f h s) = if bytes_eqb f f' then Some (h r) else get_sub f' s.
Proof. intros Hh Hg f'. rewrite get_sub_upd by assumption. destruct (bytes_eqb f f') eqn:E; [|reflexivity]. apply bytes_eqb_spec in E. subst f'. rewrite Hg. reflexivity. Qed.
Lemma acked_done (b : bool) f ok s g' s' r p : J3 (ACKED b f ok) s -> c_phase s = ACTIVE -> get_sub f s = Some r -> s_pending r = (if b then SUBSCRIBING else UNSUBSCRIBING) -> (forall f', get_sub f' s' = if bytes_eqb f f' then Some p else get_sub f' s) ->
  s_pending p = NOTHING -> flights g' s' = c_flights s -> J3 g' s'.
Proof.
  intros H Ha Hg Hr Hs Hp Hf. eapply j3_change; [eassumption|assumption|eassumption|eassumption| |].
  - intros b' f' Hn. rewrite Hf. cbn [flights]. rewrite cnt_cons, flight_other by assumption. reflexivity.
  - intros b'. rewrite Hf. cbn [flights]. rewrite cnt_cons. unfold pend. rewrite Hp, Hr. unfold flight_eqb. cbn [fst snd]. rewrite bytes_eqb_refl, andb_true_r. destruct b', b; cbn; lia.
Qed.
Lemma asked (b : bool) f s g s' r p : J3 g s -> (forall b f ok, g <> ACKED b f ok) -> c_phase s = ACTIVE -> get_sub f s = Some r -> (forall b', pend b' r = 0%nat) -> (forall f', get_sub f' s' = if bytes_eqb f f' then Some p else get_sub f' s) ->
  s_pending p = (if b then SUBSCRIBING else UNSUBSCRIBING) -> c_flights s' = c_flights s ++ [(b, f)] -> J3 g s'.
Proof.
  intros H Hn Ha Hg Hr Hs Hp Hf. assert (Hx : flights g s' = flights g s ++ [(b, f)]) by (destruct g; try exact Hf; destruct (Hn b0 f0 ok eq_refl)).
  eapply j3_change; [eassumption|assumption|eassumption|eassumption| |].
  - intros b' f' Hne. rewrite Hx, cnt_app. unfold cnt at 2. cbn [filter]. rewrite flight_other by assumption. cbn; lia.
  - intros b'. rewrite Hx, cnt_app, Hr. intros ->. unfold cnt, pend. rewrite Hp. cbn [filter]. unfold flight_eqb. cbn [fst snd]. rewrite bytes_eqb_refl, andb_true_r. destruct b', b; reflexivity.
Qed.
Lemma J3_step cf g s g' s' : J1 cf g s -> J3 g s -> big cf (g, s) (g', s') -> J3 g' s'.
Proof.
  intros J1 J B. inversion B as [x y P|s0 Ha Hs|s0 Hp Ho He Hu]; subst; [|intros Hd; discriminate|intros Hd; discriminate].
  clear B. inversion P; subst; try solve [f3].
  - unfold create. rewrite H4. f3.
  - eapply j3_frame; [eassumption|auto| |]; [intros; apply expected_subs; unfold submitted, release; rewrite upd_op_subs, wake_subs; reflexivity|]. cbn [flights]. unfold submitted, release, upd_op. cbn [c_flights set_ops].
    unfold wake. destruct (active _); [|reflexivity]. destruct (_ || _); reflexivity.
  - eapply j3_frame; [eassumption|rewrite fail_phase; auto|intros; apply expected_subs; rewrite fail_subs; reflexivity|]. cbn [flights]. unfold fail, complete, halt. destruct (get_op _ _) as [o1|]; [|reflexivity].
    destruct (o_kind o1); destruct (state_is S_PENDING_DESTROY o1); try destruct (state_is S_TERMINAL o1); reflexivity.
  - (* listen *) eapply j3_frame; [eassumption|auto| |unfold listen; destruct (get_sub f s); reflexivity]. intros b f'. unfold expected. rewrite get_sub_listen. destruct (bytes_eqb f f') eqn:E; [|reflexivity].
    apply bytes_eqb_spec in E. subst f'. destruct (get_sub f s); [reflexivity|]. destruct b; reflexivity.
  - eapply j3_frame; [eassumption|rewrite add_tables_phase; auto|intros; apply expected_subs, add_tables_subs|]. cbn [flights]. unfold add_tables. destruct (o_work o) as [r|]; [|reflexivity]. cbn [upd_op set_ops c_flights set_tokens].
    generalize (r_paths r) as l. intros l. clear. revert s. induction l as [|p l IH]; intros s; [reflexivity|]. cbn [fold_left]. rewrite IH. unfold add_path. destruct (find_key _ _) as [[? ?]|]; reflexivity.
  - (* wake *) eapply j3_frame; [eassumption|rewrite wake_phase; auto|intros; apply expected_subs, wake_subs|]. cbn [flights]. unfold wake. destruct (active _); [|reflexivity]. destruct (_ || _); reflexivity.
  - eapply j3_frame; [eassumption|destruct (o_state o); auto|intros; apply expected_subs; destruct (o_state o); reflexivity|destruct (o_state o); reflexivity].
  - (* acked *) intros Ha b0 f0. assert (E : expected b0 f0 (emit (if b then I_SUBACK f ok else I_UNSUBACK f ok) (set_flights (remove_first flight_eqb (b, f) (c_flights s)) s)) = expected b0 f0 s) by (apply expected_subs; reflexivity).
    rewrite E. rewrite <- (J Ha). cbn [flights]. apply cnt_remove. assumption.
  - (* late *) intros Ha. match goal with H : _ \/ get_sub _ _ = None |- _ => destruct H as [H3|H3] end; [contradiction|]. specialize (J Ha b f). cbn [flights] in J. rewrite cnt_cons, flight_eqb_refl in J. unfold expected in J. rewrite H3 in J. lia.
  - (* crash *) intros Ha. specialize (J Ha b f). cbn [flights] in J. rewrite cnt_cons, flight_eqb_refl in J. unfold expected in J. rewrite H4 in J. unfold pend in J. destruct b, (s_pending r); try congruence; lia.
  - eapply acked_done with (s' := told _ _ _); [eassumption|assumption|eassumption|assumption|intros f'; unfold told; change (get_sub f' (set_events _ ?x)) with (get_sub f' x); rewrite upd_sub_twice by reflexivity; apply (upd_changed f (fun r => with_subscribed true (with_pending NOTHING r)) s r); [reflexivity|assumption]|reflexivity|reflexivity].
  - eapply acked_done with (s' := told _ _ _); [eassumption|assumption|eassumption|assumption|apply (upd_changed f (with_pending NOTHING) s r); [reflexivity|assumption]|reflexivity|reflexivity].
  - eapply acked_done; [eassumption|assumption|eassumption|assumption|apply (upd_changed f (with_pending NOTHING) s r); [reflexivity|assumption]|reflexivity|reflexivity].
  - eapply acked_done with (s' := told _ _ _); [eassumption|assumption|eassumption|assumption|intros f'; unfold told; change (get_sub f' (set_events _ ?x)) with (get_sub f' x); rewrite upd_sub_twice by reflexivity; apply (upd_changed f (fun r => poisoned (with_pending NOTHING r)) s r); [reflexivity|assumption]|reflexivity|reflexivity].
  - eapply acked_done; [eassumption|assumption|eassumption|assumption|intros f'; change (get_sub f' (set_events _ ?x)) with (get_sub f' x); rewrite upd_sub_twice by reflexivity; apply (upd_changed f (fun r => with_subscribed false (with_pending NOTHING r)) s r); [reflexivity|assumption]|reflexivity|reflexivity].
  - eapply acked_done; [eassumption|assumption|eassumption|assumption|apply (upd_changed f (with_pending NOTHING) s r); [reflexivity|assumption]|reflexivity|reflexivity].
  - (* lose *) assert (Hp : s_pending r = NOTHING) by (pose proof (proj1 (j1_ok _ _ _ J1 _ _ H4) H5); destruct (s_pending r); congruence).
    eapply j3_frame; [eassumption|auto| |reflexivity]. intros b f'. erewrite expected_drop; [|unfold told; change (get_sub f (set_events _ ?x)) with (get_sub f x); rewrite get_sub_upd_same by reflexivity; rewrite H4; reflexivity|exact Hp].
    etransitivity; [apply expected_subs with (s := upd_sub f (with_subscribed false) s); reflexivity|]. apply expected_upd; reflexivity.
  - eapply j3_frame; [eassumption|auto| |reflexivity]. intros b f'. etransitivity; [apply expected_subs with (s := upd_sub f (with_subscribed false) s); reflexivity|]. apply expected_upd; reflexivity.
  - eapply j3_frame; [eassumption|auto| |reflexivity]. intros b f'. etransitivity; [apply expected_subs with (s := upd_sub f (with_subscribed false) s); reflexivity|]. apply expected_upd; reflexivity.
  - (* subscribe *) eapply (asked true f s _ _ r); [eassumption|intros b0 f0 ok0; destruct H4 as [->|[o ->]]; discriminate|assumption|eassumption|intros b'; unfold pend; rewrite H10; destruct b'; reflexivity|
      exact (upd_changed f (with_pending SUBSCRIBING) (set_flights (c_flights s ++ [(true, f)]) (emit (O_SUBSCRIBE f true) s)) r (fun _ => eq_refl) H5)|reflexivity|reflexivity].
  - eapply j3_frame; [eassumption|auto| |destruct H4 as [->|[o ->]]; reflexivity]. intros b f'. etransitivity; [apply expected_subs with (s := upd_sub f poisoned (emit (O_SUBSCRIBE f false) s)); reflexivity|].
    rewrite expected_upd by reflexivity. apply expected_subs; reflexivity.
  - eapply (asked false f s _ _ r); [eassumption|discriminate|assumption|eassumption| |exact (upd_changed f (with_pending UNSUBSCRIBING) (set_flights (c_flights s ++ [(false, f)]) (emit (O_UNSUBSCRIBE f true) s)) r (fun _ => eq_refl) H4)|reflexivity|reflexivity].
    intros b'. unfold pend. pose proof (proj1 (j1_ok _ _ _ J1 _ _ H4) H7). destruct b', (s_pending r); congruence.
  - eapply j3_frame; [eassumption|auto| |reflexivity]. intros b f'. eapply expected_drop; eassumption.
  - destruct (streamed_emits topic payload (emit (I_MESSAGE topic payload j) s)) as (l & -> & _). f3.
  - (* unlisten *) unfold unlisten. destruct (get_sub f s) as [r|] eqn:E; [|f3]. set (l := filter _ _). assert (K : J3 (LEAVING o rest) (upd_sub f (with_listeners l) s)) by (eapply j3_frame; [eassumption|auto|intros; apply expected_upd; reflexivity|reflexivity]).
    destruct l; [|assumption]. unfold status. destruct (active _); f3.
  - eapply j3_frame; [eassumption|cbn; rewrite untabled_phase; auto|intros; apply expected_subs; cbn; apply untabled_subs|]. cbn [flights]. unfold untabled. destruct (o_work o) as [r|]; [|reflexivity]. destruct (o_tables o); [|reflexivity]. cbn [emit c_flights].
    transitivity (c_flights (set_tokens (remove_key (r_token r) (c_tokens s)) s)); [|reflexivity]. generalize (set_tokens (remove_key (r_token r) (c_tokens s)) s) as s1. generalize (r_paths r) as l. clear. intros l. induction l as [|p l IH]; intros s; [reflexivity|]. cbn [fold_left]. rewrite IH. unfold drop_path. destruct (find_key _ _) as [[? ?]|]; reflexivity.
  - intros Ha. cbn in Ha. congruence.
  - intros Ha. cbn in Ha. congruence.
  - (* swap *) eapply j3_frame; [eassumption|auto| |reflexivity]. intros b f. unfold expected. match goal with Hp : Permutation _ _ |- _ => rewrite (get_perm_sub s l (j1_nodup _ _ _ J1) Hp) end. reflexivity.
  - eapply j3_frame; [eassumption|auto| |reflexivity]. intros b f'. apply expected_upd; reflexivity.
Qed.
