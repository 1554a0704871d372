(** Each step of the 3.1.1 client is made of small steps (see Requests) *)
From Coq Require Import Sorting.Sorted.
From Verif Require Import Base Client311_Model Client311_States Client311_Spec Client311_Requests Client311_Search.

(** ** What functions do to what matters *)
Definition mapped (u : N) (F : ess -> ess) (h : list ess) : list ess := map (fun e => if e_uid e =? u then F e else e) h.
Lemma heap_upd u f F l : (forall r, ess_of (f r) = F (ess_of r)) -> map ess_of (map (fun r => if is_uid u r then f r else r) l) = mapped u F (map ess_of l).
Proof. intro H. unfold mapped. rewrite !map_map. apply map_ext. intro r. unfold is_uid. cbn. destruct (q_uid r =? u); [apply H|reflexivity]. Qed.
Lemma mapped_id u F h : (forall e, F e = e) -> mapped u F h = h.
Proof. intro H. unfold mapped. rewrite <- (map_id h) at 2. apply map_ext. intro e. rewrite H. destruct (_ =? _); reflexivity. Qed.
Lemma view_upd u f F s : (forall r, ess_of (f r) = F (ess_of r)) -> view (upd u f s) = mkvw (mapped u F (map ess_of (m_heap s))) (m_table s) (m_tasks s) (m_ongoing s) (m_pending s) (m_last s) (m_next s) (m_out s).
Proof. intro H. unfold view, upd. cbn. rewrite (heap_upd u f F _ H). reflexivity. Qed.
Lemma view_upd_same u f s : (forall r, ess_of (f r) = ess_of r) -> view (upd u f s) = view s.
Proof. intro H. rewrite (view_upd u f (fun e => e) s H), mapped_id by reflexivity. reflexivity. Qed.
Lemma view_change u a b s : view (change u a b s) = view s.
Proof. unfold change. destruct (get u s) as [r|]; [|reflexivity]. destruct (q_size r =? 0); [reflexivity|]. rewrite view_upd_same by reflexivity. reflexivity. Qed.
Lemma get_in u s r : get u s = Some r -> In r (m_heap s) /\ q_uid r = u.
Proof. intro H. apply find_some in H as [H K]. split; [exact H|]. apply N.eqb_eq, K. Qed.
Lemma get_ess u s r : get u s = Some r -> In (ess_of r) (v_heap (view s)) /\ e_uid (ess_of r) = u.
Proof. intro H. apply get_in in H as [H K]. split; [apply in_map, H|exact K]. Qed.
Lemma get_none u s : get u s = None -> ~ In u (map e_uid (v_heap (view s))).
Proof. intros H K. cbn in K. rewrite map_map in K. apply in_map_iff in K as (r & E & K). assert (J := find_none _ _ H r K). unfold is_uid in J. cbn in E. rewrite E, N.eqb_refl in J. discriminate. Qed.
Lemma get_view u s s' : m_heap s = m_heap s' -> get u s = get u s'. Proof. unfold get. intros ->. reflexivity. Qed.
Lemma heap_drop r l : map ess_of (filter (fun x => negb (is_uid (q_uid r) x)) l) = others (e_uid (ess_of r)) (map ess_of l).
Proof. unfold others, is_uid. cbn. induction l as [|x l IH]; [reflexivity|]. cbn. destruct (q_uid x =? q_uid r); cbn; rewrite IH; reflexivity. Qed.
Lemma view_drop r s : view (drop r s) = mkvw (others (e_uid (ess_of r)) (map ess_of (m_heap s))) (other_ids (e_id (ess_of r)) (m_table s)) (m_tasks s) (m_ongoing s) (m_pending s) (m_last s) (m_next s) (m_out s).
Proof. unfold view, drop. cbn [m_heap m_table m_tasks m_ongoing m_pending m_last m_next m_out set_heap set_table]. rewrite heap_drop. reflexivity. Qed.
Lemma view_tell r e s : view (tell r e s) = mkvw (map ess_of (m_heap s)) (m_table s) (m_tasks s) (m_ongoing s) (m_pending s) (m_last s) (m_next s) (over_out (ess_of r) e :: m_out s).
Proof. unfold tell, over_out. cbn [e_kind ess_of]. destruct (q_kind r); reflexivity. Qed.
Lemma view_eq a b : v_heap a = v_heap b -> v_table a = v_table b -> v_tasks a = v_tasks b -> v_ongoing a = v_ongoing b -> v_pending a = v_pending b -> v_last a = v_last b -> v_next a = v_next b -> v_out a = v_out b -> a = b.
Proof. destruct a, b; cbn. intros. subst. reflexivity. Qed.
Lemma view_fields a b : view a = view b -> map ess_of (m_heap a) = map ess_of (m_heap b) /\ m_table a = m_table b /\ m_tasks a = m_tasks b /\ m_ongoing a = m_ongoing b /\ m_pending a = m_pending b /\ m_last a = m_last b /\ m_next a = m_next b /\ m_out a = m_out b.
Proof. unfold view. intro H. injection H. intros. repeat split; assumption. Qed.
Lemma view_is s h t ta on pe la ne o : view s = mkvw h t ta on pe la ne o -> map ess_of (m_heap s) = h /\ m_table s = t /\ m_tasks s = ta /\ m_ongoing s = on /\ m_pending s = pe /\ m_last s = la /\ m_next s = ne /\ m_out s = o.
Proof. unfold view. intro H. injection H. intros. repeat split; assumption. Qed.
Lemma view_finished r e s : view (finished r e s) = mkvw (others (e_uid (ess_of r)) (map ess_of (m_heap s))) (other_ids (e_id (ess_of r)) (m_table s)) (m_tasks s) (m_ongoing s) (m_pending s) (m_last s) (m_next s) (over_out (ess_of r) e :: m_out s).
Proof.
  unfold finished. rewrite view_drop. pose proof (view_change (q_uid r) false false (tell r e s)) as H. rewrite view_tell in H. unfold view in H. injection H. intros E1 E2 E3 E4 E5 E6 E7 E8. rewrite E1, E2, E3, E4, E5, E6, E7, E8. reflexivity.
Qed.
Lemma view_cancelled e u s r : get u s = Some r -> view (cancelled e u s) = mkvw (others (e_uid (ess_of r)) (map ess_of (m_heap s))) (other_ids (e_id (ess_of r)) (m_table s)) (m_tasks s) (m_ongoing s) (m_pending s) (m_last s) (m_next s) (over_out (ess_of r) e :: m_out s).
Proof.
  intro G. unfold cancelled. rewrite G. rewrite view_drop. pose proof (view_tell r e s) as H. unfold view in H. injection H. intros E1 E2 E3 E4 E5 E6 E7 E8. rewrite E1, E2, E3, E4, E5, E6, E7, E8. reflexivity.
Qed.
Lemma others_marked u F h : (forall e, e_uid (F e) = e_uid e) -> others u (mapped u F h) = others u h.
Proof.
  intro H. unfold others, mapped. induction h as [|e h IH]; [reflexivity|]. cbn. destruct (e_uid e =? u) eqn:E; [rewrite H|]; rewrite E; cbn; rewrite IH; reflexivity.
Qed.

(** ** Sending *)
Definition with_tm (tm : option N) (e : ess) : ess := mkess (e_uid e) (e_id e) (e_kind e) (e_wait e) (e_sent e) tm.
Definition framed (F : ess -> ess) (o : list out) (s s' : mqtt) (u : N) : Prop := view s' = mkvw (mapped u F (map ess_of (m_heap s))) (m_table s) (m_tasks s) (m_ongoing s) (m_pending s) (m_last s) (m_next s) (o ++ m_out s).
Inductive sending (wr : bool) (r : req) (s s' : mqtt) : sent -> Prop :=
| S_none : framed (fun e => e) [] s s' (q_uid r) -> sending wr r s s' R_ERROR
| S_empty : q_kind r = K_RESUBSCRIBE -> framed (fun e => e) [] s s' (q_uid r) -> sending wr r s s' R_COMPLETE
| S_failed p : carries (q_id r) (q_kind r) (q_sent r) p -> framed (fun e => e) [O_SEND (q_uid r) p wr] s s' (q_uid r) -> sending wr r s s' R_ERROR
| S_done p : carries (q_id r) (q_kind r) (q_sent r) p -> wr = true -> q_kind r = K_PING \/ (exists retain topic payload, q_kind r = K_PUBLISH 0 retain topic payload) ->
    framed (fun e => e) [O_SEND (q_uid r) p wr] s s' (q_uid r) -> sending wr r s s' R_COMPLETE
| S_ongoing p F : carries (q_id r) (q_kind r) (q_sent r) p -> retryable (q_kind r) = true -> (F = (fun e => e) /\ (wr = true -> q_wait r = 0 \/ q_wait r = two64 - 1) \/ 0 < q_wait r < two64 - 1 /\ F = with_tm (Some (sat_add (m_now s) (q_wait r)))) ->
    framed F [O_SEND (q_uid r) p wr] s s' (q_uid r) -> sending wr r s s' R_ONGOING.
Lemma framed_same u s s' : view s' = view s -> framed (fun e => e) [] s s' u.
Proof. intro H. unfold framed. rewrite mapped_id by reflexivity. exact H. Qed.
Lemma framed_emit x s s' u : view s' = view (emit x s) -> framed (fun e => e) [x] s s' u.
Proof. intro H. unfold framed. rewrite mapped_id by reflexivity. exact H. Qed.
Lemma framed_after F o s0 s s' u : view s0 = view s -> framed F o s0 s' u -> framed F o s s' u.
Proof. unfold framed. intros H ->. apply view_fields in H as (-> & -> & -> & -> & -> & -> & -> & ->). reflexivity. Qed.
Lemma framed_then F o s s' s'' u : view s'' = view s' -> framed F o s s' u -> framed F o s s'' u. Proof. unfold framed. intros ->. auto. Qed.
Lemma view_arm r s : arm r s = s /\ (q_wait r = 0 \/ q_wait r = two64 - 1) \/ (0 < q_wait r /\ q_wait r <> two64 - 1) /\ view (arm r s) = mkvw (mapped (q_uid r) (with_tm (Some (sat_add (m_now s) (q_wait r)))) (map ess_of (m_heap s))) (m_table s) (m_tasks s) (m_ongoing s) (m_pending s) (m_last s) (m_next s) (m_out s).
Proof.
  unfold arm. destruct (q_wait r =? two64 - 1) eqn:A; [apply N.eqb_eq in A; left; split; [reflexivity|auto]|]. destruct (q_wait r =? 0) eqn:B; [apply N.eqb_eq in B; left; split; [reflexivity|auto]|]. right. apply N.eqb_neq in A, B. split; [split; [lia|exact A]|]. cbn [orb]. apply view_upd. reflexivity.
Qed.
Lemma framed_arm r x s : exists F, framed F [x] s (arm r (emit x s)) (q_uid r) /\ (F = (fun e => e) /\ (q_wait r = 0 \/ q_wait r = two64 - 1) \/ (0 < q_wait r /\ q_wait r <> two64 - 1) /\ F = with_tm (Some (sat_add (m_now s) (q_wait r)))).
Proof.
  destruct (view_arm r (emit x s)) as [[H Z]|[L H]]; [exists (fun e => e); split; [rewrite H; apply framed_emit; reflexivity|auto]|].
  eexists. split; [exact H|auto].
Qed.
Lemma plant_all_view l : forall s s', plant_all l s = Some s' -> view s' = view s /\ m_now s' = m_now s.
Proof.
  induction l as [|[f q] l IH]; intros s s' H; cbn in H; [injection H as <-; auto|]. destruct (filter_of f); [|discriminate]. apply IH in H as [-> ->]. unfold plant. destruct (existsb _ _); auto.
Qed.
Lemma send_sending enc wr r s : q_wait r < two64 -> sending wr r s (fst (send enc wr r s)) (snd (send enc wr r s)).
Proof.
  intro W. unfold send. destruct (q_kind r) as [qos retain topic payload|topics| |f|] eqn:K.
  - unfold publish_send. destruct enc; cbn [negb fst snd]; [|apply S_none, framed_same; reflexivity].
    set (p := PUBLISH _ _ _ _ _ _). assert (C : carries (q_id r) (q_kind r) (q_sent r) p) by (rewrite K; reflexivity).
    destruct wr; cbn [negb fst snd].
    + destruct (qos =? 0) eqn:Q; cbn [fst snd].
      * apply (S_done _ _ _ _ p); [exact C|reflexivity| |apply framed_emit; reflexivity]. right. apply N.eqb_eq in Q. subst qos. eauto.
      * destruct (framed_arm r (O_SEND (q_uid r) p true) s) as (F & A & B). apply (S_ongoing _ _ _ _ p F); [exact C|rewrite K; cbn; rewrite Q; reflexivity| |exact A]. destruct B as [[B1 B2]|[B1 B2]]; [left; split; [exact B1|intros _; exact B2]|right; split; [lia|exact B2]].
    + destruct (qos =? 0) eqn:Q.
      * apply (S_failed _ _ _ _ p); [exact C|apply framed_emit; reflexivity].
      * apply (S_ongoing _ _ _ _ p (fun e => e)); [exact C|rewrite K; cbn; rewrite Q; reflexivity|left; split; [reflexivity|discriminate]|apply framed_emit; reflexivity].
  - unfold subscribe_send. destruct (if q_tree r then Some s else plant_all topics s) as [s1|] eqn:E; cbn [fst snd]; [|apply S_none, framed_same; reflexivity].
    destruct enc; cbn [negb fst snd]; [|apply S_none, framed_same; reflexivity].
    assert (V : view s1 = view s /\ m_now s1 = m_now s) by (destruct (q_tree r); [injection E as <-; auto|eapply plant_all_view; exact E]). destruct V as [V V'].
    destruct (framed_arm r (O_SEND (q_uid r) (SUBSCRIBE (q_id r) topics) wr) s1) as (F & A & B). rewrite V' in B.
    apply (S_ongoing _ _ _ _ (SUBSCRIBE (q_id r) topics) F); [rewrite K; reflexivity|rewrite K; reflexivity|destruct B as [[B1 B2]|[B1 B2]]; [left; split; [exact B1|intros _; exact B2]|right; split; [lia|exact B2]]|].
    eapply framed_then; [apply view_upd_same; reflexivity|]. exact (framed_after _ _ _ _ _ _ V A).
  - unfold resubscribe_send. destruct (m_tree s) as [|e l]; cbn [fst snd]; [apply S_empty; [exact K|apply framed_same; apply view_upd_same; reflexivity]|].
    set (subs := match q_subs r with Some l0 => l0 | None => e :: l end). set (s1 := upd _ _ (upd _ _ s)).
    assert (V : view s1 = view s) by (unfold s1; rewrite !view_upd_same by reflexivity; reflexivity).
    destruct (forallb _ subs); cbn [negb fst snd]; [|apply S_none, framed_same; exact V].
    destruct enc; cbn [negb fst snd]; [|apply S_none, framed_same; exact V].
    destruct (framed_arm r (O_SEND (q_uid r) (SUBSCRIBE (q_id r) (map fst subs)) wr) s1) as (F & A & B). change (m_now s1) with (m_now s) in B.
    apply (S_ongoing _ _ _ _ (SUBSCRIBE (q_id r) (map fst subs)) F); [rewrite K; cbn; eauto|rewrite K; reflexivity|destruct B as [[B1 B2]|[B1 B2]]; [left; split; [exact B1|intros _; exact B2]|right; split; [lia|exact B2]]|].
    exact (framed_after _ _ _ _ _ _ V A).
  - unfold unsubscribe_send. destruct (if q_tree r then Some s else option_map (fun g => uproot g s) (filter_of f)) as [s1|] eqn:E; cbn [fst snd]; [|apply S_none, framed_same; reflexivity].
    destruct enc; cbn [negb fst snd]; [|apply S_none, framed_same; reflexivity].
    destruct wr; cbn [negb fst snd]; [|apply (S_failed _ _ _ _ (UNSUBSCRIBE (q_id r) f)); [rewrite K; reflexivity|apply framed_emit; reflexivity]].
    assert (V : view s1 = view s /\ m_now s1 = m_now s) by (destruct (q_tree r); [injection E as <-; auto|]; destruct (filter_of f); cbn in E; [injection E as <-; auto|discriminate]). destruct V as [V V'].
    destruct (framed_arm r (O_SEND (q_uid r) (UNSUBSCRIBE (q_id r) f) true) s1) as (F & A & B). rewrite V' in B.
    apply (S_ongoing _ _ _ _ (UNSUBSCRIBE (q_id r) f) F); [rewrite K; reflexivity|rewrite K; reflexivity|destruct B as [[B1 B2]|[B1 B2]]; [left; split; [exact B1|intros _; exact B2]|right; split; [lia|exact B2]]|].
    eapply framed_then; [apply view_upd_same; reflexivity|]. exact (framed_after _ _ _ _ _ _ V A).
  - unfold ping_send. destruct enc; cbn [negb fst snd]; [|apply S_none, framed_same; reflexivity].
    destruct wr; cbn [negb fst snd]; [|apply (S_failed _ _ _ _ PINGREQ); [rewrite K; reflexivity|apply framed_emit; reflexivity]].
    apply (S_done _ _ _ _ PINGREQ); [rewrite K; reflexivity|reflexivity|auto|apply framed_emit; reflexivity].
Qed.
Lemma places_ess u s : VI (view s) -> In u (m_tasks s ++ m_ongoing s ++ m_pending s) -> exists r, get u s = Some r.
Proof.
  intros V K. destruct (get u s) as [r|] eqn:G; [eauto|]. exfalso. apply (get_none u s G). apply (i_places _ V). exact K.
Qed.
Lemma view_set_tasks l s : view (set_tasks l s) = mkvw (map ess_of (m_heap s)) (m_table s) l (m_ongoing s) (m_pending s) (m_last s) (m_next s) (m_out s). Proof. reflexivity. Qed.
Lemma run_v enc wr s :
  VI (view s) -> FI (view s) -> m_now s = clock (m_out s) -> (m_tasks s <> [] -> m_pending s = [] /\ linked (m_out s) = true) -> vsteps (view s) (view (run_task enc wr s)).
Proof.
  intros V FV CL PL. unfold run_task. destruct (m_tasks s) as [|u l] eqn:ET; [constructor|]. destruct (PL ltac:(discriminate)) as [PE LI].
  destruct (places_ess u s V) as [r G]; [rewrite ET; left; reflexivity|]. set (s0 := set_tasks l s). change (get u s0) with (get u s). rewrite G.
  destruct (get_ess u s r G) as [He Eu]. change (e_uid (ess_of r)) with (q_uid r) in Eu. destruct (FV _ He) as [SS WA].
  assert (S := send_sending enc wr r s0 WA). destruct (send enc wr r s0) as [s1 res]. cbn [fst snd] in S.
  set (s2 := upd u _ s1).
  assert (Vs : view s = mkvw (map ess_of (m_heap s)) (m_table s) (e_uid (ess_of r) :: l) (m_ongoing s) [] (m_last s) (m_next s) (m_out s)) by (unfold view; rewrite ET, PE; cbn; rewrite Eu; reflexivity).
  pose (F2 := fun e : ess => mkess (e_uid e) (e_id e) (e_kind e) (e_wait e) true (e_timer e)).
  assert (E2 : forall F o, framed F o s0 s1 (q_uid r) -> (forall e, e_uid (F e) = e_uid e) -> view s2 = mkvw (mapped u (fun e => F2 (F e)) (map ess_of (m_heap s))) (m_table s) l (m_ongoing s) [] (m_last s) (m_next s) (o ++ m_out s)).
  { intros F o H HF. unfold framed in H. cbn in H. apply view_is in H as (E1 & E2 & E3 & E4 & E5 & E6 & E7 & E8). unfold s2. rewrite (view_upd u _ F2 s1) by reflexivity. rewrite E1, E2, E3, E4, E5, E6, E7, E8, PE, Eu. f_equal.
    unfold mapped. rewrite map_map. apply map_ext. intro e. destruct (e_uid e =? u) eqn:E; [rewrite HF|]; rewrite E; reflexivity. }
  assert (T0 : forall e, In e (map ess_of (m_heap s)) -> e_uid e = u -> e_timer e = None).
  { intros e He' Eu'. assert (N := i_nodup _ V). unfold places in N. cbn in N. rewrite ET in N. destruct (e_timer e) as [d|] eqn:Et; [|reflexivity]. destruct (i_timer _ V e d He' Et) as (Q & _). cbn in Q. rewrite Eu' in Q.
    cbn in N. inversion N as [|? ? N1 _]; subst. destruct N1. rewrite !in_app_iff. auto. }
  assert (NT : ~ In u (l ++ m_ongoing s)) by (assert (N := i_nodup _ V); unfold places in N; cbn in N; rewrite ET, PE, app_nil_r in N; inversion N; assumption).
  assert (Fo : forall F o y, framed F o s0 s1 (q_uid r) -> (forall e, e_uid (F e) = e_uid e) -> view (finished r y s2) = mkvw (others (e_uid (ess_of r)) (map ess_of (m_heap s))) (other_ids (e_id (ess_of r)) (m_table s)) l (m_ongoing s) [] (m_last s) (m_next s) (over_out (ess_of r) y :: o ++ m_out s)).
  { intros F o y H HF. rewrite view_finished. pose proof (E2 F o H HF) as H2. apply view_is in H2 as (X1 & X2 & X3 & X4 & X5 & X6 & X7 & X8). rewrite X1, X2, X3, X4, X5, X6, X7, X8. f_equal.
    change (e_uid (ess_of r)) with (q_uid r). rewrite Eu. apply others_marked. intro e. exact (HF e). }
  assert (RT : e_sent (ess_of r) = true -> retryable (e_kind (ess_of r)) = true) by (intro K; apply (i_retry _ V (ess_of r) He); auto).
  assert (Quiet : forall o y, o = [] -> (e_kind (ess_of r) <> K_PING -> because y (q_uid r) (q_id r) (q_kind r) (q_wait r) (m_out s)) -> framed (fun e => e) o s0 s1 (q_uid r) -> vsteps (view s) (view (finished r y s2))).
  { intros o y -> B H. rewrite (Fo _ _ y H) by reflexivity. rewrite Vs. apply vs_one. replace l with (without (e_uid (ess_of r)) (e_uid (ess_of r) :: l)) at 2; [replace (m_ongoing s) with (without (e_uid (ess_of r)) (m_ongoing s)) at 2; [exact (V_over (ess_of r) y _ _ _ _ _ _ _ _ He B)|]|].
    - apply without_notin. cbn. rewrite Eu. intro K. apply NT. apply in_app_iff. auto.
    - unfold without. cbn. rewrite N.eqb_refl. cbn. apply without_notin. rewrite Eu. intro K. apply NT. apply in_app_iff. auto. }
  destruct S as [H|K H|p C H|p C W K H|p F C R B H].
  - eapply Quiet; [reflexivity| |exact H]. intros _. exact I.
  - eapply Quiet; [reflexivity| |exact H]. intros _. cbn. auto.
  - rewrite (Fo _ _ E_SEND H) by reflexivity. rewrite Vs. apply vs_one. refine (V_final (ess_of r) p wr E_SEND _ _ _ _ _ _ _ He RT C LI SS _). intros _. exact I.
  - rewrite (Fo _ _ OK H) by reflexivity. rewrite Vs. apply vs_one. refine (V_final (ess_of r) p wr OK _ _ _ _ _ _ _ He RT C LI SS _). intro NP. destruct K as [K|(retain & topic & payload & K)]; [destruct (NP K)|]. cbn. right. left. exists retain, topic, payload, (m_out s). split; [exact K|].
    rewrite K in C. cbn in C. assert (Sf : q_sent r = false) by (destruct (q_sent r) eqn:Z; [|reflexivity]; specialize (RT Z); cbn in RT; rewrite K in RT; discriminate). rewrite Sf in C. rewrite W. subst p. reflexivity.
  - set (s3 := change u true true s2). assert (E3 : view s3 = view s2) by apply view_change.
    assert (HF : forall e, e_uid (F e) = e_uid e) by (destruct B as [[-> _]|[_ ->]]; reflexivity). pose proof (E2 F _ H HF) as H2. rewrite <- E3 in H2. apply view_is in H2 as (X1 & X2 & X3 & X4 & X5 & X6 & X7 & X8).
    assert (Tm : exists tm, timer_for (q_wait r) (m_out s) wr tm /\ mapped u (fun e => F2 (F e)) (map ess_of (m_heap s)) = marked u tm (map ess_of (m_heap s))).
    { destruct B as [[-> Bw]|[L ->]].
      - exists None. split; [left; split; [reflexivity|exact Bw]|]. unfold mapped, marked. apply map_ext_in. intros e He'. destruct (e_uid e =? u) eqn:E; [|reflexivity]. apply N.eqb_eq in E. unfold F2. rewrite (T0 e He' E). reflexivity.
      - exists (Some (sat_add (m_now s) (q_wait r))). split; [right; split; [exact L|rewrite CL; reflexivity]|]. unfold mapped, marked. apply map_ext. intro e. destruct (e_uid e =? u); reflexivity. }
    destruct Tm as (tm & T1 & T2).
    assert (Vf : view (set_ongoing (m_ongoing s3 ++ [u]) s3) = mkvw (marked (e_uid (ess_of r)) tm (map ess_of (m_heap s))) (m_table s) l (m_ongoing s ++ [e_uid (ess_of r)]) [] (m_last s) (m_next s) (O_SEND (e_uid (ess_of r)) p wr :: m_out s)).
    { unfold view. cbn [m_heap m_table m_tasks m_ongoing m_pending m_last m_next m_out set_ongoing]. rewrite X1, X2, X3, X4, X5, X6, X7, X8, T2. cbn [e_uid ess_of]. rewrite Eu. reflexivity. }
    change (let s4 := change u true true s2 in set_ongoing (m_ongoing s4 ++ [u]) s4) with (set_ongoing (m_ongoing s3 ++ [u]) s3). rewrite Vf, Vs. apply vs_one. exact (V_send (ess_of r) p wr tm _ _ _ _ _ _ _ He R C T1 LI SS).
Qed.

(** ** Requests are made *)
Lemma create_v k w s :
  VI (view s) -> m_last s <= 65535 -> w < two64 -> (m_state s = CONNECTED -> m_pending s = [] /\ linked (m_out s) = true) -> (m_state s <> CONNECTED -> m_state s <> DISCONNECTING -> m_tasks s = [] /\ m_ongoing s = []) ->
  vsteps (view s) (view (create k w s)).
Proof.
  intros V L W C D. unfold create. destruct (in_state DISCONNECTING s) eqn:ED; [apply vs_one; apply (V_note (I_REFUSED k E_DISCONNECTING)); exact I|].
  destruct (negb (retryable k) && negb (in_state CONNECTED s)) eqn:EN; [apply vs_one; apply (V_note (I_REFUSED k E_NOT_CONNECTED)); exact I|].
  destruct (search _ _ _ _) as [id|] eqn:ES; [|apply vs_one; apply (V_full k); exact (search_full _ _ L ES)].
  destruct (search_some _ _ _ _ _ L L ES) as [NI RI]. cbv zeta. set (s1 := set_last _ _). set (s2 := if in_state CONNECTED s then _ else _).
  assert (E : view (emit (I_MADE (m_next s) id k w) (change (m_next s) true false s2)) = view (emit (I_MADE (m_next s) id k w) s2)).
  { pose proof (view_change (m_next s) true false s2) as E. apply view_fields in E as (E1 & E2 & E3 & E4 & E5 & E6 & E7 & E8). unfold view. cbn [emit set_out m_heap m_table m_tasks m_ongoing m_pending m_last m_next m_out]. congruence. }
  rewrite E. clear E. apply vs_one. unfold s2. destruct (in_state CONNECTED s) eqn:EC.
  - apply in_state_true in EC. destruct (C EC) as [P LI]. unfold view, s1. cbn [emit set_out set_tasks set_last set_next set_table set_heap m_heap m_table m_tasks m_ongoing m_pending m_last m_next m_out]. rewrite map_app, P. exact (V_make_task id k w _ _ _ _ _ _ _ W RI NI LI).
  - apply in_state_false in EC, ED. destruct (D EC ED) as [T O]. unfold view, s1. cbn [emit set_out set_pending set_last set_next set_table set_heap m_heap m_table m_tasks m_ongoing m_pending m_last m_next m_out]. rewrite map_app, T, O.
    apply (V_make_pending id k w); try assumption. destruct (retryable k); [reflexivity|]. discriminate.
Qed.
(** ** ... and completed *)
Lemma find_id_in id s u : find_id id s = Some u -> In (id, u) (m_table s).
Proof. unfold find_id. destruct (find _ (m_table s)) as [[a b]|] eqn:E; cbn; [|discriminate]. intro H. injection H as <-. apply find_some in E as [E K]. apply N.eqb_eq in K. cbn in K. subst a. exact E. Qed.
Lemma find_id_ess id s u r : VI (view s) -> find_id id s = Some u -> get u s = Some r -> q_id r = id.
Proof.
  intros V F G. apply find_id_in in F. assert (T := i_table _ V). cbn in T. rewrite T in F. apply in_map_iff in F as (e & E & F). injection E as E1 E2. destruct (get_ess u s r G) as [He Eu].
  assert (e = ess_of r) by (apply (uid_inj (v_heap (view s))); [apply V|exact F|exact He|congruence]). subst e. exact E1.
Qed.
Lemma request_complete_v e id s :
  VI (view s) -> (forall r, In r (m_heap s) -> q_id r = id -> q_kind r <> K_PING -> because e (q_uid r) id (q_kind r) (q_wait r) (m_out s)) -> vsteps (view s) (view (request_complete e id s)).
Proof.
  intros V B. unfold request_complete. destruct (find_id id s) as [u|] eqn:F; [|constructor]. destruct (get u s) as [r|] eqn:G; [|constructor]. destruct (existsb (N.eqb u) (m_tasks s)) eqn:X; [constructor|].
  assert (Ei := find_id_ess id s u r V F G). destruct (get_ess u s r G) as [He Eu]. destruct (get_in u s r G) as [Hr Eu']. set (s1 := change u false false s). set (s2 := match e with OK => _ | _ => s1 end). cbv zeta.
  assert (E2 : view s2 = view s).
  { assert (E1 : view s1 = view s) by apply view_change. unfold s2. destruct e; try exact E1. destruct (_ <? _); exact E1. }
  assert (E3 : view (tell r e (set_ongoing (without u (m_ongoing s2)) (set_pending (without u (m_pending s2)) (drop r s2))))
    = mkvw (others (e_uid (ess_of r)) (map ess_of (m_heap s))) (other_ids (e_id (ess_of r)) (m_table s)) (without (e_uid (ess_of r)) (m_tasks s)) (without (e_uid (ess_of r)) (m_ongoing s)) (without (e_uid (ess_of r)) (m_pending s)) (m_last s) (m_next s) (over_out (ess_of r) e :: m_out s)).
  { rewrite view_tell. pose proof (view_drop r s2) as D. apply view_is in D as (D1 & D2 & D3 & D4 & D5 & D6 & D7 & D8). apply view_fields in E2 as (E1 & E2 & E3 & E4 & E5 & E6 & E7 & E8).
    cbn [set_ongoing set_pending m_heap m_table m_tasks m_ongoing m_pending m_last m_next m_out]. rewrite D1, D2, D3, D6, D7, D8, E1, E2, E3, E4, E5, E6, E7, E8. f_equal; try (rewrite Eu; reflexivity).
    rewrite Eu. symmetry. apply without_notin. intro K. assert (existsb (N.eqb u) (m_tasks s) = true); [|congruence]. apply existsb_exists. exists u. split; [exact K|apply N.eqb_refl]. }
  rewrite E3. apply vs_one. apply (V_over (ess_of r) e); [exact He|]. intro NP. specialize (B r Hr Ei NP). cbn. rewrite Ei. exact B.
Qed.
(** ** The outgoing tasks are cancelled *)
Lemma cancel_tasks_v l : forall s, VI (view (set_tasks l s)) -> m_tasks s = [] -> linked (m_out s) = false -> vsteps (view (set_tasks l s)) (view (fold_left cancel_task l s)) /\ m_tasks (fold_left cancel_task l s) = [].
Proof.
  induction l as [|u l IH]; intros s V T L; cbn [fold_left].
  - split; [|exact T]. replace (view s) with (view (set_tasks [] s)); [constructor|]. unfold view. cbn. rewrite T. reflexivity.
  - assert (Ex : exists r, get u s = Some r).
    { destruct (places_ess u (set_tasks (u :: l) s) V) as [r G]; [left; reflexivity|]. exists r. exact G. }
    destruct Ex as [r G]. destruct (get_ess u s r G) as [He Eu]. assert (V1 : vsteps (view (set_tasks (u :: l) s)) (view (set_tasks l (cancel_task s u))) /\ m_tasks (cancel_task s u) = []).
    { unfold cancel_task. rewrite G. destruct (retryable (q_kind r)) eqn:R.
      - set (s1 := change u true false s). assert (E1 : view s1 = view s) by apply view_change. apply view_fields in E1 as (E1 & E2 & E3 & E4 & E5 & E6 & E7 & E8).
        split; [|cbn; rewrite E3; exact T]. unfold view. cbn [set_tasks set_pending m_heap m_table m_tasks m_ongoing m_pending m_last m_next m_out]. rewrite E1, E2, E4, E5, E6, E7, E8. apply vs_one. rewrite <- Eu. apply V_requeue; [exact He|exact R|exact L].
      - pose proof (view_finished r E_NOT_CONNECTED s) as E. apply view_is in E as (E1 & E2 & E3 & E4 & E5 & E6 & E7 & E8). split; [|rewrite E3; exact T].
        unfold view. cbn [set_tasks m_heap m_table m_tasks m_ongoing m_pending m_last m_next m_out]. rewrite E1, E2, E4, E5, E6, E7, E8. apply vs_one.
        assert (N := i_nodup _ V). unfold places in N. cbn in N. inversion N as [|? ? N1 _]; subst.
        rewrite !in_app_iff in N1.
        assert (S := V_over (ess_of r) E_NOT_CONNECTED (map ess_of (m_heap s)) (m_table s) (q_uid r :: l) (m_ongoing s) (m_pending s) (m_last s) (m_next s) (m_out s) He (fun _ => conj R L)).
        assert (W1 : without (q_uid r) (q_uid r :: l) = l) by (unfold without; cbn; rewrite N.eqb_refl; cbn; apply without_notin; tauto).
        change (e_uid (ess_of r)) with (q_uid r) in *. rewrite W1, (without_notin (q_uid r) (m_ongoing s)), (without_notin (q_uid r) (m_pending s)) in S by tauto. exact S. }
    destruct V1 as [V1 T1]. assert (V2 := vsteps_VI _ _ V1 V). assert (K := vsteps_keeps _ _ V1). destruct K as (K & _). cbn in K.
    destruct (IH (cancel_task s u) V2 T1) as [I1 I2]; [rewrite K; exact L|]. split; [|exact I2]. eapply vs_app; eassumption.
Qed.
(** ** Requests are cancelled since the session is clean *)
Lemma cancel_one_v u l on pe s ta : on ++ pe = u :: l -> VI (mkvw (map ess_of (m_heap s)) (m_table s) ta on pe (m_last s) (m_next s) (m_out s)) -> wants_clean (m_out s) = true -> ta = [] ->
  vsteps (mkvw (map ess_of (m_heap s)) (m_table s) ta on pe (m_last s) (m_next s) (m_out s))
         (mkvw (map ess_of (m_heap (cancelled E_CLEAN_SESSION u s))) (m_table (cancelled E_CLEAN_SESSION u s)) [] (without u on) (without u pe) (m_last s) (m_next s) (m_out (cancelled E_CLEAN_SESSION u s)))
  /\ without u on ++ without u pe = l.
Proof.
  intros E V C ->. assert (Ex : exists r, get u s = Some r).
  { destruct (get u s) as [r|] eqn:G; [eauto|]. exfalso. apply (get_none u s G). apply (i_places _ V). unfold places. cbn. rewrite E. left. reflexivity. }
  destruct Ex as [r G]. destruct (get_ess u s r G) as [He Eu]. split.
  - pose proof (view_cancelled E_CLEAN_SESSION u s r G) as K. apply view_is in K as (E1 & E2 & E3 & E4 & E5 & E6 & E7 & E8). rewrite E1, E2, E8. apply vs_one. rewrite <- Eu. apply (V_over (ess_of r) E_CLEAN_SESSION _ _ [] on pe); [exact He|]. intros _. exact C.
  - rewrite <- without_app, E. assert (N := i_nodup _ V). unfold places in N. cbn in N. rewrite E in N. inversion N as [|? ? N1 _]; subst. unfold without. cbn. rewrite N.eqb_refl. cbn. apply without_notin, N1.
Qed.
Lemma cancelled_frame u s : m_last (cancelled E_CLEAN_SESSION u s) = m_last s /\ m_next (cancelled E_CLEAN_SESSION u s) = m_next s /\ m_tasks (cancelled E_CLEAN_SESSION u s) = m_tasks s /\ m_ongoing (cancelled E_CLEAN_SESSION u s) = m_ongoing s /\ m_pending (cancelled E_CLEAN_SESSION u s) = m_pending s.
Proof. destruct (parts_cancelled E_CLEAN_SESSION u s) as (h & t & o & c & st & ->). repeat split. Qed.
Lemma cancels_v l : forall on pe s, on ++ pe = l -> VI (mkvw (map ess_of (m_heap s)) (m_table s) [] on pe (m_last s) (m_next s) (m_out s)) -> wants_clean (m_out s) = true -> m_tasks s = [] -> m_ongoing s = [] -> m_pending s = [] ->
  vsteps (mkvw (map ess_of (m_heap s)) (m_table s) [] on pe (m_last s) (m_next s) (m_out s)) (view (fold_left (fun s u => cancelled E_CLEAN_SESSION u s) l s)).
Proof.
  induction l as [|u l IH]; intros on pe s E V C T O P; cbn [fold_left].
  - apply app_eq_nil in E as [-> ->]. unfold view. rewrite T, O, P. constructor.
  - destruct (cancel_one_v u l on pe s [] E V C eq_refl) as [S E']. destruct (cancelled_frame u s) as (F1 & F2 & F3 & F4 & F5). eapply vs_app; [exact S|]. rewrite <- F1, <- F2. apply IH; try congruence.
    + rewrite F1, F2. exact (vsteps_VI _ _ S V).
    + destruct (vsteps_keeps _ _ S) as (_ & _ & K & _). cbn in K. congruence.
Qed.
(** ** The connection is destroyed *)
Lemma destroys_v pe : forall s h t ta on, VI (mkvw h t [] [] pe (m_last s) (m_next s) (m_out s)) -> (forall u r, In u pe -> get u s = Some r -> In (ess_of r) h) -> (forall u, In u pe -> get u s <> None) -> ta = [] -> on = [] ->
  let s' := fold_left (fun s u => match get u s with None => crash s | Some r => tell r E_DESTROYED s end) pe s in
  vsteps (mkvw h t ta on pe (m_last s) (m_next s) (m_out s)) (mkvw [] [] [] [] [] (m_last s) (m_next s) (m_out s')) /\ m_heap s' = m_heap s /\ m_last s' = m_last s /\ m_next s' = m_next s /\ m_tasks s' = m_tasks s /\ m_ongoing s' = m_ongoing s /\ m_reconnect s' = m_reconnect s.
Proof.
  induction pe as [|u pe IH]; intros s h t ta on V A B -> ->; cbn [fold_left].
  - split; [|auto 8]. destruct h as [|e h]; [|exfalso; apply (i_places _ V (e_uid e)); left; reflexivity]. assert (T := i_table _ V). cbn in T. subst t. constructor.
  - destruct (get u s) as [r|] eqn:G; [|destruct (B u (or_introl eq_refl) G)]. specialize (A u r (or_introl eq_refl) G) as He. destruct (get_ess u s r G) as [_ Eu].
    assert (F : m_heap (tell r E_DESTROYED s) = m_heap s /\ m_last (tell r E_DESTROYED s) = m_last s /\ m_next (tell r E_DESTROYED s) = m_next s /\ m_tasks (tell r E_DESTROYED s) = m_tasks s /\ m_ongoing (tell r E_DESTROYED s) = m_ongoing s /\ m_reconnect (tell r E_DESTROYED s) = m_reconnect s /\ m_out (tell r E_DESTROYED s) = over_out (ess_of r) E_DESTROYED :: m_out s).
    { unfold tell, over_out. cbn [e_kind ess_of]. destruct (q_kind r); repeat split. }
    destruct F as (F1 & F2 & F3 & F4 & F5 & F6 & F7). assert (N := i_nodup _ V). unfold places in N. cbn in N. inversion N as [|? ? N1 _]; subst x l.
    assert (S : vsteps (mkvw h t [] [] (u :: pe) (m_last s) (m_next s) (m_out s)) (mkvw (others (e_uid (ess_of r)) h) (other_ids (e_id (ess_of r)) t) [] [] pe (m_last s) (m_next s) (m_out (tell r E_DESTROYED s)))).
    { rewrite F7. apply vs_one. replace pe with (without (e_uid (ess_of r)) (u :: pe)) at 2; [apply (V_over (ess_of r) E_DESTROYED h t [] []); [exact He|intros _; exact I]|]. unfold without. cbn [filter]. rewrite Eu, N.eqb_refl. cbn [negb]. apply without_notin, N1. }
    assert (V2 := vsteps_VI _ _ S V). destruct (IH (tell r E_DESTROYED s) (others (e_uid (ess_of r)) h) (other_ids (e_id (ess_of r)) t) [] []) as (I1 & I2 & I3 & I4 & I5 & I6 & I7); try reflexivity.
    + rewrite F2, F3. exact V2.
    + intros v r' Hv G'. unfold get in G'. rewrite F1 in G'. apply in_others. split; [apply (A v r'); [right; exact Hv|exact G']|]. destruct (get_ess v s r' G') as [_ E']. rewrite E', Eu. intros ->. tauto.
    + intros v Hv. unfold get. rewrite F1. apply B. right. exact Hv.
    + rewrite F2, F3 in I1. split; [eapply vs_app; [exact S|exact I1]|]. repeat split; congruence.
Qed.
Lemma destroy_v s : VI (view s) -> m_tasks s = [] -> m_ongoing s = [] -> vsteps (view s) (view (destroy s)).
Proof.
  intros V T O. unfold destroy. cbv zeta. destruct (destroys_v (m_pending s) s (map ess_of (m_heap s)) (m_table s) (m_tasks s) (m_ongoing s)) as (D & D1 & D2 & D3 & D4 & D5 & D6); try assumption.
  - unfold view in V. rewrite T, O in V. exact V.
  - intros u r _ G. apply (get_ess u s r G).
  - intros u K G. destruct (places_ess u s V) as [r G']; [rewrite !in_app_iff; auto|]. congruence.
  - cbv zeta in D, D1, D2, D3, D4, D5, D6. set (s1 := fold_left _ (m_pending s) s) in *. set (s2 := match m_reconnect s1 with Some (Some _) => crash s1 | _ => s1 end).
    assert (E : m_out s2 = m_out s1 /\ m_last s2 = m_last s1 /\ m_next s2 = m_next s1 /\ m_tasks s2 = m_tasks s1 /\ m_ongoing s2 = m_ongoing s1) by (unfold s2; destruct (m_reconnect s1) as [[|]|]; repeat split). destruct E as (E1 & E2 & E3 & E4 & E5).
    eapply vs_app; [exact D|]. unfold view. cbn [emit set_out set_over set_heap set_table set_pending set_reconnect m_heap m_table m_tasks m_ongoing m_pending m_last m_next m_out map]. rewrite E1, E2, E3, E4, E5, D2, D3, D4, D5, T, O. apply vs_one. apply V_end.
Qed.

(** ** Steps *)
Definition noted (x : list out) (s : mqtt) : vw := mkvw (map ess_of (m_heap s)) (m_table s) (m_tasks s) (m_ongoing s) (m_pending s) (m_last s) (m_next s) (x ++ m_out s).
(** the events with which a step begins *)
Definition mark (ev : event) (s : mqtt) : list out :=
  match ev with
  | EvTick t => [I_TICK t]
  | EvConnect clean _ _ _ _ => if in_state DISCONNECTED s then [I_CONNECT clean] else []
  | EvSetup (OPENED _ _) _ => [I_UP]
  | EvSetup (FAILED e) _ => [I_DOWN e]
  | EvPacket p _ => [I_PACKET p]
  | EvDown _ _ _ => match m_closing s with Some e => [I_DOWN e] | None => [] end
  | _ => []
  end.
Lemma close_v e s : vsteps (view s) (view (close e s)).
Proof. unfold close. destruct (m_closing s); [constructor|]. apply vs_one. apply (V_note (I_SHUTDOWN e)). exact I. Qed.
Lemma release_v s : VI (view s) -> m_tasks s = [] -> m_ongoing s = [] -> vsteps (view s) (view (release s)).
Proof. intros V T O. unfold release. destruct (m_held s); [constructor|]. apply destroy_v; assumption. Qed.
Lemma emit_v x s : quiet x -> vsteps (view s) (view (emit x s)). Proof. intro Q. apply vs_one, V_note, Q. Qed.
Lemma disconnected_v s : VI (view s) -> m_tasks s = [] -> m_ongoing s = [] -> vsteps (view s) (view (disconnected s)).
Proof.
  intros V T O. unfold disconnected. set (s1 := emit O_CLOSED _).
  assert (S : vsteps (view s) (view s1)).
  { unfold s1. eapply vs_app; [|apply emit_v; exact I]. change (view s) with (view (set_state DISCONNECTED s)). apply emit_v. exact I. }
  eapply vs_app; [exact S|]. apply release_v; [exact (vsteps_VI _ _ S V)|exact T|exact O].
Qed.
Lemma schedule_reconnect_view s : view (schedule_reconnect s) = view s. Proof. unfold schedule_reconnect. destruct (m_reconnect s); reflexivity. Qed.
Lemma client_shutdown_v e quit s : VI (view s) -> m_tasks s = [] -> (forall x, In x (map ess_of (m_heap s)) -> e_timer x = None) -> m_clean s = wants_clean (m_out s) -> linked (m_out s) = false -> vsteps (view s) (view (client_shutdown e quit s)).
Proof.
  intros V T Nt C LI. unfold client_shutdown. cbv zeta. set (s1 := set_since 0 _).
  assert (E1 : view s1 = view s /\ m_tasks s1 = []) by (unfold s1; destruct (_ || _); split; try reflexivity; exact T). destruct E1 as [E1 T1]. clearbody s1.
  set (gone := if m_clean s then _ else []). set (s2 := set_ongoing _ _). set (s3 := set_closing None _).
  assert (S3 : vsteps (view s) (view s3) /\ m_tasks s3 = [] /\ m_ongoing s3 = []).
  { apply view_fields in E1 as (X1 & X2 & X3 & X4 & X5 & X6 & X7 & X8).
    assert (P : parts s2 (fold_left (fun s u => cancelled E_CLEAN_SESSION u s) gone s2)) by (apply parts_fold; intros; apply parts_cancelled).
    split; [|destruct P as (h & t & o & c & st & P); unfold s3; rewrite P; split; [exact T1|reflexivity]]. change (view s3) with (view (fold_left (fun s u => cancelled E_CLEAN_SESSION u s) gone s2)).
    unfold gone, s2. destruct (m_clean s) eqn:Cl.
    - assert (V0 : view s = mkvw (map ess_of (m_heap s1)) (m_table s1) [] (m_ongoing s) (m_pending s) (m_last s1) (m_next s1) (m_out s1)) by (unfold view; rewrite X1, X2, X6, X7, X8, T; reflexivity).
      rewrite V0. exact (cancels_v _ (m_ongoing s) (m_pending s) (set_ongoing [] (set_pending [] s1)) eq_refl ltac:(cbn; rewrite <- V0; exact V) ltac:(cbn; congruence) T1 eq_refl eq_refl).
    - cbn [fold_left]. unfold view. cbn [set_ongoing set_pending m_heap m_table m_tasks m_ongoing m_pending m_last m_next m_out]. rewrite X1, X2, T1, X6, X7, X8, T. apply vs_one. apply V_lost; [exact Nt|exact LI]. }
  destruct S3 as (S3 & T3 & O3). clearbody s3. assert (V3 := vsteps_VI _ _ S3 V). eapply vs_app; [exact S3|]. destruct (m_state s).
  - set (e' := match e with OK => E_HANGUP | _ => e end). set (s5 := emit (O_CONNECTION_FAILURE e') _).
    assert (S5 : vsteps (view s3) (view s5)). { unfold s5. eapply vs_app; [|apply emit_v; exact I]. change (view s3) with (view (set_state DISCONNECTED s3)). apply emit_v. exact I. }
    eapply vs_app; [exact S5|]. apply release_v; [exact (vsteps_VI _ _ S5 V3)|exact T3|exact O3].
  - set (s4 := emit (O_INTERRUPTED _) _). assert (S4 : vsteps (view s3) (view s4)). { unfold s4. change (view s3) with (view (set_state RECONNECTING s3)). apply emit_v. exact I. }
    eapply vs_app; [exact S4|]. assert (V4 := vsteps_VI _ _ S4 V3). destruct quit; [|rewrite schedule_reconnect_view; constructor].
    assert (S5 : vsteps (view s4) (view (emit I_DISCONNECT s4))) by (apply emit_v; exact I). eapply vs_app; [exact S5|]. apply disconnected_v; [exact (vsteps_VI _ _ S5 V4)|exact T3|exact O3].
  - rewrite schedule_reconnect_view. constructor.
  - apply disconnected_v; assumption.
  - constructor.
Qed.
Lemma calmed_heap l : map ess_of (map (with_timer None) l) = map calmed (map ess_of l). Proof. rewrite !map_map. reflexivity. Qed.
Lemma on_down_v e graceful wr quit s : VI (view s) -> linked (m_out s) = false -> m_clean s = wants_clean (m_out s) -> vsteps (view s) (view (on_down e graceful wr quit s)).
Proof.
  intros V L C. unfold on_down. cbv zeta. set (s0 := match e with OK => _ | _ => s end).
  assert (S0 : vsteps (view s) (view s0) /\ m_clean s0 = m_clean s).
  { unfold s0. destruct e; try (split; [constructor|reflexivity]). destruct (m_slot s && graceful); [|split; [constructor|reflexivity]]. split; [|reflexivity]. apply emit_v. exact I. }
  destruct S0 as [S0 C0]. assert (V0 := vsteps_VI _ _ S0 V). destruct (vsteps_keeps _ _ S0) as (K0 & _ & W0 & _). cbn in K0, W0. clearbody s0.
  set (s1 := fold_left cancel_task (m_tasks s0) (set_tasks [] s0)).
  destruct (cancel_tasks_v (m_tasks s0) (set_tasks [] s0)) as [S1 T1]; [exact V0|reflexivity|cbn; congruence|]. fold s1 in S1, T1.
  assert (C1 : m_clean s1 = m_clean s0).
  { unfold s1. generalize (m_tasks s0) as l. change (m_clean s0) with (m_clean (set_tasks [] s0)). generalize (set_tasks [] s0) as z. intros z l. revert z. induction l as [|u l IH]; intro z; cbn [fold_left]; [reflexivity|]. rewrite IH.
    unfold cancel_task. destruct (get u z) as [r|]; [|reflexivity]. destruct (retryable _); [destruct (parts_change u true false z) as (h & t & o & c & st & E); rewrite E; reflexivity|]. destruct (parts_finished r E_NOT_CONNECTED z) as (h & t & o & c & st & E). rewrite E. reflexivity. }
  assert (S1' : vsteps (view s0) (view s1)) by exact S1.
  assert (V1 := vsteps_VI _ _ S1' V0). destruct (vsteps_keeps _ _ S1') as (K1 & _ & W1 & _). cbn in W1, K1. clearbody s1. clear S1.
  set (s2 := set_heap _ _). assert (S2 : vsteps (view s1) (view s2)).
  { apply vs_one. unfold view, s2. cbn [set_heap set_connack_timeouts set_ping_timeouts set_ping_task m_heap m_table m_tasks m_ongoing m_pending m_last m_next m_out]. rewrite calmed_heap. apply V_timers. congruence. }
  assert (V2 := vsteps_VI _ _ S2 V1). assert (N2 : forall x, In x (map ess_of (m_heap s2)) -> e_timer x = None) by (intros x K; unfold s2 in K; cbn in K; rewrite calmed_heap in K; apply in_map_iff in K as (z & <- & _); reflexivity).
  assert (F2 : m_tasks s2 = [] /\ m_clean s2 = wants_clean (m_out s2) /\ linked (m_out s2) = false) by (unfold s2; cbn; repeat split; congruence). destruct F2 as (T2 & C2 & L2). clearbody s2.
  set (s3 := set_byes 0 _). assert (F3 : view s3 = view s2 /\ m_clean s3 = m_clean s2 /\ m_heap s3 = m_heap s2) by (unfold s3, bye; destruct (m_byes s2 =? 0); [|destruct (in_state _ _)]; repeat split). destruct F3 as (E3 & C3 & H3). clearbody s3.
  eapply vs_app; [exact S0|]. eapply vs_app; [exact S1'|]. eapply vs_app; [exact S2|]. rewrite <- E3. apply view_fields in E3 as (X1 & X2 & X3 & X4 & X5 & X6 & X7 & X8). apply client_shutdown_v.
  - unfold view. rewrite X1, X2, X3, X4, X5, X6, X7, X8. exact V2.
  - congruence.
  - rewrite H3. exact N2.
  - congruence.
  - congruence.
Qed.
Lemma on_setup_v o quit s : VI (view s) -> m_tasks s = [] -> m_ongoing s = [] -> m_clean s = wants_clean (m_out s) -> (forall e, o = FAILED e -> linked (m_out s) = false) -> vsteps (view s) (view (on_setup o quit s)).
Proof.
  intros V T O C LI. destruct o as [e|e|enc wr]; cbn [on_setup].
  - apply client_shutdown_v; auto; [|exact (LI e eq_refl)]. intros x K. destruct (e_timer x) as [d|] eqn:E; [|reflexivity]. destruct (i_timer _ V x d K E) as (Q & _). cbn in Q. rewrite O in Q. destruct Q.
  - constructor.
  - destruct (in_state DISCONNECTING s); [constructor|]. set (s1 := set_connack_timeouts _ _). set (s2 := if enc then _ else s1). cbv zeta. assert (S2 : vsteps (view s) (view s2)) by (unfold s2; destruct enc; [|constructor]; change (view s) with (view s1); apply emit_v; exact I).
    eapply vs_app; [exact S2|]. destruct (enc && wr); [constructor|]. eapply vs_app; [|apply close_v]. eapply vs_app; [|apply emit_v; exact I]. apply emit_v. exact I.
Qed.
Lemma answer_v p wr s : vsteps (view s) (view (answer p wr s)).
Proof. unfold answer. cbv zeta. eapply vs_app; [apply (emit_v (O_WRITE p wr)); exact I|]. destruct wr; [constructor|apply close_v]. Qed.
Lemma on_publish_v id qos dup retain topic payload wr s : vsteps (view s) (view (on_publish id qos dup retain topic payload wr s)).
Proof.
  unfold on_publish. cbv zeta. set (s1 := fold_left _ (m_tree s) s).
  assert (S1 : vsteps (view s) (view s1)).
  { unfold s1. clear s1. generalize (m_tree s) as l. intro l. revert s. induction l as [|e l IH]; intro s; cbn [fold_left]; [constructor|]. eapply vs_app; [|apply IH]. destruct (tree_match _ _); [apply emit_v; exact I|constructor]. }
  eapply vs_app; [exact S1|]. eapply vs_app; [apply (emit_v (O_ANY_PUBLISH topic payload dup qos retain)); exact I|]. destruct (_ || _); [constructor|apply answer_v].
Qed.
Lemma on_suback_v id codes s m : VI (view s) -> m_out s = I_PACKET (SUBACK id codes) :: m -> vsteps (view s) (view (on_suback id codes s)).
Proof.
  intros V E. unfold on_suback. destruct (find_id id s) as [u|] eqn:F; [|constructor]. destruct (get u s) as [r|] eqn:G; [|constructor]. assert (Ei := find_id_ess id s u r V F G). destruct (get_in u s r G) as [Hr Eu].
  destruct (match q_kind r with K_SUBSCRIBE topics => _ | K_RESUBSCRIBE => _ | _ => None end) as [n|] eqn:Q; [|constructor]. destruct (n =? N.of_nat (length codes)) eqn:L; [|apply close_v]. apply N.eqb_eq in L.
  assert (S : vsteps (view s) (view (emit (O_SUBACK u codes) s))) by (apply emit_v; exact I). eapply vs_app; [exact S|]. apply request_complete_v; [exact (vsteps_VI _ _ S V)|]. intros r' Hr' Ei' NP.
  assert (ess_of r' = ess_of r).
  { apply (id_inj (v_heap (view s))); [apply V|apply (in_map ess_of _ _ Hr')|apply (in_map ess_of _ _ Hr)|]. cbn. congruence. }
  assert (q_uid r' = q_uid r /\ q_kind r' = q_kind r) as [-> ->] by (split; [change (q_uid r') with (e_uid (ess_of r')); rewrite H; reflexivity|change (q_kind r') with (e_kind (ess_of r')); rewrite H; reflexivity]).
  left. right. exists codes, m. cbn. rewrite E, Eu. split; [reflexivity|]. destruct (q_kind r); try discriminate; [|exact I]. injection Q as <-. lia.
Qed.
Lemma on_connack_v session code s m : VI (view s) -> m_out s = I_PACKET (CONNACK session code) :: m -> m_tasks s = [] \/ m_pending s = [] -> vsteps (view s) (view (on_connack session code s)).
Proof.
  intros V E D. unfold on_connack. destruct (_ || _); [constructor|]. cbv zeta. destruct (code =? 0) eqn:Z; [|change (view s) with (view (set_count (m_count s + 1) s)); apply close_v].
  set (s1 := set_since _ _). set (s2 := if _ && _ then _ else _).
  assert (S1 : vsteps (view s) (view s1)). { apply vs_one. unfold view, s1. cbn [set_since set_count set_tasks set_pending set_state m_heap m_table m_tasks m_ongoing m_pending m_last m_next m_out]. apply V_flush; [exact D|]. rewrite E. cbn. rewrite Z. reflexivity. }
  assert (S2 : vsteps (view s1) (view s2)). { unfold s2. destruct (_ && _); [apply emit_v; exact I|]. destruct (m_reconnect s1); [apply emit_v; exact I|]. change (view s1) with (view (set_reconnect (Some None) s1)). apply emit_v. exact I. }
  eapply vs_app; [exact S1|]. eapply vs_app; [exact S2|]. set (s3 := emit (O_CONNECTION_SUCCESS session) s2). assert (S3 : vsteps (view s2) (view s3)) by (apply emit_v; exact I). eapply vs_app; [exact S3|].
  unfold schedule_ping, update_next_ping. cbn [set_next_ping m_ping_task]. destruct (m_ping_task s3); constructor.
Qed.
Lemma on_packet_v p wr s m : VI (view s) -> m_out s = I_PACKET p :: m -> m_tasks s = [] \/ m_pending s = [] -> vsteps (view s) (view (on_packet p wr s)).
Proof.
  intros V E D.
  assert (A : forall id, p = PUBACK id \/ p = PUBCOMP id \/ p = UNSUBACK id -> vsteps (view s) (view (if in_state CONNECTING s then close E_PROTOCOL s else request_complete OK id s))).
  { intros id K. destruct (in_state CONNECTING s); [apply close_v|]. apply request_complete_v; [exact V|]. intros r _ _ _. left. left. exists p, m. auto. }
  destruct p; cbn [on_packet]; try apply close_v; try (apply A; auto; fail).
  - destruct (in_state CONNECTING s); [apply close_v|apply on_publish_v].
  - destruct (in_state CONNECTING s); [apply close_v|apply answer_v].
  - destruct (in_state CONNECTING s); [apply close_v|apply answer_v].
  - eapply on_connack_v; [exact V|exact E|exact D].
  - destruct (in_state CONNECTING s); [apply close_v|eapply on_suback_v; [exact V|exact E]].
  - constructor.
Qed.
Lemma connect_v clean keep_s ping_ms op_ms ok s : VI (view s) -> m_tasks s = [] -> m_ongoing s = [] -> vsteps (noted (if in_state DISCONNECTED s then [I_CONNECT clean] else []) s) (view (connect clean keep_s ping_ms op_ms ok s)).
Proof.
  intros V T O. unfold connect. destruct (in_state DISCONNECTED s); cbn [negb]; [|constructor]. cbv zeta. set (s1 := set_count 0 _). set (s2 := set_ping _ _).
  change (noted [I_CONNECT clean] s) with (view s2). destruct (_ <=? _); [constructor|]. set (s3 := if clean then _ else s2).
  assert (V2 : VI (view s2)) by (unfold s2, s1, view; cbn [emit set_ping set_op set_keep set_count set_clean set_state set_out m_heap m_table m_tasks m_ongoing m_pending m_last m_next m_out]; apply VI_note; [repeat split; [cbn; tauto|discriminate|discriminate]|exact V]).
  assert (S3 : vsteps (view s2) (view s3)).
  { unfold s3. destruct clean eqn:Cl; [|constructor]. assert (V0 : view s2 = mkvw (map ess_of (m_heap (set_pending [] s2))) (m_table (set_pending [] s2)) [] [] (m_pending s2) (m_last (set_pending [] s2)) (m_next (set_pending [] s2)) (m_out (set_pending [] s2))).
    { unfold view. change (m_tasks s2) with (m_tasks s). change (m_ongoing s2) with (m_ongoing s). rewrite T, O. reflexivity. }
    rewrite V0. apply cancels_v; [reflexivity|rewrite <- V0; exact V2|reflexivity|exact T|exact O|reflexivity]. }
  eapply vs_app; [exact S3|]. destruct ok; [|change (view (set_state DISCONNECTED (emit (I_DIAL false) s3))) with (view (emit (I_DIAL false) s3)); apply emit_v; exact I]. change (view s3) with (view (set_net DIALLING s3)). apply emit_v. exact I.
Qed.
Record SI (s : mqtt) : Prop := {
  s_vi : VI (view s);
  s_last : m_last s <= 65535;
  s_now : m_now s = clock (m_out s);
  s_clean : m_clean s = wants_clean (m_out s);
  s_fi : m_crash s = false -> FI (view s);
  s_lv : m_crash s = false -> LV (view s);
  s_linked : m_crash s = false -> m_state s = CONNECTED -> linked (m_out s) = true;
  s_nv : m_crash s = false -> NV (view s) }.
Lemma attempt_reconnect_v ok s : VI (view s) -> m_tasks s = [] -> m_ongoing s = [] -> vsteps (view s) (view (attempt_reconnect ok s)).
Proof.
  intros V T O. unfold attempt_reconnect. destruct (in_state DISCONNECTING s).
  - destruct (m_slot s); [constructor|]. change (view s) with (view (set_reconnect None s)). apply disconnected_v; assumption.
  - cbv zeta. set (s1 := set_cur _ s). destruct ok; [|rewrite schedule_reconnect_view; change (view s) with (view s1); apply emit_v; exact I]. change (view s) with (view (set_net DIALLING (set_reconnect (Some None) s1))). apply emit_v. exact I.
Qed.
Lemma handle_v s ev : SI s -> ibody s -> m_crash s = false -> enabled ev s = true -> vsteps (noted (mark ev s) s) (view (handle ev s)).
Proof.
  intros H B NC En. assert (V := s_vi _ H). assert (UP' : up s = true -> m_net s = UP) by (unfold up; apply net_eqb_true).
  destruct ev as [t|k w|clean keep_s ping_ms op_ms ok| | |lo hi|o quit|enc wr| |p wr| | | |u|ok|e|graceful wr quit]; cbn [handle enabled mark] in *; try (change (noted [] s) with (view s)).
  - constructor.
  - destruct (acceptable k); [|apply emit_v; exact I]. apply andb_true_iff in En as [_ W]. apply N.ltb_lt in W. apply create_v; [exact V|apply H|exact W| |].
    + intro C. split; [apply (b_connected _ B C)|apply (s_linked _ H NC C)].
    + intros C D. destruct (b_calm _ B C D) as (X & Y & _). auto.
  - destruct (in_state DISCONNECTED s) eqn:E; [|unfold connect; rewrite E; constructor]. pose proof E as E'. apply in_state_true in E. destruct (b_calm _ B) as (T & O & _); try congruence. pose proof (connect_v clean keep_s ping_ms op_ms ok s V T O) as K. rewrite E' in K. exact K.
  - unfold disconnect. destruct (_ || _); [|constructor]. set (s1 := emit _ _). assert (S : vsteps (view s) (view s1)) by (change (view s) with (view (set_state DISCONNECTING s)); apply emit_v; exact I). destruct (m_slot s1); exact S.
  - destruct (in_state DISCONNECTED s) eqn:E; [|constructor]. apply in_state_true in E. destruct (b_calm _ B) as (T & O & _); try congruence. change (view s) with (view (set_held false s)). apply destroy_v; assumption.
  - unfold set_timeouts. destruct (_ || _); constructor.
  - apply net_eqb_true in En. assert (NU : m_net s <> UP) by congruence. destruct (b_gone _ B NU) as (T & O & _). assert (C := s_clean _ H). destruct o as [e|e|enc wr].
    + change (noted [I_DOWN e] s) with (view (emit (I_DOWN e) s)). apply on_setup_v; [|exact T|exact O|exact C|intros; reflexivity || discriminate]. apply VI_note; [repeat split; [cbn; tauto|discriminate|discriminate]|exact V].
    + constructor.
    + change (noted [I_UP] s) with (view (emit I_UP s)). apply on_setup_v; [|exact T|exact O|exact C|intros; reflexivity || discriminate]. apply VI_note; [repeat split; [cbn; tauto|discriminate|discriminate]|exact V].
  - apply run_v; [exact V|apply H, NC|apply H|]. intro T. split; [|apply (s_lv _ H NC); left; exact T]. destruct (b_one _ B) as [[T' _]|P]; [congruence|exact P].
  - set (s1 := bye _). assert (E : view s1 = view s) by (unfold s1, bye; destruct (in_state _ _); reflexivity). rewrite <- E. destruct (m_slot s); [apply close_v|constructor].
  - change (noted [I_PACKET p] s) with (view (emit (I_PACKET p) s)). apply (on_packet_v p wr _ (m_out s)); [apply VI_note; [repeat split; [cbn; tauto|discriminate|discriminate]|exact V]|reflexivity|]. destruct (b_one _ B) as [[T _]|P]; auto.
  - set (s1 := if _ <=? _ then _ else _). assert (S : vsteps (view s) (view s1)).
    { unfold s1. destruct (_ <=? _); [|constructor]. change (view s) with (view (update_next_ping (set_ping_task None s))). apply create_v; [exact V|apply H|reflexivity| |].
      + intro C. split; [apply (b_connected _ B C)|apply (s_linked _ H NC C)].
      + intros C D. destruct (b_calm _ B C D) as (X & Y & _). auto. }
    unfold schedule_ping. destruct (m_ping_task s1); exact S.
  - destruct (m_waiting s); [|constructor]. set (s1 := set_waiting _ _). change (view s) with (view s1). apply close_v.
  - destruct (_ || _); [|constructor]. change (view s) with (view (set_connack_timeouts (tl (m_connack_timeouts s)) s)). apply close_v.
  - apply andb_true_iff in En as [_ D]. destruct (get u s) as [r|] eqn:G; [|constructor]. destruct (get_ess u s r G) as [He Eu]. destruct (get_in u s r G) as [Hr _]. apply request_complete_v; [exact V|]. intros r' Hr' Ei' _.
    assert (X : ess_of r' = ess_of r) by (apply (id_inj (v_heap (view s))); [apply V|apply (in_map ess_of _ _ Hr')|exact He|exact Ei']).
    change (q_uid r') with (e_uid (ess_of r')). change (q_wait r') with (e_wait (ess_of r')). rewrite X. unfold due in D. destruct (q_timer r) as [d|] eqn:Et; [|discriminate]. apply N.leb_le in D.
    destruct (i_timer _ V (ess_of r) d He Et) as (_ & W & newer & p & ok & m & E1 & E2 & E3). cbn in E1. split; [exact W|]. exists newer, p, ok, m. repeat split; [exact E1|exact E2|]. rewrite <- (s_now _ H). lia.
  - destruct (m_reconnect s) as [[t|]|] eqn:R; try discriminate. destruct (b_scheduled _ B t R) as [N _]. assert (NU : m_net s <> UP) by congruence. destruct (b_gone _ B NU) as (T & O & _). apply attempt_reconnect_v; assumption.
  - apply close_v.
  - destruct (m_closing s) as [e|]; [|constructor]. change (noted [I_DOWN e] s) with (view (emit (I_DOWN e) s)). apply on_down_v; [apply VI_note; [repeat split; [cbn; tauto|discriminate|discriminate]|exact V]|reflexivity|apply H].
Qed.

(** ** The clock, the kind of session and the state *)
Definition calmly (s s' : mqtt) : Prop := m_now s' = m_now s /\ m_clean s' = m_clean s /\ (m_state s' = CONNECTED -> m_state s = CONNECTED).
Lemma calmly_refl s : calmly s s. Proof. repeat split; auto. Qed.
Lemma calmly_trans a b c : calmly a b -> calmly b c -> calmly a c. Proof. intros (A & B & C) (A' & B' & C'). repeat split; try congruence. auto. Qed.
Lemma calmly_parts s s' : parts s s' -> calmly s s'. Proof. intros (h & t & o & c & st & ->). repeat split; auto. Qed.
Lemma calmly_sends s s' : sends s s' -> calmly s s'. Proof. intros (h & t & o & c & st & x1 & x2 & x3 & x4 & ->). repeat split; auto. Qed.
Lemma calmly_creates s s' : creates s s' -> calmly s s'. Proof. intros (p & t & c & a & b & -> & _). repeat split; auto. Qed.
Lemma calmly_completes s s' : completes s s' -> calmly s s'. Proof. intros (g & p & n & H & _). apply calmly_parts in H. exact H. Qed.
Lemma calmly_close e s : calmly s (close e s). Proof. unfold close. destruct (m_closing s); repeat split; auto. Qed.
Lemma calmly_schedule s : calmly s (schedule_reconnect s). Proof. unfold schedule_reconnect. destruct (m_reconnect s); repeat split; auto. Qed.
Lemma calmly_destroy s : calmly s (destroy s).
Proof.
  unfold destroy. cbv zeta. set (s1 := fold_left _ _ s). assert (P : calmly s s1) by (apply calmly_parts, parts_fold; intros z x; destruct (get x z); [apply parts_tell|apply parts_crash]). eapply calmly_trans; [exact P|]. destruct (m_reconnect s1) as [[|]|]; repeat split; auto.
Qed.
Lemma calmly_release s : calmly s (release s). Proof. unfold release. destruct (m_held s); [apply calmly_refl|apply calmly_destroy]. Qed.
Lemma calmly_disconnected s : calmly s (disconnected s). Proof. unfold disconnected. eapply calmly_trans; [|apply calmly_release]. repeat split; cbn; discriminate. Qed.
Lemma calmly_client_shutdown e quit s : calmly s (client_shutdown e quit s).
Proof.
  unfold client_shutdown. cbv zeta. set (s1 := set_since 0 _). assert (P1 : calmly s s1) by (unfold s1; destruct (_ || _); repeat split; auto). set (s2 := set_ongoing _ _). set (s3 := set_closing None _).
  assert (P3 : calmly s s3).
  { eapply calmly_trans; [exact P1|]. assert (Q : calmly s2 (fold_left (fun s u => cancelled E_CLEAN_SESSION u s) (if m_clean s then m_ongoing s ++ m_pending s else []) s2)) by (apply calmly_parts, parts_fold; intros; apply parts_cancelled). exact Q. }
  clearbody s3. eapply calmly_trans; [exact P3|]. clear. destruct (m_state s).
  - eapply calmly_trans; [|apply calmly_release]. repeat split; cbn; discriminate.
  - set (s4 := emit (O_INTERRUPTED _) _). assert (P4 : calmly s3 s4) by (repeat split; cbn; discriminate). eapply calmly_trans; [exact P4|]. destruct quit; [|apply calmly_schedule]. eapply calmly_trans; [|apply calmly_disconnected]. repeat split; auto.
  - apply calmly_schedule.
  - apply calmly_disconnected.
  - apply calmly_refl.
Qed.
Lemma calmly_cancel_task s u : calmly s (cancel_task s u).
Proof.
  unfold cancel_task. destruct (get u s) as [r|]; [|repeat split; auto]. destruct (retryable _); [|apply calmly_parts, parts_finished]. assert (P : calmly s (change u true false s)) by apply calmly_parts, parts_change. exact P.
Qed.
Lemma calmly_on_down e graceful wr quit s : calmly s (on_down e graceful wr quit s).
Proof.
  unfold on_down. cbv zeta. set (s0 := match e with OK => _ | _ => s end). assert (P0 : calmly s s0) by (unfold s0; destruct e; try apply calmly_refl; destruct (_ && _); repeat split; auto). clearbody s0.
  eapply calmly_trans; [exact P0|]. set (s1 := fold_left cancel_task _ _). assert (P1 : calmly s0 s1).
  { unfold s1. generalize (m_tasks s0) as l. intro l. change (calmly s0) with (calmly (set_tasks [] s0)). generalize (set_tasks [] s0). clear. induction l as [|u l IH]; intro z; cbn [fold_left]; [apply calmly_refl|]. eapply calmly_trans; [apply calmly_cancel_task|apply IH]. }
  clearbody s1. eapply calmly_trans; [exact P1|]. set (s2 := set_heap _ _). set (s3 := set_byes 0 _). assert (P3 : calmly s1 s3) by (unfold s3, bye; destruct (m_byes s2 =? 0); [|destruct (in_state _ _)]; repeat split; auto).
  eapply calmly_trans; [exact P3|]. apply calmly_client_shutdown.
Qed.
Lemma calmly_on_packet p wr s : (forall session, p <> CONNACK session 0) -> calmly s (on_packet p wr s).
Proof.
  intro N. assert (A : forall q, calmly s (answer q wr s)) by (intro q; unfold answer; cbv zeta; destruct wr; [repeat split; auto|eapply calmly_trans; [|apply calmly_close]; repeat split; auto]).
  assert (Vd : forall k : mqtt -> mqtt, calmly s (k s) -> calmly s (if in_state CONNECTING s then close E_PROTOCOL s else k s)) by (intros k K; destruct (in_state CONNECTING s); [apply calmly_close|exact K]).
  destruct p as [clean ka|id qos dup retain topic payload|id|id|id|id|id topics|id f| | |session code|id codes|id|]; cbn [on_packet]; try apply calmly_close.
  - apply (Vd (on_publish id qos dup retain topic payload wr)). unfold on_publish. cbv zeta. set (s1 := fold_left _ _ s). assert (P1 : calmly s s1) by (apply calmly_parts, parts_fold; intros z x; destruct (tree_match _ _); [apply parts_emit|apply parts_refl]).
    eapply calmly_trans; [exact P1|]. clearbody s1. destruct (_ || _); [repeat split; auto|]. unfold answer. cbv zeta. destruct wr; [repeat split; auto|eapply calmly_trans; [|apply calmly_close]; repeat split; auto].
  - apply Vd. apply calmly_completes, completes_request_complete.
  - apply (Vd (answer (PUBREL id) wr)), A.
  - apply (Vd (answer (PUBCOMP id) wr)), A.
  - apply Vd. apply calmly_completes, completes_request_complete.
  - unfold on_connack. destruct (_ || _); [apply calmly_refl|]. cbv zeta. destruct (code =? 0) eqn:Z; [apply N.eqb_eq in Z; subst code; destruct (N session eq_refl)|]. eapply calmly_trans; [|apply calmly_close]. repeat split; auto.
  - apply (Vd (on_suback id codes)). unfold on_suback. destruct (find_id id s) as [u|]; [|repeat split; auto]. destruct (get u s) as [r|]; [|repeat split; auto]. destruct (match q_kind r with K_SUBSCRIBE _ => _ | K_RESUBSCRIBE => _ | _ => None end); [|repeat split; auto].
    destruct (_ =? _); [|apply calmly_close]. eapply calmly_trans; [|apply calmly_completes, completes_request_complete]. repeat split; auto.
  - apply Vd. apply calmly_completes, completes_request_complete.
  - repeat split; auto.
Qed.
Lemma calmly_cancels z : calmly z (fold_left (fun s u => cancelled E_CLEAN_SESSION u s) (m_pending z) (set_pending [] z)).
Proof. eapply calmly_trans with (b := set_pending [] z); [repeat split; auto|]. apply calmly_parts, parts_fold. intros. apply parts_cancelled. Qed.
Lemma connect_fields clean keep_s ping_ms op_ms ok s : in_state DISCONNECTED s = true -> m_now (connect clean keep_s ping_ms op_ms ok s) = m_now s /\ m_clean (connect clean keep_s ping_ms op_ms ok s) = clean /\ m_state (connect clean keep_s ping_ms op_ms ok s) <> CONNECTED.
Proof.
  intro E. unfold connect. rewrite E. cbn [negb]. cbv zeta. set (s1 := set_count 0 _). set (s2 := set_ping _ _).
  assert (F : m_now s2 = m_now s /\ m_clean s2 = clean /\ m_state s2 = CONNECTING) by (repeat split). clearbody s2. clear s1. destruct F as (F1 & F2 & F3).
  destruct (_ <=? _); [cbn; repeat split; congruence|]. set (s3 := if clean then _ else s2).
  assert (P : calmly s2 s3) by (unfold s3; destruct clean; [apply calmly_cancels|apply calmly_refl]). clearbody s3.
  destruct P as (P1 & P2 & P3). destruct ok; cbn; repeat split; try congruence. intro K. apply P3 in K. congruence.
Qed.
Lemma calmly_handle s ev : (forall t, ev <> EvTick t) -> (forall c a b d o, ev <> EvConnect c a b d o) -> (forall session wr, ev <> EvPacket (CONNACK session 0) wr) -> calmly s (handle ev s).
Proof.
  intros NT NC NA. destruct ev as [t|k w|clean keep_s ping_ms op_ms ok| | |lo hi|o quit|enc wr| |p wr| | | |u|ok|e|graceful wr quit]; cbn [handle].
  - destruct (NT t eq_refl).
  - destruct (acceptable k); [apply calmly_creates, creates_create|repeat split; auto].
  - destruct (NC clean keep_s ping_ms op_ms ok eq_refl).
  - unfold disconnect. destruct (_ || _); [|repeat split; auto]. cbv zeta. destruct (m_slot _); repeat split; cbn; discriminate.
  - destruct (in_state DISCONNECTED s); [|repeat split; auto]. eapply calmly_trans; [|apply calmly_destroy]. repeat split; auto.
  - unfold set_timeouts. destruct (_ || _); repeat split; auto.
  - destruct o as [e|e|enc wr]; cbn [on_setup].
    + eapply calmly_trans; [|apply calmly_client_shutdown]. repeat split; auto.
    + repeat split; auto.
    + destruct (in_state DISCONNECTING (emit I_UP s)); [repeat split; auto|]. cbv zeta. set (s2 := if enc then _ else _). assert (P : calmly s s2) by (unfold s2; destruct enc; repeat split; auto). destruct (enc && wr); [exact P|]. eapply calmly_trans; [exact P|]. eapply calmly_trans; [|apply calmly_close]. repeat split; auto.
  - unfold run_task. destruct (m_tasks s) as [|u l]; [apply calmly_refl|]. cbv zeta. set (s0 := set_tasks l s). assert (P0 : calmly s s0) by (repeat split; auto). eapply calmly_trans; [exact P0|]. destruct (get u s0) as [r|]; [|repeat split; auto].
    pose proof (sends_send enc wr r s0) as K. destruct (send enc wr r s0) as [s1 res]. cbn [fst] in K. eapply calmly_trans; [apply calmly_sends, K|]. set (s2 := upd _ _ _). assert (P2 : calmly s1 s2) by apply calmly_parts, parts_upd. eapply calmly_trans; [exact P2|].
    destruct res; [|apply calmly_parts, parts_finished|apply calmly_parts, parts_finished]. assert (P3 : calmly s2 (change u true true s2)) by apply calmly_parts, parts_change. exact P3.
  - set (s1 := bye _). assert (P : calmly s s1) by (unfold s1, bye; destruct (in_state _ _); repeat split; auto). eapply calmly_trans; [exact P|]. destruct (m_slot s); [apply calmly_close|apply calmly_refl].
  - eapply calmly_trans; [|apply calmly_on_packet]; [repeat split; auto|]. intros session ->. exact (NA session wr eq_refl).
  - set (s1 := if _ <=? _ then _ else _). assert (P : calmly s s1) by (unfold s1; destruct (_ <=? _); [|repeat split; auto]; eapply calmly_trans; [|apply calmly_creates, creates_create]; repeat split; auto). eapply calmly_trans; [exact P|]. unfold schedule_ping. destruct (m_ping_task s1); repeat split; auto.
  - destruct (m_waiting s); [|repeat split; auto]. eapply calmly_trans; [|apply calmly_close]. repeat split; auto.
  - destruct (_ || _); [|repeat split; auto]. eapply calmly_trans; [|apply calmly_close]. repeat split; auto.
  - destruct (get u s) as [r|]; [|repeat split; auto]. apply calmly_completes, completes_request_complete.
  - unfold attempt_reconnect. destruct (in_state DISCONNECTING s); [destruct (m_slot s); [repeat split; auto|]; eapply calmly_trans; [|apply calmly_disconnected]; repeat split; auto|]. cbv zeta. destruct ok; [repeat split; auto|]. eapply calmly_trans; [|apply calmly_schedule]. repeat split; auto.
  - apply calmly_close.
  - destruct (m_closing s) as [e|]; [|repeat split; auto]. eapply calmly_trans; [|apply calmly_on_down]. repeat split; auto.
Qed.
(** ** The invariant of the steps *)
Lemma VI_noted x s : Forall mild x -> VI (view s) -> VI (noted x s).
Proof. intros F V. unfold noted. induction F as [|y x M F IH]; [exact V|]. cbn. apply VI_note; assumption. Qed.
Lemma mark_mild ev s : Forall mild (mark ev s).
Proof.
  assert (M : forall y, ~ about y -> (forall k e, y <> I_REFUSED k e /\ y <> O_TERMINATED) -> Forall mild [y]) by (intros y A B; constructor; [split; [exact A|split; [intro k; apply B|apply (B K_PING OK)]]|constructor]).
  destruct ev as [t|k w|clean keep_s ping_ms op_ms ok| | |lo hi|o quit|enc wr| |p wr| | | |u|ok|e|graceful wr quit]; cbn [mark]; try constructor; try (apply M; [cbn; tauto|split; discriminate]).
  - repeat split; [cbn; tauto|discriminate|discriminate].
  - constructor.
  - destruct (in_state _ _); [apply M; [cbn; tauto|split; discriminate]|constructor].
  - destruct o; [apply M; [cbn; tauto|split; discriminate]|constructor|apply M; [cbn; tauto|split; discriminate]].
  - repeat split; [cbn; tauto|discriminate|discriminate].
  - constructor.
  - destruct (m_closing s); [apply M; [cbn; tauto|split; discriminate]|constructor].
Qed.
Lemma FI_empty s : VI (view s) -> m_tasks s = [] -> m_ongoing s = [] -> m_pending s = [] -> FI (view s).
Proof. intros V T O P e He. exfalso. assert (K := proj1 (i_places _ V (e_uid e)) (in_map _ _ _ He)). unfold places in K. cbn in K. rewrite T, O, P in K. destruct K. Qed.
Lemma vsteps_from ev s s' : SI s -> vsteps (noted (mark ev s) s) (view s') -> VI (view s') /\ m_last s' <= 65535 /\ keeps (mark ev s ++ m_out s) (m_out s').
Proof.
  intros H S. split; [apply (vsteps_VI _ _ S), VI_noted; [apply mark_mild|apply H]|]. split; [apply (vsteps_last _ _ S), H|]. exact (vsteps_keeps _ _ S).
Qed.
Definition stays (s s' : mqtt) : Prop := m_net s' = m_net s /\ (m_pending s = [] -> m_pending s' = []).
Lemma stays_trans a b c : stays a b -> stays b c -> stays a c. Proof. intros (A & B) (A' & B'). split; [congruence|auto]. Qed.
Lemma stays_parts s s' : parts s s' -> stays s s'. Proof. intros (h & t & o & c & st & ->). split; auto. Qed.
Lemma stays_destroy s : stays s (destroy s).
Proof.
  unfold destroy. cbv zeta. set (s1 := fold_left _ _ s). assert (P : stays s s1) by (apply stays_parts, parts_fold; intros z x; destruct (get x z); [apply parts_tell|apply parts_crash]). clearbody s1. eapply stays_trans; [exact P|]. destruct (m_reconnect s1) as [[|]|]; split; auto.
Qed.
Lemma stays_release s : stays s (release s). Proof. unfold release. destruct (m_held s); [split; auto|apply stays_destroy]. Qed.
Lemma stays_disconnected s : stays s (disconnected s). Proof. unfold disconnected. eapply stays_trans; [|apply stays_release]. split; auto. Qed.
Lemma stays_schedule s : stays s (schedule_reconnect s). Proof. unfold schedule_reconnect. destruct (m_reconnect s); split; auto. Qed.
Lemma shut_net e quit s : m_net (client_shutdown e quit s) = NO_CHANNEL /\ (m_clean s = true -> m_pending (client_shutdown e quit s) = []).
Proof.
  unfold client_shutdown. cbv zeta. set (s1 := set_since 0 _). set (s2 := set_ongoing _ _). set (s3 := set_closing None _).
  assert (F : m_net s3 = NO_CHANNEL /\ (m_clean s = true -> m_pending s3 = [])).
  { split; [reflexivity|]. intro C. assert (Q : stays s2 (fold_left (fun s u => cancelled E_CLEAN_SESSION u s) (if m_clean s then m_ongoing s ++ m_pending s else []) s2)) by (apply stays_parts, parts_fold; intros; apply parts_cancelled).
    apply Q. unfold s2. rewrite C. reflexivity. }
  clearbody s3. clear s1 s2. assert (G : forall s', stays s3 s' -> m_net s' = NO_CHANNEL /\ (m_clean s = true -> m_pending s' = [])) by (intros s' [A B]; split; [destruct F; congruence|intro C; apply B, F, C]).
  apply G. destruct (m_state s).
  - eapply stays_trans; [|apply stays_release]. split; auto.
  - set (s4 := emit (O_INTERRUPTED _) _). assert (P4 : stays s3 s4) by (split; auto). eapply stays_trans; [exact P4|]. destruct quit; [|apply stays_schedule]. eapply stays_trans; [|apply stays_disconnected]. split; auto.
  - apply stays_schedule.
  - apply stays_disconnected.
  - split; auto.
Qed.
Lemma down_net e graceful wr quit s : m_net (on_down e graceful wr quit s) = NO_CHANNEL /\ (m_clean s = true -> m_pending (on_down e graceful wr quit s) = []).
Proof.
  unfold on_down. cbv zeta. set (s0 := match e with OK => _ | _ => s end). assert (P0 : m_clean s0 = m_clean s) by (unfold s0; destruct e; try reflexivity; destruct (_ && _); reflexivity). clearbody s0.
  set (s1 := fold_left cancel_task _ _). assert (P1 : calmly s0 s1).
  { unfold s1. generalize (m_tasks s0) as l. intro l. change (calmly s0) with (calmly (set_tasks [] s0)). generalize (set_tasks [] s0). clear. induction l as [|u l IH]; intro z; cbn [fold_left]; [apply calmly_refl|]. eapply calmly_trans; [apply calmly_cancel_task|apply IH]. }
  destruct P1 as (_ & P1 & _). clearbody s1. set (s2 := set_heap _ _). set (s3 := set_byes 0 _). assert (P3 : m_clean s3 = m_clean s1) by (unfold s3, bye; destruct (m_byes s2 =? 0); [|destruct (in_state _ _)]; reflexivity). clearbody s3.
  destruct (shut_net e quit s3) as [A B]. split; [exact A|]. intro C. apply B. congruence.
Qed.
Lemma connect_empty clean keep_s ping_ms op_ms ok s : m_tasks s = [] -> m_ongoing s = [] -> in_state DISCONNECTED s = true -> let s' := connect clean keep_s ping_ms op_ms ok s in
  m_tasks s' = [] /\ m_ongoing s' = [] /\ (m_crash s' = false -> clean = true -> m_pending s' = []).
Proof.
  intros T O E. unfold connect. rewrite E. cbn [negb]. cbv zeta. set (s1 := set_count 0 _). set (s2 := set_ping _ _). assert (F : m_tasks s2 = [] /\ m_ongoing s2 = []) by (split; [exact T|exact O]). clearbody s2. clear s1. destruct F as [F1 F2].
  destruct (_ <=? _); [repeat split; try assumption; discriminate|]. set (s3 := if clean then _ else s2).
  assert (P : m_tasks s3 = [] /\ m_ongoing s3 = [] /\ (clean = true -> m_pending s3 = [])).
  { unfold s3. destruct clean; [|repeat split; try assumption; discriminate]. assert (Q : parts (set_pending [] s2) (fold_left (fun s u => cancelled E_CLEAN_SESSION u s) (m_pending s2) (set_pending [] s2))) by (apply parts_fold; intros; apply parts_cancelled).
    destruct Q as (h & t & o & c & st & ->). repeat split; assumption. }
  clearbody s3. destruct ok; cbn; tauto.
Qed.
Lemma on_connack_now session code s : m_now (on_connack session code s) = m_now s /\ m_clean (on_connack session code s) = m_clean s.
Proof.
  unfold on_connack. destruct (_ || _); [auto|]. cbv zeta. destruct (code =? 0); [|destruct (calmly_close E_PROTOCOL (set_count (m_count s + 1) s)) as (A & B & _); auto].
  set (s1 := set_since _ _). set (s2 := if _ && _ then _ else _). assert (F : m_now s2 = m_now s /\ m_clean s2 = m_clean s) by (unfold s2; destruct (_ && _); [split; reflexivity|]; destruct (m_reconnect s1); split; reflexivity). clearbody s2. unfold schedule_ping. destruct (m_ping_task _); exact F.
Qed.
Lemma ibody_idle s : ibody s -> m_net s <> UP -> m_tasks s = [] /\ m_ongoing s = [] /\ m_state s <> CONNECTED.
Proof. intros B N. destruct (b_gone _ B N) as (T & O & _). split; [exact T|]. split; [exact O|]. intro C. destruct (b_connected _ B C). tauto. Qed.
Lemma step_SI s ev : SI s -> IB s -> SI (step s ev).
Proof.
  intros H HB. pose proof (step_ib s ev HB) as HB'. unfold step in *. destruct (m_crash s || m_over s) eqn:EC; [exact H|]. apply orb_false_iff in EC as [NC _]. destruct (enabled ev s) eqn:En; [|exact H].
  destruct HB as [HB|B]; [congruence|]. pose proof (handle_v s ev H B NC En) as S. destruct (vsteps_from ev s _ H S) as (V' & L' & K1 & K2 & K3 & K4).
  assert (IB' : m_crash (handle ev s) = false -> ibody (handle ev s)) by (intro K; destruct HB'; [congruence|assumption]). clear HB'.
  assert (FIk : (forall u, same_session u (m_out s) -> same_session u (mark ev s ++ m_out s)) -> FI (view (handle ev s))).
  { intro G. apply (vsteps_FI _ _ S). intros e He. destruct (s_fi _ H NC e He) as [A W]. split; [apply G, A|exact W]. }
  assert (LVk : (m_tasks s <> [] \/ m_ongoing s <> [] -> linked (mark ev s ++ m_out s) = true) -> LV (view (handle ev s))) by (intro G; apply (vsteps_LV _ _ S); exact G).
  assert (NVk : NV (view (handle ev s))).
  { apply (vsteps_NV _ _ S); [apply VI_noted; [apply mark_mild|apply H]|]. unfold noted.
    assert (M : mark ev s = [] \/ exists y, mark ev s = [y] /\ ~ about y).
    { pose proof (mark_mild ev s) as F. assert (L1 : mark ev s = [] \/ exists y, mark ev s = [y]) by (destruct ev; cbn [mark]; eauto; [destruct (in_state _ _); eauto|destruct o; eauto|destruct (m_closing s); eauto]).
      destruct L1 as [->|(y & E)]; [auto|]. right. exists y. split; [exact E|]. rewrite E in F. inversion F as [|? ? My]; subst. apply My. }
    destruct M as [->|(y & -> & A)]; [exact (s_nv _ H NC)|]. apply NV_mark; [exact A|exact (s_vi _ H)|exact (s_lv _ H NC)|exact (s_nv _ H NC)]. }
  (* events that leave the connection as it is *)
  assert (Gen : calmly s (handle ev s) -> clock (mark ev s ++ m_out s) = clock (m_out s) -> wants_clean (mark ev s ++ m_out s) = wants_clean (m_out s) -> linked (mark ev s ++ m_out s) = linked (m_out s) ->
                (forall u, same_session u (m_out s) -> same_session u (mark ev s ++ m_out s)) -> SI (handle ev s)).
  { intros (C1 & C2 & C3) M1 M2 M3 M4. constructor; [exact V'|exact L'| | | | | |intros _; exact NVk].
    - rewrite C1, K2, M1. apply H.
    - rewrite C2, K3, M2. apply H.
    - intros _. apply FIk, M4.
    - intros _. apply LVk. rewrite M3. apply (s_lv _ H NC).
    - intros _ C. rewrite K1, M3. apply (s_linked _ H NC), C3, C. }
  assert (Quiet : mark ev s = [] -> calmly s (handle ev s) -> SI (handle ev s)) by (intros M C; apply Gen; try exact C; rewrite M; auto).
  destruct ev as [t|k w|clean keep_s ping_ms op_ms ok| | |lo hi|o quit|enc wr| |p wr| | | |u|ok|e|graceful wr quit]; try (apply Quiet; [reflexivity|apply calmly_handle; discriminate]).
  - cbn [handle mark app] in *. constructor; [exact V'|exact L'|reflexivity|apply H| | | |intros _; exact NVk].
    + intros _. apply FIk. intros u K. exact K.
    + intros _. apply (s_lv _ H NC).
    + intros _. apply (s_linked _ H NC).
  - cbn [mark] in *. destruct (in_state DISCONNECTED s) eqn:E.
    2:{ apply Quiet; [reflexivity|]. cbn [handle]. unfold connect. rewrite E. apply calmly_refl. }
    cbn [handle] in *. assert (NU : m_net s <> UP) by (apply in_state_true in E; rewrite (b_disconnected _ B E); discriminate). destruct (ibody_idle s B NU) as (T & O & _).
    destruct (connect_fields clean keep_s ping_ms op_ms ok s E) as (C1 & C2 & C3). destruct (connect_empty clean keep_s ping_ms op_ms ok s T O E) as (T' & O' & P'). constructor; [exact V'|exact L'| | | | | |intros _; exact NVk].
    + rewrite C1, K2. cbn. apply H.
    + rewrite C2, K3. reflexivity.
    + intro NC'. destruct clean; [|apply FIk; intros u K; cbn; auto]. apply FI_empty; auto.
    + intros _. apply LVk. rewrite T, O. intros [K|K]; destruct K; reflexivity.
    + intros _ C. destruct (C3 C).
  - assert (N := proj1 (net_eqb_true _ _) En). assert (NU : m_net s <> UP) by congruence. destruct (ibody_idle s B NU) as (T & O & NCo). pose proof (calmly_handle s (EvSetup o quit) ltac:(discriminate) ltac:(discriminate) ltac:(discriminate)) as Ca. destruct Ca as (C1 & C2 & C3).
    assert (Lv : LV (view (handle (EvSetup o quit) s))) by (apply LVk; rewrite T, O; intros [K|K]; destruct K; reflexivity).
    assert (Fi : FI (view (handle (EvSetup o quit) s))).
    { destruct o as [e|e|enc wr]; [|apply FIk; intros u K; exact K|apply FIk; intros u K; exact K]. destruct (m_clean s) eqn:Cl; [|apply FIk; intros u K; cbn; split; [rewrite <- (s_clean _ H); exact Cl|exact K]].
      destruct (shut_net e quit (emit (I_DOWN e) s)) as [A P]. specialize (P Cl). assert (X := proj1 (i_places _ V' 0)). intros x Hx. exfalso. assert (J := proj1 (i_places _ V' (e_uid x)) (in_map _ _ _ Hx)). unfold places in J. cbn [v_tasks v_ongoing v_pending view] in J.
      change (m_pending (handle (EvSetup (FAILED e) quit) s)) with (m_pending (client_shutdown e quit (emit (I_DOWN e) s))) in J. rewrite P, app_nil_r in J.
      assert (Z : forall v, In v (m_tasks (handle (EvSetup (FAILED e) quit) s) ++ m_ongoing (handle (EvSetup (FAILED e) quit) s)) -> linked (m_out (handle (EvSetup (FAILED e) quit) s)) = true) by (intros v Jv; apply Lv; cbn [view v_tasks v_ongoing]; destruct (m_tasks (handle (EvSetup (FAILED e) quit) s)); [right; intro Q; rewrite Q in Jv; destruct Jv|left; discriminate]).
      specialize (Z _ J). rewrite K1 in Z. discriminate. }
    constructor; [exact V'|exact L'| | |intros _; exact Fi|intros _; exact Lv| |intros _; exact NVk].
    + rewrite C1, K2. destruct o; apply H.
    + rewrite C2, K3. destruct o; apply H.
    + intros _ C. destruct (NCo (C3 C)).
  - assert (D : (exists session, p = CONNACK session 0) \/ (forall session, p <> CONNACK session 0)).
    { destruct p as [| | | | | | | | | |session code| | |]; try (right; discriminate). destruct (N.eq_dec code 0) as [->|Z]; [eauto|]. right. intros s' K. injection K. congruence. }
    destruct D as [(session & ->)|D].
    + cbn [handle mark on_packet app] in *. destruct (on_connack_now session 0 (emit (I_PACKET (CONNACK session 0)) s)) as [C1 C2]. constructor; [exact V'|exact L'| | | | | |intros _; exact NVk].
      * rewrite C1, K2. apply H.
      * rewrite C2, K3. apply H.
      * intros _. apply FIk. intros u K. exact K.
      * intros _. apply LVk. reflexivity.
      * intros _ _. rewrite K1. reflexivity.
    + apply Gen; [apply calmly_handle; try discriminate; intros session wr' K; injection K; intros _ ->; exact (D session eq_refl)|reflexivity|reflexivity| |intros u K; exact K].
      cbn [mark app linked]. destruct p as [| | | | | | | | | |session code| | |]; try reflexivity. destruct (code =? 0) eqn:Z; [|reflexivity]. apply N.eqb_eq in Z. subst code. destruct (D session eq_refl).
  - cbn [enabled mark] in *. apply andb_true_iff in En as [_ En]. destruct (m_closing s) as [e|] eqn:Ecl; [|discriminate]. pose proof (calmly_handle s (EvDown graceful wr quit) ltac:(discriminate) ltac:(discriminate) ltac:(discriminate)) as (C1 & C2 & C3).
    cbn [handle] in *. rewrite Ecl in *. destruct (down_net e graceful wr quit (emit (I_DOWN e) s)) as [N' P'].
    assert (Id : m_crash (on_down e graceful wr quit (emit (I_DOWN e) s)) = false -> m_tasks (on_down e graceful wr quit (emit (I_DOWN e) s)) = [] /\ m_ongoing (on_down e graceful wr quit (emit (I_DOWN e) s)) = [] /\ m_state (on_down e graceful wr quit (emit (I_DOWN e) s)) <> CONNECTED).
    { intro K. apply ibody_idle; [apply IB', K|]. rewrite N'. discriminate. }
    constructor; [exact V'|exact L'| | | | | |intros _; exact NVk].
    + rewrite C1, K2. cbn. apply H.
    + rewrite C2, K3. cbn. apply H.
    + intro NC'. destruct (Id NC') as (T' & O' & _). destruct (m_clean s) eqn:Cl; [apply FI_empty; auto|]. apply FIk. intros u K. cbn. split; [rewrite <- (s_clean _ H); exact Cl|exact K].
    + intro NC'. destruct (Id NC') as (T' & O' & _). unfold LV. cbn [view v_tasks v_ongoing]. rewrite T', O'. intros [K|K]; destruct K; reflexivity.
    + intros NC' C. destruct (Id NC') as (_ & _ & X). destruct (X C).
Qed.
Lemma SI_init : SI init.
Proof.
  constructor; cbn; try reflexivity; try lia; try (intros; congruence).
  - constructor; unfold places; cbn; try tauto; try apply NoDup_nil; try apply SSorted_nil; try (intros; tauto); try (intros u (id & k & w & [])); try (intros; contradiction).
  - intros _ e [].
  - intros _ [K|K]; destruct K; reflexivity.
  - intros _. constructor; cbn; intros; contradiction.
Qed.
Lemma history_SI evs : SI (history evs).
Proof. induction evs as [|ev evs IH] using rev_ind; [apply SI_init|]. rewrite history_snoc. apply step_SI; [exact IH|apply history_ib]. Qed.
