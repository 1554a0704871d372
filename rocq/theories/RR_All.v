(** The invariants of the request-response client together, and the limits on its subscriptions. *)
From Verif Require Import Base Split TopicAlias_Model TopicAlias_Proofs SubSet_Model Topic_Model Paths RR_Model RR_Spec RR_Steps RR_Decomp RR_Subs RR_Flights RR_Kinds RR_Trace RR_OpsTrace RR_Filters.
From Coq Require Import Permutation.

(** *** The client's phase is seen *)
Definition ends (x : out) : Prop := match x with I_SHUTDOWN | O_TERMINATED => True | _ => False end.
Lemma prim_ends cf g s g' s' : prim cf (g, s) (g', s') -> exists l, c_out s' = l ++ c_out s /\ Forall (fun x => ~ ends x) l.
Proof.
  intros P. assert (E0 : c_out s' = c_out s -> exists l, c_out s' = l ++ c_out s /\ Forall (fun x => ~ ends x) l) by (intros H; exists []; split; [exact H|constructor]).
  assert (E1 : forall x, c_out s' = x :: c_out s -> ~ ends x -> exists l, c_out s' = l ++ c_out s /\ Forall (fun x => ~ ends x) l) by (intros x H Hx; exists [x]; split; [exact H|constructor; [exact Hx|constructor]]).
  inversion P; subst; try (apply E0; reflexivity); try (eapply E1; [reflexivity|exact (fun h => h)]).
  - rewrite create_shape in * by assumption. eapply E1; [reflexivity|exact (fun h => h)].
  - eapply E1; [apply submitted_out|exact (fun h => h)].
  - destruct (fail_shape (o_id o) E_TIMEOUT (upd_op (o_id o) (set_timed false) s)) as (l & F1 & _). exists l. split; [exact F1|]. clear - F1. set (s1 := upd_op _ _ s) in *. clearbody s1. unfold fail in F1. destruct (get_op (o_id o) s1) as [x|]; [|apply (app_inv_tail (c_out s1) [] l) in F1; subst; constructor]. unfold complete, halt in F1. destruct (o_kind x).
    + destruct (state_is _ _); [apply (app_inv_tail (c_out s1) [] l) in F1; subst; constructor|]. apply (app_inv_tail (c_out s1) [_] l) in F1. subst. constructor; [exact (fun h => h)|constructor].
    + destruct (_ || _); [apply (app_inv_tail (c_out s1) [] l) in F1; subst; constructor|]. apply (app_inv_tail (c_out s1) [_] l) in F1. subst. constructor; [exact (fun h => h)|constructor].
  - apply E0, listen_out.
  - apply E0, add_tables_out.
  - apply E0, wake_out.
  - destruct (o_state o); (eapply E1; [reflexivity|exact (fun h => h)]).
  - destruct b; (eapply E1; [reflexivity|exact (fun h => h)]).
  - destruct (streamed_out topic payload (emit (I_MESSAGE topic payload j) s)) as (l & H & Hl). cbn [emit c_out] in H. exists (l ++ [I_MESSAGE topic payload j]). split; [rewrite H, <- app_assoc; reflexivity|]. apply Forall_app. split; [|constructor; [exact (fun h => h)|constructor]].
    eapply Forall_impl; [|exact Hl]. intros x (i & ->). exact (fun h => h).
  - apply E0, unlisten_out.
  - eapply E1; [cbn [emit c_out]; rewrite untabled_out; reflexivity|exact (fun h => h)].
Qed.
Definition J6 (s : client) : Prop := (c_phase s = ACTIVE <-> ~ In I_SHUTDOWN (c_out s)) /\ (c_phase s = OVER <-> In O_TERMINATED (c_out s)).
Lemma J6_step cf g s g' s' : J6 s -> big cf (g, s) (g', s') -> J6 s'.
Proof.
  intros [H H'] B. inversion B as [x y P|s0 Ha Hs|s0 Hp Ho He Hu]; subst.
  - destruct (prim_ends _ _ _ _ _ P) as (l & Ho & Hl). pose proof (prim_phase _ _ _ P) as Hp. cbn [snd] in Hp. unfold J6. rewrite Hp, Ho, !in_app_iff. rewrite Forall_forall in Hl. split.
    + rewrite H. split; [intros K [K'|K']; [apply (Hl _ K'); exact I|auto]|auto].
    + rewrite H'. split; [auto|intros [K|K]; [destruct (Hl _ K); exact I|exact K]].
  - split; cbn; [split; [discriminate|intros K; destruct K; auto]|]. split; [discriminate|]. intros [K|K]; [discriminate|]. apply H' in K. congruence.
  - split; cbn; [|split; auto]. split; [discriminate|]. intros K. assert (c_phase s = ACTIVE); [|congruence]. apply H. intros K'. apply K. auto.
Qed.
Record JA (cf : config) (g : ghost) (s : client) : Prop := { ja1 : J1 cf g s; ja3 : J3 g s; ja2 : J2 g s; ja5 : J5 g s; ja4 : J4 g s; ja6 : J6 s }.
Lemma JA_step cf : cf_ok cf -> forall g s g' s', JA cf g s -> big cf (g, s) (g', s') -> JA cf g' s'.
Proof.
  intros Hc g s g' s' [H1 H3 H2 H5 H4 H6] B. constructor; [eapply J1_step; eassumption|eapply J3_step; eassumption|eapply J2_step; eassumption|eapply J5_step; eassumption|eapply J4_step; eassumption|eapply J6_step; eassumption].
Qed.
Lemma JA_new cf connected : JA cf IDLE (client_new connected).
Proof. constructor; [apply J1_new|apply J3_new|apply J2_new|apply J5_new|apply J4_new|]. split; cbn; [tauto|split; [discriminate|tauto]]. Qed.
Lemma JA_history cf connected l : cf_ok cf -> JA cf IDLE (history cf connected l).
Proof. intros Hc. apply (history_inv cf (JA cf)); [apply JA_new|apply JA_step; assumption]. Qed.
Lemma running_active cf g s : JA cf g s -> running (trace s) -> c_phase s = ACTIVE.
Proof. intros J H. apply (proj1 (ja6 _ _ _ J)). unfold running, trace in H. rewrite <- in_rev in H. exact H. Qed.

(** *** The limits *)
Lemma waiting_cnt g s b f : J4 g s -> waiting b f (trace s) = cnt b f (c_flights s).
Proof. intros J. unfold waiting. rewrite (j4_flight _ _ J). lia. Qed.
Lemma cnt_flights b f g s : (cnt b f (c_flights s) <= cnt b f (flights g s))%nat.
Proof. unfold flights. destruct g; try lia. rewrite cnt_cons. lia. Qed.
Lemma expected_some b f s : (0 < expected b f s)%nat -> exists r, get_sub f s = Some r.
Proof. unfold expected. destruct (get_sub f s); [eauto|lia]. Qed.
Lemma view_some f s : view f s = true -> exists r, get_sub f s = Some r.
Proof. unfold view. destruct (get_sub f s); [eauto|discriminate]. Qed.
Lemma occupied_record cf g s f : JA cf g s -> c_phase s = ACTIVE -> occupied f (trace s) -> exists r, get_sub f s = Some r.
Proof.
  intros J Ha [Hh|Hw].
  - rewrite (j4_held _ _ (ja4 _ _ _ J) Ha) in Hh. destruct g; try (apply view_some; exact Hh); [|discriminate]. cbn [shown] in Hh. rewrite beq_sym in Hh. destruct (bytes_eqb f0 f) eqn:E; [|apply view_some; exact Hh]. apply bytes_eqb_spec in E. subst f0.
    apply (expected_some b). rewrite <- (ja3 _ _ _ J Ha b f). cbn [flights]. rewrite cnt_cons, flight_eqb_refl. lia.
  - rewrite (waiting_cnt g s true f (ja4 _ _ _ J)) in Hw. apply (expected_some true). rewrite <- (ja3 _ _ _ J Ha true f). pose proof (cnt_flights true f g s). lia.
Qed.
Lemma running_prefix tr x : running (tr ++ [x]) -> running tr.
Proof. unfold running. rewrite in_app_iff. auto. Qed.
Lemma quiet_silent x : quiet x -> silent x.
Proof. destruct x; cbn; tauto. Qed.
Lemma quiet_occupied tr x f : quiet x -> (occupied f (tr ++ [x]) <-> occupied f tr) /\ (forall b, waiting b f (tr ++ [x]) = waiting b f tr).
Proof.
  intros Hq. destruct (silent_all [x] tr) as [S1 S2]; [constructor; [apply quiet_silent, Hq|constructor]|]. assert (W : forall b, waiting b f (tr ++ [x]) = waiting b f tr) by (intros b; unfold waiting; destruct (S1 b f) as [-> ->]; reflexivity).
  split; [|exact W]. unfold occupied. rewrite S2, W. tauto.
Qed.
Lemma len_incl {A} (l l' : list A) : NoDup l -> incl l l' -> len l <= len l'.
Proof. intros H1 H2. unfold len. pose proof (NoDup_incl_length H1 H2). lia. Qed.
Definition within (cf : config) (k : kind) (tr : list out) : Prop :=
  running tr -> forall L, NoDup L -> (forall f, In f L -> occupied f tr /\ forall k', used_for k' f tr -> k' = k) -> len L <= allowance cf k.
Lemma within_all cf connected k l tr1 tr2 : cf_ok cf -> trace (history cf connected l) = tr1 ++ tr2 -> within cf k tr1.
Proof.
  intros Hc. apply (at_all_times_trace cf (JA cf) (within cf k)); [apply JA_new|apply JA_step; assumption| |].
  - intros g s J Hr L Hn HL. pose proof (running_active _ _ _ J Hr) as Ha. assert (K : incl L (map s_filter (records k s))).
    { intros f Hf. destruct (HL f Hf) as [Ho Hk]. destruct (occupied_record _ _ _ _ J Ha Ho) as (r & Hr'). pose proof (get_sub_filter _ _ _ Hr') as <-. apply in_map. unfold records. apply filter_In. split; [eapply get_sub_in; eassumption|]. apply kind_eqb_spec. symmetry. apply Hk. apply (j4_kind _ _ (ja4 _ _ _ J)). assumption. }
    pose proof (len_incl _ _ Hn K) as Hle. pose proof (j1_count _ _ _ (ja1 _ _ _ J) k) as Hct. unfold len in *. rewrite map_length in Hle. change (allowance cf k) with (maximum cf k). lia.
  - intros x tr HQ Hq Hr L Hn HL. apply HQ; [eapply running_prefix; eassumption|assumption|]. intros f Hf. destruct (HL f Hf) as [Ho Hk]. split; [apply (quiet_occupied tr x f Hq); assumption|]. intros k' Hu. apply Hk. apply used_app. assumption.
Qed.
Definition within_total (cf : config) (tr : list out) : Prop := running tr -> forall L, NoDup L -> (forall f, In f L -> occupied f tr) -> len L <= cf_max_requests cf + cf_max_streams cf.
Lemma within_total_all cf connected l tr1 tr2 : cf_ok cf -> trace (history cf connected l) = tr1 ++ tr2 -> within_total cf tr1.
Proof.
  intros Hc. apply (at_all_times_trace cf (JA cf) (within_total cf)); [apply JA_new|apply JA_step; assumption| |].
  - intros g s J Hr L Hn HL. pose proof (running_active _ _ _ J Hr) as Ha. assert (K : incl L (map s_filter (c_subs s))).
    { intros f Hf. destruct (occupied_record _ _ _ _ J Ha (HL f Hf)) as (r & Hr'). pose proof (get_sub_filter _ _ _ Hr') as <-. apply in_map. eapply get_sub_in; eassumption. }
    pose proof (len_incl _ _ Hn K) as Hle. pose proof (j1_count _ _ _ (ja1 _ _ _ J) REQUEST) as C1. pose proof (j1_count _ _ _ (ja1 _ _ _ J) STREAM) as C2. cbn [maximum] in *.
    assert (S : len (c_subs s) = len (records REQUEST s) + len (records STREAM s)).
    { unfold records, len. clear. induction (c_subs s) as [|r l IH]; [reflexivity|]. cbn [filter]. destruct (s_kind r); change (kind_eqb REQUEST REQUEST) with true; change (kind_eqb STREAM REQUEST) with false; change (kind_eqb REQUEST STREAM) with false; change (kind_eqb STREAM STREAM) with true; cbv iota; cbn [length]; lia. }
    unfold len in *. rewrite map_length in Hle. lia.
  - intros x tr HQ Hq Hr L Hn HL. apply HQ; [eapply running_prefix; eassumption|assumption|]. intros f Hf. apply (quiet_occupied tr x f Hq). auto.
Qed.
Definition alone (f : bytes) (tr : list out) : Prop := running tr -> (waiting true f tr + waiting false f tr <= 1)%nat.
Lemma alone_all cf connected f l tr1 tr2 : cf_ok cf -> trace (history cf connected l) = tr1 ++ tr2 -> alone f tr1.
Proof.
  intros Hc. apply (at_all_times_trace cf (JA cf) (alone f)); [apply JA_new|apply JA_step; assumption| |].
  - intros g s J Hr. pose proof (running_active _ _ _ J Hr) as Ha. rewrite !(waiting_cnt g s _ f (ja4 _ _ _ J)). pose proof (cnt_flights true f g s). pose proof (cnt_flights false f g s). rewrite !(ja3 _ _ _ J Ha) in *. unfold expected in *. destruct (get_sub f s) as [r|]; [|lia]. unfold pend in *. destruct (s_pending r); lia.
  - intros x tr HQ Hq Hr. unfold alone in HQ. destruct (quiet_occupied tr x f Hq) as [_ W]. rewrite !W. apply HQ. eapply running_prefix. eassumption.
Qed.
Lemma no_crash cf connected l : cf_ok cf -> c_crash (history cf connected l) = false.
Proof. intros Hc. apply (j2_crash _ _ (ja2 _ _ _ (JA_history cf connected l Hc))). Qed.
