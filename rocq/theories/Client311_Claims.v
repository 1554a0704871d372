(** Lemmas behind the claims about the operations of the 3.1.1 client *)
From Verif Require Import Base Client311_Model Client311_States Client311_Spec Client311_Requests Client311_Steps Client311_Phases.

Lemma each_at R l newer x older : each R l -> l = newer ++ x :: older -> R x older.
Proof. intros H ->. induction newer as [|y newer IH]; cbn in H; [apply H|apply IH, H]. Qed.
Lemma each_older R newer older : each R (newer ++ older) -> each R older.
Proof. induction newer as [|y newer IH]; [auto|]. intros [_ H]. apply IH, H. Qed.
Lemma history_fine evs : each fine (m_out (history evs)). Proof. exact (i_fine _ (s_vi _ (history_SI evs))). Qed.
Lemma fine_at evs newer x older : m_out (history evs) = newer ++ x :: older -> fine x older.
Proof. apply each_at, history_fine. Qed.
Lemma fine_before evs newer older : m_out (history evs) = newer ++ older -> each fine older.
Proof. intro E. apply (each_older _ newer). rewrite <- E. apply history_fine. Qed.

(** ** Completion *)
Lemma over_not u l : ~ over u l -> completions u l = 0%nat.
Proof.
  intro N. unfold completions. induction l as [|x l IH]; [reflexivity|].
  assert (M : ~ over u l) by (intro K; apply N; destruct K as [(id & e & K)|K]; [left; exists id, e; right; exact K|right; right; exact K]).
  cbn [filter]. destruct x; try (apply IH, M). destruct (u0 =? u) eqn:E; [|apply IH, M]. apply N.eqb_eq in E. subst u0. destruct N. left. exists id, e. left. reflexivity.
Qed.
Lemma completions_once u l : each fine l -> (completions u l <= 1)%nat.
Proof.
  induction l as [|x l IH]; [unfold completions; cbn; lia|]. intros [F H]. specialize (IH H). unfold completions in *. cbn [filter]. destruct x; try exact IH. destruct (u0 =? u) eqn:E; [|exact IH]. apply N.eqb_eq in E. subst u0.
  destruct F as (k & w & _ & N & _). apply over_not in N. unfold completions in N. cbn. lia.
Qed.
Lemma completed_counts u id e l : In (O_COMPLETE u id e) l -> (1 <= completions u l)%nat.
Proof.
  unfold completions. induction l as [|x l IH]; [intros []|]. intros [->|K]; cbn [filter].
  - rewrite N.eqb_refl. cbn. lia.
  - specialize (IH K). destruct x; try exact IH. destruct (u0 =? u); cbn; lia.
Qed.
Lemma ping_over_made u l : each fine l -> In (O_PING_OVER u) l -> exists id w, In (I_MADE u id K_PING w) l.
Proof.
  induction l as [|x l IH]; [intros _ []|]. intros [F H] [->|K].
  - destruct F as ((id & w & K) & _). exists id, w. right. exact K.
  - destruct (IH H K) as (id & w & J). exists id, w. right. exact J.
Qed.
Lemma over_completed u id k w l : each fine l -> In (I_MADE u id k w) l -> k <> K_PING -> over u l -> completions u l = 1%nat.
Proof.
  intros F M N [(id' & e & K)|K].
  - pose proof (completions_once u l F). pose proof (completed_counts _ _ _ _ K). lia.
  - destruct (ping_over_made u l F K) as (id' & w' & J). destruct (made_once _ _ _ _ _ _ _ _ F M J) as (_ & Ek & _). congruence.
Qed.
(** ** The end *)
Lemma history_proper evs : each proper (m_out (history evs)). Proof. apply history_PH. Qed.
Lemma proper_at evs newer x older : m_out (history evs) = newer ++ x :: older -> proper x older.
Proof. apply each_at, history_proper. Qed.
Lemma terminated_last evs newer older : m_out (history evs) = newer ++ O_TERMINATED :: older -> newer = [].
Proof.
  intro E. destruct newer as [|x newer]; [reflexivity|]. exfalso. assert (K := proper_at evs [] x _ E). apply (proj1 K). apply in_app_iff. right. left. reflexivity.
Qed.
Lemma terminated_over evs u id k w : In O_TERMINATED (m_out (history evs)) -> In (I_MADE u id k w) (m_out (history evs)) -> k <> K_PING -> completions u (m_out (history evs)) = 1%nat.
Proof.
  intros T M N. apply in_split in T as (newer & older & E). assert (Z := terminated_last _ _ _ E). subst newer. cbn [app] in E. assert (F := history_fine evs). rewrite E in *. destruct F as [F F'].
  destruct M as [M|M]; [discriminate|]. rewrite <- (over_completed u id k w older F' M N); [reflexivity|]. apply F. exists id, k, w. exact M.
Qed.
(** ** Operations that are not over *)
Lemma live_heap evs u id k w : In (I_MADE u id k w) (m_out (history evs)) -> ~ over u (m_out (history evs)) ->
  exists r, In r (m_heap (history evs)) /\ q_uid r = u /\ q_id r = id /\ q_kind r = k /\ q_wait r = w.
Proof.
  intros M N. assert (V := s_vi _ (history_SI evs)). destruct (i_all _ V u) as [K|K]; [eexists _, _, _; exact M| |destruct (N K)].
  apply in_map_iff in K as (e & E & K). cbn in K. apply in_map_iff in K as (r & <- & K). exists r. split; [exact K|]. assert (Mr := i_made _ V (ess_of r) (in_map ess_of _ _ K)). cbn in E, Mr. subst u.
  destruct (made_once _ _ _ _ _ _ _ _ (i_fine _ V) Mr M) as (-> & -> & ->). auto.
Qed.
Lemma live_session evs u : m_crash (history evs) = false -> made u (m_out (history evs)) -> ~ over u (m_out (history evs)) -> same_session u (m_out (history evs)).
Proof.
  intros C (id & k & w & M) N. destruct (live_heap evs u id k w M N) as (r & K & <- & _). exact (proj1 (s_fi _ (history_SI evs) C (ess_of r) (in_map ess_of _ _ K))).
Qed.
Lemma live_place evs u : made u (m_out (history evs)) -> ~ over u (m_out (history evs)) -> In u (m_tasks (history evs)) \/ In u (m_ongoing (history evs)) \/ In u (m_pending (history evs)).
Proof.
  intros (id & k & w & M) N. destruct (live_heap evs u id k w M N) as (r & K & <- & _). assert (V := s_vi _ (history_SI evs)).
  assert (P := proj1 (i_places _ V (q_uid r)) (in_map e_uid _ _ (in_map ess_of _ _ K))). unfold places in P. cbn in P. rewrite !in_app_iff in P. tauto.
Qed.
Lemma history_calm evs : m_crash (history evs) = false -> ibody (history evs). Proof. intro C. destruct (history_ib evs); [congruence|assumption]. Qed.
Lemma phase_connected evs : m_crash (history evs) = false -> phase (m_out (history evs)) = CONNECTED -> linked (m_out (history evs)) = true /\ m_pending (history evs) = [] /\ m_net (history evs) = UP.
Proof.
  intros C P. rewrite <- (ph_state _ (history_PH evs)) in P. assert (B := b_connected _ (history_calm evs C) P). split; [apply (s_linked _ (history_SI evs) C P)|tauto].
Qed.
Lemma connected_sent evs u : m_crash (history evs) = false -> phase (m_out (history evs)) = CONNECTED -> m_tasks (history evs) = [] -> made u (m_out (history evs)) -> ~ over u (m_out (history evs)) -> lately u (m_out (history evs)).
Proof.
  intros C P T M N. destruct (phase_connected evs C P) as (L & Pe & _). destruct (live_place evs u M N) as [K|[K|K]]; [rewrite T in K; destruct K| |rewrite Pe in K; destruct K].
  exact (n_ongoing _ (s_nv _ (history_SI evs) C) u K L).
Qed.
Lemma lately_split u l : lately u l -> exists newer p ok older, l = newer ++ O_SEND u p ok :: older /\ (forall x, In x newer -> x <> I_UP /\ (forall e, x <> I_DOWN e)).
Proof.
  induction l as [|x l IH]; [intros []|]. intro H.
  assert (Go : lately u l -> x <> I_UP -> (forall e, x <> I_DOWN e) -> exists newer p ok older, x :: l = newer ++ O_SEND u p ok :: older /\ (forall x, In x newer -> x <> I_UP /\ (forall e, x <> I_DOWN e))).
  { intros K A B. destruct (IH K) as (newer & p & ok & older & -> & F). exists (x :: newer), p, ok, older. split; [reflexivity|]. intros y [<-|J]; auto. }
  destruct x; cbn [lately] in H; try (apply Go; [exact H|discriminate|discriminate]); try contradiction.
  destruct H as [->|H]; [exists [], p, ok, l; split; [reflexivity|intros ? []]|apply Go; [exact H|discriminate|discriminate]].
Qed.
Lemma split_lately u newer p ok older : (forall x, In x newer -> x <> I_UP /\ (forall e, x <> I_DOWN e)) -> lately u (newer ++ O_SEND u p ok :: older).
Proof.
  induction newer as [|x newer IH]; intro F; [left; reflexivity|]. assert (H := IH (fun y K => F y (or_intror K))). destruct (F x (or_introl eq_refl)) as [A B]. cbn [app]. destruct x; cbn [lately]; auto; try congruence; exact (B _ eq_refl).
Qed.
(** a task that is waiting to be run can be *)
Lemma tasks_run evs enc wr : m_crash (history evs) = false -> m_tasks (history evs) <> [] -> enabled (EvRun enc wr) (history evs) = true.
Proof.
  intros C T. cbn. assert (B := history_calm evs C). destruct (m_tasks (history evs)) eqn:E; [congruence|]. rewrite andb_true_r. unfold up. apply net_eqb_true. destruct (m_net (history evs)) eqn:Nt; [| |reflexivity]; destruct (b_gone _ B ltac:(congruence)) as (X & _); congruence.
Qed.
(** ** Time-outs *)
Lemma same_last u newer p ok older newer' p' ok' older' : newer ++ O_SEND u p ok :: older = newer' ++ O_SEND u p' ok' :: older' -> ~ attempted u newer -> ~ attempted u newer' -> ok = ok' /\ older = older'.
Proof.
  revert newer'. induction newer as [|x newer IH]; intros [|y newer'] E N N'; cbn in E.
  - injection E. auto.
  - injection E as E _. destruct N'. exists p, ok. left. symmetry. exact E.
  - injection E as E _. destruct N. exists p', ok'. left. exact E.
  - injection E as Ex E. subst y. apply (IH newer' E); intros (q & b & K); [apply N|apply N']; exists q, b; right; exact K.
Qed.
Lemma find_id_in evs r : In r (m_heap (history evs)) -> find_id (q_id r) (history evs) = Some (q_uid r).
Proof.
  intro K. assert (V := s_vi _ (history_SI evs)). unfold find_id. assert (T := i_table _ V). cbn in T. assert (D := i_ids _ V). cbn in D. rewrite T, !map_map in *. cbn in *. clear T V. induction (m_heap (history evs)) as [|x h IH]; [destruct K|]. cbn in *. inversion D as [|? ? Nx Dh]; subst.
  destruct K as [->|K]; [rewrite N.eqb_refl; reflexivity|]. destruct (q_id x =? q_id r) eqn:E; [|apply IH; assumption]. apply N.eqb_eq in E. destruct Nx. rewrite E. apply in_map_iff. exists r. auto.
Qed.
Lemma get_of evs r : In r (m_heap (history evs)) -> get (q_uid r) (history evs) = Some r.
Proof.
  intro K. assert (V := s_vi _ (history_SI evs)). assert (D := i_uids _ V). cbn in D. rewrite map_map in D. cbn in D. clear V. unfold get. induction (m_heap (history evs)) as [|x h IH]; [destruct K|]. cbn in *. inversion D as [|? ? Nx Dh]; subst. unfold is_uid at 1.
  destruct K as [->|K]; [rewrite N.eqb_refl; reflexivity|]. destruct (q_uid x =? q_uid r) eqn:E; [|apply IH; assumption]. apply N.eqb_eq in E. destruct Nx. rewrite E. apply in_map_iff. exists r. auto.
Qed.
Lemma times_out evs newer older u id k w p :
  m_crash (history evs) = false -> In (I_MADE u id k w) (m_out (history evs)) -> 0 < w < two64 - 1 ->
  m_out (history evs) = newer ++ O_SEND u p true :: older -> ~ attempted u newer -> (forall x, In x newer -> x <> I_UP /\ (forall e, x <> I_DOWN e)) ->
  ~ over u (m_out (history evs)) -> sat_add (clock older) w <= clock (m_out (history evs)) ->
  m_out (history (evs ++ [EvTimeout u])) = O_COMPLETE u id E_TIMEOUT :: m_out (history evs).
Proof.
  intros C M W E At Fl N T. destruct (live_heap evs u id k w M N) as (r & K & <- & <- & <- & <-). assert (SI := history_SI evs). assert (V := s_vi _ SI). assert (NVs := s_nv _ SI C). assert (B := history_calm evs C).
  assert (La : lately (q_uid r) (m_out (history evs))) by (rewrite E; apply split_lately; exact Fl). assert (Li : linked (m_out (history evs)) = true) by (eapply lately_linked; [apply V|exact La]).
  assert (On : In (q_uid r) (m_ongoing (history evs))).
  { destruct (live_place evs (q_uid r)) as [J|[J|J]]; [eexists _, _, _; exact M|exact N| |exact J|]; exfalso; refine (n_others _ NVs (q_uid r) _ Li La); cbn; apply in_app_iff; auto. }
  assert (Nt : ~ In (q_uid r) (m_tasks (history evs))).
  { intro J. refine (n_others _ NVs (q_uid r) _ Li La). cbn. apply in_app_iff. auto. }
  destruct (n_timer _ NVs (ess_of r) (in_map ess_of _ _ K) On Li) as (newer' & p' & ok' & older' & E' & At' & Tm). cbn in E', At', Tm. rewrite E in E'. destruct (same_last _ _ _ _ _ _ _ _ _ E' At At') as [<- <-]. specialize (Tm eq_refl W).
  assert (Up : up (history evs) = true) by (unfold up; apply net_eqb_true; destruct (m_net (history evs)) eqn:Nn; [| |reflexivity]; destruct (b_gone _ B ltac:(congruence)) as (_ & X & _); rewrite X in On; destruct On).
  assert (G := get_of evs r K). assert (Ov : m_over (history evs) = false).
  { destruct (m_over (history evs)) eqn:O; [|reflexivity]. exfalso. apply (ph_gone _ (history_PH evs)) in O. apply N. apply in_split in O as (n1 & n2 & E1). assert (Z := terminated_last _ _ _ E1). subst n1. cbn [app] in E1. assert (F := history_fine evs). rewrite E1 in F, M |- *. destruct F as [F _]. destruct M as [M|M]; [discriminate|]. apply over_skip; [cbn; tauto|]. apply F. eexists _, _, _. exact M. }
  rewrite history_snoc. unfold step. rewrite C, Ov. cbn [orb enabled]. rewrite Up, G. cbn [andb]. unfold due. rewrite Tm. rewrite (s_now _ SI). replace (sat_add (clock older) (q_wait r) <=? clock (m_out (history evs))) with true by (symmetry; apply N.leb_le; exact T).
  cbn [handle]. rewrite G. unfold request_complete. rewrite (find_id_in evs r K), G. replace (existsb (N.eqb (q_uid r)) (m_tasks (history evs))) with false.
  2:{ symmetry. apply not_true_is_false. intro J. apply existsb_exists in J as (x & J & Q). apply N.eqb_eq in Q. subst x. tauto. }
  cbv zeta. unfold tell. assert (Rk : retryable (q_kind r) = true) by (apply (i_retry _ V (ess_of r) (in_map ess_of _ _ K)); left; exact On).
  set (s1 := change (q_uid r) false false (history evs)). assert (E1 : m_out s1 = m_out (history evs)) by (unfold s1, change; rewrite G; destruct (q_size r =? 0); reflexivity). clearbody s1.
  destruct (q_kind r); try discriminate; cbn; rewrite E1; reflexivity.
Qed.
Lemma tasks_parts a b : parts a b -> m_tasks b = m_tasks a. Proof. intros (? & ? & ? & ? & ? & ->). reflexivity. Qed.
Lemma tasks_sends a b : sends a b -> m_tasks b = m_tasks a. Proof. intros (? & ? & ? & ? & ? & ? & ? & ? & ? & ->). reflexivity. Qed.
Lemma tasks_ongoing l s : m_tasks (set_ongoing l s) = m_tasks s. Proof. reflexivity. Qed.
Lemma run_task_tasks enc wr s : m_tasks (run_task enc wr s) = tl (m_tasks s).
Proof.
  unfold run_task. destruct (m_tasks s) as [|u l] eqn:E; [exact E|]. cbv zeta. set (s0 := set_tasks l s). assert (E0 : m_tasks s0 = l) by reflexivity. clearbody s0. cbn [tl].
  destruct (get u s0) as [r|]; [|exact E0]. pose proof (tasks_sends _ _ (sends_send enc wr r s0)) as K. destruct (send enc wr r s0) as [s1 res]. cbn [fst] in K. rewrite E0 in K. clear E0.
  set (s2 := upd _ _ s1). assert (E2 : m_tasks s2 = l) by exact K. clearbody s2. clear K.
  destruct res; try (rewrite (tasks_parts _ _ (parts_finished _ _ s2)); exact E2). rewrite tasks_ongoing, (tasks_parts _ _ (parts_change _ _ _ s2)). exact E2.
Qed.
Lemma run_tasks evs enc wr : m_crash (history evs) = false -> m_over (history evs) = false -> m_tasks (history evs) <> [] -> m_tasks (history (evs ++ [EvRun enc wr])) = tl (m_tasks (history evs)).
Proof.
  intros C O T. pose proof (tasks_run evs enc wr C T) as En. rewrite history_snoc. revert C O En. generalize (history evs) as s. intros s C O En. unfold step. rewrite C, O, En. apply run_task_tasks.
Qed.
