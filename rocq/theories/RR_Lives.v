(** The life of a request: how often it is completed, published and let go of. *)
From Verif Require Import Base Split TopicAlias_Model TopicAlias_Proofs SubSet_Model Topic_Model Paths RR_Model RR_Spec RR_Steps RR_Decomp RR_Subs RR_Flights RR_Kinds RR_Trace RR_OpsTrace.
From Coq Require Import Permutation.

(** [l] is newest first: [id] had been completed when it was taken from the queue *)
Fixpoint early (id : N) (l : list out) : bool :=
  match l with [] => false | x :: l => (takes id x && existsb (completes id) l) || early id l end.
(** ... or when its message was published *)
Fixpoint wasted (id : N) (l : list out) : bool :=
  match l with [] => false | x :: l => (publishes id x && existsb (completes id) l) || wasted id l end.
(** what the client is in the middle of, seen from one operation *)
Inductive role := R_none | R_took (a : acquired) | R_publishing | R_cleaning | R_due.
Definition role_of (g : ghost) (id : N) : role :=
  match g with
  | TOOK o a | TABLED o a => if id =? o_id o then R_took a else R_none
  | PUBLISHING o => if id =? o_id o then R_publishing else R_none
  | CLEANING _ => R_cleaning
  | FAILING l => if existsb (N.eqb id) l then R_due else R_none
  | _ => R_none
  end.
Definition hand (r : role) : nat := match r with R_took _ | R_publishing => 1 | _ => 0 end.
Definition pd (o : op) : nat := if state_is S_PENDING_DESTROY o then 1 else 0.
Definition waits (o : op) : nat := if state_is S_PENDING_SUBSCRIPTION o then 1 else 0.
Record life (r : role) (ph : phase) (q : Prop) (n p i : nat) (e : bool) (o : op) : Prop := {
  l_sub : o_submitting o = true -> o_tracked o = false /\ o_activated o = true;
  l_fresh : o_tracked o = false -> i = 0%nat /\ waits o = 0%nat /\ n = 0%nat /\ (o_kind o = REQUEST -> o_submitting o = true /\ o_state o = S_NONE);
  l_queue : q -> i = 0%nat /\ o_tracked o = true;
  l_act : o_tracked o = true -> o_activated o = true /\ o_submitting o = false;
  l_i : (i <= 1)%nat;
  l_n : (n <= pd o)%nat \/ ((n <= pd o + 1)%nat /\ e = true /\ i = 1%nat /\ (forall a, r <> R_took a));
  l_pd : o_state o = S_PENDING_DESTROY -> (1 <= n)%nat;
  l_ref : o_kind o = REQUEST -> (n = 0%nat -> o_doomed o = false /\ o_refs o = if o_submitting o then 2 else 1) /\ ((1 <= n)%nat -> o_doomed o = true);
  l_timed : o_kind o = REQUEST -> o_tracked o = true -> n = 0%nat -> o_timed o = true;
  l_pub : (p + waits o + hand r <= i)%nat;
  l_took : forall a, r = R_took a -> a = A_SUBSCRIBING \/ a = A_SUBSCRIBED -> (1 <= n)%nat -> e = true;
  l_publ : r = R_publishing -> (1 <= n)%nat -> e = true;
  l_term : o_kind o = REQUEST -> o_state o <> S_TERMINAL;
  l_down : ph <> ACTIVE -> o_kind o = REQUEST -> o_submitting o = false /\ (r <> R_cleaning -> r <> R_due -> (1 <= n)%nat);
  l_tt : o_timed o = true -> o_tracked o = true }.
Definition lives (g : ghost) (s : client) (id : N) (o : op) : Prop :=
  life (role_of g id) (c_phase s) (In id (c_queue s)) (count (completes id) (c_out s)) (count (publishes id) (c_out s)) (count (takes id) (c_out s)) (early id (c_out s)) o.
(** an operation which is no more *)
Definition past (s : client) (id : N) : Prop :=
  let n := count (completes id) (c_out s) in
  (n <= 1)%nat \/ ((n <= 2)%nat /\ early id (c_out s) = true).
Record J7 (g : ghost) (s : client) : Prop := {
  j7_live : forall id o, get_op id s = Some o -> lives g s id o;
  j7_past : forall id, past s id;
  j7_pub : forall id, (count (publishes id) (c_out s) <= count (takes id) (c_out s) <= 1)%nat;
  j7_wasted : forall id, wasted id (c_out s) = true -> early id (c_out s) = true;
  j7_dead : forall id r d, get_op id s = None -> In (I_OPERATION id (W_REQUEST r) d) (c_out s) -> (1 <= count (completes id) (c_out s))%nat;
  j7_new : forall id, c_next s <= id -> count (completes id) (c_out s) = 0%nat /\ count (publishes id) (c_out s) = 0%nat /\ count (takes id) (c_out s) = 0%nat /\ early id (c_out s) = false;
  j7_queue : NoDup (c_queue s) /\ forall id, In id (c_queue s) -> exists o, get_op id s = Some o;
  j7_head : forall o rest, g = TAKING o rest -> exists q, c_queue s = o_id o :: q }.

(** ** Frames *)
Definition about (id : N) (x : out) : bool := completes id x || publishes id x || takes id x.
Lemma count_cons {A} (p : A -> bool) x l : count p (x :: l) = ((if p x then 1 else 0) + count p l)%nat.
Proof. unfold count. cbn [filter]. destruct (p x); reflexivity. Qed.
Lemma count_exists {A} (p : A -> bool) l : existsb p l = (1 <=? count p l)%nat.
Proof. induction l as [|x l IH]; [reflexivity|]. rewrite count_cons. cbn [existsb]. rewrite IH. destruct (p x); reflexivity. Qed.
Lemma not_about id l l0 : Forall (fun x => about id x = false) l ->
  count (completes id) (l ++ l0) = count (completes id) l0 /\ count (publishes id) (l ++ l0) = count (publishes id) l0 /\ count (takes id) (l ++ l0) = count (takes id) l0 /\ early id (l ++ l0) = early id l0 /\ wasted id (l ++ l0) = wasted id l0.
Proof.
  induction l as [|x l IH]; intros H; [auto|]. inversion H as [|? ? Hx Hl]; subst. destruct (IH Hl) as (H1 & H2 & H3 & H4 & H5). unfold about in Hx. apply orb_false_iff in Hx as [Hx Hx3]. apply orb_false_iff in Hx as [Hx1 Hx2].
  cbn [app]. rewrite !count_cons, Hx1, Hx2, Hx3. cbn [early wasted]. rewrite Hx3, Hx2, H4, H5. auto.
Qed.
(** nothing was said of any operation *)
Definition hush (x : out) : Prop := match x with O_COMPLETE _ _ | O_PUBLISH _ _ | O_INTAKE _ _ | I_OPERATION _ _ _ => False | _ => True end.
Lemma hush_about id x : hush x -> about id x = false.
Proof. destruct x; cbn; tauto. Qed.
Lemma hush_all id l : Forall hush l -> Forall (fun x => about id x = false) l.
Proof. apply Forall_impl. intros x. apply hush_about. Qed.
Lemma hush_op l l0 id w d : Forall hush l -> In (I_OPERATION id w d) (l ++ l0) -> In (I_OPERATION id w d) l0.
Proof. intros H K. apply in_app_iff in K as [K|K]; [|assumption]. rewrite Forall_forall in H. destruct (H _ K). Qed.
Lemma j7_frame g s g' s' l : J7 g s -> (forall id, get_op id s' = get_op id s) -> c_next s' = c_next s -> c_phase s' = c_phase s -> c_queue s' = c_queue s -> c_out s' = l ++ c_out s -> Forall hush l ->
  (forall id o, get_op id s = Some o -> role_of g' id = role_of g id) -> (forall o rest, g' = TAKING o rest -> exists q, c_queue s = o_id o :: q) -> J7 g' s'.
Proof.
  intros [H1 H2 H3 HW H4 H5 H6 H7] Hg Hn Hp Hq Ho Hl Hr Ht. assert (Hc := fun id => not_about id l (c_out s) (hush_all id l Hl)). rewrite <- Ho in Hc. constructor.
  - intros id o. rewrite Hg. intros E. unfold lives. destruct (Hc id) as (-> & -> & -> & -> & _). rewrite Hp, Hq, (Hr _ _ E). apply H1. assumption.
  - intros id. unfold past. destruct (Hc id) as (-> & _ & _ & -> & _). apply H2.
  - intros id. destruct (Hc id) as (_ & -> & -> & _). apply H3.
  - intros id. destruct (Hc id) as (_ & _ & _ & -> & ->). apply HW.
  - intros id r d. rewrite Hg. intros E Hi. destruct (Hc id) as (-> & _). eapply H4; [eassumption|]. rewrite Ho in Hi. eapply hush_op; eassumption.
  - intros id. rewrite Hn. intros Hi. destruct (Hc id) as (-> & -> & -> & -> & _). apply H5. assumption.
  - rewrite Hq. split; [apply H6|]. intros id Hi. rewrite Hg. apply H6. assumption.
  - intros o rest E. rewrite Hq. eapply Ht. eassumption.
Qed.
(** one operation changes *)
Lemma j7_one g s g' s' id o o' l : J7 g s -> get_op id s = Some o -> (forall i, get_op i s' = if i =? id then Some o' else get_op i s) -> c_next s' = c_next s -> c_phase s' = c_phase s ->
  c_out s' = l ++ c_out s -> (forall i, i <> id -> Forall (fun x => about i x = false) l) -> (forall i w d, ~ In (I_OPERATION i w d) l) ->
  (forall i, i <> id -> In i (c_queue s') <-> In i (c_queue s)) -> NoDup (c_queue s') ->
  (forall i o, i <> id -> get_op i s = Some o -> role_of g' i = role_of g i) -> (forall o rest, g' <> TAKING o rest) ->
  (wasted id (c_out s') = true -> early id (c_out s') = true) -> lives g' s' id o' -> o_id o' = o_id o -> c_next s > id -> J7 g' s'.
Proof.
  intros [H1 H2 H3 HW H4 H5 H6 H7] Hid Hg Hn Hp Ho Ha Hi Hq Hnd Hr Ht Hwa Hl Hi' Hlt. assert (Hc := fun i (E : i <> id) => not_about i l (c_out s) (Ha i E)). rewrite <- Ho in Hc. constructor.
  - intros i x. rewrite Hg. destruct (N.eqb_spec i id) as [->|E]; [intros [= <-]; assumption|]. intros Hx. unfold lives. destruct (Hc i E) as (-> & -> & -> & -> & _). rewrite Hp, (Hr i x E Hx).
    destruct (H1 i x Hx). constructor; auto. intros K. apply Hq in K; auto.
  - intros i. unfold past. destruct (N.eqb_spec i id) as [->|E]; [|destruct (Hc i E) as (-> & _ & _ & -> & _); apply H2].
    destruct (l_n _ _ _ _ _ _ _ _ Hl) as [K|(K & -> & _)]; unfold pd in K; destruct (state_is _ _); [left|left|right|right]; lia || (split; [lia|reflexivity]).
  - intros i. destruct (N.eqb_spec i id) as [->|E]; [|destruct (Hc i E) as (_ & -> & -> & _); apply H3]. pose proof (l_pub _ _ _ _ _ _ _ _ Hl). pose proof (l_i _ _ _ _ _ _ _ _ Hl). lia.
  - intros i. destruct (N.eqb_spec i id) as [->|E]; [assumption|]. destruct (Hc i E) as (_ & _ & _ & -> & ->). apply HW.
  - intros i r d. rewrite Hg. destruct (N.eqb_spec i id) as [->|E]; [discriminate|]. intros K Hin. destruct (Hc i E) as (-> & _). eapply H4; [eassumption|]. rewrite Ho in Hin. apply in_app_iff in Hin as [Hin|Hin]; [destruct (Hi _ _ _ Hin)|eassumption].
  - intros i. rewrite Hn. intros K. destruct (Hc i ltac:(lia)) as (-> & -> & -> & -> & _). apply H5. assumption.
  - split; [assumption|]. intros i K. rewrite Hg. destruct (N.eqb_spec i id) as [->|E]; [eauto|]. apply H6, Hq; assumption.
  - intros x rest E. destruct (Ht _ _ E).
Qed.

Lemma unref_id o : o_id (unref o) = o_id o.
Proof. unfold unref. destruct (o_refs o =? 1); reflexivity. Qed.
Lemma upd_one id h s o : get_op id s = Some o -> (forall x, o_id (h x) = o_id x) -> forall i, get_op i (upd_op id h s) = if i =? id then Some (h o) else get_op i s.
Proof. intros Ho Hh i. rewrite get_op_upd by assumption. destruct (N.eqb_spec i id) as [->|]; [rewrite Ho|]; reflexivity. Qed.
(** successive changes of the same operation *)
Lemma upd_more id h s s1 o o1 : get_op id s = Some o -> (forall i, get_op i s1 = if i =? id then Some o1 else get_op i s) -> (forall x, o_id (h x) = o_id x) ->
  forall i, get_op i (upd_op id h s1) = if i =? id then Some (h o1) else get_op i s.
Proof. intros Ho H1 Hh i. rewrite get_op_upd by assumption. rewrite H1. destruct (i =? id); reflexivity. Qed.
Lemma completed_get o r s : get_op (o_id o) s = Some o -> forall i, get_op i (completed o r s) = if i =? o_id o then Some (unref (set_state S_PENDING_DESTROY o)) else get_op i s.
Proof.
  intros Ho. unfold completed, release. eapply upd_more; [exact Ho| |apply unref_id]. intros i. change (get_op i s) with (get_op i (emit (O_COMPLETE (o_id o) r) s)). apply upd_one; [exact Ho|reflexivity].
Qed.
Lemma halted_get o e s : get_op (o_id o) s = Some o -> forall i, get_op i (halted o e s) = if i =? o_id o then Some (set_state S_TERMINAL o) else get_op i s.
Proof. intros Ho i. unfold halted. change (get_op i s) with (get_op i (emit (O_STATUS (o_id o) (S_HALTED e)) s)). apply (upd_one (o_id o) (set_state S_TERMINAL)); [exact Ho|reflexivity]. Qed.
Lemma wake_get now s i : get_op i (wake now s) = get_op i s.
Proof. unfold get_op. rewrite (proj1 (proj2 (proj2 (proj2 (proj2 (proj2 (wake_frame now s))))))). reflexivity. Qed.
Lemma submitted_get id now s o : get_op id s = Some o -> forall i, get_op i (submitted id now s) = if i =? id then
    Some (unref (set_state S_QUEUED (set_timed (match o_kind o with REQUEST => true | STREAM => false end) (set_tracked true (set_submitting false o))))) else get_op i s.
Proof.
  intros Ho. unfold submitted, release. eapply upd_more; [exact Ho| |apply unref_id]. intros i. rewrite wake_get. change (get_op i (emit ?x ?y)) with (get_op i y).
  eapply upd_more; [exact Ho| |reflexivity]. intros j. change (get_op j (set_queue ?x ?y)) with (get_op j y).
  apply (upd_more id (fun o0 => set_timed match o_kind o0 with REQUEST => true | STREAM => false end (set_tracked true o0)) s (upd_op id (set_submitting false) s) o (set_submitting false o) Ho); [|reflexivity].
  apply upd_one; [exact Ho|reflexivity].
Qed.
Lemma add_paths_ops l s : c_ops (fold_left add_path l s) = c_ops s /\ c_queue (fold_left add_path l s) = c_queue s.
Proof. revert s. induction l as [|p l IH]; intros s; [split; reflexivity|]. cbn [fold_left]. destruct (IH (add_path s p)) as (-> & ->). unfold add_path. destruct (find_key _ _) as [[? ?]|]; split; reflexivity. Qed.
Lemma drop_paths_ops l s : c_ops (fold_left drop_path l s) = c_ops s /\ c_queue (fold_left drop_path l s) = c_queue s.
Proof. revert s. induction l as [|p l IH]; intros s; [split; reflexivity|]. cbn [fold_left]. destruct (IH (drop_path s p)) as (-> & ->). unfold drop_path. destruct (find_key _ _) as [[? ?]|]; split; reflexivity. Qed.
Lemma add_tables_get o x s : get_op (o_id o) s = Some x -> forall i, get_op i (add_tables o s) = if i =? o_id o then Some (set_tables true x) else get_op i s.
Proof.
  intros Ho i. unfold add_tables. apply (upd_more (o_id o) (set_tables true) s _ x x Ho); [|reflexivity]. intros j.
  transitivity (get_op j s); [|destruct (N.eqb_spec j (o_id o)) as [->|]; [assumption|reflexivity]]. unfold get_op. destruct (o_work o); cbn [c_ops set_tokens set_streams]; [rewrite (proj1 (add_paths_ops _ _))|]; reflexivity.
Qed.
Lemma add_tables_queue o s : c_queue (add_tables o s) = c_queue s.
Proof. unfold add_tables. destruct (o_work o); cbn [upd_op set_ops c_queue set_tokens set_streams]; [rewrite (proj2 (add_paths_ops _ _))|]; reflexivity. Qed.
Lemma untabled_ops o s : c_ops (untabled o s) = c_ops s /\ c_queue (untabled o s) = c_queue s.
Proof. unfold untabled. destruct (o_work o); [|split; reflexivity]. destruct (o_tables o); [|split; reflexivity]. split; [rewrite (proj1 (drop_paths_ops _ _))|rewrite (proj2 (drop_paths_ops _ _))]; reflexivity. Qed.
Lemma fail_get id e s o : get_op id s = Some o -> (c_ops (fail id e s) = c_ops s /\ c_out (fail id e s) = c_out s /\ (o_state o = S_PENDING_DESTROY \/ o_kind o = STREAM)) \/
   (o_kind o = REQUEST /\ o_state o <> S_PENDING_DESTROY /\ fail id e s = completed o (FAILED e) s) \/ (o_kind o = STREAM /\ o_state o <> S_PENDING_DESTROY /\ o_state o <> S_TERMINAL /\ fail id e s = halted o e s).
Proof.
  intros Ho. unfold fail. rewrite Ho. unfold complete, halt. destruct (o_kind o) eqn:Ek.
  - destruct (state_is S_PENDING_DESTROY o) eqn:Es; [apply state_is_spec in Es; auto|]. apply state_is_not in Es. right. left. auto.
  - destruct (state_is S_PENDING_DESTROY o || state_is S_TERMINAL o) eqn:Es; [auto|]. apply orb_false_iff in Es as [Es' Es]. apply state_is_not in Es. apply state_is_not in Es'. right. right. auto.
Qed.

(** ** Steps *)
Definition ghost_ok (g : ghost) (s : client) : Prop :=
  match g with
  | TOOK o _ | TABLED o _ | PUBLISHING o | REFUSED o => (1 <= count (takes (o_id o)) (c_out s))%nat
  | CLOSED o => o_kind o = STREAM /\ c_phase s <> ACTIVE
  | CLEANING _ | FAILING _ => c_phase s <> ACTIVE
  | _ => True
  end.
Record J8 (g : ghost) (s : client) : Prop := {
  j8_tokens : forall t id, find_key t (c_tokens s) = Some id -> (1 <= count (takes id) (c_out s))%nat;
  j8_ghost : ghost_ok g s }.
Lemma takes_later id l l0 : (count (takes id) l0 <= count (takes id) (l ++ l0))%nat.
Proof. unfold count. rewrite filter_app, app_length. lia. Qed.
Lemma j8_frame g s g' s' l : J8 g s -> c_tokens s' = c_tokens s -> c_out s' = l ++ c_out s -> ghost_ok g' s' -> J8 g' s'.
Proof. intros [H1 H2] Ht Ho Hg. constructor; [|assumption]. intros t id. rewrite Ht, Ho. intros K. apply H1 in K. pose proof (takes_later id l (c_out s)). lia. Qed.
Lemma j8_same g s g' s' l : J8 g s -> c_tokens s' = c_tokens s -> c_out s' = l ++ c_out s -> (c_phase s <> ACTIVE -> c_phase s' <> ACTIVE) -> (ghost_ok g s -> ghost_ok g' s) -> J8 g' s'.
Proof.
  intros J Ht Ho Hp Hg. eapply j8_frame; [exact J|exact Ht|exact Ho|]. destruct J as [_ J]. apply Hg in J. destruct g'; cbn [ghost_ok] in *; auto; try (rewrite Ho; match goal with |- (_ <= count (takes ?i) _)%nat => pose proof (takes_later i l (c_out s)) end; lia).
  split; [apply J|apply Hp, J].
Qed.
Lemma add_paths_tokens l s : c_tokens (fold_left add_path l s) = c_tokens s.
Proof. revert s. induction l as [|p l IH]; intros s; [reflexivity|]. cbn [fold_left]. rewrite IH. unfold add_path. destruct (find_key _ _) as [[? ?]|]; reflexivity. Qed.
Lemma drop_paths_tokens l s : c_tokens (fold_left drop_path l s) = c_tokens s.
Proof. revert s. induction l as [|p l IH]; intros s; [reflexivity|]. cbn [fold_left]. rewrite IH. unfold drop_path. destruct (find_key _ _) as [[? ?]|]; reflexivity. Qed.
Ltac k0 := solve [eapply (j8_same _ _ _ _ []); [eassumption|reflexivity|reflexivity|cbn; auto|cbn [ghost_ok]; auto]].
Ltac k1 := solve [match goal with |- J8 _ ?s' => let x := eval cbn [completed halted subscribing unsubscribing told activate_stream release upd_op upd_sub set_ops set_subs set_queue set_flights set_publishes set_events set_connected set_scheduled set_phase emit c_out] in (c_out s') in match x with ?y :: _ =>
  eapply (j8_same _ _ _ _ [y]); [eassumption|reflexivity|reflexivity|cbn; auto; fail|cbn [ghost_ok]; auto] end end].
Lemma takes_one id a l : (1 <= count (takes id) (O_INTAKE id a :: l))%nat.
Proof. rewrite count_cons. cbn [takes]. rewrite N.eqb_refl. lia. Qed.
Lemma J8_step cf g s g' s' : J2 g s -> J7 g s -> J8 g s -> big cf (g, s) (g', s') -> J8 g' s'.
Proof.
  intros HJ2 HJ7 J B. inversion B as [x y P|s0 Ha Hs|s0 Hp Ho He Hu]; subst.
  2: { eapply (j8_frame _ _ _ _ [I_SHUTDOWN]); [eassumption|reflexivity|reflexivity|discriminate]. }
  2: { eapply (j8_frame _ _ _ _ [O_TERMINATED]); [eassumption|reflexivity|reflexivity|exact I]. }
  clear B. inversion P; subst; try k0; try k1.
  - eapply (j8_same _ _ _ _ [I_OPERATION (c_next s) w (o_deadline (new_op cf now w s))]); [eassumption|rewrite create_shape by assumption; reflexivity|rewrite create_shape by assumption; reflexivity|rewrite create_shape by assumption; auto|auto].
  - eapply (j8_same _ _ _ _ [I_QUEUED id]); [eassumption| |apply submitted_out| |auto]; unfold submitted; cbn [release upd_op set_ops c_tokens c_phase]; [rewrite (proj1 (proj2 (proj2 (proj2 (proj2 (wake_frame now _))))))|rewrite wake_phase]; auto.
  - eapply (j8_frame _ _ _ _ []); [eassumption|reflexivity|reflexivity|]. match goal with H : get_op id s = Some o |- _ => rename H into Ho end. match goal with H : c_phase s <> ACTIVE |- _ => rename H into Hp end. split; [|exact Hp].
    destruct (o_kind o) eqn:Ek; [|reflexivity]. destruct (l_down _ _ _ _ _ _ _ _ (j7_live _ _ HJ7 _ _ Ho) Hp Ek) as [K _]. congruence.
  - set (s1 := upd_op _ _ s). destruct (fail_shape (o_id o) E_TIMEOUT s1) as (l & F1 & F2 & F3 & F4). apply rest_inj in F3 as (_ & _ & _ & _ & _ & F3 & _ & _ & _ & _ & _ & F5). eapply (j8_same _ _ _ _ l); [eassumption|exact F3|exact F1|rewrite F5; auto|auto].
  - eapply (j8_frame _ _ _ _ [O_INTAKE id a]); [eassumption|reflexivity|reflexivity|]. match goal with H : get_op id s = Some o |- _ => apply get_op_id in H; subst id end. apply takes_one.
  - destruct (listen_frame (o_kind o) (o_id o) s f) as (A1 & A2 & A3 & A4 & A5 & _). eapply (j8_same _ _ _ _ []); [eassumption|exact A5|apply listen_out|rewrite A4; auto|auto].
  - eapply (j8_frame _ _ _ _ [O_INTAKE (o_id o) a]); [eassumption|reflexivity|reflexivity|apply takes_one].
  - destruct (add_tables_frame o s) as (_ & _ & _ & _ & _ & A6 & _ & A8). constructor; [|cbn [ghost_ok]; rewrite A8; apply (j8_ghost _ _ J)]. intros t id. rewrite A6, A8. destruct (o_work o) as [r|]; [|apply (j8_tokens _ _ J)].
    rewrite find_put. destruct (bytes_eqb _ _); [intros [= <-]; apply (j8_ghost _ _ J)|apply (j8_tokens _ _ J)].
  - eapply (j8_same _ _ _ _ []); [eassumption|apply (proj1 (proj2 (proj2 (proj2 (proj2 (wake_frame now s))))))|apply wake_out|rewrite wake_phase; auto|auto].
  - eapply (j8_frame _ _ _ _ []); [eassumption|reflexivity|reflexivity|]. match goal with H : get_op id s = Some o |- _ => rename H into Ho end. pose proof (get_op_id _ _ _ Ho) as <-.
    pose proof (l_pub _ _ _ _ _ _ _ _ (j7_live _ _ HJ7 _ _ Ho)) as K. unfold waits in K. match goal with H : o_state o = S_PENDING_SUBSCRIPTION |- _ => apply state_is_spec in H; rewrite H in K end. cbn [ghost_ok c_out upd_op set_ops]. lia.
  - destruct (o_state o); k1.
  - destruct (streamed_emits topic payload (emit (I_MESSAGE topic payload j) s)) as (l & -> & Hl). eapply (j8_same _ _ _ _ (l ++ [I_MESSAGE topic payload j])); [eassumption|reflexivity|cbn [emits c_out emit]; rewrite <- app_assoc; reflexivity|auto|auto].
  - destruct (unlisten_frame (o_id o) s f) as (A1 & A2 & A3 & A4 & A5 & _). eapply (j8_same _ _ _ _ []); [eassumption|exact A5|apply unlisten_out|rewrite A4; auto|auto].
  - destruct (untabled_frame o s) as (_ & _ & _ & _ & _ & A6 & _ & A8 & _). constructor; [|exact I]. intros t id. cbn [emit c_tokens c_out]. rewrite A6, A8, count_cons. cbn [takes]. intros K. apply (j8_tokens _ _ J t).
    destruct (o_work o) as [r|]; [|exact K]. destruct (o_tables o); [|exact K]. destruct (bytes_eqb (r_token r) t) eqn:E.
    + apply bytes_eqb_spec in E. subst t. rewrite find_remove_same in K. discriminate.
    + apply bytes_eqb_false in E. rewrite find_remove_other in K by auto. exact K.
Qed.

Lemma life_complete r ph q n p i e o : life r ph q n p i e o -> o_kind o = REQUEST -> o_state o <> S_PENDING_DESTROY -> o_tracked o = true -> (forall a, r = R_took a -> a = A_FAILURE \/ a = A_NO_CAPACITY) -> r <> R_publishing ->
  life r ph q (S n) p i e (unref (set_state S_PENDING_DESTROY o)).
Proof.
  intros [L1 L2 L3 L4 L5 L6 L7 L8 L9 L10 L11 LP L12 L13 L14] Hk Hs Ht Hr Hrp. destruct (L8 Hk) as [L8a L8b]. destruct (L4 Ht) as [L4a L4b].
  assert (Hpd : pd o = 0%nat) by (unfold pd; destruct (state_is _ _) eqn:E; [apply state_is_spec in E; contradiction|reflexivity]).
  assert (Hdoom : o_doomed (unref (set_state S_PENDING_DESTROY o)) = true).
  { unfold unref. cbn [o_refs set_state]. destruct n as [|n]; [destruct (L8a eq_refl) as [_ ->]; rewrite L4b; reflexivity|]. destruct (o_refs o =? 1); [reflexivity|cbn; apply L8b; lia]. }
  assert (Hf : forall A (h : op -> A), (forall x y, h (set_refs x y) = h y) -> (forall x y, h (set_doomed x y) = h y) -> h (unref (set_state S_PENDING_DESTROY o)) = h (set_state S_PENDING_DESTROY o)).
  { intros A h K1 K2. unfold unref. destruct (_ =? 1); [rewrite K2|]; apply K1. }
  constructor; rewrite ?(Hf _ o_submitting), ?(Hf _ o_tracked), ?(Hf _ o_activated), ?(Hf _ o_kind), ?(Hf _ o_state), ?(Hf _ o_timed), ?(Hf _ pd), ?(Hf _ waits), ?Hdoom by reflexivity;
    cbn [set_state o_submitting o_tracked o_activated o_timed o_state]; change (o_kind (set_state _ o)) with (o_kind o); change (pd (set_state _ _)) with 1%nat; change (waits (set_state _ _)) with 0%nat; intros; try congruence; auto; try lia.
  - rewrite Hpd in L6. destruct L6 as [L6|(L6 & K)]; [left; lia|right; split; [lia|exact K]].
  - destruct (Hr _ H) as [->| ->]; destruct H0; discriminate.
Qed.
Lemma life_halt r ph q n p i e o : life r ph q n p i e o -> o_kind o = STREAM -> o_state o <> S_PENDING_DESTROY -> life r ph q n p i e (set_state S_TERMINAL o).
Proof.
  intros [L1 L2 L3 L4 L5 L6 L7 L8 L9 L10 L11 LP L12 L13 L14] Hk Hs. assert (Hpd : pd o = 0%nat) by (unfold pd; destruct (state_is _ _) eqn:E; [apply state_is_spec in E; contradiction|reflexivity]). rewrite Hpd in *.
  constructor; change (o_kind (set_state _ o)) with (o_kind o); cbn [set_state o_submitting o_tracked o_activated o_timed o_state o_doomed o_refs]; change (pd (set_state _ _)) with 0%nat; change (waits (set_state _ _)) with 0%nat; intros; try congruence; auto; try lia.
  destruct (L2 H) as (K1 & K2 & K3 & K4). repeat split; auto; congruence.
Qed.
(** fields the client's conduct does not depend on *)
Definition core (o : op) := (o_kind o, o_state o, o_refs o, o_tracked o, o_timed o, o_submitting o, o_doomed o, o_activated o).
Lemma life_core r ph q n p i e o o' : life r ph q n p i e o -> core o' = core o -> life r ph q n p i e o'.
Proof.
  intros [L1 L2 L3 L4 L5 L6 L7 L8 L9 L10 L11 LP L12 L13 L14] H. unfold core in H. injection H as E1 E2 E3 E4 E5 E6 E7 E8.
  constructor; unfold pd, waits, state_is in *; rewrite ?E1, ?E2, ?E3, ?E4, ?E5, ?E6, ?E7, ?E8; auto.
Qed.
Lemma life_role r r' ph q n p i e o : life r ph q n p i e o -> (hand r' <= hand r)%nat -> (forall a, r' = R_took a -> r = R_took a) -> (r' = R_publishing -> (1 <= n)%nat -> e = true) -> (r = R_cleaning \/ r = R_due -> r' = R_cleaning \/ r' = R_due \/ (ph <> ACTIVE -> o_kind o = REQUEST -> (1 <= n)%nat)) -> life r' ph q n p i e o.
Proof.
  intros [L1 L2 L3 L4 L5 L6 L7 L8 L9 L10 L11 LP L12 L13 L14] Hh Ht Hpb Hd. constructor; auto.
  - destruct L6 as [L6|(K1 & K2 & K3 & K4)]; [auto|]. right. repeat split; auto. intros a E. apply (K4 a). auto.
  - lia.
  - intros a E. apply L11. auto.
  - intros K1 K2. destruct (L13 K1 K2) as [K3 K4]. split; [assumption|]. intros K5 K6. destruct r; try (apply K4; discriminate).
    + destruct Hd as [K|[K|K]]; auto; contradiction.
    + destruct Hd as [K|[K|K]]; auto; contradiction.
Qed.
Lemma life_state r r' ph q n p i e o x : life r ph q n p i e o -> o_kind o = STREAM \/ x <> S_TERMINAL -> x <> S_PENDING_DESTROY -> o_tracked o = true -> o_state o <> S_PENDING_DESTROY \/ e = true -> (n <= pd o)%nat \/ o_state o <> S_PENDING_DESTROY ->
  (1 <= n -> i = 1)%nat ->
  (waits (set_state x o) + hand r' <= waits o + hand r)%nat -> (forall a, r' <> R_took a) -> (r' = R_publishing -> (1 <= n)%nat -> e = true) -> r' <> R_cleaning -> r' <> R_due -> r <> R_cleaning -> r <> R_due -> life r' ph q n p i e (set_state x o).
Proof.
  intros [L1 L2 L3 L4 L5 L6 L7 L8 L9 L10 L11 LP L12 L13 L14] Hk Hx Ht He Hp Hi Hw Hr1 Hpb Hr2 Hr3 Hr4 Hr5.
  assert (Hpd : pd (set_state x o) = 0%nat) by (destruct x; try reflexivity; contradiction).
  constructor; change (o_kind (set_state _ o)) with (o_kind o); cbn [set_state o_submitting o_tracked o_activated o_timed o_state o_doomed o_refs] in *; rewrite ?Hpd; intros; try congruence; auto.
  - destruct n as [|n]; [left; lia|]. destruct L6 as [L6|(K1 & K2 & K3 & K4)].
    + unfold pd in L6. destruct (state_is S_PENDING_DESTROY o) eqn:E; [|lia]. apply state_is_spec in E. destruct He as [He|He]; [contradiction|]. right. assert (i = 1%nat) by (apply Hi; lia). split; [lia|auto].
    + unfold pd in K1. destruct (state_is S_PENDING_DESTROY o) eqn:E.
      * apply state_is_spec in E. destruct Hp as [Hp|Hp]; [|contradiction]. unfold pd in Hp. rewrite (proj2 (state_is_spec _ _) E) in Hp. right. repeat split; auto; lia.
      * right. repeat split; auto.
  - lia.
  - destruct Hk; congruence.
  - destruct (L13 H H0) as [K1 K2]. split; [assumption|]. auto.
Qed.

Lemma j7_op g s g' s' id o o' l : J2 g s -> J7 g s -> get_op id s = Some o -> (forall i, get_op i s' = if i =? id then Some o' else get_op i s) -> c_next s' = c_next s -> c_phase s' = c_phase s -> c_queue s' = c_queue s ->
  c_out s' = l ++ c_out s -> Forall hush l -> (forall i o, i <> id -> get_op i s = Some o -> role_of g' i = role_of g i) -> (forall o rest, g' <> TAKING o rest) -> o_id o' = o_id o ->
  life (role_of g' id) (c_phase s) (In id (c_queue s)) (count (completes id) (c_out s)) (count (publishes id) (c_out s)) (count (takes id) (c_out s)) (early id (c_out s)) o' -> J7 g' s'.
Proof.
  intros HJ2 J Ho Hg Hn Hp Hq Hout Hl Hr Ht Hid L. destruct (not_about id l (c_out s) (hush_all id l Hl)) as (A1 & A2 & A3 & A4 & A5). rewrite <- Hout in A1, A2, A3, A4, A5.
  eapply j7_one; try eassumption.
  - intros i _. apply hush_all. assumption.
  - intros i w d K. rewrite Forall_forall in Hl. apply (Hl _ K).
  - intros i _. rewrite Hq. tauto.
  - rewrite Hq. apply (j7_queue _ _ J).
  - rewrite A4, A5. apply (j7_wasted _ _ J).
  - unfold lives. rewrite A1, A2, A3, A4, Hp, Hq. exact L.
  - pose proof (j2_next _ _ HJ2 _ _ Ho). lia.
Qed.
Lemma life_stream r ph q n p i e o o' : life r ph q n p i e o -> o_kind o = STREAM -> o_kind o' = STREAM -> o_state o' = o_state o -> o_tracked o' = o_tracked o -> o_timed o' = o_timed o ->
  (o_submitting o' = true -> o_tracked o = false /\ o_activated o' = true) -> (o_activated o = true -> o_activated o' = true) -> life r ph q n p i e o'.
Proof.
  intros [L1 L2 L3 L4 L5 L6 L7 L8 L9 L10 L11 LP L12 L13 L14] Hk Hk' E2 E4 E5 E6 E8. constructor; unfold pd, waits, state_is in *; rewrite ?Hk', ?E2, ?E4, ?E5; auto; try congruence.
  - intros K. destruct (L2 K) as (K1 & K2 & K3 & _). repeat split; auto; discriminate.
  - intros K. destruct (L4 K) as (K1 & K2). split; [auto|]. destruct (o_submitting o') eqn:E; [|reflexivity]. destruct (E6 eq_refl). congruence.
Qed.
Lemma unref_stream r ph q n p i e o : life r ph q n p i e o -> o_kind o = STREAM -> life r ph q n p i e (unref o).
Proof.
  intros L Hk. assert (U : forall A (h : op -> A), (forall x y, h (set_refs x y) = h y) -> (forall x y, h (set_doomed x y) = h y) -> h (unref o) = h o) by (intros A h K1 K2; unfold unref; destruct (_ =? 1); [rewrite K2|]; apply K1).
  eapply life_stream; [exact L|exact Hk|rewrite (U _ o_kind); auto|apply (U _ o_state)|apply (U _ o_tracked)|apply (U _ o_timed)| |]; auto.
  - rewrite (U _ o_submitting), (U _ o_activated) by reflexivity. apply (l_sub _ _ _ _ _ _ _ _ L).
  - rewrite (U _ o_activated) by reflexivity. auto.
Qed.
Lemma life_taken r ph q n p i e o : life r ph q n p i e o -> (1 <= i)%nat -> o_tracked o = true.
Proof. intros L Hi. destruct (o_tracked o) eqn:E; [reflexivity|]. destruct (l_fresh _ _ _ _ _ _ _ _ L E) as (K & _). lia. Qed.
Lemma other_role g i : (forall o a, g = TOOK o a \/ g = TABLED o a -> i <> o_id o) -> (forall o, g = PUBLISHING o -> i <> o_id o) -> (forall l, g <> CLEANING l) -> (forall l, g <> FAILING l) -> role_of g i = R_none.
Proof.
  intros H1 H2 H3 H4. destruct g; try reflexivity; cbn [role_of].
  - rewrite (proj2 (N.eqb_neq _ _) (H1 _ _ (or_introl eq_refl))). reflexivity.
  - rewrite (proj2 (N.eqb_neq _ _) (H1 _ _ (or_intror eq_refl))). reflexivity.
  - rewrite (proj2 (N.eqb_neq _ _) (H2 _ eq_refl)). reflexivity.
  - destruct (H3 _ eq_refl).
  - destruct (H4 _ eq_refl).
Qed.
Lemma role_self o a i : role_of (TOOK o a) (o_id o) = R_took a /\ role_of (TABLED o a) (o_id o) = R_took a /\ role_of (PUBLISHING o) (o_id o) = R_publishing /\
  (i <> o_id o -> role_of (TOOK o a) i = R_none /\ role_of (TABLED o a) i = R_none /\ role_of (PUBLISHING o) i = R_none).
Proof. cbn [role_of]. rewrite N.eqb_refl. repeat split; rewrite (proj2 (N.eqb_neq _ _) H); reflexivity. Qed.
(** what is needed to make a request complete *)
Lemma cause_tracked g o r s : J2 g s -> J8 g s -> J7 g s -> get_op (o_id o) s = Some o -> o_kind o = REQUEST -> cause g o r s -> o_tracked o = true.
Proof.
  intros HJ2 [T G] J Ho Hk C. pose proof (j7_live _ _ J _ _ Ho) as L. inversion C; subst; cbn [ghost_ok] in G; auto.
  - eapply life_taken; [exact L|]. match goal with H : o_id _ = o_id o |- _ => rewrite H in G end. exact G.
  - eapply life_taken; [exact L|]. match goal with H : o_id _ = o_id o |- _ => rewrite H in G end. exact G.
  - destruct (o_tracked o) eqn:E; [reflexivity|]. destruct (l_fresh _ _ _ _ _ _ _ _ L E) as (_ & _ & _ & K). destruct (K Hk) as (K1 & _). destruct (l_down _ _ _ _ _ _ _ _ L G Hk) as [K2 _]. congruence.
  - match goal with H : o_id ?x = o_id o |- _ => destruct (j2_ghost _ _ HJ2 x eq_refl) as (o' & Ho' & Hw); rewrite H, Ho in Ho' end. injection Ho' as <-. destruct G as [G _]. unfold o_kind in *. congruence.
  - eapply life_taken; [exact L|]. eapply T. eassumption.
Qed.

Ltac q0 := solve [eapply (j7_frame _ _ _ _ []); [eassumption|intros; reflexivity|reflexivity|reflexivity|reflexivity|reflexivity|constructor|intros; reflexivity|first [discriminate|solve [eapply j7_head; eassumption]|solve [intros ? ? [= <- <-]; eapply j7_head; [eassumption|reflexivity]]]]].
Ltac q1 := solve [match goal with |- J7 _ ?s' => let x := eval cbn [completed halted subscribing unsubscribing told activate_stream release upd_op upd_sub set_ops set_subs set_queue set_flights set_publishes set_events set_connected set_scheduled set_phase emit c_out] in (c_out s') in match x with ?y :: _ =>
  eapply (j7_frame _ _ _ _ [y]); [eassumption|intros; reflexivity|reflexivity|reflexivity|reflexivity|reflexivity|constructor; [exact I|constructor]|intros; reflexivity|first [discriminate|solve [eapply j7_head; eassumption]]] end end].
Lemma earliest_spec l : match earliest l with
  | Some o => In o l /\ o_timed o = true /\ forall x, In x l -> o_timed x = true -> o_deadline o <= o_deadline x
  | None => forall x, In x l -> o_timed x = false end.
Proof.
  unfold earliest. assert (H : forall l a, match fold_left (fun a o => earlier a (Some o)) l a with
    | Some o => (In o l \/ a = Some o) /\ (forall x, In x l \/ a = Some x -> o_deadline o <= o_deadline x) | None => l = [] /\ a = None end).
  { clear l. induction l as [|y l IH]; intros a; cbn [fold_left].
    - destruct a as [o|]; [|auto]. split; [auto|]. intros x [[]|[= <-]]. lia.
    - specialize (IH (earlier a (Some y))). destruct (fold_left _ l _) as [o|].
      + destruct IH as [I1 I2]. destruct a as [z|]; cbn [earlier] in *.
        * destruct (N.ltb_spec (o_deadline y) (o_deadline z)).
          -- split; [destruct I1 as [I1|[= <-]]; cbn [In]; auto|]. intros x [[->|Hx]|[= <-]]; [apply I2; auto|apply I2; auto|]. pose proof (I2 y (or_intror eq_refl)). lia.
          -- split; [destruct I1 as [I1|[= <-]]; cbn [In]; auto|]. intros x [[->|Hx]|[= <-]]; [|apply I2; auto|apply I2; auto]. pose proof (I2 z (or_intror eq_refl)). lia.
        * split; [destruct I1 as [I1|[= <-]]; cbn [In]; auto|]. intros x [[->|Hx]|[=]]; apply I2; auto.
      + destruct IH as [_ IH]. exfalso. destruct a as [z|]; cbn [earlier] in IH; [destruct (_ <? _)|]; discriminate. }
  specialize (H (filter o_timed l) None). destruct (fold_left _ _ None) as [o|].
  - destruct H as [[H1|[=]] H2]. apply filter_In in H1 as [H0 H1]. split; [assumption|]. split; [assumption|]. intros x Hx Ht. apply H2. left. apply filter_In. auto.
  - destruct H as [H _]. intros x Hx. destruct (o_timed x) eqn:E; [|reflexivity]. assert (K : In x (filter o_timed l)) by (apply filter_In; auto). rewrite H in K. destruct K.
Qed.
Lemma life_untimed r ph q n p i e o : life r ph q n p i e o -> o_kind o = STREAM \/ (1 <= n)%nat -> life r ph q n p i e (set_timed false o).
Proof. intros [L1 L2 L3 L4 L5 L6 L7 L8 L9 L10 L11 LP L12 L13 L14] H. constructor; auto; [|discriminate]. change (o_kind (set_timed _ _)) with (o_kind o). intros. destruct H; [congruence|lia]. Qed.
Ltac got Ho := match goal with H : get_op _ _ = Some _ |- _ => rename H into Ho end.
Ltac rr := first [discriminate|intros; reflexivity|idtac].
Lemma alive g s o : J2 g s -> gop g = Some o -> exists o', get_op (o_id o) s = Some o' /\ o_kind o' = o_kind o /\ o_id o' = o_id o.
Proof. intros J H. destruct (j2_ghost _ _ J _ H) as (o' & Ho & Hw). exists o'. unfold o_kind. rewrite Hw. split; [assumption|]. split; [reflexivity|]. apply get_op_id with (1 := Ho). Qed.
Lemma same_get id o s : get_op id s = Some o -> forall i, get_op i s = if i =? id then Some o else get_op i s.
Proof. intros Ho i. destruct (N.eqb_spec i id) as [->|]; [assumption|reflexivity]. Qed.
(** an operation is taken from the queue *)
Lemma j7_intake g s o o0 a q : J2 g s -> J7 g s -> c_phase s = ACTIVE -> c_queue s = o_id o :: q -> get_op (o_id o) s = Some o0 -> (forall i, role_of g i = R_none) -> J7 (TOOK o a) (emit (O_INTAKE (o_id o) a) (set_queue q s)).
Proof.
  intros HJ2 J Hp Hq Ho Hr. pose proof (j7_live _ _ J _ _ Ho) as L. pose proof (proj1 (j7_queue _ _ J)) as Hnd. rewrite Hq in Hnd. apply NoDup_cons_iff in Hnd as [Hni Hnd].
  destruct (l_queue _ _ _ _ _ _ _ _ L) as [Hi Ht]; [rewrite Hq; left; reflexivity|]. eapply (j7_one _ _ _ _ (o_id o) o0 o0 [O_INTAKE (o_id o) a]); [exact J|exact Ho|exact (same_get _ _ s Ho)|reflexivity|reflexivity|reflexivity| | | |exact Hnd| |discriminate| | |reflexivity|].
  - intros i Hne. repeat constructor. unfold about. cbn. rewrite (proj2 (N.eqb_neq _ _)) by auto. reflexivity.
  - intros i w d [[=]|[]].
  - intros i Hne. cbn [c_queue emit set_queue]. rewrite Hq. cbn [In]. intuition congruence.
  - intros i x Hne _. rewrite Hr. apply (role_self o a i). assumption.
  - intros W. cbn [c_out emit set_queue] in W. cbn [wasted publishes andb orb] in W. apply (j7_wasted _ _ J) in W. cbn [c_out emit set_queue early]. rewrite W. apply orb_true_r.
  - unfold lives in *. cbn [c_out emit set_queue c_phase c_queue]. rewrite !count_cons. cbn [completes publishes takes]. rewrite N.eqb_refl. cbn [early takes]. rewrite N.eqb_refl, count_exists, andb_true_l. rewrite (proj1 (role_self o a 0)). rewrite Hr in L. rewrite Hi in *.
    destruct L as [L1 L2 L3 L4 L5 L6 L7 L8 L9 L10 L11 LP L12 L13 L14]. destruct (L4 Ht) as [M1 M2]. destruct L6 as [L6|(_ & _ & L6 & _)]; [|lia]. constructor; auto; try congruence; try (cbn in *; lia); intros; try congruence; try contradiction.
    destruct (Nat.leb_spec 1 (count (completes (o_id o)) (c_out s))); [reflexivity|lia].
  - pose proof (j2_next _ _ HJ2 _ _ Ho). lia.
Qed.
Lemma j7_publish g' s o o0 ok : J2 (PUBLISHING o) s -> J7 (PUBLISHING o) s -> get_op (o_id o) s = Some o0 -> (forall i, role_of g' i = R_none) -> (forall o rest, g' <> TAKING o rest) -> forall s', s' = emit (O_PUBLISH (o_id o) ok) s \/ s' = set_publishes (c_publishes s ++ [o_id o]) (emit (O_PUBLISH (o_id o) ok) s) -> J7 g' s'.
Proof.
  intros HJ2 J Ho Hr Hnt s' Hs. pose proof (j7_live _ _ J _ _ Ho) as L. assert (E : (forall i, get_op i s' = get_op i s) /\ c_next s' = c_next s /\ c_phase s' = c_phase s /\ c_queue s' = c_queue s /\ c_out s' = O_PUBLISH (o_id o) ok :: c_out s) by (destruct Hs as [-> | ->]; auto).
  destruct E as (E1 & E2 & E3 & E4 & E5). eapply (j7_one _ _ _ _ (o_id o) o0 o0 [O_PUBLISH (o_id o) ok]); [exact J|exact Ho| |exact E2|exact E3|exact E5| | | | | |exact Hnt| | |reflexivity|].
  - intros i. rewrite E1. apply same_get. assumption.
  - intros i Hne. repeat constructor. unfold about. cbn. rewrite (proj2 (N.eqb_neq _ _)) by auto. reflexivity.
  - intros i w d [[=]|[]].
  - intros i _. rewrite E4. tauto.
  - rewrite E4. apply (j7_queue _ _ J).
  - intros i x Hne _. rewrite Hr. symmetry. apply (role_self o A_BLOCKED i). assumption.
  - rewrite E5. cbn [wasted early publishes takes andb]. rewrite N.eqb_refl, count_exists. intros W. apply orb_true_iff in W as [W|W]; [|apply (j7_wasted _ _ J); exact W]. apply Nat.leb_le in W. apply (l_publ _ _ _ _ _ _ _ _ L); [apply (role_self o A_BLOCKED 0)|exact W].
  - unfold lives in *. rewrite E3, E4, E5, Hr. rewrite !count_cons. cbn [completes publishes takes early]. rewrite N.eqb_refl. cbn [andb orb]. rewrite (proj1 (proj2 (proj2 (role_self o A_BLOCKED 0)))) in L.
    destruct L as [L1 L2 L3 L4 L5 L6 L7 L8 L9 L10 L11 LP L12 L13 L14]. cbn [hand] in L10. constructor; auto; try discriminate; cbn [hand].
    + destruct L6 as [L6|(M1 & M2 & M3 & M4)]; [auto|]. right. repeat split; auto. discriminate.
    + lia.
    + intros M1 M2. destruct (L13 M1 M2) as [M3 M4]. split; [assumption|]. intros _ _. apply M4; discriminate.
  - pose proof (j2_next _ _ HJ2 _ _ Ho). lia.
Qed.
Lemma j7_done g s o r : J2 g s -> J8 g s -> J7 g s -> get_op (o_id o) s = Some o -> o_kind o = REQUEST -> o_state o <> S_PENDING_DESTROY -> o_tracked o = true -> (forall a, role_of g (o_id o) = R_took a -> a = A_FAILURE \/ a = A_NO_CAPACITY) -> role_of g (o_id o) <> R_publishing -> (forall o rest, g <> TAKING o rest) -> J7 g (completed o r s).
Proof.
  intros HJ2 HJ8 J Ho Hk Hs Ht Hr Hrp Hnt. pose proof (j7_live _ _ J _ _ Ho) as L. eapply (j7_one _ _ _ _ (o_id o) o _ [O_COMPLETE (o_id o) r]); [exact J|exact Ho|apply completed_get; exact Ho|reflexivity|reflexivity|reflexivity| | | | | |exact Hnt| | |rewrite unref_id; reflexivity|].
  - intros i Hne. repeat constructor. unfold about. cbn. rewrite (proj2 (N.eqb_neq _ _)) by auto. reflexivity.
  - intros i w d [[=]|[]].
  - intros i _. reflexivity.
  - apply (j7_queue _ _ J).
  - reflexivity.
  - cbn [completed release upd_op set_ops emit c_out wasted early publishes takes andb orb]. apply (j7_wasted _ _ J).
  - unfold lives in *. cbn [completed release upd_op set_ops emit c_out c_queue c_phase]. rewrite !count_cons. cbn [completes publishes takes early]. rewrite N.eqb_refl. cbn [andb orb plus]. apply life_complete; assumption.
  - pose proof (j2_next _ _ HJ2 _ _ Ho). lia.
Qed.
Lemma J7_step cf g s g' s' : J2 g s -> J5 g s -> J8 g s -> J7 g s -> big cf (g, s) (g', s') -> J7 g' s'.
Proof.
  intros HJ2 HJ5 HJ8 J B. inversion B as [x y P|s0 Ha Hs|s0 Hp Ho He Hu]; subst.
  3: { destruct J as [K1 K2 K3 KW K4 K5 K6 K7]. set (s' := set_phase OVER (emit O_TERMINATED s)).
       assert (Hc := fun id => not_about id [O_TERMINATED] (c_out s) (hush_all id [O_TERMINATED] ltac:(repeat constructor))). change ([O_TERMINATED] ++ c_out s) with (c_out s') in Hc. constructor.
       - intros id o Hx. unfold get_op in Hx. cbn [s' c_ops set_phase emit] in Hx. rewrite Ho in Hx. discriminate.
       - intros id. unfold past. destruct (Hc id) as (-> & _ & _ & -> & _). apply K2.
       - intros id. destruct (Hc id) as (_ & -> & -> & _). apply K3.
       - intros id. destruct (Hc id) as (_ & _ & _ & -> & ->). apply KW.
       - intros id r d _ [[=]|Hi]. destruct (Hc id) as (-> & _). eapply K4; [unfold get_op; rewrite Ho; reflexivity|exact Hi].
       - intros id Hi. destruct (Hc id) as (-> & -> & -> & -> & _). apply K5. exact Hi.
       - exact K6.
       - discriminate. }
  2: { destruct J as [K1 K2 K3 KW K4 K5 K6 K7]. set (s' := set_scheduled 0 (set_phase DOWN (emit I_SHUTDOWN s))).
       assert (Hc := fun id => not_about id [I_SHUTDOWN] (c_out s) (hush_all id [I_SHUTDOWN] ltac:(repeat constructor))). change ([I_SHUTDOWN] ++ c_out s) with (c_out s') in Hc. constructor.
       - intros id o Ho. unfold lives. destruct (Hc id) as (-> & -> & -> & -> & _). destruct (K1 id o Ho) as [L1 L2 L3 L4 L5 L6 L7 L8 L9 L10 L11 LP L12 L13 L14]. cbn [role_of] in *. constructor; auto; try discriminate.
         + destruct L6 as [L6|(M1 & M2 & M3 & M4)]; [auto|]. right. repeat split; auto. discriminate.
         + intros _ Hk. split; [|congruence]. destruct (o_submitting o) eqn:E; [|reflexivity]. rewrite (Hs o (get_op_in _ _ _ Ho) E) in Hk. discriminate.
       - intros id. unfold past. destruct (Hc id) as (-> & _ & _ & -> & _). apply K2.
       - intros id. destruct (Hc id) as (_ & -> & -> & _). apply K3.
       - intros id. destruct (Hc id) as (_ & _ & _ & -> & ->). apply KW.
       - intros id r d Hn [[=]|Hi]. destruct (Hc id) as (-> & _). eapply K4; eassumption.
       - intros id Hi. destruct (Hc id) as (-> & -> & -> & -> & _). apply K5. exact Hi.
       - exact K6.
       - discriminate. }
  clear B. inversion P; subst; try q0; try q1.
  - (* create *) match goal with H : valid_work w = true |- _ => rename H into Hv end. pose proof (create_get cf now w s Hv) as Hg. pose proof (create_shape cf now w s Hv) as Hsh. set (x := I_OPERATION (c_next s) w (o_deadline (new_op cf now w s))) in *.
    assert (Hout : c_out (create cf now w s) = [x] ++ c_out s) by (rewrite Hsh; reflexivity). assert (Hnx : c_next (create cf now w s) = c_next s + 1) by (rewrite Hsh; reflexivity). assert (Hph : c_phase (create cf now w s) = c_phase s) by (rewrite Hsh; reflexivity). assert (Hq : c_queue (create cf now w s) = c_queue s) by (rewrite Hsh; reflexivity).
    assert (Hc := fun id => not_about id [x] (c_out s) ltac:(repeat constructor)). rewrite <- Hout in Hc. destruct J as [K1 K2 K3 KW K4 K5 K6 K7]. constructor.
    + intros id o. rewrite Hg. unfold lives. destruct (Hc id) as (-> & -> & -> & -> & _). rewrite Hph, Hq. destruct (get_op id s) as [y|] eqn:E; [intros [= <-]; apply K1; exact E|]. destruct (N.eqb_spec id (c_next s)) as [->|]; [|discriminate]. intros [= <-].
      destruct (K5 (c_next s) ltac:(lia)) as (-> & -> & -> & ->). assert (Hnq : ~ In (c_next s) (c_queue s)) by (intros M; destruct (proj2 K6 _ M) as (z & M1); congruence). match goal with H : c_phase s = ACTIVE |- _ => rewrite H end.
      constructor; unfold new_op; destruct w; cbn; try tauto; try discriminate; try congruence; auto 6; try lia; intros; repeat split; auto; try discriminate; try lia; try contradiction.
    + intros id. unfold past. destruct (Hc id) as (-> & _ & _ & -> & _). apply K2.
    + intros id. destruct (Hc id) as (_ & -> & -> & _). apply K3.
    + intros id. destruct (Hc id) as (_ & _ & _ & -> & ->). apply KW.
    + intros id r d. rewrite Hg. destruct (get_op id s) eqn:E; [discriminate|]. destruct (N.eqb_spec id (c_next s)) as [|Hne]; [discriminate|]. intros _ Hi. destruct (Hc id) as (-> & _). eapply K4; [exact E|]. rewrite Hout in Hi. destruct Hi as [[= <- _ _]|Hi]; [contradiction|exact Hi].
    + intros id. rewrite Hnx. intros Hi. destruct (Hc id) as (-> & -> & -> & -> & _). apply K5. lia.
    + rewrite Hq. split; [apply K6|]. intros id Hi. destruct (proj2 K6 _ Hi) as (z & M). exists z. rewrite Hg, M. reflexivity.
    + discriminate.
  - (* activate *) got Ho. eapply (j7_op _ _ _ _ id o (set_submitting true (set_refs (o_refs o + 1) (set_activated true o))) [I_ACTIVATE id]); [exact HJ2|exact J|exact Ho|..]; rr; try eassumption; try reflexivity.
    + intros i. unfold activate_stream. rewrite get_op_upd by reflexivity. change (get_op i (emit ?x ?y)) with (get_op i y). destruct (N.eqb_spec i id) as [->|]; [rewrite Ho|]; reflexivity.
    + repeat constructor.
    + pose proof (j7_live _ _ J _ _ Ho) as L. eapply life_stream; [exact L|assumption|assumption| | | | |]; try reflexivity. cbn. intros _. split; [|reflexivity]. destruct (o_tracked o) eqn:E; [|reflexivity]. destruct (l_act _ _ _ _ _ _ _ _ L E). congruence.
  - (* close *) got Ho. eapply (j7_op _ _ _ _ id o (unref (set_open false o)) [I_CLOSE id]); [exact HJ2|exact J|exact Ho|..]; rr; try eassumption; try reflexivity.
    + unfold release. eapply upd_more; [exact Ho| |apply unref_id]. intros i. change (get_op i s) with (get_op i (emit (I_CLOSE id) s)). apply upd_one; [exact Ho|reflexivity].
    + repeat constructor.
    + rewrite unref_id. reflexivity.
    + apply unref_stream; [|assumption]. eapply life_core; [exact (j7_live _ _ J _ _ Ho)|reflexivity].
  - (* submitted *) got Ho. pose proof (j7_live _ _ J _ _ Ho) as L. pose proof (get_op_id _ _ _ Ho) as Hid. match goal with H : o_submitting o = true |- _ => rename H into Hsub end. destruct (l_sub _ _ _ _ _ _ _ _ L Hsub) as [Hut Hact].
    destruct (l_fresh _ _ _ _ _ _ _ _ L Hut) as (Hi & Hw & Hn0 & Hf). assert (Hnq : ~ In id (c_queue s)) by (intros K; destruct (l_queue _ _ _ _ _ _ _ _ L K); congruence). assert (Hph : c_phase (submitted id now s) = c_phase s) by (unfold submitted; cbn [release upd_op set_ops c_phase]; rewrite wake_phase; reflexivity).
    assert (Hq : c_queue (submitted id now s) = c_queue s ++ [id]) by (unfold submitted; cbn [release upd_op set_ops c_queue]; rewrite (proj1 (proj2 (proj2 (proj2 (proj2 (proj2 (proj2 (wake_frame now _)))))))); reflexivity).
    eapply (j7_one _ _ _ _ id o _ [I_QUEUED id]); [exact J|exact Ho|apply submitted_get; exact Ho| |exact Hph|apply submitted_out| | | | | |discriminate| | | |]; rr.
    + unfold submitted. cbn [release upd_op set_ops c_next]. rewrite (proj1 (wake_frame now _)). reflexivity.
    + intros i _. repeat constructor.
    + intros i w d [[=]|[]].
    + intros i Hne. rewrite Hq, in_app_iff. cbn [In]. intuition congruence.
    + rewrite Hq. apply nodup_snoc; [apply (j7_queue _ _ J)|assumption].
    + rewrite submitted_out. cbn [wasted early publishes takes andb orb]. apply (j7_wasted _ _ J).
    + unfold lives in *. rewrite submitted_out, Hph. match goal with H : c_phase s = ACTIVE |- _ => rewrite H in * end. rewrite !count_cons. cbn [completes publishes takes early andb orb plus role_of]. cbn [role_of] in L. rewrite Hi in *.
      destruct L as [L1 L2 L3 L4 L5 L6 L7 L8 L9 L10 L11 LP L12 L13 L14]. destruct L6 as [L6|(_ & _ & L6 & _)]; [|lia].
      assert (U : forall o1 A (h : op -> A), (forall x y, h (set_refs x y) = h y) -> (forall x y, h (set_doomed x y) = h y) -> h (unref o1) = h o1) by (intros o1 A h K1 K2; unfold unref; destruct (_ =? 1); [rewrite K2|]; apply K1).
      set (o1 := set_state S_QUEUED _). constructor; rewrite ?(U _ _ o_submitting), ?(U _ _ o_tracked), ?(U _ _ o_activated), ?(U _ _ o_kind), ?(U _ _ o_state), ?(U _ _ o_timed), ?(U _ _ pd), ?(U _ _ waits) by reflexivity; change (o_kind o1) with (o_kind o); unfold o1;
        cbn [set_state set_timed set_tracked set_submitting o_submitting o_tracked o_activated o_timed o_state]; change (pd (set_state _ _)) with 0%nat; change (waits (set_state _ _)) with 0%nat; intros; try congruence; auto; try lia.
      * split; [|intros; lia]. intros _. destruct (L8 H) as [L8a _]. destruct (L8a Hn0) as [M1 M2]. rewrite Hsub in M2. unfold unref. cbn [o_refs set_state set_timed set_tracked set_submitting]. rewrite M2. cbn. auto.
      * rewrite H. reflexivity.
    + rewrite unref_id. reflexivity.
    + pose proof (j2_next _ _ HJ2 _ _ Ho). lia.
  - (* closed *) got Ho. pose proof (j7_live _ _ J _ _ Ho) as L. assert (Hk : o_kind o = STREAM). { destruct (o_kind o) eqn:Ek; [|reflexivity]. match goal with H : c_phase s <> ACTIVE |- _ => destruct (l_down _ _ _ _ _ _ _ _ L H Ek) as [K _] end. congruence. }
    eapply (j7_op _ _ _ _ id o (set_submitting false o) []); [exact HJ2|exact J|exact Ho|..]; rr; try eassumption; try reflexivity.
    + apply upd_one; [exact Ho|reflexivity].
    + constructor.
    + eapply life_stream; [exact L|assumption|assumption| | | | |]; try reflexivity; try discriminate. auto.
  - (* closed done *) destruct (alive _ _ _ HJ2 eq_refl) as (o' & Ho & Hk & Hid). destruct (j8_ghost _ _ HJ8) as [Hs _]. eapply (j7_op _ _ _ _ (o_id o) o' (unref o') []); [exact HJ2|exact J|exact Ho|..]; rr; try eassumption; try reflexivity.
    + apply upd_one; [exact Ho|apply unref_id].
    + constructor.
    + apply unref_id.
    + apply unref_stream; [exact (j7_live _ _ J _ _ Ho)|congruence].
  - (* timeout *) match goal with H : earliest _ = Some _ |- _ => rename H into He end. pose proof (earliest_spec (c_ops s)) as Hsp. rewrite He in Hsp. destruct Hsp as (Hin & Htd & _). pose proof (in_get_op _ _ (j2_ids _ _ HJ2) Hin) as Ho. pose proof (j7_live _ _ J _ _ Ho) as L.
    set (s1 := upd_op (o_id o) (set_timed false) s). assert (Hg1 : forall i, get_op i s1 = if i =? o_id o then Some (set_timed false o) else get_op i s) by (apply (upd_one (o_id o) (set_timed false)); [exact Ho|reflexivity]).
    assert (Ho1 : get_op (o_id o) s1 = Some (set_timed false o)) by (rewrite Hg1, N.eqb_refl; reflexivity).
    destruct (fail_get (o_id o) E_TIMEOUT s1 _ Ho1) as [(F1 & F2 & F3)|[(F1 & F2 & F3)|(F1 & F4 & F2 & F3)]].
    + destruct (fail_shape (o_id o) E_TIMEOUT s1) as (l & _ & _ & R3 & _). apply rest_inj in R3 as (_ & _ & R1 & _ & _ & _ & _ & _ & _ & _ & R2 & R4).
      eapply (j7_op _ _ _ _ (o_id o) o (set_timed false o) []); [exact HJ2|exact J|exact Ho| |exact R2|exact R4|exact R1|exact F2|constructor|rr|discriminate|reflexivity|].
      * intros i. rewrite <- Hg1. unfold get_op. rewrite F1. reflexivity.
      * apply life_untimed; [exact L|]. destruct F3 as [F3|F3]; [right|left; exact F3]. apply (l_pd _ _ _ _ _ _ _ _ L). exact F3.
    + rewrite F3. change (o_kind o = REQUEST) in F1. change (o_state o <> S_PENDING_DESTROY) in F2.
      eapply (j7_one _ _ _ _ (o_id o) o (unref (set_state S_PENDING_DESTROY (set_timed false o))) [O_COMPLETE (o_id o) (FAILED E_TIMEOUT)]); [exact J|exact Ho| |reflexivity|reflexivity|reflexivity| | | | |rr|discriminate| | |rewrite unref_id; reflexivity|].
      * intros i. rewrite (completed_get (set_timed false o) _ _ Ho1). change (o_id (set_timed false o)) with (o_id o). rewrite Hg1. destruct (i =? o_id o); reflexivity.
      * intros i Hne. repeat constructor. unfold about. cbn. rewrite (proj2 (N.eqb_neq _ _)) by auto. reflexivity.
      * intros i w d [[=]|[]].
      * intros i _. reflexivity.
      * apply (j7_queue _ _ J).
      * cbn [completed release upd_op set_ops emit c_out wasted early publishes takes andb orb s1]. apply (j7_wasted _ _ J).
      * unfold lives in *. cbn [completed release upd_op set_ops emit c_out c_queue c_phase s1]. change (o_id (set_timed false o)) with (o_id o). rewrite !count_cons. cbn [completes publishes takes early]. rewrite N.eqb_refl. cbn [andb orb plus].
        replace (unref (set_state S_PENDING_DESTROY (set_timed false o))) with (set_timed false (unref (set_state S_PENDING_DESTROY o))) by (unfold unref; cbn [o_refs set_state set_timed]; destruct (o_refs o =? 1); reflexivity).
        apply life_untimed; [|right; lia]. apply life_complete; try assumption; [apply (l_tt _ _ _ _ _ _ _ _ L); exact Htd|discriminate|discriminate].
      * pose proof (j2_next _ _ HJ2 _ _ Ho). lia.
    + rewrite F3. change (o_kind o = STREAM) in F1.
      eapply (j7_op _ _ _ _ (o_id o) o (set_state S_TERMINAL (set_timed false o)) [O_STATUS (o_id o) (S_HALTED E_TIMEOUT)]); [exact HJ2|exact J|exact Ho| |reflexivity|reflexivity|reflexivity|reflexivity|repeat constructor|rr|discriminate|reflexivity|].
      * intros i. rewrite (halted_get (set_timed false o) _ _ Ho1). change (o_id (set_timed false o)) with (o_id o). rewrite Hg1. destruct (i =? o_id o); reflexivity.
      * apply life_halt; [apply life_untimed; [exact L|left; exact F1]|exact F1|]. exact F4.
  - (* take *) eapply (j7_frame _ _ _ _ []); [eassumption|intros; reflexivity|reflexivity|reflexivity|reflexivity|reflexivity|constructor|intros; reflexivity|]. intros o0 rest [= <- <-]. got Ho. apply get_op_id in Ho. subst id. eauto.
  - (* refuse *) got Ho. pose proof (get_op_id _ _ _ Ho) as <-. eapply j7_intake; try eassumption. reflexivity.
  - (* listen *) destruct (listen_frame (o_kind o) (o_id o) s f) as (A1 & A2 & A3 & A4 & A5 & A6 & A7 & A8 & A9 & A10 & A11). eapply (j7_frame _ _ _ _ []); [eassumption| |exact A10|exact A4|exact A7|apply listen_out|constructor|reflexivity|intros o0 rest0 [= <- <-]; eapply j7_head; [exact J|reflexivity]].
    intros i. unfold get_op. rewrite A2. reflexivity.
  - (* took *) destruct (j7_head _ _ J o [] eq_refl) as (q & Hq). destruct (alive _ _ _ HJ2 eq_refl) as (o' & Ho & _). rewrite Hq. eapply j7_intake; try eassumption. reflexivity.
  - (* failed *) destruct (alive _ _ _ HJ2 eq_refl) as (o' & Ho & Hk & Hid). eapply (j7_op _ _ _ _ (o_id o) o' o' []); [exact HJ2|exact J|exact Ho|..]; rr; try eassumption; try reflexivity.
    + apply same_get. assumption.
    + constructor.
    + intros i x Hne _. symmetry. apply (role_self o a i). assumption.
    + eapply life_role; [exact (j7_live _ _ J _ _ Ho)|cbn; lia|discriminate|discriminate|]. rewrite (proj1 (role_self o a 0)). intros [|]; discriminate.
  - (* tables *) destruct (alive _ _ _ HJ2 eq_refl) as (o' & Ho & Hk & Hid). destruct (add_tables_frame o s) as (A1 & A2 & A3 & A4 & A5 & A6 & A7 & A8). eapply (j7_op _ _ _ _ (o_id o) o' (set_tables true o') []); [exact HJ2|exact J|exact Ho|..]; rr; try eassumption; try reflexivity.
    + apply add_tables_get. assumption.
    + apply add_tables_phase.
    + constructor.
    + eapply life_core; [exact (j7_live _ _ J _ _ Ho)|reflexivity].
  - (* wait *) destruct (alive _ _ _ HJ2 eq_refl) as (o' & Ho & Hk & Hid). pose proof (j7_live _ _ J _ _ Ho) as L. eapply (j7_op _ _ _ _ (o_id o) o' (set_state S_PENDING_SUBSCRIPTION o') []); [exact HJ2|exact J|exact Ho|..]; rr; try eassumption; try reflexivity.
    + apply upd_one; [exact Ho|reflexivity].
    + constructor.
    + intros i x Hne _. symmetry. apply (role_self o A_SUBSCRIBING i). assumption.
    + unfold lives in L. rewrite (proj1 (proj2 (role_self o A_SUBSCRIBING 0))) in L. pose proof (j8_ghost _ _ HJ8) as G. cbn [ghost_ok] in G. assert (Hti := l_i _ _ _ _ _ _ _ _ L).
      eapply life_state; [exact L|right; discriminate|discriminate|eapply life_taken; [exact L|exact G]| | |intros; lia| |discriminate|discriminate|discriminate|discriminate|discriminate|discriminate].
      * destruct (o_state o') eqn:Es; try (left; discriminate). right. eapply (l_took _ _ _ _ _ _ _ _ L); [reflexivity|auto|]. apply (l_pd _ _ _ _ _ _ _ _ L). assumption.
      * left. destruct (l_n _ _ _ _ _ _ _ _ L) as [K|(_ & _ & _ & K)]; [exact K|]. destruct (K _ eq_refl).
      * change (waits (set_state _ _)) with 1%nat. cbn [hand role_of]. lia.
  - (* stream *) destruct (alive _ _ _ HJ2 eq_refl) as (o' & Ho & Hk & Hid). pose proof (j7_live _ _ J _ _ Ho) as L. eapply (j7_op _ _ _ _ (o_id o) o' (set_state S_SUBSCRIBED o') [O_STATUS (o_id o) S_ESTABLISHED]); [exact HJ2|exact J|exact Ho|..]; rr; try eassumption; try reflexivity.
    + apply (upd_one (o_id o) (set_state S_SUBSCRIBED)); [exact Ho|reflexivity].
    + repeat constructor.
    + intros i x Hne _. symmetry. apply (role_self o A_SUBSCRIBED i). assumption.
    + unfold lives in L. rewrite (proj1 (proj2 (role_self o A_SUBSCRIBED 0))) in L. pose proof (j8_ghost _ _ HJ8) as G. cbn [ghost_ok] in G. assert (Hti := l_i _ _ _ _ _ _ _ _ L).
      eapply life_state; [exact L|right; discriminate|discriminate|eapply life_taken; [exact L|exact G]| | |intros; lia| |discriminate|discriminate|discriminate|discriminate|discriminate|discriminate].
      * destruct (o_state o') eqn:Es; try (left; discriminate). right. eapply (l_took _ _ _ _ _ _ _ _ L); [reflexivity|auto|]. apply (l_pd _ _ _ _ _ _ _ _ L). assumption.
      * left. destruct (l_n _ _ _ _ _ _ _ _ L) as [K|(_ & _ & _ & K)]; [exact K|]. destruct (K _ eq_refl).
      * change (waits (set_state _ _)) with 0%nat. cbn [hand role_of]. lia.
  - (* now *) destruct (alive _ _ _ HJ2 eq_refl) as (o' & Ho & Hk & Hid). eapply (j7_op _ _ _ _ (o_id o) o' o' []); [exact HJ2|exact J|exact Ho|..]; rr; try eassumption; try reflexivity.
    + apply same_get. assumption.
    + constructor.
    + intros i x Hne _. destruct (role_self o A_SUBSCRIBED i) as (_ & _ & _ & K). destruct (K Hne) as (_ & -> & ->). reflexivity.
    + eapply life_role; [exact (j7_live _ _ J _ _ Ho)| | | |]; destruct (role_self o A_SUBSCRIBED 0) as (_ & K1 & K2 & _); rewrite ?K1, ?K2; [cbn; lia|discriminate| |intros [|]; discriminate]. intros _. eapply (l_took _ _ _ _ _ _ _ _ (j7_live _ _ J _ _ Ho)); [exact K1|auto].
  - (* publish *) destruct (alive _ _ _ HJ2 eq_refl) as (o' & Ho & Hk & Hid). eapply j7_publish; try eassumption; rr. right. reflexivity.
  - (* refused *) destruct (alive _ _ _ HJ2 eq_refl) as (o' & Ho & Hk & Hid). eapply j7_publish; try eassumption; rr. left. reflexivity.
  - (* complete *) got Ho. match goal with H : cause _ _ _ _ |- _ => rename H into Hc end. eapply j7_done; try eassumption; [eapply cause_tracked; eassumption| |inversion Hc; cbn [role_of]; try discriminate; match goal with |- (if ?c then _ else _) <> _ => destruct c; discriminate end|inversion Hc; discriminate].
    intros a E. inversion Hc; subst; cbn [role_of] in E; try discriminate; [|destruct (existsb _ _); discriminate]. destruct (o_id o =? o_id o0); [|discriminate]. injection E as <-. match goal with H : refusal _ _ |- _ => destruct H as [[-> _]|[-> _]]; auto end.
  - (* halt *) got Ho. match goal with H : halt_cause _ _ _ |- _ => rename H into Hc end. eapply (j7_op _ _ _ _ (o_id o) o (set_state S_TERMINAL o) [O_STATUS (o_id o) (S_HALTED e)]); [exact HJ2|exact J|exact Ho|..]; rr; try eassumption; try reflexivity.
    + apply halted_get. assumption.
    + repeat constructor.
    + inversion Hc; discriminate.
    + apply life_halt; [exact (j7_live _ _ J _ _ Ho)|assumption|assumption].
  - (* wake *) destruct (wake_frame now s) as (A1 & A2 & A3 & A4 & A5 & A6 & A7 & A8 & A9 & A10). eapply (j7_frame _ _ _ _ []); [eassumption|apply wake_get|exact A1|apply wake_phase|exact A7|exact A10|constructor|reflexivity|discriminate].
  - (* count *) got Ho. eapply (j7_op _ _ _ _ id o (set_pending _ o) []); [exact HJ2|exact J|exact Ho|..]; rr; try eassumption; try reflexivity.
    + apply (upd_one id (set_pending (if o_pending o =? 0 then two64 - 1 else o_pending o - 1))); [exact Ho|reflexivity].
    + constructor.
    + eapply life_core; [exact (j7_live _ _ J _ _ Ho)|reflexivity].
  - (* ready *) got Ho. pose proof (get_op_id _ _ _ Ho) as Hid. subst id. pose proof (j7_live _ _ J _ _ Ho) as L. eapply (j7_op _ _ _ _ (o_id o) o (set_state S_PENDING_RESPONSE (set_pending 0 o)) []); [exact HJ2|exact J|exact Ho|..]; rr; try eassumption; try reflexivity.
    + eapply upd_more; [exact Ho| |reflexivity]. apply (upd_one (o_id o) (set_pending 0)); [exact Ho|reflexivity].
    + constructor.
    + intros i x Hne _. apply (role_self o A_SUBSCRIBED i). assumption.
    + rewrite (proj1 (proj2 (proj2 (role_self o A_BLOCKED 0)))). match goal with H : o_state o = S_PENDING_SUBSCRIPTION |- _ => rename H into Hst end. assert (Hw : waits o = 1%nat) by (unfold waits; rewrite (proj2 (state_is_spec _ _) Hst); reflexivity).
      pose proof (l_pub _ _ _ _ _ _ _ _ L). pose proof (l_i _ _ _ _ _ _ _ _ L). eapply life_core; [eapply (life_state _ R_publishing _ _ _ _ _ _ o S_PENDING_RESPONSE); [exact L|right; discriminate|discriminate|assumption|left; congruence|right; congruence| | |discriminate| |discriminate|discriminate|discriminate|discriminate]|reflexivity].
      * intros _. lia.
      * rewrite Hw. change (waits (set_state _ _)) with 0%nat. cbn. lia.
      * intros _ Hn. destruct (l_n _ _ _ _ _ _ _ _ L) as [M|(_ & M & _)]; [|exact M]. unfold pd in M. rewrite (proj2 (state_is_not S_PENDING_DESTROY o)) in M by congruence. lia.
  - (* publish crash *) pose proof (j2_gkind _ _ HJ2 o (or_introl eq_refl)). congruence.
  - (* established *) got Ho. pose proof (j7_live _ _ J _ _ Ho) as L. match goal with |- context [if ?c then _ else _] => destruct c eqn:Es end; [|eapply (j7_frame _ _ _ _ [O_STATUS id S_ESTABLISHED]); [eassumption|intros; reflexivity|reflexivity|reflexivity|reflexivity|reflexivity|repeat constructor|intros; reflexivity|discriminate]].
    assert (Hst : o_state o = S_PENDING_SUBSCRIPTION) by (destruct (o_state o); congruence).
    eapply (j7_op _ _ _ _ id o (set_state S_SUBSCRIBED o) [O_STATUS id S_ESTABLISHED]); [exact HJ2|exact J|exact Ho|..]; rr; try eassumption; try reflexivity.
    + apply (upd_one id (set_state S_SUBSCRIBED)); [exact Ho|reflexivity].
    + repeat constructor.
    + assert (Hw : waits o = 1%nat) by (unfold waits; rewrite (proj2 (state_is_spec _ _) Hst); reflexivity). pose proof (l_pub _ _ _ _ _ _ _ _ L). pose proof (l_i _ _ _ _ _ _ _ _ L).
      eapply (life_state _ R_none); [exact L|right; discriminate|discriminate|assumption|left; congruence|right; congruence|intros; lia| |discriminate|discriminate|discriminate|discriminate|discriminate|discriminate]. change (waits (set_state _ _)) with 0%nat. cbn. lia.
  - (* acked *) destruct b; q1.
  - (* message *) destruct (streamed_emits topic payload (emit (I_MESSAGE topic payload j) s)) as (l & -> & Hl). eapply (j7_frame _ _ _ _ (l ++ [I_MESSAGE topic payload j])); [eassumption|intros; reflexivity|reflexivity|reflexivity|reflexivity|cbn [emits c_out emit]; rewrite <- app_assoc; reflexivity| |reflexivity|discriminate].
    apply Forall_app. split; [|repeat constructor]. eapply Forall_impl; [|exact Hl]. intros x (i & ->). exact I.
  - (* leave *) got Ho. pose proof (get_op_id _ _ _ Ho) as Hid. subst id. pose proof (j7_live _ _ J _ _ Ho) as L. destruct J as [K1 K2 K3 KW K4 K5 K6 K7]. constructor; try assumption.
    + intros i x. rewrite get_left. destruct (N.eqb_spec (o_id o) i) as [|Hne]; [discriminate|]. intros Hx. destruct (K1 i x Hx). constructor; auto. intros K. apply filter_In in K as [K _]. auto.
    + intros i r d. rewrite get_left. destruct (N.eqb_spec (o_id o) i) as [<-|Hne]; [|apply K4]. intros _ Hin. assert (Hk : o_kind o = REQUEST). { destruct (j5_uniq _ _ HJ5 _ _ _ _ _ Hin (j5_in _ _ HJ5 _ _ Ho)) as [E _]. unfold o_kind. rewrite <- E. reflexivity. }
      destruct (l_ref _ _ _ _ _ _ _ _ L Hk) as [R1 _]. change (c_out (left o s)) with (c_out s). destruct (count (completes (o_id o)) (c_out s)); [|lia]. destruct (R1 eq_refl). congruence.
    + destruct K6 as [M1 M2]. split; [apply NoDup_filter; exact M1|]. intros i Hi. apply filter_In in Hi as [Hi Hne]. rewrite get_left. destruct (o_id o =? i); [discriminate|]. apply M2. exact Hi.
    + discriminate.
  - (* unlisten *) destruct (unlisten_frame (o_id o) s f) as (A1 & A2 & A3 & A4 & A5 & A6 & A7 & A8 & A9 & A10). eapply (j7_frame _ _ _ _ []); [eassumption| |exact A10|exact A4|exact A7|apply unlisten_out|constructor|reflexivity|discriminate].
    intros i. unfold get_op. rewrite A2. reflexivity.
  - (* gone *) destruct (untabled_frame o s) as (A1 & A2 & A3 & A4 & A5 & A6 & A7 & A8 & A9 & A10). eapply (j7_frame _ _ _ _ [O_GONE (o_id o)]); [eassumption| |exact A2|apply untabled_phase|exact A7|cbn [emit c_out]; rewrite A8; reflexivity|repeat constructor|reflexivity|discriminate].
    intros i. unfold get_op. cbn [emit c_ops]. rewrite A9. reflexivity.
  - (* cleaned *) destruct J as [K1 K2 K3 KW K4 K5 K6 K7]. constructor; try assumption; [|discriminate]. intros id o Ho. pose proof (K1 id o Ho) as L. unfold lives in *. eapply life_role; [exact L| |cbn [role_of]; destruct (existsb _ _); discriminate|cbn [role_of]; destruct (existsb _ _); discriminate|].
    + cbn [role_of]. destruct (existsb _ _); cbn; lia.
    + intros _. cbn [role_of]. destruct (existsb _ _) eqn:E; [auto|]. right. right. intros Hp Hk. exfalso. destruct (l_down _ _ _ _ _ _ _ _ L Hp Hk) as [D _]. destruct (o_tracked o) eqn:Et.
      * assert (X : existsb (N.eqb id) (map o_id (filter o_tracked (c_ops s'))) = true); [|congruence]. apply existsb_exists. exists (o_id o). rewrite (get_op_id _ _ _ Ho). split; [|apply N.eqb_refl].
        rewrite <- (get_op_id _ _ _ Ho). apply in_map, filter_In. split; [apply get_op_in with (1 := Ho)|exact Et].
      * destruct (l_fresh _ _ _ _ _ _ _ _ L Et) as (_ & _ & _ & X). destruct (X Hk). congruence.
  - (* fail done *) match goal with H : forall id o, In id l -> _ |- _ => rename H into Hd end. destruct J as [K1 K2 K3 KW K4 K5 K6 K7]. constructor; try assumption; [|discriminate]. intros id o Ho. pose proof (K1 id o Ho) as L. unfold lives in *. eapply life_role; [exact L|cbn; lia|discriminate|discriminate|].
    cbn [role_of]. destruct (existsb _ _) eqn:E; [|intros [|]; discriminate]. intros _. right. right. intros _ Hk. apply existsb_exists in E as (x & Hx & E). apply N.eqb_eq in E. subst x. destruct (Hd _ _ Hx Ho) as [D|D]; [apply (l_pd _ _ _ _ _ _ _ _ L D)|destruct (l_term _ _ _ _ _ _ _ _ L Hk D)].
  - (* swap *) match goal with H : Permutation _ _ |- _ => rename H into Hp end. eapply (j7_frame _ _ _ _ []); [eassumption|apply (get_perm_op s l (j2_ids _ _ HJ2) Hp)|reflexivity|reflexivity|reflexivity|reflexivity|constructor|reflexivity|discriminate].
Qed.
