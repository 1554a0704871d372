(** The life of requests of the 3.1.1 client: small steps on what matters of the state, and an invariant *)
From Coq Require Import Sorting.Sorted.
From Verif Require Import Base Client311_Model Client311_States Client311_Spec.

(** what matters of a request, and of the state *)
Record ess := mkess { e_uid : N; e_id : N; e_kind : kind; e_wait : N; e_sent : bool; e_timer : option N }.
Definition ess_of (r : req) : ess := mkess (q_uid r) (q_id r) (q_kind r) (q_wait r) (q_sent r) (q_timer r).
Record vw := mkvw { v_heap : list ess; v_table : list (N * N); v_tasks : list N; v_ongoing : list N; v_pending : list N; v_last : N; v_next : N; v_out : list out }.
Definition view (s : mqtt) : vw := mkvw (map ess_of (m_heap s)) (m_table s) (m_tasks s) (m_ongoing s) (m_pending s) (m_last s) (m_next s) (m_out s).
Definition over_out (e : ess) (y : why) : out := match e_kind e with K_PING => O_PING_OVER (e_uid e) | _ => O_COMPLETE (e_uid e) (e_id e) y end.
Definition others (u : N) (h : list ess) : list ess := filter (fun e => negb (e_uid e =? u)) h.
Definition other_ids (id : N) (t : list (N * N)) : list (N * N) := filter (fun e => negb (fst e =? id)) t.
Definition marked (u : N) (tm : option N) (h : list ess) : list ess := map (fun e => if e_uid e =? u then mkess (e_uid e) (e_id e) (e_kind e) (e_wait e) true tm else e) h.
Definition calmed (e : ess) : ess := mkess (e_uid e) (e_id e) (e_kind e) (e_wait e) (e_sent e) None.
(** events about no request and no channel *)
Definition quiet (x : out) : Prop :=
  match x with
  | O_COMPLETE _ _ _ | O_PING_OVER _ | O_SEND _ _ _ | I_MADE _ _ _ _ | I_REFUSED _ E_QUEUE_FULL | O_TERMINATED | I_UP | I_DOWN _ | I_CONNECT _ | I_TICK _ | I_PACKET _ => False
  | _ => True
  end.
Definition timer_for (w : N) (l : list out) (ok : bool) (tm : option N) : Prop := tm = None /\ (ok = true -> w = 0 \/ w = two64 - 1) \/ 0 < w < two64 - 1 /\ tm = Some (sat_add (clock l) w).
Inductive vstep : vw -> vw -> Prop :=
| V_note x h t ta on pe la ne o : quiet x -> vstep (mkvw h t ta on pe la ne o) (mkvw h t ta on pe la ne (x :: o))
| V_full k h t ta on pe la ne o : (forall id, 1 <= id <= 65535 -> In id (map fst t)) -> vstep (mkvw h t ta on pe la ne o) (mkvw h t ta on pe la ne (I_REFUSED k E_QUEUE_FULL :: o))
| V_make_task id k w h t ta on la ne o : w < two64 -> 1 <= id <= 65535 -> ~ In id (map fst t) -> linked o = true ->
    vstep (mkvw h t ta on [] la ne o) (mkvw (h ++ [mkess ne id k w false None]) (t ++ [(id, ne)]) (ta ++ [ne]) on [] id (ne + 1) (I_MADE ne id k w :: o))
| V_make_pending id k w h t pe la ne o : w < two64 -> 1 <= id <= 65535 -> ~ In id (map fst t) -> retryable k = true ->
    vstep (mkvw h t [] [] pe la ne o) (mkvw (h ++ [mkess ne id k w false None]) (t ++ [(id, ne)]) [] [] (pe ++ [ne]) id (ne + 1) (I_MADE ne id k w :: o))
| V_send e p ok tm h t ta on la ne o : In e h -> retryable (e_kind e) = true -> carries (e_id e) (e_kind e) (e_sent e) p -> timer_for (e_wait e) o ok tm -> linked o = true -> same_session (e_uid e) o ->
    vstep (mkvw h t (e_uid e :: ta) on [] la ne o) (mkvw (marked (e_uid e) tm h) t ta (on ++ [e_uid e]) [] la ne (O_SEND (e_uid e) p ok :: o))
| V_final e p ok y h t ta on la ne o : In e h -> (e_sent e = true -> retryable (e_kind e) = true) -> carries (e_id e) (e_kind e) (e_sent e) p -> linked o = true -> same_session (e_uid e) o ->
    (e_kind e <> K_PING -> because y (e_uid e) (e_id e) (e_kind e) (e_wait e) (O_SEND (e_uid e) p ok :: o)) ->
    vstep (mkvw h t (e_uid e :: ta) on [] la ne o) (mkvw (others (e_uid e) h) (other_ids (e_id e) t) ta on [] la ne (over_out e y :: O_SEND (e_uid e) p ok :: o))
| V_over e y h t ta on pe la ne o : In e h -> (e_kind e <> K_PING -> because y (e_uid e) (e_id e) (e_kind e) (e_wait e) o) ->
    vstep (mkvw h t ta on pe la ne o) (mkvw (others (e_uid e) h) (other_ids (e_id e) t) (without (e_uid e) ta) (without (e_uid e) on) (without (e_uid e) pe) la ne (over_out e y :: o))
| V_requeue e h t ta on pe la ne o : In e h -> retryable (e_kind e) = true -> linked o = false ->
    vstep (mkvw h t (e_uid e :: ta) on pe la ne o) (mkvw h t ta on (pe ++ [e_uid e]) la ne o)
| V_flush h t ta on pe la ne o : ta = [] \/ pe = [] -> linked o = true -> vstep (mkvw h t ta on pe la ne o) (mkvw h t (ta ++ pe) on [] la ne o)
| V_timers h t ta on pe la ne o : linked o = false -> vstep (mkvw h t ta on pe la ne o) (mkvw (map calmed h) t ta on pe la ne o)
| V_lost h t on pe la ne o : (forall e, In e h -> e_timer e = None) -> linked o = false -> vstep (mkvw h t [] on pe la ne o) (mkvw h t [] [] (pe ++ on) la ne o)
| V_end la ne o : vstep (mkvw [] [] [] [] [] la ne o) (mkvw [] [] [] [] [] la ne (O_TERMINATED :: o)).
Inductive vsteps : vw -> vw -> Prop := vs_nil v : vsteps v v | vs_cons a b c : vstep a b -> vsteps b c -> vsteps a c.
Lemma vs_one a b : vstep a b -> vsteps a b. Proof. intro H. econstructor; [exact H|constructor]. Qed.
Lemma vs_app a b c : vsteps a b -> vsteps b c -> vsteps a c. Proof. induction 1; [auto|]. intro K. econstructor; [eassumption|auto]. Qed.

(** ** The invariant *)
Definition places (v : vw) : list N := v_tasks v ++ v_ongoing v ++ v_pending v.
Definition unsent (h : list ess) (u : N) : bool := existsb (fun e => (e_uid e =? u) && negb (e_sent e)) h.
Arguments unsent : simpl never.
Record VI (v : vw) : Prop := {
  i_fine : each fine (v_out v);
  i_uids : NoDup (map e_uid (v_heap v));
  i_next : forall u, made u (v_out v) -> u < v_next v;
  i_table : v_table v = map (fun e => (e_id e, e_uid e)) (v_heap v);
  i_ids : NoDup (map e_id (v_heap v));
  i_nodup : NoDup (places v);
  i_places : forall u, In u (map e_uid (v_heap v)) <-> In u (places v);
  i_made : forall e, In e (v_heap v) -> In (I_MADE (e_uid e) (e_id e) (e_kind e) (e_wait e)) (v_out v);
  i_alive : forall e, In e (v_heap v) -> ~ over (e_uid e) (v_out v);
  i_sent : forall e, In e (v_heap v) -> (e_sent e = true <-> attempted (e_uid e) (v_out v));
  i_all : forall u, made u (v_out v) -> In u (map e_uid (v_heap v)) \/ over u (v_out v);
  i_ongoing : forall e, In e (v_heap v) -> In (e_uid e) (v_ongoing v) -> e_sent e = true;
  i_retry : forall e, In e (v_heap v) -> In (e_uid e) (v_ongoing v) \/ In (e_uid e) (v_pending v) \/ e_sent e = true -> retryable (e_kind e) = true;
  i_timer : forall e d, In e (v_heap v) -> e_timer e = Some d ->
            In (e_uid e) (v_ongoing v) /\ 0 < e_wait e < two64 - 1 /\ exists newer p ok m, v_out v = newer ++ O_SEND (e_uid e) p ok :: m /\ ~ attempted (e_uid e) newer /\ d = sat_add (clock m) (e_wait e);
  i_order : StronglySorted N.lt (filter (unsent (v_heap v)) (v_pending v ++ v_tasks v)) }.

(** ** Lemmas about events *)
Lemma made_cons u x l : made u (x :: l) <-> (exists id k w, x = I_MADE u id k w) \/ made u l.
Proof. unfold made. split; [intros (id & k & w & [K|K]); eauto 8|]. intros [(id & k & w & ->)|(id & k & w & K)]; exists id, k, w; [left; reflexivity|right; exact K]. Qed.
Lemma over_cons u x l : over u (x :: l) <-> (exists id e, x = O_COMPLETE u id e) \/ x = O_PING_OVER u \/ over u l.
Proof. unfold over. cbn. split; [intros [(id & e & [K|K])|[K|K]]; eauto 8|]. intros [(id & e & K)|[K|[(id & e & K)|K]]]; eauto 8. Qed.
Lemma attempted_cons u x l : attempted u (x :: l) <-> (exists p ok, x = O_SEND u p ok) \/ attempted u l.
Proof. unfold attempted. split; [intros (p & ok & [K|K]); eauto 8|]. intros [(p & ok & ->)|(p & ok & K)]; exists p, ok; [left; reflexivity|right; exact K]. Qed.
Definition about (x : out) : Prop := match x with O_COMPLETE _ _ _ | O_PING_OVER _ | O_SEND _ _ _ | I_MADE _ _ _ _ => True | _ => False end.
Lemma made_skip u x l : ~ about x -> (made u (x :: l) <-> made u l).
Proof. intro H. rewrite made_cons. split; [intros [(id & k & w & ->)|K]; [destruct H; exact I|exact K]|auto]. Qed.
Lemma over_skip u x l : ~ about x -> (over u (x :: l) <-> over u l).
Proof. intro H. rewrite over_cons. split; [intros [(id & e & ->)|[->|K]]; [destruct H; exact I|destruct H; exact I|exact K]|auto]. Qed.
Lemma attempted_skip u x l : ~ about x -> (attempted u (x :: l) <-> attempted u l).
Proof. intro H. rewrite attempted_cons. split; [intros [(p & ok & ->)|K]; [destruct H; exact I|exact K]|auto]. Qed.
Lemma quiet_about x : quiet x -> ~ about x. Proof. destruct x; cbn; tauto. Qed.
Lemma quiet_fine x l : quiet x -> fine x l. Proof. destruct x; cbn; try tauto. destruct e; tauto. Qed.

(** ** Each step keeps it *)
Lemma in_others u e h : In e (others u h) <-> In e h /\ e_uid e <> u.
Proof. unfold others. rewrite filter_In, negb_true_iff, N.eqb_neq. tauto. Qed.
Lemma in_without u x l : In x (without u l) <-> In x l /\ x <> u.
Proof. unfold without. rewrite filter_In, negb_true_iff, N.eqb_neq. tauto. Qed.
Lemma without_notin u l : ~ In u l -> without u l = l.
Proof. unfold without. induction l as [|x l IH]; cbn; [reflexivity|]. intro H. destruct (x =? u) eqn:E; [apply N.eqb_eq in E; tauto|]. cbn. rewrite IH; tauto. Qed.
Lemma nodup_filter {A} (f : A -> bool) l : NoDup l -> NoDup (filter f l).
Proof. induction 1 as [|x l N H IH]; cbn; [constructor|]. destruct (f x); [|exact IH]. constructor; [|exact IH]. intro K. apply filter_In in K. tauto. Qed.
Lemma nodup_map_filter {A B} (g : A -> B) (f : A -> bool) l : NoDup (map g l) -> NoDup (map g (filter f l)).
Proof.
  induction l as [|x l IH]; cbn; [constructor|]. intro H. inversion H as [|? ? N H']; subst. destruct (f x); cbn; [|apply IH, H']. constructor; [|apply IH, H'].
  intro K. apply N. apply in_map_iff in K as (y & <- & K). apply filter_In in K. apply in_map. tauto.
Qed.
Lemma without_app u a b : without u (a ++ b) = without u a ++ without u b. Proof. unfold without. apply filter_app. Qed.
Lemma in_marked u tm h x : In x (marked u tm h) -> exists e, In e h /\ e_uid x = e_uid e /\ e_id x = e_id e /\ e_kind x = e_kind e /\ e_wait x = e_wait e /\ ((e_uid e = u /\ e_sent x = true /\ e_timer x = tm) \/ (e_uid e <> u /\ x = e)).
Proof.
  intro H. apply in_map_iff in H as (e & E & H). exists e. destruct (e_uid e =? u) eqn:Eu; subst x; cbn; repeat split; auto.
  - left. apply N.eqb_eq in Eu. auto.
  - right. apply N.eqb_neq in Eu. auto.
Qed.
Lemma marked_uids u tm h : map e_uid (marked u tm h) = map e_uid h.
Proof. unfold marked. rewrite map_map. apply map_ext. intro e. destruct (_ =? _); reflexivity. Qed.
Lemma marked_ids u tm h : map e_id (marked u tm h) = map e_id h.
Proof. unfold marked. rewrite map_map. apply map_ext. intro e. destruct (_ =? _); reflexivity. Qed.
Lemma marked_pairs u tm h : map (fun e => (e_id e, e_uid e)) (marked u tm h) = map (fun e => (e_id e, e_uid e)) h.
Proof. unfold marked. rewrite map_map. apply map_ext. intro e. destruct (_ =? _); reflexivity. Qed.
Lemma uid_inj (h : list ess) e e' : NoDup (map e_uid h) -> In e h -> In e' h -> e_uid e = e_uid e' -> e = e'.
Proof.
  induction h as [|x h IH]; cbn; [tauto|]. intros N He He' E. inversion N as [|? ? Nx N']; subst. destruct He as [->|He], He' as [->|He']; auto; exfalso; apply Nx.
  - rewrite E. apply in_map, He'. - rewrite <- E. apply in_map, He.
Qed.
Lemma id_inj (h : list ess) e e' : NoDup (map e_id h) -> In e h -> In e' h -> e_id e = e_id e' -> e = e'.
Proof.
  induction h as [|x h IH]; cbn; [tauto|]. intros N He He' E. inversion N as [|? ? Nx N']; subst. destruct He as [->|He], He' as [->|He']; auto; exfalso; apply Nx.
  - rewrite E. apply in_map, He'. - rewrite <- E. apply in_map, He.
Qed.
Lemma sorted_filter {A} (R : A -> A -> Prop) f l : StronglySorted R l -> StronglySorted R (filter f l).
Proof. induction 1 as [|x l S IH F]; cbn; [constructor|]. destruct (f x); [|exact IH]. constructor; [exact IH|]. apply Forall_forall. intros y K. apply filter_In in K. eapply Forall_forall in F; [exact F|tauto]. Qed.
Lemma sorted_weaken (f g : N -> bool) l : (forall u, In u l -> g u = true -> f u = true) -> StronglySorted N.lt (filter f l) -> StronglySorted N.lt (filter g l).
Proof.
  intros H S. replace (filter g l) with (filter g (filter f l)); [apply sorted_filter, S|]. clear S. induction l as [|x l IH]; cbn; [reflexivity|].
  assert (IH' := IH (fun u K => H u (or_intror K))). specialize (H x (or_introl eq_refl)). destruct (f x) eqn:E; cbn; destruct (g x) eqn:G; try (rewrite IH'; reflexivity). specialize (H eq_refl). discriminate.
Qed.
Lemma sorted_snoc l u : StronglySorted N.lt l -> (forall x, In x l -> x < u) -> StronglySorted N.lt (l ++ [u]).
Proof.
  induction 1 as [|x l S IH F]; intro H; cbn; [repeat constructor|]. constructor; [apply IH; intros; apply H; right; assumption|]. apply Forall_app. split; [exact F|]. repeat constructor. apply H. left. reflexivity.
Qed.
Lemma unsent_in h u : unsent h u = true <-> exists e, In e h /\ e_uid e = u /\ e_sent e = false.
Proof.
  unfold unsent. rewrite existsb_exists. split; intros (e & He & K); exists e; (split; [exact He|]).
  - apply andb_true_iff in K as [K1 K2]. apply N.eqb_eq in K1. apply negb_true_iff in K2. auto.
  - destruct K as [-> ->]. rewrite N.eqb_refl. reflexivity.
Qed.
Lemma unsent_one h e : NoDup (map e_uid h) -> In e h -> unsent h (e_uid e) = negb (e_sent e).
Proof.
  intros N He. destruct (e_sent e) eqn:E; cbn.
  - destruct (unsent h (e_uid e)) eqn:U; [|reflexivity]. apply unsent_in in U as (e' & He' & Eu & Es). rewrite (uid_inj h e' e N He' He Eu) in Es. congruence.
  - apply unsent_in. eauto.
Qed.
Lemma nodup_app_iff {A} (a b : list A) : NoDup (a ++ b) <-> NoDup a /\ NoDup b /\ forall x, In x a -> ~ In x b.
Proof.
  induction a as [|x a IH]; cbn; [split; [intro H; repeat split; auto; constructor|tauto]|]. split.
  - intro H. inversion H as [|? ? N H']; subst. apply IH in H' as (Na & Nb & D). rewrite in_app_iff in N. repeat split; auto; [constructor; tauto|]. intros y [->|K]; [tauto|apply D, K].
  - intros (Na & Nb & D). inversion Na as [|? ? N Na']; subst. constructor; [|apply IH; repeat split; auto]. rewrite in_app_iff. intros [K|K]; [tauto|]. apply (D x); auto.
Qed.
Lemma because_ping (e : ess) (P : Prop) : (e_kind e <> K_PING -> P) -> e_kind e = K_PING \/ (e_kind e <> K_PING /\ P).
Proof. intro H. destruct (e_kind e) eqn:E; try (right; split; [discriminate|apply H; discriminate]). left. reflexivity. Qed.
Lemma fine_over e y l : In (I_MADE (e_uid e) (e_id e) (e_kind e) (e_wait e)) l -> ~ over (e_uid e) l -> (e_kind e <> K_PING -> because y (e_uid e) (e_id e) (e_kind e) (e_wait e) l) -> fine (over_out e y) l.
Proof.
  intros M O B. apply because_ping in B. unfold over_out. destruct B as [K|[K B]].
  - rewrite K in *. cbn. split; [eauto|exact O].
  - destruct (e_kind e) eqn:E; try congruence; cbn; eauto 6.
Qed.
Lemma over_over e y l u : over u (over_out e y :: l) <-> u = e_uid e \/ over u l.
Proof.
  rewrite over_cons. unfold over_out. destruct (e_kind e); split; try (intros [(id & z & K)|[K|K]]; [inversion K|inversion K|]; auto); try (intros [->|K]; eauto 6).
Qed.
Lemma made_over e y l u : made u (over_out e y :: l) <-> made u l.
Proof. rewrite made_cons. unfold over_out. split; [|auto]. intros [(id & k & w & K)|K]; [|exact K]. destruct (e_kind e); discriminate. Qed.
Lemma attempted_over e y l u : attempted u (over_out e y :: l) <-> attempted u l.
Proof. rewrite attempted_cons. unfold over_out. split; [|auto]. intros [(p & ok & K)|K]; [|exact K]. destruct (e_kind e); discriminate. Qed.
Lemma attempted_send v p ok l u : attempted u (O_SEND v p ok :: l) <-> u = v \/ attempted u l.
Proof. rewrite attempted_cons. split; [intros [(p' & ok' & K)|K]; [inversion K|]; auto|]. intros [->|K]; eauto. Qed.
Lemma made_send v p ok l u : made u (O_SEND v p ok :: l) <-> made u l.
Proof. rewrite made_cons. split; [intros [(id & k & w & K)|K]; [discriminate|exact K]|auto]. Qed.
Lemma over_send v p ok l u : over u (O_SEND v p ok :: l) <-> over u l.
Proof. rewrite over_cons. split; [intros [(id & k & K)|[K|K]]; [discriminate|discriminate|exact K]|auto]. Qed.
Lemma made_make v id k w l u : made u (I_MADE v id k w :: l) <-> u = v \/ made u l.
Proof. rewrite made_cons. split; [intros [(id' & k' & w' & K)|K]; [inversion K|]; auto|]. intros [->|K]; eauto 6. Qed.
Lemma over_make v id k w l u : over u (I_MADE v id k w :: l) <-> over u l.
Proof. rewrite over_cons. split; [intros [(id' & k' & K)|[K|K]]; [discriminate|discriminate|exact K]|auto]. Qed.
Lemma attempted_make v id k w l u : attempted u (I_MADE v id k w :: l) <-> attempted u l.
Proof. rewrite attempted_cons. split; [intros [(id' & k' & K)|K]; [discriminate|exact K]|auto]. Qed.
Lemma attempted_made l u : each fine l -> attempted u l -> made u l.
Proof.
  induction l as [|x l IH]; cbn; [intros _ (p & ok & [])|]. intros [F H] A. apply made_cons. right. apply attempted_cons in A as [(p & ok & ->)|A]; [|apply IH; assumption].
  cbn in F. destruct F as (id & k & w & K & _). exists id, k, w. exact K.
Qed.
Lemma over_made l u : each fine l -> over u l -> made u l.
Proof.
  induction l as [|x l IH]; cbn; [intros _ [(p & ok & [])|[]]|]. intros [F H] A. apply made_cons. right. apply over_cons in A as [(id & e & ->)|[->|A]]; [| |apply IH; assumption].
  - cbn in F. destruct F as (k & w & K & _). exists id, k, w. exact K.
  - cbn in F. destruct F as ((id & w & K) & _). exists id, K_PING, w. exact K.
Qed.
Lemma made_once l u id k w id' k' w' : each fine l -> In (I_MADE u id k w) l -> In (I_MADE u id' k' w') l -> id = id' /\ k = k' /\ w = w'.
Proof.
  induction l as [|x l IH]; cbn; [tauto|]. intros [F H] [->|A] [B|B].
  - inversion B. auto.
  - cbn in F. destruct F as (_ & F & _). destruct F. exists id', k', w'. exact B.
  - subst x. cbn in F. destruct F as (_ & F & _). destruct F. exists id, k, w. exact A.
  - apply IH; assumption.
Qed.
Definition mild (x : out) : Prop := ~ about x /\ (forall k, x <> I_REFUSED k E_QUEUE_FULL) /\ x <> O_TERMINATED.
Lemma quiet_mild x : quiet x -> mild x. Proof. intro H. split; [apply quiet_about, H|]. split; [intros k ->; exact H|intros ->; exact H]. Qed.
Lemma mild_fine x l : mild x -> fine x l. Proof. intros (A & B & C). destruct x; cbn in *; try tauto. destruct e; try tauto. destruct (B k). reflexivity. Qed.

Lemma VI_note x h t ta on pe la ne o : mild x -> VI (mkvw h t ta on pe la ne o) -> VI (mkvw h t ta on pe la ne (x :: o)).
Proof.
  intros M [H1 H2 H3 H4 H5 H6 H7 H8 H9 H10 H11 H12 H13 H14 H15]. cbn in *. assert (A := proj1 M). constructor; cbn; try assumption.
  - split; [apply mild_fine, M|exact H1].
  - intros u K. rewrite made_skip in K by assumption. auto.
  - intros e K. right. auto.
  - intros e K. rewrite over_skip by assumption. auto.
  - intros e K. rewrite attempted_skip by assumption. auto.
  - intros u K. rewrite made_skip in K by assumption. rewrite over_skip by assumption. auto.
  - intros e d K E. destruct (H14 e d K E) as (T1 & T2 & newer & p & ok & m & T3 & T4 & T5). repeat split; try tauto. exists (x :: newer), p, ok, m. rewrite attempted_skip by assumption. rewrite T3. auto.
Qed.
Lemma VI_full k h t ta on pe la ne o : (forall id, 1 <= id <= 65535 -> In id (map fst t)) -> VI (mkvw h t ta on pe la ne o) -> VI (mkvw h t ta on pe la ne (I_REFUSED k E_QUEUE_FULL :: o)).
Proof.
  intros M [H1 H2 H3 H4 H5 H6 H7 H8 H9 H10 H11 H12 H13 H14 H15]. cbn in *. assert (A : ~ about (I_REFUSED k E_QUEUE_FULL)) by (cbn; tauto). constructor; cbn; try assumption.
  - split; [|exact H1]. intros id L. specialize (M id L). rewrite H4, map_map in M. cbn in M. apply in_map_iff in M as (e & <- & K). exists (e_uid e), (e_kind e), (e_wait e). split; [apply H8, K|apply H9, K].
  - intros u K. rewrite made_skip in K by assumption. auto.
  - intros e K. right. auto.
  - intros e K. rewrite over_skip by assumption. auto.
  - intros e K. rewrite attempted_skip by assumption. auto.
  - intros u K. rewrite made_skip in K by assumption. rewrite over_skip by assumption. auto.
  - intros e d K E. destruct (H14 e d K E) as (T1 & T2 & newer & p & ok & m & T3 & T4 & T5). repeat split; try tauto. exists (I_REFUSED k E_QUEUE_FULL :: newer), p, ok, m. rewrite attempted_skip by assumption. rewrite T3. auto.
Qed.
(** a new request goes to the end of [pe ++ ta], of which at least one is empty *)
Lemma VI_make id k w h t ta on pe la ne o ta' pe' :
  1 <= id <= 65535 -> ~ In id (map fst t) -> (retryable k = false -> linked o = true) ->
  (ta' = ta ++ [ne] /\ pe = [] /\ pe' = [] \/ ta = [] /\ ta' = [] /\ on = [] /\ pe' = pe ++ [ne] /\ retryable k = true) ->
  VI (mkvw h t ta on pe la ne o) -> VI (mkvw (h ++ [mkess ne id k w false None]) (t ++ [(id, ne)]) ta' on pe' id (ne + 1) (I_MADE ne id k w :: o)).
Proof.
  intros L F R W [H1 H2 H3 H4 H5 H6 H7 H8 H9 H10 H11 H12 H13 H14 H15]. cbn in *.
  assert (Nh : ~ In ne (map e_uid h)) by (intro K; apply in_map_iff in K as (e & E & K); specialize (H8 e K); rewrite E in H8; assert (ne < ne) by (apply H3; eexists _, _, _; exact H8); lia).
  assert (Np : forall u, In u (ta ++ on ++ pe) -> u <> ne) by (intros u K ->; apply Nh, H7, K).
  assert (P' : forall u, In u (ta' ++ on ++ pe') <-> In u (ta ++ on ++ pe) \/ u = ne).
  { intro u. destruct W as [(-> & -> & ->)|(-> & -> & -> & -> & _)]; rewrite ?in_app_iff; cbn; intuition congruence. }
  assert (Lt : forall u, In u (map e_uid h) -> u < ne) by (intros u K; apply in_map_iff in K as (e & <- & K); apply H3; exists (e_id e), (e_kind e), (e_wait e); auto).
  assert (Fi : forall a, ~ In a (map fst t) -> ~ In a (map e_id h)) by (intros a K J; apply K; rewrite H4, map_map; exact J).
  constructor; cbn.
  - split; [|exact H1]. repeat split; try tauto.
    + intro K. apply H3 in K. lia.
    + intros v idv kv wv K O <-. destruct (H11 v ltac:(eexists _, _, _; exact K)) as [J|J]; [|tauto]. apply in_map_iff in J as (e & <- & J). destruct (made_once o _ _ _ _ _ _ _ H1 K (H8 e J)) as (-> & _ & _).
      apply (Fi (e_id e) F). apply in_map, J.
  - rewrite map_app. cbn. apply nodup_app_iff. repeat split; [exact H2|repeat constructor; tauto|]. intros x K [J|[]]. subst x. tauto.
  - intros u K. apply made_make in K as [->|K]; [lia|]. specialize (H3 u K). lia.
  - rewrite map_app, H4. reflexivity.
  - rewrite map_app. cbn. apply nodup_app_iff. repeat split; [exact H5|repeat constructor; tauto|]. intros x K [J|[]]. subst x. exact (Fi id F K).
  - unfold places in *. cbn in *. destruct W as [(-> & -> & ->)|(-> & -> & -> & -> & _)].
    + rewrite <- app_assoc. apply (NoDup_Add (a := ne) (l := ta ++ on ++ [])); [apply Add_app|]. split; [exact H6|]. intro K. exact (Np ne K eq_refl).
    + cbn in *. apply nodup_app_iff. repeat split; [exact H6|repeat constructor; tauto|]. intros x K [J|[]]. subst x. exact (Np ne K eq_refl).
  - intro u. unfold places in *. cbn in *. rewrite P', map_app, in_app_iff, H7. cbn. intuition congruence.
  - intros e K. apply in_app_iff in K as [K|[<-|[]]]; [right; auto|left; reflexivity].
  - intros e K. rewrite over_make. apply in_app_iff in K as [K|[<-|[]]]; [auto|]. cbn. intro O. apply over_made in O; [|exact H1]. apply H3 in O. lia.
  - intros e K. rewrite attempted_make. apply in_app_iff in K as [K|[<-|[]]]; [auto|]. cbn. split; [discriminate|]. intro O. apply attempted_made in O; [|exact H1]. apply H3 in O. lia.
  - intros u K. rewrite over_make, map_app, in_app_iff. apply made_make in K as [->|K]; [cbn; tauto|]. destruct (H11 u K); tauto.
  - intros e K J. apply in_app_iff in K as [K|[<-|[]]]; [auto|]. cbn in J. exfalso. apply (Np ne); [|reflexivity]. rewrite !in_app_iff. tauto.
  - intros e K J. apply in_app_iff in K as [K|[<-|[]]].
    + apply (H13 e K). destruct J as [J|[J|J]]; [tauto| |tauto]. destruct W as [(-> & -> & ->)|(-> & -> & -> & -> & _)]; [destruct J|]. apply in_app_iff in J as [J|[J|[]]]; [tauto|]. exfalso. apply Nh. rewrite J. apply in_map, K.
    + cbn in *. destruct W as [(-> & -> & ->)|(-> & -> & -> & -> & ?)]; [|assumption]. destruct J as [J|[J|J]]; [|destruct J|discriminate]. exfalso. apply (Np ne); [|reflexivity]. rewrite !in_app_iff. tauto.
  - intros e d K E. apply in_app_iff in K as [K|[<-|[]]]; [|discriminate]. destruct (H14 e d K E) as (T1 & T2 & newer & p & ok & m & T3 & T4 & T5). repeat split; try tauto. exists (I_MADE ne id k w :: newer), p, ok, m. rewrite attempted_make. rewrite T3. auto.
  - assert (S : StronglySorted N.lt (filter (unsent (h ++ [mkess ne id k w false None])) ((pe ++ ta) ++ [ne]))).
    { rewrite filter_app. cbn [filter]. replace (unsent (h ++ [mkess ne id k w false None]) ne) with true by (symmetry; apply unsent_in; exists (mkess ne id k w false None); rewrite in_app_iff; cbn; auto). apply sorted_snoc.
      - eapply sorted_weaken; [|exact H15]. intros u Ku K. apply unsent_in in K as (e & He & Eu & Es). apply unsent_in. apply in_app_iff in He as [He|[<-|[]]]; [eauto|]. cbn in Eu. exfalso. apply (Np u); [|auto]. rewrite in_app_iff in Ku. rewrite !in_app_iff. tauto.
      - intros x K. apply filter_In in K as [K _]. apply Lt, H7. unfold places. cbn. rewrite in_app_iff in K. rewrite !in_app_iff. tauto. }
    destruct W as [(-> & -> & ->)|(-> & -> & -> & -> & _)]; [exact S|]. rewrite app_nil_r in *. exact S.
Qed.
Lemma others_ids h e : NoDup (map e_id h) -> NoDup (map e_uid h) -> In e h -> other_ids (e_id e) (map (fun e => (e_id e, e_uid e)) h) = map (fun e => (e_id e, e_uid e)) (others (e_uid e) h).
Proof.
  intros Ni Nu He. unfold other_ids, others.
  assert (G : forall x, In x h -> (e_id x =? e_id e) = (e_uid x =? e_uid e)).
  { intros x Hx. destruct (e_uid x =? e_uid e) eqn:E.
    - apply N.eqb_eq in E. rewrite (uid_inj h x e Nu Hx He E). apply N.eqb_refl.
    - apply N.eqb_neq in E. apply N.eqb_neq. intro K. apply E. clear - Ni Hx He K. induction h as [|y h IH]; [destruct He|]. cbn in Ni. inversion Ni as [|? ? N Ni']; subst.
      destruct Hx as [->|Hx], He as [->|He]; auto; exfalso; apply N; [rewrite K|rewrite <- K]; apply in_map; assumption. }
  clear - G. induction h as [|x h IH]; [reflexivity|]. cbn. rewrite (G x (or_introl eq_refl)). destruct (e_uid x =? e_uid e); cbn; rewrite IH; auto; intros; apply G; right; assumption.
Qed.
Lemma VI_over e y h t ta on pe la ne o :
  In e h -> (e_kind e <> K_PING -> because y (e_uid e) (e_id e) (e_kind e) (e_wait e) o) -> VI (mkvw h t ta on pe la ne o) ->
  VI (mkvw (others (e_uid e) h) (other_ids (e_id e) t) (without (e_uid e) ta) (without (e_uid e) on) (without (e_uid e) pe) la ne (over_out e y :: o)).
Proof.
  intros He B [H1 H2 H3 H4 H5 H6 H7 H8 H9 H10 H11 H12 H13 H14 H15]. unfold places in *. cbn in *.
  constructor; unfold places; cbn.
  - split; [|exact H1]. apply fine_over; auto.
  - apply nodup_map_filter, H2.
  - intros u K. rewrite made_over in K. auto.
  - rewrite H4. apply others_ids; assumption.
  - apply nodup_map_filter, H5.
  - rewrite <- !without_app. apply nodup_filter, H6.
  - intro u. rewrite <- !without_app, in_without, <- H7. split.
    + intro K. apply in_map_iff in K as (x & <- & K). apply in_others in K as [K N]. split; [apply in_map, K|exact N].
    + intros [K N]. apply in_map_iff in K as (x & <- & K). apply in_map. apply in_others. auto.
  - intros x K. apply in_others in K as [K N]. right. auto.
  - intros x K. apply in_others in K as [K N]. rewrite over_over. intros [J|J]; [tauto|]. exact (H9 x K J).
  - intros x K. apply in_others in K as [K N]. rewrite attempted_over. auto.
  - intros u K. rewrite made_over in K. rewrite over_over. destruct (N.eq_dec u (e_uid e)) as [E|E]; [tauto|]. destruct (H11 u K) as [J|J]; [|tauto]. left. apply in_map_iff in J as (x & <- & J). apply in_map, in_others. auto.
  - intros x K J. apply in_others in K as [K N]. apply in_without in J. apply H12; tauto.
  - intros x K J. apply in_others in K as [K N]. rewrite !in_without in J. apply (H13 x K). tauto.
  - intros x d K E. apply in_others in K as [K N]. destruct (H14 x d K E) as (T1 & T2 & newer & p & ok & m & T3 & T4 & T5). repeat split; try tauto; [apply in_without; auto|]. exists (over_out e y :: newer), p, ok, m. rewrite attempted_over. rewrite T3. auto.
  - rewrite <- without_app. eapply sorted_weaken with (f := unsent h).
    + intros u _ K. apply unsent_in in K as (x & Hx & Eu & Es). apply in_others in Hx. apply unsent_in. exists x. tauto.
    + unfold without. assert (C : forall (f g : N -> bool) l, filter f (filter g l) = filter g (filter f l)).
      { clear. intros f g l. induction l as [|x l IH]; [reflexivity|]. cbn. destruct (f x) eqn:F, (g x) eqn:G; cbn; rewrite ?F, ?G, IH; reflexivity. }
      rewrite C. apply sorted_filter, H15.
Qed.
(** the request at the head of the tasks has its turn *)
Lemma fine_send e p ok h t ta on la ne o :
  VI (mkvw h t (e_uid e :: ta) on [] la ne o) -> In e h -> (e_sent e = true -> retryable (e_kind e) = true) -> carries (e_id e) (e_kind e) (e_sent e) p -> linked o = true -> same_session (e_uid e) o ->
  fine (O_SEND (e_uid e) p ok) o.
Proof.
  intros [H1 H2 H3 H4 H5 H6 H7 H8 H9 H10 H11 H12 H13 H14 H15] He R C L S. unfold places in *. cbn in *. exists (e_id e), (e_kind e), (e_wait e). repeat split; auto.
  - exists (e_sent e). split; [exact C|]. apply H10, He.
  - intro A. apply R, H10; assumption.
  - intros A v M Lt. destruct (H11 v M) as [J|J]; [|tauto]. apply in_map_iff in J as (x & <- & J). destruct (e_sent x) eqn:Es; [left; apply H10; assumption|]. exfalso.
    assert (Us : e_sent e = false) by (destruct (e_sent e) eqn:E; [|reflexivity]; destruct A; apply H10; assumption).
    rewrite (unsent_one h e H2 He), Us in H15. cbn in H15. assert (P := proj1 (H7 (e_uid x)) (in_map _ _ _ J)). rewrite app_nil_r, in_app_iff in P. destruct P as [E|[P|P]]; [lia| |].
    + inversion H15 as [|? ? _ F]; subst. rewrite Forall_forall in F. assert (e_uid e < e_uid x); [|lia]. apply F, filter_In. split; [exact P|]. apply unsent_in. eauto.
    + rewrite (H12 x J P) in Es. discriminate.
Qed.
Lemma VI_send e p ok tm h t ta on la ne o :
  In e h -> retryable (e_kind e) = true -> carries (e_id e) (e_kind e) (e_sent e) p -> timer_for (e_wait e) o ok tm -> linked o = true -> same_session (e_uid e) o ->
  VI (mkvw h t (e_uid e :: ta) on [] la ne o) -> VI (mkvw (marked (e_uid e) tm h) t ta (on ++ [e_uid e]) [] la ne (O_SEND (e_uid e) p ok :: o)).
Proof.
  intros He R C T L S V. assert (Fs := fine_send e p ok h t ta on la ne o V He (fun _ => R) C L S). destruct V as [H1 H2 H3 H4 H5 H6 H7 H8 H9 H10 H11 H12 H13 H14 H15]. unfold places in *. cbn in *.
  assert (Pl : forall u, In u (ta ++ (on ++ [e_uid e]) ++ []) <-> In u (e_uid e :: ta ++ on ++ [])) by (intro u; cbn; rewrite !in_app_iff; cbn; tauto).
  constructor; unfold places; cbn.
  - split; assumption.
  - rewrite marked_uids. exact H2.
  - intros u K. rewrite made_send in K. auto.
  - rewrite marked_pairs. exact H4.
  - rewrite marked_ids. exact H5.
  - rewrite app_nil_r in *. inversion H6 as [|? ? N H6']; subst. rewrite app_assoc. apply nodup_app_iff. repeat split; [exact H6'|repeat constructor; tauto|]. intros x K [J|[]]. subst x. tauto.
  - intro u. rewrite marked_uids, Pl. apply H7.
  - intros x K. apply in_marked in K as (z & K & -> & -> & -> & -> & _). right. auto.
  - intros x K. apply in_marked in K as (z & K & -> & _). rewrite over_send. auto.
  - intros x K. apply in_marked in K as (z & K & -> & _ & _ & _ & [(E & -> & _)|(E & ->)]); rewrite attempted_send; [tauto|]. rewrite H10 by assumption. tauto.
  - intros u K. rewrite made_send in K. rewrite over_send, marked_uids. auto.
  - intros x K J. apply in_marked in K as (z & K & Eu & _ & _ & _ & [(E & Es & _)|(E & ->)]); [exact Es|]. apply H12; [assumption|]. apply in_app_iff in J as [J|[J|[]]]; [exact J|congruence].
  - intros x K J. apply in_marked in K as (z & K & Eu & _ & -> & _ & [(E & _ & _)|(E & ->)]); [rewrite (uid_inj h z e H2 K He E); exact R|]. apply (H13 z K). rewrite in_app_iff in J. cbn in J. intuition congruence.
  - intros x d K E. apply in_marked in K as (z & K & Eu & _ & _ & Ew & [(Ez & _ & Et)|(Ez & ->)]).
    + assert (z = e) by (apply (uid_inj h); assumption). subst z. rewrite Et in E. destruct T as [[T _]|[T1 T2]]; [congruence|]. rewrite Eu, Ew. repeat split; try tauto; [rewrite in_app_iff; cbn; tauto|].
      exists [], p, ok, o. repeat split; [unfold attempted; cbn; intros (? & ? & [])|congruence].
    + destruct (H14 z d K E) as (T1 & T2 & newer & p' & ok' & m & T3 & T4 & T5). repeat split; try tauto; [rewrite in_app_iff; tauto|]. exists (O_SEND (e_uid e) p ok :: newer), p', ok', m. rewrite attempted_send, T3. repeat split; auto. intros [J|J]; [congruence|tauto].
  - eapply sorted_weaken with (f := unsent h).
    + intros u _ K. apply unsent_in in K as (x & Hx & Exu & Es). apply in_marked in Hx as (z & K & Eu & _ & _ & _ & [(Ez & J & _)|(Ez & ->)]); [congruence|]. apply unsent_in. eauto.
    + destruct (unsent h (e_uid e)); [|exact H15]. inversion H15; assumption.
Qed.
Lemma VI_final e p ok y h t ta on la ne o :
  In e h -> (e_sent e = true -> retryable (e_kind e) = true) -> carries (e_id e) (e_kind e) (e_sent e) p -> linked o = true -> same_session (e_uid e) o ->
  (e_kind e <> K_PING -> because y (e_uid e) (e_id e) (e_kind e) (e_wait e) (O_SEND (e_uid e) p ok :: o)) ->
  VI (mkvw h t (e_uid e :: ta) on [] la ne o) -> VI (mkvw (others (e_uid e) h) (other_ids (e_id e) t) ta on [] la ne (over_out e y :: O_SEND (e_uid e) p ok :: o)).
Proof.
  intros He R C L S B V. assert (Fs := fine_send e p ok h t ta on la ne o V He R C L S). destruct V as [H1 H2 H3 H4 H5 H6 H7 H8 H9 H10 H11 H12 H13 H14 H15]. unfold places in *. cbn in *.
  assert (Ne : forall u, In u (ta ++ on ++ []) -> u <> e_uid e) by (intros u K ->; inversion H6; tauto).
  constructor; unfold places; cbn.
  - split; [|split; assumption]. apply fine_over; [right; auto|rewrite over_send; auto|exact B].
  - apply nodup_map_filter, H2.
  - intros u K. rewrite made_over, made_send in K. auto.
  - rewrite H4. apply others_ids; assumption.
  - apply nodup_map_filter, H5.
  - inversion H6; assumption.
  - intro u. split.
    + intro K. apply in_map_iff in K as (x & <- & K). apply in_others in K as [K N]. assert (J := proj1 (H7 (e_uid x)) (in_map _ _ _ K)). destruct J; [congruence|assumption].
    + intro K. assert (J := proj2 (H7 u) (or_intror K)). apply in_map_iff in J as (x & <- & J). apply in_map, in_others. split; [exact J|]. apply Ne, K.
  - intros x K. apply in_others in K as [K N]. right. right. auto.
  - intros x K. apply in_others in K as [K N]. rewrite over_over, over_send. intros [J|J]; [tauto|]. exact (H9 x K J).
  - intros x K. apply in_others in K as [K N]. rewrite attempted_over, attempted_send, H10 by assumption. tauto.
  - intros u K. rewrite made_over, made_send in K. rewrite over_over, over_send. destruct (N.eq_dec u (e_uid e)) as [E|E]; [tauto|]. destruct (H11 u K) as [J|J]; [|tauto]. left. apply in_map_iff in J as (x & <- & J). apply in_map, in_others. auto.
  - intros x K J. apply in_others in K as [K N]. apply H12; tauto.
  - intros x K J. apply in_others in K as [K N]. apply (H13 x K). tauto.
  - intros x d K E. apply in_others in K as [K N]. destruct (H14 x d K E) as (T1 & T2 & newer & p' & ok' & m & T3 & T4 & T5). repeat split; try tauto. exists (over_out e y :: O_SEND (e_uid e) p ok :: newer), p', ok', m. rewrite attempted_over, attempted_send, T3. repeat split; auto. tauto.
  - eapply sorted_weaken with (f := unsent h).
    + intros u _ K. apply unsent_in in K as (x & Hx & Eu & Es). apply in_others in Hx. apply unsent_in. exists x. tauto.
    + destruct (unsent h (e_uid e)); [|exact H15]. inversion H15; assumption.
Qed.
Lemma VI_requeue e h t ta on pe la ne o : In e h -> retryable (e_kind e) = true -> VI (mkvw h t (e_uid e :: ta) on pe la ne o) -> VI (mkvw h t ta on (pe ++ [e_uid e]) la ne o).
Proof.
  intros He R [H1 H2 H3 H4 H5 H6 H7 H8 H9 H10 H11 H12 H13 H14 H15]. unfold places in *. cbn in *. constructor; unfold places; cbn; try assumption.
  - inversion H6 as [|? ? N H6']; subst. rewrite !app_assoc in *. apply nodup_app_iff. repeat split; [exact H6'|repeat constructor; tauto|]. intros x K [J|[]]. subst x. tauto.
  - intro u. rewrite H7. cbn. rewrite !in_app_iff. cbn. tauto.
  - intros x K J. rewrite in_app_iff in J. cbn in J. destruct J as [J|[[J|[J|[]]]|J]]; try (apply (H13 x K); tauto). rewrite <- (uid_inj h e x H2 He K J). exact R.
  - rewrite <- app_assoc. exact H15.
Qed.
Lemma VI_flush h t ta on pe la ne o : ta = [] \/ pe = [] -> VI (mkvw h t ta on pe la ne o) -> VI (mkvw h t (ta ++ pe) on [] la ne o).
Proof.
  intros D [H1 H2 H3 H4 H5 H6 H7 H8 H9 H10 H11 H12 H13 H14 H15]. unfold places in *. cbn in *. constructor; unfold places; cbn; try assumption.
  - rewrite app_nil_r. destruct D as [->| ->]; cbn in *; rewrite ?app_nil_r in *; [|exact H6]. apply nodup_app_iff. apply nodup_app_iff in H6 as (A & B & C). repeat split; auto. intros x K J. exact (C x J K).
  - intro u. rewrite H7, !in_app_iff. cbn. tauto.
  - intros x K J. apply (H13 x K). cbn in J. tauto.
  - destruct D as [->| ->]; cbn in *; rewrite ?app_nil_r in *; exact H15.
Qed.
Lemma VI_timers h t ta on pe la ne o : VI (mkvw h t ta on pe la ne o) -> VI (mkvw (map calmed h) t ta on pe la ne o).
Proof.
  intros [H1 H2 H3 H4 H5 H6 H7 H8 H9 H10 H11 H12 H13 H14 H15]. unfold places in *. cbn in *.
  assert (A : forall x, In x (map calmed h) -> exists z, In z h /\ x = calmed z) by (intros x K; apply in_map_iff in K as (z & <- & K); eauto).
  assert (U : map e_uid (map calmed h) = map e_uid h) by (rewrite map_map; reflexivity).
  constructor; unfold places; cbn; try assumption.
  - rewrite U. exact H2.
  - rewrite map_map. exact H4.
  - rewrite map_map. exact H5.
  - intro u. rewrite U. apply H7.
  - intros x K. apply A in K as (z & K & ->). apply (H8 z K).
  - intros x K. apply A in K as (z & K & ->). apply (H9 z K).
  - intros x K. apply A in K as (z & K & ->). apply (H10 z K).
  - intros u K. rewrite U. auto.
  - intros x K. apply A in K as (z & K & ->). apply (H12 z K).
  - intros x K. apply A in K as (z & K & ->). apply (H13 z K).
  - intros x d K. apply A in K as (z & K & ->). discriminate.
  - eapply sorted_weaken; [|exact H15]. intros u _ K. apply unsent_in in K as (x & Hx & Eu & Es). apply A in Hx as (z & K & ->). apply unsent_in. eauto.
Qed.
Lemma VI_lost h t on pe la ne o : (forall e, In e h -> e_timer e = None) -> VI (mkvw h t [] on pe la ne o) -> VI (mkvw h t [] [] (pe ++ on) la ne o).
Proof.
  intros Nt [H1 H2 H3 H4 H5 H6 H7 H8 H9 H10 H11 H12 H13 H14 H15]. unfold places in *. cbn in *. constructor; unfold places; cbn; try assumption.
  - apply nodup_app_iff in H6 as (A & B & C). apply nodup_app_iff. repeat split; auto. intros x K J. exact (C x J K).
  - intro u. rewrite H7, !in_app_iff. tauto.
  - tauto.
  - intros x K J. apply (H13 x K). rewrite in_app_iff in J. tauto.
  - intros x d K E. rewrite (Nt x K) in E. discriminate.
  - rewrite app_nil_r in *. rewrite filter_app. replace (filter (unsent h) on) with (@nil N); [rewrite app_nil_r; exact H15|]. symmetry. clear - H2 H7 H12. 
    assert (G : forall u, In u on -> unsent h u = false).
    { intros u K. destruct (unsent h u) eqn:E; [|reflexivity]. apply unsent_in in E as (e & He & <- & Es). rewrite (H12 e He K) in Es. discriminate. }
    clear H7 H12. induction on as [|u on IH]; [reflexivity|]. cbn. rewrite G by (left; reflexivity). apply IH. intros; apply G; right; assumption.
Qed.
Lemma VI_end la ne o : VI (mkvw [] [] [] [] [] la ne o) -> VI (mkvw [] [] [] [] [] la ne (O_TERMINATED :: o)).
Proof.
  intros [H1 H2 H3 H4 H5 H6 H7 H8 H9 H10 H11 H12 H13 H14 H15]. cbn in *. assert (A : ~ about O_TERMINATED) by (cbn; tauto). constructor; cbn; try assumption; try tauto.
  - split; [|exact H1]. intros u K. destruct (H11 u K) as [[]|J]. exact J.
  - intros u K. rewrite made_skip in K by assumption. auto.
  - intros u K. rewrite made_skip in K by assumption. rewrite over_skip by assumption. auto.
Qed.
Lemma vstep_VI a b : vstep a b -> VI a -> VI b.
Proof.
  intros [x h t ta on pe la ne o Q|k h t ta on pe la ne o Q|id k w h t ta on la ne o W A B C|id k w h t pe la ne o W A B C|e p ok tm h t ta on la ne o|e p ok y h t ta on la ne o|e y h t ta on pe la ne o|e h t ta on pe la ne o|h t ta on pe la ne o D L|h t ta on pe la ne o|h t on pe la ne o|la ne o].
  - apply VI_note, quiet_mild, Q.
  - apply VI_full, Q.
  - apply VI_make; auto.
  - apply VI_make; auto 8. congruence.
  - apply VI_send; assumption.
  - apply VI_final; assumption.
  - apply VI_over; assumption.
  - apply VI_requeue; assumption.
  - apply VI_flush; assumption.
  - apply VI_timers.
  - apply VI_lost; assumption.
  - apply VI_end.
Qed.
Lemma vsteps_VI a b : vsteps a b -> VI a -> VI b.
Proof. induction 1 as [|a b c H _ IH]; [auto|]. intro K. apply IH. exact (vstep_VI a b H K). Qed.

(** ** Small steps and the events they add *)
Definition keeps (o o' : list out) : Prop := linked o' = linked o /\ clock o' = clock o /\ wants_clean o' = wants_clean o /\ forall u, same_session u o -> same_session u o'.
Lemma keeps_refl o : keeps o o. Proof. repeat split; auto. Qed.
Lemma keeps_trans a b c : keeps a b -> keeps b c -> keeps a c.
Proof. intros (A1 & A2 & A3 & A4) (B1 & B2 & B3 & B4). repeat split; try congruence. auto. Qed.
Definition still (x : out) : Prop := match x with I_UP | I_DOWN _ | I_CONNECT _ | I_TICK _ | I_PACKET _ => False | _ => True end.
Lemma keeps_cons x o : still x -> keeps o (x :: o).
Proof. intro H. destruct x; try destruct H; repeat split; cbn; auto. Qed.
Lemma quiet_still x : quiet x -> still x. Proof. destruct x; cbn; tauto. Qed.
Lemma over_out_still e y : still (over_out e y). Proof. unfold over_out. destruct (e_kind e); exact I. Qed.
Definition FI (v : vw) : Prop := forall e, In e (v_heap v) -> same_session (e_uid e) (v_out v) /\ e_wait e < two64.
Lemma vstep_keeps a b : vstep a b -> keeps (v_out a) (v_out b).
Proof.
  intros [x h t ta on pe la ne o Q|k h t ta on pe la ne o Q|id k w h t ta on la ne o W A B C|id k w h t pe la ne o W A B C|e p ok tm h t ta on la ne o|e p ok y h t ta on la ne o|e y h t ta on pe la ne o|e h t ta on pe la ne o|h t ta on pe la ne o|h t ta on pe la ne o|h t on pe la ne o|la ne o]; cbn; intros; try apply keeps_refl; try (apply keeps_cons; exact I).
  - apply keeps_cons, quiet_still, Q.
  - eapply keeps_trans; [apply keeps_cons with (x := O_SEND (e_uid e) p ok); exact I|]. apply keeps_cons, over_out_still.
  - apply keeps_cons, over_out_still.
Qed.
Lemma vsteps_keeps a b : vsteps a b -> keeps (v_out a) (v_out b).
Proof. induction 1 as [|a b c H _ IH]; [apply keeps_refl|]. eapply keeps_trans; [apply vstep_keeps, H|exact IH]. Qed.
Lemma vstep_FI a b : vstep a b -> FI a -> FI b.
Proof.
  intros H F. pose proof (vstep_keeps a b H) as (_ & _ & _ & K). revert F K.
  destruct H as [x h t ta on pe la ne o Q|k h t ta on pe la ne o Q|id k w h t ta on la ne o W A B C|id k w h t pe la ne o W A B C|e p ok tm h t ta on la ne o|e p ok y h t ta on la ne o|e y h t ta on pe la ne o|e h t ta on pe la ne o|h t ta on pe la ne o|h t ta on pe la ne o|h t on pe la ne o|la ne o]; unfold FI; cbn -[same_session]; intros F K x' Hx; try (destruct (F x' Hx); auto; fail).
  - apply in_app_iff in Hx as [Hx|[<-|[]]]; [destruct (F x' Hx); auto|]. cbn. auto.
  - apply in_app_iff in Hx as [Hx|[<-|[]]]; [destruct (F x' Hx); auto|]. cbn. auto.
  - apply in_marked in Hx as (z & Hz & -> & _ & _ & -> & _). destruct (F z Hz). auto.
  - apply in_others in Hx as [Hx _]. destruct (F x' Hx). auto.
  - apply in_others in Hx as [Hx _]. destruct (F x' Hx). auto.
  - apply in_map_iff in Hx as (z & <- & Hz). destruct (F z Hz). auto.
Qed.
Lemma vsteps_FI a b : vsteps a b -> FI a -> FI b.
Proof. induction 1 as [|a b c H _ IH]; [auto|]. intro K. apply IH. exact (vstep_FI a b H K). Qed.
(** tasks and ongoing requests are those of an accepted connection *)
Definition LV (v : vw) : Prop := v_tasks v <> [] \/ v_ongoing v <> [] -> linked (v_out v) = true.
Lemma without_nonnil u l : without u l <> [] -> l <> []. Proof. intros H ->. apply H. reflexivity. Qed.
Lemma vstep_LV a b : vstep a b -> LV a -> LV b.
Proof.
  intros H F. pose proof (vstep_keeps a b H) as (K & _). unfold LV. rewrite K. clear K. revert F.
  destruct H as [x h t ta on pe la ne o Q|k h t ta on pe la ne o Q|id k w h t ta on la ne o W A B C|id k w h t pe la ne o W A B C|e p ok tm h t ta on la ne o H1 H2 H3 H4 H5|e p ok y h t ta on la ne o|e y h t ta on pe la ne o|e h t ta on pe la ne o|h t ta on pe la ne o|h t ta on pe la ne o|h t on pe la ne o|la ne o]; unfold LV; cbn -[linked without]; intro F; auto.
  - intros [K|K]; apply F; [left|right]; eapply without_nonnil; exact K.
  - intros _. apply F. left. discriminate.
  - intros [K|K]; destruct K; reflexivity.
Qed.
Lemma vsteps_LV a b : vsteps a b -> LV a -> LV b.
Proof. induction 1 as [|a b c H _ IH]; [auto|]. intro K. apply IH. exact (vstep_LV a b H K). Qed.
Lemma vsteps_last a b : vsteps a b -> v_last a <= 65535 -> v_last b <= 65535.
Proof. induction 1 as [|a b c H _ IH]; [auto|]. intro K. apply IH. destruct H; cbn in *; lia. Qed.
(** ** What is sent on the present connection *)
(** was the packet of [u] sent since the channel was set up? *)
Fixpoint lately (u : N) (l : list out) : Prop := match l with [] => False | (I_UP | I_DOWN _) :: _ => False | O_SEND v _ _ :: m => v = u \/ lately u m | _ :: m => lately u m end.
Lemma lately_attempted u l : lately u l -> attempted u l.
Proof. induction l as [|x l IH]; [intros []|]. intro H. apply attempted_cons. destruct x; cbn in H; try (right; apply IH, H); try destruct H; subst; eauto. Qed.
Lemma lately_still u x l : still x -> ~ about x -> (lately u (x :: l) <-> lately u l). Proof. intros S A. destruct x; cbn in *; tauto. Qed.
Lemma lately_over u e y l : lately u (over_out e y :: l) <-> lately u l. Proof. unfold over_out. destruct (e_kind e); cbn; tauto. Qed.
Record NV (v : vw) : Prop := {
  n_ongoing : forall u, In u (v_ongoing v) -> linked (v_out v) = true -> lately u (v_out v);
  n_others : forall u, In u (v_tasks v ++ v_pending v) -> linked (v_out v) = true -> ~ lately u (v_out v);
  n_timer : forall e, In e (v_heap v) -> In (e_uid e) (v_ongoing v) -> linked (v_out v) = true ->
            exists newer p ok m, v_out v = newer ++ O_SEND (e_uid e) p ok :: m /\ ~ attempted (e_uid e) newer /\ (ok = true -> 0 < e_wait e < two64 - 1 -> e_timer e = Some (sat_add (clock m) (e_wait e))) }.
Lemma NV_note x h t ta on pe la ne o : still x -> ~ about x -> NV (mkvw h t ta on pe la ne o) -> NV (mkvw h t ta on pe la ne (x :: o)).
Proof.
  intros S A [N1 N2 N3]. destruct (keeps_cons x o S) as (L & _). constructor; cbn -[lately linked] in *; rewrite L.
  - intros u K J. rewrite lately_still by assumption. auto.
  - intros u K J. rewrite lately_still by assumption. auto.
  - intros e K J Li. destruct (N3 e K J Li) as (newer & p & ok & m & E1 & E2 & E3). exists (x :: newer), p, ok, m. rewrite E1. repeat split; auto. rewrite attempted_skip; assumption.
Qed.
Lemma NV_over e y h t ta on pe la ne o ta' : (forall u, In u ta' -> In u ta) -> NV (mkvw h t ta on pe la ne o) -> NV (mkvw (others (e_uid e) h) (other_ids (e_id e) t) ta' (without (e_uid e) on) (without (e_uid e) pe) la ne (over_out e y :: o)).
Proof.
  intros T [N1 N2 N3]. destruct (keeps_cons (over_out e y) o (over_out_still e y)) as (L & _). constructor; cbn -[lately linked] in *; rewrite L.
  - intros u K J. rewrite lately_over. apply in_without in K. apply N1; tauto.
  - intros u K J. rewrite lately_over. apply N2; [|exact J]. rewrite in_app_iff, in_without in K. apply in_app_iff. destruct K as [K|K]; [left; auto|tauto].
  - intros x K J Li. apply in_others in K as [K Ne]. apply in_without in J. destruct (N3 x K (proj1 J) Li) as (newer & p & ok & m & E1 & E2 & E3). exists (over_out e y :: newer), p, ok, m. rewrite E1. repeat split; auto. rewrite attempted_over. exact E2.
Qed.
Lemma vstep_NV a b : vstep a b -> VI a -> NV a -> NV b.
Proof.
  intros [x h t ta on pe la ne o Q|k h t ta on pe la ne o Q|id k w h t ta on la ne o W A B C|id k w h t pe la ne o W A B C|e p ok tm h t ta on la ne o He R C T L S|e p ok y h t ta on la ne o He R C L S Y|e y h t ta on pe la ne o He Y|e h t ta on pe la ne o He R L|h t ta on pe la ne o D L|h t ta on pe la ne o L|h t on pe la ne o D L|la ne o] V H.
  - apply NV_note; [apply quiet_still, Q|apply quiet_about, Q|exact H].
  - apply NV_note; [exact I|cbn; tauto|exact H].
  - destruct H as [N1 N2 N3]. constructor; cbn -[attempted] in *.
    + intros u K J. auto.
    + intros u K J. rewrite app_nil_r in *. apply in_app_iff in K as [K|[<-|[]]]; [auto|]. intro X. apply lately_attempted in X. apply (attempted_made _ _ (i_fine _ V)) in X. apply (i_next _ V) in X. cbn in X. lia.
    + intros x K J Li. apply in_app_iff in K as [K|[<-|[]]].
      * destruct (N3 x K J Li) as (newer & p & ok & m & E1 & E2 & E3). exists (I_MADE ne id k w :: newer), p, ok, m. rewrite E1. repeat split; auto. rewrite attempted_make. exact E2.
      * exfalso. cbn in J. assert (Z := proj2 (i_places _ V ne) ltac:(unfold places; cbn; rewrite !in_app_iff; auto)). cbn in Z. apply in_map_iff in Z as (z & E & Z). assert (M := i_made _ V z Z). cbn in M. rewrite E in M. assert (ne < ne); [|lia]. apply (i_next _ V). eexists _, _, _. exact M.
  - destruct H as [N1 N2 N3]. constructor; cbn -[attempted] in *.
    + intros u [].
    + intros u K J. apply in_app_iff in K as [K|[<-|[]]]; [auto|]. intro X. apply lately_attempted in X. apply (attempted_made _ _ (i_fine _ V)) in X. apply (i_next _ V) in X. cbn in X. lia.
    + intros x K [].
  - destruct H as [N1 N2 N3]. assert (Nd := i_nodup _ V). unfold places in Nd. cbn in Nd. inversion Nd as [|? ? Nx _]; subst. constructor; cbn -[attempted] in *.
    + intros u K J. apply in_app_iff in K as [K|[K|[]]]; [right; auto|left; exact K].
    + intros u K J [X|X]; [subst u; apply Nx; rewrite app_nil_r in *; rewrite in_app_iff; auto|]. revert X. apply N2; [right; exact K|exact L].
    + intros x K J Li. apply in_marked in K as (z & K & Eu & _ & _ & Ew & [(Ez & _ & Et)|(Ez & ->)]).
      * rewrite Eu, Ez. exists [], p, ok, o. split; [reflexivity|]. split; [unfold attempted; cbn; intros (? & ? & [])|]. intros -> Lw. rewrite Ew in *. rewrite (uid_inj h z e (i_uids _ V) K He Ez) in *. rewrite Et. destruct T as [[_ T]|[_ ->]]; [|reflexivity]. destruct (T eq_refl); lia.
      * apply in_app_iff in J as [J|[J|[]]]; [|congruence]. destruct (N3 z K J Li) as (newer & p' & ok' & m & E1 & E2 & E3). exists (O_SEND (e_uid e) p ok :: newer), p', ok', m. rewrite E1. repeat split; auto. rewrite attempted_send. intros [X|X]; [congruence|tauto].
  - assert (Nd := i_nodup _ V). unfold places in Nd. cbn in Nd. inversion Nd as [|? ? Nx _]; subst. rewrite app_nil_r, in_app_iff in Nx.
    assert (G : NV (mkvw (others (e_uid e) h) (other_ids (e_id e) t) ta on [] la ne (O_SEND (e_uid e) p ok :: o))).
    { destruct H as [N1 N2 N3]. constructor; cbn -[attempted] in *.
      + intros u K J. right. auto.
      + intros u K J [X|X]; [subst u; rewrite app_nil_r in K; tauto|]. revert X. apply N2; [right; exact K|exact L].
      + intros x K J Li. apply in_others in K as [K Ne]. destruct (N3 x K J Li) as (newer & p' & ok' & m & E1 & E2 & E3). exists (O_SEND (e_uid e) p ok :: newer), p', ok', m. rewrite E1. repeat split; auto. rewrite attempted_send. intros [X|X]; [congruence|tauto]. }
    destruct G as [N1 N2 N3]. destruct (keeps_cons (over_out e y) (O_SEND (e_uid e) p ok :: o) (over_out_still e y)) as (Lk & _). constructor; cbn -[lately linked attempted] in *; rewrite Lk.
    + intros u K J. rewrite lately_over. auto.
    + intros u K J. rewrite lately_over. auto.
    + intros x K J Li. destruct (N3 x K J Li) as (newer & p' & ok' & m & E1 & E2 & E3). exists (over_out e y :: newer), p', ok', m. rewrite E1. repeat split; auto. rewrite attempted_over. exact E2.
  - apply NV_over with (ta := ta); [|exact H]. intros u K. apply in_without in K. tauto.
  - constructor; cbn -[attempted] in *; intros; congruence.
  - destruct H as [N1 N2 N3]. constructor; cbn -[attempted] in *; auto. intros u K J. rewrite app_nil_r in K. auto.
  - constructor; cbn -[attempted] in *; intros; congruence.
  - constructor; cbn -[attempted] in *; intros; congruence.
  - apply NV_note; [exact I|cbn; tauto|exact H].
Qed.
Lemma vsteps_NV a b : vsteps a b -> VI a -> NV a -> NV b.
Proof. induction 1 as [|a b c H _ IH]; [auto|]. intros V K. apply IH; [exact (vstep_VI a b H V)|exact (vstep_NV a b H V K)]. Qed.
Lemma lately_linked u l : each fine l -> lately u l -> linked l = true.
Proof.
  induction l as [|x l IH]; [intros _ []|]. intros [F H] L. assert (IH' := IH H). destruct x; cbn [lately linked] in *; auto; try contradiction.
  - destruct L as [L|L]; [|auto]. destruct F as (? & ? & ? & _ & _ & K & _). exact K.
  - destruct p; auto. destruct (_ =? _); auto.
Qed.
Lemma NV_mark y h t ta on pe la ne o : ~ about y -> VI (mkvw h t ta on pe la ne o) -> LV (mkvw h t ta on pe la ne o) -> NV (mkvw h t ta on pe la ne o) -> NV (mkvw h t ta on pe la ne (y :: o)).
Proof.
  intros A V L [N1 N2 N3]. destruct (linked (y :: o)) eqn:E; [|constructor; cbn [v_out]; intros; congruence].
  assert (Q : forall u, lately u (y :: o) <-> lately u o) by (intro u; destruct y; cbn in *; try tauto; discriminate).
  unfold LV in L. cbn [v_heap v_out v_tasks v_ongoing v_pending] in *. assert (G : forall u, In u on -> linked o = true) by (intros u K; apply L; right; intro Z; subst on; destruct K).
  constructor; cbn [v_heap v_out v_tasks v_ongoing v_pending].
  - intros u K _. apply Q, N1; eauto.
  - intros u K _ Z. apply Q in Z. assert (Lk := lately_linked u o (i_fine _ V) Z). exact (N2 u K Lk Z).
  - intros e K J _. destruct (N3 e K J (G _ J)) as (newer & p & ok & m & E1 & E2 & E3). exists (y :: newer), p, ok, m. rewrite E1. repeat split; auto. rewrite attempted_skip; assumption.
Qed.
