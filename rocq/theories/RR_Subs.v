(** Invariants of the request-response client's subscription records. *)
From Verif Require Import Base Split TopicAlias_Model TopicAlias_Proofs SubSet_Model Topic_Model Paths RR_Model RR_Steps RR_Decomp.
From Coq Require Import Permutation.

Definition maximum (cf : config) (k : kind) : N := match k with REQUEST => cf_max_requests cf | STREAM => cf_max_streams cf end.
Definition absent (s : client) (f : bytes) : bool := match get_sub f s with Some _ => false | None => true end.
(** filters still to be added by the operation being taken in *)
Definition wanted (g : ghost) (k : kind) (s : client) : N :=
  match g with TAKING o rest => if kind_eqb (o_kind o) k then len (filter (absent s) rest) else 0 | _ => 0 end.
Definition sub_ok (r : sub) : Prop :=
  (s_subscribed r = true -> s_pending r <> SUBSCRIBING) /\ (s_poisoned r = true -> s_kind r = STREAM /\ s_subscribed r = false /\ s_pending r = NOTHING).
Record J1 (cf : config) (g : ghost) (s : client) : Prop := {
  j1_nodup : NoDup (map s_filter (c_subs s));
  j1_ok : forall f r, get_sub f s = Some r -> sub_ok r;
  j1_unsub : c_phase s = ACTIVE -> forall f r, get_sub f s = Some r -> s_pending r = UNSUBSCRIBING -> s_listeners r = [];
  j1_count : forall k, len (records k s) + wanted g k s <= maximum cf k;
  j1_down : c_phase s <> ACTIVE -> c_subs s <> [] -> exists rest, g = CLEANING rest /\ forall r, In r (c_subs s) -> In (s_filter r) rest;
  j1_cleaning : forall rest, g = CLEANING rest -> c_phase s <> ACTIVE;
  j1_taking : forall o rest, g = TAKING o rest -> c_phase s = ACTIVE /\ forall f r, In f rest -> get_sub f s = Some r -> s_kind r = o_kind o /\ s_poisoned r = false /\ s_pending r <> UNSUBSCRIBING }.

Lemma get_sub_subs f s s' : c_subs s' = c_subs s -> get_sub f s' = get_sub f s.
Proof. unfold get_sub. intros ->. reflexivity. Qed.
Lemma records_subs k s s' : c_subs s' = c_subs s -> records k s' = records k s.
Proof. unfold records. intros ->. reflexivity. Qed.
Lemma absent_subs s s' : c_subs s' = c_subs s -> forall l, filter (absent s') l = filter (absent s) l.
Proof. intros H l. apply filter_ext. intros f. unfold absent. rewrite (get_sub_subs f s s' H). reflexivity. Qed.
Lemma wanted_subs g k s s' : c_subs s' = c_subs s -> wanted g k s' = wanted g k s.
Proof. intros H. destruct g; try reflexivity. cbn [wanted]. rewrite (absent_subs s s' H). reflexivity. Qed.
(** steps which leave the records alone *)
Lemma j1_frame cf g s g' s' : J1 cf g s -> c_subs s' = c_subs s -> c_phase s' = c_phase s -> (forall o rest, g' = TAKING o rest -> g = g') -> (forall rest, g' = CLEANING rest <-> g = CLEANING rest) -> J1 cf g' s'.
Proof.
  intros [H1 H2 H3 H4 H5 H6 H7] Es Ep Ht Hc. assert (Hg : forall f, get_sub f s' = get_sub f s) by (intros; apply get_sub_subs; assumption). constructor.
  - rewrite Es. assumption.
  - intros f r. rewrite Hg. apply H2.
  - rewrite Ep. intros Ha f r. rewrite Hg. apply H3. assumption.
  - intros k. rewrite (records_subs k s s' Es), (wanted_subs g' k s s' Es). specialize (H4 k). destruct g'; try (cbn [wanted]; lia). rewrite (Ht _ _ eq_refl) in H4. assumption.
  - rewrite Ep, Es. intros Ha Hn. destruct (H5 Ha Hn) as (rest & Hr & Hi). exists rest. split; [apply Hc; assumption|assumption].
  - intros rest Hr. rewrite Ep. apply (H6 rest), Hc, Hr.
  - intros o rest Hr. rewrite Ep. pose proof (Ht _ _ Hr) as Hg'. destruct (H7 o rest) as [Ha Hf]; [congruence|]. split; [assumption|]. intros f r Hi. rewrite Hg. apply Hf. assumption.
Qed.
Lemma len_records_upd k f g s : (forall r, s_kind (g r) = s_kind r) -> len (records k (upd_sub f g s)) = len (records k s).
Proof.
  intros Hg. unfold records, upd_sub. cbn [c_subs set_subs]. unfold len. f_equal. induction (c_subs s) as [|r l IH]; [reflexivity|]. cbn [map filter].
  assert (E : s_kind (if for_filter f r then g r else r) = s_kind r) by (destruct (for_filter f r); [apply Hg|reflexivity]). rewrite E. destruct (kind_eqb k (s_kind r)); cbn [length]; congruence.
Qed.
Lemma absent_upd f g s l : (forall r, s_filter (g r) = s_filter r) -> filter (absent (upd_sub f g s)) l = filter (absent s) l.
Proof. intros Hg. apply filter_ext. intros x. unfold absent. rewrite get_sub_upd by assumption. destruct (bytes_eqb f x); [|reflexivity]. destruct (get_sub x s); reflexivity. Qed.
(** steps which change one record *)
Lemma j1_upd cf g g' s f h r : J1 cf g s -> get_sub f s = Some r -> (forall r, s_filter (h r) = s_filter r) -> (forall r, s_kind (h r) = s_kind r) -> sub_ok (h r) ->
  (c_phase s = ACTIVE -> s_pending (h r) = UNSUBSCRIBING -> s_listeners (h r) = []) ->
  (g' = g \/ (g' = IDLE \/ exists l, g' = LOSING l) /\ (forall rest, g <> CLEANING rest)) -> (forall o f rest, g' <> TAKING o (f :: rest)) ->
  J1 cf g' (upd_sub f h s).
Proof.
  intros [H1 H2 H3 H4 H5 H6 H7] Hg Hf Hk Ho Hu Hgg Ht. constructor.
  - rewrite upd_sub_filters by assumption. assumption.
  - intros f' r'. rewrite get_sub_upd by assumption. destruct (bytes_eqb f f') eqn:E; [|apply H2]. apply bytes_eqb_spec in E. subst f'. rewrite Hg. intros [= <-]. assumption.
  - intros Ha f' r'. rewrite get_sub_upd by assumption. destruct (bytes_eqb f f') eqn:E; [|apply H3; exact Ha]. apply bytes_eqb_spec in E. subst f'. rewrite Hg. intros [= <-]. apply Hu. exact Ha.
  - intros k. rewrite len_records_upd by assumption. specialize (H4 k). destruct Hgg as [->|[[->|[l ->]] _]]; [|cbn [wanted]; lia|cbn [wanted]; lia]. destruct g as [|o [|f0 rest]| | | | | | | | | | | | |]; try exact H4. destruct (Ht o f0 rest eq_refl).
  - intros Ha Hn. assert (Hn' : c_subs s <> []) by (intros E; apply Hn; unfold upd_sub; cbn [c_subs set_subs]; rewrite E; reflexivity). destruct (H5 Ha Hn') as (rest & Hr & Hi). exists rest. split; [destruct Hgg as [->|[_ Hx]]; [assumption|destruct (Hx rest Hr)]|].
    intros x Hx. apply (in_map s_filter) in Hx. rewrite upd_sub_filters in Hx by assumption. apply in_map_iff in Hx as (y & <- & Hy). apply Hi. assumption.
  - intros rest ->. destruct Hgg as [Hgg|[[Hgg|[l Hgg]] _]]; [|discriminate|discriminate]. apply (H6 rest). auto.
  - intros o rest ->. destruct rest as [|f0 rest]; [|destruct (Ht o f0 rest eq_refl)]. destruct Hgg as [Hgg|[[Hgg|[l Hgg]] _]]; [|discriminate|discriminate]. destruct (H7 o []) as [Ha _]; [auto|]. split; [exact Ha|]. intros f' r' [].
Qed.
Lemma filter_map_subset {A} (p q : A -> bool) l : incl (filter q (filter p l)) (filter q l).
Proof. intros x Hx. apply filter_In in Hx as [H1 H2]. apply filter_In in H1 as [H1 _]. apply filter_In. auto. Qed.
Lemma len_filter_le {A} (p q : A -> bool) l : len (filter q (filter p l)) <= len (filter q l).
Proof. unfold len. induction l as [|x l IH]; [cbn; lia|]. cbn [filter]. destruct (p x); cbn [filter]; destruct (q x); cbn [length]; lia. Qed.
Lemma nodup_filter_map {A B} (h : A -> B) (p : A -> bool) l : NoDup (map h l) -> NoDup (map h (filter p l)).
Proof.
  induction l as [|x l IH]; intros H; [constructor|]. cbn [map] in H. inversion H as [|y z Hn Hd]; subst. cbn [filter]. destruct (p x); [|auto]. cbn [map]. constructor; [|auto].
  intros Hi. apply Hn. apply in_map_iff in Hi as (y & <- & Hy). apply filter_In in Hy. apply in_map, Hy.
Qed.
Lemma j1_drop cf g s f : J1 cf g s -> (forall o f rest, g <> TAKING o (f :: rest)) -> J1 cf g (drop_sub f s).
Proof.
  intros [H1 H2 H3 H4 H5 H6 H7] Ht. constructor.
  - apply nodup_filter_map. assumption.
  - intros f' r'. rewrite get_sub_drop. destruct (bytes_eqb f f'); [discriminate|apply H2].
  - intros Ha f' r'. rewrite get_sub_drop. destruct (bytes_eqb f f'); [discriminate|apply H3; exact Ha].
  - intros k. specialize (H4 k). assert (Hl : len (records k (drop_sub f s)) <= len (records k s)) by apply len_filter_le.
    assert (Hw : wanted g k (drop_sub f s) = wanted g k s); [|lia]. destruct g as [|o [|f0 rest]| | | | | | | | | | | | |]; try reflexivity. destruct (Ht o f0 rest eq_refl).
  - intros Ha Hn. assert (Hn' : c_subs s <> []) by (intros E; apply Hn; unfold drop_sub; cbn [c_subs set_subs]; rewrite E; reflexivity). destruct (H5 Ha Hn') as (rest & Hr & Hi). exists rest. split; [assumption|].
    intros x Hx. apply Hi. unfold drop_sub in Hx. cbn [c_subs set_subs] in Hx. apply filter_In in Hx. apply Hx.
  - intros rest Hr. apply (H6 rest Hr).
  - intros o rest Hr. destruct rest as [|f0 rest]; [|destruct (Ht o f0 rest Hr)]. destruct (H7 o [] Hr) as [Ha _]. split; [exact Ha|]. intros f' r' [].
Qed.
Lemma get_sub_new f k s f' : get_sub f' (set_subs (c_subs s ++ [mksub f k [] false NOTHING false]) s) =
  match get_sub f' s with Some r => Some r | None => if bytes_eqb f' f then Some (mksub f k [] false NOTHING false) else None end.
Proof. unfold get_sub. cbn [c_subs set_subs]. rewrite find_app. destruct (find _ _); [reflexivity|]. cbn [find]. unfold for_filter. cbn [s_filter]. destruct (bytes_eqb f' f); reflexivity. Qed.
Lemma get_sub_listen k id s f f' : get_sub f' (listen k id s f) =
  if bytes_eqb f f' then Some (match get_sub f s with Some r => with_listeners (if existsb (N.eqb id) (s_listeners r) then s_listeners r else s_listeners r ++ [id]) r | None => mksub f k [id] false NOTHING false end)
  else get_sub f' s.
Proof.
  unfold listen. rewrite get_sub_upd by reflexivity. destruct (bytes_eqb f f') eqn:E.
  - apply bytes_eqb_spec in E. subst f'. destruct (get_sub f s) as [r|] eqn:E; [rewrite E; reflexivity|]. rewrite get_sub_new, E, bytes_eqb_refl. reflexivity.
  - destruct (get_sub f s); [reflexivity|]. rewrite get_sub_new. destruct (get_sub f' s); [reflexivity|]. destruct (bytes_eqb f' f) eqn:E2; [|reflexivity]. apply bytes_eqb_spec in E2. subst. rewrite bytes_eqb_refl in E. discriminate.
Qed.
Lemma j1_listen cf o f rest s : J1 cf (TAKING o (f :: rest)) s -> J1 cf (TAKING o rest) (listen (o_kind o) (o_id o) s f).
Proof.
  intros [H1 H2 H3 H4 H5 H6 H7]. destruct (H7 o (f :: rest) eq_refl) as [Ha Hf]. clear H7.
  assert (P : c_phase (listen (o_kind o) (o_id o) s f) = c_phase s) by (unfold listen; destruct (get_sub f s); reflexivity).
  assert (G : forall f' r', get_sub f' (listen (o_kind o) (o_id o) s f) = Some r' -> (f' <> f /\ get_sub f' s = Some r') \/
     (f' = f /\ s_kind r' = o_kind o /\ s_poisoned r' = false /\ s_pending r' <> UNSUBSCRIBING /\ (s_subscribed r' = true -> s_pending r' <> SUBSCRIBING))).
  { intros f' r'. rewrite get_sub_listen. destruct (bytes_eqb f f') eqn:E.
    - apply bytes_eqb_spec in E. subst f'. intros [= <-]. right. split; [reflexivity|]. destruct (get_sub f s) as [r|] eqn:E; [|repeat split; discriminate]. destruct (Hf f r (or_introl eq_refl) E) as (K1 & K2 & K3).
      repeat split; try assumption. apply (H2 _ _ E).
    - apply bytes_eqb_false in E. intros H. left. auto. }
  constructor.
  - unfold listen. rewrite upd_sub_filters by reflexivity. destruct (get_sub f s) eqn:E; [assumption|]. cbn [c_subs set_subs]. rewrite map_app. cbn [map s_filter].
    apply (Permutation_NoDup (l := f :: map s_filter (c_subs s))); [apply Permutation_cons_append|]. constructor; [|assumption]. intros Hi. apply in_map_iff in Hi as (r & Hr & Hi).
    apply (in_get_sub s r H1) in Hi. congruence.
  - intros f' r' Hr. destruct (G _ _ Hr) as [[_ Hs]|(-> & K1 & K2 & K3 & K4)]; [apply (H2 _ _ Hs)|]. split; [assumption|]. congruence.
  - intros Ha' f' r' Hr Hp. destruct (G _ _ Hr) as [[_ Hs]|(-> & K1 & K2 & K3 & K4)]; [apply (H3 Ha _ _ Hs Hp)|contradiction].
  - intros k. specialize (H4 k). cbn [wanted] in *. destruct (get_sub f s) as [r|] eqn:E.
    + assert (L : len (records k (listen (o_kind o) (o_id o) s f)) = len (records k s)) by (unfold listen; rewrite E; apply len_records_upd; reflexivity). rewrite L.
      destruct (kind_eqb (o_kind o) k); [|assumption]. cbn [filter] in H4. unfold absent at 1 in H4. rewrite E in H4.
      assert (W : filter (absent (listen (o_kind o) (o_id o) s f)) rest = filter (absent s) rest); [|rewrite W; assumption].
      apply filter_ext. intros x. unfold absent. rewrite get_sub_listen. destruct (bytes_eqb f x) eqn:Ex; [|reflexivity]. apply bytes_eqb_spec in Ex. subst x. rewrite E. reflexivity.
    + assert (L : len (records k (listen (o_kind o) (o_id o) s f)) = len (records k s) + (if kind_eqb (o_kind o) k then 1 else 0)).
      { unfold listen. rewrite E. rewrite len_records_upd by reflexivity. unfold records. cbn [c_subs set_subs]. rewrite filter_app. unfold len. rewrite app_length. cbn [filter s_kind].
        destruct (o_kind o), k; cbn [kind_eqb length]; lia. }
      rewrite L. destruct (kind_eqb (o_kind o) k); [|lia]. cbn [filter] in H4. unfold absent at 1 in H4. rewrite E in H4. unfold len in H4 at 2. cbn [length] in H4.
      assert (W : (length (filter (absent (listen (o_kind o) (o_id o) s f)) rest) <= length (filter (absent s) rest))%nat).
      { clear. induction rest as [|x l IH]; [cbn; lia|]. cbn [filter]. assert (K : absent (listen (o_kind o) (o_id o) s f) x = true -> absent s x = true).
        { unfold absent. rewrite get_sub_listen. destruct (bytes_eqb f x); [discriminate|]. destruct (get_sub x s); auto. }
        destruct (absent (listen _ _ s f) x); [rewrite (K eq_refl)|destruct (absent s x)]; cbn [length]; lia. }
      unfold len at 2. lia.
  - rewrite P. congruence.
  - discriminate.
  - intros o' rest' [= <- <-]. rewrite P. split; [assumption|]. intros f' r' Hi Hr. destruct (G _ _ Hr) as [[_ Hs]|(-> & K1 & K2 & K3 & K4)]; [apply (Hf f' r'); [right; assumption|assumption]|auto].
Qed.
Definition cf_ok (cf : config) : Prop := cf_max_requests cf < two64.
Lemma refuses_none cf k fs s : cf_ok cf -> len (records k s) <= maximum cf k -> refuses cf k fs s = None ->
  len (records k s) + len (filter (absent s) fs) <= maximum cf k /\ forall f r, In f fs -> get_sub f s = Some r -> s_kind r = k /\ s_poisoned r = false /\ s_pending r <> UNSUBSCRIBING.
Proof.
  intros Hcf Hm. unfold refuses. change (fun f => match get_sub f s with Some _ => false | None => true end) with (absent s). destruct fs as [|f0 fs0]; [discriminate|]. set (fs := f0 :: fs0).
  destruct (existsb _ fs) eqn:E1; [discriminate|]. destruct (existsb _ fs) eqn:E2 in |- *; [discriminate|]. intros H. split.
  - destruct (N.eqb_spec (len (filter (absent s) fs)) 0) as [Ez|Ez]; [lia|]. destruct k; cbn [maximum] in *.
    + destruct (N.ltb_spec ((cf_max_requests cf + two64 - len (records REQUEST s)) mod two64) (len (filter (absent s) fs))) as [|Hle]; [discriminate|].
      replace (cf_max_requests cf + two64 - len (records REQUEST s)) with (cf_max_requests cf - len (records REQUEST s) + 1 * two64) in Hle by lia.
      rewrite N.mod_add in Hle by discriminate. rewrite N.mod_small in Hle by (unfold cf_ok in Hcf; lia). lia.
    + destruct (N.ltb_spec (cf_max_streams cf) (len (filter (absent s) fs) + len (records STREAM s))) as [|Hle]; [destruct (_ <=? _); discriminate|lia].
  - intros f r Hi Hr. assert (K1 : s_poisoned r || negb (kind_eqb (s_kind r) k) = false).
    { destruct (s_poisoned r || negb (kind_eqb (s_kind r) k)) eqn:E; [|reflexivity]. rewrite <- E1. symmetry. apply existsb_exists. exists f. split; [assumption|]. rewrite Hr. assumption. }
    assert (K2 : is_pending UNSUBSCRIBING r = false).
    { destruct (is_pending UNSUBSCRIBING r) eqn:E; [|reflexivity]. rewrite <- E2. symmetry. apply existsb_exists. exists f. split; [assumption|]. rewrite Hr. assumption. }
    apply orb_false_elim in K1 as [K1 K3]. apply negb_false_iff, kind_eqb_spec in K3. apply is_pending_not in K2. auto.
Qed.
(** what leaves the records alone *)
Lemma upd_op_subs id g s : c_subs (upd_op id g s) = c_subs s.
Proof. reflexivity. Qed.
Lemma wake_subs now s : c_subs (wake now s) = c_subs s.
Proof. unfold wake. destruct (active _); [|reflexivity]. destruct (_ || _); reflexivity. Qed.
Lemma fail_subs id e s : c_subs (fail id e s) = c_subs s.
Proof. unfold fail, halt, complete. destruct (get_op id s) as [o|]; [|reflexivity]. destruct (o_kind o); destruct (state_is _ o); try destruct (state_is S_TERMINAL o); reflexivity. Qed.
Definition emits (l : list out) s := mkclient (c_phase s) (c_connected s) (c_subs s) (c_ops s) (c_queue s) (c_streams s) (c_paths s) (c_tokens s) (c_events s) (c_flights s) (c_publishes s) (c_scheduled s) (c_next s) (l ++ c_out s) (c_crash s).
Definition is_message (topic payload : bytes) (x : out) : Prop := exists id, x = O_MESSAGE id topic payload.
Lemma emits_app l l' s : emits l (emits l' s) = emits (l ++ l') s.
Proof. unfold emits. cbn. rewrite app_assoc. reflexivity. Qed.
Lemma deliver_emits topic payload l s : exists l', fold_left (deliver topic payload) l s = emits l' s /\ Forall (is_message topic payload) l'.
Proof.
  revert s. induction l as [|id l IH]; intros s; [exists []; split; [destruct s; reflexivity|constructor]|]. cbn [fold_left]. destruct (IH (deliver topic payload s id)) as (l1 & -> & H1).
  assert (D : exists l', deliver topic payload s id = emits l' s /\ Forall (is_message topic payload) l').
  { assert (N : exists l', s = emits l' s /\ Forall (is_message topic payload) l') by (exists []; split; [destruct s; reflexivity|constructor]).
    unfold deliver. destruct (get_op id s) as [o|]; [|exact N]. destruct (o_kind o); [exact N|]. destruct (_ || _); [exact N|]. exists [O_MESSAGE id topic payload]. split; [reflexivity|]. constructor; [|constructor]. exists id. reflexivity. }
  destruct D as (l2 & -> & H2). exists (l1 ++ l2). rewrite emits_app. split; [reflexivity|]. apply Forall_app. auto.
Qed.
Lemma streamed_emits topic payload s : exists l', streamed topic payload s = emits l' s /\ Forall (is_message topic payload) l'.
Proof.
  unfold streamed. set (s1 := match find_key _ _ with Some l => _ | None => _ end).
  assert (H1 : exists l', s1 = emits l' s /\ Forall (is_message topic payload) l') by (unfold s1; destruct (find_key _ _); [apply deliver_emits|exists []; split; [destruct s; reflexivity|constructor]]).
  clearbody s1. destruct H1 as (l1 & -> & H1). revert l1 H1. induction (filter _ (c_streams s)) as [|e l IH]; intros l1 H1; [exists l1; auto|]. cbn [fold_left]. destruct (topic_matched _ _); [|apply IH; assumption].
  destruct (deliver_emits topic payload (snd e) (emits l1 s)) as (l2 & -> & H2). rewrite emits_app. apply IH, Forall_app. auto.
Qed.
Lemma paths_subs l s : c_subs (fold_left add_path l s) = c_subs s.
Proof. revert s. induction l as [|p l IH]; intros s; [reflexivity|]. cbn [fold_left]. rewrite IH. unfold add_path. destruct (find_key _ _) as [[? ?]|]; reflexivity. Qed.
Lemma unpaths_subs l s : c_subs (fold_left drop_path l s) = c_subs s.
Proof. revert s. induction l as [|p l IH]; intros s; [reflexivity|]. cbn [fold_left]. rewrite IH. unfold drop_path. destruct (find_key _ _) as [[? ?]|]; reflexivity. Qed.

Lemma add_tables_subs o s : c_subs (add_tables o s) = c_subs s.
Proof. unfold add_tables. destruct (o_work o); cbn [upd_op set_ops c_subs set_tokens set_streams]; [apply paths_subs|reflexivity]. Qed.
Lemma untabled_subs o s : c_subs (untabled o s) = c_subs s.
Proof. unfold untabled. destruct (o_work o); [|reflexivity]. destruct (o_tables o); [|reflexivity]. rewrite unpaths_subs. reflexivity. Qed.
Lemma untabled_phase o s : c_phase (untabled o s) = c_phase s.
Proof. unfold untabled. destruct (o_work o); [|reflexivity]. destruct (o_tables o); [|reflexivity]. rewrite unpaths_phase. reflexivity. Qed.
Lemma upd_sub_twice f g h s : (forall r, s_filter (g r) = s_filter r) -> upd_sub f h (upd_sub f g s) = upd_sub f (fun r => h (g r)) s.
Proof.
  intros Hg. unfold upd_sub, set_subs. cbn. f_equal. rewrite map_map. apply map_ext. intros r. destruct (for_filter f r) eqn:E; [|rewrite E; reflexivity].
  unfold for_filter in *. rewrite Hg, E. reflexivity.
Qed.
Ltac fr := eapply j1_frame; [eassumption|reflexivity|reflexivity|discriminate|split; discriminate].
Lemma j1_told cf g s e r : J1 cf g s -> J1 cf g (told e r s).
Proof. intros H. eapply j1_frame; [eassumption|reflexivity|reflexivity|auto|tauto]. Qed.
Lemma sub_ok_nothing r : s_poisoned r = false -> sub_ok (with_pending NOTHING r).
Proof. intros H. split; cbn [with_pending s_subscribed s_pending s_poisoned]; [discriminate|congruence]. Qed.
Lemma pending_unpoisoned r : sub_ok r -> s_pending r <> NOTHING -> s_poisoned r = false.
Proof. intros [_ H] Hp. destruct (s_poisoned r); [|reflexivity]. destruct (H eq_refl) as (_ & _ & ?). contradiction. Qed.
Lemma j1_unlisten cf o f rest s : c_phase s = ACTIVE -> J1 cf (LEAVING o (f :: rest)) s -> J1 cf (LEAVING o rest) (unlisten (o_id o) s f).
Proof.
  intros Ha H. assert (H' : J1 cf (LEAVING o rest) s) by (eapply j1_frame; [eassumption|reflexivity|reflexivity|discriminate|split; discriminate]).
  unfold unlisten. destruct (get_sub f s) as [r|] eqn:E; [|assumption]. set (l := filter _ _).
  assert (H1 : J1 cf (LEAVING o rest) (upd_sub f (with_listeners l) s)).
  { eapply j1_upd; [eassumption|eassumption|reflexivity|reflexivity| | |left; reflexivity|discriminate].
    - apply (j1_ok _ _ _ H _ _ E).
    - intros _ Hp. cbn [with_listeners s_listeners s_pending] in *. unfold l. rewrite (j1_unsub _ _ _ H Ha _ _ E Hp). reflexivity. }
  destruct l; [|assumption]. unfold status. cbn [upd_sub set_subs c_phase]. rewrite Ha. cbn [active]. eapply j1_frame; [eassumption|reflexivity|reflexivity|auto|tauto].
Qed.
Lemma J1_step cf : cf_ok cf -> forall g s g' s', J1 cf g s -> big cf (g, s) (g', s') -> J1 cf g' s'.
Proof.
  intros Hcf g s g' s' J B. inversion B as [x y P|s0 Ha Hs|s0 Hp Ho He Hu]; subst.
  2: { destruct J as [H1 H2 H3 H4 H5 H6 H7]. constructor; try assumption; try discriminate.
       - intros _ Hn. eexists. split; [reflexivity|]. intros r Hr. apply in_map. assumption.  }
  2: { destruct J as [H1 H2 H3 H4 H5 H6 H7]. constructor; try assumption; try discriminate.
       - intros _ Hn. apply H5; [congruence|assumption]. }
  clear B. inversion P; subst; try solve [fr].
  - unfold create. rewrite H4. fr.
  - eapply j1_frame; [eassumption|unfold submitted, release; rewrite upd_op_subs, wake_subs; reflexivity|unfold submitted, release, upd_op; cbn [c_phase set_ops]; rewrite wake_phase; reflexivity|discriminate|split; discriminate].
  - eapply j1_frame; [eassumption|rewrite fail_subs; reflexivity|rewrite fail_phase; reflexivity|discriminate|split; discriminate].
  - (* P_take *) pose proof J as [L1 L2 L3 L4 L5 L6 L7]. destruct (refuses_none cf (o_kind o) (o_filters o) s' Hcf) as [R1 R2]; [specialize (L4 (o_kind o)); cbn [wanted] in L4; lia|assumption|].
    constructor; try assumption; try discriminate.
    + intros k. specialize (L4 k). cbn [wanted] in *. destruct (kind_eqb (o_kind o) k) eqn:E; [apply kind_eqb_spec in E; subst k; assumption|assumption].
    + intros Hn. congruence.
    + intros o' rest [= <- <-]. auto.
  - apply j1_listen. assumption.
  - eapply j1_frame; [eassumption|apply add_tables_subs|apply add_tables_phase|discriminate|split; discriminate].
  - (* complete *) eapply j1_frame; [eassumption|reflexivity|reflexivity|auto|tauto].
  - eapply j1_frame; [eassumption|reflexivity|reflexivity|auto|tauto].
  - eapply j1_frame; [eassumption|reflexivity|reflexivity|auto|tauto].
  - eapply j1_frame; [eassumption|apply wake_subs|apply wake_phase|discriminate|split; discriminate].
  - eapply j1_frame; [eassumption|destruct (o_state o); reflexivity|destruct (o_state o); reflexivity|discriminate|split; discriminate].
  - (* suback ok *) apply j1_told. rewrite upd_sub_twice by reflexivity. eapply j1_upd; [eassumption|eassumption|reflexivity|reflexivity| | |right; split; [left; reflexivity|discriminate]|discriminate].
    + split; cbn; [discriminate|]. intros Hp. pose proof (pending_unpoisoned r (j1_ok _ _ _ J _ _ H4)) as K. rewrite K in Hp; [discriminate|congruence].
    + discriminate.
  - apply j1_told. eapply j1_upd; [eassumption|eassumption|reflexivity|reflexivity| |discriminate|right; split; [left; reflexivity|discriminate]|discriminate].
    apply sub_ok_nothing, (pending_unpoisoned r (j1_ok _ _ _ J _ _ H4)). congruence.
  - eapply j1_upd; [eassumption|eassumption|reflexivity|reflexivity| |discriminate|right; split; [left; reflexivity|discriminate]|discriminate].
    apply sub_ok_nothing, (pending_unpoisoned r (j1_ok _ _ _ J _ _ H4)). congruence.
  - apply j1_told. rewrite upd_sub_twice by reflexivity. eapply j1_upd; [eassumption|eassumption|reflexivity|reflexivity| |discriminate|right; split; [left; reflexivity|discriminate]|discriminate].
    split; cbn; [discriminate|]. intros _. split; [assumption|split; [|reflexivity]]. destruct (s_subscribed r) eqn:E; [|reflexivity]. destruct (proj1 (j1_ok _ _ _ J _ _ H4) E). assumption.
  - eapply j1_frame with (s := upd_sub f (with_subscribed false) (upd_sub f (with_pending NOTHING) s)); [|reflexivity|reflexivity|auto|tauto]. rewrite upd_sub_twice by reflexivity.
    eapply j1_upd; [eassumption|eassumption|reflexivity|reflexivity| |discriminate|right; split; [left; reflexivity|discriminate]|discriminate].
    split; cbn; [discriminate|]. intros Hp. pose proof (pending_unpoisoned r (j1_ok _ _ _ J _ _ H4)) as K. rewrite K in Hp; [discriminate|congruence].
  - eapply j1_upd; [eassumption|eassumption|reflexivity|reflexivity| |discriminate|right; split; [left; reflexivity|discriminate]|discriminate].
    apply sub_ok_nothing, (pending_unpoisoned r (j1_ok _ _ _ J _ _ H4)). congruence.
  - (* lose *) apply j1_drop; [|discriminate]. apply j1_told. eapply j1_upd; [eassumption|eassumption|reflexivity|reflexivity| | |right; split; [right; eexists; reflexivity|discriminate]|discriminate].
    + split; cbn; [discriminate|]. intros Hp. destruct (proj2 (j1_ok _ _ _ J _ _ H4) Hp) as (? & ? & ?). congruence.
    + cbn. intros Ha Hp. apply (j1_unsub _ _ _ J Ha _ _ H4 Hp).
  - apply j1_told. eapply j1_upd; [eassumption|eassumption|reflexivity|reflexivity| | |right; split; [right; eexists; reflexivity|discriminate]|discriminate].
    + split; cbn; [discriminate|]. intros Hp. destruct (proj2 (j1_ok _ _ _ J _ _ H4) Hp) as (? & ? & ?). congruence.
    + cbn. intros Ha Hp. apply (j1_unsub _ _ _ J Ha _ _ H4 Hp).
  - apply j1_told. eapply j1_upd; [eassumption|eassumption|reflexivity|reflexivity| | |right; split; [right; eexists; reflexivity|discriminate]|discriminate].
    + split; cbn; [discriminate|]. intros Hp. destruct (proj2 (j1_ok _ _ _ J _ _ H4) Hp) as (? & ? & ?). congruence.
    + cbn. intros Ha Hp. apply (j1_unsub _ _ _ J Ha _ _ H4 Hp).
  - (* subscribe *) unfold subscribing. eapply j1_upd with (r := r); [eapply j1_frame; [eassumption|reflexivity|reflexivity|auto|tauto]|assumption|reflexivity|reflexivity| |discriminate|left; reflexivity|].
    + split; cbn; congruence.
    + intros o0 f0 rest. destruct H4 as [->|[o ->]]; discriminate.
  - apply j1_told. eapply j1_frame; [eassumption|reflexivity|reflexivity|auto|tauto].
  - apply j1_told. eapply j1_upd with (r := r); [eapply j1_frame; [eassumption|reflexivity|reflexivity|auto|tauto]|assumption|reflexivity|reflexivity| |cbn; congruence|left; reflexivity|].
    + split; cbn; [congruence|auto].
    + intros o0 f0 rest. destruct H4 as [->|[o ->]]; discriminate.
  - (* unsubscribe *) unfold unsubscribing. eapply j1_upd with (r := r); [eapply j1_frame; [eassumption|reflexivity|reflexivity|auto|tauto]|assumption|reflexivity|reflexivity| |auto|left; reflexivity|discriminate].
    split; cbn; [discriminate|]. intros Hp. destruct (proj2 (j1_ok _ _ _ J _ _ H4) Hp) as (? & ? & ?). congruence.
  - apply j1_drop; [assumption|discriminate].
  - destruct (streamed_emits topic payload (emit (I_MESSAGE topic payload j) s)) as (l & -> & _). fr.
  - apply j1_unlisten; assumption.
  - eapply j1_frame; [eassumption|apply untabled_subs|apply untabled_phase|discriminate|split; discriminate].
  - unfold unsubscribing. eapply j1_upd with (r := r); [eapply j1_frame; [eassumption|reflexivity|reflexivity|auto|tauto]|assumption|reflexivity|reflexivity| |cbn; congruence|left; reflexivity|discriminate].
    split; cbn; [discriminate|]. intros Hp. destruct (proj2 (j1_ok _ _ _ J _ _ H4) Hp) as (? & ? & ?). destruct H5; congruence.
  - eapply j1_frame; [eassumption|reflexivity|reflexivity|auto|tauto].
  - (* clean drop *) pose proof (j1_drop _ _ _ f J) as [K1 K2 K3 K4 K5 K6 K7]; [discriminate|]. constructor; try assumption.
    + intros Ha Hn. destruct (K5 Ha Hn) as (rest' & [= <-] & Hi). exists rest. split; [reflexivity|]. intros r Hr. destruct (Hi r Hr) as [Hx|Hx]; [|assumption].
      unfold drop_sub in Hr. cbn [c_subs set_subs] in Hr. apply filter_In in Hr as [_ Hr]. apply negb_true_iff in Hr. unfold for_filter in Hr. rewrite Hx, bytes_eqb_refl in Hr. discriminate.
    + intros rest' _. cbn. congruence.
    + discriminate.
  - (* cleaned *) destruct J as [K1 K2 K3 K4 K5 K6 K7]. constructor; try assumption; try discriminate. intros Ha Hn. destruct (K5 Ha Hn) as (rest & [= <-] & Hi). destruct (c_subs s') as [|r l]; [congruence|]. destruct (Hi r (or_introl eq_refl)).
  - (* swaps *) match goal with Hp : Permutation _ _ |- _ => rename Hp into HP end. destruct J as [K1 K2 K3 K4 K5 K6 K7]. assert (Hg := get_perm_sub s l K1 HP). constructor.
    + cbn [c_subs set_subs]. eapply Permutation_NoDup; [apply Permutation_map, Permutation_sym; eassumption|assumption].
    + intros f r. rewrite Hg. apply K2.
    + intros Ha f r. rewrite Hg. apply K3. exact Ha.
    + intros k. specialize (K4 k). cbn [wanted] in *. assert (L : len (records k (set_subs l s)) = len (records k s)); [|rewrite L; assumption].
      unfold len, records. f_equal. cbn [c_subs set_subs]. clear - HP. induction HP as [|x l1 l2 _ IH|x y l1|l1 l2 l3 _ IH1 _ IH2]; cbn [filter]; [reflexivity| | |congruence].
      * destruct (kind_eqb _ _); cbn [length]; congruence.
      * destruct (kind_eqb k (s_kind y)), (kind_eqb k (s_kind x)); reflexivity.
    + intros Ha Hn. destruct (K5 Ha) as (rest & ? & _); [|discriminate]. intros E. apply Hn. cbn [c_subs set_subs]. rewrite E in HP. apply Permutation_nil, Permutation_sym. assumption.
    + discriminate.
    + discriminate.
  - destruct (get_sub f s) as [r|] eqn:E.
    + eapply j1_upd; [eassumption|eassumption|reflexivity|reflexivity|apply (j1_ok _ _ _ J _ _ E)| |left; reflexivity|discriminate].
      cbn. intros Ha Hp. rewrite (j1_unsub _ _ _ J Ha _ _ E Hp). destruct n; reflexivity.
    + assert (Eq : upd_sub f (fun r => with_listeners (swap n (s_listeners r)) r) s = s); [|rewrite Eq; assumption]. unfold upd_sub. rewrite <- (map_id (c_subs s)) at 1.
      assert (M : map (fun r => if for_filter f r then with_listeners (swap n (s_listeners r)) r else r) (map (fun x => x) (c_subs s)) = c_subs s).
      { rewrite map_id. rewrite <- (map_id (c_subs s)) at 2. apply map_ext_in. intros r Hr. unfold get_sub in E. rewrite find_none_iff in E. rewrite (E r Hr). reflexivity. }
      rewrite M. destruct s; reflexivity.
Qed.
Lemma J1_new cf connected : J1 cf IDLE (client_new connected).
Proof.
  constructor; try discriminate.
  - constructor.
  - intros k. unfold wanted, records, len. cbn [client_new c_subs filter length]. lia.
  - intros Ha. destruct Ha. reflexivity.
Qed.
Lemma J1_history cf connected l : cf_ok cf -> J1 cf IDLE (history cf connected l).
Proof. intros H. apply history_inv; [apply J1_new|apply J1_step; assumption]. Qed.
