(** The request-response client never mistakes one kind of operation for the other, and no assertion of it fails. *)
From Verif Require Import Base Split TopicAlias_Model TopicAlias_Proofs SubSet_Model Topic_Model Paths RR_Model RR_Steps RR_Decomp RR_Subs RR_Flights.
From Coq Require Import Permutation.

Definition gop (g : ghost) : option op :=
  match g with TAKING o _ | TOOK o _ | TABLED o _ | PUBLISHING o | REFUSED o | CLOSED o => Some o | _ => None end.
Definition evs (g : ghost) (s : client) := match g with HANDLING e f id => (e, f, id) :: c_events s | _ => c_events s end.
Definition pubs (g : ghost) (s : client) := match g with PUBBED id _ => id :: c_publishes s | _ => c_publishes s end.
(** the operations to which an event is addressed *)
Definition directed (e : sub_event) : option kind :=
  match e with SUBSCRIBE_SUCCESS | SUBSCRIBE_FAILURE | SUBSCRIPTION_ENDED => Some REQUEST | ESTABLISHED | LOST | HALTED => Some STREAM | EMPTY | UNSUBSCRIBE_COMPLETE => None end.
Definition fits (k : kind) (id : N) (s : client) : Prop := id < c_next s /\ forall o, get_op id s = Some o -> o_kind o = k.
Record J2 (g : ghost) (s : client) : Prop := {
  j2_ids : NoDup (map o_id (c_ops s));
  j2_next : forall id o, get_op id s = Some o -> id < c_next s;
  j2_ghost : forall o, gop g = Some o -> exists o', get_op (o_id o) s = Some o' /\ o_work o' = o_work o;
  j2_gkind : forall o, g = PUBLISHING o \/ g = REFUSED o -> o_kind o = REQUEST;
  j2_events : forall e f id k, In (e, f, id) (evs g s) -> directed e = Some k -> fits k id s;
  j2_listeners : forall f r id, get_sub f s = Some r -> In id (s_listeners r) -> fits (s_kind r) id s;
  j2_pubs : forall id, In id (pubs g s) -> fits REQUEST id s;
  j2_tokens : forall t id, find_key t (c_tokens s) = Some id -> fits REQUEST id s;
  j2_crash : c_crash s = false }.
Definition sig (s : client) := map (fun o => (o_id o, o_work o, o_deadline o)) (c_ops s).
Lemma sig_ids s : map o_id (c_ops s) = map (fun x => fst (fst x)) (sig s).
Proof. unfold sig. rewrite map_map. reflexivity. Qed.
Lemma sig_get s s' : sig s' = sig s -> forall id, (forall o, get_op id s = Some o -> exists o', get_op id s' = Some o' /\ o_work o' = o_work o /\ o_deadline o' = o_deadline o) /\ (get_op id s = None -> get_op id s' = None).
Proof.
  unfold sig, get_op. generalize (c_ops s) as l, (c_ops s') as l'. intros l. induction l as [|x l IH]; intros [|y l'] E id; try discriminate; [split; [discriminate|reflexivity]|].
  cbn [map] in E. injection E as E1 E2 E3 E4. specialize (IH l' E4 id). cbn [find]. unfold has_id at 1 3 5 7. rewrite E1. destruct (id =? o_id x); [|exact IH]. split; [|discriminate]. intros o [= <-]. exists y. auto.
Qed.
Definition later (s s' : client) : Prop := c_next s <= c_next s' /\ forall id o', id < c_next s -> get_op id s' = Some o' -> exists o, get_op id s = Some o /\ o_work o = o_work o'.
Lemma fits_later k id s s' : later s s' -> fits k id s -> fits k id s'.
Proof. intros [H1 H2] [H3 H4]. split; [lia|]. intros o' Ho. destruct (H2 id o' H3 Ho) as (o & Hg & Hw). unfold o_kind in *. rewrite <- Hw. apply H4. assumption. Qed.
Lemma sig_later s s' : sig s' = sig s -> c_next s' = c_next s -> later s s'.
Proof. intros H Hn. split; [lia|]. intros id o' _ Ho. destruct (sig_get s' s (eq_sym H) id) as [K _]. destruct (K o' Ho) as (o & Hg & Hw & _). eauto. Qed.
(** steps which keep the set of operations *)
Lemma j2_frame g s g' s' : J2 g s -> sig s' = sig s -> c_next s' = c_next s -> c_crash s' = c_crash s ->
  (forall o, gop g' = Some o -> exists o', get_op (o_id o) s = Some o' /\ o_work o' = o_work o) -> (forall o, g' = PUBLISHING o \/ g' = REFUSED o -> o_kind o = REQUEST) ->
  (forall e f id k, In (e, f, id) (evs g' s') -> directed e = Some k -> In (e, f, id) (evs g s) \/ fits k id s) ->
  (forall f r id, get_sub f s' = Some r -> In id (s_listeners r) -> (exists r', get_sub f s = Some r' /\ s_kind r' = s_kind r /\ In id (s_listeners r')) \/ fits (s_kind r) id s) ->
  (forall id, In id (pubs g' s') -> In id (pubs g s) \/ fits REQUEST id s) ->
  (forall t id, find_key t (c_tokens s') = Some id -> find_key t (c_tokens s) = Some id \/ fits REQUEST id s) -> J2 g' s'.
Proof.
  intros [H1 H2 H3 H4 H5 H6 H7 H8 H9] Hs Hn Hc Kg Kk Ke Kl Kp Kt. pose proof (sig_later s s' Hs Hn) as HL. constructor.
  - rewrite sig_ids, Hs, <- sig_ids. assumption.
  - intros id o Ho. rewrite Hn. destruct (sig_get s' s (eq_sym Hs) id) as [K _]. destruct (K o Ho) as (o1 & Hg & _). eapply H2. eassumption.
  - intros o Ho. destruct (Kg o Ho) as (o1 & Hg & Hw). destruct (sig_get s s' Hs (o_id o)) as [K _]. destruct (K o1 Hg) as (o2 & Hg2 & Hw2 & _). exists o2. split; [assumption|congruence].
  - exact Kk.
  - intros e f id k Hi Hd. apply (fits_later k id s s' HL). destruct (Ke e f id k Hi Hd); [eapply H5; eassumption|assumption].
  - intros f r id Hg Hi. apply (fits_later _ id s s' HL). destruct (Kl f r id Hg Hi) as [(r' & Hr & Hk & Hi')|]; [rewrite <- Hk; eapply H6; eassumption|assumption].
  - intros id Hi. apply (fits_later _ id s s' HL). destruct (Kp id Hi); [apply H7; assumption|assumption].
  - intros t id Hf. apply (fits_later _ id s s' HL). destruct (Kt t id Hf); [eapply H8; eassumption|assumption].
  - congruence.
Qed.
Lemma upd_sig id h s : (forall o, o_id (h o) = o_id o) -> (forall o, o_work (h o) = o_work o) -> (forall o, o_deadline (h o) = o_deadline o) -> sig (upd_op id h s) = sig s.
Proof. intros H1 H2 H3. unfold sig, upd_op. cbn [c_ops set_ops]. rewrite map_map. apply map_ext. intros o. destruct (has_id id o); [rewrite H1, H2, H3|]; reflexivity. Qed.
Lemma unref_work o : o_work (unref o) = o_work o.
Proof. unfold unref. destruct (o_refs o =? 1); reflexivity. Qed.
Lemma unref_deadline o : o_deadline (unref o) = o_deadline o.
Proof. unfold unref. destruct (o_refs o =? 1); reflexivity. Qed.
Lemma release_sig id s : sig (release id s) = sig s.
Proof. apply upd_sig; [apply unref_id|apply unref_work|apply unref_deadline]. Qed.
Lemma emit_sig x s : sig (emit x s) = sig s. Proof. reflexivity. Qed.
Lemma wake_sig now s : sig (wake now s) = sig s.
Proof. unfold wake. destruct (active _); [|reflexivity]. destruct (_ || _); reflexivity. Qed.
(** everything but the operations' states and what is emitted *)
Definition rest_of (s : client) := (c_connected s, c_subs s, c_queue s, c_streams s, c_paths s, c_tokens s, c_events s, c_flights s, (c_publishes s, c_scheduled s, c_next s, c_phase s)).
Lemma fail_shape id e s : exists l, c_out (fail id e s) = l ++ c_out s /\ sig (fail id e s) = sig s /\ rest_of (fail id e s) = rest_of s /\ (c_crash (fail id e s) = c_crash s).
Proof.
  assert (D : exists l, c_out s = l ++ c_out s /\ sig s = sig s /\ rest_of s = rest_of s /\ c_crash s = c_crash s) by (exists []; auto).
  unfold fail. destruct (get_op id s) as [o|]; [|exact D]. unfold complete, halt. destruct (o_kind o) eqn:Ek.
  - destruct (state_is _ _); [exact D|]. exists [O_COMPLETE (o_id o) (FAILED e)]. split; [reflexivity|]. split; [|split; reflexivity]. rewrite release_sig, upd_sig by reflexivity. reflexivity.
  - destruct (_ || _); [exact D|]. exists [O_STATUS (o_id o) (S_HALTED e)]. split; [reflexivity|]. split; [|split; reflexivity]. rewrite upd_sig by reflexivity. reflexivity.
Qed.
Lemma add_paths_frame l s : sig (fold_left add_path l s) = sig s /\ c_next (fold_left add_path l s) = c_next s /\ c_crash (fold_left add_path l s) = c_crash s /\ c_events (fold_left add_path l s) = c_events s /\
  c_publishes (fold_left add_path l s) = c_publishes s /\ c_tokens (fold_left add_path l s) = c_tokens s /\ c_ops (fold_left add_path l s) = c_ops s /\ c_out (fold_left add_path l s) = c_out s /\ c_queue (fold_left add_path l s) = c_queue s /\ c_streams (fold_left add_path l s) = c_streams s.
Proof.
  revert s. induction l as [|p l IH]; intros s; [repeat split|]. cbn [fold_left]. destruct (IH (add_path s p)) as (-> & -> & -> & -> & -> & -> & -> & -> & -> & ->). unfold add_path. destruct (find_key _ _) as [[? ?]|]; repeat split.
Qed.
Lemma drop_paths_frame l s : sig (fold_left drop_path l s) = sig s /\ c_next (fold_left drop_path l s) = c_next s /\ c_crash (fold_left drop_path l s) = c_crash s /\ c_events (fold_left drop_path l s) = c_events s /\
  c_publishes (fold_left drop_path l s) = c_publishes s /\ c_tokens (fold_left drop_path l s) = c_tokens s /\ c_ops (fold_left drop_path l s) = c_ops s /\ c_out (fold_left drop_path l s) = c_out s /\ c_queue (fold_left drop_path l s) = c_queue s /\ c_streams (fold_left drop_path l s) = c_streams s.
Proof.
  revert s. induction l as [|p l IH]; intros s; [repeat split|]. cbn [fold_left]. destruct (IH (drop_path s p)) as (-> & -> & -> & -> & -> & -> & -> & -> & -> & ->). unfold drop_path. destruct (find_key _ _) as [[? ?]|]; repeat split.
Qed.
Ltac f2 := eapply j2_frame; [eassumption|try reflexivity|try reflexivity|try reflexivity|try (apply (j2_ghost _ _ ltac:(eassumption))); try discriminate|intros ? [?|?]; try discriminate|intros; left; auto; fail|intros; left; eauto; fail|intros; left; auto; fail|intros; left; auto; fail].
Ltac g2 := first [assumption|reflexivity|discriminate|intros ? [?|?]; discriminate|solve [intros; left; try (right; assumption); eauto]|idtac].
Lemma keep_listeners f h s : (forall r, s_filter (h r) = s_filter r) -> (forall r, s_kind (h r) = s_kind r) -> (forall r, incl (s_listeners (h r)) (s_listeners r)) ->
  forall f' r id, get_sub f' (upd_sub f h s) = Some r -> In id (s_listeners r) -> exists r', get_sub f' s = Some r' /\ s_kind r' = s_kind r /\ In id (s_listeners r').
Proof.
  intros H1 H2 H3 f' r id. rewrite get_sub_upd by assumption. destruct (bytes_eqb f f'); [|eauto]. destruct (get_sub f' s) as [r0|]; [|discriminate]. intros [= <-] Hi. exists r0. split; [reflexivity|]. rewrite H2. split; [reflexivity|]. apply H3 in Hi. assumption.
Qed.
Lemma told_events g f r e s : J2 g s -> get_sub f s = Some r -> directed e = Some (s_kind r) ->
  forall e' f' id k, In (e', f', id) (map (fun id => (e, s_filter r, id)) (s_listeners r)) -> directed e' = Some k -> fits k id s.
Proof.
  intros J Hg Hd e' f' id k Hi Hk. apply in_map_iff in Hi as (i & [= <- <- <-] & Hi). pose proof (j2_listeners _ _ J f r i Hg Hi). congruence.
Qed.
Lemma nodup_snoc {A} (x : A) l : NoDup l -> ~ In x l -> NoDup (l ++ [x]).
Proof. intros H Hn. eapply Permutation_NoDup; [apply Permutation_cons_append|]. constructor; assumption. Qed.
Lemma wake_frame now s : c_next (wake now s) = c_next s /\ c_crash (wake now s) = c_crash s /\ c_events (wake now s) = c_events s /\ c_publishes (wake now s) = c_publishes s /\ c_tokens (wake now s) = c_tokens s /\ c_ops (wake now s) = c_ops s /\ c_queue (wake now s) = c_queue s /\ c_streams (wake now s) = c_streams s /\ c_paths (wake now s) = c_paths s /\ c_out (wake now s) = c_out s.
Proof. unfold wake. destruct (active _); [|repeat split]. destruct (_ || _); repeat split. Qed.
Lemma gop_get g s o : J2 g s -> gop g = Some o -> exists o', get_op (o_id o) s = Some o' /\ o_work o' = o_work o.
Proof. intros J. apply (j2_ghost _ _ J). Qed.
Lemma deliver_frame topic payload l s : sig (fold_left (deliver topic payload) l s) = sig s /\ rest_of (fold_left (deliver topic payload) l s) = rest_of s /\ c_crash (fold_left (deliver topic payload) l s) = c_crash s.
Proof.
  revert s. induction l as [|id l IH]; intros s; [repeat split|]. cbn [fold_left]. destruct (IH (deliver topic payload s id)) as (-> & -> & ->). unfold deliver. destruct (get_op id s) as [o|]; [|repeat split].
  destruct (o_kind o); [repeat split|]. destruct (_ || _); repeat split.
Qed.
Lemma deliver_ops topic payload l s : c_ops (fold_left (deliver topic payload) l s) = c_ops s.
Proof.
  revert s. induction l as [|id l IH]; intros s; [reflexivity|]. cbn [fold_left]. rewrite IH. unfold deliver. destruct (get_op id s) as [o|]; [|reflexivity].
  destruct (o_kind o); [reflexivity|]. destruct (_ || _); reflexivity.
Qed.
Lemma streamed_frame topic payload s : sig (streamed topic payload s) = sig s /\ rest_of (streamed topic payload s) = rest_of s /\ c_crash (streamed topic payload s) = c_crash s /\ c_ops (streamed topic payload s) = c_ops s.
Proof.
  unfold streamed. set (s1 := match _ with Some _ => _ | None => _ end).
  assert (K : sig s1 = sig s /\ rest_of s1 = rest_of s /\ c_crash s1 = c_crash s /\ c_ops s1 = c_ops s).
  { unfold s1. destruct (find_key _ _) as [l0|]; [|repeat split]. destruct (deliver_frame topic payload l0 s) as (? & ? & ?). repeat split; try assumption. apply deliver_ops. }
  clearbody s1. generalize (filter (fun e : bytes * list N => has_wildcard (fst e)) (c_streams s)) as l. intros l. revert s1 K. induction l as [|e l IH]; intros s1 K; [exact K|]. cbn [fold_left]. apply IH. destruct (topic_matched _ _); [|exact K].
  destruct (deliver_frame topic payload (snd e) s1) as (-> & -> & ->). rewrite deliver_ops. exact K.
Qed.
Lemma rest_inj s s' : rest_of s' = rest_of s -> c_connected s' = c_connected s /\ c_subs s' = c_subs s /\ c_queue s' = c_queue s /\ c_streams s' = c_streams s /\ c_paths s' = c_paths s /\ c_tokens s' = c_tokens s /\ c_events s' = c_events s /\
  c_flights s' = c_flights s /\ c_publishes s' = c_publishes s /\ c_scheduled s' = c_scheduled s /\ c_next s' = c_next s /\ c_phase s' = c_phase s.
Proof. unfold rest_of. intros H. injection H. intuition. Qed.
(** steps which only change operations' states and emit *)
Lemma j2_same g s g' s' : J2 g s -> sig s' = sig s -> rest_of s' = rest_of s -> c_crash s' = c_crash s -> g' = g \/ (gop g' = None /\ evs g' s = c_events s /\ pubs g' s = c_publishes s) -> J2 g' s'.
Proof.
  intros J Hs Hr Hc Hg. apply rest_inj in Hr as (H1 & H2 & H3 & H4 & H5 & H6 & H7 & H8 & H9 & H10 & H11 & H12). eapply j2_frame; [eassumption|assumption|assumption|assumption| | | | | | ].
  - destruct Hg as [->|(-> & _ & _)]; [apply (j2_ghost _ _ J)|discriminate].
  - destruct Hg as [->|(Hg & _ & _)]; [apply (j2_gkind _ _ J)|]. intros o [->| ->]; discriminate.
  - intros e f id k Hi _. left. destruct Hg as [->|(_ & He & _)]; [|].
    + unfold evs in *. rewrite H7 in Hi. assumption.
    + assert (E : evs g' s' = c_events s') by (destruct g'; try reflexivity; cbn in He; exfalso; apply (f_equal (@length _)) in He; cbn in He; lia). rewrite E, H7 in Hi. unfold evs. destruct g; try assumption. right. assumption.
  - intros f r id Hf Hi. left. exists r. unfold get_sub in *. rewrite <- H2. auto.
  - intros id Hi. left. destruct Hg as [->|(_ & _ & He)]; [|].
    + unfold pubs in *. rewrite H9 in Hi. assumption.
    + assert (E : pubs g' s' = c_publishes s') by (destruct g'; try reflexivity; cbn in He; exfalso; apply (f_equal (@length _)) in He; cbn in He; lia). rewrite E, H9 in Hi. unfold pubs. destruct g; try assumption. right. assumption.
  - intros t id. rewrite H6. auto.
Qed.
Lemma get_left o s id : get_op id (left o s) = if o_id o =? id then None else get_op id s.
Proof.
  unfold get_op, left. cbn [c_ops set_ops set_queue set_streams]. induction (c_ops s) as [|x l IH]; [destruct (_ =? _); reflexivity|]. cbn [filter find]. assert (D : forall a, has_id a x = (a =? o_id x)) by reflexivity. rewrite !D.
  destruct (N.eqb_spec (o_id o) (o_id x)) as [E|E]; cbn [negb].
  - rewrite IH. destruct (N.eqb_spec (o_id o) id) as [|E2]; [reflexivity|]. destruct (N.eqb_spec id (o_id x)); [congruence|reflexivity].
  - cbn [find]. rewrite D. destruct (N.eqb_spec id (o_id x)) as [E2|E2]; [destruct (N.eqb_spec (o_id o) id); [congruence|reflexivity]|apply IH].
Qed.
(** steps which change records and add status events *)
Lemma j2_recs g s g' s' extra : J2 g s -> g' = g \/ (gop g' = None /\ evs g' s' = c_events s' /\ pubs g' s' = c_publishes s') -> sig s' = sig s -> c_next s' = c_next s -> c_crash s' = c_crash s -> c_tokens s' = c_tokens s -> c_publishes s' = c_publishes s ->
  c_events s' = c_events s ++ extra -> (forall e f id k, In (e, f, id) extra -> directed e = Some k -> fits k id s) ->
  (forall f r id, get_sub f s' = Some r -> In id (s_listeners r) -> exists r', get_sub f s = Some r' /\ s_kind r' = s_kind r /\ In id (s_listeners r')) -> J2 g' s'.
Proof.
  intros J Hg Hs Hn Hc Ht Hp He Hx Hl. eapply j2_frame; [eassumption|assumption|assumption|assumption| | | | | | ].
  - destruct Hg as [->|(-> & _ & _)]; [apply (j2_ghost _ _ J)|discriminate].
  - destruct Hg as [->|(Hg & _ & _)]; [apply (j2_gkind _ _ J)|]. intros o [->| ->]; discriminate.
  - intros e f id k Hi Hd. assert (K : In (e, f, id) (evs g s) \/ In (e, f, id) extra).
    { destruct Hg as [->|(_ & E & _)].
      - unfold evs in *. rewrite He in Hi. destruct g; try (apply in_app_or in Hi; assumption). destruct Hi as [Hi|Hi]; [left; left; assumption|]. apply in_app_or in Hi as [Hi|Hi]; [left; right|right]; assumption.
      - rewrite E, He in Hi. apply in_app_or in Hi as [Hi|Hi]; [left|right; assumption]. unfold evs. destruct g; try assumption. right. assumption. }
    destruct K as [K|K]; [left; assumption|right; eapply Hx; eassumption].
  - intros f r id Hf Hi. left. eapply Hl; eassumption.
  - intros id Hi. left. destruct Hg as [->|(_ & _ & E)]; [unfold pubs in *; rewrite Hp in Hi; assumption|]. rewrite E, Hp in Hi. unfold pubs. destruct g; try assumption. right. assumption.
  - intros t id. rewrite Ht. auto.
Qed.
(** ... one record, whose listeners are told *)
Lemma j2_told g s g' s' f h r e : J2 g s -> g' = g \/ (gop g' = None /\ evs g' s' = c_events s' /\ pubs g' s' = c_publishes s') -> get_sub f s = Some r -> directed e = Some (s_kind r) ->
  (forall r, s_filter (h r) = s_filter r) -> (forall r, s_kind (h r) = s_kind r) -> (forall r, incl (s_listeners (h r)) (s_listeners r)) ->
  sig s' = sig s -> c_next s' = c_next s -> c_crash s' = c_crash s -> c_tokens s' = c_tokens s -> c_publishes s' = c_publishes s -> c_events s' = c_events s ++ map (fun id => (e, s_filter r, id)) (s_listeners r) ->
  c_subs s' = c_subs (upd_sub f h s) -> J2 g' s'.
Proof.
  intros J Hg Hf Hd H1 H2 H3 Hs Hn Hc Ht Hp He Hu. eapply j2_recs; try eassumption; [eapply told_events; eassumption|]. intros f' r' id. unfold get_sub at 1. rewrite Hu. apply (keep_listeners f h s H1 H2 H3).
Qed.
Ltac g3 := rewrite ?emit_sig, ?release_sig, ?wake_sig, ?upd_sig by reflexivity; g2.
Ltac same := eapply j2_same; [eassumption|g3|reflexivity|reflexivity|auto].
Lemma add_tables_frame o s : sig (add_tables o s) = sig s /\ c_next (add_tables o s) = c_next s /\ c_crash (add_tables o s) = c_crash s /\ c_events (add_tables o s) = c_events s /\ c_publishes (add_tables o s) = c_publishes s /\
  c_tokens (add_tables o s) = match o_work o with W_REQUEST r => put_key (r_token r) (o_id o) (c_tokens s) | W_STREAM _ => c_tokens s end /\ c_queue (add_tables o s) = c_queue s /\ c_out (add_tables o s) = c_out s.
Proof.
  unfold add_tables. cbv zeta. destruct (o_work o) as [r|f].
  - destruct (add_paths_frame (r_paths r) s) as (A1 & A2 & A3 & A4 & A5 & A6 & A7 & A8 & A9 & A10). rewrite upd_sig by reflexivity. unfold sig in *. cbn [set_tokens c_ops c_next c_crash c_events c_publishes c_tokens c_queue c_out upd_op set_ops] in *. rewrite A6. auto 10.
  - rewrite upd_sig by reflexivity. repeat split.
Qed.
Lemma untabled_frame o s : sig (untabled o s) = sig s /\ c_next (untabled o s) = c_next s /\ c_crash (untabled o s) = c_crash s /\ c_events (untabled o s) = c_events s /\ c_publishes (untabled o s) = c_publishes s /\
  c_tokens (untabled o s) = match o_work o with W_REQUEST r => if o_tables o then remove_key (r_token r) (c_tokens s) else c_tokens s | W_STREAM _ => c_tokens s end /\ c_queue (untabled o s) = c_queue s /\ c_out (untabled o s) = c_out s /\
  c_ops (untabled o s) = c_ops s /\ c_streams (untabled o s) = c_streams s.
Proof.
  unfold untabled. destruct (o_work o) as [r|f]; [|repeat split]. destruct (o_tables o); [|repeat split].
  destruct (drop_paths_frame (r_paths r) (set_tokens (remove_key (r_token r) (c_tokens s)) s)) as (A1 & A2 & A3 & A4 & A5 & A6 & A7 & A8 & A9 & A10). rewrite A1, A2, A3, A4, A5, A6, A7, A8, A9, A10. repeat split.
Qed.
Lemma remove_first_in {A} eqb (x y : A) l : In y (remove_first eqb x l) -> In y l.
Proof. induction l as [|z l IH]; cbn; [auto|]. destruct (eqb x z); [auto|]. intros [|]; auto. Qed.
Lemma J2_step cf g s g' s' : J1 cf g s -> J3 g s -> J2 g s -> big cf (g, s) (g', s') -> J2 g' s'.
Proof.
  intros HJ1 HJ3 J B. inversion B as [x y P|s0 Ha Hs|s0 Hp Ho He Hu]; subst.
  2: { eapply j2_frame; [eassumption| | | | | | | | | ]; g2. }
  2: { eapply j2_frame; [eassumption| | | | | | | | | ]; g2. }
  clear B. inversion P; subst; try solve [eapply j2_frame; [eassumption| | | | | | | | | ]; g2]; try solve [same].
  - (* create *)
    unfold create. rewrite H4. set (o := mkop _ _ _ _ _ _ _ _ _ _ _ _ _). set (s1 := emit _ _).
    assert (Hg : forall id, get_op id s1 = match get_op id s with Some x => Some x | None => if id =? c_next s then Some o else None end).
    { intros id. unfold get_op, s1. cbn [c_ops emit set_ops set_next]. rewrite find_app. cbn [find]. unfold has_id at 2. change (o_id o) with (c_next s). reflexivity. }
    assert (HL : later s s1).
    { split; [change (c_next s1) with (c_next s + 1); lia|]. intros id o' Hid. rewrite Hg. destruct (get_op id s) as [x|] eqn:Ex; [intros [= <-]; eauto|]. destruct (N.eqb_spec id (c_next s)); [lia|discriminate]. }
    destruct J as [K1 K2 K3 K4 K5 K6 K7 K8 K9]. constructor.
    + unfold s1. cbn [c_ops emit set_ops set_next]. rewrite map_app. apply nodup_snoc; [assumption|]. intros Hi. apply in_map_iff in Hi as (x & Hx & Hi). assert (E : exists y, get_op (c_next s) s = Some y).
      { destruct (get_op (c_next s) s) eqn:E; [eauto|]. exfalso. eapply find_none in E; [|apply Hi]. cbn in E. unfold has_id in E. cbn in Hx. rewrite Hx, N.eqb_refl in E. discriminate. }
      destruct E as (y & E). apply K2 in E. lia.
    + intros id x. rewrite Hg. change (c_next s1) with (c_next s + 1). destruct (get_op id s) eqn:E; [intros _; apply K2 in E; lia|]. destruct (N.eqb_spec id (c_next s)); [lia|discriminate].
    + discriminate.
    + intros ? [?|?]; discriminate.
    + intros e f id k Hi Hd. apply (fits_later _ _ _ _ HL). eapply K5; eassumption.
    + intros f r id Hi Hd. apply (fits_later _ _ _ _ HL). eapply K6; eassumption.
    + intros id Hi. apply (fits_later _ _ _ _ HL). apply K7. assumption.
    + intros t id Hi. apply (fits_later _ _ _ _ HL). eapply K8. eassumption.
    + assumption.
  - unfold activate_stream. same.
  - (* submitted *) unfold submitted. set (s1 := emit _ _). destruct (wake_frame now s1) as (A1 & A2 & A3 & A4 & A5 & _). eapply j2_recs with (extra := []); [eassumption|right; auto|rewrite release_sig, wake_sig; unfold s1; rewrite emit_sig, !upd_sig by reflexivity; unfold sig; cbn [set_queue c_ops]; fold (sig (upd_op id (fun o0 => set_timed match o_kind o0 with REQUEST => true | STREAM => false end (set_tracked true o0)) (upd_op id (set_submitting false) s)));
      rewrite !upd_sig by reflexivity; reflexivity|exact A1|exact A2|exact A5|exact A4|rewrite app_nil_r; exact A3|intros ? ? ? ? []|].
    intros f r i. unfold get_sub at 1. cbn [release upd_op set_ops c_subs]. rewrite wake_subs. eauto.
  - (* closed *) eapply j2_frame; [eassumption|g3|reflexivity|reflexivity| | | | | | ]; g2. intros o' [= <-]. pose proof (get_op_id _ _ _ H4) as <-. eauto.
  - (* timeout *) set (s1 := upd_op _ _ s). destruct (fail_shape (o_id o) E_TIMEOUT s1) as (l & _ & F2 & F3 & F4). eapply j2_same; [eassumption|rewrite F2; unfold s1; apply upd_sig; reflexivity|rewrite F3; reflexivity|rewrite F4; reflexivity|auto].
  - (* take *) eapply j2_frame; [eassumption| | | | | | | | | ]; g2. intros o' [= <-]. pose proof (get_op_id _ _ _ H5) as <-. eauto.
  - (* refuse *) eapply j2_frame; [eassumption| | | | | | | | | ]; g2. intros o' [= <-]. pose proof (get_op_id _ _ _ H5) as <-. eauto.
  - (* listen *) destruct (gop_get _ _ _ J eq_refl) as (o' & Ho & Hw).
    assert (Hfit : fits (o_kind o) (o_id o) s). { split; [eapply (j2_next _ _ J); eassumption|]. intros x Hx. rewrite Ho in Hx. injection Hx as <-. unfold o_kind. rewrite Hw. reflexivity. }
    assert (Hfr : forall k id f, sig (listen k id s f) = sig s /\ c_next (listen k id s f) = c_next s /\ c_crash (listen k id s f) = c_crash s /\ c_events (listen k id s f) = c_events s /\ c_publishes (listen k id s f) = c_publishes s /\ c_tokens (listen k id s f) = c_tokens s).
    { intros k id f0. unfold listen. destruct (get_sub f0 s); repeat split. }
    destruct (Hfr (o_kind o) (o_id o) f) as (A1 & A2 & A3 & A4 & A5 & A6). eapply j2_frame; [eassumption|assumption|assumption|assumption| | | | | | ].
    + intros o1 [= <-]. eauto.
    + intros ? [?|?]; discriminate.
    + intros e f1 id k Hi _. left. cbn [evs] in *. rewrite A4 in Hi. assumption.
    + intros f1 r1 id. rewrite get_sub_listen. destruct (bytes_eqb f f1) eqn:E; [|eauto]. apply bytes_eqb_spec in E. subst f1. destruct (get_sub f s) as [r0|] eqn:Er.
      * intros [= <-] Hi. cbn [with_listeners s_listeners s_kind] in *. destruct (j1_taking _ _ _ HJ1 o (f :: rest) eq_refl) as (_ & K). destruct (K f r0 (or_introl eq_refl) Er) as (Hk & _).
        destruct (existsb _ _); [left; eauto|]. apply in_app_or in Hi as [Hi|[<-|[]]]; [left; eauto|right; rewrite Hk; assumption].
      * intros [= <-] [<-|[]]. right. assumption.
    + intros id Hi. left. cbn [pubs] in *. rewrite A5 in Hi. assumption.
    + intros t id. rewrite A6. auto.
  - (* took *) eapply j2_frame; [eassumption| | | | | | | | | ]; g2. apply (j2_ghost _ _ J).
  - (* tables *) destruct (add_tables_frame o s) as (A1 & A2 & A3 & A4 & A5 & A6 & _). eapply j2_frame; [eassumption|assumption|assumption|assumption| | | | | | ].
    + apply (j2_ghost _ _ J).
    + intros ? [?|?]; discriminate.
    + intros e f1 id k Hi _. left. cbn [evs] in *. rewrite A4 in Hi. assumption.
    + intros f1 r1 id. rewrite (get_sub_subs f1 s _ (add_tables_subs o s)). eauto.
    + intros id Hi. left. cbn [pubs] in *. rewrite A5 in Hi. assumption.
    + intros t id. rewrite A6. destruct (o_work o) as [rq|f0] eqn:Ew; [|auto]. rewrite find_put. destruct (bytes_eqb t (r_token rq)); [|auto]. intros [= <-]. right. destruct (gop_get _ _ _ J eq_refl) as (o' & Ho & Hw).
      split; [eapply (j2_next _ _ J); eassumption|]. intros x Hx. rewrite Ho in Hx. injection Hx as <-. unfold o_kind. rewrite Hw, Ew. reflexivity.
  - (* now *) eapply j2_frame; [eassumption| | | | | | | | | ]; g2; [apply (j2_ghost _ _ J)|]. intros o' [[= <-]|[=]]. assumption.
  - (* publish *) eapply j2_frame; [eassumption| | | | | | | | | ]; g2. intros id Hi. cbn [pubs c_publishes set_publishes] in *. apply in_app_or in Hi as [Hi|[<-|[]]]; [auto|]. right. destruct (gop_get _ _ _ J eq_refl) as (o' & Ho & Hw).
    split; [eapply (j2_next _ _ J); eassumption|]. intros x Hx. rewrite Ho in Hx. injection Hx as <-. unfold o_kind in *. rewrite Hw. assumption.
  - (* refused *) eapply j2_frame; [eassumption| | | | | | | | | ]; g2; [apply (j2_ghost _ _ J)|]. intros o' [[=]|[= <-]]. assumption.
  - unfold completed. same.
  - (* complete_crash *) exfalso. assert (K : fits REQUEST (o_id o) s).
    { inversion H5; subst.
      - exfalso. eapply H6. reflexivity.
      - destruct (gop_get _ _ _ J eq_refl) as (o' & Ho & Hw). split; [eapply (j2_next _ _ J); eassumption|]. intros x Hx. match goal with H : o_id _ = o_id o |- _ => rewrite H in Ho end. rewrite Ho in Hx. injection Hx as <-. unfold o_kind. rewrite Hw. apply (j2_gkind _ _ J). auto.
      - eapply (j2_events _ _ J); [left; reflexivity|]. match goal with H : _ \/ _ |- _ => destruct H as [-> | ->] end; reflexivity.
      - apply (j2_pubs _ _ J). left. reflexivity.
      - exfalso. eapply H7. reflexivity.
      - exfalso. eapply H8. reflexivity.
      - eapply (j2_tokens _ _ J). eassumption. }
    destruct K as (_ & K). rewrite (K o H3) in H4. discriminate.
  - unfold halted. same.
  - (* halt_crash *) exfalso. destruct (j2_events _ _ J HALTED f (o_id o) STREAM (or_introl eq_refl) eq_refl) as (_ & K). rewrite (K o H3) in H4. discriminate.
  - (* pop *) match goal with H : c_events s = _ |- _ => rename H into He end. eapply j2_frame; [eassumption| | | | | | | | | ]; g2. intros e1 f1 id1 k Hi _. left. cbn [evs c_events set_events] in *. rewrite He. assumption.
  - (* wake *) destruct (wake_frame now s) as (A1 & A2 & A3 & A4 & A5 & _). eapply j2_recs with (extra := []); [eassumption|right; auto|apply wake_sig|exact A1|exact A2|exact A5|exact A4|rewrite app_nil_r; exact A3|intros ? ? ? ? []|].
    intros f1 r i. unfold get_sub at 1. rewrite wake_subs. eauto.
  - (* ready *) destruct (j2_events _ _ J SUBSCRIBE_SUCCESS f id REQUEST (or_introl eq_refl) eq_refl) as (_ & K). match goal with H : get_op id s = Some o |- _ => rename H into Ho end. eapply j2_frame; [eassumption|g3|reflexivity|reflexivity| | | | | | ]; g2.
    + intros o' [= <-]. pose proof (get_op_id _ _ _ Ho) as <-. eauto.
    + intros o' [[= <-]|[=]]. apply K. assumption.
  - (* publish_crash *) exfalso. match goal with H : o_kind o = STREAM |- _ => rewrite (j2_gkind _ _ J o (or_introl eq_refl)) in H end. discriminate.
  - (* established *) destruct (o_state o); same.
  - (* stream_crash *) exfalso. match goal with H : e = _ \/ _ |- _ => destruct H as [-> | ->] end; [destruct (j2_events _ _ J ESTABLISHED f id STREAM (or_introl eq_refl) eq_refl) as (_ & K)|destruct (j2_events _ _ J LOST f id STREAM (or_introl eq_refl) eq_refl) as (_ & K)];
      match goal with H : get_op id s = Some o |- _ => rewrite (K o H) in * end; discriminate.
  - (* acked_crash *) exfalso. match goal with H : c_phase s = ACTIVE |- _ => pose proof (HJ3 H b f) as K end. cbn [flights] in K. rewrite cnt_cons, flight_eqb_refl in K. unfold expected in K. match goal with H : get_sub f s = Some r |- _ => rewrite H in K end.
    unfold pend in K. destruct b, (s_pending r); try discriminate; congruence.
  - (* suback_ok *) eapply j2_told with (f := f) (h := fun x => with_subscribed true (with_pending NOTHING x)) (r := r); [exact J|..]; try reflexivity; try eassumption; [right; auto|destruct (s_kind r); reflexivity|intros ?; apply incl_refl|]. unfold told. cbn [set_events c_subs]. rewrite upd_sub_twice by reflexivity. reflexivity.
  - eapply j2_told with (f := f) (h := fun x => with_pending NOTHING x) (r := r); [exact J|..]; try reflexivity; try eassumption; [right; auto|match goal with H : s_kind r = _ |- _ => rewrite H end; reflexivity|intros ?; apply incl_refl].
  - (* suback_retry *) eapply j2_recs with (extra := []); [exact J|..]; try reflexivity; try eassumption; [right; auto|rewrite app_nil_r; reflexivity|intros ? ? ? ? []|]. apply keep_listeners; try reflexivity. intros ?. apply incl_refl.
  - eapply j2_told with (f := f) (h := fun x => poisoned (with_pending NOTHING x)) (r := r); [exact J|..]; try reflexivity; try eassumption; [right; auto|match goal with H : s_kind r = _ |- _ => rewrite H end; reflexivity|intros ?; apply incl_refl|]. unfold told. cbn [set_events c_subs]. rewrite upd_sub_twice by reflexivity. reflexivity.
  - (* unsuback_ok *) eapply j2_recs with (extra := [(UNSUBSCRIBE_COMPLETE, f, 0)]); [exact J|..]; try reflexivity; try eassumption; [right; auto|intros ? ? ? ? [[= <- <- <-]|[]] [=]|].
    intros f1 r1 id. change (get_sub f1 (set_events _ ?x)) with (get_sub f1 x). rewrite upd_sub_twice by reflexivity. apply keep_listeners; try reflexivity. intros ?. apply incl_refl.
  - eapply j2_recs with (extra := []); [exact J|..]; try reflexivity; try eassumption; [right; auto|rewrite app_nil_r; reflexivity|intros ? ? ? ? []|]. apply keep_listeners; try reflexivity. intros ?. apply incl_refl.
  - (* pubbed *) eapply j2_frame; [eassumption| | | | | | | | | ]; g2. intros i [<-|Hi]; left; [match goal with H : existsb _ _ = true |- _ => apply existsb_exists in H as (x & Hx & E) end; apply N.eqb_eq in E; subst; assumption|]. cbn [pubs emit set_publishes c_publishes] in *. eapply remove_first_in. eassumption.
  - (* lose_request *) eapply j2_recs with (extra := map (fun id => (SUBSCRIPTION_ENDED, s_filter r, id)) (s_listeners r)); [exact J|..]; try reflexivity; try eassumption; [right; auto|eapply told_events; try eassumption; match goal with H : s_kind r = _ |- _ => rewrite H end; reflexivity|].
    intros f1 r1 id. rewrite get_sub_drop. destruct (bytes_eqb f f1); [discriminate|]. change (get_sub f1 (told _ _ ?x)) with (get_sub f1 x). apply keep_listeners; try reflexivity. intros ?. apply incl_refl.
  - eapply j2_told with (f := f) (h := with_subscribed false) (r := r); [exact J|..]; try reflexivity; try eassumption; [right; auto|match goal with H : s_kind r = _ |- _ => rewrite H end; reflexivity|intros ?; apply incl_refl].
  - eapply j2_told with (f := f) (h := with_subscribed false) (r := r); [exact J|..]; try reflexivity; try eassumption; [right; auto|match goal with H : s_kind r = _ |- _ => rewrite H end; reflexivity|intros ?; apply incl_refl].
  - (* subscribing *) eapply j2_recs with (extra := []); [exact J|..]; try reflexivity; try eassumption; [left; reflexivity|rewrite app_nil_r; reflexivity|intros ? ? ? ? []|]. apply (keep_listeners f (with_pending SUBSCRIBING) s); try reflexivity. intros ?. apply incl_refl.
  - eapply j2_told with (f := f) (h := fun x => x) (r := r); [exact J|..]; try reflexivity; try eassumption; [left; reflexivity|match goal with H : s_kind r = _ |- _ => rewrite H end; reflexivity|intros ?; apply incl_refl| ].
    unfold told, upd_sub. cbn [set_events set_subs c_subs emit]. rewrite <- (map_id (c_subs s)) at 1. apply map_ext. intros x. destruct (for_filter f x); reflexivity.
  - eapply j2_told with (f := f) (h := poisoned) (r := r); [exact J|..]; try reflexivity; try eassumption; [left; reflexivity|match goal with H : s_kind r = _ |- _ => rewrite H end; reflexivity|intros ?; apply incl_refl].
  - (* unsubscribing *) eapply j2_recs with (extra := []); [exact J|..]; try reflexivity; try eassumption; [left; reflexivity|rewrite app_nil_r; reflexivity|intros ? ? ? ? []|]. apply (keep_listeners f (with_pending UNSUBSCRIBING) s); try reflexivity. intros ?. apply incl_refl.
  - (* purge *) eapply j2_recs with (extra := []); [exact J|..]; try reflexivity; try eassumption; [left; reflexivity|rewrite app_nil_r; reflexivity|intros ? ? ? ? []|]. intros f1 r1 id. rewrite get_sub_drop. destruct (bytes_eqb f f1); [discriminate|eauto].
  - (* message *) set (s1 := emit _ _). destruct (streamed_frame topic payload s1) as (A1 & A2 & A3 & A4). eapply j2_same; [eassumption|rewrite A1; reflexivity|rewrite A2; reflexivity|rewrite A3; reflexivity|auto].
  - (* leave *) match goal with H : get_op id s = Some o |- _ => pose proof (get_op_id _ _ _ H) as Hid end. subst id.
    assert (HL : later s (left o s)). { split; [apply N.le_refl|]. intros i o' Hi. rewrite get_left. destruct (_ =? _); [discriminate|eauto]. }
    destruct J as [K1 K2 K3 K4 K5 K6 K7 K8 K9]. constructor.
    + unfold left. cbn [c_ops set_ops set_streams set_queue]. apply nodup_filter_map. assumption.
    + intros i x. rewrite get_left. destruct (_ =? _); [discriminate|]. apply K2.
    + discriminate.
    + intros ? [?|?]; discriminate.
    + intros e f i k Hi Hd. apply (fits_later _ _ _ _ HL). eapply K5; eassumption.
    + intros f r i Hi Hd. apply (fits_later _ _ _ _ HL). eapply K6; eassumption.
    + intros i Hi. apply (fits_later _ _ _ _ HL). apply K7. assumption.
    + intros t i Hi. apply (fits_later _ _ _ _ HL). eapply K8. eassumption.
    + assumption.
  - (* unlisten *) match goal with H : c_phase s = ACTIVE |- _ => rename H into Ha end. unfold unlisten. destruct (get_sub f s) as [r|] eqn:Er; [|same]. set (l := filter _ (s_listeners r)).
    assert (Hl : incl l (s_listeners r)) by (intros x Hx; apply filter_In in Hx; tauto).
    assert (Hk : forall f1 r1 id, get_sub f1 (upd_sub f (with_listeners l) s) = Some r1 -> In id (s_listeners r1) -> exists r', get_sub f1 s = Some r' /\ s_kind r' = s_kind r1 /\ In id (s_listeners r')).
    { intros f1 r1 id. rewrite get_sub_upd by reflexivity. destruct (bytes_eqb f f1) eqn:E; [|eauto]. apply bytes_eqb_spec in E. subst f1. rewrite Er. intros [= <-] Hi. eauto. }
    clearbody l. destruct l as [|i0 l0].
    + unfold status. cbn [c_phase upd_sub set_subs]. rewrite Ha. cbn [active]. eapply j2_recs with (extra := [(EMPTY, f, 0)]); [exact J|..]; try reflexivity; try eassumption; [right; auto|intros ? ? ? ? [[= <- <- <-]|[]] [=]].
    + eapply j2_recs with (extra := []); [exact J|..]; try reflexivity; try eassumption; [right; auto|rewrite app_nil_r; reflexivity|intros ? ? ? ? []].
  - (* gone *) destruct (untabled_frame o s) as (A1 & A2 & A3 & A4 & A5 & A6 & _). eapply j2_frame; [eassumption|exact A1|exact A2|exact A3| | | | | | ].
    + discriminate.
    + intros ? [?|?]; discriminate.
    + intros e f1 id k Hi _. left. cbn [evs emit c_events] in *. rewrite A4 in Hi. assumption.
    + intros f1 r1 id. change (get_sub f1 (emit _ ?x)) with (get_sub f1 x). rewrite (get_sub_subs f1 s _ (untabled_subs o s)). eauto.
    + intros id Hi. left. cbn [pubs emit c_publishes] in *. rewrite A5 in Hi. assumption.
    + intros t id. cbn [emit c_tokens]. rewrite A6. destruct (o_work o) as [rq|f0]; [|auto]. destruct (o_tables o); [|auto]. intros Hf. left. destruct (bytes_eqb t (r_token rq)) eqn:E.
      * apply bytes_eqb_spec in E. subst t. rewrite find_remove_same in Hf. discriminate.
      * rewrite find_remove_other in Hf; [assumption|]. intros ->. rewrite bytes_eqb_refl in E. discriminate.
  - eapply j2_recs with (extra := []); [exact J|..]; try reflexivity; try eassumption; [left; reflexivity|rewrite app_nil_r; reflexivity|intros ? ? ? ? []|]. apply (keep_listeners f (with_pending UNSUBSCRIBING) s); try reflexivity. intros ?. apply incl_refl.
  - eapply j2_recs with (extra := []); [exact J|..]; try reflexivity; try eassumption; [right; auto|rewrite app_nil_r; reflexivity|intros ? ? ? ? []|]. intros f1 r1 id. rewrite get_sub_drop. destruct (bytes_eqb f f1); [discriminate|eauto].
  - eapply j2_recs with (extra := []); [exact J|..]; try reflexivity; try eassumption; [left; reflexivity|rewrite app_nil_r; reflexivity|intros ? ? ? ? []|]. intros f1 r1 id. rewrite get_perm_sub; [eauto|apply (j1_nodup _ _ _ HJ1)|assumption].
  - eapply j2_recs with (extra := []); [exact J|..]; try reflexivity; try eassumption; [left; reflexivity|rewrite app_nil_r; reflexivity|intros ? ? ? ? []|]. apply keep_listeners; try reflexivity. intros r1 x Hx. cbn [with_listeners s_listeners] in Hx. eapply Permutation_in; [apply swap_perm|eassumption].
  - (* swap_ops *) match goal with H : Permutation _ _ |- _ => rename H into Hp end. destruct J as [K1 K2 K3 K4 K5 K6 K7 K8 K9]. pose proof (get_perm_op s l K1 Hp) as Hg.
    assert (HL : later s (set_ops l s)). { split; [apply N.le_refl|]. intros i o' Hi. rewrite Hg. eauto. }
    constructor.
    + eapply Permutation_NoDup; [|exact K1]. apply Permutation_map, Permutation_sym. assumption.
    + intros i x. rewrite Hg. apply K2.
    + discriminate.
    + intros ? [?|?]; discriminate.
    + intros e f i k Hi Hd. apply (fits_later _ _ _ _ HL). eapply K5; eassumption.
    + intros f r i Hi Hd. apply (fits_later _ _ _ _ HL). eapply K6; eassumption.
    + intros i Hi. apply (fits_later _ _ _ _ HL). apply K7. assumption.
    + intros t i Hi. apply (fits_later _ _ _ _ HL). eapply K8. eassumption.
    + assumption.
Qed.
Lemma J2_new connected : J2 IDLE (client_new connected).
Proof. constructor; try (cbn; discriminate); try reflexivity; cbn; try tauto; [constructor|intros ? [?|?]; discriminate]. Qed.
Lemma J3_new connected : J3 IDLE (client_new connected).
Proof. intros _ b f. reflexivity. Qed.
(** everything so far *)
Definition J13 cf g s := J1 cf g s /\ J3 g s /\ J2 g s.
Lemma J13_step cf : cf_ok cf -> forall g s g' s', J13 cf g s -> big cf (g, s) (g', s') -> J13 cf g' s'.
Proof. intros Hc g s g' s' (H1 & H3 & H2) B. split; [eapply J1_step; eassumption|split; [eapply J3_step; eassumption|eapply J2_step; eassumption]]. Qed.
Lemma J13_new cf connected : J13 cf IDLE (client_new connected).
Proof. split; [apply J1_new|split; [apply J3_new|apply J2_new]]. Qed.
Lemma J13_history cf connected l : cf_ok cf -> J13 cf IDLE (history cf connected l).
Proof. intros Hc. apply (history_inv cf (J13 cf)); [apply J13_new|apply J13_step; assumption]. Qed.
