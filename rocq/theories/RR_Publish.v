(** Requests are published when their subscriptions are in place. *)
From Verif Require Import Base Split TopicAlias_Model TopicAlias_Proofs SubSet_Model Topic_Model Paths RR_Model RR_Spec RR_Steps RR_Decomp RR_Subs RR_Flights RR_Kinds RR_Trace RR_OpsTrace RR_Filters RR_All RR_Lives RR_Requests RR_Why RR_Streams.
From Coq Require Import Permutation.

(** the filters for which request [id] is to be told of a success *)
Definition win (id : N) (x : sub_event * bytes * N) : bool := match fst (fst x) with SUBSCRIBE_SUCCESS => N.eqb (snd x) id | _ => false end.
Definition wins (id : N) (l : list (sub_event * bytes * N)) : list bytes := map (fun x => snd (fst x)) (filter (win id) l).
Lemma wins_app id l l' : wins id (l ++ l') = wins id l ++ wins id l'.
Proof. unfold wins. rewrite filter_app, map_app. reflexivity. Qed.
Lemma wins_in id l f : In f (wins id l) <-> In (SUBSCRIBE_SUCCESS, f, id) l.
Proof.
  unfold wins. rewrite in_map_iff. split.
  - intros ([[e f'] i] & <- & K). apply filter_In in K as [K1 K2]. unfold win in K2. cbn in *. destruct e; try discriminate. apply N.eqb_eq in K2. subst i. exact K1.
  - intros K. exists (SUBSCRIBE_SUCCESS, f, id). split; [reflexivity|]. apply filter_In. split; [exact K|]. unfold win. cbn. apply N.eqb_refl.
Qed.
Lemma wins_told id e f l : NoDup l -> wins id (map (fun i => (e, f, i)) l) = match e with SUBSCRIBE_SUCCESS => if existsb (N.eqb id) l then [f] else [] | _ => [] end.
Proof.
  intros H. induction H as [|x l Hx Hl IH]; [destruct e; reflexivity|]. cbn [map].
  change ((e, f, x) :: map (fun i => (e, f, i)) l) with ([(e, f, x)] ++ map (fun i => (e, f, i)) l). rewrite wins_app, IH. destruct e; try reflexivity. unfold wins. cbn [filter win fst snd existsb]. rewrite (N.eqb_sym x id). destruct (N.eqb_spec id x) as [->|]; cbn [map app orb]; [|reflexivity].
  destruct (existsb (N.eqb x) l) eqn:E; [|reflexivity]. apply existsb_exists in E as (y & Hy & E). apply N.eqb_eq in E. subst y. destruct (Hx Hy).
Qed.
(** [l] is newest first *)
Definition granted (id : N) (f : bytes) (l : list out) : Prop := exists l1 a l2, l = l1 ++ O_INTAKE id a :: l2 /\ In (I_SUBACK f true) l1.
Definition ready (id : N) (f : bytes) (l : list out) : Prop := granted id f l \/ exists l1 l2, l = l1 ++ O_INTAKE id A_SUBSCRIBED :: l2 /\ held f (rev l2) = true.
Lemma granted_more id f m l : granted id f l -> granted id f (m ++ l).
Proof. intros (l1 & a & l2 & -> & K). exists (m ++ l1), a, l2. rewrite <- app_assoc. split; [reflexivity|]. apply in_or_app. right. exact K. Qed.
Lemma ready_more id f m l : ready id f l -> ready id f (m ++ l).
Proof. intros [K|(l1 & l2 & -> & K)]; [left; apply granted_more; exact K|right]. exists (m ++ l1), l2. rewrite <- app_assoc. auto. Qed.
Lemma ready_spec id f l : ready id f l -> subscribed_for id f (rev l).
Proof.
  intros [(l1 & a & l2 & -> & K)|(l1 & l2 & -> & K)]; rewrite rev_app_distr; cbn [rev]; rewrite <- app_assoc; eexists (rev l2), _, (rev l1); (split; [reflexivity|]); [right; apply -> in_rev; exact K|left; auto].
Qed.
Definition readying (g : ghost) (o : op) : Prop := g = PUBLISHING o \/ g = TOOK o A_SUBSCRIBED \/ g = TABLED o A_SUBSCRIBED.
Definition loud (x : out) : Prop := match x with O_PUBLISH _ _ => True | O_INTAKE _ A_SUBSCRIBED => True | _ => False end.
Record J13 (g : ghost) (s : client) : Prop := {
  m_ops : forall id o, get_op id s = Some o -> o_kind o = REQUEST -> exists P, NoDup (P ++ wins id (evs g s)) /\ o_pending o + len P = len (o_filters o) /\
            forall f, In f (P ++ wins id (evs g s)) -> granted id f (c_out s) /\ In f (o_filters o) /\ (forall r, get_sub f s = Some r -> In id (s_listeners r) -> s_subscribed r = true);
  m_listeners : forall f r, get_sub f s = Some r -> NoDup (s_listeners r);
  m_ready : forall o, readying g o -> forall f, In f (o_filters o) -> ready (o_id o) f (c_out s);
  m_acked : forall f ok, g = ACKED true f ok -> exists l, c_out s = I_SUBACK f ok :: l;
  m_next : forall l1 id l2, c_out s = l1 ++ O_INTAKE id A_SUBSCRIBED :: l2 -> (exists r, is_op id (W_REQUEST r) l2) -> (exists ok l, l1 = l ++ [O_PUBLISH id ok]) \/ (l1 = [] /\ exists o, o_id o = id /\ o_kind o = REQUEST /\ readying g o);
  m_all : forall l1 id ok l2, c_out s = l1 ++ O_PUBLISH id ok :: l2 -> exists r, is_op id (W_REQUEST r) l2 /\ forall f, In f (r_filters r) -> ready id f l2 }.

Definition keeps (s s' : client) : Prop := forall id o', get_op id s' = Some o' -> exists o, get_op id s = Some o /\ o_work o = o_work o' /\ o_pending o = o_pending o'.
Lemma keeps_ops s s' : c_ops s' = c_ops s -> keeps s s'.
Proof. intros E id o' H. unfold get_op in *. rewrite E in H. eauto. Qed.
Lemma keeps_trans s s1 s2 : keeps s s1 -> keeps s1 s2 -> keeps s s2.
Proof. intros H1 H2 id o' H. destruct (H2 _ _ H) as (o1 & K1 & K2 & K3). destruct (H1 _ _ K1) as (o & L1 & L2 & L3). exists o. split; [exact L1|]. split; congruence. Qed.
Lemma keeps_upd id h s : (forall o, o_id (h o) = o_id o /\ o_work (h o) = o_work o /\ o_pending (h o) = o_pending o) -> keeps s (upd_op id h s).
Proof.
  intros Hh i o' H. rewrite get_op_upd in H by (intros; apply Hh). destruct (i =? id); [|eauto]. destruct (get_op i s) as [o|]; [|discriminate]. injection H as <-. exists o. destruct (Hh o) as (_ & K1 & K2). auto.
Qed.
Lemma unref_keeps o : o_id (unref o) = o_id o /\ o_work (unref o) = o_work o /\ o_pending (unref o) = o_pending o.
Proof. unfold unref. destruct (_ =? _); repeat split. Qed.
(** listeners of requests keep their subscription *)
Definition firm (s' : client) (r r' : sub) : Prop := (NoDup (s_listeners r) -> NoDup (s_listeners r')) /\ incl (s_listeners r') (s_listeners r) /\
  (s_subscribed r = true -> s_subscribed r' = true \/ forall id o, In id (s_listeners r') -> get_op id s' = Some o -> o_kind o <> REQUEST).
Lemma firm_refl s r : firm s r r. Proof. split; [auto|]. split; [apply incl_refl|auto]. Qed.
Lemma split_head {A} (m l l1 l2 : list A) (x : A) (Q : A -> Prop) : Forall (fun y => ~ Q y) m -> Q x -> m ++ l = l1 ++ x :: l2 -> exists a, l1 = m ++ a /\ l = a ++ x :: l2.
Proof.
  revert l1. induction m as [|y m IH]; intros l1 Hm Hx H; [exists l1; auto|]. inversion Hm as [|? ? Hy Hm']; subst. destruct l1 as [|z l1]; [injection H as -> _; contradiction|]. injection H as -> H. destruct (IH _ Hm' Hx H) as (a & -> & K). exists a. auto.
Qed.
Lemma NoDup_remove_app {A} (P x w : list A) : NoDup (P ++ x ++ w) -> NoDup (P ++ w).
Proof. induction x as [|y x IH]; intros H; [exact H|]. apply IH. cbn [app] in H. apply NoDup_remove_1 in H. exact H. Qed.
Lemma j13_gen g s g' s' m : J13 g s -> c_out s' = m ++ c_out s -> Forall (fun x => ~ loud x) m ->
  (forall id o', get_op id s' = Some o' -> o_kind o' = REQUEST -> (exists o, get_op id s = Some o /\ o_work o = o_work o' /\ o_pending o = o_pending o') \/ (o_pending o' = len (o_filters o') /\ wins id (evs g' s') = [])) ->
  (forall id o, get_op id s' = Some o -> o_kind o = REQUEST -> exists x, wins id (evs g s) = x ++ wins id (evs g' s')) ->
  (forall f r', get_sub f s' = Some r' -> exists r, get_sub f s = Some r /\ firm s' r r') -> (forall o, readying g' o -> readying g o) -> (forall o, readying g o -> o_kind o = REQUEST -> m = [] /\ readying g' o) ->
  (forall f ok, g' = ACKED true f ok -> exists l, c_out s' = I_SUBACK f ok :: l) -> J13 g' s'.
Proof.
  intros [A1 A2 A3 A4 A5 A6] Ho Hm Hk Hw Hs Hr Hn Ha. constructor.
  - intros id o' K1 K2. destruct (Hk _ _ K1 K2) as [(o & L1 & L2 & L3)|(L1 & L2)]; [|exists []; rewrite L2; split; [constructor|]; split; [rewrite L1; unfold len; cbn; lia|intros f []]].
    assert (L4 : o_kind o = REQUEST) by (unfold o_kind in *; rewrite L2; exact K2). destruct (A1 id o L1 L4) as (P & M1 & M2 & M3). destruct (Hw id o' K1 K2) as (x & Hx). exists P.
    assert (E : o_filters o' = o_filters o) by (unfold o_filters; rewrite L2; reflexivity). assert (Hin : forall f, In f (P ++ wins id (evs g' s')) -> In f (P ++ wins id (evs g s))) by (intros f; rewrite Hx, !in_app_iff; tauto). split; [|split].
    + rewrite Hx in M1. apply NoDup_remove_app in M1. exact M1.
    + rewrite E, <- L3. exact M2.
    + intros f K. destruct (M3 f (Hin f K)) as (N1 & N2 & N3). split; [rewrite Ho; apply granted_more; exact N1|]. rewrite E. split; [exact N2|]. intros r' Hr' Hi. destruct (Hs f r' Hr') as (r & Q1 & Q2 & Q3 & Q4). destruct (Q4 (N3 r Q1 (Q3 _ Hi))) as [Q|Q]; [exact Q|]. destruct (Q id o' Hi K1 K2).
  - intros f r' K. destruct (Hs f r' K) as (r & Q1 & Q2 & _). apply Q2. apply (A2 f). exact Q1.
  - intros o K f Kf. rewrite Ho. apply ready_more. apply (A3 o (Hr o K) f Kf).
  - exact Ha.
  - intros l1 id l2 K Hop. rewrite Ho in K. destruct (split_head m (c_out s) l1 l2 (O_INTAKE id A_SUBSCRIBED) loud Hm I K) as (a & -> & Ka). destruct (A5 _ _ _ Ka Hop) as [(ok & l & ->)|(-> & o & K1 & K2 & K3)]; [left; exists ok, (m ++ l); rewrite app_assoc; reflexivity|]. destruct (Hn o K3 K2) as [-> K4]. right. split; [reflexivity|]. exists o. auto.
  - intros l1 id ok l2 K. rewrite Ho in K. destruct (split_head m (c_out s) l1 l2 (O_PUBLISH id ok) loud Hm I K) as (a & -> & Ka). apply (A6 _ _ _ _ Ka).
Qed.
Lemma j13_go g s g' s' m : J13 g s -> c_out s' = m ++ c_out s -> Forall (fun x => ~ loud x) m -> keeps s s' -> (forall id o, get_op id s' = Some o -> o_kind o = REQUEST -> exists x, wins id (evs g s) = x ++ wins id (evs g' s')) ->
  (forall f r', get_sub f s' = Some r' -> exists r, get_sub f s = Some r /\ firm s' r r') -> (forall o, readying g' o -> readying g o) -> (forall o, readying g o -> o_kind o = REQUEST -> m = [] /\ readying g' o) ->
  (forall f ok, g' = ACKED true f ok -> exists l, c_out s' = I_SUBACK f ok :: l) -> J13 g' s'.
Proof. intros J Ho Hm Hk. apply j13_gen with (1 := J) (2 := Ho) (3 := Hm). intros id o' K _. left. exact (Hk id o' K). Qed.

Ltac gk := unfold completed, halted, release, activate_stream; repeat (first [apply keeps_ops; reflexivity|eapply keeps_trans; [|apply keeps_upd; intros ?; first [apply unref_keeps|repeat split; reflexivity]]]).
Ltac gw := intros ? ? _ _; first [exists []; reflexivity|exists []; match goal with g : ghost |- _ => destruct g; reflexivity end|eexists; match goal with |- wins ?i (evs (HANDLING ?e ?f ?id) ?s) = _ => exact (wins_app i [(e, f, id)] (c_events s)) end].
Ltac gs := intros ? r1 K; exists r1; split; [exact K|apply firm_refl].
Ltac gr := intros ? K; first [exact K|destruct K as [K|[K|K]]; solve [discriminate K]].
Ltac gn := intros ? K _; destruct K as [K|[K|K]]; solve [discriminate K].
Ltac ga := intros ? ? K; solve [discriminate K].
Ltac gf := solve [eapply (j13_go _ _ _ _ []); [eassumption|reflexivity|constructor|gk|gw|gs|gr|gn|ga]
  |match goal with |- J13 _ ?s' => let x := eval cbn [completed halted subscribing unsubscribing told activate_stream release upd_op upd_sub set_ops set_subs set_queue set_flights set_publishes set_events set_connected set_scheduled set_phase emit c_out] in (c_out s') in match x with ?y :: _ =>
  eapply (j13_go _ _ _ _ [y]); [eassumption|reflexivity|constructor; [exact (fun h => h)|constructor]|gk|gw|gs|gr|gn|ga] end end].
Lemma sub_firm s s' f h : c_subs s' = c_subs (upd_sub f h s) -> (forall r, s_filter (h r) = s_filter r) -> (forall r, get_sub f s = Some r -> firm s' r (h r)) -> forall f' r', get_sub f' s' = Some r' -> exists r, get_sub f' s = Some r /\ firm s' r r'.
Proof.
  intros E Hf Hh f' r' H. rewrite (get_sub_subs f' (upd_sub f h s) s' E) in H. rewrite get_sub_upd in H by exact Hf. destruct (bytes_eqb f f') eqn:Eb.
  - apply bytes_eqb_spec in Eb. subst f'. destruct (get_sub f s) as [r|] eqn:Er; [|discriminate]. injection H as <-. exists r. auto.
  - exists r'. split; [exact H|apply firm_refl].
Qed.
Lemma firm_same s r r' : s_listeners r' = s_listeners r -> (s_subscribed r = true -> s_subscribed r' = true) -> firm s r r'.
Proof. intros E H. unfold firm. rewrite E. split; [auto|]. split; [apply incl_refl|auto]. Qed.
Lemma firm_none s r r' : s_listeners r' = [] -> firm s r r'.
Proof. intros E. unfold firm. rewrite E. split; [intros _; constructor|]. split; [intros ? []|]. intros _. right. intros id o []. Qed.
Lemma wins_other id e f l : e <> SUBSCRIBE_SUCCESS -> wins id (map (fun i => (e, f, i)) l) = [].
Proof. intros H. induction l as [|x l IH]; [reflexivity|]. unfold wins in *. cbn [map filter]. unfold win at 1. cbn [fst snd]. destruct e; try exact IH. contradiction. Qed.
Lemma told_wins id e r s : e <> SUBSCRIBE_SUCCESS -> wins id (c_events (told e r s)) = wins id (c_events s).
Proof. intros H. unfold told. cbn [set_events c_events]. rewrite wins_app, wins_other by exact H. apply app_nil_r. Qed.
Lemma refuses_not cf k fs s a : refuses cf k fs s = Some a -> a <> A_SUBSCRIBED.
Proof. unfold refuses. intros H ->. destruct fs; [discriminate|]. repeat match type of H with context [if ?b then _ else _] => destruct b; try discriminate end; destruct k; repeat match type of H with context [if ?b then _ else _] => destruct b; try discriminate end. Qed.
Lemma fail_keeps id e s : keeps s (fail id e s).
Proof.
  unfold fail. destruct (get_op id s) as [o|]; [|apply keeps_ops; reflexivity]. unfold complete, halt. destruct (o_kind o).
  - destruct (state_is _ _); [apply keeps_ops; reflexivity|]. gk.
  - destruct (_ || _); [apply keeps_ops; reflexivity|]. gk.
Qed.
Lemma fail_quiet id e s : exists m, c_out (fail id e s) = m ++ c_out s /\ Forall (fun x => ~ loud x) m.
Proof.
  assert (D : exists m, c_out s = m ++ c_out s /\ Forall (fun x => ~ loud x) m) by (exists []; split; [reflexivity|constructor]).
  unfold fail. destruct (get_op id s) as [o|]; [|exact D]. unfold complete, halt. destruct (o_kind o).
  - destruct (state_is _ _); [exact D|]. eexists [_]. split; [reflexivity|]. constructor; [exact (fun h => h)|constructor].
  - destruct (_ || _); [exact D|]. eexists [_]. split; [reflexivity|]. constructor; [exact (fun h => h)|constructor].
Qed.
Lemma add_tables_keeps o s : keeps s (add_tables o s).
Proof.
  unfold add_tables. eapply keeps_trans; [|apply keeps_upd; intros ?; repeat split; reflexivity]. apply keeps_ops. destruct (o_work o); [cbn [set_tokens c_ops]; apply add_paths_ops|reflexivity].
Qed.
Lemma taking_not_taken cf o rest s : JC cf (TAKING o rest) s -> ~ exists a, In (O_INTAKE (o_id o) a) (c_out s).
Proof.
  intros HC [a K]. pose proof (jb7 _ _ _ (jcb _ _ _ HC)) as H7. destruct (j7_head _ _ H7 o rest eq_refl) as [q Hq]. assert (Hin : In (o_id o) (c_queue s)) by (rewrite Hq; left; reflexivity).
  destruct (proj2 (j7_queue _ _ H7) _ Hin) as [o1 Ho1]. pose proof (j7_live _ _ H7 _ _ Ho1) as L. destruct (l_queue _ _ _ _ _ _ _ _ L Hin) as [L1 _]. apply in_split in K as (l1 & l2 & E). rewrite E, count_app, count_cons in L1. cbn [takes] in L1. rewrite N.eqb_refl in L1. lia.
Qed.
Lemma granted_taken id f l : granted id f l -> exists a, In (O_INTAKE id a) l.
Proof. intros (l1 & a & l2 & -> & _). exists a. apply in_or_app. right. left. reflexivity. Qed.
(** an event for [id] is counted *)
Lemma counted g' f id o s s' : J13 (HANDLING SUBSCRIBE_SUCCESS f id) s -> get_op id s = Some o -> o_kind o = REQUEST -> c_subs s' = c_subs s -> c_out s' = c_out s -> evs g' s' = c_events s -> 
  (forall i o', get_op i s' = Some o' -> exists o0, get_op i s = Some o0 /\ o_work o' = o_work o0 /\ o_pending o' = (if i =? id then o_pending o0 - 1 else o_pending o0)) ->
  1 <= o_pending o /\ (o_pending o = 1 -> forall f', In f' (o_filters o) -> granted id f' (c_out s)) /\
  forall i o, get_op i s' = Some o -> o_kind o = REQUEST -> exists P, NoDup (P ++ wins i (evs g' s')) /\ o_pending o + len P = len (o_filters o) /\
            forall f, In f (P ++ wins i (evs g' s')) -> granted i f (c_out s') /\ In f (o_filters o) /\ (forall r, get_sub f s' = Some r -> In i (s_listeners r) -> s_subscribed r = true).
Proof.
  intros J Ho Hk Es Eo Ee Hops. pose proof (m_ops _ _ J) as A1. assert (Ew : forall i, wins i (evs (HANDLING SUBSCRIBE_SUCCESS f id) s) = (if id =? i then [f] else []) ++ wins i (c_events s)).
  { intros i. cbn [evs]. change ((SUBSCRIBE_SUCCESS, f, id) :: c_events s) with ([(SUBSCRIBE_SUCCESS, f, id)] ++ c_events s). rewrite wins_app. unfold wins at 1. cbn [filter win fst snd]. destruct (id =? i); reflexivity. }
  destruct (A1 id o Ho Hk) as (P & M1 & M2 & M3). rewrite Ew, N.eqb_refl in M1, M3. cbn [app] in M1, M3.
  assert (Mp : NoDup (P ++ [f])). { rewrite <- (app_nil_r (P ++ [f])). apply (NoDup_remove_app (P ++ [f]) (wins id (c_events s)) []). rewrite (app_nil_r (wins id (c_events s))), <- app_assoc. exact M1. }
  assert (Mi : incl (P ++ [f]) (o_filters o)). { intros x Hx. apply (M3 x). apply in_app_or in Hx as [Hx|[<-|[]]]; apply in_or_app; [left; exact Hx|right; left; reflexivity]. }
  assert (Hlen : (length (P ++ [f]) <= length (o_filters o))%nat) by (apply NoDup_incl_length; assumption). rewrite app_length in Hlen. cbn [length] in Hlen.
  assert (H1 : 1 <= o_pending o) by (unfold len in M2; lia). split; [exact H1|]. split.
  - intros E1 f' Hf'. assert (Hall : incl (o_filters o) (P ++ [f])). { apply NoDup_length_incl; [exact Mp| |exact Mi]. rewrite app_length. cbn [length]. unfold len in M2. lia. } apply (M3 f'). specialize (Hall _ Hf'). apply in_app_or in Hall as [K|[<-|[]]]; apply in_or_app; [left; exact K|right; left; reflexivity].
  - intros i o' Ho' Hk'. destruct (Hops i o' Ho') as (o0 & L1 & L2 & L3). rewrite Ee, Eo. assert (Ef : o_filters o' = o_filters o0) by (unfold o_filters; rewrite L2; reflexivity). rewrite Ef.
    assert (Hk0 : o_kind o0 = REQUEST) by (unfold o_kind in *; rewrite <- L2; exact Hk'). assert (Eg : forall x, get_sub x s' = get_sub x s) by (intros; apply get_sub_subs; exact Es). destruct (N.eqb_spec i id) as [->|Hne].
    + rewrite Ho in L1. injection L1 as <-. exists (P ++ [f]). rewrite <- app_assoc. split; [exact M1|]. split; [rewrite L3; unfold len in *; rewrite app_length; cbn [length]; lia|]. intros x Hx. rewrite Eg. apply M3. exact Hx.
    + destruct (A1 i o0 L1 Hk0) as (Q & N1 & N2 & N3). rewrite Ew in N1, N3. destruct (N.eqb_spec id i); [congruence|]. cbn [app] in N1, N3. exists Q. split; [exact N1|]. split; [rewrite L3; exact N2|]. intros x Hx. rewrite Eg. apply N3. exact Hx.
Qed.
Lemma j13_publish g' o s s' ok : J13 (PUBLISHING o) s -> J2 (PUBLISHING o) s -> J5 (PUBLISHING o) s -> c_out s' = O_PUBLISH (o_id o) ok :: c_out s -> c_ops s' = c_ops s -> c_subs s' = c_subs s -> evs g' s' = c_events s -> (forall x, ~ readying g' x) -> (forall f ok, g' <> ACKED true f ok) -> o_kind o = REQUEST -> J13 g' s'.
Proof.
  intros [A1 A2 A3 A4 A5 A6] HJ2 HJ5 Eo Ep Es Ee Hr Ha Hk. assert (Eg : forall x, get_sub x s' = get_sub x s) by (intros; apply get_sub_subs; exact Es). constructor.
  - intros id o' K1 K2. assert (K1' : get_op id s = Some o') by (unfold get_op in *; rewrite <- Ep; exact K1). destruct (A1 id o' K1' K2) as (P & M1 & M2 & M3). exists P. rewrite Ee. split; [exact M1|]. split; [exact M2|]. intros f K. destruct (M3 f K) as (N1 & N2 & N3). split; [rewrite Eo; apply (granted_more id f [_]); exact N1|]. split; [exact N2|]. intros r. rewrite Eg. apply N3.
  - intros f r. rewrite Eg. apply A2.
  - intros x K. destruct (Hr x K).
  - intros f ok' K. destruct (Ha f ok' K).
  - intros l1 id l2 K Hop. rewrite Eo in K. destruct l1 as [|y l1]; [discriminate|]. injection K as <- K. left. destruct (A5 _ _ _ K Hop) as [(ok' & l & ->)|(-> & x & K1 & K2 & [K3|[K3|K3]])]; [exists ok', (O_PUBLISH (o_id o) ok :: l); reflexivity| |discriminate|discriminate]. injection K3 as <-. subst id. exists ok, []. reflexivity.
  - intros l1 id ok' l2 K. rewrite Eo in K. destruct l1 as [|y l1]; [|injection K as _ K; exact (A6 _ _ _ _ K)]. injection K as <- <- <-. pose proof (gop_is _ _ _ HJ2 HJ5 (eq_refl : gop (PUBLISHING o) = Some o)) as Hi. unfold o_kind in Hk. pose proof (A3 o (or_introl eq_refl)) as Hrd. unfold o_filters in Hrd. destruct (o_work o) as [r|]; [|discriminate]. exists r. split; [destruct Hi as [d Hi]; exists d; unfold trace in Hi; rewrite <- in_rev in Hi; exact Hi|exact Hrd].
Qed.
Lemma J13_step cf g s g' s' : JC cf g s -> J13 g s -> big cf (g, s) (g', s') -> J13 g' s'.
Proof.
  intros HC J B. pose proof (jcb _ _ _ HC) as HB. pose proof (jba _ _ _ HB) as HA. pose proof (ja2 _ _ _ HA) as HJ2. pose proof (ja5 _ _ _ HA) as HJ5. pose proof (ja1 _ _ _ HA) as HJ1.
  inversion B as [x y P|s0 Ha Hs|s0 Hp Ho He Hu]; subst; [|gf|gf].
  clear B. inversion P; subst; try gf.
  - (* create *) match goal with H : valid_work w = true |- _ => rename H into Hv end. eapply (j13_gen _ _ _ _ [_]); [eassumption|rewrite create_shape by exact Hv; reflexivity|constructor; [exact (fun h => h)|constructor]| | | |gr|gn|ga].
    + intros id o' K _. rewrite create_get in K by exact Hv. destruct (get_op id s) as [x|] eqn:Ex; [injection K as <-; left; eauto|]. destruct (N.eqb_spec id (c_next s)) as [->|]; [|discriminate]. injection K as <-. right. split; [reflexivity|].
      destruct (wins _ _) as [|f l] eqn:Ew; [reflexivity|]. assert (Hin : In f (wins (c_next s) (evs IDLE (create cf now w s)))) by (rewrite Ew; left; reflexivity). apply wins_in in Hin. assert (Hin' : In (SUBSCRIBE_SUCCESS, f, c_next s) (evs IDLE s)) by (rewrite create_shape in Hin by exact Hv; exact Hin). destruct (j2_events _ _ HJ2 _ _ _ _ Hin' eq_refl) as [Hlt _]. lia.
    + intros id o' _ _. exists []. rewrite create_shape by exact Hv. reflexivity.
    + intros f r' K. rewrite create_shape in K by exact Hv. exists r'. split; [exact K|apply firm_refl].
  - (* submitted *) destruct (submitted_is id now s) as [n ->]. gf.
  - (* timeout *) set (s1 := upd_op (o_id o) (set_timed false) s). destruct (fail_quiet (o_id o) E_TIMEOUT s1) as (m & F1 & Fm). destruct (fail_shape (o_id o) E_TIMEOUT s1) as (_ & _ & _ & F3 & _). apply rest_inj in F3 as (_ & F5 & _ & _ & _ & _ & F6 & _).
    eapply (j13_go _ _ _ _ m); [eassumption|exact F1|exact Fm|eapply keeps_trans; [|apply fail_keeps]; unfold s1; gk| | |gr|gn|ga].
    + intros i x _ _. exists []. cbn [evs app]. rewrite F6. reflexivity.
    + intros f r' K. exists r'. split; [|apply firm_refl]. unfold get_sub in *. rewrite F5 in K. exact K.
  - (* refuse *) match goal with H : refuses _ _ _ _ = Some _ |- _ => apply refuses_not in H as Hna end. eapply (j13_go _ _ _ _ [_]); [eassumption|reflexivity|constructor; [destruct a; try exact (fun h => h); destruct (Hna eq_refl)|constructor]|gk|gw|gs| |gn|ga]. intros x [K|[K|K]]; try discriminate. injection K as _ K. destruct (Hna K).
  - (* listen *) pose proof (taking_not_taken _ _ _ _ HC) as Hnt. destruct J as [A1 A2 A3 A4 A5 A6]. assert (Ho : c_out (listen (o_kind o) (o_id o) s f) = c_out s) by apply listen_out.
    assert (Eop : forall i, get_op i (listen (o_kind o) (o_id o) s f) = get_op i s) by (intros i; unfold listen; destruct (get_sub f s); reflexivity). assert (Eev : c_events (listen (o_kind o) (o_id o) s f) = c_events s) by (unfold listen; destruct (get_sub f s); reflexivity). constructor; rewrite ?Ho.
    + intros id x K1 K2. rewrite Eop in K1. destruct (A1 id x K1 K2) as (P0 & M1 & M2 & M3). exists P0. cbn [evs] in *. rewrite Eev. split; [exact M1|]. split; [exact M2|]. intros f0 K. destruct (M3 f0 K) as (N1 & N2 & N3). split; [exact N1|]. split; [exact N2|].
      assert (Hne : id <> o_id o) by (intros ->; apply Hnt; eapply granted_taken; exact N1). intros r' Hr Hi. rewrite get_sub_listen in Hr. destruct (bytes_eqb f f0) eqn:Ef; [|eapply N3; eassumption]. apply bytes_eqb_spec in Ef. subst f0. destruct (get_sub f s) as [r|] eqn:Er; injection Hr as <-.
      * cbn [with_listeners s_listeners s_subscribed] in *. apply (N3 r eq_refl). destruct (existsb _ _) in Hi; [exact Hi|]. apply in_app_or in Hi as [Hi|[Hi|[]]]; [exact Hi|congruence].
      * destruct Hi as [Hi|[]]. congruence.
    + intros f0 r' Hr. rewrite get_sub_listen in Hr. destruct (bytes_eqb f f0) eqn:Ef; [|eapply A2; eassumption]. destruct (get_sub f s) as [r|] eqn:Er; injection Hr as <-; cbn [with_listeners s_listeners]; [|constructor; [exact (fun h => h)|constructor]].
      pose proof (A2 f r Er) as Hnd. destruct (existsb (N.eqb (o_id o)) (s_listeners r)) eqn:Ex; [exact Hnd|]. apply NoDup_app_intro; [exact Hnd|constructor; [exact (fun h => h)|constructor]|]. intros x Hx [<-|[]]. rewrite <- not_true_iff_false in Ex. apply Ex. apply existsb_exists. exists (o_id o). split; [exact Hx|apply N.eqb_refl].
    + intros x [K|[K|K]]; discriminate.
    + discriminate.
    + intros l1 id l2 K Hop. destruct (A5 _ _ _ K Hop) as [K'|(_ & x & _ & _ & [K'|[K'|K']])]; [left; exact K'|discriminate|discriminate|discriminate].
    + exact A6.
  - (* took *) match goal with H : c_phase s = ACTIVE |- _ => rename H into Hac end. match goal with H : a = A_SUBSCRIBED -> _ |- _ => rename H into Hsub end. destruct (match a with A_SUBSCRIBED => true | _ => false end) eqn:Ea.
    + assert (a = A_SUBSCRIBED) by (destruct a; try discriminate; reflexivity). subst a. pose proof (gop_is _ _ _ HJ2 HJ5 (eq_refl : gop (TAKING o []) = Some o)) as Hi. destruct J as [A1 A2 A3 A4 A5 A6]. constructor; cbn [emit set_queue c_out].
      * intros id x K1 K2. destruct (A1 id x K1 K2) as (P0 & M1 & M2 & M3). exists P0. split; [exact M1|]. split; [exact M2|]. intros f0 K. destruct (M3 f0 K) as (N1 & N2 & N3). split; [apply (granted_more _ _ [_]); exact N1|]. split; [exact N2|exact N3].
      * exact A2.
      * intros x Hx f Hf. destruct Hx as [K|[K|K]]; try discriminate. injection K as <-. right. exists [], (c_out s). split; [reflexivity|]. change (rev (c_out s)) with (trace s). rewrite (j4_held _ _ (ja4 _ _ _ HA) Hac). cbn [shown]. unfold view. destruct (Hsub eq_refl f Hf) as (r & Hr & Hs). rewrite Hr. exact Hs.
      * discriminate.
      * intros l1 id l2 K Hop. destruct l1 as [|y l1].
        -- injection K as <- <-. right. split; [reflexivity|]. exists o. split; [reflexivity|]. split; [|right; left; reflexivity]. destruct Hop as (r & d & Hop). assert (Hop' : is_op (o_id o) (W_REQUEST r) (trace s)) by (exists d; unfold trace; apply -> in_rev; exact Hop). unfold o_kind. rewrite (is_op_uniq _ _ _ _ _ HJ5 Hi Hop'). reflexivity.
        -- injection K as <- K. destruct (A5 _ _ _ K Hop) as [(ok & l & ->)|(_ & x & _ & _ & [K'|[K'|K']])]; [|discriminate|discriminate|discriminate]. left. eexists ok, (_ :: l). reflexivity.
      * intros l1 id ok l2 K. destruct l1 as [|y l1]; [discriminate|]. injection K as _ K. exact (A6 _ _ _ _ K).
    + eapply (j13_go _ _ _ _ [_]); [eassumption|reflexivity|constructor; [destruct a; try discriminate; exact (fun h => h)|constructor]|gk|gw|gs| |gn|ga]. intros x [K|[K|K]]; try discriminate. injection K as _ K. subst a. discriminate.
  - (* failed *) eapply (j13_go _ _ _ _ []); [eassumption|reflexivity|constructor|gk|gw|gs|gr| |ga]. intros x [K|[K|K]] _; try discriminate. injection K as _ K. subst a. match goal with H : _ \/ _ |- _ => destruct H; discriminate end.
  - (* tables *) destruct (add_tables_frame o s) as (F1 & F2 & F3 & F4 & F5 & F6 & F7 & F8). eapply (j13_go _ _ _ _ []); [eassumption|exact F8|constructor|apply add_tables_keeps| | | | |ga].
    + intros i x _ _. exists []. cbn [evs app]. rewrite F4. reflexivity.
    + intros f r' K. exists r'. split; [|apply firm_refl]. unfold get_sub in *. rewrite add_tables_subs in K. exact K.
    + intros x [K|[K|K]]; try discriminate. injection K as <- ->. right. left. reflexivity.
    + intros x [K|[K|K]] _; try discriminate. injection K as <- ->. split; [reflexivity|]. right. right. reflexivity.
  - (* stream *) eapply (j13_go _ _ _ _ [_]); [eassumption|reflexivity|constructor; [exact (fun h => h)|constructor]|gk|gw|gs|gr| |ga]. intros x [K|[K|K]] Hx; try discriminate. injection K as <-. congruence.
  - (* now *) eapply (j13_go _ _ _ _ []); [eassumption|reflexivity|constructor|gk|gw|gs| | |ga].
    + intros x [K|[K|K]]; try discriminate. injection K as <-. right. right. reflexivity.
    + intros x [K|[K|K]] _; try discriminate. injection K as <-. split; [reflexivity|]. left. reflexivity.
  - eapply j13_publish; [eassumption|assumption|assumption|reflexivity|reflexivity|reflexivity|reflexivity|intros x [K|[K|K]]; discriminate|discriminate|assumption].
  - eapply j13_publish; [eassumption|assumption|assumption|reflexivity|reflexivity|reflexivity|reflexivity|intros x [K|[K|K]]; discriminate|discriminate|assumption].
  - (* complete *) match goal with H : cause _ _ _ _ |- _ => rename H into Hca end. eapply (j13_go _ _ _ _ [_]); [eassumption|reflexivity|constructor; [exact (fun h => h)|constructor]|gk| |gs|gr| |].
    + intros i x _ _. exists []. destruct g'; reflexivity.
    + intros x [K|[K|K]] _; subst g'; inversion Hca; subst. match goal with H : refusal _ _ |- _ => destruct H as [[K _]|[K _]]; discriminate K end.
    + intros f ok K. subst g'. inversion Hca.
  - match goal with H : cause _ _ _ _ |- _ => rename H into Hca end. eapply (j13_go _ _ _ _ []); [eassumption|reflexivity|constructor|gk| |gs|gr| |].
    + intros i x _ _. exists []. destruct g'; reflexivity.
    + intros x [K|[K|K]] _; subst g'; inversion Hca; subst. match goal with H : refusal _ _ |- _ => destruct H as [[K _]|[K _]]; discriminate K end.
    + intros f ok K. subst g'. inversion Hca.
  - match goal with H : halt_cause _ _ _ |- _ => rename H into Hca end. eapply (j13_go _ _ _ _ [_]); [eassumption|reflexivity|constructor; [exact (fun h => h)|constructor]|gk| |gs|gr| |].
    + intros i x _ _. exists []. destruct g'; reflexivity.
    + intros x [K|[K|K]] _; subst g'; inversion Hca; subst. match goal with H : refusal _ _ |- _ => destruct H as [[K _]|[K _]]; discriminate K end.
    + intros f ok K. subst g'. inversion Hca.
  - (* pop *) match goal with H : c_events s = _ |- _ => rename H into Hev end. eapply (j13_go _ _ _ _ []); [eassumption|reflexivity|constructor|gk| |gs|gr|gn|ga]. intros i x _ _. exists []. cbn [evs set_events c_events app]. rewrite Hev. reflexivity.
  - (* wake *) destruct (wake_is now s) as [n ->]. gf.
  - (* count *) match goal with H : get_op id s = Some o |- _ => rename H into Ho end. assert (Hk : o_kind o = REQUEST). { destruct (j2_events _ _ HJ2 SUBSCRIBE_SUCCESS f id REQUEST (or_introl eq_refl) eq_refl) as [_ K]. apply K. exact Ho. }
    set (p := if o_pending o =? 0 then two64 - 1 else o_pending o - 1) in *. set (s1 := upd_op id (set_pending p) s). assert (Hp0 : o_pending o - 1 = p \/ o_pending o = 0) by (unfold p; destruct (N.eqb_spec (o_pending o) 0); [right; assumption|left; reflexivity]).
    assert (H1 : 1 <= o_pending o). { assert (Hx : forall i o', get_op i s = Some o' -> exists o0, get_op i s = Some o0 /\ o_work o' = o_work o0 /\ o_pending o' = o_pending o0) by eauto.
      destruct (m_ops _ _ J id o Ho Hk) as (P0 & M1 & M2 & M3). assert (Ew : wins id (evs (HANDLING SUBSCRIBE_SUCCESS f id) s) = f :: wins id (c_events s)). { cbn [evs]. change ((SUBSCRIBE_SUCCESS, f, id) :: c_events s) with ([(SUBSCRIBE_SUCCESS, f, id)] ++ c_events s). rewrite wins_app. unfold wins at 1. cbn [filter win fst snd]. rewrite N.eqb_refl. reflexivity. }
      rewrite Ew in M1, M3. assert (Hl : (length (P0 ++ f :: wins id (c_events s)) <= length (o_filters o))%nat) by (apply NoDup_incl_length; [exact M1|intros x0 Hx0; apply (M3 x0 Hx0)]). rewrite app_length in Hl. cbn [length] in Hl. unfold len in M2. lia. }
    destruct (counted IDLE f id o s s1 J Ho Hk eq_refl eq_refl eq_refl) as (_ & _ & H3).
    { intros i o' K. unfold s1 in K. rewrite get_op_upd in K by reflexivity. destruct (N.eqb_spec i id) as [->|]; [|eauto]. rewrite Ho in K. injection K as <-. exists o. split; [exact Ho|]. split; [reflexivity|]. cbn [set_pending o_pending]. destruct Hp0; lia. }
    destruct J as [A1 A2 A3 A4 A5 A6]. constructor; [exact H3|exact A2|intros x [K|[K|K]]; discriminate|discriminate| |exact A6]. intros l1 i l2 K Hop. destruct (A5 _ _ _ K Hop) as [K'|(_ & x & _ & _ & [K'|[K'|K']])]; [left; exact K'|discriminate|discriminate|discriminate].
  - (* ready *) match goal with H : get_op id s = Some o |- _ => rename H into Ho end. match goal with H : o_pending o = 1 |- _ => rename H into Hone end. assert (Hk : o_kind o = REQUEST). { destruct (j2_events _ _ HJ2 SUBSCRIBE_SUCCESS f id REQUEST (or_introl eq_refl) eq_refl) as [_ K]. apply K. exact Ho. }
    set (s1 := upd_op id (set_state S_PENDING_RESPONSE) (upd_op id (set_pending 0) s)).
    destruct (counted (PUBLISHING o) f id o s s1 J Ho Hk eq_refl eq_refl eq_refl) as (_ & H2 & H3).
    { intros i o' K. unfold s1 in K. rewrite !get_op_upd in K by reflexivity. destruct (N.eqb_spec i id) as [->|]; [|eauto]. rewrite Ho in K. injection K as <-. exists o. split; [exact Ho|]. split; [reflexivity|]. cbn [set_state set_pending o_pending]. lia. }
    destruct J as [A1 A2 A3 A4 A5 A6]. constructor; [exact H3|exact A2| |discriminate| |exact A6].
    + intros x [K|[K|K]]; try discriminate. injection K as <-. intros f' Hf'. rewrite (get_op_id _ _ _ Ho). left. apply (H2 Hone f' Hf').
    + intros l1 i l2 K Hop. destruct (A5 _ _ _ K Hop) as [K'|(_ & x & _ & _ & [K'|[K'|K']])]; [left; exact K'|discriminate|discriminate|discriminate].
  - (* publish crash *) eapply (j13_go _ _ _ _ []); [eassumption|reflexivity|constructor|gk|gw|gs|gr| |ga]. intros x [K|[K|K]] Hx; try discriminate. injection K as <-. congruence.
  - (* established *) clear P. match goal with |- context [if ?b then _ else _] => generalize b end. intros [|]; gf.
  - (* acked *) eapply (j13_go _ _ _ _ [_]); [eassumption|reflexivity|constructor; [destruct b; exact (fun h => h)|constructor]|gk|gw|gs|gr|gn|]. intros f0 ok0 K. injection K as -> <- <-. eexists. reflexivity.
  - (* suback ok *) match goal with H : get_sub f s = Some r |- _ => rename H into Hr end. match goal with H : s_pending r = SUBSCRIBING |- _ => rename H into Hp end. assert (Hns : s_subscribed r = false). { destruct (s_subscribed r) eqn:E; [|reflexivity]. destruct (proj1 (j1_ok _ _ _ HJ1 f r Hr) E Hp). }
    set (s1 := upd_sub f (with_subscribed true) (upd_sub f (with_pending NOTHING) s)). assert (Hsubs : forall f' r', get_sub f' s1 = Some r' -> exists r0, get_sub f' s = Some r0 /\ s_listeners r' = s_listeners r0 /\ ((f' = f /\ s_subscribed r' = true) \/ (f' <> f /\ r' = r0))).
    { intros f' r' K. unfold s1 in K. rewrite !get_sub_upd in K by reflexivity. destruct (bytes_eqb f f') eqn:Ef.
      - apply bytes_eqb_spec in Ef. subst f'. rewrite Hr in K. injection K as <-. exists r. auto.
      - apply bytes_eqb_false in Ef. exists r'. split; [exact K|]. split; [reflexivity|]. right. split; [congruence|reflexivity]. }
    pose proof (get_sub_filter _ _ _ Hr) as Hfr. pose proof (m_listeners _ _ J f r Hr) as Hnd. destruct (m_acked _ _ J f true eq_refl) as (l & Hl).
    assert (Hnew : forall id, In id (s_listeners r) -> granted id f (c_out s)).
    { intros id K. destruct (j11_subs _ _ (jc11 _ _ _ HC) f r id Hr K) as [Hw|(o1 & rest1 & K1 & _)]; [|discriminate]. unfold was_taken in Hw. rewrite Hl in Hw. cbn [existsb takes orb] in Hw. apply existsb_exists in Hw as (x & Hx & Ht). destruct x; try discriminate. cbn [takes] in Ht. apply N.eqb_eq in Ht. subst id0. apply in_split in Hx as (a & b & ->). exists (I_SUBACK f true :: a). eexists _, b. rewrite Hl. split; [reflexivity|left; reflexivity]. }
    destruct J as [A1 A2 A3 A4 A5 A6]. constructor.
    + intros id o Ho Hk. assert (Ho' : get_op id s = Some o) by exact Ho. destruct (A1 id o Ho' Hk) as (P0 & M1 & M2 & M3). exists P0.
      set (e := match s_kind r with REQUEST => SUBSCRIBE_SUCCESS | STREAM => ESTABLISHED end).
      assert (Ew : wins id (evs IDLE (told e r s1)) = wins id (c_events s) ++ (match e with SUBSCRIBE_SUCCESS => if existsb (N.eqb id) (s_listeners r) then [f] else [] | _ => [] end)). { unfold told. cbn [evs set_events c_events]. rewrite wins_app, wins_told by exact Hnd. rewrite Hfr. reflexivity. }
      rewrite Ew. cbn [evs] in M1, M3. set (N0 := match e with SUBSCRIBE_SUCCESS => _ | _ => _ end).
      assert (HN : N0 = [] \/ (N0 = [f] /\ In id (s_listeners r))). { unfold N0. destruct e; auto. destruct (existsb _ _) eqn:Ex; auto. right. split; [reflexivity|]. apply existsb_exists in Ex as (x & Hx & E). apply N.eqb_eq in E. subst x. exact Hx. }
      split; [|split; [exact M2|]].
      * rewrite app_assoc. destruct HN as [-> | [-> Hin]]; [rewrite app_nil_r; exact M1|]. apply NoDup_app_intro; [exact M1|constructor; [exact (fun h => h)|constructor]|]. intros x Hx [<-|[]]. destruct (M3 f Hx) as (_ & _ & K). specialize (K r Hr Hin). congruence.
      * intros f0 K. assert (K' : In f0 (P0 ++ wins id (c_events s)) \/ (f0 = f /\ In id (s_listeners r))). { rewrite app_assoc in K. apply in_app_or in K as [K|K]; [left; exact K|right]. destruct HN as [E|[E Hin]]; rewrite E in K; [destruct K|]. destruct K as [<-|[]]. auto. }
        assert (Hbase : granted id f0 (c_out s) /\ In f0 (o_filters o)). { destruct K' as [K'|[-> Hin]]; [destruct (M3 f0 K') as (N1 & N2 & _); auto|]. split; [apply Hnew; exact Hin|]. destruct (proj1 (j9_subs _ _ _ (jc9 _ _ _ HC) f r Hr) id Hin) as (w & Hw & Hf). rewrite (is_op_uniq _ _ _ _ _ HJ5 Hw (op_is _ _ _ _ HJ5 Ho')) in Hf. exact Hf. }
        destruct Hbase as [B1 B2]. split; [exact B1|]. split; [exact B2|]. intros r' Hr' Hi. destruct (Hsubs f0 r' Hr') as (r0 & L1 & L2 & [[-> L3]|[L3 ->]]); [exact L3|]. destruct K' as [K'|[-> _]]; [|congruence]. destruct (M3 f0 K') as (_ & _ & N3). apply (N3 r0 L1 Hi).
    + intros f' r' K. destruct (Hsubs f' r' K) as (r0 & L1 & L2 & _). rewrite L2. apply (A2 f' r0 L1).
    + intros x [K|[K|K]]; discriminate.
    + discriminate.
    + intros l1 i l2 K Hop. destruct (A5 _ _ _ K Hop) as [K'|(_ & x & _ & _ & [K'|[K'|K']])]; [left; exact K'|discriminate|discriminate|discriminate].
    + exact A6.
  - (* suback failed *) eapply (j13_go _ _ _ _ []); [eassumption|reflexivity|constructor|gk| |eapply (sub_firm s _ f (with_pending NOTHING)); [reflexivity|reflexivity|intros; apply firm_same; [reflexivity|exact (fun h => h)]]|gr|gn|ga]. intros i x _ _. exists []. cbn [evs app]. rewrite told_wins by discriminate. reflexivity.
  - eapply (j13_go _ _ _ _ []); [eassumption|reflexivity|constructor|gk|gw|eapply (sub_firm s _ f (with_pending NOTHING)); [reflexivity|reflexivity|intros; apply firm_same; [reflexivity|exact (fun h => h)]]|gr|gn|ga].
  - eapply (j13_go _ _ _ _ []); [eassumption|reflexivity|constructor|gk| |eapply (sub_firm s _ f (fun r => poisoned (with_pending NOTHING r))); [unfold told; cbn [set_events c_subs]; rewrite upd_sub_twice by reflexivity; reflexivity|reflexivity|intros; apply firm_same; [reflexivity|exact (fun h => h)]]|gr|gn|ga]. intros i x _ _. exists []. cbn [evs app]. rewrite told_wins by discriminate. reflexivity.
  - (* unsuback *) match goal with H : get_sub f s = Some r |- _ => rename H into Hr end. match goal with H : c_phase s = ACTIVE |- _ => rename H into Hac end.
    eapply (j13_go _ _ _ _ []); [eassumption|reflexivity|constructor|gk| |eapply (sub_firm s _ f (fun r => with_subscribed false (with_pending NOTHING r))); [cbn [set_events c_subs]; rewrite upd_sub_twice by reflexivity; reflexivity|reflexivity|]|gr|gn|ga].
    + intros i x _ _. exists []. cbn [evs set_events c_events app]. rewrite wins_app. unfold wins at 3. cbn [filter win fst snd map]. rewrite app_nil_r. reflexivity.
    + intros r1 Hr1. apply firm_none. cbn [with_subscribed with_pending s_listeners]. rewrite Hr in Hr1. injection Hr1 as <-. eapply (j1_unsub _ _ _ HJ1 Hac); eassumption.
  - eapply (j13_go _ _ _ _ []); [eassumption|reflexivity|constructor|gk|gw|eapply (sub_firm s _ f (with_pending NOTHING)); [reflexivity|reflexivity|intros; apply firm_same; [reflexivity|exact (fun h => h)]]|gr|gn|ga].
  - (* lose request *) eapply (j13_go _ _ _ _ []); [eassumption|reflexivity|constructor|gk| | |gr|gn|ga].
    + intros i x _ _. exists []. cbn [evs app]. change (c_events (drop_sub f (told SUBSCRIPTION_ENDED r (upd_sub f (with_subscribed false) s)))) with (c_events (told SUBSCRIPTION_ENDED r (upd_sub f (with_subscribed false) s))). rewrite told_wins by discriminate. reflexivity.
    + intros f0 r0 K. rewrite get_sub_drop in K. destruct (bytes_eqb f f0) eqn:E; [discriminate|]. change (get_sub f0 (upd_sub f (with_subscribed false) s) = Some r0) in K. rewrite get_sub_upd, E in K by reflexivity. exists r0. split; [exact K|apply firm_refl].
  - match goal with H : get_sub f s = Some r |- _ => rename H into Hr end. match goal with H : c_phase s = ACTIVE |- _ => rename H into Hac end.
    eapply (j13_go _ _ _ _ []); [eassumption|reflexivity|constructor|gk| |eapply (sub_firm s _ f (with_subscribed false)); [reflexivity|reflexivity|]|gr|gn|ga].
    + intros i x _ _. exists []. cbn [evs app]. rewrite told_wins by discriminate. reflexivity.
    + intros r1 Hr1. apply firm_none. cbn [with_subscribed s_listeners]. rewrite Hr in Hr1. injection Hr1 as <-. eapply (j1_unsub _ _ _ HJ1 Hac); eassumption.
  - match goal with H : get_sub f s = Some r |- _ => rename H into Hr end. match goal with H : s_kind r = STREAM |- _ => rename H into Hks end.
    eapply (j13_go _ _ _ _ []); [eassumption|reflexivity|constructor|gk| |eapply (sub_firm s _ f (with_subscribed false)); [reflexivity|reflexivity|]|gr|gn|ga].
    + intros i x _ _. exists []. cbn [evs app]. rewrite told_wins by discriminate. reflexivity.
    + intros r1 Hr1. rewrite Hr in Hr1. injection Hr1 as <-. split; [auto|]. split; [apply incl_refl|]. intros _. right. intros i x Hi Hx. destruct (j2_listeners _ _ HJ2 f r i Hr Hi) as [_ K]. rewrite (K x Hx), Hks. discriminate.
  - (* subscribing *) match goal with H : g' = IDLE \/ _ |- _ => rename H into Hg end. eapply (j13_go _ _ _ _ [_]); [eassumption|reflexivity|constructor; [exact (fun h => h)|constructor]|gk| |eapply (sub_firm s _ f (with_pending SUBSCRIBING)); [reflexivity|reflexivity|intros; apply firm_same; [reflexivity|exact (fun h => h)]]|gr| |]; destruct Hg as [->|[o1 ->]]; first [gw|gn|ga].
  - match goal with H : g' = IDLE \/ _ |- _ => rename H into Hg end. eapply (j13_go _ _ _ _ [_]); [eassumption|reflexivity|constructor; [exact (fun h => h)|constructor]|gk| |gs|gr| |]; destruct Hg as [->|[o1 ->]]; first [gn|ga|intros i x _ _; exists []; cbn [evs app]; rewrite told_wins by discriminate; reflexivity].
  - match goal with H : g' = IDLE \/ _ |- _ => rename H into Hg end. eapply (j13_go _ _ _ _ [_]); [eassumption|reflexivity|constructor; [exact (fun h => h)|constructor]|gk| |eapply (sub_firm s _ f poisoned); [reflexivity|reflexivity|intros; apply firm_same; [reflexivity|exact (fun h => h)]]|gr| |]; destruct Hg as [->|[o1 ->]]; first [gn|ga|intros i x _ _; exists []; cbn [evs app]; rewrite told_wins by discriminate; reflexivity].
  - eapply (j13_go _ _ _ _ [_]); [eassumption|reflexivity|constructor; [exact (fun h => h)|constructor]|gk|gw|eapply (sub_firm s _ f (with_pending UNSUBSCRIBING)); [reflexivity|reflexivity|intros; apply firm_same; [reflexivity|exact (fun h => h)]]|gr|gn|ga].
  - eapply (j13_go _ _ _ _ []); [eassumption|reflexivity|constructor|gk|gw| |gr|gn|ga]. intros f0 r0 K. rewrite get_sub_drop in K. destruct (bytes_eqb f f0); [discriminate|]. exists r0. split; [exact K|apply firm_refl].
  - (* message *) rewrite streamed_exact. eapply (j13_go _ _ _ _ (messages topic payload (filter (listening (emit (I_MESSAGE topic payload j) s)) (recipients topic (emit (I_MESSAGE topic payload j) s))) ++ [I_MESSAGE topic payload j])); [eassumption|cbn [emits emit c_out]; rewrite <- app_assoc; reflexivity| |gk|gw|gs|gr|gn|ga].
    apply Forall_app. split; [|constructor; [exact (fun h => h)|constructor]]. unfold messages. apply Forall_rev, Forall_forall. intros x Hx. apply in_map_iff in Hx as (i & <- & _). exact (fun h => h).
  - (* leave *) eapply (j13_go _ _ _ _ []); [eassumption|reflexivity|constructor| |gw|gs|gr|gn|ga]. intros i x K. rewrite get_left in K. destruct (_ =? _); [discriminate|eauto].
  - (* unlisten *) eapply (j13_go _ _ _ _ []); [eassumption|apply unlisten_out|constructor|apply keeps_ops; apply unlisten_frame| | |gr|gn|ga].
    + intros i x _ _. exists []. cbn [evs app]. unfold unlisten, status. destruct (get_sub f s); [|reflexivity]. destruct (filter _ _); [|reflexivity]. destruct (active _); [|reflexivity]. cbn [set_events c_events]. rewrite wins_app. unfold wins at 3. cbn [filter win fst snd map]. rewrite app_nil_r. reflexivity.
    + intros f0 r0 K. destruct (get_sub f s) as [r|] eqn:Er.
      * revert f0 r0 K. apply (sub_firm s _ f (with_listeners (filter (fun i => negb (N.eqb (o_id o) i)) (s_listeners r)))); [unfold unlisten, status; rewrite Er; destruct (filter _ _); [destruct (active _)|]; reflexivity|reflexivity|]. intros r1 Hr1. rewrite Er in Hr1. injection Hr1 as <-. split; [cbn; apply NoDup_filter|]. split; [cbn; intros i Hi; apply filter_In in Hi as [Hi _]; exact Hi|]. intros E. left. exact E.
      * exists r0. split; [|apply firm_refl]. unfold unlisten in K. rewrite Er in K. exact K.
  - (* gone *) destruct (untabled_frame o s) as (F1 & F2 & F3 & F4 & F5 & F6 & F7 & F8 & F9 & F10). eapply (j13_go _ _ _ _ [_]); [eassumption|cbn [emit c_out]; rewrite F8; reflexivity|constructor; [exact (fun h => h)|constructor]|apply keeps_ops; exact F9| | |gr|gn|ga].
    + intros i x _ _. exists []. cbn [evs emit c_events app]. rewrite F4. reflexivity.
    + intros f0 r0 K. exists r0. split; [|apply firm_refl]. unfold get_sub in *. cbn [emit c_subs] in K. rewrite untabled_subs in K. exact K.
  - eapply (j13_go _ _ _ _ [_]); [eassumption|reflexivity|constructor; [exact (fun h => h)|constructor]|gk|gw|eapply (sub_firm s _ f (with_pending UNSUBSCRIBING)); [reflexivity|reflexivity|intros; apply firm_same; [reflexivity|exact (fun h => h)]]|gr|gn|ga].
  - eapply (j13_go _ _ _ _ []); [eassumption|reflexivity|constructor|gk|gw| |gr|gn|ga]. intros f0 r0 K. rewrite get_sub_drop in K. destruct (bytes_eqb f f0); [discriminate|]. exists r0. split; [exact K|apply firm_refl].
  - (* swap subs *) eapply (j13_go _ _ _ _ []); [eassumption|reflexivity|constructor|gk|gw| |gr|gn|ga]. intros f0 r0 K. rewrite get_perm_sub in K; [|exact (j1_nodup _ _ _ HJ1)|assumption]. exists r0. split; [exact K|apply firm_refl].
  - (* swap listeners *) eapply (j13_go _ _ _ _ []); [eassumption|reflexivity|constructor|gk|gw| |gr|gn|ga]. eapply (sub_firm s _ f (fun r => with_listeners (swap n (s_listeners r)) r)); [reflexivity|reflexivity|]. intros r0 _. split; [cbn; intros Hnd; eapply Permutation_NoDup; [apply Permutation_sym, swap_perm|exact Hnd]|]. split; [cbn; intros i Hi; eapply Permutation_in; [apply swap_perm|exact Hi]|]. intros E. left. exact E.
  - (* swap ops *) eapply (j13_go _ _ _ _ []); [eassumption|reflexivity|constructor| |gw|gs|gr|gn|ga]. intros i x K. rewrite get_perm_op in K; [eauto|exact (j2_ids _ _ HJ2)|assumption].
Qed.
Lemma J13_new connected : J13 IDLE (client_new connected).
Proof.
  constructor; [discriminate|discriminate|intros o [K|[K|K]]; discriminate|discriminate| |]; intros l1; intros; destruct l1; discriminate.
Qed.
Lemma J13_history cf connected l : cf_ok cf -> J13 IDLE (history cf connected l).
Proof.
  intros Hc. assert (K : JC cf IDLE (history cf connected l) /\ J13 IDLE (history cf connected l)); [|exact (proj2 K)].
  apply (history_inv cf (fun g s => JC cf g s /\ J13 g s)); [split; [constructor; [apply JB_new|apply J9_new|apply J11_new|apply J10_new]|apply J13_new]|]. intros g s g' s' [J1 J2] B. split; [eapply JC_step; eassumption|eapply J13_step; eassumption].
Qed.
Lemma published_subscribed cf connected l tr1 id ok tr2 : cf_ok cf -> trace (history cf connected l) = tr1 ++ O_PUBLISH id ok :: tr2 ->
  exists r, is_op id (W_REQUEST r) tr1 /\ forall f, In f (r_filters r) -> subscribed_for id f tr1.
Proof.
  intros Hc H. pose proof (J13_history cf connected l Hc) as J. apply (f_equal (@rev out)) in H. unfold trace in H. rewrite rev_involutive, rev_app_distr in H. cbn [rev] in H. rewrite <- app_assoc in H. destruct (m_all _ _ J _ _ _ _ H) as (r & [d K1] & K2).
  exists r. split; [exists d; apply in_rev; exact K1|]. intros f Hf. rewrite <- (rev_involutive tr1). apply ready_spec. apply K2. exact Hf.
Qed.
Lemma published_at_once cf connected l tr1 id r tr2 : cf_ok cf -> trace (history cf connected l) = tr1 ++ O_INTAKE id A_SUBSCRIBED :: tr2 -> is_op id (W_REQUEST r) tr1 -> exists ok tr3, tr2 = O_PUBLISH id ok :: tr3.
Proof.
  intros Hc H [d Hop]. pose proof (J13_history cf connected l Hc) as J. apply (f_equal (@rev out)) in H. unfold trace in H. rewrite rev_involutive, rev_app_distr in H. cbn [rev] in H. rewrite <- app_assoc in H.
  destruct (m_next _ _ J _ _ _ H) as [(ok & l3 & E)|(_ & o & _ & _ & [K|[K|K]])]; [exists r, d; apply -> in_rev; exact Hop| |discriminate|discriminate|discriminate].
  exists ok, (rev l3). apply (f_equal (@rev out)) in E. rewrite rev_involutive, rev_app_distr in E. exact E.
Qed.
