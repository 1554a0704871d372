(** How long the MQTT 5 client waits before it connects again. *)
From Verif Require Import Base BaseLemmas Mqtt5_Views TopicAlias_Model Encoder5_Model Decoder5_Model RateLimiter_Model RateLimiter_Spec
  RateLimiter_Proofs Validate5_Model Negotiated_Model Client5_State Client5_Model Client5_Spec Client5_Steps Client5_Decomp Client5_Decomp2
  Client5_Forms Client5_Decomp3 Client5_Inv0 Client5_Flow Client5_Safety Client5_Decomp4 Client5_Ops Client5_Crash Client5_Conn Client5_Timing_Spec.
From Coq Require Import Permutation.
Ltac Zify.zify_post_hook ::= idtac.

(** ** Arithmetic *)
Lemma add_sat_min a b : add_sat a b = N.min (two64 - 1) (a + b).
Proof. unfold add_sat. destruct (N.ltb_spec (a + b) two64); lia. Qed.
Lemma mul_sat_min a b : mul_sat a b = N.min (two64 - 1) (a * b).
Proof. unfold mul_sat. destruct (N.ltb_spec (a * b) two64); lia. Qed.
Lemma after_ms_eq t d : add_sat t (ms_to_ns d) = after_ms t d.
Proof. unfold after_ms, ms_to_ns. rewrite add_sat_min, mul_sat_min. lia. Qed.
Lemma random_range rnd a b : a <= b -> b < two64 -> a <= random_in_range rnd a b <= b.
Proof.
  intros H Hb. unfold random_in_range. rewrite N.max_r, N.min_l by exact H. cbv zeta. destruct (N.eqb_spec (b - a) 0); [lia|]. destruct rnd as [r|]; [|lia].
  destruct (N.eqb_spec (b - a) u64_max) as [E|E].
  - unfold u64. pose proof (N.mod_lt r two64 ltac:(discriminate)). unfold u64_max in E. lia.
  - pose proof (N.mod_lt (u64 r) (b - a + 1) ltac:(lia)). lia.
Qed.
Lemma delay_allowed cf rnd s : cf_min_delay_ms cf < two64 -> delay s = 0 \/ delay s = cf_min_delay_ms cf -> wait_allowed cf (recount s) (reconnect_delay_ms cf rnd s).
Proof.
  intros Hm Hd. unfold wait_allowed, reconnect_delay_ms, backoff, backoff_decorrelated, backoff_full_jitter, backoff_no_jitter. set (x := 2 ^ N.min (recount s) 63). clearbody x.
  assert (forall y, mul_sat x y < two64) as Hx by (intros y; rewrite mul_sat_min; unfold two64; lia).
  destruct (cf_jitter cf).
  - pose proof (mul_sat_min x (cf_min_delay_ms cf)) as E1. lia.
  - pose proof (random_range rnd 0 (mul_sat x (cf_min_delay_ms cf)) ltac:(lia) (Hx _)) as H. pose proof (mul_sat_min x (cf_min_delay_ms cf)) as E1. lia.
  - destruct (N.eqb_spec (delay s) 0) as [E|E].
    + left. pose proof (random_range rnd 0 (mul_sat x (cf_min_delay_ms cf)) ltac:(lia) (Hx _)) as H. pose proof (mul_sat_min x (cf_min_delay_ms cf)) as E1. lia.
    + right. destruct Hd as [Hd|Hd]; [congruence|]. rewrite Hd in *. 
      assert (cf_min_delay_ms cf <= mul_sat (cf_min_delay_ms cf) 3 < two64) as [H1 H2] by (rewrite mul_sat_min; unfold two64 in *; lia).
      pose proof (random_range rnd _ _ H1 H2) as H. pose proof (mul_sat_min (cf_min_delay_ms cf) 3) as E1. lia.
Qed.

Lemma rest_iff l : at_rest l <-> resting l = true.
Proof.
  induction l as [|x l IH]; cbn [at_rest resting]; [tauto|]. destruct x; try exact IH.
  match goal with e : life_event |- _ => destruct e end; split; intros H; first [discriminate H|reflexivity].
Qed.
Lemma losses_length l : losses l <= N.of_nat (length l).
Proof. induction l as [|x l IH]; cbn [losses length]; [lia|]. destruct x; try lia. match goal with e : life_event |- _ => destruct e end; lia. Qed.
Definition still (d : list out) : Prop := Forall (fun x => is_life x = false) d.
Lemma still_losses d l : still d -> losses (d ++ l) = losses l.
Proof. induction 1 as [|x d Hx Hd IH]; [reflexivity|]. cbn [app losses]. destruct x; try exact IH; discriminate Hx. Qed.
Lemma still_retries d l : still d -> retries (d ++ l) = retries l.
Proof. induction 1 as [|x d Hx Hd IH]; [reflexivity|]. cbn [app retries]. destruct x; try exact IH; discriminate Hx. Qed.
Lemma still_rest d l : still d -> at_rest (d ++ l) <-> at_rest l.
Proof. induction 1 as [|x d Hx Hd IH]; [tauto|]. cbn [app at_rest]. destruct x; try exact IH; discriminate Hx. Qed.

Section Backoff.
Context (cf : config) (now0 : N).
Notation reach := (reach cf now0).
Notation prim := (prim cf).

Definition short (l : list out) : Prop := N.of_nat (length l) < two64.
Lemma short_app d l : short (d ++ l) -> short l.
Proof. unfold short. rewrite app_length. lia. Qed.
Lemma short_cons x l : short (x :: l) -> short l.
Proof. exact (short_app [x] l). Qed.
Definition one (b : bool) : N := if b then 1 else 0.
Definition lone (s : client) : bool := busy (current s) && match life s with LS_NONE => true | _ => false end.
(** the wait before the next attempt *)
Definition planned (l : list out) (at_ : N) : Prop := exists after before t n d,
  l = after ++ before /\ still after /\ clock before = Some t /\ at_ = after_ms t d /\ d <= cf_max_delay_ms cf /\
  (cf_min_delay_ms cf < two64 -> wait_allowed cf n d) /\ n + 1 <= losses before /\ (short before -> retries before <= n).
Definition J21 (x : ghost * client) : Prop := let '(g, s) := x in
  (current s = STOPPED \/ current s = PENDING_RECONNECT -> life s = LS_NONE) /\
  (current s = STOPPED -> g_link g = DEAD \/ at_rest (c_out s)) /\
  (current s = CONNECTED -> (exists v, g_link g = ACKED v) \/ retries (c_out s) = 0) /\
  recount s + one (lone s) <= losses (c_out s) /\
  (short (c_out s) -> retries (c_out s) + one (cstate_eqb (current s) PENDING_RECONNECT) <= recount s) /\
  (delay s = 0 \/ delay s = cf_min_delay_ms cf) /\
  (current s = PENDING_RECONNECT -> planned (c_out s) (reconnect_at s)).
Lemma planned_more d l a : still d -> planned l a -> planned (d ++ l) a.
Proof.
  intros Hd (after & before & t & n & e & -> & Ha & H). exists (d ++ after), before, t, n, e. rewrite app_assoc. split; [reflexivity|]. split; [apply Forall_app; split; assumption|exact H].
Qed.
Lemma J21_same g s g' s' : J21 (g, s) -> current s' = current s -> life s' = life s -> (g_link g' = g_link g \/ g_link g = FINE) -> (g_link g' = g_link g \/ g_link g' = DEAD) ->
  recount s' = recount s -> delay s' = delay s -> reconnect_at s' = reconnect_at s -> (exists d, c_out s' = d ++ c_out s /\ still d) -> J21 (g', s').
Proof.
  intros (J1 & J2 & J3 & J4 & J5 & J6 & J7) Ec El Eg Eg' Er Ed Ea (d & Eo & Hd). unfold J21, lone. rewrite Ec, El, Er, Ed, Ea, Eo, (still_losses _ _ Hd), (still_retries _ _ Hd).
  split; [exact J1|]. split; [intros C; destruct (J2 C) as [D|D]; [destruct Eg' as [-> | ->]; auto|right; apply still_rest; assumption]|].
  split; [intros C; destruct (J3 C) as [[v D]|D]; [destruct Eg as [-> |E]; [eauto|congruence]|auto]|]. split; [exact J4|]. split; [intros S; apply J5, (short_app d), S|]. split; [exact J6|].
  intros C. apply planned_more; [exact Hd|exact (J7 C)].
Qed.
Lemma finish_tim now o s : c_tim (finish_operation cf now o s) = if is_pingreq (op_packet o) then c_tim (on_pingreq_send cf now s) else c_tim s.
Proof.
  assert (forall b r s, c_tim (crash_unless b r s) = c_tim s /\ c_neg (crash_unless b r s) = c_neg s) as Hcu by (intros [|] r s0; [auto|cbn [crash_unless]; rewrite crash_eq; auto]).
  unfold finish_operation. change (c_tim (emit ?a (set_curop None ?x))) with (c_tim x).
  assert (c_tim (on_outbound (op_packet o) s) = c_tim s /\ c_neg (on_outbound (op_packet o) s) = c_neg s) as [E1 E2] by (unfold on_outbound; destruct (is_acked_publish (op_packet o)); [exact (Hcu _ _ _)|auto]).
  generalize dependent (on_outbound (op_packet o) s). intros s1 E1 E2. destruct (requires_ack (op_packet o)) eqn:Ra.
  - replace (is_pingreq (op_packet o)) with false by (destruct (op_packet o); try reflexivity; discriminate Ra).
    match goal with |- context [crash_unless ?b ?r s1] => destruct (Hcu b r s1) as [C1 C2]; generalize dependent (crash_unless b r s1) end. intros s2 C1 C2.
    match goal with |- context [change_statistics true true ?a ?b] => destruct (cs_shape true true a b) as [x Hx]; destruct (change_statistics true true a b) as [o' s3]; cbn [snd] in Hx; subst s3 end.
    rewrite <- E1, <- C1. reflexivity.
  - destruct (is_pingreq (op_packet o)); [|exact E1]. unfold on_pingreq_send. change (c_neg (set_wc ?a s1)) with (c_neg s1). rewrite E2.
    unfold set_ping_to. change (c_tim (set_c_tim ?a ?b)) with a. change (c_tim (set_wc ?a s1)) with (c_tim s1). rewrite E1. reflexivity.
Qed.
Ltac same J := eapply (J21_same _ _ _ _ J); [reflexivity|reflexivity|left; reflexivity|left; reflexivity|reflexivity|reflexivity|reflexivity|].
Lemma reach_J21 g s : reach (g, s) -> ok s -> J21 (g, s).
Proof.
  intros R Ok. refine (reach_inv cf now0 J21 _ _ _ (g, s) R Ok).
  - repeat split; auto; try discriminate. right. exact I.
  - intros s1 now _ _ J. same J. exists [I_TICK now]. split; [reflexivity|repeat constructor].
  - clear. intros g s g' s' R Ok Ok' J P. pose proof J as (J1 & J2 & J3 & J4 & J5 & J6 & J7).
    inversion P; subst; clear P; repeat match goal with H : ok _ -> _ |- _ => specialize (H Ok) end;
      try (same J; exists []; split; [reflexivity|constructor]; fail);
      try (same J; eexists [_]; split; [reflexivity|repeat constructor]; fail); try (same J; eexists [_; _]; split; [reflexivity|repeat constructor]; fail).
    + (* timers *) match goal with H : hush _ _ |- _ => destruct H as [H _]; apply core_inv in H end. assert (current s' = current s /\ life s' = life s /\ c_out s' = c_out s) as (E1 & E2 & E3) by tauto.
      assert (recount s' = recount s -> delay s' = delay s -> reconnect_at s' = reconnect_at s -> J21 (g', s')) as G.
      { intros. apply (J21_same _ _ _ _ J E1 E2); try (left; reflexivity); try assumption. exists []. split; [exact E3|constructor]. }
      match goal with H : retimed _ _ _ _ |- _ => rename H into T end. unfold recount, delay, reconnect_at in G. remember (c_tim s') as t eqn:Et.
      destruct T as [|t C|now C L K|now C K H|C L|]; try (apply G; reflexivity).
      * unfold J21, lone, recount, delay, reconnect_at. rewrite E1, E2, E3, <- Et. split; [exact J1|]. split; [exact J2|]. split; [exact J3|]. split; [|split; [|split; [left; reflexivity|congruence]]].
        -- unfold lone in J4. change (0 + one (busy (current s) && match life s with LS_NONE => true | _ => false end) <= losses (c_out s)). lia.
        -- intros _. rewrite C. destruct (J3 C) as [[v V]|V]; [congruence|]. rewrite V. reflexivity.
      * unfold J21, lone, recount, delay, reconnect_at. rewrite E1, E2, E3, <- Et. split; [exact J1|]. split; [exact J2|]. split; [exact J3|]. split; [exact J4|]. split; [exact J5|]. split; [right; reflexivity|exact J7].
    + exfalso. exact (not_ok_crash _ _ Ok').
    + (* neutral events *) match goal with H : heard _ _ _ |- _ => rename H into T end. assert (exists p, t = c_tim (set_ping_to p s)) as [p ->].
      { destruct x as [| | | | | | | | | |[]| | |]; cbn [heard] in T; try (exists (ping_to s); rewrite T; unfold ping_to, set_ping_to; destruct s as [? ? ? ? []]; reflexivity).
        - exists (ping_to s). destruct T as [_ ->]. unfold ping_to, set_ping_to. destruct s as [? ? ? ? []]; reflexivity.
        - destruct (up (current s)); [exists 0; exact T|]. exists (ping_to s); rewrite T; unfold ping_to, set_ping_to; destruct s as [? ? ? ? []]; reflexivity. }
      same J. exists [x]. split; [reflexivity|]. constructor; [|constructor]. destruct x; try reflexivity; discriminate.
    + (* failure *) match goal with H : life s = _ |- _ => rename H into L end. assert (current s <> STOPPED /\ current s <> PENDING_RECONNECT) as [N1 N2] by (split; intros C; rewrite J1 in L by auto; discriminate L).
      split; [reflexivity|]. split; [intros C; contradiction|]. split; [exact J3|]. split; [|split; [|split; [exact J6|intros C; contradiction]]].
      * unfold lone in *. rewrite L in J4. change (recount s + one (busy (current s) && true) <= losses (c_out s) + 1). rewrite Bool.andb_true_r. destruct (busy (current s)); cbn [one andb] in *; lia.
      * intros S. apply J5, (short_cons _ _ S).
    + (* disconnection *) match goal with H : life s = _ |- _ => rename H into L end. assert (current s <> STOPPED /\ current s <> PENDING_RECONNECT) as [N1 N2] by (split; intros C; rewrite J1 in L by auto; discriminate L).
      split; [reflexivity|]. split; [intros C; contradiction|]. split; [exact J3|]. split; [|split; [|split; [exact J6|intros C; contradiction]]].
      * unfold lone in *. rewrite L in J4. change (recount s + one (busy (current s) && true) <= losses (c_out s) + 1). rewrite Bool.andb_true_r. destruct (busy (current s)); cbn [one andb] in *; lia.
      * intros S. apply J5, (short_cons _ _ S).
    + (* attempt *) split; [intros [C|C]; discriminate C|]. split; [discriminate|]. split; [discriminate|]. split; [|split; [|split; [exact J6|discriminate]]].
      * change (recount s + 0 <= losses (c_out s)). lia.
      * intros S. specialize (J5 (short_cons _ _ S)). change ((if resting (c_out s) then retries (c_out s) else retries (c_out s) + 1) + 0 <= recount s).
        match goal with H : (current s = _ \/ _) /\ _ |- _ => destruct H as [[C|C] _] end; rewrite C in J5.
        -- destruct (J2 C) as [D|D]; [congruence|]. apply rest_iff in D. rewrite D. cbn [one cstate_eqb] in J5. lia.
        -- change (one (cstate_eqb PENDING_RECONNECT PENDING_RECONNECT)) with 1 in J5. destruct (resting (c_out s)); lia.
    + (* success *) match goal with H : startable s /\ _ |- _ => destruct H as (_ & C & Lk & _) end. split; [change (current s = STOPPED \/ current s = PENDING_RECONNECT -> LS_CONNECTED = LS_NONE); intros [D|D]; congruence|].
      split; [intros D; change (current s = STOPPED) in D; congruence|]. split; [right; reflexivity|]. split; [|split; [|split; [exact J6|change (current s = PENDING_RECONNECT -> planned (O_LIFE (CONNECTION_SUCCESS (c_neg s) v) :: c_out s) (reconnect_at s)); congruence]]].
      * unfold lone. change (recount s + one (busy (current s) && false) <= losses (c_out s)). rewrite Bool.andb_false_r. cbn [one]. lia.
      * intros _. change (0 + one (cstate_eqb (current s) PENDING_RECONNECT) <= recount s). rewrite C. cbn. lia.
    + (* stopped *) match goal with H : current s = STOPPED /\ _ |- _ => destruct H as (C & L & _) end. split; [exact J1|]. split; [right; reflexivity|]. split; [exact J3|]. split; [exact J4|].
      split; [intros S; apply J5, (short_cons _ _ S)|]. split; [exact J6|]. change (current s = PENDING_RECONNECT -> planned (O_LIFE STOPPED_EVENT :: c_out s) (reconnect_at s)). congruence.
    + (* state *) match goal with H : edge _ _ _ _ |- _ => rename H into Ed end. match goal with H : entered _ _ _ _ |- _ => rename H into En end. match goal with H : c = STOPPED -> _ |- _ => rename H into Hs end.
      set (g' := match c with MQTT_CONNECT => with_link NEW g | _ => g end).
      destruct (cstate_eqb c PENDING_RECONNECT) eqn:Ec.
      * destruct c; try discriminate Ec. clear Ec Hs. subst g'. cbn [edge entered] in Ed, En. destruct Ed as [_ L]. destruct En as (B & now & rnd & K & ->).
        assert (recount s + 1 <= losses (c_out s)) as Hl by (unfold lone in J4; rewrite B, L in J4; exact J4).
        assert (short (c_out s) -> u64 (recount s + 1) = recount s + 1) as Hu by (intros S; apply N.mod_small; pose proof (losses_length (c_out s)); unfold short in S; lia).
        split; [intros _; exact L|]. split; [discriminate|]. split; [discriminate|]. split; [|split; [|split; [exact J6|intros _]]].
        -- change (u64 (recount s + 1) + 0 <= losses (c_out s)). pose proof (N.mod_le (recount s + 1) two64 ltac:(discriminate)). unfold u64. lia.
        -- intros S. change (retries (c_out s) + 1 <= u64 (recount s + 1)). rewrite Hu by exact S. specialize (J5 S). lia.
        -- exists [], (c_out s), now, (recount s), (reconnect_delay_ms cf rnd s). split; [reflexivity|]. split; [constructor|]. split; [exact K|]. split; [rewrite <- after_ms_eq; reflexivity|].
           split; [unfold reconnect_delay_ms; lia|]. split; [intros Hm; apply delay_allowed; assumption|]. split; [exact Hl|]. intros S. specialize (J5 S). lia.
      * assert (t = c_tim s) as -> by (destruct c; try discriminate Ec; exact En).
        assert (busy c = true -> busy (current s) = true) as Hb.
        { destruct c; cbn [edge busy] in *; try discriminate; intros _; try contradiction; try (rewrite Ed; reflexivity); try (destruct Ed as [-> _]; reflexivity); try (destruct Ed as [-> | ->]; reflexivity).
          destruct Ed as [-> |[E _]]; [reflexivity|]. destruct (current s); try discriminate E; reflexivity. }
        split; [|split; [|split; [|split; [|split; [|split; [exact J6|]]]]]].
        -- change (c = STOPPED \/ c = PENDING_RECONNECT -> life s = LS_NONE). intros [-> | ->]; cbn [edge] in Ed; tauto.
        -- change (c = STOPPED -> g_link g' = DEAD \/ at_rest (c_out s)). intros ->. left. apply Hs. reflexivity.
        -- change (c = CONNECTED -> (exists v, g_link g' = ACKED v) \/ retries (c_out s) = 0). intros ->. left. apply Ed.
        -- unfold lone in *. change (recount s + one (busy c && match life s with LS_NONE => true | _ => false end) <= losses (c_out s)). destruct (busy c); [rewrite Hb in J4 by reflexivity; exact J4|cbn [andb one]; lia].
        -- change (short (c_out s) -> retries (c_out s) + one (cstate_eqb c PENDING_RECONNECT) <= recount s). rewrite Ec. intros S. specialize (J5 S). cbn [one]. lia.
        -- change (c = PENDING_RECONNECT -> planned (c_out s) (reconnect_at s)). intros ->. discriminate Ec.
    + (* open *) match goal with H : current s = _ /\ _ |- _ => destruct H as (C & Lk & _) end. split; [exact J1|]. split; [change (current s = STOPPED -> FINE = DEAD \/ at_rest (c_out s)); congruence|].
      split; [change (current s = CONNECTED -> (exists v, FINE = ACKED v) \/ retries (c_out s) = 0); congruence|]. split; [exact J4|]. split; [exact J5|]. split; [exact J6|exact J7].
    + (* apply *) match goal with H : current s = _ /\ _ |- _ => destruct H as (C & Lk & _) end. split; [exact J1|]. split; [change (current s = STOPPED -> ACKED v = DEAD \/ at_rest (c_out s)); congruence|].
      split; [change (current s = CONNECTED -> (exists v0, ACKED v = ACKED v0) \/ retries (c_out s) = 0); congruence|]. split; [exact J4|]. split; [exact J5|]. split; [exact J6|exact J7].
    + (* die *) eapply (J21_same _ _ _ _ J); try reflexivity; auto. exists []. split; [reflexivity|constructor].
    + (* closed *) split; [exact J1|]. split; [right; auto|]. split; [intros C; exfalso; match goal with H : sending _ = false |- _ => rewrite C in H; discriminate H end|]. split; [exact J4|]. split; [exact J5|]. split; [exact J6|exact J7].
    + destruct (enqueue_eq p override s) as (o & x & -> & _). same J. eexists [_]. split; [reflexivity|repeat constructor].
    + destruct (publish_received_eq acquire v s) as (m & c & [(_ & -> & _)|[(_ & _ & ->)|(_ & _ & _ & ->)]] & _); same J; eexists [_; _]; (split; [reflexivity|repeat constructor]).
    + destruct (manual_core_eq control s) as (m & x & -> & [(id & _ & _ & ->)|(_ & r & -> & _)]); same J; [eexists [_]|eexists [_; _]]; (split; [reflexivity|repeat constructor]).
    + unfold reset_manual. destruct (mc s); same J; exists []; (split; [reflexivity|constructor]).
    + destruct (cs_shape inc una o s) as [x ->]. same J. exists []. split; [reflexivity|constructor].
    + destruct (incomplete_eq s) as (l & x & -> & _). same J. exists []. split; [reflexivity|constructor].
    + match goal with H : bind_packet_id _ _ = _ |- _ => pose proof (bind_eq _ _ _ _ H) as Hb end. destruct Hb as [(-> & -> & _)|(id & _ & _ & -> & ->)]; same J; exists []; (split; [reflexivity|constructor]).
    + eapply (J21_same _ _ _ _ J); try reflexivity; auto. eexists [_]. split; [reflexivity|repeat constructor].
    + match goal with H : bind_packet_id _ _ = _ |- _ => pose proof (bind_eq _ _ _ _ H) as Hb end. destruct Hb as [(-> & -> & _)|(id & _ & _ & -> & ->)]; (eapply (J21_same _ _ _ _ J); try reflexivity; auto; eexists [_]; split; [reflexivity|repeat constructor]).
    + pose proof (finish_tim now o s) as T. pose proof (finish_ctl cf now o s) as E.
      eapply (J21_same _ _ _ _ J); [unfold current; rewrite E; reflexivity|unfold life; rewrite E; reflexivity|left; reflexivity|left; reflexivity| | | |exists [O_SENT o]; split; [rewrite finish_out; reflexivity|repeat constructor]];
        [unfold recount|unfold delay|unfold reconnect_at]; rewrite T; destruct (is_pingreq (op_packet o)); reflexivity.
Qed.
(** an attempt which the user did not ask for follows a wait *)
Lemma attempt_after g s later earlier : reach (g, s) -> ok s -> c_out s = later ++ O_LIFE ATTEMPTING_CONNECT :: earlier -> resting earlier = false ->
  exists now after before t n d, clock earlier = Some now /\ earlier = after ++ before /\ Forall (fun x => is_life x = false) after /\ clock before = Some t /\ after_ms t d <= now /\
    d <= cf_max_delay_ms cf /\ (cf_min_delay_ms cf < two64 -> wait_allowed cf n d) /\ n + 1 <= losses before /\ (N.of_nat (length before) < two64 -> retries before <= n).
Proof.
  intros R Ok E Hr. destruct (event_cause _ _ _ _ _ _ _ R Ok E) as (g1 & s1 & g2 & s2 & d1 & d2 & x' & R1 & O1 & _ & _ & C & _ & -> & ->). inversion C; subst; clear C.
  - match goal with H : neutral _ = true |- _ => discriminate H end.
  - cbn [app] in *. destruct (reach_J21 _ _ R1 O1) as (_ & J2 & _ & _ & _ & _ & J7). match goal with H : current s1 = STOPPED \/ _ |- _ => destruct H as [C|C] end.
    + exfalso. destruct (J2 C) as [D|D]; [congruence|]. apply rest_iff in D. congruence.
    + match goal with H : current s1 = PENDING_RECONNECT -> exists now : N, _ /\ _ |- _ => destruct (H C) as (now & K & L) end.
      destruct (J7 C) as (after & before & t & n & d & E1 & E2 & E3 & E4 & E5). exists now, after, before, t, n, d. rewrite E4 in L.
      split; [exact K|]. split; [exact E1|]. split; [exact E2|]. split; [exact E3|]. split; [exact L|exact E5].
Qed.
End Backoff.
