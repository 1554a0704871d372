(** How the MQTT 5 client keeps a connection alive. *)
From Verif Require Import Base BaseLemmas Mqtt5_Views TopicAlias_Model Encoder5_Model Decoder5_Model RateLimiter_Model RateLimiter_Spec
  RateLimiter_Proofs Validate5_Model Negotiated_Model Client5_State Client5_Model Client5_Spec Client5_Steps Client5_Decomp Client5_Decomp2
  Client5_Forms Client5_Decomp3 Client5_Inv0 Client5_Flow Client5_Safety Client5_Decomp4 Client5_Ops Client5_Crash Client5_Conn Client5_Acks Client5_Timing_Spec
  Client5_Backoff.
From Coq Require Import Permutation.
Ltac Zify.zify_post_hook ::= idtac.

Section Pings.
Context (cf : config) (now0 : N).
Notation reach := (reach cf now0).
Notation prim := (prim cf).
Notation steps := (steps cf).

Definition interval (s : client) : N := s_to_ns (ng_keep_alive (c_neg s)).
Definition limit (s : client) : N :=
  let timeout := ms_to_ns (cf_ping_timeout_ms cf) in
  let half := interval s / 2 in
  if (timeout =? 0) || (half <? timeout) then half else timeout.
Definition ping_wait (s : client) : Prop := exists o, (curop s = Some o \/ In o (queued s)) /\ op_packet o = P_PINGREQ.
Definition dull (x : out) : Prop :=
  match x with O_LIFE (CONNECTION_SUCCESS _ _) | O_SENT _ | I_PACKET P_PINGRESP | I_TICK _ => False | _ => True end.
Lemma dull_more d l : Forall dull d -> last_ping (d ++ l) = last_ping l /\ unanswered (d ++ l) = unanswered l /\ clock (d ++ l) = clock l /\ (ticking (d ++ l) -> ticking l).
Proof.
  induction 1 as [|x d Hx Hd (I1 & I2 & I3 & I4)]; [auto|]. cbn [app last_ping unanswered clock ticking].
  destruct x as [e| | | | | | | | | |p| | |]; cbn [dull is_tick] in *; try contradiction; try (repeat split; assumption).
  - destruct e; try contradiction; repeat split; assumption.
  - destruct p; try contradiction; repeat split; assumption.
Qed.
Definition J22 (x : ghost * client) : Prop := let '(g, s) := x in
  current s = CONNECTED -> g_link g = FINE ->
  (ping_to s = match unanswered (c_out s) with None => 0 | Some t => add_sat t (limit s) end) /\
  (ticking (c_out s) -> exists now, clock (c_out s) = Some now /\ (interval s <> 0 -> ping s <= add_sat now (interval s))) /\
  (acks_fit (c_out s) -> ticking (c_out s) -> interval s <> 0 -> ping_wait s \/ exists t, last_ping (c_out s) = Some t /\ ping s <= add_sat t (interval s)).
Lemma J22_same g s g' s' : J22 (g, s) -> current s' = current s -> (g_link g' = g_link g \/ g_link g' <> FINE) -> c_neg s' = c_neg s -> ping s' = ping s -> ping_to s' = ping_to s ->
  (exists d, c_out s' = d ++ c_out s /\ Forall dull d) -> (acks_fit (c_out s) -> current s = CONNECTED -> g_link g = FINE -> ping_wait s -> ping_wait s') -> J22 (g', s').
Proof.
  intros J Ec Eg En Ep Et (d & Eo & Hd) Hw. unfold J22. intros C L. assert (g_link g = FINE) as L' by (destruct Eg; congruence). rewrite Ec in C. destruct (J C L') as (A & B & D).
  destruct (dull_more d (c_out s) Hd) as (E1 & E2 & E3 & E4). unfold limit, interval in *. rewrite Eo, E1, E2, E3, En, Ep, Et. split; [exact A|]. split; [intros T; exact (B (E4 T))|].
  intros F T I. apply fit_app in F. destruct (D F (E4 T) I) as [W|W]; [left; auto|right; exact W].
Qed.
Lemma J22_not g s : current s <> CONNECTED \/ g_link g <> FINE -> J22 (g, s).
Proof. intros [H|H] C L; contradiction. Qed.
Lemma ping_valid g s : reach (g, s) -> ok s -> acks_fit (c_out s) -> current s = CONNECTED -> g_link g = FINE -> validate_operation cf P_PINGREQ s = true.
Proof.
  intros R Ok [F _] Hc Hg. pose proof (reach_J8 cf now0 _ _ R Ok) as J. unfold J8 in J. assert (exists n, settings_of (c_out s) = Some n /\ c_neg s = n) as (n & E1 & E2).
  { destruct (settings_of (c_out s)) as [n|]; [exists n; tauto|]. destruct J as (_ & J & _). destruct (J Hc) as [x Hx]. congruence. }
  assert (exists c, In (O_LIFE (CONNECTION_SUCCESS n c)) (c_out s)) as [c Hi].
  { clear - E1. revert E1. generalize (c_out s). induction l as [|x l IH]; [discriminate|]. destruct x as [e| | | | | | | | | | | | |]; try destruct e; cbn [settings_of]; intros H;
      try discriminate H; try (injection H as ->; eexists; left; reflexivity); (destruct (IH H) as [c Hc]; exists c; right; exact Hc). }
  specialize (F _ _ Hi). unfold validate_operation, settings_valid. rewrite Hc. unfold validate_vs_settings, limits_of.
  replace (get_encoded_size P_PINGREQ) with (Base.Ok 2) by reflexivity. cbn [lm_packet_size]. rewrite E2.
  destruct (N.ltb_spec (ng_maximum_packet_size n) 2); [lia|reflexivity].
Qed.
Lemma wait_more s s' : curop s' = curop s -> incl (queued s) (queued s') -> ping_wait s -> ping_wait s'.
Proof. intros E I (o & [H|H] & P); exists o; (split; [|exact P]); [left; congruence|right; apply I, H]. Qed.
Lemma wait_packets s s' : curop s' = curop s -> map op_packet (queued s') = map op_packet (queued s) -> ping_wait s -> ping_wait s'.
Proof.
  intros E I (o & [H|H] & P); [exists o; split; [left; congruence|exact P]|]. apply (in_map op_packet) in H. rewrite <- I in H. apply in_map_iff in H as (o' & P' & H). exists o'. split; [right; exact H|congruence].
Qed.
Ltac wsame := intros _ _ _; apply wait_more; [reflexivity|apply incl_refl].
Ltac same J := eapply (J22_same _ _ _ _ J); [reflexivity|left; reflexivity|reflexivity|reflexivity|reflexivity| |].
Ltac s0 := exists []; split; [reflexivity|constructor].
Ltac s1 := eexists [_]; split; [reflexivity|repeat constructor].
Ltac s2 := eexists [_; _]; split; [reflexivity|repeat constructor].
Lemma reach_J22 g s : reach (g, s) -> ok s -> J22 (g, s).
Proof.
  intros R Ok. refine (reach_inv cf now0 J22 _ _ _ (g, s) R Ok).
  - apply J22_not. left. discriminate.
  - intros s1 now _ _ J C L. destruct (J C L) as (A & B & D). split; [exact A|]. change (c_out (emit (I_TICK now) s1)) with (I_TICK now :: c_out s1). split.
    + intros [T1 T2]. destruct (B T1) as (n & K & H). rewrite K in T2. exists now. split; [reflexivity|]. intros I. specialize (H I). change (ping s1 <= add_sat now (interval s1)).
      rewrite add_sat_min in *. lia.
    + intros F [T1 _] I. apply (fit_app [I_TICK now]) in F. exact (D F T1 I).
  - clear. intros g s g' s' R Ok Ok' J P.
    inversion P; subst; clear P; repeat match goal with H : ok _ -> _ |- _ => specialize (H Ok) end;
      try (same J; [s0|wsame]; fail); try (same J; [s1|wsame]; fail); try (same J; [s2|wsame]; fail).
    + (* timers *) match goal with H : hush _ _ |- _ => destruct H as [H _]; apply core_inv in H end.
      assert (current s' = current s /\ c_out s' = c_out s /\ c_neg s' = c_neg s /\ curop s' = curop s /\ queued s' = queued s) as (E1 & E2 & E3 & E4 & E5) by tauto.
      assert (ping s' = ping s -> ping_to s' = ping_to s -> J22 (g', s')) as G.
      { intros G1 G2. apply (J22_same _ _ _ _ J E1 (or_introl eq_refl) E3 G1 G2); [exists []; split; [exact E2|constructor]|]. intros _ _ _. apply wait_more; [exact E4|rewrite E5; apply incl_refl]. }
      match goal with H : retimed _ _ _ _ |- _ => rename H into T end. unfold ping, ping_to in G. remember (c_tim s') as t eqn:Et.
      destruct T as [|t C|now C [v L] K|now C K (o & q & Q1 & Q2)|C L|]; try (apply G; reflexivity).
      * apply J22_not. right. congruence.
      * intros C' L. destruct (J C L) as (A & B & D). unfold ping_to, ping, limit, interval in *. rewrite E2, E3, <- Et. split; [exact A|]. split.
        -- intros _. exists now. split; [exact K|]. intros I. unfold reset_ping. change (tm_ping (c_tim (set_ping ?a s))) with a. apply N.eqb_neq in I. rewrite I. apply N.le_refl.
        -- intros _ _ _. left. exists o. split; [right; rewrite E5, Q1; left; reflexivity|exact Q2].
    + exfalso. exact (not_ok_crash _ _ Ok').
    + (* neutral events *) match goal with H : heard _ _ _ |- _ => rename H into T end.
      assert (c_out (emit x (set_c_tim t s)) = x :: c_out s) as Eo by reflexivity.
      assert (dull x -> t = c_tim s -> J22 (g', emit x (set_c_tim t s))) as G by (intros G ->; same J; [exists [x]; split; [reflexivity|repeat constructor; exact G]|wsame]).
      destruct x as [| | | | | | | | | |p| | |]; try discriminate; try (apply G; [exact I|exact T]). destruct p; try (apply G; [exact I|first [exact T|exact (proj2 T)]]).
      clear G. cbn [heard] in T. intros C L. change (current s = CONNECTED) in C. rewrite C in T. cbn [up] in T. subst t. destruct (J C L) as (A & B & D). rewrite Eo. split; [reflexivity|]. split; [exact B|].
      intros F Tk I. apply fit_cons in F as [F _]. exact (D F Tk I).
    + apply J22_not. left. discriminate.
    + (* success *) intros C L. match goal with H : opened s |- _ => destruct H as [O1 (now & O2 & O3)] end. split; [exact O1|].
      assert (interval s <> 0 -> ping s <= add_sat now (interval s)) as G.
      { intros I. rewrite O3. unfold reset_ping. change (ping (set_ping ?a s)) with a. apply N.eqb_neq in I. unfold interval in *. rewrite I. apply N.le_refl. }
      split; [intros _; exists now; split; [exact O2|exact G]|]. intros _ _ I. right. exists now. split; [exact O2|exact (G I)].
    + (* state *) match goal with H : edge _ _ _ _ |- _ => rename H into Ed end. apply J22_not. destruct c; try (left; discriminate). right. destruct Ed as [_ [v L]]. cbv iota. congruence.
    + apply J22_not. left. match goal with H : current s = _ /\ _ |- _ => destruct H as (C & _) end. change (current s <> CONNECTED). congruence.
    + apply J22_not. right. discriminate.
    + apply J22_not. right. discriminate.
    + apply J22_not. left. match goal with H : sending _ = false |- _ => intros C; rewrite C in H; discriminate H end.
    + destruct (enqueue_eq p override s) as (o & x & -> & _). same J; [s1|]. intros _ _ _. apply wait_more; [reflexivity|]. apply incl_appl, incl_refl.
    + same J; [s0|]. intros _ _ _. apply wait_more; [reflexivity|]. apply incl_tl, incl_refl.
    + same J; [s1|]. intros _ _ _. apply wait_more; [reflexivity|]. apply incl_tl, incl_refl.
    + destruct (publish_received_eq acquire v s) as (m & c & [(_ & -> & _)|[(_ & _ & ->)|(_ & _ & _ & ->)]] & _); (same J; [s2|]); [wsame|wsame|]. intros _ _ _. apply wait_more; [reflexivity|].
      intros o Ho. unfold puback_core. match goal with |- In o (queued (set_queued ?q _)) => change (In o q) end. apply (Permutation_in o (Permutation_sym (insert_puback_perm _ _))). right. exact Ho.
    + destruct (manual_core_eq control s) as (m & x & -> & [(id & _ & _ & ->)|(_ & r & -> & _)]); [|same J; [s2|wsame]]. same J; [s1|]. intros _ _ _. apply wait_more; [reflexivity|].
      intros o Ho. unfold puback_core. match goal with |- In o (queued (set_queued ?q _)) => change (In o q) end. apply (Permutation_in o (Permutation_sym (insert_puback_perm _ _))). right. exact Ho.
    + unfold reset_manual. destruct (mc s); (same J; [s0|wsame]).
    + (* take *) match goal with H : queued s = _ |- _ => rename H into Hq end. match goal with H : curop s = None /\ _ |- _ => destruct H as [Hc Hv] end.
      same J; [s0|]. intros F C L (o1 & [H|H] & P1); [congruence|]. rewrite Hq in H. destruct H as [<-|H].
      * exfalso. rewrite P1, (ping_valid g s R Ok F C L) in Hv. discriminate Hv.
      * exists o1. split; [right; exact H|exact P1].
    + (* take queued *) match goal with H : Permutation _ _ /\ down _ _ |- _ => destruct H as [Hp [D|D]] end; apply J22_not; [right; change (g_link g <> FINE); congruence|].
      left. intros C. change (current s = CONNECTED) in C. rewrite C in D. discriminate D.
    + destruct (cs_shape inc una o s) as [x ->]. same J; [s0|wsame].
    + (* unsend *) match goal with H : down _ _ |- _ => destruct H as [D|D] end; apply J22_not; [right; congruence|]. left. intros C. change (current s = CONNECTED) in C. rewrite C in D. discriminate D.
    + apply J22_not. right. match goal with H : _ /\ _ /\ _ /\ exists v, _ |- _ => destruct H as (_ & _ & _ & v & L) end. congruence.
    + apply J22_not. right. match goal with H : _ /\ _ /\ _ /\ exists v, _ |- _ => destruct H as (_ & _ & _ & v & L) end. change (g_link g <> FINE). congruence.
    + destruct (incomplete_eq s) as (l & x & -> & E & _). same J; [s0|]. intros _ _ _. apply wait_packets; [reflexivity|exact E].
    + (* start *) match goal with H : queued s = _ |- _ => rename H into Hq end. match goal with H : curop s = None /\ _ |- _ => destruct H as [Hc _] end.
      match goal with H : bind_packet_id _ _ = _ |- _ => pose proof (bind_eq _ _ _ _ H) as Hb end.
      destruct Hb as [(-> & -> & _)|(id & _ & _ & -> & ->)]; (same J; [s0|]); intros _ _ _ (o1 & [H|H] & P1); try congruence; rewrite Hq in H; destruct H as [<-|H].
      * exists o. split; [left; reflexivity|exact P1].
      * exists o1. split; [right; exact H|exact P1].
      * eexists. split; [left; reflexivity|]. cbn [op_packet set_packet]. rewrite P1. reflexivity.
      * exists o1. split; [right; exact H|exact P1].
    + apply J22_not. right. discriminate.
    + apply J22_not. right. discriminate.
    + (* sent *) match goal with H : curop s = Some o |- _ => rename H into Hcu end. match goal with H : g_link g' = FINE /\ _ |- _ => destruct H as (L & _ & _ & _ & K & T1 & T2) end.
      pose proof (finish_tim cf now o s) as Tm. pose proof (finish_ctl cf now o s) as E. pose proof (finish_encneg cf now o s) as [_ En].
      assert (queued (finish_operation cf now o s) = queued s) as Eq.
      { pose proof (finish_eq cf now o s T1 T2) as Hf. cbv zeta in Hf. destruct (is_acked_publish (op_packet o)), (requires_ack (op_packet o));
          first [destruct Hf as (o' & x & -> & _); reflexivity|destruct Hf as (x & ->); reflexivity]. }
      intros C _. unfold current in C. rewrite E in C. change (current s = CONNECTED) in C. destruct (J C L) as (A & B & D). unfold ping_to, ping, limit, interval in *. rewrite En, Tm, finish_out.
      cbn [app unanswered last_ping clock ticking is_tick]. destruct (is_pingreq (op_packet o)) eqn:Ip.
      * rewrite K. split; [reflexivity|]. split; [intros Tk; destruct (B Tk) as (n & Kn & H); exists n; split; [congruence|exact H]|]. intros _ Tk I. right. exists now. split; [reflexivity|]. destruct (B Tk) as (n & Kn & H). assert (n = now) as -> by congruence. exact (H I).
      * split; [exact A|]. split; [exact B|]. intros F Tk I. apply fit_cons in F as [F _]. destruct (D F Tk I) as [(o1 & [H|H] & P1)|W]; [exfalso|left|right; exact W].
        -- assert (o1 = o) as -> by congruence. rewrite P1 in Ip. discriminate Ip.
        -- exists o1. split; [right; rewrite Eq; exact H|exact P1].
Qed.
(** once the next ping is planned for later than now it stays so until the clock moves *)
Lemma planned_later now s : now < two64 - 1 -> now < ping (reset_ping now s).
Proof.
  intros H. unfold reset_ping. change (ping (set_ping ?a s)) with a. destruct (N.eqb_spec (s_to_ns (ng_keep_alive (c_neg s))) 0); [exact H|]. rewrite add_sat_min. lia.
Qed.
Lemma prim_later now g s g' s' : now < two64 - 1 -> prim (g, s) (g', s') -> ok s -> ok s' -> clock (c_out s) = Some now -> now < ping s -> now < ping s'.
Proof.
  intros Hn P Ok Ok' K H. inversion P; subst; clear P; repeat match goal with H : ok _ -> _ |- _ => specialize (H Ok) end; try exact H.
  - match goal with H : retimed _ _ _ _ |- _ => rename H into T end. unfold ping at 1. remember (c_tim s') as t eqn:Et. clear Et.
    destruct T as [|t C|now' C [v L] K'|now' C K' H'|C L|]; try exact H.
    + assert (now' = now) as -> by congruence. exact (planned_later now (set_ping_to 0 s) Hn).
    + assert (now' = now) as -> by congruence. exact (planned_later now s Hn).
  - exfalso. exact (not_ok_crash _ _ Ok').
  - match goal with H : heard _ _ _ |- _ => rename H into T end. change (now < tm_ping t). destruct x as [| | | | | | | | | |p| | |]; cbn [heard] in T; try (subst t; exact H).
    destruct p; first [subst t; exact H|destruct T as [_ ->]; exact H|idtac]. subst t. destruct (up (current s)); exact H.
  - match goal with H : entered _ _ _ _ |- _ => rename H into T end. change (now < tm_ping t). destruct c; cbn [entered] in T; try (subst t; exact H). destruct T as (_ & n & rnd & _ & ->). exact H.
  - destruct (enqueue_eq p override s) as (o & x & -> & _). exact H.
  - destruct (publish_received_eq acquire v s) as (m & c & [(_ & -> & _)|[(_ & _ & ->)|(_ & _ & _ & ->)]] & _); exact H.
  - destruct (manual_core_eq control s) as (m & x & -> & [(id & _ & _ & ->)|(_ & r & -> & _)]); exact H.
  - unfold reset_manual. destruct (mc s); exact H.
  - destruct (cs_shape inc una o s) as [x ->]. exact H.
  - destruct (incomplete_eq s) as (l & x & -> & _). exact H.
  - match goal with H : bind_packet_id _ _ = _ |- _ => pose proof (bind_eq _ _ _ _ H) as Hb end. destruct Hb as [(-> & -> & _)|(id & _ & _ & -> & ->)]; exact H.
  - match goal with H : bind_packet_id _ _ = _ |- _ => pose proof (bind_eq _ _ _ _ H) as Hb end. destruct Hb as [(-> & -> & _)|(id & _ & _ & -> & ->)]; exact H.
  - unfold ping. rewrite (finish_tim cf now1 o s). destruct (is_pingreq (op_packet o)); exact H.
Qed.
Lemma steps_later now g s g' s' : now < two64 - 1 -> steps (g, s) (g', s') -> rl_ok s -> ok s' -> clock (c_out s) = Some now -> now < ping s -> now < ping s'.
Proof.
  intros Hn H. remember (g, s) as x. remember (g', s') as y. revert g s g' s' Heqx Heqy.
  induction H as [x|x [g1 s1] y P S IH]; intros g s g' s' -> E; [injection E; intros; subst; assumption|]. intros Rl Ok K L. subst y.
  destruct (prim_base cf _ _ _ _ P Rl) as [Rl1 Ok1]. pose proof (steps_ok cf _ _ _ _ Rl1 S Ok) as O1.
  apply (IH g1 s1 g' s' eq_refl eq_refl Rl1 Ok); [rewrite (steps_clock cf g s g1 s1); [exact K|apply steps_one, P]|exact (prim_later now g s g1 s1 Hn P (Ok1 O1) O1 K L)].
Qed.
Lemma cutp_current s s' : phase s' = cutp (phase s) -> sending (current s) = true -> slot s = true -> current s' = CHANNEL_SHUTDOWN.
Proof. intros E C L. unfold cutp, phase in E. rewrite C, L in E. injection E; auto. Qed.
Lemma service_pings ev s : e_now ev <> 0 -> e_now ev < two64 - 1 -> clock (c_out s) = Some (e_now ev) -> reach (g_idle, s) -> ok s -> Px s -> current s = CONNECTED ->
  ok (service_task cf ev s) -> current (service_task cf ev s) = CONNECTED -> e_now ev < ping (service_task cf ev s) /\ (ping_to s = 0 \/ e_now ev < ping_to s).
Proof.
  intros Hn Hn2 Hck R K P C Ok J. unfold service_task in *. set (s0 := set_in_service true (set_run_at 0 s)) in *.
  assert (steps (g_idle, s) (g_idle, s0)) as H0 by (apply Q; qt). apply (reach_trans _ _ _ _ _ R) in H0. clear R. rename H0 into R.
  change (ping_to s) with (ping_to s0). change (ok s0) in K. change (Px s0) in P. change (current s0 = CONNECTED) in C. change (clock (c_out s0) = Some (e_now ev)) in Hck. clearbody s0. clear s. rename s0 into s.
  rewrite C in *. cbv beta iota in *.
  pose proof (reevaluate_quiet cf (e_now ev) (set_in_service false (service_connected cf ev s))) as (Hq & _ & Ht). pose proof (phase_reevaluate cf (e_now ev) (set_in_service false (service_connected cf ev s))) as Hph. apply (f_equal fst) in Ht. cbn [fst] in Ht.
  apply phase_inv in Hph as (_ & Hph & _). rewrite Hph in J. change (current (service_connected cf ev s) = CONNECTED) in J.
  unfold ping at 1. rewrite Ht. change (tm_ping (c_tim (set_in_service false (service_connected cf ev s)))) with (ping (service_connected cf ev s)).
  assert (reach (g_idle, service_connected cf ev s)) as Rs.
  { pose proof (service_state_steps cf now0 ev s Hn Hck R K P) as H. rewrite C in H. destruct H as [H _]. exact (reach_trans _ _ _ _ _ R H). }
  assert (ok (service_connected cf ev s)) as Os.
  { refine (steps_ok cf g_idle _ g_idle _ (reach_rl cf now0 (g_idle, service_connected cf ev s) Rs) (steps_trans cf _ (g_idle, set_in_service false (service_connected cf ev s)) _ _ _) Ok); [apply Q; qt|apply steps_reevaluate]. }
  clear Hph Hq Ht Ok. unfold Px in P. rewrite C in P. destruct P as (_ & Hch & Hsl).
  unfold service_connected in *. destruct (wants_connection s); cbn [negb] in *.
  2: { exfalso. destruct (shut_after_final_steps cf g_idle (e_now ev) K_USER_REQUESTED_STOP None s (fun _ _ => ltac:(discriminate)) ltac:(intros H; contradiction)) as [_ H2]. apply cutp_current in H2; [congruence|rewrite C; reflexivity|exact Hsl]. }
  destruct ((ping_to s <=? e_now ev) && negb (ping_to s =? 0)) eqn:Ov.
  { exfalso. pose proof (shutdown_clean_phase cf (e_now ev) K_PING_RESPONSE_TIMEOUT 141 (emit_final K_PING_RESPONSE_TIMEOUT None None s)) as H2. rewrite emit_final_phase in H2.
    unfold phase at 2, no_life, cleanp, to_clean in H2. rewrite C in H2. unfold phase in H2. injection H2; intros. congruence. }
  split.
  2: { destruct (N.eqb_spec (ping_to s) 0) as [Z|Z]; [left; exact Z|right]. destruct (N.leb_spec (ping_to s) (e_now ev)) as [Y|Y]; [discriminate Ov|exact Y]. }
  set (s1 := if ping s <=? e_now ev then queue_ping cf (e_now ev) s else s) in *.
  assert (steps (g_idle, s) (g_idle, s1) /\ phase s1 = phase s /\ unacked s1 = unacked s /\ e_now ev < ping s1) as (A1 & A2 & A3 & A4).
  { unfold s1. destruct (N.leb_spec (ping s) (e_now ev)) as [Lp|Lp]; [|repeat split; [constructor|exact Lp]]. destruct (queue_ping_steps cf g_idle (e_now ev) s Hck C) as (Q1 & Q2 & Q3). split; [exact Q1|]. split; [exact Q2|]. split; [exact Q3|].
    unfold queue_ping, new_op. match goal with |- context [reevaluate cf _ ?x] => destruct (reevaluate_quiet cf (e_now ev) x) as (_ & _ & Ht) end. apply (f_equal fst) in Ht. cbn [fst] in Ht. unfold ping. rewrite Ht. exact (planned_later (e_now ev) s Hn2). }
  clearbody s1.
  set (s2 := if (reset_at s1 <=? e_now ev) && negb (reset_at s1 =? 0) then set_reset_at 0 (set_delay 0 (set_recount 0 s1)) else s1) in *.
  assert (steps (g_idle, s1) (g_idle, s2) /\ phase s2 = phase s1 /\ unacked s2 = unacked s1 /\ ping s2 = ping s1) as (B1 & B2 & B3 & B4).
  { assert (current s1 = CONNECTED) as C1 by (apply phase_inv in A2 as (_ & A2 & _); congruence).
    unfold s2. destruct ((reset_at s1 <=? e_now ev) && negb (reset_at s1 =? 0)); (split; [|repeat split]); [|constructor].
    apply steps_retime; [qh|reflexivity|]. intros _. apply T_backoff; [exact C1|reflexivity]. }
  clearbody s2.
  assert (steps (g_idle, s) (g_idle, s2)) as S2 by (eapply steps_trans; [exact A1|exact B1]).
  pose proof (reach_trans _ _ _ _ _ R S2) as R2. pose proof (eq_trans (steps_clock _ _ _ _ _ S2) Hck) as Hck2.
  destruct (check_timeouts_steps cf now0 (e_now ev) (length (pq s2)) s2 Hck2 R2) as (D1 & D4).
  set (s3 := check_timeouts cf (length (pq s2)) (e_now ev) s2) in *.
  pose proof (reach_trans _ _ _ _ _ R2 D1) as R3.
  assert (all_acked s2) as Ha2 by (unfold all_acked; rewrite B3, A3; exact (proj1 (reach_J0 _ _ _ _ R K))).
  destruct (D4 Ha2) as (D2 & _). assert (phase s3 = phase s) as Ep3 by congruence. destruct (phase_inv _ _ Ep3) as (_ & E5 & _ & E7 & _).
  pose proof (proj1 (service_or_shutdown_steps cf ev s3 Hn (eq_trans (steps_clock _ _ _ _ _ D1) Hck2) ltac:(rewrite E5, C; reflexivity) ltac:(congruence))) as H1.
  apply (steps_later (e_now ev) _ _ _ _ Hn2 (steps_trans _ _ _ _ D1 H1) (reach_rl _ _ _ R2) Os Hck2). rewrite B4. exact A4.
Qed.
Lemma unanswered_app d l t now : Forall (fun x => is_tick x = None) d -> clock l = Some now -> unanswered (d ++ l) = Some t ->
  t = now \/ unanswered l = Some t /\ (settings_of (d ++ l) = None \/ settings_of (d ++ l) = settings_of l).
Proof.
  intros Hd Hc. induction Hd as [|x d Hx Hd IH]; cbn [app unanswered]; [auto|].
  destruct x as [e| | | | | | |o| | |p| | |]; try (cbn [settings_of]; exact IH).
  - destruct e; cbn [settings_of]; try exact IH; try discriminate. intros H. destruct (IH H) as [G|[G _]]; auto.
  - destruct (is_pingreq (op_packet o)); cbn [settings_of]; [|exact IH]. intros H. left. rewrite (clock_tickless d l Hd) in H. congruence.
  - destruct p; cbn [settings_of]; try exact IH. discriminate.
Qed.
Lemma after_s_eq t k : add_sat t (s_to_ns k) = after_s t k.
Proof. unfold after_s, s_to_ns. rewrite add_sat_min, mul_sat_min. change nanos with 1000000000. lia. Qed.
Lemma limit_eq s : ng_keep_alive (c_neg s) < 65536 -> limit s = ping_limit cf (ng_keep_alive (c_neg s)).
Proof.
  intros Hk. unfold limit, ping_limit, interval, s_to_ns, ms_to_ns. rewrite !mul_sat_min. change nanos with 1000000000. set (k := ng_keep_alive (c_neg s)) in *. set (p := cf_ping_timeout_ms cf).
  replace (N.min (two64 - 1) (k * 1000000000)) with (k * 1000000000) by (unfold two64; lia).
  assert (k * 1000000000 / 2 < two64 - 1) as Hh by (apply N.div_lt_upper_bound; [discriminate|]; unfold two64; lia). set (h := k * 1000000000 / 2) in *.
  destruct (N.eqb_spec p 0) as [-> |Hp]; [reflexivity|]. destruct (N.eqb_spec (N.min (two64 - 1) (p * 1000000)) 0); [unfold two64 in *; lia|]. cbn [orb].
  destruct (N.ltb_spec h (N.min (two64 - 1) (p * 1000000))); lia.
Qed.
Lemma limit_pos k : 0 < k -> 0 < ping_limit cf k.
Proof.
  intros H. unfold ping_limit. assert (0 < k * 1000000000 / 2) by (apply N.div_str_pos; lia). destruct (N.eqb_spec (cf_ping_timeout_ms cf) 0); lia.
Qed.
Lemma serviced l ev n : let s := client_history cf now0 l in let s' := client_history cf now0 (l ++ [(ev, EService)]) in
  c_crash s' = None -> enabled ev EService s = true -> current s = CONNECTED -> current s' = CONNECTED -> e_now ev < two64 - 1 -> settings_of (c_out s') = Some n -> 0 < ng_keep_alive n ->
  (acks_fit (c_out s') -> ticking (c_out s') -> ping_wait s' \/ exists t, last_ping (c_out s') = Some t /\ e_now ev < after_s t (ng_keep_alive n)) /\
  (ng_keep_alive n < 65536 -> forall t, unanswered (c_out s') = Some t -> e_now ev < N.min (two64 - 1) (t + ping_limit cf (ng_keep_alive n))).
Proof.
  cbv zeta. destruct (history_steps cf now0 l) as [R P]. unfold client_history, client_run in *. rewrite fold_left_app. cbn [fold_left].
  generalize dependent (fold_left (client_step cf) l (client_new cf now0)). intros s R P. unfold client_step. destruct (c_crash s) eqn:K; [congruence|].
  intros K' En C. rewrite En, C in *. specialize (P K). cbn [cstate_eqb orb negb handle] in *. unfold enabled in En. apply andb_prop in En as [N1 N2]. apply N.ltb_lt in N1. apply N.leb_le in N2.
  assert (e_now ev <> 0) as Hn by lia. intros C' Hn2 Hs Hk. set (s1 := emit (I_TICK (e_now ev)) s) in *.
  assert (reach (g_idle, s1)) as R1 by (apply reach_tick; exact R). assert (clock (c_out s1) = Some (e_now ev)) as Hck by reflexivity.
  assert (Px s1) as P1 by exact P. assert (ok s1) as O1 by exact K. assert (current s1 = CONNECTED) as C1 by exact C. clearbody s1.
  pose proof (service_task_steps cf now0 ev s1 Hn Hck R1 O1 P1) as [Hst _]. pose proof (reach_trans _ _ _ _ _ R1 Hst) as R2.
  destruct (service_pings ev s1 Hn Hn2 Hck R1 O1 P1 C1 K' C') as [Hp Ht]. set (s2 := service_task cf ev s1) in *.
  pose proof (reach_J22 _ _ R2 K' C' eq_refl) as (A & _ & D).
  assert (forall s0, reach (g_idle, s0) -> ok s0 -> settings_of (c_out s0) = Some n -> c_neg s0 = n) as Hset.
  { intros s0 R0 O0 E0. pose proof (reach_J8 cf now0 _ _ R0 O0) as J. unfold J8 in J. rewrite E0 in J. apply J. }
  pose proof (Hset s2 R2 K' Hs) as En. unfold interval in D. rewrite En in D. split.
  - intros F Tk. destruct (D F Tk) as [W|(t & L1 & L2)]; [unfold s_to_ns; rewrite mul_sat_min; change nanos with 1000000000; unfold two64; lia|left; exact W|right]. exists t. split; [exact L1|]. rewrite <- after_s_eq. lia.
  - intros Hk2 t Hu. rewrite Hu in A. pose proof (limit_eq s2 ltac:(rewrite En; exact Hk2)) as El. rewrite En in El. rewrite El, add_sat_min in A. pose proof (limit_pos _ Hk) as Hlp.
    destruct (steps_trace cf _ _ _ _ Hst) as (d & Ed & Td). rewrite Ed in Hu, Hs.
    destruct (unanswered_app d (c_out s1) t (e_now ev) Td Hck Hu) as [-> |[U1 [U2|U2]]]; [lia|congruence|]. rewrite U2 in Hs.
    pose proof (Hset s1 R1 O1 Hs) as En1. pose proof (limit_eq s1 ltac:(rewrite En1; exact Hk2)) as El1. rewrite En1 in El1.
    destruct (reach_J22 _ _ R1 O1 C1 eq_refl) as (A1 & _). rewrite U1, El1, add_sat_min in A1. rewrite <- A1. destruct Ht as [Ht|Ht]; [|exact Ht].
    exfalso. rewrite Ht in A1. unfold two64 in A1. lia.
Qed.
(** the service task closes a connection the user wants only because an answer is overdue, or because of a failure *)
Lemma stays ev s : e_now ev <> 0 -> clock (c_out s) = Some (e_now ev) -> reach (g_idle, s) -> ok s -> Px s -> current s = CONNECTED -> wants_connection s = true ->
  current (service_task cf ev s) = CLEAN_DISCONNECT -> ping_to s <> 0 /\ ping_to s <= e_now ev.
Proof.
  intros Hn Hck R K P C W J. unfold service_task in *. set (s0 := set_in_service true (set_run_at 0 s)) in *.
  assert (steps (g_idle, s) (g_idle, s0)) as H0 by (apply Q; qt). apply (reach_trans _ _ _ _ _ R) in H0. clear R. rename H0 into R.
  change (ping_to s) with (ping_to s0). change (ok s0) in K. change (Px s0) in P. change (current s0 = CONNECTED) in C. change (wants_connection s0 = true) in W. change (clock (c_out s0) = Some (e_now ev)) in Hck. clearbody s0. clear s. rename s0 into s.
  rewrite C in *. cbv beta iota in *.
  pose proof (phase_reevaluate cf (e_now ev) (set_in_service false (service_connected cf ev s))) as Hph. apply phase_inv in Hph as (_ & Hph & _). rewrite Hph in J. change (current (service_connected cf ev s) = CLEAN_DISCONNECT) in J. clear Hph.
  unfold Px in P. rewrite C in P. destruct P as (_ & Hch & Hsl). unfold service_connected in *. rewrite W in J. cbn [negb] in J.
  destruct ((ping_to s <=? e_now ev) && negb (ping_to s =? 0)) eqn:Ov.
  { apply andb_prop in Ov as [O1 O2]. apply N.leb_le in O1. split; [|exact O1]. intros Z. rewrite Z in O2. discriminate O2. }
  exfalso. clear Ov.
  set (s1 := if ping s <=? e_now ev then queue_ping cf (e_now ev) s else s) in *.
  assert (steps (g_idle, s) (g_idle, s1) /\ phase s1 = phase s /\ unacked s1 = unacked s) as (A1 & A2 & A3).
  { unfold s1. destruct (ping s <=? e_now ev); [|repeat split; constructor]. apply (queue_ping_steps cf g_idle (e_now ev) s Hck C). }
  clearbody s1.
  set (s2 := if (reset_at s1 <=? e_now ev) && negb (reset_at s1 =? 0) then set_reset_at 0 (set_delay 0 (set_recount 0 s1)) else s1) in *.
  assert (steps (g_idle, s1) (g_idle, s2) /\ phase s2 = phase s1 /\ unacked s2 = unacked s1) as (B1 & B2 & B3).
  { assert (current s1 = CONNECTED) as C1 by (apply phase_inv in A2 as (_ & A2 & _); congruence).
    unfold s2. destruct ((reset_at s1 <=? e_now ev) && negb (reset_at s1 =? 0)); (split; [|repeat split]); [|constructor].
    apply steps_retime; [qh|reflexivity|]. intros _. apply T_backoff; [exact C1|reflexivity]. }
  clearbody s2.
  assert (steps (g_idle, s) (g_idle, s2)) as S2 by (eapply steps_trans; [exact A1|exact B1]).
  pose proof (reach_trans _ _ _ _ _ R S2) as R2. pose proof (eq_trans (steps_clock _ _ _ _ _ S2) Hck) as Hck2.
  destruct (check_timeouts_steps cf now0 (e_now ev) (length (pq s2)) s2 Hck2 R2) as (D1 & D4).
  set (s3 := check_timeouts cf (length (pq s2)) (e_now ev) s2) in *.
  assert (all_acked s2) as Ha2 by (unfold all_acked; rewrite B3, A3; exact (proj1 (reach_J0 _ _ _ _ R K))).
  destruct (D4 Ha2) as (D2 & _). assert (phase s3 = phase s) as Ep3 by congruence. destruct (phase_inv _ _ Ep3) as (_ & E5 & _ & E7 & _).
  pose proof (proj2 (service_or_shutdown_steps cf ev s3 Hn (eq_trans (steps_clock _ _ _ _ _ D1) Hck2) ltac:(rewrite E5, C; reflexivity) ltac:(congruence))) as H2.
  destruct (snd (service_or_shutdown cf ev s3)).
  - apply phase_inv in H2 as (_ & H2 & _). congruence.
  - apply cutp_current in H2; [congruence|rewrite E5, C; reflexivity|congruence].
Qed.
Lemma gives_up l ev n : let s := client_history cf now0 l in let s' := client_history cf now0 (l ++ [(ev, EService)]) in
  c_crash s' = None -> enabled ev EService s = true -> current s = CONNECTED -> desired s = D_CONNECTED -> current s' = CLEAN_DISCONNECT -> settings_of (c_out s) = Some n -> ng_keep_alive n < 65536 ->
  exists t, unanswered (c_out s) = Some t /\ N.min (two64 - 1) (t + ping_limit cf (ng_keep_alive n)) <= e_now ev.
Proof.
  cbv zeta. destruct (history_steps cf now0 l) as [R P]. unfold client_history, client_run in *. rewrite fold_left_app. cbn [fold_left].
  generalize dependent (fold_left (client_step cf) l (client_new cf now0)). intros s R P. unfold client_step. destruct (c_crash s) eqn:K; [congruence|].
  intros K' En C W. rewrite En, C in *. specialize (P K). cbn [cstate_eqb orb negb handle] in *. unfold enabled in En. apply andb_prop in En as [N1 N2]. apply N.ltb_lt in N1. apply N.leb_le in N2.
  assert (e_now ev <> 0) as Hn by lia. intros C' Hs Hk. 
  destruct (stays ev (emit (I_TICK (e_now ev)) s) Hn eq_refl (reach_tick _ _ _ _ R) K P C ltac:(unfold wants_connection; change (desired (emit ?a s)) with (desired s); rewrite W; reflexivity) C') as [T1 T2].
  change (ping_to (emit ?a s)) with (ping_to s) in T1, T2. destruct (reach_J22 _ _ R K C eq_refl) as (A1 & _). pose proof (reach_J8 cf now0 _ _ R K) as HJ8. unfold J8 in HJ8. rewrite Hs in HJ8. destruct HJ8 as (En1 & _).
  destruct (unanswered (c_out s)) as [t|]; [|congruence]. exists t. split; [reflexivity|]. pose proof (limit_eq s ltac:(rewrite En1; exact Hk)) as El. rewrite En1 in El. rewrite El, add_sat_min in A1. lia.
Qed.
End Pings.
