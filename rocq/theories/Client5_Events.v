(** What the trace says about each kind of event, from the invariants. *)
From Verif Require Import Base BaseLemmas Mqtt5_Views TopicAlias_Model Encoder5_Model Decoder5_Model RateLimiter_Model RateLimiter_Spec
  RateLimiter_Proofs Validate5_Model Negotiated_Model Client5_State Client5_Model Client5_Spec Client5_Steps Client5_Decomp Client5_Decomp2
  Client5_Forms Client5_Decomp3 Client5_Inv0 Client5_Flow Client5_Safety Client5_Decomp4 Client5_Ops Client5_Crash Client5_Conn.
From Coq Require Import Permutation.
Ltac Zify.zify_post_hook ::= idtac.

(** ** When no packet id is free, all of them are taken *)
Definition orbit (i k : N) : N := (i - 1 + k) mod 65535 + 1.
Lemma orbit_0 i : i <> 0 -> i < 65536 -> orbit i 0 = i.
Proof. intros. unfold orbit. rewrite N.add_0_r, N.mod_small by lia. lia. Qed.
Lemma orbit_next i k : next_packet_id (orbit i k) = orbit i (k + 1).
Proof.
  unfold orbit, next_packet_id. rewrite N.add_assoc. set (a := i - 1 + k). rewrite (N.add_mod a 1 65535) by discriminate. change (1 mod 65535) with 1.
  pose proof (N.mod_upper_bound a 65535 ltac:(discriminate)) as H. set (b := a mod 65535) in *. clearbody b. destruct (N.eq_dec b 65534) as [->|Hb]; [reflexivity|].
  rewrite (N.mod_small (b + 1)) by lia. rewrite (N.mod_small (b + 1 + 1)) by lia. destruct (N.eqb_spec (b + 1 + 1) 0); lia.
Qed.
Lemma orbit_inj i k l : k < 65535 -> l < 65535 -> orbit i k = orbit i l -> k = l.
Proof.
  unfold orbit. intros Hk Hl E. assert ((i - 1 + k) mod 65535 = (i - 1 + l) mod 65535) as E' by lia. clear E. set (a := i - 1) in *. clearbody a.
  rewrite (N.add_mod a k), (N.add_mod a l), (N.mod_small k), (N.mod_small l) in E' by (discriminate || assumption).
  pose proof (N.mod_upper_bound a 65535 ltac:(discriminate)) as H. set (b := a mod 65535) in *. clearbody b.
  destruct (N.lt_ge_cases (b + k) 65535) as [H1|H1], (N.lt_ge_cases (b + l) 65535) as [H2|H2].
  - rewrite !N.mod_small in E' by assumption. lia.
  - rewrite (N.mod_small (b + k)) in E' by assumption. replace (b + l) with (b + l - 65535 + 1 * 65535) in E' by lia. rewrite N.mod_add in E' by discriminate. rewrite N.mod_small in E' by lia. lia.
  - rewrite (N.mod_small (b + l)) in E' by assumption. replace (b + k) with (b + k - 65535 + 1 * 65535) in E' by lia. rewrite N.mod_add in E' by discriminate. rewrite N.mod_small in E' by lia. lia.
  - replace (b + l) with (b + l - 65535 + 1 * 65535) in E' by lia. replace (b + k) with (b + k - 65535 + 1 * 65535) in E' by lia. rewrite !N.mod_add in E' by discriminate. rewrite !N.mod_small in E' by lia. lia.
Qed.
Lemma orbit_onto i id : i <> 0 -> i < 65536 -> id <> 0 -> id < 65536 -> exists k, k < 65535 /\ orbit i k = id.
Proof.
  intros H1 H2 H3 H4. destruct (N.le_gt_cases i id) as [H|H].
  - exists (id - i). split; [lia|]. unfold orbit. rewrite N.mod_small by lia. lia.
  - exists (id + 65535 - i). split; [lia|]. unfold orbit. replace (i - 1 + (id + 65535 - i)) with (id - 1 + 1 * 65535) by lia. rewrite N.mod_add by discriminate. rewrite N.mod_small by lia. lia.
Qed.
Lemma free_none_orbit t i rounds : forall k, free_packet_id rounds (orbit i k) t = None -> forall j, (j < rounds)%nat -> lookup (orbit i (k + N.of_nat j)) t <> None.
Proof.
  induction rounds as [|rounds IH]; intros k E j Hj; [lia|]. cbn [free_packet_id] in E. destruct (lookup (orbit i k) t) eqn:L; [|discriminate].
  rewrite orbit_next in E. destruct j as [|j]; [rewrite N.add_0_r, L; discriminate|]. replace (k + N.of_nat (S j)) with (k + 1 + N.of_nat j) by lia. apply IH; [exact E|lia].
Qed.
Lemma lookup_key k t : lookup k t <> None -> In k (map fst t).
Proof. destruct (lookup k t) eqn:E; [|congruence]. intros _. apply lookup_some_in in E. apply (in_map fst) in E. exact E. Qed.
Lemma nodup_map_on {A B} (f : A -> B) l : (forall a b, In a l -> In b l -> f a = f b -> a = b) -> NoDup l -> NoDup (map f l).
Proof.
  intros H. induction 1 as [|x l Hx Hl IH]; [constructor|]. cbn [map]. constructor.
  - intros Hi. apply in_map_iff in Hi as (y & E & Hy). apply H in E; [subst; contradiction|right; exact Hy|left; reflexivity].
  - apply IH. intros a b Ha Hb. apply H; right; assumption.
Qed.
Lemma free_none_all t i : i <> 0 -> i < 65536 -> free_packet_id (S (length t)) i t = None -> forall id, id <> 0 -> id < 65536 -> lookup id t <> None.
Proof.
  intros H1 H2 E id H3 H4. rewrite <- (orbit_0 i) in E by assumption. pose proof (free_none_orbit t i _ _ E) as A. rewrite N.add_0_l in A || idtac.
  destruct (orbit_onto i id H1 H2 H3 H4) as (k & Hk & <-).
  destruct (Nat.lt_ge_cases (N.to_nat k) (S (length t))) as [Hl|Hl].
  - specialize (A _ Hl). rewrite N2Nat.id in A. exact A.
  - exfalso. set (L := map (fun j => orbit i (N.of_nat j)) (List.seq 0 (S (length t)))).
    assert (NoDup L) as ND.
    { unfold L. apply nodup_map_on; [|apply seq_NoDup]. intros a b Ha Hb Eq. apply in_seq in Ha, Hb. apply orbit_inj in Eq; lia. }
    assert (incl L (map fst t)) as Hi.
    { intros x Hx. apply in_map_iff in Hx as (j & <- & Hj). apply in_seq in Hj. apply lookup_key. specialize (A j). rewrite N.add_0_l in A. apply A. lia. }
    pose proof (NoDup_incl_length ND Hi) as Hn. unfold L in Hn. rewrite !map_length, seq_length in Hn. lia.
Qed.

Section Events.
Variable cf : config.
Variable now0 : N.
Notation reach := (reach cf now0).

(** ** Lifecycle *)
Lemma life_step g s x e y : reach (g, s) -> ok s -> c_out s = x ++ O_LIFE e :: y ->
  match e with
  | ATTEMPTING_CONNECT | STOPPED_EVENT => phase_of y = LS_NONE
  | CONNECTION_FAILURE _ _ => phase_of y = LS_CONNECTING
  | DISCONNECTION _ _ => phase_of y = LS_CONNECTED
  | CONNECTION_SUCCESS _ _ => phase_of y = LS_CONNECTING \/ (phase_of y = LS_NONE /\ has_stop y = true)
  end.
Proof.
  intros R Ok E. destruct (event_cause cf now0 _ _ _ _ _ R Ok E) as (g1 & s1 & g2 & s2 & d1 & d2 & x' & R1 & Ok1 & R2 & Ok2 & C & E2 & -> & _).
  destruct (reach_J7 cf now0 _ _ R1 Ok1) as [J _].
  inversion C; subst; cbn [app]; try discriminate; rewrite <- J; try assumption.
Qed.
Lemma plain_no_stop l : plain_stops l -> has_stop l = false.
Proof.
  unfold plain_stops, has_stop. induction l as [|x l IH]; [reflexivity|]. cbn [submitted flat_map existsb]. intros H. apply Forall_app in H as [H1 H2]. rewrite (IH H2), orb_false_r.
  destruct x; try reflexivity. inversion H1; subst. cbn [is_stop]. destruct (op_packet o); try reflexivity. contradiction.
Qed.
Lemma plain_app x y : plain_stops (x ++ y) -> plain_stops y.
Proof. unfold plain_stops, submitted. rewrite flat_map_app. intros H. apply Forall_app in H. apply H. Qed.
Lemma life_grammar g s : reach (g, s) -> ok s ->
  loose_lifecycle (phase_of (c_out s)) (life_events (c_out s)) /\ (plain_stops (c_out s) -> lifecycle (phase_of (c_out s)) (life_events (c_out s))).
Proof.
  intros R Ok. assert (forall y x, c_out s = x ++ y -> loose_lifecycle (phase_of y) (life_events y) /\ (plain_stops y -> lifecycle (phase_of y) (life_events y))) as H.
  { induction y as [|ev y IH]; intros x E; [split; [constructor|intros _; constructor]|].
    destruct (IH (x ++ [ev])) as [H1 H2]; [rewrite E, <- app_assoc; reflexivity|].
    assert (plain_stops (ev :: y) -> plain_stops y) as Hp by (apply (plain_app [ev])).
    destruct ev as [e| | | | | | | | | | | | |]; try (split; [exact H1|]; intros P; apply H2, Hp, P).
    pose proof (life_step _ _ _ _ _ R Ok E) as L. change (life_events (O_LIFE e :: y)) with (e :: life_events y). change (phase_of (O_LIFE e :: y)) with (phase_after e).
    destruct e; cbn [phase_after].
    - rewrite L in *. split; [constructor; exact H1|]. intros P. constructor. auto.
    - split; [destruct L as [L|[L _]]; rewrite L in *; [apply LL_success|apply LL_late_success]; exact H1|]. intros P. destruct L as [L|[_ L]]; [rewrite L in *; constructor; auto|].
      exfalso. rewrite (plain_no_stop y) in L; [discriminate|auto].
    - rewrite L in *. split; [constructor; exact H1|]. intros P. constructor. auto.
    - rewrite L in *. split; [constructor; exact H1|]. intros P. constructor. auto.
    - rewrite L in *. split; [constructor; exact H1|]. intros P. constructor. auto. }
  apply (H (c_out s) []). reflexivity.
Qed.

(** ** Lost operations *)
Lemma lost_why g s x o y : reach (g, s) -> ok s -> c_out s = x ++ O_LOST o :: y -> op_owner o = BY_USER ->
  (exists v y', op_packet o = P_DISCONNECT v /\ y = I_SUBMIT o :: y') \/
  (id_of (op_packet o) = 0 /\ ids_exhausted y) \/
  (exists enc err, snd (append_packet enc (op_packet o)) = A_FAILED err).
Proof.
  intros R Ok E Hw. destruct (event_cause cf now0 _ _ _ _ _ R Ok E) as (g1 & s1 & g2 & s2 & d1 & d2 & x' & R1 & Ok1 & R2 & Ok2 & C & E2 & -> & _).
  inversion C; subst; cbn [app]; try discriminate.
  - left. exists v. eexists. split; reflexivity.
  - right. left. match goal with H : bind_packet_id _ _ = None |- _ => unfold bind_packet_id in H; destruct (needs_packet_id (op_packet o)) eqn:Hn; [cbn [negb] in H|discriminate H];
      change (table (set_queued q s1)) with (table s1) in H; change (next_id (set_queued q s1)) with (next_id s1) in H;
      destruct (free_packet_id (S (length (table s1))) (next_id s1) (table s1)) eqn:Hf; [discriminate H|clear H] end.
    split; [apply needs_id_0, Hn|]. intros id I1 I2. destruct (reach_J2 cf now0 _ _ R1 Ok1) as (T & _ & _ & [N1 N2] & _).
    pose proof (free_none_all _ _ N1 N2 Hf id ltac:(lia) I2) as Hl. destruct (lookup id (table s1)) as [u|] eqn:L; [|congruence]. apply lookup_some_in in L.
    destruct (reach_J3 cf now0 _ _ R1 Ok1) as (S1 & _). destruct (S1 _ _ L) as (o1 & t & Hs & Hu & Hi). exists o1, t. split; [exact Hs|]. split; [exact Hi|].
    destruct (T ltac:(assumption) _ _ L) as (o2 & Ho2 & Hu2 & _). rewrite Hu, <- Hu2. apply (held_not_finished g1 s1); [|apply unacked_held; exact Ho2].
    destruct (reach_J1 cf now0 _ _ R1 Ok1) as (ND & _). exact ND.
  - right. right. match goal with H : append_packet ?e _ = _ |- _ => exists e; eexists; rewrite H; reflexivity end.
Qed.

(** ** Failed assertions *)
Lemma crash_why g s r : reach (g, s) -> c_crash s = Some r ->
  (r = CR_LIFECYCLE /\ exists later v earlier, c_out s = later ++ I_PACKET (P_DISCONNECT v) :: earlier /\ phase_of earlier = LS_CONNECTING) \/
  (r = CR_RECEIVE_MAXIMUM /\ exists later earlier n, c_out s = later ++ earlier /\ settings_of earlier = Some n /\
     ng_receive_maximum n <= count_here publish_sent earlier).
Proof.
  intros R C. destruct (crash_origin cf now0 _ _ _ R C) as (g1 & s1 & d & R1 & Ok1 & B & E).
  destruct (crash_reasons cf now0 _ _ _ R1 Ok1 B) as [(-> & Hp & v & y & Hy)|(-> & o & Ho & Ha & Ht)].
  - left. split; [reflexivity|]. exists d, v, y. rewrite E, Hy. split; [reflexivity|]. rewrite Hy in Hp. exact Hp.
  - right. split; [reflexivity|]. pose proof (reach_J8 cf now0 _ _ R1 Ok1) as J. unfold J8 in J. exists d, (c_out s1). destruct (settings_of (c_out s1)) as [n|].
    + exists n. split; [exact E|]. split; [reflexivity|]. destruct J as (_ & _ & _ & _ & _ & _ & _ & J). lia.
    + exfalso. destruct J as (J & _). specialize (J _ Ho). destruct (op_packet o); discriminate.
Qed.

(** ** Sending *)
Lemma in_flight g s : reach (g, s) -> ok s ->
  match settings_of (c_out s) with
  | Some n => count_here publish_sent (c_out s) <= ng_receive_maximum n + count_here puback_came (c_out s)
  | None => count_here publish_sent (c_out s) = 0
  end.
Proof. intros R Ok. pose proof (reach_J8 cf now0 _ _ R Ok) as J. unfold J8 in J. destruct (settings_of (c_out s)); [|apply J]. destruct J as (_ & _ & _ & _ & _ & J & _). lia. Qed.
Lemma sent_within g s x o y n : reach (g, s) -> ok s -> c_out s = x ++ O_SENT o :: y -> settings_of y = Some n ->
  opening (op_packet o) = true \/
  within (mklimits (ng_maximum_packet_size n) (ng_maximum_qos n) (ng_retain n) (cn_session_expiry (cf_connect cf))) (op_packet o).
Proof.
  intros R Ok E Hn. destruct (event_cause cf now0 _ _ _ _ _ R Ok E) as (g1 & s1 & g2 & s2 & d1 & d2 & x' & R1 & Ok1 & R2 & Ok2 & C & E2 & -> & _).
  inversion C; subst; cbn [app] in *; try discriminate. pose proof (reach_J8 cf now0 _ _ R1 Ok1) as J. unfold J8 in J. rewrite Hn in J. destruct J as (Hc & _ & _ & _ & J & _).
  specialize (J _ ltac:(eassumption)). unfold limits_of in J. rewrite Hc in J. exact J.
Qed.
Lemma success_settings g s x n v y : reach (g, s) -> ok s -> c_out s = x ++ O_LIFE (CONNECTION_SUCCESS n v) :: y ->
  rx_here (P_CONNACK v) y /\ ca_reason_code v < 128 /\ exists m s0, n = ng_apply (ng_reset m (connect_view cf s0)) v.
Proof.
  intros R Ok E. destruct (event_cause cf now0 _ _ _ _ _ R Ok E) as (g1 & s1 & g2 & s2 & d1 & d2 & x' & R1 & Ok1 & R2 & Ok2 & C & E2 & -> & _).
  inversion C; subst; cbn [app] in *; try discriminate. destruct (reach_J10 cf now0 _ _ R1 Ok1) as (_ & _ & J). apply J. assumption.
Qed.
Lemma sent_id g s x o y : reach (g, s) -> ok s -> c_out s = x ++ O_SENT o :: y -> answered (op_packet o) = true -> id_of (op_packet o) <> 0.
Proof.
  intros R Ok E Ha. destruct (event_cause cf now0 _ _ _ _ _ R Ok E) as (g1 & s1 & g2 & s2 & d1 & d2 & x' & R1 & Ok1 & R2 & Ok2 & C & E2 & -> & _).
  inversion C; subst; try discriminate. match goal with H : requires_ack _ = true -> _ |- _ => exact (H Ha) end.
Qed.
Lemma success_settled g s x n v y : reach (g, s) -> ok s -> c_out s = x ++ O_LIFE (CONNECTION_SUCCESS n v) :: y ->
  received_here (P_CONNACK v) y /\ ca_reason_code v < 128 /\ settled_on cf v n.
Proof.
  intros R Ok E. destruct (success_settings _ _ _ _ _ _ R Ok E) as (H1 & H2 & m & s0 & ->). split; [exact H1|]. split; [exact H2|].
  unfold settled_on. cbn [ng_apply ng_reset ng_maximum_qos ng_session_expiry ng_receive_maximum ng_maximum_packet_size ng_alias_maximum_to_server ng_alias_maximum_to_client ng_keep_alive
    ng_retain ng_wildcard ng_sub_ids ng_shared ng_rejoined connect_view cn_session_expiry cn_topic_alias_maximum cn_keep_alive].
  unfold agreed, agreed16, agreed_flag, or_else, or_else16, or_flag, given.
  repeat split; repeat match goal with |- context [match ?a with Some _ => _ | None => _ end] => destruct a; try reflexivity end; try (intros; apply N.mod_small; assumption).
  destruct (N.ltb_spec n 1); lia.
Qed.
Lemma sent_allowed g s x o y n : reach (g, s) -> ok s -> c_out s = x ++ O_SENT o :: y -> settings_of y = Some n -> allowed n (op_packet o).
Proof.
  intros R Ok E Hn. destruct (sent_within _ _ _ _ _ _ R Ok E Hn) as [H|H]; [destruct (op_packet o); try discriminate; exact I|].
  unfold within, validate_vs_settings in H. destruct (op_packet o) as [| |v| | | | | | | |]; try exact I.
  assert (forall b1 b2 b3, (if b1 : bool then false else if b2 : bool then false else negb b3) = true -> b2 = false /\ b3 = false) as Hb by (intros [] [] []; cbn; intuition discriminate).
  destruct H as [H|H]; (destruct (get_encoded_size _); [|discriminate H]); cbn [set_packet_id] in H; apply Hb in H as [H1 H2]; cbn [lm_qos lm_retain pb_qos pb_retain] in *; (split; [apply N.ltb_ge, H1|]);
    intros Hr; rewrite Hr in H2; destruct (ng_retain n); [reflexivity|discriminate|reflexivity|discriminate].
Qed.
Lemma deadline_overdue t o now : deadline_of cf t o <= now -> overdue cf t o now.
Proof.
  unfold deadline_of, overdue. destruct (N.eqb_spec (if op_override o =? 0 then cf_ack_timeout_s cf else op_override o) 0) as [->|Hn]; [auto|].
  replace (0 <? _) with true by (symmetry; apply N.ltb_lt; lia). unfold s_to_ns. generalize (if op_override o =? 0 then cf_ack_timeout_s cf else op_override o). intros k.
  replace (mul_sat k nanos) with (N.min (2 ^ 64 - 1) (k * 1000000000)); [auto|]. unfold mul_sat. change nanos with 1000000000. change two64 with (2 ^ 64).
  destruct (N.ltb_spec (k * 1000000000) (2 ^ 64)); lia.
Qed.
Lemma timeout_overdue g s x o ack y : reach (g, s) -> ok s -> c_out s = x ++ O_DONE o K_TIMEOUT ack :: y ->
  answered (op_packet o) = true /\ exists now o' t, clock y = Some now /\ sent_here o' t y /\ identity_of o' = identity_of o /\ overdue cf t o' now.
Proof.
  intros R Ok E. destruct (done_finish cf now0 _ _ _ _ _ _ _ R Ok E) as [(y' & _ & _ & _ & [H|[H _]])|(g1 & s1 & R1 & Ok1 & Ho & <- & M)]; try discriminate.
  unfold Client5_Steps.may_finish in M. destruct M as (_ & Hr & now & o' & t & Hc & Hs & Hu & Hd). split; [exact Hr|]. exists now, o', t. split; [exact Hc|]. split; [exact Hs|].
  split; [eapply sent_identity; eassumption|apply deadline_overdue, Hd].
Qed.
(** ** Histories *)
Lemma history_reach l : reach (g_idle, client_history cf now0 l).
Proof. apply history_steps. Qed.
End Events.
