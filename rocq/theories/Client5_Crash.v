(** Which assertions can fail, and when. *)
From Verif Require Import Base BaseLemmas Mqtt5_Views TopicAlias_Model Encoder5_Model Decoder5_Model RateLimiter_Model RateLimiter_Spec
  RateLimiter_Proofs Validate5_Model Negotiated_Model Client5_State Client5_Model Client5_Spec Client5_Steps Client5_Decomp Client5_Decomp2
  Client5_Forms Client5_Decomp3 Client5_Inv0 Client5_Flow Client5_Safety Client5_Decomp4 Client5_Ops.
From Coq Require Import Permutation.
Ltac Zify.zify_post_hook ::= idtac.

(** ** Alias resolution never asks for alias 0 with an empty topic *)
Definition sound_resolver (o : outbound) : Prop :=
  match o with OLru (Some c) max => max < 65536 /\ len c <= max /\ Forall (fun e => snd e <> 0) c | _ => True end.
Lemma len_cons {A} (x : A) l : len (x :: l) = len l + 1.
Proof. unfold len. cbn [length]. lia. Qed.
Lemma len_filter {A} (f : A -> bool) l : len (filter f l) <= len l.
Proof. unfold len. induction l as [|x l IH]; cbn [filter length]; [lia|]. destruct (f x); cbn [length]; lia. Qed.
Lemma len_removelast {A} (l : list A) : len (removelast l) <= len l - 1.
Proof. unfold len. induction l as [|x [|y l] IH]; cbn [removelast length] in *; lia. Qed.
Lemma forall_removelast {A} (P : A -> Prop) l : Forall P l -> Forall P (removelast l).
Proof. induction 1 as [|x [|y l] Hx Hl IH]; cbn [removelast]; constructor; auto. Qed.
Lemma forall_filter {A} (P : A -> Prop) f l : Forall P l -> Forall P (filter f l).
Proof. induction 1 as [|x l Hx Hl IH]; cbn [filter]; [constructor|]. destruct (f x); [constructor|]; auto. Qed.
Lemma lru_put_sound max t a c : 0 < max -> len c <= max -> a <> 0 -> Forall (fun e => snd e <> 0) c ->
  len (lru_put max t a c) <= max /\ Forall (fun e : bytes * N => snd e <> 0) (lru_put max t a c).
Proof.
  intros Hm Hl Ha Hc. unfold lru_put. assert (Forall (fun e : bytes * N => snd e <> 0) ((t, a) :: lru_remove t c)) as H by (constructor; [exact Ha|apply forall_filter, Hc]).
  assert (len ((t, a) :: lru_remove t c) <= max + 1) as H1 by (rewrite len_cons; pose proof (len_filter (fun e => negb (key_is t e)) c); unfold lru_remove; lia).
  destruct (N.ltb_spec max (len ((t, a) :: lru_remove t c))).
  - split; [|apply forall_removelast, H]. pose proof (len_removelast ((t, a) :: lru_remove t c)). lia.
  - auto.
Qed.
Lemma filter_less {A} (f : A -> bool) l e : In e l -> f e = false -> len (filter f l) + 1 <= len l.
Proof.
  intros H Hf. apply in_split in H as (a & b & ->). rewrite filter_app. cbn [filter]. rewrite Hf. pose proof (len_filter f a). pose proof (len_filter f b).
  unfold len in *. rewrite !app_length. cbn [length]. lia.
Qed.
Lemma resolve_sound o t al o' a t' : sound_resolver o -> out_resolve o t al = Some (o', a, t') -> sound_resolver o' /\ (a = 0 -> t' = t).
Proof.
  intros Ho. destruct o as [|l|[c|] max]; cbn [out_resolve].
  - destruct (len t =? 0); [discriminate|]. intros E. injection E as <- <- <-. auto.
  - destruct al as [x|]; [|intros E; injection E as <- <- <-; auto]. destruct (N.eqb_spec x 0); [discriminate|]. destruct (len l <=? x - 1); [discriminate|].
    match goal with |- (if ?b then _ else _) = _ -> _ => destruct b end; intros E; injection E as <- <- <-; split; auto; try exact I; intros; contradiction.
  - destruct Ho as (H1 & H2 & H3). destruct (N.eqb_spec max 0) as [Hm|Hm]; [intros E; injection E as <- <- <-; split; [repeat split; assumption|auto]|].
    unfold lru_find. destruct (find (key_is t) c) as [e|] eqn:F.
    + intros E. injection E as <- <- <-. apply find_some in F as [F Hk]. rewrite Forall_forall in H3. pose proof (H3 _ F) as Ha. split; [|intros; contradiction].
      split; [exact H1|]. split; [|constructor; [exact Ha|apply forall_filter, Forall_forall, H3]].
      rewrite len_cons. pose proof (filter_less (fun e => negb (key_is t e)) c e F) as Hl. cbv beta in Hl. rewrite Hk in Hl. specialize (Hl eq_refl). unfold lru_remove. lia.
    + destruct (N.eqb_spec (len c) max) as [El|El].
      * unfold lru_use_last. destruct (rev c) as [|[old x] r] eqn:Er.
        { apply (f_equal (@length _)) in Er. rewrite rev_length in Er. cbn [length] in Er. unfold len in El. lia. }
        assert (Forall (fun e : bytes * N => snd e <> 0) (rev c)) as Hr by (apply Forall_rev, H3). assert (len c = len r + 1) as El2.
        { apply (f_equal (@length _)) in Er. rewrite rev_length in Er. cbn [length] in Er. unfold len. lia. }
        rewrite Er in Hr. inversion Hr; subst. cbn [snd] in *. intros E. injection E as <- <- <-. split; [|reflexivity || auto].
        destruct (lru_put_sound (len c) t x (lru_remove old ((old, x) :: rev r))) as [G1 G2]; try assumption; try lia.
        { unfold lru_remove. pose proof (len_filter (fun e => negb (key_is old e)) ((old, x) :: rev r)) as H. rewrite len_cons in H. unfold len in *. rewrite rev_length in H. lia. }
        { apply forall_filter. constructor; [assumption|]. apply Forall_rev. assumption. }
        split; [exact H1|split; assumption].
      * intros E. injection E as <- <- <-. split; [|auto]. assert ((len c + 1) mod 65536 <> 0) as Hz by (rewrite N.mod_small; lia).
        destruct (lru_put_sound max t ((len c + 1) mod 65536) c) as [G1 G2]; try assumption; try lia. split; [exact H1|split; assumption].
  - intros E. injection E as <- <- <-. auto.
Qed.
Lemma publish_sound o t al : sound_resolver o -> t <> [] -> sound_resolver (fst (out_publish o t al)) /\ snd (out_publish o t al) <> SAbort.
Proof.
  intros Ho Ht. unfold out_publish. destruct (out_resolve o t al) as [[[o' a] t']|] eqn:E; [|split; [exact Ho|discriminate]].
  destruct (resolve_sound _ _ _ _ _ _ Ho E) as [H1 H2]. destruct (N.eqb_spec a 0) as [Ea|Ea]; cbn [negb]; [|split; [exact H1|discriminate]].
  rewrite (H2 Ea). destruct (N.eqb_spec (len t) 0) as [El|El]; [|split; [exact H1|discriminate]]. exfalso. apply Ht. destruct t; [reflexivity|]. rewrite len_cons in El. lia.
Qed.
Definition sound_encoder (e : encoder) : Prop := match enc_resolver e with Some o => sound_resolver o | None => True end.
Definition topic_ok (p : packet5) : Prop := match p with P_PUBLISH v => pb_topic v <> [] | _ => True end.
Lemma append_sound e p : sound_encoder e -> topic_ok p -> sound_encoder (fst (append_packet e p)) /\ snd (append_packet e p) <> A_ABORT.
Proof.
  intros He Hp. destruct p; cbn [append_packet append fst snd]; try (split; [exact He|]; match goal with |- match ?x with _ => _ end <> _ => destruct x; discriminate | _ => try discriminate end).
  cbn [topic_ok] in Hp. destruct (enc_resolver e) as [o|] eqn:Er; unfold sound_encoder in He; rewrite Er in He.
  - destruct (publish_sound o (pb_topic v) (pb_topic_alias v) He Hp) as [H1 H2]. destruct (out_publish o (pb_topic v) (pb_topic_alias v)) as [o' r]. cbn [fst snd] in *.
    destruct r; [contradiction|split; [exact H1|discriminate]|]. cbn [append fst snd]. split; [exact H1|]. match goal with |- match ?x with _ => _ end <> _ => destruct x; discriminate end.
  - cbn [append fst snd]. split; [exact I|]. match goal with |- match ?x with _ => _ end <> _ => destruct x; discriminate end.
Qed.
Lemma encode_resolver e b : enc_resolver (fst (fst (encode_to_buffer e b))) = enc_resolver e.
Proof. unfold encode_to_buffer. destruct (encode_steps (enc_steps e) b) as [[l b'] r]. reflexivity. Qed.

Section Crash.
Variable cf : config.
Variable now0 : N.
Notation prim := (prim cf).
Notation reach := (reach cf now0).

(** ** What the client holds was validated *)
Definition J5 (x : ghost * client) : Prop := let '(g, s) := x in Forall (fun k => kowner k = BY_USER \/ is_request (snd k) = false) (K g s).
Lemma is_request_bare p : is_request (bare p) = is_request p.
Proof. destruct p; reflexivity. Qed.
Lemma reach_J5 g s : reach (g, s) -> ok s -> J5 (g, s).
Proof.
  intros R Ok. refine (reach_inv cf now0 J5 _ (fun s now _ _ J => J) _ (g, s) R Ok).
  - constructor.
  - clear. intros g s g' s' R Ok Ok' J P. destruct (reach_J1 cf now0 _ _ R Ok) as (ND & _).
    destruct (prim_flow cf _ _ _ _ Ok Ok' ND P) as [(Hp & _)|(o & Hp & _ & _ & Ho)]; (eapply Permutation_Forall; [symmetry; exact Hp|]); [exact J|].
    constructor; [|exact J]. unfold kowner. cbn [identity_of fst snd]. rewrite is_request_bare. destruct Ho as [[Ho _]|(_ & Ho & _)]; auto.
Qed.
Lemma submitted_valid g s o : reach (g, s) -> ok s -> In o (submitted (c_out s)) ->
  (is_request (op_packet o) = true /\ validate_packet (op_packet o) = true) \/ is_disconnect (op_packet o) = true.
Proof.
  intros R Ok H. apply in_submitted, in_split in H as (x & y & E). destruct (event_cause cf now0 _ _ _ _ _ R Ok E) as (g1 & s1 & g2 & s2 & d1 & d2 & x' & R1 & Ok1 & R2 & Ok2 & C & _).
  inversion C; subst; try discriminate; auto.
Qed.
Lemma topic_bare p : topic_ok (bare p) <-> topic_ok p.
Proof. destruct p; reflexivity. Qed.
Lemma held_topic g s o : reach (g, s) -> ok s -> In o (held g s) -> topic_ok (op_packet o).
Proof.
  intros R Ok H. pose proof (reach_J5 _ _ R Ok) as J. unfold J5 in J. rewrite Forall_forall in J. specialize (J _ (held_K _ _ _ H)). destruct J as [J|J].
  - destruct (user_submitted cf now0 _ _ _ R Ok (held_K _ _ _ H) J) as (o0 & H1 & H2). unfold identity_of in H2. injection H2 as _ _ E. apply topic_bare. rewrite <- E. apply topic_bare.
    destruct (submitted_valid _ _ _ R Ok H1) as [[_ V]|V]; [|destruct (op_packet o0); try exact I; discriminate]. destruct (op_packet o0); try exact I. cbn [topic_ok validate_packet] in *.
    intros Ht. unfold validate_publish in V. rewrite Ht in V. cbn [len length N.of_nat N.eqb] in V. destruct (2 <? pb_qos v); [discriminate|]. destruct ((pb_qos v =? 0) && pb_duplicate v); [discriminate|].
    destruct ((pb_qos v =? 0) && negb (pb_packet_id v =? 0)); discriminate.
  - cbn [snd identity_of] in J. rewrite is_request_bare in J. destruct (op_packet o); try exact I; discriminate.
Qed.
Lemma set_id_topic id p : topic_ok p -> topic_ok (set_packet_id id p).
Proof. destruct p; exact (fun H => H). Qed.

Definition J6 (x : ghost * client) : Prop := let '(g, s) := x in sound_encoder (c_enc s) /\ ng_alias_maximum_to_server (c_neg s) < 65536.
Lemma or_else16_range o d : d < 65536 -> or_else16 o d < 65536.
Proof. intros H. destruct o; cbn [or_else16]; [apply N.mod_lt; lia|exact H]. Qed.
Lemma reset_sound b max : max < 65536 -> sound_resolver (out_reset (out_new b) max).
Proof. intros H. destruct b; cbn; auto. destruct (0 <? max); cbn; auto. repeat split; [exact H|apply N.le_0_l|constructor]. Qed.
Lemma bind_topic o s o' s1 : bind_packet_id o s = Some (o', s1) -> topic_ok (op_packet o) -> topic_ok (op_packet o') /\ c_enc s1 = c_enc s /\ c_neg s1 = c_neg s.
Proof. intros H Ht. apply bind_eq in H as [(-> & -> & _)|(id & _ & _ & -> & ->)]; repeat split; try assumption. apply set_id_topic, Ht. Qed.
Lemma finish_encneg now o s : c_enc (finish_operation cf now o s) = c_enc s /\ c_neg (finish_operation cf now o s) = c_neg s.
Proof.
  assert (forall b r s, c_enc (crash_unless b r s) = c_enc s /\ c_neg (crash_unless b r s) = c_neg s) as Hcu by (intros [|] r s0; [auto|cbn [crash_unless]; rewrite crash_eq; auto]).
  unfold finish_operation. change (c_enc (emit ?a (set_curop None ?x))) with (c_enc x). change (c_neg (emit ?a (set_curop None ?x))) with (c_neg x).
  assert (c_enc (on_outbound (op_packet o) s) = c_enc s /\ c_neg (on_outbound (op_packet o) s) = c_neg s) as [E1 E2].
  { unfold on_outbound. destruct (is_acked_publish (op_packet o)); [|auto]. exact (Hcu _ _ _). }
  generalize dependent (on_outbound (op_packet o) s). intros s1 E1 E2. destruct (requires_ack (op_packet o)).
  - match goal with |- context [crash_unless ?b ?r s1] => destruct (Hcu b r s1) as [C1 C2]; generalize dependent (crash_unless b r s1) end. intros s2 C1 C2.
    match goal with |- context [change_statistics true true ?a ?b] => destruct (cs_shape true true a b) as [x Hx]; destruct (change_statistics true true a b) as [o' s3]; cbn [snd] in Hx; subst s3 end.
    split; [transitivity (c_enc s2); [reflexivity|congruence]|transitivity (c_neg s2); [reflexivity|congruence]].
  - destruct (is_pingreq (op_packet o)); split; assumption.
Qed.
Lemma reach_J6 g s : reach (g, s) -> ok s -> J6 (g, s).
Proof.
  intros R Ok. refine (reach_inv cf now0 J6 _ (fun s now _ _ J => J) _ (g, s) R Ok).
  - split; [exact I|]. change (0 < 65536). lia.
  - clear. intros g s g' s' R Ok Ok' [J1 J2] P. pose proof (held_topic g s) as Ht. specialize (fun o => Ht o R Ok).
    inversion P; subst; clear P; repeat match goal with H : ok _ -> _ |- _ => specialize (H Ok) end; try (split; [exact J1|exact J2]).
    + match goal with H : hush _ _ |- _ => destruct H as [H _]; apply core_inv in H end. assert (c_neg s' = c_neg s /\ c_enc s' = c_enc s) as [E1 E2] by (tauto). unfold J6. rewrite E1, E2. auto.
    + exfalso. exact (not_ok_crash _ _ Ok').
    + split; [exact J1|]. change (0 < 65536). lia.
    + split; [exact J1|]. change (or_else16 (ca_topic_alias_maximum v) (ng_alias_maximum_to_server (c_neg s)) < 65536). apply or_else16_range, J2.
    + split; [|exact J2]. unfold sound_encoder. cbn [enc_resolver set_c_enc c_enc]. apply reset_sound, J2.
    + split; [|exact J2]. unfold sound_encoder. change (c_enc (set_c_enc e s)) with e. match goal with H : encode_to_buffer _ ?b = _ |- _ => pose proof (encode_resolver (c_enc s) b) as E; rewrite H in E end.
      cbn [fst] in E. rewrite E. exact J1.
    + destruct (enqueue_eq p override s) as (o & x & -> & _). split; [exact J1|exact J2].
    + destruct (publish_received_eq acquire v s) as (m & c & [(_ & -> & _)|[(_ & _ & ->)|(_ & _ & _ & ->)]] & _); (split; [exact J1|exact J2]).
    + destruct (manual_core_eq control s) as (m & x & -> & [(id & _ & _ & ->)|(_ & r & -> & _)]); (split; [exact J1|exact J2]).
    + unfold reset_manual. destruct (mc s); (split; [exact J1|exact J2]).
    + destruct (cs_shape inc una o s) as [x ->]. split; [exact J1|exact J2].
    + destruct (incomplete_eq s) as (l & x & -> & _). split; [exact J1|exact J2].
    + match goal with H : bind_packet_id _ _ = _ |- _ => apply bind_topic in H as (B1 & B2 & B3) end; [|apply Ht, queued_held; match goal with H : queued s = _ |- _ => rewrite H end; left; reflexivity].
      split; [|change (ng_alias_maximum_to_server (c_neg s1) < 65536); rewrite B3; exact J2]. change (sound_encoder e).
      match goal with H : append_packet _ _ = _ |- _ => pose proof (append_sound (c_enc s1) (op_packet o')) as A; rewrite H in A; rewrite B2 in A; destruct (A J1 B1); assumption end.
    + match goal with H : bind_packet_id _ _ = _ |- _ => apply bind_topic in H as (B1 & B2 & B3) end; [|apply Ht, queued_held; match goal with H : queued s = _ |- _ => rewrite H end; left; reflexivity].
      split; [|change (ng_alias_maximum_to_server (c_neg s1) < 65536); rewrite B3; exact J2]. change (sound_encoder e).
      match goal with H : append_packet _ _ = _ |- _ => pose proof (append_sound (c_enc s1) (op_packet o')) as A; rewrite H in A; rewrite B2 in A; destruct (A J1 B1); assumption end.
    + destruct (finish_encneg now o s) as [E1 E2]. unfold J6. rewrite E1, E2. auto.
Qed.

(** ** The lifecycle state is the one the events announced *)
Definition J7 (x : ghost * client) : Prop := let '(g, s) := x in
  life s = phase_of (c_out s) /\ (life s = LS_CONNECTED -> current s = CONNECTED \/ current s = CLEAN_DISCONNECT).
Lemma finish_ctl now o s : c_ctl (finish_operation cf now o s) = c_ctl s.
Proof.
  assert (forall b r s, c_ctl (crash_unless b r s) = c_ctl s) as Hcu by (intros [|] r s0; [auto|cbn [crash_unless]; rewrite crash_eq; auto]).
  unfold finish_operation. change (c_ctl (emit ?a (set_curop None ?x))) with (c_ctl x).
  assert (c_ctl (on_outbound (op_packet o) s) = c_ctl s) as E1 by (unfold on_outbound; destruct (is_acked_publish (op_packet o)); [exact (Hcu _ _ _)|auto]).
  generalize dependent (on_outbound (op_packet o) s). intros s1 E1. destruct (requires_ack (op_packet o)).
  - match goal with |- context [crash_unless ?b ?r s1] => pose proof (Hcu b r s1) as C1; generalize dependent (crash_unless b r s1) end. intros s2 C1.
    match goal with |- context [change_statistics true true ?a ?b] => destruct (cs_shape true true a b) as [x Hx]; destruct (change_statistics true true a b) as [o' s3]; cbn [snd] in Hx; subst s3 end.
    transitivity (c_ctl s2); [reflexivity|congruence].
  - destruct (is_pingreq (op_packet o)); assumption.
Qed.
Lemma reach_J7 g s : reach (g, s) -> ok s -> J7 (g, s).
Proof.
  intros R Ok. refine (reach_inv cf now0 J7 _ (fun s now _ _ J => J) _ (g, s) R Ok).
  - split; [reflexivity|discriminate].
  - clear. intros g s g' s' R Ok Ok' [J1 J2] P.
    inversion P; subst; clear P; repeat match goal with H : ok _ -> _ |- _ => specialize (H Ok) end; try (split; [exact J1|exact J2]); try (split; [reflexivity|discriminate]).
    + match goal with H : hush _ _ |- _ => destruct H as [H _]; apply core_inv in H end. assert (current s' = current s /\ life s' = life s /\ c_out s' = c_out s) as (E1 & E2 & E3) by tauto.
      unfold J7. rewrite E1, E2, E3. auto.
    + exfalso. exact (not_ok_crash _ _ Ok').
    + destruct x; try discriminate; (split; [exact J1|exact J2]).
    + split; [reflexivity|]. intros _. left. tauto.
    + split; [|exact J2]. change (life s = LS_NONE). tauto.
    + split; [exact J1|]. change (life s = LS_CONNECTED -> c = CONNECTED \/ c = CLEAN_DISCONNECT). intros L. specialize (J2 L).
      match goal with H : edge _ _ _ c |- _ => destruct c; cbn [edge] in H end; auto; exfalso; intuition congruence.
    + destruct (enqueue_eq p override s) as (o & x & -> & _). split; [exact J1|exact J2].
    + destruct (publish_received_eq acquire v s) as (m & c & [(_ & -> & _)|[(_ & _ & ->)|(_ & _ & _ & ->)]] & _); (split; [exact J1|exact J2]).
    + destruct (manual_core_eq control s) as (m & x & -> & [(id & _ & _ & ->)|(_ & r & -> & _)]); (split; [exact J1|exact J2]).
    + unfold reset_manual. destruct (mc s); (split; [exact J1|exact J2]).
    + destruct (cs_shape inc una o s) as [x ->]. split; [exact J1|exact J2].
    + destruct (incomplete_eq s) as (l & x & -> & _). split; [exact J1|exact J2].
    + match goal with H : bind_packet_id _ _ = _ |- _ => apply bind_eq in H as [(-> & -> & _)|(id & _ & _ & -> & ->)] end; (split; [exact J1|exact J2]).
    + match goal with H : bind_packet_id _ _ = _ |- _ => apply bind_eq in H as [(-> & -> & _)|(id & _ & _ & -> & ->)] end; (split; [exact J1|exact J2]).
    + unfold J7, life, current. rewrite finish_ctl, finish_out. split; [exact J1|exact J2].
Qed.

(** ** Which assertions can fail *)
Lemma crash_unless_some b r s x : c_crash s = Some x -> c_crash (crash_unless b r s) = Some x.
Proof. intros H. destruct b; [exact H|]. cbn [crash_unless]. unfold crash. rewrite H. exact H. Qed.
Lemma finish_crash now o s x : c_crash s = Some x -> c_crash (finish_operation cf now o s) = Some x.
Proof.
  intros H. unfold finish_operation. change (c_crash (emit ?a (set_curop None ?x))) with (c_crash x).
  assert (c_crash (on_outbound (op_packet o) s) = Some x) as E1 by (unfold on_outbound; destruct (is_acked_publish (op_packet o)); [exact (crash_unless_some _ _ _ _ H)|exact H]).
  generalize dependent (on_outbound (op_packet o) s). intros s1 E1. destruct (requires_ack (op_packet o)).
  - match goal with |- context [crash_unless ?b ?r s1] => pose proof (crash_unless_some b r s1 x E1) as C1; generalize dependent (crash_unless b r s1) end. intros s2 C1.
    match goal with |- context [change_statistics true true ?a ?b] => destruct (cs_shape true true a b) as [y Hx]; destruct (change_statistics true true a b) as [o' s3]; cbn [snd] in Hx; subst s3 end.
    exact C1.
  - destruct (is_pingreq (op_packet o)); exact E1.
Qed.
Lemma finish_fine now o s : ok s -> (is_acked_publish (op_packet o) = true -> 0 < tokens s) -> (requires_ack (op_packet o) = true -> packet_id (op_packet o) <> 0) ->
  c_crash (finish_operation cf now o s) = None.
Proof.
  intros Ok Ht Hi. pose proof (finish_eq cf now o s Ht Hi) as F. cbv zeta in F. destruct (requires_ack (op_packet o)).
  - destruct F as (o' & x & -> & _). destruct (is_acked_publish (op_packet o)); exact Ok.
  - destruct F as (x & ->). exact Ok.
Qed.
Lemma prim_crash g s g' s' : rl_ok s -> prim (g, s) (g', s') ->
  c_crash s' = c_crash s \/ (ok s /\ exists r, bad r g s /\ s' = crash r s).
Proof.
  intros Rl P. inversion P; subst; clear P; try (left; reflexivity).
  - left. match goal with H : hush _ _ |- _ => destruct H as [_ H]; destruct (H Rl); assumption end.
  - destruct (c_crash s) as [x|] eqn:E; [left; unfold crash; rewrite E; exact E|]. right. split; [exact E|]. eauto.
  - destruct (enqueue_eq p override s) as (o & x & -> & _). left; reflexivity.
  - destruct (publish_received_eq acquire v s) as (m & c & [(_ & -> & _)|[(_ & _ & ->)|(_ & _ & _ & ->)]] & _); left; reflexivity.
  - destruct (manual_core_eq control s) as (m & x & -> & [(id & _ & _ & ->)|(_ & r & -> & _)]); left; reflexivity.
  - unfold reset_manual. destruct (mc s); left; reflexivity.
  - destruct (cs_shape inc una o s) as [x ->]. left; reflexivity.
  - destruct (incomplete_eq s) as (l & x & -> & _). left; reflexivity.
  - match goal with H : bind_packet_id _ _ = _ |- _ => apply bind_eq in H as [(-> & -> & _)|(id & _ & _ & -> & ->)] end; left; reflexivity.
  - match goal with H : bind_packet_id _ _ = _ |- _ => apply bind_eq in H as [(-> & -> & _)|(id & _ & _ & -> & ->)] end; left; reflexivity.
  - left. destruct (c_crash s) as [x|] eqn:E; [apply finish_crash, E|]. match goal with H : ok s -> _ |- _ => destruct (H E) as (_ & _ & _ & _ & _ & Ht & Hi) end. apply finish_fine; assumption.
Qed.
(** a failed assertion comes from a state in which nothing had failed yet *)
Lemma crash_origin g s r : reach (g, s) -> c_crash s = Some r ->
  exists g1 s1 d, reach (g1, s1) /\ ok s1 /\ bad r g1 s1 /\ c_out s = d ++ c_out s1.
Proof.
  intros R. change s with (snd (g, s)). generalize dependent (g, s). clear g s. induction 1 as [|s now R IH|[g s] [g' s'] R IH P]; cbn [snd] in *.
  - discriminate.
  - intros C. destruct (IH C) as (g1 & s1 & d & H1 & H2 & H3 & H4). exists g1, s1, (I_TICK now :: d). repeat (split; [assumption|]).
    change (c_out (emit ?a s)) with (a :: c_out s). rewrite H4. reflexivity.
  - intros C. destruct (prim_trace cf _ _ _ _ P) as (d' & Hd & _). destruct (prim_crash _ _ _ _ (reach_rl _ _ _ R) P) as [E|(Ok & r' & B & ->)].
    + rewrite E in C. destruct (IH C) as (g1 & s1 & d & H1 & H2 & H3 & H4). exists g1, s1, (d' ++ d). repeat (split; [assumption|]). rewrite Hd, H4, app_assoc. reflexivity.
    + unfold crash in C. unfold ok in Ok. rewrite Ok in C. injection C as ->. exists g, s, d'. repeat (split; [assumption|]). rewrite <- Hd. reflexivity.
Qed.
Lemma crash_reasons g s r : reach (g, s) -> ok s -> bad r g s ->
  (r = CR_LIFECYCLE /\ phase_of (c_out s) = LS_CONNECTING /\ exists v y, c_out s = I_PACKET (P_DISCONNECT v) :: y) \/
  (r = CR_RECEIVE_MAXIMUM /\ exists o, curop s = Some o /\ is_acked_publish (op_packet o) = true /\ tokens s = 0).
Proof.
  intros R Ok B. destruct r; cbn [bad] in B; try contradiction.
  - left. split; [reflexivity|]. destruct (reach_J7 _ _ R Ok) as [H1 H2]. destruct B as [[L B]|[L B]]; [rewrite <- H1; auto|]. exfalso. specialize (H2 L). intuition congruence.
  - right. auto.
  - exfalso. destruct B as (o & Hc & Hr & Hi). destruct (reach_J2 cf now0 _ _ R Ok) as (_ & _ & _ & _ & C). exact (C _ Hc Hr Hi).
  - exfalso. destruct B as (o & q & o' & s1 & e & Hq & Hb & Ha). apply bind_topic in Hb as (B1 & B2 & _).
    2: { apply (held_topic g s _ R Ok), queued_held. rewrite Hq. left. reflexivity. }
    destruct (reach_J6 _ _ R Ok) as [J _]. change (c_enc (set_queued q s)) with (c_enc s) in B2. rewrite B2 in Ha. destruct (append_sound (c_enc s) (op_packet o') J B1) as [_ H]. rewrite Ha in H. contradiction.
  - exfalso. destruct B as (Hc & k & u & Hi & F). destruct (reach_J2 cf now0 _ _ R Ok) as (T & Q & _). destruct Hi as [Hi|[Hi Hh]].
    + destruct (T Hc _ _ Hi) as (o & H1 & H2 & _). exact (find_op_none _ _ _ F H1 H2).
    + destruct (Q Hc _ _ Hi) as [H1 _]. rewrite Hh, app_nil_r in H1. apply in_map_iff in H1 as (o & H2 & H1). exact (find_op_none _ _ _ F H1 H2).
Qed.
End Crash.
