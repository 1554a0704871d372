From Verif Require Import Base BaseLemmas Vli_Spec Vli_Lemmas Mqtt5_Views Mqtt5_Spec Mqtt5_Lemmas Topic_Model Topic_Spec Topic_Proofs TopicAlias_Model TopicAlias_Proofs
  Encoder5_Model Encoder5_Spec Encoder5_Proofs Validate5_Model Validate5_Spec.
Ltac Zify.zify_post_hook ::= idtac.

(** ** What validation accepts *)
Lemma if_false (b c : bool) : (if b then false else c) = true <-> b = false /\ c = true.
Proof. destruct b; split; [discriminate|intros [? _]; discriminate|auto|intros [_ ?]; auto]. Qed.
Lemma opt_all_spec {A} f (o : option A) : opt_all f o = true <-> forall x, o = Some x -> f x = true.
Proof. destruct o as [a|]; cbn; split; [intros H x [= <-]; exact H|auto|discriminate|reflexivity]. Qed.
Lemma validate_text_spec n s : validate_text n s = true <-> len s < n /\ mqtt_text s.
Proof. unfold validate_text. rewrite if_false, validate_utf8_spec, N.leb_gt. tauto. Qed.
Lemma text_spec s : validate_text 65536 s = true <-> text s.
Proof. rewrite validate_text_spec. unfold text. split; intros [H1 H2]; split; auto; lia. Qed.
Lemma otext_spec o : opt_all (validate_text 65536) o = true <-> otext o.
Proof. rewrite opt_all_spec. unfold otext. split; intros H x E; apply text_spec; auto. Qed.
Lemma users_spec l : validate_user_properties l = true <-> legal_properties l.
Proof.
  unfold validate_user_properties, legal_properties. rewrite if_false, N.ltb_ge, forallb_forall, Forall_forall. unfold max_list.
  split; intros [H1 H2]; (split; [exact H1|]); intros p Hp; specialize (H2 p Hp).
  - rewrite !if_false, !negb_false_iff, !N.ltb_ge, !validate_utf8_spec in H2. unfold text. tauto.
  - rewrite !if_false, !negb_false_iff, !N.ltb_ge, !validate_utf8_spec. unfold text in H2. tauto.
Qed.
Lemma topic_text t : topic_name t -> t <> [] /\ mqtt_text t /\ len t <= 65535.
Proof. intros (H1 & H2 & H3 & _). auto. Qed.
Lemma len_eq0 (t : bytes) : (len t =? 0) = false <-> t <> [].
Proof. rewrite N.eqb_neq. destruct t; [change (len (@nil N)) with 0; split; [lia|congruence]|]. rewrite len_cons. split; [discriminate|lia]. Qed.
Lemma format_spec o p : opt_all (fun f => f <=? 1) o = true /\ opt_all (fun f => negb (f =? 1) || validate_utf8_text p) o = true <->
  o = None \/ o = Some 0 \/ (o = Some 1 /\ mqtt_text p).
Proof.
  destruct o as [f|]; cbn [opt_all]; [|tauto]. rewrite orb_true_iff, negb_true_iff, validate_utf8_spec, N.leb_le, N.eqb_neq. split.
  - intros [H1 H2]. destruct (N.eq_dec f 1) as [->|]; [right; right; split; [reflexivity|tauto]|right; left; f_equal; lia].
  - intros [?|[E|[E H]]]; [discriminate| |]; injection E as ->; (split; [lia|]); [left; lia|right; exact H].
Qed.
Lemma alias_spec o : opt_all (fun a => negb (a =? 0)) o = true <-> o <> Some 0.
Proof. destruct o as [a|]; cbn [opt_all]; [|split; [discriminate|reflexivity]]. rewrite negb_true_iff, N.eqb_neq. split; congruence. Qed.
Lemma short_spec o : opt_all (fun d => len d <? 65535) o = true <-> short o.
Proof. rewrite opt_all_spec. unfold short. split; intros H x E; specialize (H x E); [apply N.ltb_lt in H|apply N.ltb_lt]; lia. Qed.
Lemma short_text o : opt_all (validate_text 65535) o = true <-> otext o /\ short o.
Proof.
  rewrite opt_all_spec. unfold otext, short, text. split.
  - intros H. split; intros s E; specialize (H s E); apply validate_text_spec in H as [H1 H2]; [split; auto|]; lia.
  - intros [H1 H2] s E. apply validate_text_spec. specialize (H1 s E) as [_ H1]. specialize (H2 s E). split; auto. lia.
Qed.
Lemma publish_spec v : validate_publish v = true <-> legal_publish v.
Proof.
  unfold validate_publish, legal_publish.
  rewrite !if_false, !negb_false_iff, validate_utf8_spec, valid_topic_spec, users_spec, short_spec, alias_spec, !short_text, len_eq0.
  rewrite (opt_all_spec is_valid_topic). pose proof (format_spec (pb_payload_format v) (pb_payload v)) as Hf.
  assert (Hq : (2 <? pb_qos v) = false <-> pb_qos v <= 2) by apply N.ltb_ge.
  assert (Hd : ((pb_qos v =? 0) && pb_duplicate v = false /\ (pb_qos v =? 0) && negb (pb_packet_id v =? 0) = false) <->
               (pb_qos v = 0 -> pb_duplicate v = false /\ pb_packet_id v = 0)).
  { destruct (N.eqb_spec (pb_qos v) 0); cbn [andb]; [|tauto]. rewrite negb_false_iff, N.eqb_eq. tauto. }
  assert (Hi : (len (pb_subscription_identifiers v) =? 0) = true <-> pb_subscription_identifiers v = []).
  { destruct (pb_subscription_identifiers v); [tauto|]. rewrite len_cons, N.eqb_eq. split; [lia|discriminate]. }
  assert (Hr : (forall x, pb_response_topic v = Some x -> is_valid_topic x = true) <-> (forall t, pb_response_topic v = Some t -> topic_name t)).
  { split; intros H x E; apply valid_topic_spec; auto. }
  assert (Ho : (forall t, pb_response_topic v = Some t -> topic_name t) -> otext (pb_response_topic v)).
  { intros H x E. specialize (H x E). apply topic_text in H. unfold text. tauto. }
  pose proof (topic_text (pb_topic v)) as Ht. rewrite Hi, Hr, Hq. tauto.
Qed.
Lemma flag_spec o : opt_all (fun n => n <=? 1) o = true <-> flag o.
Proof.
  unfold flag. destruct o as [n|]; cbn [opt_all]; [|tauto]. rewrite N.leb_le. split.
  - intros H. assert (n = 0 \/ n = 1) as [-> | ->] by lia; auto.
  - intros [?|[E|E]]; [discriminate| |]; injection E as ->; lia.
Qed.
Lemma will_same w : will_view w = will_message w. Proof. reflexivity. Qed.
Lemma connect_spec v : validate_connect v = true <-> legal_connect v.
Proof.
  unfold validate_connect, legal_connect. rewrite !if_false, !negb_false_iff, text_spec, otext_spec, !alias_spec, !flag_spec, users_spec.
  assert (Hp : opt_all (fun p => len p <=? 65535) (cn_password v) = true <-> (forall s, cn_password v = Some s -> len s <= 65535)).
  { rewrite opt_all_spec. split; intros H x E; apply N.leb_le; auto. }
  assert (Hw : opt_all (fun w => validate_publish (will_view w) && (len (wl_payload w) <=? 65535)) (cn_will v) = true <->
               (forall w, cn_will v = Some w -> legal_publish (will_message w) /\ len (wl_payload w) <= 65535)).
  { rewrite opt_all_spec. split; intros H x E; specialize (H x E); [apply andb_true_iff in H|apply andb_true_iff]; rewrite publish_spec, N.leb_le in *; exact H. }
  assert (Ha : match cn_auth_method v, cn_auth_data v with None, None => true | _, _ => false end = true <-> cn_auth_method v = None /\ cn_auth_data v = None).
  { destruct (cn_auth_method v), (cn_auth_data v); split; try discriminate; try tauto; intros [? ?]; discriminate. }
  rewrite Hp, Hw, Ha. tauto.
Qed.
Lemma shared_filter_spec t : is_shared_subscription t = true <-> shared_filter t.
Proof. apply shared_spec. Qed.
Lemma filter_text t : topic_filter t -> mqtt_text t /\ len t <= 65535 /\ t <> [].
Proof. intros (H1 & H2 & H3 & _). auto. Qed.
Lemma subscription_spec s : validate_subscription s = true <-> legal_subscription s.
Proof.
  unfold validate_subscription, legal_subscription. rewrite !if_false, !negb_false_iff, validate_utf8_spec, valid_filter_spec, !N.ltb_ge.
  assert (Hn : negb (sn_no_local s && is_shared_subscription (sn_topic_filter s)) = true <-> (sn_no_local s = true -> ~ shared_filter (sn_topic_filter s))).
  { rewrite negb_true_iff, andb_false_iff, <- shared_filter_spec. destruct (sn_no_local s), (is_shared_subscription (sn_topic_filter s)); split; try tauto; try discriminate;
      intros; try (destruct H; discriminate); exfalso; apply H; reflexivity. }
  pose proof (filter_text (sn_topic_filter s)). rewrite Hn. tauto.
Qed.
Lemma count_spec {A} (l : list A) : (len l =? 0) = false /\ (max_list <? len l) = false <-> 1 <= len l <= 1024.
Proof. unfold max_list. rewrite N.eqb_neq, N.ltb_ge. lia. Qed.
Lemma forallb_spec {A} (f : A -> bool) P l : (forall x, f x = true <-> P x) -> (forallb f l = true <-> Forall P l).
Proof. intros H. rewrite forallb_forall, Forall_forall. split; intros G x Hx; apply H; auto. Qed.
Lemma subscribe_spec v : validate_subscribe v = true <-> legal_subscribe v.
Proof.
  unfold validate_subscribe, legal_subscribe. rewrite !if_false, !negb_false_iff, (forallb_spec _ _ _ subscription_spec), users_spec, <- count_spec.
  assert (Hi : opt_all (fun i => i <=? max_vli) (sb_subscription_identifier v) = true <-> (forall i, sb_subscription_identifier v = Some i -> i <= 268435455)).
  { rewrite opt_all_spec. unfold max_vli. split; intros H x E; apply N.leb_le; auto. }
  rewrite Hi. tauto.
Qed.
Lemma unsubscribe_spec v : validate_unsubscribe v = true <-> legal_unsubscribe v.
Proof.
  unfold validate_unsubscribe, legal_unsubscribe. rewrite !if_false, !negb_false_iff, users_spec, <- count_spec.
  rewrite (forallb_spec _ topic_filter); [tauto|]. intros t. rewrite andb_true_iff, validate_utf8_spec, valid_filter_spec. pose proof (filter_text t). tauto.
Qed.
Lemma disconnect_spec v : validate_disconnect v = true <-> legal_disconnect v.
Proof.
  unfold validate_disconnect, legal_disconnect. rewrite !if_false, !negb_false_iff, otext_spec.
  assert (He : existsb (N.eqb (dc_reason_code v)) disconnect_reason_codes = true <-> In (dc_reason_code v) disconnect_reasons).
  { rewrite existsb_exists. split; [intros (x & H1 & H2); apply N.eqb_eq in H2; rewrite H2; exact H1|]. intros H. exists (dc_reason_code v). split; [exact H|apply N.eqb_refl]. }
  rewrite He. destruct (dc_server_reference v).
  - split; [intros (_ & _ & ?); discriminate|intros (_ & _ & ? & _); discriminate].
  - rewrite users_spec. tauto.
Qed.

(** ** Validated packets fit the wire *)
Lemma upairs_of l : legal_properties l -> upbytes l -> upairs l.
Proof.
  intros [_ H1] H2. unfold upairs. apply Forall_forall. intros p Hp. rewrite Forall_forall in H1. unfold upbytes in H2. rewrite Forall_forall in H2.
  specialize (H1 p Hp) as [[A _] [B _]]. specialize (H2 p Hp) as [C D]. unfold pair_ok. repeat split; auto; lia.
Qed.
Lemma ostr_text o : otext o -> obytes o -> ostr o.
Proof. intros H1 H2 x E. specialize (H1 x E) as [A _]. specialize (H2 x E). split; auto. lia. Qed.
Lemma ostr_short o : short o -> obytes o -> ostr o.
Proof. intros H1 H2 x E. specialize (H1 x E). specialize (H2 x E). split; auto. lia. Qed.
Lemma o8_format v : legal_publish v -> o8 (pb_payload_format v).
Proof. intros (_ & _ & _ & _ & H & _) x E. rewrite E in H. destruct H as [?|[H|[H _]]]; [discriminate| |]; injection H as ->; lia. Qed.
Lemma o8_flag o : flag o -> o8 o.
Proof. intros [->|[->| ->]] x E; [discriminate| |]; injection E as <-; lia. Qed.
Lemma validated_fits p : typed p -> validate_packet p = true -> has_packet_id p -> fields_fit p.
Proof.
  destruct p; cbn [typed validate_packet has_packet_id fields_fit]; intros T V H; try discriminate; try exact I.
  - apply connect_spec in V. destruct V as (V1 & V2 & V3 & _ & _ & V4 & V5 & V6 & V7 & V8 & V9).
    destruct T as (T1 & T2 & T3 & T4 & T5 & T6 & T7 & T8 & T9 & T10 & T11).
    assert (Hw : will_fields_opt (cn_will_delay v) (cn_will v)).
    { destruct (cn_will v) as [w|] eqn:Ew; [|exact I]. destruct (V4 w eq_refl) as [W L]. specialize (T10 w eq_refl).
      destruct T10 as (A1 & A2 & A3 & A4 & A5 & A6 & A7). pose proof (o8_format _ W) as Hf. destruct W as (B1 & _ & B2 & _ & _ & B3 & B4 & B5 & _ & B6 & B7 & B8).
      apply topic_text in B2 as (_ & _ & B2). cbn [will_message pb_qos pb_topic pb_payload_format pb_response_topic pb_correlation_data pb_content_type pb_user_properties] in *.
      unfold will_fields_opt, will_fields. split; [exact B1|]. split; [split; [lia|exact A2]|]. split; [split; [lia|exact A1]|]. split; [exact T9|]. split; [exact Hf|].
      split; [exact A3|]. split; [apply ostr_short; auto|]. split; [apply ostr_short; auto|]. split; [apply ostr_short; auto|]. apply upairs_of; auto. }
    assert (Hpw : ostr (cn_password v)). { intros x E. split; [specialize (V3 x E); lia|exact (T4 x E)]. }
    unfold connect_fields. split; [exact T1|]. split; [split; [destruct V1; lia|exact T2]|]. split; [exact Hw|]. split; [apply ostr_text; auto|]. split; [exact Hpw|].
    split; [exact T5|]. split; [exact T6|]. split; [exact T8|]. split; [exact T7|]. split; [apply o8_flag; auto|]. split; [apply o8_flag; auto|].
    rewrite V8, V9. split; [intros x E; discriminate|]. split; [intros x E; discriminate|]. apply upairs_of; auto.
  - apply publish_spec in V. pose proof (o8_format _ V) as Hf. destruct V as (V1 & V2 & V3 & V4 & V5 & V6 & V7 & V8 & V9 & V10 & V11 & V12).
    destruct T as (T1 & T2 & T3 & T4 & T5 & T6 & T7 & T8 & T9). apply topic_text in V3 as (_ & _ & V3).
    unfold publish_fields. split; [exact V1|]. split.
    { destruct (N.eqb_spec (pb_qos v) 0) as [E|E]; [apply (V2 E)|]. destruct H; [contradiction|]. split; auto. }
    split; [exact T2|]. split; [split; [lia|exact T3]|]. split; [exact Hf|]. split; [exact T4|]. split; [exact T5|]. split; [apply ostr_short; auto|].
    split; [apply ostr_short; auto|]. rewrite V9. split; [constructor|]. split; [apply ostr_short; auto|]. apply upairs_of; auto.
  - destruct v as [id [|?] [?|] [|? ?]]; try discriminate. cbn [pa_packet_id] in *. unfold puback_fields. cbn [pa_packet_id pa_reason_code pa_reason_string pa_user_properties].
    split; [split; auto|]. split; [lia|]. split; [intros x E; discriminate|constructor].
  - apply subscribe_spec in V as (_ & V1 & V2 & V3). destruct T as (T1 & T2 & T3). unfold subscribe_fields. split; [split; auto|]. split; [|split; [exact V2|apply upairs_of; auto]].
    rewrite Forall_forall in *. intros s Hs. specialize (V1 s Hs) as (A1 & A2 & A3 & _). apply filter_text in A1 as (_ & A1 & _).
    split; [split; [lia|apply T2; exact Hs]|]. split; lia.
  - apply unsubscribe_spec in V as (_ & V1 & V2). destruct T as (T1 & T2 & T3). unfold unsubscribe_fields. split; [split; auto|]. split; [|apply upairs_of; auto].
    rewrite Forall_forall in *. intros s Hs. specialize (V1 s Hs) as A1. apply filter_text in A1 as (_ & A1 & _). split; [lia|apply T2; exact Hs].
  - apply disconnect_spec in V as (V1 & V2 & V3 & V4). destruct T as (T1 & T2 & T3). unfold disconnect_fields. split.
    { unfold disconnect_reasons in V1. cbn [In] in V1. repeat destruct V1 as [V1|V1]; try contradiction; lia. }
    split; [exact T1|]. split; [apply ostr_text; auto|]. rewrite V3. split; [intros x E; discriminate|]. apply upairs_of; auto.
Qed.

(** ** Alias resolution keeps a packet within its fields *)
Definition aliases_ok (o : outbound) : Prop := match o with OLru (Some c) _ => Forall (fun e => snd e < 65536) c | _ => True end.
Lemma lru_remove_ok (P : bytes * N -> Prop) t c : Forall P c -> Forall P (lru_remove t c).
Proof. rewrite !Forall_forall. intros H e He. apply H. apply lru_remove_in in He. tauto. Qed.
Lemma removelast_ok {A} (P : A -> Prop) l : Forall P l -> Forall P (removelast l).
Proof. induction l as [|x l IH]; intros H; [constructor|]. apply Forall_cons_iff in H as [H1 H2]. cbn [removelast]. destruct l; [constructor|]. constructor; auto. Qed.
Lemma lru_put_ok max t a c : a < 65536 -> Forall (fun e : bytes * N => snd e < 65536) c -> Forall (fun e : bytes * N => snd e < 65536) (lru_put max t a c).
Proof.
  intros Ha Hc. unfold lru_put. assert (H : Forall (fun e : bytes * N => snd e < 65536) ((t, a) :: lru_remove t c)) by (constructor; [exact Ha|apply lru_remove_ok; exact Hc]).
  destruct (max <? _); [apply removelast_ok|]; exact H.
Qed.
Lemma out_resolve_ok o t al o' a t' : aliases_ok o -> o16 al -> out_resolve o t al = Some (o', a, t') ->
  aliases_ok o' /\ a < 65536 /\ (t' = t \/ t' = []) /\ (match o with OLru _ _ => True | _ => a = 0 \/ al = Some a end).
Proof.
  intros Ho Ha. destruct o as [|l|oc max]; cbn [out_resolve].
  - destruct (len t =? 0); [discriminate|]. intros E; injection E as <- <- <-. repeat split; auto; lia.
  - destruct al as [x|]; [|intros E; injection E as <- <- <-; repeat split; auto; lia].
    specialize (Ha x eq_refl). destruct (x =? 0); [discriminate|]. destruct (len l <=? x - 1); [discriminate|].
    destruct (match match nth_error l (N.to_nat (x - 1)) with Some x0 => x0 | None => None end with Some t0 => bytes_eqb t0 t | None => false end);
      intros E; injection E as <- <- <-; cbn [aliases_ok]; auto.
  - destruct oc as [c|]; [|intros E; injection E as <- <- <-; repeat split; auto; lia]. cbn [aliases_ok] in Ho.
    destruct (max =? 0); [intros E; injection E as <- <- <-; repeat split; auto; lia|]. unfold lru_find.
    destruct (find (key_is t) c) as [e|] eqn:Ef.
    + apply find_some in Ef as [Hi _]. rewrite Forall_forall in Ho. intros E; injection E as <- <- <-. cbn [aliases_ok]. split; [|split; [exact (Ho e Hi)|auto]].
      constructor; [exact (Ho e Hi)|]. apply lru_remove_ok. rewrite Forall_forall. exact Ho.
    + destruct (len c =? max).
      * unfold lru_use_last. destruct (rev c) as [|[old x] r] eqn:Er.
        -- intros E; injection E as <- <- <-. cbn [aliases_ok]. split; [apply lru_put_ok; [lia|constructor]|]. split; [lia|auto].
        -- assert (Hr : Forall (fun e : bytes * N => snd e < 65536) (rev c)) by (apply Forall_rev; exact Ho). rewrite Er in Hr. apply Forall_cons_iff in Hr as [H1 H2]. cbn [snd] in H1.
           intros E; injection E as <- <- <-. cbn [aliases_ok]. split; [apply lru_put_ok; [exact H1|]|split; [exact H1|auto]].
           apply (lru_remove_ok _ old ((old, x) :: rev r)). constructor; [exact H1|]. apply Forall_rev. exact H2.
      * intros E; injection E as <- <- <-. assert (Hm : (len c + 1) mod 65536 < 65536) by (apply N.mod_lt; lia). cbn [aliases_ok].
        split; [apply lru_put_ok; [exact Hm|exact Ho]|]. split; [exact Hm|auto].
Qed.
Lemma out_publish_sent o t al o' t' a' : aliases_ok o -> o16 al -> out_publish o t al = (o', SSent t' a') ->
  aliases_ok o' /\ o16 a' /\ (t' = t \/ t' = []) /\ (lru_resolver o \/ a' = None \/ a' = al).
Proof.
  intros Ho Ha. unfold out_publish. destruct (out_resolve o t al) as [[[o1 a] t1]|] eqn:E; [|discriminate].
  destruct (out_resolve_ok _ _ _ _ _ _ Ho Ha E) as (H1 & H2 & H3 & H4). destruct (N.eqb_spec a 0) as [E0|E0]; cbn [negb].
  - destruct (len t1 =? 0); [discriminate|]. intros F; injection F as <- <- <-. repeat split; auto. intros x Hx; discriminate.
  - intros F; injection F as <- <- <-. split; [exact H1|]. split; [intros x Hx; injection Hx as <-; exact H2|]. split; [exact H3|].
    destruct o; cbn [lru_resolver]; auto; destruct H4; try contradiction; right; right; auto.
Qed.
Lemma out_publish_aliases o t al : aliases_ok o -> o16 al -> aliases_ok (fst (out_publish o t al)).
Proof.
  intros Ho Ha. unfold out_publish. destruct (out_resolve o t al) as [[[o1 a] t1]|] eqn:E; [|exact Ho].
  destruct (out_resolve_ok _ _ _ _ _ _ Ho Ha E) as (H1 & _). destruct (negb (a =? 0)); [exact H1|]. destruct (len t1 =? 0); exact H1.
Qed.
Lemma reset_aliases b max : aliases_ok (out_reset (out_new b) max).
Proof. destruct b; cbn; auto. destruct (0 <? max); cbn; auto. Qed.
Definition enc_aliases (e : encoder) : Prop := match enc_resolver e with Some o => aliases_ok o | None => True end.
Lemma append_aliases e p : enc_aliases e -> op_typed (EAppend p) -> enc_aliases (fst (append_packet e p)).
Proof.
  intros He Ht. destruct p; cbn [append_packet append fst]; try exact He. unfold enc_aliases in He. destruct (enc_resolver e) as [o|] eqn:Er.
  - cbn [op_typed] in Ht. pose proof (out_publish_aliases o (pb_topic v) (pb_topic_alias v) He Ht) as H. destruct (out_publish o (pb_topic v) (pb_topic_alias v)) as [o' [| |t a]];
      cbn [append fst] in *; exact H.
  - cbn [append fst]. exact I.
Qed.
Lemma run_aliases ops : forall e, enc_aliases e -> Forall op_typed ops -> enc_aliases (fold_left enc_do ops e).
Proof.
  induction ops as [|o ops IH]; intros e He Ho; [exact He|]. apply Forall_cons_iff in Ho as [H1 H2]. cbn [fold_left]. apply IH; [|exact H2]. destruct o as [p|cap| |r]; cbn [enc_do].
  - apply append_aliases; assumption.
  - unfold encode_to_buffer. destruct (encode_steps (enc_steps e) (mkbuf cap [])) as [[l b] r]. exact He.
  - exact He.
  - destruct r as [[b max]|]; unfold enc_aliases; cbn [enc_resolver]; [apply reset_aliases|exact I].
Qed.
Lemma enc_run_aliases ops : Forall op_typed ops -> enc_aliases (enc_run ops).
Proof. apply run_aliases. exact I. Qed.
(** the packet put on the wire, after alias resolution *)
Lemma resolved_cases e p q : enc_aliases e -> op_typed (EAppend p) -> resolved e p = Some q ->
  q = p \/ exists v t a, p = P_PUBLISH v /\ q = P_PUBLISH (with_topic v t a) /\ o16 a /\ (t = pb_topic v \/ t = []) /\
    ((exists o, enc_resolver e = Some o /\ lru_resolver o) \/ a = None \/ a = pb_topic_alias v).
Proof.
  intros He Ht. destruct p; cbn [resolved]; try (intros E; injection E as <-; left; reflexivity).
  unfold enc_aliases in He. destruct (enc_resolver e) as [o|]; [|intros E; injection E as <-; left; reflexivity].
  destruct (out_publish o (pb_topic v) (pb_topic_alias v)) as [o' s] eqn:Eo. cbn [snd]. destruct s as [| |t a]; [discriminate ..|]. intros E; injection E as <-. right. exists v, t, a.
  destruct (out_publish_sent _ _ _ _ _ _ He Ht Eo) as (_ & H1 & H2 & H3). repeat split; auto. destruct H3 as [H3|H3]; [left; eauto|right; exact H3].
Qed.
Lemma resolved_fits e p q : enc_aliases e -> fields_fit p -> resolved e p = Some q -> fields_fit q.
Proof.
  intros He F E. assert (Ht : op_typed (EAppend p)) by (destruct p; cbn [op_typed]; auto; cbn [fields_fit] in F; unfold publish_fields in F; tauto).
  destruct (resolved_cases e p q He Ht E) as [-> | (v & t & a & -> & -> & Ha & Hta & _)]; [exact F|]. cbn [fields_fit] in *. unfold publish_fields in *. 
  destruct F as (F1 & F2 & F3 & F4 & F5 & F6 & F7 & F8). assert (Hs : str_ok t) by (destruct Hta as [-> | ->]; [exact F4|split; [change (len (@nil N)) with 0; lia|constructor]]).
  unfold with_topic. cbn [pb_payload pb_packet_id pb_qos pb_topic pb_payload_format pb_message_expiry pb_topic_alias pb_response_topic pb_correlation_data
    pb_subscription_identifiers pb_content_type pb_user_properties]. tauto.
Qed.

(** ** Sizes *)
Lemma vli_size_bytes n s : vli_size n = Ok s -> n <= 268435455 /\ s = vli_bytes n.
Proof.
  unfold vli_size, vli_bytes, max_vli. destruct (N.ltb_spec 268435455 n); [discriminate|]. intros E. split; [exact H|].
  destruct (n <? 128); [congruence|]. destruct (n <? 16384); [congruence|]. destruct (n <? 2097152); congruence.
Qed.
Lemma packet_size_inv rl n : packet_size rl = Ok n -> n = 1 + vli_bytes rl + rl /\ rl <= 268435455.
Proof. unfold packet_size. destruct (vli_size rl) as [s|] eqn:E; [|discriminate]. apply vli_size_bytes in E as [H ->]. cbn [bind]. intros [= <-]. auto. Qed.

Lemma size_query p n : validate_packet p = true -> get_encoded_size p = Ok n -> n = wire_size p /\ remaining_length p <= 268435455.
Proof.
  destruct p; cbn [validate_packet get_encoded_size]; intros V E; try discriminate.
  - apply publish_spec in V. destruct V as (_ & _ & _ & _ & _ & _ & _ & _ & Hi & _). unfold publish_lengths in E. rewrite Hi in E. cbn [subscription_ids_length bind] in E.
    match type of E with (do x <- (do sz <- vli_size ?a; _); _) = _ => assert (Ha : a = publish_props v) by (unfold publish_props; rewrite Hi; reflexivity); rewrite Ha in E; clear Ha end.
    destruct (vli_size (publish_props v)) as [sz|] eqn:Es; [|discriminate]. apply vli_size_bytes in Es as [_ ->]. cbn [bind fst] in E. exact (packet_size_inv _ _ E).
  - unfold puback_lengths in E. change (user_properties_length (pa_user_properties v) + opt_cursor_len (pa_reason_string v)) with (puback_props v) in E.
    unfold wire_size. cbn [remaining_length]. destruct (puback_props v =? 0); [exact (packet_size_inv _ _ E)|].
    destruct (vli_size (puback_props v)) as [sz|] eqn:Es; [|discriminate]. apply vli_size_bytes in Es as [_ ->]. exact (packet_size_inv _ _ E).
  - apply subscribe_spec in V. destruct V as (_ & _ & Hi & _). unfold subscribe_lengths in E.
    match type of E with (do x <- (do sz <- vli_size ?a; _); _) = _ => assert (Ha : a = subscribe_props v) end.
    { unfold subscribe_props. destruct (sb_subscription_identifier v) as [i|]; [|reflexivity]. specialize (Hi i eq_refl).
      destruct (vli_size i) as [x|] eqn:Ei; [apply vli_size_bytes in Ei as [_ ->]; change (users_size (sb_user_properties v)) with (user_properties_length (sb_user_properties v)); lia|].
      unfold vli_size, max_vli in Ei. destruct (N.ltb_spec 268435455 i); [lia|]. destruct (i <? 128); [discriminate|]. destruct (i <? 16384); [discriminate|]. destruct (i <? 2097152); discriminate. }
    rewrite Ha in E; clear Ha. destruct (vli_size (subscribe_props v)) as [sz|] eqn:Es; [|discriminate]. apply vli_size_bytes in Es as [_ ->]. exact (packet_size_inv _ _ E).
  - unfold unsubscribe_lengths in E. change (user_properties_length (us_user_properties v)) with (users_size (us_user_properties v)) in E.
    destruct (vli_size (users_size (us_user_properties v))) as [sz|] eqn:Es; [|discriminate]. apply vli_size_bytes in Es as [_ ->]. exact (packet_size_inv _ _ E).
  - injection E as <-. cbn. split; [reflexivity|lia].
  - unfold disconnect_lengths in E. change (user_properties_length (dc_user_properties v) + opt_u32_len (dc_session_expiry v)
            + opt_cursor_len (dc_server_reference v) + opt_cursor_len (dc_reason_string v)) with (disconnect_props v) in E.
    destruct (vli_size (disconnect_props v)) as [sz|] eqn:Es; [|discriminate]. apply vli_size_bytes in Es as [_ ->]. exact (packet_size_inv _ _ E).
Qed.
Lemma vli_bytes_mono a b : a <= b -> vli_bytes a <= vli_bytes b.
Proof. intros H. unfold vli_bytes. destruct (N.ltb_spec a 128), (N.ltb_spec b 128), (N.ltb_spec a 16384), (N.ltb_spec b 16384), (N.ltb_spec a 2097152), (N.ltb_spec b 2097152); lia. Qed.
Lemma vli_bytes_jump a b : b <= a + 100 -> vli_bytes b <= vli_bytes a + 1.
Proof. intros H. unfold vli_bytes. destruct (N.ltb_spec a 128), (N.ltb_spec b 128), (N.ltb_spec a 16384), (N.ltb_spec b 16384), (N.ltb_spec a 2097152), (N.ltb_spec b 2097152); lia. Qed.
Lemma id_length id p : remaining_length (with_packet_id id p) <= remaining_length p + 2.
Proof.
  destruct p; cbn [with_packet_id]; try lia.
  - destruct (negb (pb_qos v =? 0) && (pb_packet_id v =? 0)) eqn:E; [|lia]. apply andb_true_iff in E as [_ E]. cbn [remaining_length pb_topic pb_packet_id pb_payload].
    rewrite E. change (publish_props _) with (publish_props v) at 1 2. cbn [negb]. destruct (negb (id =? 0)); lia.
  - destruct (sb_packet_id v =? 0); [|lia]. cbn [remaining_length sb_subscriptions]. change (subscribe_props _) with (subscribe_props v) at 1 2. lia.
  - destruct (us_packet_id v =? 0); [|lia]. cbn [remaining_length us_topic_filters us_user_properties]. lia.
Qed.
Lemma alias_props v t a : publish_props (with_topic v t a) + osize 3 (pb_topic_alias v) = publish_props v + osize 3 a.
Proof. unfold publish_props, with_topic. cbn [pb_topic_alias pb_user_properties pb_payload_format pb_message_expiry pb_response_topic pb_correlation_data pb_content_type pb_subscription_identifiers]. lia. Qed.
Lemma alias_length v t a : (t = pb_topic v \/ t = []) -> remaining_length (P_PUBLISH (with_topic v t a)) <= remaining_length (P_PUBLISH v) + 4.
Proof.
  intros Ht. cbn [remaining_length]. pose proof (alias_props v t a) as Hp. assert (Ho : osize 3 a <= 3) by (destruct a; cbn; lia).
  set (p1 := publish_props (with_topic v t a)) in *. set (p0 := publish_props v) in *. pose proof (vli_bytes_jump p0 p1 ltac:(lia)).
  unfold with_topic. cbn [pb_topic pb_packet_id pb_payload]. assert (len t <= len (pb_topic v)) by (destruct Ht as [-> | ->]; [lia|change (len (@nil N)) with 0; lia]).
  destruct (negb (pb_packet_id v =? 0)); lia.
Qed.
Lemma alias_shorter v t a : (t = pb_topic v \/ t = []) -> a = None \/ a = pb_topic_alias v -> remaining_length (P_PUBLISH (with_topic v t a)) <= remaining_length (P_PUBLISH v).
Proof.
  intros Ht Ha. cbn [remaining_length]. pose proof (alias_props v t a) as Hp. assert (Ho : osize 3 a <= osize 3 (pb_topic_alias v)) by (destruct Ha as [-> | ->]; destruct (pb_topic_alias v); cbn; lia).
  set (p1 := publish_props (with_topic v t a)) in *. set (p0 := publish_props v) in *. pose proof (vli_bytes_mono p1 p0 ltac:(lia)).
  unfold with_topic. cbn [pb_topic pb_packet_id pb_payload]. assert (len t <= len (pb_topic v)) by (destruct Ht as [-> | ->]; [lia|change (len (@nil N)) with 0; lia]).
  destruct (negb (pb_packet_id v =? 0)); lia.
Qed.
Lemma resolved_length e p q : enc_aliases e -> op_typed (EAppend p) -> resolved e p = Some q -> remaining_length q <= remaining_length p + 4.
Proof. intros He Ht E. destruct (resolved_cases e p q He Ht E) as [-> | (v & t & a & -> & -> & _ & H & _)]; [lia|]. apply alias_length; exact H. Qed.
Lemma resolved_shorter e p q : enc_aliases e -> op_typed (EAppend p) -> resolved e p = Some q -> (forall o, enc_resolver e = Some o -> ~ lru_resolver o) ->
  remaining_length q <= remaining_length p.
Proof.
  intros He Ht E Hn. destruct (resolved_cases e p q He Ht E) as [-> | (v & t & a & -> & -> & _ & H & Ha)]; [lia|]. apply alias_shorter; [exact H|].
  destruct Ha as [(o & H1 & H2)|Ha]; [exfalso; exact (Hn o H1 H2)|exact Ha].
Qed.
Lemma wire_size_jump p q : remaining_length q <= remaining_length p + 6 -> wire_size q <= wire_size p + 7.
Proof. intros H. unfold wire_size. pose proof (vli_bytes_jump (remaining_length p) (remaining_length q) ltac:(lia)). cbv zeta. lia. Qed.
Lemma wire_size_mono p q : remaining_length q <= remaining_length p -> wire_size q <= wire_size p.
Proof. intros H. unfold wire_size. pose proof (vli_bytes_mono _ _ H). cbv zeta. lia. Qed.
Lemma settings_size s p : validate_packet p = true -> validate_vs_settings s p = true -> wire_size p <= lm_packet_size s /\ remaining_length p <= 268435455.
Proof.
  intros V E. unfold validate_vs_settings in E. destruct (get_encoded_size p) as [n|] eqn:Es; [|discriminate]. destruct (size_query p n V Es) as [-> H].
  destruct (N.ltb_spec (lm_packet_size s) (wire_size p)); [discriminate|]. auto.
Qed.
Lemma id_keeps id p : 0 < id < 65536 -> typed p -> validate_packet p = true -> (forall v, p <> P_PUBACK v) ->
  typed (with_packet_id id p) /\ validate_packet (with_packet_id id p) = true /\ has_packet_id (with_packet_id id p).
Proof.
  intros Hid T V Hp. destruct p; cbn [with_packet_id]; try (split; [exact T|split; [exact V|exact I]]); try discriminate; try (exfalso; eapply Hp; reflexivity).
  - destruct (N.eqb_spec (pb_qos v) 0) as [E|E]; cbn [negb andb]; [split; [exact T|split; [exact V|left; exact E]]|]. destruct (N.eqb_spec (pb_packet_id v) 0) as [E'|E'].
    + cbn [typed] in *. split; [cbn; tauto|]. cbn [validate_packet has_packet_id pb_qos pb_packet_id] in *. split; [|right; lia].
      apply publish_spec in V. apply publish_spec. unfold legal_publish in *. cbn. tauto.
    + split; [exact T|split; [exact V|right; lia]].
  - destruct (N.eqb_spec (sb_packet_id v) 0) as [E'|E']; [|split; [exact T|split; [exact V|cbn; lia]]]. cbn in *. split; [tauto|]. split; [|lia]. destruct v; exact V.
  - destruct (N.eqb_spec (us_packet_id v) 0) as [E'|E']; [|split; [exact T|split; [exact V|cbn; lia]]]. cbn in *. split; [tauto|]. split; [|lia]. destruct v; exact V.
Qed.

Lemma users_bound l : legal_properties l -> users_size l <= 134220800.
Proof.
  intros [H1 H2]. unfold users_size. assert (H : forall m : list user_property, Forall (fun p => text (fst p) /\ text (snd p)) m -> sum (fun p => len (fst p) + len (snd p)) m <= 131070 * len m).
  { induction m as [|p m IH]; intros Hm; [cbn; lia|]. apply Forall_cons_iff in Hm as [[[A _] [B _]] Hm]. specialize (IH Hm). rewrite len_cons. unfold sum in *. cbn [fold_right]. lia. }
  specialize (H l H2). lia.
Qed.
Lemma ostr_size_bound o : otext o -> ostr_size o <= 65538.
Proof. destruct o as [s|]; intros H; cbn; [destruct (H s eq_refl); lia|lia]. Qed.
Lemma ostr_size_short o : short o -> ostr_size o <= 65538.
Proof. destruct o as [s|]; intros H; cbn; [specialize (H s eq_refl); lia|lia]. Qed.
Lemma osize_bound {A} n (o : option A) : osize n o <= n. Proof. destruct o; cbn; lia. Qed.
Lemma vli_bytes_bound n : vli_bytes n <= 4.
Proof. unfold vli_bytes. destruct (n <? 128), (n <? 16384), (n <? 2097152); lia. Qed.
Lemma opt_length_bound o : (forall s, o = Some s -> len s <= 65535) -> opt_length o <= 65537.
Proof. destruct o as [s|]; intros H; cbn; [specialize (H s eq_refl); lia|lia]. Qed.
Lemma sum_bound {A} (f : A -> N) k l : Forall (fun a => f a <= k) l -> sum f l <= k * len l.
Proof. induction 1 as [|a l H1 H2 IH]; [cbn; lia|]. rewrite len_cons. unfold sum in *. cbn [fold_right]. lia. Qed.
Lemma others_small p : validate_packet p = true -> (forall v, p <> P_PUBLISH v) -> remaining_length p < 4294967296 /\ ((forall v, p <> P_CONNECT v) -> remaining_length p <= 268435455).
Proof.
  intros V Hp. destruct p; cbn [validate_packet] in V; try discriminate; try (exfalso; eapply Hp; reflexivity); cbn [remaining_length].
  - split; [|intros H; exfalso; eapply H; reflexivity]. apply connect_spec in V. destruct V as ([V1 _] & V2 & V3 & _ & _ & V4 & _ & _ & V7 & V8 & V9).
    assert (Hw : will_length (cn_will_delay v) (cn_will v) <= 134600000).
    { destruct (cn_will v) as [w|]; [|cbn; lia]. destruct (V4 w eq_refl) as [W L]. destruct W as (_ & _ & B2 & _ & _ & _ & B4 & B5 & _ & _ & B7 & B8).
      apply topic_text in B2 as (_ & _ & B2). cbn [will_message pb_topic pb_response_topic pb_correlation_data pb_content_type pb_user_properties] in *.
      unfold will_length, will_props. apply users_bound in B8. apply ostr_size_short in B4, B5, B7. pose proof (osize_bound 5 (cn_will_delay v)). pose proof (osize_bound 2 (wl_payload_format w)).
      pose proof (osize_bound 5 (wl_message_expiry w)).
      match goal with |- context [vli_bytes ?n] => pose proof (vli_bytes_bound n) end. lia. }
    assert (Hc : connect_props v <= 134300000).
    { unfold connect_props. rewrite V8, V9. apply users_bound in V7. pose proof (osize_bound 5 (cn_session_expiry v)). pose proof (osize_bound 3 (cn_receive_maximum v)).
      pose proof (osize_bound 5 (cn_maximum_packet_size v)). pose proof (osize_bound 3 (cn_topic_alias_maximum v)). pose proof (osize_bound 2 (cn_request_response_info v)).
      pose proof (osize_bound 2 (cn_request_problem_info v)). cbn [ostr_size]. lia. }
    apply opt_length_bound in V3. assert (V2' : opt_length (cn_username v) <= 65537) by (apply opt_length_bound; intros s E; apply (V2 s E)).
    pose proof (vli_bytes_bound (connect_props v)). lia.
  - destruct v as [id [|?] [?|] [|? ?]]; try discriminate. split; [reflexivity|intros _; discriminate].
  - apply subscribe_spec in V as (V0 & V1 & _ & V3). apply users_bound in V3.
    assert (H : sum (fun s => len (sn_topic_filter s)) (sb_subscriptions v) <= 65535 * len (sb_subscriptions v)).
    { apply sum_bound. eapply Forall_impl; [|exact V1]. intros s (A1 & _). apply filter_text in A1. tauto. }
    assert (Hs : subscribe_props v <= 134220806) by (unfold subscribe_props; destruct (sb_subscription_identifier v) as [x|]; [pose proof (vli_bytes_bound x)|]; lia).
    pose proof (vli_bytes_bound (subscribe_props v)). split; [|intros _]; lia.
  - apply unsubscribe_spec in V as (V0 & V1 & V3). apply users_bound in V3.
    assert (H : sum (fun t => len t) (us_topic_filters v) <= 65535 * len (us_topic_filters v)).
    { apply sum_bound. eapply Forall_impl; [|exact V1]. intros s A1. apply filter_text in A1. tauto. }
    pose proof (vli_bytes_bound (users_size (us_user_properties v))). split; [|intros _]; lia.
  - split; [|intros _]; lia.
  - apply disconnect_spec in V as (_ & V2 & V3 & V4). apply users_bound in V4. apply ostr_size_bound in V2.
    assert (H : disconnect_props v <= 134300000) by (unfold disconnect_props; rewrite V3; pose proof (osize_bound 5 (dc_session_expiry v)); cbn [ostr_size]; lia).
    pose proof (vli_bytes_bound (disconnect_props v)). split; [|intros _]; lia.
Qed.

(** ** The whole path *)
Lemma framing ops p q b0 : Forall op_typed ops -> typed p -> validate_packet p = true -> has_packet_id p -> let e := enc_run ops in resolved e p = Some q -> emits e b0 ->
  (remaining_length q <= 268435455 -> exists bs, snd (append_packet e p) = A_OK /\ packet_wire q bs /\ emits (fst (append_packet e p)) (b0 ++ bs) /\
     (no_size_query q \/ get_encoded_size q = Ok (len bs)) /\ len bs = wire_size q) /\
  (268435455 < remaining_length q < 4294967296 -> (exists x, snd (append_packet e p) = A_FAILED x) /\ exists x, get_encoded_size q = Err x).
Proof.
  intros Ho T V H e Hr Hb. pose proof (validated_fits p T V H) as F. pose proof (enc_run_aliases ops Ho) as He. fold e in He. pose proof (resolved_fits e p q He F Hr) as Fq.
  pose proof (fits_client q Fq) as Hc. split; intros L.
  - exact (append_emits ops p q b0 Hr Hc (proj2 (expressible_iff q Hc) (conj Fq L)) Hb).
  - exact (append_big ops p q Hr Fq L).
Qed.

(** nothing the client sends after the size check is long enough to overflow the 32 bit length *)
Lemma settings_bound ops s id p q : Forall op_typed ops -> op_typed (EAppend p) -> validate_packet p = true -> validate_vs_settings s p = true ->
  let e := enc_run ops in resolved e (with_packet_id id p) = Some q -> remaining_length q <= remaining_length p + 6 /\ remaining_length q < 4294967296 /\ wire_size q <= lm_packet_size s + 7.
Proof.
  intros Ho Ht V S e Hr. destruct (settings_size s p V S) as [H1 H2]. pose proof (enc_run_aliases ops Ho) as He.
  assert (Ht' : op_typed (EAppend (with_packet_id id p))).
  { destruct p; cbn [with_packet_id]; auto; [|destruct (sb_packet_id v =? 0); exact I|destruct (us_packet_id v =? 0); exact I].
    destruct (negb (pb_qos v =? 0) && (pb_packet_id v =? 0)); exact Ht. }
  pose proof (resolved_length e _ q He Ht' Hr) as H3. pose proof (id_length id p) as H4. assert (H5 : remaining_length q <= remaining_length p + 6) by lia.
  split; [exact H5|]. split; [lia|]. pose proof (wire_size_jump p q H5). lia.
Qed.
Lemma settings_exact ops s p q : Forall op_typed ops -> op_typed (EAppend p) -> validate_packet p = true -> validate_vs_settings s p = true ->
  let e := enc_run ops in (forall o, enc_resolver e = Some o -> ~ lru_resolver o) -> resolved e p = Some q -> wire_size q <= lm_packet_size s.
Proof.
  intros Ho Ht V S e Hn Hr. destruct (settings_size s p V S) as [H1 H2]. pose proof (enc_run_aliases ops Ho) as He.
  pose proof (wire_size_mono p q (resolved_shorter e p q He Ht Hr Hn)). lia.
Qed.
Lemma packet_unique p q bs : (forall v, p = P_CONNECT v -> no_stray_delay v) -> (forall v, q = P_CONNECT v -> no_stray_delay v) -> packet_wire p bs -> packet_wire q bs -> p = q.
Proof.
  intros Np Nq.
  assert (Hf : forall p bs, packet_wire p bs -> exists f r, f < 16 /\ bs = (match p with P_CONNECT _ => 1 | P_CONNACK _ => 2 | P_PUBLISH _ => 3 | P_PUBACK _ => 4
     | P_SUBSCRIBE _ => 8 | P_SUBACK _ => 9 | P_UNSUBSCRIBE _ => 10 | P_UNSUBACK _ => 11 | P_PINGREQ => 12 | P_PINGRESP => 13 | P_DISCONNECT _ => 14 end * 16 + f) :: r).
  { clear. intros p bs. destruct p; cbn [packet_wire].
    - intros (? & ? & ? & ? & ? & ? & (l & _ & ->) & _). exists 0. eexists. split; [lia|reflexivity].
    - intros (? & ? & (l & _ & ->) & _). exists 0. eexists. split; [lia|reflexivity].
    - intros (? & ? & ? & (l & _ & ->) & Hq & _). eexists _, _. split; [|reflexivity]. pose proof (b2n_le (pb_duplicate v)). pose proof (b2n_le (pb_retain v)). lia.
    - intros (? & ? & (l & _ & ->) & _). exists 0. eexists. split; [lia|reflexivity].
    - intros (? & ? & ? & (l & _ & ->) & _). exists 2. eexists. split; [lia|reflexivity].
    - intros (? & ? & (l & _ & ->) & _). exists 0. eexists. split; [lia|reflexivity].
    - intros (? & ? & ? & (l & _ & ->) & _). exists 2. eexists. split; [lia|reflexivity].
    - intros (? & ? & (l & _ & ->) & _). exists 0. eexists. split; [lia|reflexivity].
    - intros ->. exists 0. eexists. split; [lia|reflexivity].
    - intros ->. exists 0. eexists. split; [lia|reflexivity].
    - intros (? & ? & (l & _ & ->) & _). exists 0. eexists. split; [lia|reflexivity]. }
  intros Hp Hq. destruct (Hf p bs Hp) as (f & r & Lf & E1). destruct (Hf q bs Hq) as (f' & r' & Lf' & E2). rewrite E1 in E2. injection E2 as E2 _. clear Hf E1.
  destruct p, q; try (exfalso; lia); cbn [packet_wire] in *; f_equal; try reflexivity.
  - exact (connect_unique _ _ bs (Np _ eq_refl) (Nq _ eq_refl) Hp Hq).
  - exact (connack_unique _ _ bs Hp Hq).
  - exact (publish_unique _ _ bs Hp Hq).
  - exact (puback_unique _ _ bs Hp Hq).
  - exact (subscribe_unique _ _ bs Hp Hq).
  - exact (ack_unique _ _ _ bs Hp Hq).
  - exact (unsubscribe_unique _ _ bs Hp Hq).
  - exact (ack_unique _ _ _ bs Hp Hq).
  - exact (disconnect_unique _ _ bs Hp Hq).
Qed.

(** ** Buffers *)
Lemma one_buffer e bs : steps_ok (enc_steps e) -> emits e bs -> forall c, len bs + 4 <= c -> encode_to_buffer e (mkbuf c []) = (mkencoder [] (enc_resolver e), mkbuf c bs, ER_FINISHED).
Proof.
  intros Hs Hb c Hc. rewrite (emits_fun _ _ _ Hb (emits_flat e Hs)) in *. unfold encode_to_buffer.
  assert (H : forall l b, steps_ok l -> len (bdata b) + len (flat l) + 4 <= bcap b -> encode_steps l b = ([], mkbuf (bcap b) (bdata b ++ flat l), ER_FINISHED)).
  { clear. induction l as [|s l IH]; intros b Hl Hc; [cbn; rewrite app_nil_r; destruct b; reflexivity|]. apply Forall_cons_iff in Hl as [H1 H2]. rewrite flat_cons, len_app in Hc.
    pose proof (step_spec s b H1 ltac:(lia)) as Hss. cbn [encode_steps]. rewrite flat_cons.
    assert (Hx : execute_step s b = (None, mkbuf (bcap b) (bdata b ++ sbytes s))).
    { destruct s as [n|n|n|n|x]; cbn [execute_step sbytes] in *; unfold room.
      - rewrite len_cons in Hc. destruct (N.ltb_spec (bcap b - len (bdata b)) 1); [lia|]. rewrite write_ok; [reflexivity|]. rewrite len_cons, len_nil in *. lia.
      - destruct (N.ltb_spec (bcap b - len (bdata b)) 2); [lia|]. rewrite write_ok; [reflexivity|]. lia.
      - destruct (N.ltb_spec (bcap b - len (bdata b)) 4); [lia|]. rewrite write_ok; [reflexivity|]. lia.
      - destruct (N.ltb_spec (bcap b - len (bdata b)) 4); [lia|]. cbn [step_ok] in H1. rewrite encode_vli_ok; [reflexivity|exact H1|]. unfold max_vli in H1. rewrite vb_len in Hc by exact H1. lia.
      - destruct (N.ltb_spec (bcap b - len (bdata b)) 1); [lia|]. replace (N.min (bcap b - len (bdata b)) (len x)) with (len x) by lia.
        unfold advance. destruct (N.leb_spec (len x) (len x)); [|lia]. cbn [fst snd]. replace (N.to_nat (len x)) with (length x) by (unfold len; lia). rewrite firstn_all, skipn_all. change (len (@nil N) =? 0) with true. cbv iota.
        rewrite write_ok; [reflexivity|lia]. }
    rewrite Hx, IH; cbn [bcap bdata]; [rewrite <- app_assoc; reflexivity|exact H2|]. rewrite len_app. lia. }
  rewrite H; [reflexivity|exact Hs|]. cbn [bdata bcap]. rewrite len_nil. lia.
Qed.
Lemma small_stall n e : enc_steps e = [SVLI 2; SU8 0; SVLI 0] -> snd (encode_to_buffers e (repeat 3 n)) = false.
Proof.
  revert e. induction n as [|n IH]; intros e He; [reflexivity|]. cbn [repeat encode_to_buffers]. unfold encode_to_buffer. rewrite He.
  change (encode_steps [SVLI 2; SU8 0; SVLI 0] (mkbuf 3 [])) with ([SVLI 2; SU8 0; SVLI 0], mkbuf 3 [], ER_OUT_OF_ROOM). cbn match.
  specialize (IH (mkencoder [SVLI 2; SU8 0; SVLI 0] (enc_resolver e)) eq_refl). destruct (encode_to_buffers _ (repeat 3 n)) as [[a b] c]. exact IH.
Qed.
Lemma small_stall_bye n : snd (encode_to_buffers (enc_run [EAppend (P_DISCONNECT (mkdisconnect 0 None None [] None))]) (repeat 3 n)) = false.
Proof.
  destruct n as [|n]; [reflexivity|]. cbn [repeat encode_to_buffers].
  assert (E : encode_to_buffer (enc_run [EAppend (P_DISCONNECT (mkdisconnect 0 None None [] None))]) (mkbuf 3 []) = (mkencoder [SVLI 2; SU8 0; SVLI 0] None, mkbuf 3 [224], ER_OUT_OF_ROOM)) by (vm_compute; reflexivity).
  rewrite E. cbn match. pose proof (small_stall n (mkencoder [SVLI 2; SU8 0; SVLI 0] None) eq_refl) as H. destruct (encode_to_buffers _ (repeat 3 n)) as [[a b] c]. exact H.
Qed.
(** a buffer that already holds [d] *)
Lemma partly_filled e d b : let '(e1, b1, r) := encode_to_buffer e b in
  encode_to_buffer e (mkbuf (len d + bcap b) (d ++ bdata b)) = (e1, mkbuf (len d + bcap b) (d ++ bdata b1), r).
Proof.
  unfold encode_to_buffer. pose proof (encode_shift (enc_steps e) d b) as H. destruct (encode_steps (enc_steps e) b) as [[l1 b1] r]. rewrite H. reflexivity.
Qed.

(** ** Variable length integers *)
Lemma vli_encode_spec n b : n <= 268435455 -> exists k, vli_size n = Ok k /\
  (len (bdata b) + k <= bcap b -> exists bs, encode_vli b n = (mkbuf (bcap b) (bdata b ++ bs), None) /\ vli_minimal n bs /\ len bs = k) /\
  (len (bdata b) <= bcap b < len (bdata b) + k -> snd (encode_vli b n) = Some E_SHORT_BUFFER).
Proof.
  intros Hn. exists (vsize n). split; [apply vli_size_ok; exact Hn|]. split.
  - intros H. exists (vb n). split; [apply encode_vli_ok; assumption|]. split; [apply vb_minimal; exact Hn|apply vb_len; exact Hn].
  - intros H. apply encode_vli_short; assumption.
Qed.
Lemma vli_refused n b : 268435455 < n -> encode_vli b n = (b, Some E_INVALID_ARGUMENT) /\ vli_size n = Err E_INVALID_ARGUMENT.
Proof. intros H. split; [|apply vli_size_err; exact H]. unfold encode_vli, max_vli. destruct (N.ltb_spec 268435455 n); [reflexivity|lia]. Qed.
Lemma enough_buffers ops bs caps : emits (enc_run ops) bs -> len bs < len (filter (N.leb 4) caps) ->
  exists e out, encode_to_buffers (enc_run ops) caps = (e, out, true) /\ concat out = bs /\ enc_steps e = [].
Proof.
  intros H Hc. destruct (H caps) as (e & out & fin & rest & E & Eb & H1 & H2 & _). destruct fin.
  - destruct (H1 eq_refl) as [-> H3]. rewrite app_nil_r in Eb. exists e, out. auto.
  - specialize (H2 eq_refl). rewrite Eb, len_app in Hc. lia.
Qed.

(** ** The size check misses what is added after it *)
Definition small_publish (qos : N) : publish := mkpublish [104; 105] 0 qos false false [97] None None None None None [] None [].
Lemma small_typed qos : typed (P_PUBLISH (small_publish qos)).
Proof.
  cbn. unfold obelow, obytes, upbytes. repeat (split; [first [reflexivity | discriminate | (repeat constructor; lia)]|]). constructor.
Qed.
Lemma size_refuted_id : exists s p q, typed p /\ validate_packet p = true /\ validate_vs_settings s p = true /\
  resolved (enc_run []) (with_packet_id 1 p) = Some q /\ lm_packet_size s + 2 = wire_size q.
Proof.
  exists (mklimits 8 2 true None), (P_PUBLISH (small_publish 1)). eexists. split; [apply small_typed|]. split; [reflexivity|]. split; [reflexivity|]. split; reflexivity.
Qed.
Lemma size_refuted_alias : exists ops s p q, Forall op_typed ops /\ typed p /\ validate_packet p = true /\ validate_vs_settings s p = true /\
  resolved (enc_run ops) p = Some q /\ lm_packet_size s + 3 = wire_size q.
Proof.
  exists [ESetResolver (Some (BLru, 3))], (mklimits 8 2 true None), (P_PUBLISH (small_publish 0)). eexists. split; [repeat constructor|]. split; [apply small_typed|].
  split; [reflexivity|]. split; [reflexivity|]. split; reflexivity.
Qed.
