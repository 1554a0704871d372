From Verif Require Import Base BaseLemmas Vli_Spec Vli_Lemmas Mqtt5_Views Mqtt5_Spec TopicAlias_Model Decoder5_Model Decoder5_Spec Decoder5_Lemmas.
Ltac Zify.zify_post_hook ::= idtac.

Definition lookup (id : N) : option pkind := match find (fun p => fst p =? id) property_table with Some p => Some (snd p) | None => None end.
Definition kind_of (ids : list N) (id : N) : option pkind := if existsb (N.eqb id) ids then lookup id else None.
Lemma lookup_in id k : lookup id = Some k <-> In (id, k) property_table.
Proof.
  split.
  - unfold lookup. destruct (find (fun p => fst p =? id) property_table) as [[i k']|] eqn:E; [|discriminate]. intros F; injection F as <-.
    apply find_some in E as [E1 E2]. cbn [fst] in E2. apply N.eqb_eq in E2. subst i. exact E1.
  - intros H. unfold property_table in H. cbn [In] in H. repeat (destruct H as [H|H]; [injection H as <- <-; reflexivity|]). contradiction.
Qed.
Lemma kind_of_in ids id k : kind_of ids id = Some k <-> In id ids /\ In (id, k) property_table.
Proof.
  unfold kind_of. rewrite <- lookup_in. destruct (existsb (N.eqb id) ids) eqn:E.
  - apply existsb_exists in E as (x & H1 & H2). apply N.eqb_eq in H2. subst x. tauto.
  - split; [discriminate|]. intros [H _]. exfalso. assert (existsb (N.eqb id) ids = true); [|congruence]. apply existsb_exists. exists id. split; [exact H|apply N.eqb_refl].
Qed.
Lemma kind_of_out ids id : ~ In id ids -> kind_of ids id = None.
Proof. intros H. destruct (kind_of ids id) as [k|] eqn:E; [|reflexivity]. apply kind_of_in in E as [E _]. contradiction. Qed.
(** [read_eq] for one packet type: the identifiers of the switch, then the default *)
Ltac read_cases c :=
  repeat match goal with |- context [match read_u8 c with _ => _ end] => destruct (read_u8 c) as [[? ?]|]
  | |- context [match read_be16 c with _ => _ end] => destruct (read_be16 c) as [[? ?]|]
  | |- context [match read_be32 c with _ => _ end] => destruct (read_be32 c) as [[? ?]|]
  | |- context [match read_vli c with _ => _ end] => destruct (read_vli c) as [[? ?]|]
  | |- context [match read_prefixed c with _ => _ end] => destruct (read_prefixed c) as [[? ?]|]
  | |- context [match read_user_property c with _ => _ end] => destruct (read_user_property c) as [[? ?]|] end; reflexivity.
Ltac out_case Hn := first [reflexivity | exfalso; apply Hn; cbv; repeat (first [left; reflexivity | right])].
Ltac read_eq_tac id c ids :=
  change (read_u8 (id :: c)) with (Some (id, c)); cbv beta iota;
  destruct (in_dec N.eq_dec id ids) as [Hi|Hn];
  [ cbv in Hi; repeat (destruct Hi as [Hi|Hi]; [subst id; match goal with |- context [kind_of ids ?i] => let k := eval vm_compute in (kind_of ids i) in change (kind_of ids i) with k end; cbv beta iota delta [read_value]; read_cases c|]); contradiction
  | rewrite (kind_of_out ids id Hn);
    destruct id as [|p]; [reflexivity|]; do 6 (destruct p as [p|p|]; [| |try out_case Hn]; try reflexivity); try out_case Hn ].

(** ** CONNACK *)
Definition connack_ids : list N := [17; 33; 36; 37; 39; 18; 34; 31; 38; 40; 41; 42; 19; 26; 28; 21; 22].
Definition connack_apply (v : connack) (id : N) (x : pval) : connack :=
  let '(mkconnack sp rc se rm mq ra mp ac ta rs up wa si sh ka ri sr am ad) := v in
  match id, x with
  | 17, PV32 x => mkconnack sp rc (Some x) rm mq ra mp ac ta rs up wa si sh ka ri sr am ad
  | 33, PV16 x => mkconnack sp rc se (Some x) mq ra mp ac ta rs up wa si sh ka ri sr am ad
  | 36, PV8 x => mkconnack sp rc se rm (Some x) ra mp ac ta rs up wa si sh ka ri sr am ad
  | 37, PV8 x => mkconnack sp rc se rm mq (Some x) mp ac ta rs up wa si sh ka ri sr am ad
  | 39, PV32 x => mkconnack sp rc se rm mq ra (Some x) ac ta rs up wa si sh ka ri sr am ad
  | 18, PVstr x => mkconnack sp rc se rm mq ra mp (Some x) ta rs up wa si sh ka ri sr am ad
  | 34, PV16 x => mkconnack sp rc se rm mq ra mp ac (Some x) rs up wa si sh ka ri sr am ad
  | 31, PVstr x => mkconnack sp rc se rm mq ra mp ac ta (Some x) up wa si sh ka ri sr am ad
  | 40, PV8 x => mkconnack sp rc se rm mq ra mp ac ta rs up (Some x) si sh ka ri sr am ad
  | 41, PV8 x => mkconnack sp rc se rm mq ra mp ac ta rs up wa (Some x) sh ka ri sr am ad
  | 42, PV8 x => mkconnack sp rc se rm mq ra mp ac ta rs up wa si (Some x) ka ri sr am ad
  | 19, PV16 x => mkconnack sp rc se rm mq ra mp ac ta rs up wa si sh (Some x) ri sr am ad
  | 26, PVstr x => mkconnack sp rc se rm mq ra mp ac ta rs up wa si sh ka (Some x) sr am ad
  | 28, PVstr x => mkconnack sp rc se rm mq ra mp ac ta rs up wa si sh ka ri (Some x) am ad
  | 21, PVstr x => mkconnack sp rc se rm mq ra mp ac ta rs up wa si sh ka ri sr (Some x) ad
  | 22, PVstr x => mkconnack sp rc se rm mq ra mp ac ta rs up wa si sh ka ri sr am (Some x)
  | 38, PVpair x => mkconnack sp rc se rm mq ra mp ac ta rs (up ++ [x]) wa si sh ka ri sr am ad
  | _, _ => v
  end.
Lemma connack_read_eq v c : read_connack_property v c =
  match c with [] => None | id :: c => match kind_of connack_ids id with Some k => match read_value k c with Some (x, r) => Some (connack_apply v id x, r) | None => None end | None => None end end.
Proof.
  destruct v as [sp rc se rm mq ra mp ac ta rs up wa si sh ka ri sr am ad]. unfold read_connack_property. destruct c as [|id c]; [reflexivity|]. read_eq_tac id c connack_ids.
Qed.
(** the invariant of the loop: each case of the switch *)
Ltac kind_cases Hk Hx :=
  apply kind_of_in in Hk as [Hi Hk]; apply lookup_in in Hk; cbv in Hi;
  repeat (destruct Hi as [Hi|Hi]; [subst; cbv in Hk; injection Hk as <-; inversion Hx; subst; clear Hx|]); [..|contradiction].
Ltac snoc_goal :=
  match goal with
  | |- latest _ _ _ => rewrite vals_snoc; first [apply latest_snoc | cbn [N.eqb Pos.eqb]; rewrite app_nil_r; assumption]
  | |- vals _ _ = map _ (_ ++ _) => rewrite vals_snoc, map_app; cbn [N.eqb Pos.eqb]; f_equal; assumption
  | |- vals _ _ = map _ _ => rewrite vals_snoc; cbn [N.eqb Pos.eqb]; rewrite app_nil_r; assumption
  | |- ?a = ?a => reflexivity
  | |- _ => assumption
  end.
Ltac splits := repeat match goal with |- _ /\ _ => split end.
Lemma pv8_inj x y : PV8 x = PV8 y -> x = y. Proof. congruence. Qed.
Lemma pv16_inj x y : PV16 x = PV16 y -> x = y. Proof. congruence. Qed.
Lemma pv32_inj x y : PV32 x = PV32 y -> x = y. Proof. congruence. Qed.
Lemma pvstr_inj x y : PVstr x = PVstr y -> x = y. Proof. congruence. Qed.
Lemma map_inj {A} (f : A -> pval) l l' : (forall x y, f x = f y -> x = y) -> map f l = map f l' -> l = l'.
Proof. intros Hf. revert l'. induction l as [|a l IH]; intros [|b l'] E; try discriminate; [reflexivity|]. cbn in E. injection E as E1 E2. f_equal; [apply Hf; exact E1|apply IH; exact E2]. Qed.
Lemma pvpair_inj x y : PVpair x = PVpair y -> x = y. Proof. congruence. Qed.
Lemma pvvar_inj x y : PVvar x = PVvar y -> x = y. Proof. congruence. Qed.
Ltac fun_tac :=
  repeat match goal with
  | H : latest PV8 ?a ?l, H' : latest PV8 ?b ?l |- _ => pose proof (latest_fun PV8 a b l pv8_inj H H'); clear H
  | H : latest PV16 ?a ?l, H' : latest PV16 ?b ?l |- _ => pose proof (latest_fun PV16 a b l pv16_inj H H'); clear H
  | H : latest PV32 ?a ?l, H' : latest PV32 ?b ?l |- _ => pose proof (latest_fun PV32 a b l pv32_inj H H'); clear H
  | H : latest PVstr ?a ?l, H' : latest PVstr ?b ?l |- _ => pose proof (latest_fun PVstr a b l pvstr_inj H H'); clear H
  | H : ?l = map PVpair ?a, H' : ?l = map PVpair ?b |- _ => pose proof (map_inj PVpair a b pvpair_inj (eq_trans (eq_sym H) H')); clear H
  | H : ?l = map PVvar ?a, H' : ?l = map PVvar ?b |- _ => pose proof (map_inj PVvar a b pvvar_inj (eq_trans (eq_sym H) H')); clear H
  end.
Definition connack_good (sp : bool) (rc : N) (ps : list property) (v : connack) : Prop :=
  ca_session_present v = sp /\ ca_reason_code v = rc /\
    latest PV32 (ca_session_expiry v) (vals 17 ps) /\ latest PV16 (ca_receive_maximum v) (vals 33 ps) /\
    latest PV8 (ca_maximum_qos v) (vals 36 ps) /\ latest PV8 (ca_retain_available v) (vals 37 ps) /\
    latest PV32 (ca_maximum_packet_size v) (vals 39 ps) /\ latest PVstr (ca_assigned_client_id v) (vals 18 ps) /\
    latest PV16 (ca_topic_alias_maximum v) (vals 34 ps) /\ latest PVstr (ca_reason_string v) (vals 31 ps) /\
    vals 38 ps = map PVpair (ca_user_properties v) /\ latest PV8 (ca_wildcard_available v) (vals 40 ps) /\
    latest PV8 (ca_sub_ids_available v) (vals 41 ps) /\ latest PV8 (ca_shared_available v) (vals 42 ps) /\
    latest PV16 (ca_server_keep_alive v) (vals 19 ps) /\ latest PVstr (ca_response_information v) (vals 26 ps) /\
    latest PVstr (ca_server_reference v) (vals 28 ps) /\ latest PVstr (ca_auth_method v) (vals 21 ps) /\
    latest PVstr (ca_auth_data v) (vals 22 ps).
Definition connack_new sp rc : connack := mkconnack sp rc None None None None None None None None [] None None None None None None None None.
Lemma connack_applied sp rc ps bs : props_wire ps bs -> only connack_ids ps -> connack_good sp rc ps (applied connack_apply ps (connack_new sp rc)).
Proof.
  revert ps bs. apply (applied_ind (kind_of connack_ids) connack_apply connack_ids (kind_of_in _) (connack_good sp rc)).
  - unfold connack_good, connack_new. cbn. splits; reflexivity.
  - intros ps v id k x b Hg Hk Hx. destruct v as [sp0 rc0 se rm mq ra mp ac ta rs up wa si sh ka ri sr am ad]. unfold connack_good in *. cbn in Hg.
    repeat match goal with H : _ /\ _ |- _ => destruct H end. kind_cases Hk Hx; cbn [connack_apply ca_session_present ca_reason_code ca_session_expiry ca_receive_maximum ca_maximum_qos ca_retain_available
     ca_maximum_packet_size ca_assigned_client_id ca_topic_alias_maximum ca_reason_string ca_user_properties ca_wildcard_available ca_sub_ids_available ca_shared_available ca_server_keep_alive
     ca_response_information ca_server_reference ca_auth_method ca_auth_data]; splits; snoc_goal.
Qed.
Lemma connack_fun sp rc ps v v' : connack_good sp rc ps v -> connack_good sp rc ps v' -> v = v'.
Proof.
  destruct v, v'. unfold connack_good. cbn. intros H H'. repeat match goal with H : _ /\ _ |- _ => destruct H end. fun_tac. subst. reflexivity.
Qed.
Lemma frame_body t fl body' first l body : frame t fl body' (first :: l ++ body) -> vli_legal (len body) l -> first = t * 16 + fl /\ body' = body.
Proof. intros (l' & [H1 _] & E) [H2 _]. injection E as -> E. destruct (vli_det _ _ _ _ _ _ H2 H1 E) as (_ & _ & ->). auto. Qed.
Lemma frame_make t fl l body : vli_legal (len body) l -> frame t fl body ((t * 16 + fl) :: l ++ body).
Proof. intros H. exists l. auto. Qed.
Lemma frame_make' first t fl l body : first = t * 16 + fl -> vli_legal (len body) l -> frame t fl body (first :: l ++ body).
Proof. intros -> H. exists l. auto. Qed.
Lemma first_flags first t : first < 256 -> first / 16 = t -> first = t * 16 + N.land first 15.
Proof. intros H <-. rewrite land15. rewrite N.mul_comm. apply N.div_mod. discriminate. Qed.
Lemma only_flags0 first t : first < 256 -> first / 16 = t -> (N.land first 15 =? 0) = true <-> first = t * 16 + 0.
Proof. intros H Ht. pose proof (first_flags first t H Ht) as E. rewrite N.eqb_eq. lia. Qed.
Lemma bool_byte f : f < 256 -> (N.land f 254 =? 0) = true <-> f = b2n (negb (N.land f 1 =? 0)).
Proof.
  intros H. revert f H. assert (G : forall f, f < 256 -> Bool.eqb (N.land f 254 =? 0) (f =? b2n (negb (N.land f 1 =? 0))) = true) by (apply byte_sweep; vm_compute; reflexivity).
  intros f H. specialize (G f H). apply Bool.eqb_prop in G. rewrite G. apply N.eqb_eq.
Qed.
Lemma b2n_byte b : b2n b < 256 /\ N.land (b2n b) 254 = 0 /\ negb (N.land (b2n b) 1 =? 0) = b.
Proof. destruct b; vm_compute; auto. Qed.
Lemma read_section ps bp r : section_wire ps bp -> bytes_ok r -> exists b, read_vli (bp ++ r) = Some (len b, b ++ r) /\ props_wire ps b.
Proof.
  intros (l & b & H1 & H2 & ->) Hr. exists b. split; [|exact H2]. rewrite <- app_assoc. apply read_vli_ok; [exact H1|]. apply Forall_app. split; [exact (props_bytes ps b H2)|exact Hr].
Qed.
Lemma read_section_inv c n r : bytes_ok c -> read_vli c = Some (n, r) -> exists l, c = l ++ r /\ vli_legal n l /\ bytes_ok r.
Proof. intros Hok E. destruct (read_vli_inv c n r Hok E) as (l & -> & H). exists l. apply Forall_app in Hok as [_ Hr]. auto. Qed.

Lemma advance_split (c : bytes) n : n <= len c -> exists x y, advance c n = (x, y) /\ c = x ++ y /\ len x = n.
Proof.
  intros H. unfold advance. destruct (N.leb_spec n (len c)); [|lia]. exists (firstn (N.to_nat n) c), (skipn (N.to_nat n) c). split; [reflexivity|]. split; [symmetry; apply firstn_skipn|].
  unfold len in *. rewrite firstn_length. lia.
Qed.

Section Exact.
Variables (first : N) (l body : bytes).
Hypothesis Hfirst : first < 256.
Hypothesis Hl : vli_legal (len body) l.
Hypothesis Hok : bytes_ok body.
Lemma connack_exact v : first / 16 = 2 -> decode_connack first (len body) body = Some v <-> connack_accepted v (first :: l ++ body).
Proof.
  intros Ht. unfold decode_connack. rewrite N.eqb_refl. cbn [negb]. split.
  - destruct (N.land first 15 =? 0) eqn:Ef; [|discriminate]. apply (only_flags0 first 2 Hfirst Ht) in Ef. cbn [negb].
    destruct body as [|f [|rc c]] eqn:Eb; try discriminate; cbn [read_u8]; [destruct (negb (N.land f 254 =? 0)); discriminate|].
    pose proof Hok as Hok'. apply Forall_cons_iff in Hok' as [Hf Hok']. apply Forall_cons_iff in Hok' as [Hrc Hok'].
    destruct (N.land f 254 =? 0) eqn:Ef'; cbn [negb]; [|discriminate]. apply (bool_byte f Hf) in Ef'.
    destruct (read_vli c) as [[n r]|] eqn:Ev; [|discriminate]. destruct (read_section_inv c n r Hok' Ev) as (l' & -> & Hl' & Hr).
    destruct (N.eqb_spec n (len r)) as [->|]; [|discriminate]. cbn [negb]. intros E.
    apply (read_all_iff read_connack_property (kind_of connack_ids) connack_apply connack_ids connack_read_eq (kind_of_in _)) in E as (ps & H1 & H2 & H3); [|exact Hr].
    pose proof (connack_applied (negb (N.land f 1 =? 0)) rc ps r H1 H2) as Hg. change (connack_new _ rc) with (mkconnack (negb (N.land f 1 =? 0)) rc None None None None None None None None [] None None None None None None None None) in Hg.
    rewrite <- H3 in Hg. destruct Hg as (G1 & G2 & Hg). exists ps, (l' ++ r). split.
    { rewrite G1, G2, <- Ef', Ef. apply frame_make. exact Hl. }
    split; [exists l', r; auto|]. split; [exact H2|exact Hg].
  - intros (ps & bp & Hfr & Hs & Ho & Hg). apply frame_body in Hfr as [E1 E2]; [|exact Hl]. rewrite (proj2 (only_flags0 first 2 Hfirst Ht) E1). cbn [negb].
    rewrite <- E2 in Hok |- *. cbn [app read_u8]. destruct (b2n_byte (ca_session_present v)) as (B1 & B2 & B3). rewrite B2, B3. cbn [negb N.eqb].
    destruct (read_section ps bp [] Hs (Forall_nil _)) as (b & Ev & Hp). rewrite app_nil_r in Ev. rewrite Ev, app_nil_r, N.eqb_refl. cbn [negb].
    apply (read_all_iff read_connack_property (kind_of connack_ids) connack_apply connack_ids connack_read_eq (kind_of_in _)); [exact (props_bytes ps b Hp)|].
    exists ps. split; [exact Hp|]. split; [exact Ho|]. eapply connack_fun; [|exact (connack_applied (ca_session_present v) (ca_reason_code v) ps b Hp Ho)]. split; [reflexivity|]. split; [reflexivity|exact Hg].
Qed.

(** ** PUBLISH *)
Definition publish_ids : list N := [1; 2; 35; 8; 9; 38; 11; 3].
Definition publish_apply (v : publish) (id : N) (x : pval) : publish :=
  let '(mkpublish pl pid q d r t pf me ta rt cd si ct up) := v in
  match id, x with
  | 1, PV8 x => mkpublish pl pid q d r t (Some x) me ta rt cd si ct up
  | 2, PV32 x => mkpublish pl pid q d r t pf (Some x) ta rt cd si ct up
  | 35, PV16 x => mkpublish pl pid q d r t pf me (Some x) rt cd si ct up
  | 8, PVstr x => mkpublish pl pid q d r t pf me ta (Some x) cd si ct up
  | 9, PVstr x => mkpublish pl pid q d r t pf me ta rt (Some x) si ct up
  | 38, PVpair x => mkpublish pl pid q d r t pf me ta rt cd si ct (up ++ [x])
  | 11, PVvar x => mkpublish pl pid q d r t pf me ta rt cd (si ++ [x]) ct up
  | 3, PVstr x => mkpublish pl pid q d r t pf me ta rt cd si (Some x) up
  | _, _ => v
  end.
Lemma publish_read_eq v c : read_publish_property v c =
  match c with [] => None | id :: c => match kind_of publish_ids id with Some k => match read_value k c with Some (x, r) => Some (publish_apply v id x, r) | None => None end | None => None end end.
Proof. destruct v as [pl pid q d r t pf me ta rt cd si ct up]. unfold read_publish_property. destruct c as [|id c]; [reflexivity|]. read_eq_tac id c publish_ids. Qed.
Definition publish_good (pid q : N) (d r : bool) (t pl : bytes) (ps : list property) (v : publish) : Prop :=
  pb_packet_id v = pid /\ pb_qos v = q /\ pb_duplicate v = d /\ pb_retain v = r /\ pb_topic v = t /\ pb_payload v = pl /\
    latest PV8 (pb_payload_format v) (vals 1 ps) /\ latest PV32 (pb_message_expiry v) (vals 2 ps) /\
    latest PV16 (pb_topic_alias v) (vals 35 ps) /\ latest PVstr (pb_response_topic v) (vals 8 ps) /\
    latest PVstr (pb_correlation_data v) (vals 9 ps) /\ vals 11 ps = map PVvar (pb_subscription_identifiers v) /\
    latest PVstr (pb_content_type v) (vals 3 ps) /\ vals 38 ps = map PVpair (pb_user_properties v).
Definition publish_new pid q d r t pl : publish := mkpublish pl pid q d r t None None None None None [] None [].
Lemma publish_applied pid q d r t pl ps bs : props_wire ps bs -> only publish_ids ps -> publish_good pid q d r t pl ps (applied publish_apply ps (publish_new pid q d r t pl)).
Proof.
  revert ps bs. apply (applied_ind (kind_of publish_ids) publish_apply publish_ids (kind_of_in _) (publish_good pid q d r t pl)).
  - unfold publish_good, publish_new. cbn. splits; reflexivity.
  - intros ps v id k x b Hg Hk Hx. destruct v as [pl0 pid0 q0 d0 r0 t0 pf me ta rt cd si ct up]. unfold publish_good in *. cbn in Hg.
    repeat match goal with H : _ /\ _ |- _ => destruct H end. kind_cases Hk Hx; cbn [publish_apply pb_payload pb_packet_id pb_qos pb_duplicate pb_retain pb_topic pb_payload_format pb_message_expiry
      pb_topic_alias pb_response_topic pb_correlation_data pb_subscription_identifiers pb_content_type pb_user_properties]; splits; snoc_goal.
Qed.
Lemma publish_fun pid q d r t pl ps v v' : publish_good pid q d r t pl ps v -> publish_good pid q d r t pl ps v' -> v = v'.
Proof. destruct v, v'. unfold publish_good. cbn. intros H H'. repeat match goal with H : _ /\ _ |- _ => destruct H end. fun_tac. subst. reflexivity. Qed.
Lemma publish_flags_of f : f < 256 ->
  N.land f 15 = 8 * b2n (negb (N.land f 8 =? 0)) + 2 * N.land (N.shiftr f 1) 3 + b2n (negb (N.land f 1 =? 0)) /\ N.land (N.shiftr f 1) 3 <= 3.
Proof.
  intros H. assert (G : forall f, f < 256 -> (N.land f 15 =? 8 * b2n (negb (N.land f 8 =? 0)) + 2 * N.land (N.shiftr f 1) 3 + b2n (negb (N.land f 1 =? 0))) && (N.land (N.shiftr f 1) 3 <=? 3) = true) by (apply byte_sweep; vm_compute; reflexivity).
  specialize (G f H). apply andb_prop in G as [G1 G2]. apply N.eqb_eq in G1. apply N.leb_le in G2. auto.
Qed.
Lemma publish_flags_to d q r : q <= 3 -> let f := 3 * 16 + (8 * b2n d + 2 * q + b2n r) in
  negb (N.land f 8 =? 0) = d /\ N.land (N.shiftr f 1) 3 = q /\ negb (N.land f 1 =? 0) = r.
Proof. intros H. assert (q = 0 \/ q = 1 \/ q = 2 \/ q = 3) as [->|[->|[->| ->]]] by lia; destruct d, r; vm_compute; auto. Qed.
Lemma with_payload_good pid q d r t ps v pl : publish_good pid q d r t [] ps v -> publish_good pid q d r t pl ps (with_payload v pl).
Proof. destruct v. unfold publish_good. cbn. tauto. Qed.
Lemma publish_exact v : first / 16 = 3 -> decode_publish_view first (len body) body = Some v <-> publish_accepted v (first :: l ++ body).
Proof.
  intros Ht. unfold decode_publish_view. rewrite N.eqb_refl. cbn [negb]. split.
  - destruct (read_prefixed body) as [[t c1]|] eqn:E1; [|discriminate]. pose proof (publish_flags_of first Hfirst) as [Ff Fq].
    pose proof (first_flags first 3 Hfirst Ht) as Ef. rewrite Ff in Ef.
    set (q := N.land (N.shiftr first 1) 3) in *. set (d := negb (N.land first 8 =? 0)) in *. set (r := negb (N.land first 1 =? 0)) in *. clearbody q d r.
    apply prefixed_inv in E1 as (bt & Eb & Hbt); [|exact Hok]. pose proof Hok as Hok1. rewrite Eb in Hok1. apply Forall_app in Hok1 as [_ Hok1].
    destruct (if 0 <? q then read_be16 c1 else Some (0, c1)) as [[pid c2]|] eqn:E2; [|discriminate].
    assert (H2 : c1 = (if q =? 0 then [] else be16 pid) ++ c2 /\ (if q =? 0 then pid = 0 else pid < 65536)).
    { destruct (N.eqb_spec q 0) as [->|Hq]; [injection E2 as <- <-; auto|]. destruct (N.ltb_spec 0 q); [|lia]. apply be16_inv in E2; auto. }
    destruct H2 as [Ec1 Hpid]. assert (Hok2 : bytes_ok c2) by (rewrite Ec1 in Hok1; apply Forall_app in Hok1 as [_ Hok1]; exact Hok1).
    destruct (read_vli c2) as [[n c3]|] eqn:Ev; [|discriminate]. destruct (read_section_inv c2 n c3 Hok2 Ev) as (lp & Ec2 & Hlp & Hok3).
    destruct (N.ltb_spec (len c3) n) as [|Hn]; [discriminate|]. destruct (advance_split c3 n Hn) as (x & y & Ea & Ec3 & Hx). rewrite Ea.
    assert (Hokx : bytes_ok x) by (rewrite Ec3 in Hok3; apply Forall_app in Hok3 as [Hok3 _]; exact Hok3).
    destruct (read_all read_publish_property (mkpublish [] pid q d r t None None None None None [] None []) x) as [v0|] eqn:Er; [|discriminate].
    apply (read_all_iff read_publish_property (kind_of publish_ids) publish_apply publish_ids publish_read_eq (kind_of_in _)) in Er as (ps & Hp & Ho & Hv0); [|exact Hokx].
    pose proof (with_payload_good _ _ _ _ _ _ _ y (publish_applied pid q d r t [] ps x Hp Ho)) as Hg. change (publish_new pid q d r t []) with (mkpublish [] pid q d r t None None None None None [] None []) in Hg.
    rewrite <- Hv0 in Hg. intros E; injection E as <-. destruct Hg as (G1 & G2 & G3 & G4 & G5 & G6 & Hg).
    exists ps, (lp ++ x), bt. rewrite G1, G2, G3, G4, G5, G6. split.
    { rewrite Ef. replace (bt ++ (if q =? 0 then [] else be16 pid) ++ (lp ++ x) ++ y) with body by (rewrite Eb, Ec1, Ec2, Ec3, <- app_assoc; reflexivity). apply frame_make. exact Hl. }
    split; [exact Fq|]. split; [exact Hpid|]. split; [exact Hbt|]. split; [exists lp, x; split; [rewrite Hx; exact Hlp|auto]|]. split; [exact Ho|exact Hg].
  - intros (ps & bp & bt & Hfr & Hq & Hpid & Hbt & Hs & Ho & Hg). apply frame_body in Hfr as [E1 E2]; [|exact Hl].
    destruct (publish_flags_to (pb_duplicate v) (pb_qos v) (pb_retain v) Hq) as (F1 & F2 & F3). rewrite <- E1 in F1, F2, F3. rewrite F1, F2, F3. rewrite <- E2.
    rewrite (prefixed_read _ _ _ Hbt).
    assert (Hokp : bytes_ok (pb_payload v)) by (rewrite <- E2 in Hok; repeat (apply Forall_app in Hok as [_ Hok]); exact Hok).
    replace (if 0 <? pb_qos v then read_be16 ((if pb_qos v =? 0 then [] else be16 (pb_packet_id v)) ++ bp ++ pb_payload v) else Some (0, (if pb_qos v =? 0 then [] else be16 (pb_packet_id v)) ++ bp ++ pb_payload v))
      with (Some (pb_packet_id v, bp ++ pb_payload v)).
    2:{ destruct (N.eqb_spec (pb_qos v) 0) as [Eq|Hq0]; [rewrite Eq, Hpid; reflexivity|]. destruct (N.ltb_spec 0 (pb_qos v)); [|lia]. rewrite be16_read by exact Hpid. reflexivity. }
    destruct (read_section ps bp _ Hs Hokp) as (b & Ev & Hp). rewrite Ev, len_app. destruct (N.ltb_spec (len b + len (pb_payload v)) (len b)); [lia|]. rewrite advance_exact.
    change (mkpublish [] (pb_packet_id v) (pb_qos v) (pb_duplicate v) (pb_retain v) (pb_topic v) None None None None None [] None []) with (publish_new (pb_packet_id v) (pb_qos v) (pb_duplicate v) (pb_retain v) (pb_topic v) []).
    rewrite (proj2 (read_all_iff read_publish_property (kind_of publish_ids) publish_apply publish_ids publish_read_eq (kind_of_in _)
      (publish_new (pb_packet_id v) (pb_qos v) (pb_duplicate v) (pb_retain v) (pb_topic v) []) b _ (props_bytes ps b Hp)) (ex_intro _ ps (conj Hp (conj Ho eq_refl)))).
    f_equal. eapply publish_fun; [apply with_payload_good; apply (publish_applied _ _ _ _ _ _ ps b Hp Ho)|]. unfold publish_good. splits; try reflexivity; apply Hg.
Qed.

(** ** PUBACK *)
Definition puback_ids : list N := [31; 38].
Definition puback_apply (v : puback) (id : N) (x : pval) : puback :=
  let '(mkpuback pid rc rs up) := v in
  match id, x with
  | 31, PVstr x => mkpuback pid rc (Some x) up
  | 38, PVpair x => mkpuback pid rc rs (up ++ [x])
  | _, _ => v
  end.
Lemma puback_read_eq v c : read_puback_property v c =
  match c with [] => None | id :: c => match kind_of puback_ids id with Some k => match read_value k c with Some (x, r) => Some (puback_apply v id x, r) | None => None end | None => None end end.
Proof. destruct v as [pid rc rs up]. unfold read_puback_property. destruct c as [|id c]; [reflexivity|]. read_eq_tac id c puback_ids. Qed.
Definition puback_good (pid rc : N) (ps : list property) (v : puback) : Prop :=
  pa_packet_id v = pid /\ pa_reason_code v = rc /\ latest PVstr (pa_reason_string v) (vals 31 ps) /\ vals 38 ps = map PVpair (pa_user_properties v).
Lemma puback_applied pid rc ps bs : props_wire ps bs -> only puback_ids ps -> puback_good pid rc ps (applied puback_apply ps (mkpuback pid rc None [])).
Proof.
  revert ps bs. apply (applied_ind (kind_of puback_ids) puback_apply puback_ids (kind_of_in _) (puback_good pid rc)).
  - unfold puback_good. cbn. splits; reflexivity.
  - intros ps v id k x b Hg Hk Hx. destruct v as [pid0 rc0 rs up]. unfold puback_good in *. cbn in Hg.
    repeat match goal with H : _ /\ _ |- _ => destruct H end. kind_cases Hk Hx; cbn [puback_apply pa_packet_id pa_reason_code pa_reason_string pa_user_properties]; splits; snoc_goal.
Qed.
Lemma puback_fun pid rc ps v v' : puback_good pid rc ps v -> puback_good pid rc ps v' -> v = v'.
Proof. destruct v, v'. unfold puback_good. cbn. intros H H'. repeat match goal with H : _ /\ _ |- _ => destruct H end. fun_tac. subst. reflexivity. Qed.
Lemma only_nil ids : only ids []. Proof. constructor. Qed.
Lemma puback_exact v : first / 16 = 4 -> decode_puback first (len body) body = Some v <-> puback_accepted v (first :: l ++ body).
Proof.
  intros Ht. unfold decode_puback. rewrite N.eqb_refl. cbn [negb]. split.
  - destruct (N.land first 15 =? 0) eqn:Ef; [|discriminate]. apply (only_flags0 first 4 Hfirst Ht) in Ef. cbn [negb].
    destruct (read_be16 body) as [[pid c1]|] eqn:E1; [|discriminate]. apply be16_inv in E1 as [Eb Hpid]; [|exact Hok].
    assert (Hok1 : bytes_ok c1) by (rewrite Eb in Hok; apply Forall_app in Hok as [_ Hok]; exact Hok).
    destruct c1 as [|rc c2].
    { cbn. intros E; injection E as <-. exists [], []. split; [rewrite Ef; cbn [pa_packet_id]; rewrite <- Eb; apply frame_make; exact Hl|]. split; [exact Hpid|]. split; [left; auto|]. split; [apply only_nil|cbn; auto]. }
    rewrite len_cons. destruct (N.ltb_spec 0 (1 + len c2)) as [_|]; [|lia]. cbn [negb read_u8].
    destruct c2 as [|x c2].
    { cbn. intros E; injection E as <-. exists [], [rc]. split; [rewrite Ef; cbn [pa_packet_id]; rewrite <- Eb; apply frame_make; exact Hl|]. split; [exact Hpid|]. split; [right; left; auto|]. split; [apply only_nil|cbn; auto]. }
    rewrite len_cons. destruct (N.ltb_spec 0 (1 + len c2)) as [_|]; [|lia]. cbn [negb]. apply Forall_cons_iff in Hok1 as [_ Hok2].
    destruct (read_vli (x :: c2)) as [[n r]|] eqn:Ev; [|discriminate]. destruct (read_section_inv _ n r Hok2 Ev) as (lp & Ec2 & Hlp & Hr).
    destruct (N.eqb_spec n (len r)) as [->|]; [|discriminate]. cbn [negb]. intros E.
    apply (read_all_iff read_puback_property (kind_of puback_ids) puback_apply puback_ids puback_read_eq (kind_of_in _)) in E as (ps & H1 & H2 & H3); [|exact Hr].
    pose proof (puback_applied pid rc ps r H1 H2) as Hg. rewrite <- H3 in Hg. destruct Hg as (G1 & G2 & Hg).
    exists ps, (rc :: x :: c2). split; [rewrite Ef, G1, <- Eb; apply frame_make; exact Hl|]. split; [rewrite G1; exact Hpid|].
    split; [right; right; exists (x :: c2); rewrite G2; split; [reflexivity|exists lp, r; auto]|]. split; [exact H2|exact Hg].
  - intros (ps & tail & Hfr & Hpid & Htail & Ho & Hg). apply frame_body in Hfr as [E1 E2]; [|exact Hl]. rewrite (proj2 (only_flags0 first 4 Hfirst Ht) E1). cbn [negb].
    rewrite <- E2. rewrite be16_read by exact Hpid.
    assert (HG : puback_good (pa_packet_id v) (pa_reason_code v) ps v) by (split; [reflexivity|split; [reflexivity|exact Hg]]).
    destruct Htail as [(-> & Erc & ->)|[(-> & ->)|(bp & -> & Hs)]].
    + change (Some (mkpuback (pa_packet_id v) 0 None []) = Some v). f_equal. rewrite Erc in HG. eapply puback_fun; [|exact HG]. unfold puback_good; cbn; auto.
    + change (Some (mkpuback (pa_packet_id v) (pa_reason_code v) None []) = Some v). f_equal. eapply puback_fun; [|exact HG]. unfold puback_good; cbn; auto.
    + rewrite len_cons. destruct (N.ltb_spec 0 (1 + len bp)) as [_|]; [|lia]. cbn [negb read_u8].
      destruct (read_section ps bp [] Hs (Forall_nil _)) as (b & Ev & Hp). rewrite !app_nil_r in Ev.
      destruct (N.ltb_spec 0 (len bp)) as [_|Hz]; [|destruct bp; [discriminate Ev|rewrite len_cons in Hz; lia]]. cbn [negb]. rewrite Ev, N.eqb_refl. cbn [negb].
      apply (read_all_iff read_puback_property (kind_of puback_ids) puback_apply puback_ids puback_read_eq (kind_of_in _)); [exact (props_bytes ps b Hp)|].
      exists ps. split; [exact Hp|]. split; [exact Ho|]. eapply puback_fun; [exact HG|apply (puback_applied _ _ ps b Hp Ho)].
Qed.

(** ** SUBACK and UNSUBACK *)
Definition suback_apply (v : suback) (id : N) (x : pval) : suback :=
  let '(mksuback pid rs up rcs) := v in
  match id, x with
  | 31, PVstr x => mksuback pid (Some x) up rcs
  | 38, PVpair x => mksuback pid rs (up ++ [x]) rcs
  | _, _ => v
  end.
Lemma suback_read_eq v c : read_suback_property v c =
  match c with [] => None | id :: c => match kind_of puback_ids id with Some k => match read_value k c with Some (x, r) => Some (suback_apply v id x, r) | None => None end | None => None end end.
Proof. destruct v as [pid rs up rcs]. unfold read_suback_property. destruct c as [|id c]; [reflexivity|]. read_eq_tac id c puback_ids. Qed.
Definition suback_good (pid : N) (rcs : bytes) (ps : list property) (v : suback) : Prop :=
  sa_packet_id v = pid /\ sa_reason_codes v = rcs /\ latest PVstr (sa_reason_string v) (vals 31 ps) /\ vals 38 ps = map PVpair (sa_user_properties v).
Lemma suback_applied pid rcs ps bs : props_wire ps bs -> only puback_ids ps -> suback_good pid rcs ps (applied suback_apply ps (mksuback pid None [] rcs)).
Proof.
  revert ps bs. apply (applied_ind (kind_of puback_ids) suback_apply puback_ids (kind_of_in _) (suback_good pid rcs)).
  - unfold suback_good. cbn. splits; reflexivity.
  - intros ps v id k x b Hg Hk Hx. destruct v as [pid0 rs up rcs0]. unfold suback_good in *. cbn in Hg.
    repeat match goal with H : _ /\ _ |- _ => destruct H end. kind_cases Hk Hx; cbn [suback_apply sa_packet_id sa_reason_codes sa_reason_string sa_user_properties]; splits; snoc_goal.
Qed.
Lemma suback_fun pid rcs ps v v' : suback_good pid rcs ps v -> suback_good pid rcs ps v' -> v = v'.
Proof. destruct v, v'. unfold suback_good. cbn. intros H H'. repeat match goal with H : _ /\ _ |- _ => destruct H end. fun_tac. subst. reflexivity. Qed.
Lemma with_codes_good pid ps v rcs : suback_good pid [] ps v -> suback_good pid rcs ps (with_codes v rcs).
Proof. destruct v. unfold suback_good. cbn. tauto. Qed.
Lemma suback_exact v : decode_suback body = Some v <-> ack_accepted (first / 16) v (first :: l ++ body).
Proof.
  unfold decode_suback. split.
  - destruct (read_be16 body) as [[pid c1]|] eqn:E1; [|discriminate]. apply be16_inv in E1 as [Eb Hpid]; [|exact Hok].
    assert (Hok1 : bytes_ok c1) by (rewrite Eb in Hok; apply Forall_app in Hok as [_ Hok]; exact Hok).
    destruct (read_vli c1) as [[n r]|] eqn:Ev; [|discriminate]. destruct (read_section_inv _ n r Hok1 Ev) as (lp & Ec1 & Hlp & Hr).
    pose proof (first_flags first _ Hfirst eq_refl) as Ef. assert (Hfl : N.land first 15 < 16) by (rewrite land15; apply N.mod_lt; discriminate).
    destruct (N.leb_spec n (len r)) as [Hn|Hn].
    + destruct (advance_split r n Hn) as (x & y & Ea & Er & Hx). rewrite Ea.
      assert (Hokx : bytes_ok x) by (rewrite Er in Hr; apply Forall_app in Hr as [Hr _]; exact Hr).
      destruct (read_all read_suback_property (mksuback pid None [] []) x) as [v0|] eqn:E; [|discriminate].
      apply (read_all_iff read_suback_property (kind_of puback_ids) suback_apply puback_ids suback_read_eq (kind_of_in _)) in E as (ps & H1 & H2 & H3); [|exact Hokx].
      pose proof (with_codes_good _ _ _ y (suback_applied pid [] ps x H1 H2)) as Hg. rewrite <- H3 in Hg. intros E; injection E as <-. destruct Hg as (G1 & G2 & Hg).
      exists (N.land first 15), (lp ++ x). split; [exact Hfl|]. rewrite G1, G2. split.
      { replace (be16 pid ++ (lp ++ x) ++ y) with body by (rewrite Eb, Ec1, Er, <- app_assoc; reflexivity). apply frame_make'; [exact Ef|exact Hl]. }
      split; [exact Hpid|]. right. exists ps. split; [exists lp, x; split; [rewrite Hx; exact Hlp|auto]|]. split; [exact H2|exact Hg].
    + unfold advance. destruct (N.leb_spec n (len r)) as [|_]; [lia|]. cbn. intros E; injection E as <-.
      exists (N.land first 15), lp. split; [exact Hfl|]. cbn [sa_packet_id sa_reason_codes]. split.
      { rewrite <- Ec1, <- Eb. apply frame_make'; [exact Ef|exact Hl]. }
      split; [exact Hpid|]. left. exists n. cbn. auto.
  - intros (flags & bp & Hfl & Hfr & Hpid & Hd). apply frame_body in Hfr as [_ E2]; [|exact Hl]. rewrite <- E2, be16_read by exact Hpid.
    assert (Hokc : bytes_ok (sa_reason_codes v)) by (rewrite <- E2 in Hok; repeat (apply Forall_app in Hok as [_ Hok]); exact Hok).
    destruct Hd as [(n & Hn & Hlt & Hrs & Hup)|(ps & Hs & Ho & Hg)].
    + rewrite (read_vli_ok n bp _ Hn Hokc). unfold advance. destruct (N.leb_spec n (len (sa_reason_codes v))); [lia|]. destruct v. cbn in *. subst. reflexivity.
    + destruct (read_section ps bp _ Hs Hokc) as (b & Ev & Hp). rewrite Ev, advance_exact.
      rewrite (proj2 (read_all_iff read_suback_property (kind_of puback_ids) suback_apply puback_ids suback_read_eq (kind_of_in _)
        (mksuback (sa_packet_id v) None [] []) b _ (props_bytes ps b Hp)) (ex_intro _ ps (conj Hp (conj Ho eq_refl)))).
      f_equal. eapply suback_fun; [apply with_codes_good; apply (suback_applied _ _ ps b Hp Ho)|]. split; [reflexivity|split; [reflexivity|exact Hg]].
Qed.

(** ** DISCONNECT *)
Definition disconnect_ids : list N := [17; 31; 28; 38].
Definition disconnect_apply (v : disconnect) (id : N) (x : pval) : disconnect :=
  let '(mkdisconnect rc se rs up sr) := v in
  match id, x with
  | 17, PV32 x => mkdisconnect rc (Some x) rs up sr
  | 28, PVstr x => mkdisconnect rc se rs up (Some x)
  | 31, PVstr x => mkdisconnect rc se (Some x) up sr
  | 38, PVpair x => mkdisconnect rc se rs (up ++ [x]) sr
  | _, _ => v
  end.
Lemma disconnect_read_eq v c : read_disconnect_property v c =
  match c with [] => None | id :: c => match kind_of disconnect_ids id with Some k => match read_value k c with Some (x, r) => Some (disconnect_apply v id x, r) | None => None end | None => None end end.
Proof. destruct v as [rc se rs up sr]. unfold read_disconnect_property. destruct c as [|id c]; [reflexivity|]. read_eq_tac id c disconnect_ids. Qed.
Definition disconnect_good (rc : N) (ps : list property) (v : disconnect) : Prop :=
  dc_reason_code v = rc /\ latest PV32 (dc_session_expiry v) (vals 17 ps) /\ latest PVstr (dc_reason_string v) (vals 31 ps) /\
    latest PVstr (dc_server_reference v) (vals 28 ps) /\ vals 38 ps = map PVpair (dc_user_properties v).
Lemma disconnect_applied rc ps bs : props_wire ps bs -> only disconnect_ids ps -> disconnect_good rc ps (applied disconnect_apply ps (mkdisconnect rc None None [] None)).
Proof.
  revert ps bs. apply (applied_ind (kind_of disconnect_ids) disconnect_apply disconnect_ids (kind_of_in _) (disconnect_good rc)).
  - unfold disconnect_good. cbn. splits; reflexivity.
  - intros ps v id k x b Hg Hk Hx. destruct v as [rc0 se rs up sr]. unfold disconnect_good in *. cbn in Hg.
    repeat match goal with H : _ /\ _ |- _ => destruct H end. kind_cases Hk Hx; cbn [disconnect_apply dc_reason_code dc_session_expiry dc_reason_string dc_server_reference dc_user_properties]; splits; snoc_goal.
Qed.
Lemma disconnect_fun rc ps v v' : disconnect_good rc ps v -> disconnect_good rc ps v' -> v = v'.
Proof. destruct v, v'. unfold disconnect_good. cbn. intros H H'. repeat match goal with H : _ /\ _ |- _ => destruct H end. fun_tac. subst. reflexivity. Qed.
Lemma disconnect_exact v : first / 16 = 14 -> decode_disconnect first (len body) body = Some v <-> disconnect_accepted v (first :: l ++ body).
Proof.
  intros Ht. unfold decode_disconnect. rewrite N.eqb_refl. cbn [negb]. split.
  - destruct (N.land first 15 =? 0) eqn:Ef; [|discriminate]. apply (only_flags0 first 14 Hfirst Ht) in Ef. cbn [negb]. clear Ht.
    destruct body as [|rc c2].
    { cbn. intros E; injection E as <-. exists [], []. split; [rewrite Ef; apply frame_make; exact Hl|]. split; [left; auto|]. split; [apply only_nil|cbn; auto]. }
    rewrite len_cons. destruct (N.ltb_spec 0 (1 + len c2)) as [_|]; [|lia]. cbn [negb read_u8].
    destruct c2 as [|x c2].
    { cbn. intros E; injection E as <-. exists [], [rc]. split; [rewrite Ef; apply frame_make; exact Hl|]. split; [right; left; auto|]. split; [apply only_nil|cbn; auto]. }
    rewrite len_cons. destruct (N.eqb_spec (1 + len c2) 0) as [|_]; [lia|]. pose proof Hok as Hok1. apply Forall_cons_iff in Hok1 as [_ Hok2].
    destruct (read_vli (x :: c2)) as [[n r]|] eqn:Ev; [|discriminate]. destruct (read_section_inv _ n r Hok2 Ev) as (lp & Ec2 & Hlp & Hr).
    destruct (N.eqb_spec n (len r)) as [->|]; [|discriminate]. cbn [negb]. intros E.
    apply (read_all_iff read_disconnect_property (kind_of disconnect_ids) disconnect_apply disconnect_ids disconnect_read_eq (kind_of_in _)) in E as (ps & H1 & H2 & H3); [|exact Hr].
    pose proof (disconnect_applied rc ps r H1 H2) as Hg. rewrite <- H3 in Hg. destruct Hg as (G1 & Hg).
    exists ps, (rc :: x :: c2). split; [rewrite Ef; apply frame_make; exact Hl|].
    split; [right; right; exists (x :: c2); rewrite G1; split; [reflexivity|exists lp, r; auto]|]. split; [exact H2|exact Hg].
  - intros (ps & tail & Hfr & Htail & Ho & Hg). apply frame_body in Hfr as [E1 E2]; [|exact Hl]. rewrite (proj2 (only_flags0 first 14 Hfirst Ht) E1). cbn [negb].
    rewrite <- E2.
    assert (HG : disconnect_good (dc_reason_code v) ps v) by (split; [reflexivity|exact Hg]).
    destruct Htail as [(-> & Erc & ->)|[(-> & ->)|(bp & -> & Hs)]].
    + change (Some (mkdisconnect 0 None None [] None) = Some v). f_equal. rewrite Erc in HG. eapply disconnect_fun; [|exact HG]. unfold disconnect_good; cbn; auto.
    + change (Some (mkdisconnect (dc_reason_code v) None None [] None) = Some v). f_equal. eapply disconnect_fun; [|exact HG]. unfold disconnect_good; cbn; auto.
    + rewrite len_cons. destruct (N.ltb_spec 0 (1 + len bp)) as [_|]; [|lia]. cbn [negb read_u8].
      destruct (read_section ps bp [] Hs (Forall_nil _)) as (b & Ev & Hp). rewrite !app_nil_r in Ev.
      destruct (N.eqb_spec (len bp) 0) as [Hz|_]; [destruct bp; [discriminate Ev|rewrite len_cons in Hz; lia]|]. rewrite Ev, N.eqb_refl. cbn [negb].
      apply (read_all_iff read_disconnect_property (kind_of disconnect_ids) disconnect_apply disconnect_ids disconnect_read_eq (kind_of_in _)); [exact (props_bytes ps b Hp)|].
      exists ps. split; [exact Hp|]. split; [exact Ho|]. eapply disconnect_fun; [exact HG|apply (disconnect_applied _ ps b Hp Ho)].
Qed.
Lemma pingresp_exact : first / 16 = 13 -> decode_pingresp first (len body) body = true <-> pingresp_accepted (first :: l ++ body).
Proof.
  intros Ht. unfold decode_pingresp. rewrite !andb_true_iff, !N.eqb_eq. split.
  - intros ((H1 & ->) & _). unfold pingresp_accepted. destruct body; [|rewrite len_cons in H1; lia]. apply (frame_make 13 0 l []). exact Hl.
  - intros Hfr. apply frame_body in Hfr as [-> <-]; [|exact Hl]. auto.
Qed.
(** ** All of them *)
Definition view5 : option packet5 :=
  match N.shiftr first 4 with
  | 2 => option_map P_CONNACK (decode_connack first (len body) body)
  | 3 => option_map P_PUBLISH (decode_publish_view first (len body) body)
  | 4 => option_map P_PUBACK (decode_puback first (len body) body)
  | 9 => option_map P_SUBACK (decode_suback body)
  | 11 => option_map P_UNSUBACK (decode_suback body)
  | 13 => if decode_pingresp first (len body) body then Some P_PINGRESP else None
  | 14 => option_map P_DISCONNECT (decode_disconnect first (len body) body)
  | _ => None
  end.
Lemma packet_exact p : server_byte first -> view5 = Some p <-> packet_accepted p (first :: l ++ body).
Proof.
  intros Hs. unfold view5. rewrite shiftr4.
  assert (Htype : forall t fl b, fl < 16 -> frame t fl b (first :: l ++ body) -> first / 16 = t).
  { intros t fl b Hfl Hf. apply frame_body in Hf as [-> _]; [|exact Hl]. rewrite N.div_add_l by discriminate. rewrite N.div_small by exact Hfl. apply N.add_0_r. }
  assert (T : packet_accepted p (first :: l ++ body) -> match p with P_CONNACK _ => first / 16 = 2 | P_PUBLISH _ => first / 16 = 3 | P_PUBACK _ => first / 16 = 4 | P_SUBACK _ => first / 16 = 9
     | P_UNSUBACK _ => first / 16 = 11 | P_PINGRESP => first / 16 = 13 | P_DISCONNECT _ => first / 16 = 14 | _ => False end).
  { destruct p; cbn [packet_accepted]; auto.
    - intros (? & ? & Hf & _). eapply Htype; [|exact Hf]. reflexivity.
    - intros (? & ? & ? & Hf & Hq & _). eapply Htype; [|exact Hf]. match goal with |- context [pb_duplicate ?p] => destruct (pb_duplicate p), (pb_retain p) end; cbn [b2n]; lia.
    - intros (? & ? & Hf & _). eapply Htype; [|exact Hf]. reflexivity.
    - intros (? & ? & Hfl & Hf & _). eapply Htype; [exact Hfl|exact Hf].
    - intros (? & ? & Hfl & Hf & _). eapply Htype; [exact Hfl|exact Hf].
    - intros Hf. eapply Htype; [|exact Hf]. reflexivity.
    - intros (? & ? & Hf & _). eapply Htype; [|exact Hf]. reflexivity. }
  assert (OM : forall A (f : A -> packet5) (o : option A), option_map f o = Some p <-> exists x, o = Some x /\ p = f x).
  { intros A f [x|]; cbn; split; [intros E; injection E as <-; eauto|intros (y & E & ->); injection E as <-; reflexivity|discriminate|intros (y & E & _); discriminate]. }
  unfold server_byte in Hs. cbn [In] in Hs.
  destruct Hs as [E|[E|[E|[E|[E|[E|[E|[]]]]]]]]; rewrite <- E in *; symmetry in E.
  - rewrite OM. split; [intros (x & Hx & ->); apply (connack_exact x E); exact Hx|]. intros Hp. destruct p; try (apply T in Hp; first [discriminate Hp|contradiction]). eexists. split; [apply (connack_exact _ E); exact Hp|reflexivity].
  - rewrite OM. split; [intros (x & Hx & ->); apply (publish_exact x E); exact Hx|]. intros Hp. destruct p; try (apply T in Hp; first [discriminate Hp|contradiction]). eexists. split; [apply (publish_exact _ E); exact Hp|reflexivity].
  - rewrite OM. split; [intros (x & Hx & ->); apply (puback_exact x E); exact Hx|]. intros Hp. destruct p; try (apply T in Hp; first [discriminate Hp|contradiction]). eexists. split; [apply (puback_exact _ E); exact Hp|reflexivity].
  - rewrite OM. split; [intros (x & Hx & ->); apply suback_exact in Hx; rewrite E in Hx; exact Hx|]. intros Hp. destruct p; try (apply T in Hp; first [discriminate Hp|contradiction]). eexists. split; [apply suback_exact; rewrite E; exact Hp|reflexivity].
  - rewrite OM. split; [intros (x & Hx & ->); apply suback_exact in Hx; rewrite E in Hx; exact Hx|]. intros Hp. destruct p; try (apply T in Hp; first [discriminate Hp|contradiction]). eexists. split; [apply suback_exact; rewrite E; exact Hp|reflexivity].
  - destruct (decode_pingresp first (len body) body) eqn:Ed.
    + split; [intros F; injection F as <-; apply (pingresp_exact E); exact Ed|]. intros Hp. destruct p; try (apply T in Hp; first [discriminate Hp|contradiction]). reflexivity.
    + split; [discriminate|]. intros Hp. destruct p; try (apply T in Hp; first [discriminate Hp|contradiction]). apply (pingresp_exact E) in Hp. congruence.
  - rewrite OM. split; [intros (x & Hx & ->); apply (disconnect_exact x E); exact Hx|]. intros Hp. destruct p; try (apply T in Hp; first [discriminate Hp|contradiction]). eexists. split; [apply (disconnect_exact _ E); exact Hp|reflexivity].
Qed.
End Exact.
