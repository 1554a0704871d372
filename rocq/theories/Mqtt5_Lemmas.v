(** Facts about the MQTT 5 wire format of Mqtt5_Spec.v: it can be read in only one way, and what lengths it implies. *)
From Verif Require Import Base BaseLemmas Vli_Spec Vli_Lemmas Mqtt5_Views Mqtt5_Spec.
From Coq Require Import Permutation.

(** projections of the views applied to constructors *)
Ltac view_cbn := cbn [pb_payload pb_packet_id pb_qos pb_duplicate pb_retain pb_topic pb_payload_format pb_message_expiry pb_topic_alias
  pb_response_topic pb_correlation_data pb_subscription_identifiers pb_content_type pb_user_properties
  wl_payload wl_qos wl_retain wl_topic wl_payload_format wl_message_expiry wl_response_topic wl_correlation_data wl_content_type
  wl_user_properties cn_keep_alive cn_client_id cn_username cn_password cn_clean_start cn_session_expiry cn_request_response_info
  cn_request_problem_info cn_receive_maximum cn_topic_alias_maximum cn_maximum_packet_size cn_will_delay cn_will cn_user_properties
  cn_auth_method cn_auth_data pa_packet_id pa_reason_code pa_reason_string pa_user_properties sn_topic_filter sn_qos sn_no_local
  sn_retain_as_published sn_retain_handling sb_packet_id sb_subscriptions sb_subscription_identifier sb_user_properties us_packet_id
  us_topic_filters us_user_properties dc_reason_code dc_session_expiry dc_reason_string dc_user_properties dc_server_reference
  ca_session_present ca_reason_code ca_session_expiry ca_receive_maximum ca_maximum_qos ca_retain_available ca_maximum_packet_size
  ca_assigned_client_id ca_topic_alias_maximum ca_reason_string ca_user_properties ca_wildcard_available ca_sub_ids_available
  ca_shared_available ca_server_keep_alive ca_response_information ca_server_reference ca_auth_method ca_auth_data
  sa_packet_id sa_reason_string sa_user_properties sa_reason_codes] in *.

(** ** Shortest encodings of variable byte integers *)
Definition vsize (n : N) : N := if n <? 128 then 1 else if n <? 16384 then 2 else if n <? 2097152 then 3 else 4.
Fixpoint vbytes (fuel : nat) (n : N) : bytes :=
  match fuel with
  | O => []
  | S f => if n / 128 =? 0 then [n mod 128] else (n mod 128 + 128) :: vbytes f (n / 128)
  end.
Lemma vbytes_vli f : forall n, n < 128 ^ N.of_nat (S f) -> vli n (vbytes (S f) n).
Proof.
  induction f as [|f IH]; intros n Hn.
  - change (128 ^ N.of_nat 1) with 128 in Hn. cbn [vbytes]. destruct (N.eqb_spec (n / 128) 0); [|lia].
    replace (n mod 128) with n by lia. constructor. lia.
  - remember (S f) as g. cbn [vbytes]. destruct (N.eqb_spec (n / 128) 0).
    + replace (n mod 128) with n by lia. constructor. lia.
    + assert (H : n = n mod 128 + 128 * (n / 128)) by lia. rewrite H at 1. constructor; [lia|]. apply IH.
      replace (N.of_nat (S g)) with (1 + N.of_nat g) in Hn by lia. rewrite N.pow_add_r in Hn. change (128 ^ 1) with 128 in Hn.
      apply N.div_lt_upper_bound; lia.
Qed.
Definition vb (n : N) : bytes := vbytes 5 n.
Lemma vb_vli n : n < 4294967296 -> vli n (vb n).
Proof. intros H. apply vbytes_vli. change (128 ^ N.of_nat 5) with 34359738368. lia. Qed.
Lemma vb_len n : n <= 268435455 -> len (vb n) = vsize n.
Proof.
  intros H. unfold vb, vsize. cbn [vbytes].
  destruct (N.ltb_spec n 128); [destruct (N.eqb_spec (n / 128) 0); [reflexivity|lia]|].
  destruct (N.eqb_spec (n / 128) 0); [lia|].
  destruct (N.ltb_spec n 16384); [destruct (N.eqb_spec (n / 128 / 128) 0); [reflexivity|lia]|].
  destruct (N.eqb_spec (n / 128 / 128) 0); [lia|].
  destruct (N.ltb_spec n 2097152); [destruct (N.eqb_spec (n / 128 / 128 / 128) 0); [reflexivity|lia]|].
  destruct (N.eqb_spec (n / 128 / 128 / 128) 0); [lia|].
  destruct (N.eqb_spec (n / 128 / 128 / 128 / 128) 0); [reflexivity|lia].
Qed.
Lemma vsize_le n : vsize n <= 4.
Proof. unfold vsize. destruct (n <? 128); [lia|]. destruct (n <? 16384); [lia|]. destruct (n <? 2097152); lia. Qed.
Lemma vsize_pos n : 1 <= vsize n.
Proof. unfold vsize. destruct (n <? 128); [lia|]. destruct (n <? 16384); [lia|]. destruct (n <? 2097152); lia. Qed.
Lemma vb_legal n : n <= 268435455 -> vli_legal n (vb n).
Proof. intros H. split; [apply vb_vli; lia|]. rewrite (vb_len n H). apply vsize_le. Qed.
Lemma vb_minimal n : n <= 268435455 -> vli_minimal n (vb n).
Proof.
  intros H. apply vli_minimal_intro; [apply vb_vli; lia|]. rewrite (vb_len n H). unfold vsize.
  destruct (N.ltb_spec n 128); [left; reflexivity|right].
  destruct (N.ltb_spec n 16384); [change (128 ^ (2 - 1)) with 128; lia|].
  destruct (N.ltb_spec n 2097152); [change (128 ^ (3 - 1)) with 16384; lia|].
  change (128 ^ (4 - 1)) with 2097152. lia.
Qed.
Lemma vli_legal_le n bs : vli_legal n bs -> n <= 268435455.
Proof.
  intros [H Hl]. pose proof (vli_bound _ _ H). assert (128 ^ len bs <= 128 ^ 4) by (apply N.pow_le_mono_r; lia).
  change (128 ^ 4) with 268435456 in *. lia.
Qed.
Lemma vli_legal_size n bs : vli_legal n bs -> vsize n <= len bs.
Proof.
  intros H. pose proof (vli_legal_le _ _ H) as Hle. rewrite <- (vb_len n Hle). apply (vb_minimal n Hle). apply H.
Qed.
Lemma vli_legal_pos n bs : vli_legal n bs -> 1 <= len bs.
Proof. intros [H _]. exact (vli_len_pos _ _ H). Qed.
Lemma vsize_mono n m : n <= m -> vsize n <= vsize m.
Proof.
  intros H. unfold vsize. destruct (N.ltb_spec n 128), (N.ltb_spec m 128); try lia.
  all: destruct (N.ltb_spec n 16384), (N.ltb_spec m 16384); try lia.
  all: destruct (N.ltb_spec n 2097152), (N.ltb_spec m 2097152); lia.
Qed.

(** ** Reading in one way only *)
Definition prefix_code {A} (R : A -> bytes -> Prop) : Prop :=
  forall a b x y r s, R a x -> R b y -> x ++ r = y ++ s -> a = b /\ x = y /\ r = s.
Lemma app_eq_len {A} (x y r s : list A) : length x = length y -> x ++ r = y ++ s -> x = y /\ r = s.
Proof.
  revert y; induction x as [|a x IH]; intros [|b y] Hl E; cbn in *; try discriminate; [auto|].
  inversion E; subst. destruct (IH y ltac:(lia) H1) as [-> ->]. auto.
Qed.
Lemma vli_legal_code : prefix_code vli_legal.
Proof. intros a b x y r s [Ha _] [Hb _] E. exact (vli_det _ _ _ _ _ _ Ha Hb E). Qed.
Lemma be16_code a b r s : a < 65536 -> b < 65536 -> be16 a ++ r = be16 b ++ s -> a = b /\ r = s.
Proof.
  intros Ha Hb E. pose proof (read_be16_be16 a r Ha) as H. rewrite E, (read_be16_be16 b s Hb) in H. injection H as -> ->. auto.
Qed.
Lemma be32_code a b r s : a < 4294967296 -> b < 4294967296 -> be32 a ++ r = be32 b ++ s -> a = b /\ r = s.
Proof.
  intros Ha Hb E. pose proof (read_be32_be32 a r Ha) as H. rewrite E, (read_be32_be32 b s Hb) in H. injection H as -> ->. auto.
Qed.
Lemma str_code : prefix_code str_wire.
Proof.
  intros a b x y r s (Ha & _ & ->) (Hb & _ & ->) E. rewrite <- !app_assoc in E. apply be16_code in E as [El E]; [|auto|auto].
  assert (length a = length b) as Hl by (unfold len in El; lia).
  destruct (app_eq_len _ _ _ _ Hl E) as [-> ->]. auto.
Qed.
Lemma pval_code k : prefix_code (pval_wire k).
Proof.
  intros a b x y r s Ha Hb E. destruct Ha; inversion Hb; subst; clear Hb.
  - cbn in E. inversion E; subst. auto.
  - apply be16_code in E as [-> ->]; auto.
  - apply be32_code in E as [-> ->]; auto.
  - match goal with H1 : vli_legal _ _, H2 : vli_legal _ _ |- _ => destruct (vli_legal_code _ _ _ _ _ _ H1 H2 E) as (-> & -> & ->) end. auto.
  - match goal with H1 : str_wire s0 _, H2 : str_wire _ y |- _ => destruct (str_code _ _ _ _ _ _ H1 H2 E) as (-> & -> & ->) end. auto.
  - rewrite <- !app_assoc in E.
    match goal with H1 : str_wire k _, H2 : str_wire k0 _ |- _ => destruct (str_code _ _ _ _ _ _ H1 H2 E) as (-> & -> & E') end.
    match goal with H1 : str_wire v _, H2 : str_wire v0 _ |- _ => destruct (str_code _ _ _ _ _ _ H1 H2 E') as (-> & -> & ->) end. auto.
Qed.
Lemma table_fun id k k' : In (id, k) property_table -> In (id, k') property_table -> k = k'.
Proof.
  intros H H'. cbn [property_table In] in H, H'.
  repeat (destruct H as [H|H]; [inversion H; subst; clear H;
    repeat (destruct H' as [H'|H']; [inversion H'; subst; reflexivity|]); destruct H'|]). destruct H.
Qed.
Lemma props_unique ps qs b : props_wire ps b -> props_wire qs b -> ps = qs.
Proof.
  intros H; revert qs; induction H as [|id k v ps b bs Hk Hv Hp IH]; intros qs Hq.
  - inversion Hq; auto.
  - inversion Hq as [|id' k' v' qs' b' bs' Hk' Hv' Hq' E1]; subst.
    match goal with E : _ ++ _ = _ ++ _ |- _ => rename E into E2 end.
    assert (k = k') by (eapply table_fun; eauto). subst k'.
    destruct (pval_code k _ _ _ _ _ _ Hv Hv' (eq_sym E2)) as (-> & -> & ->). f_equal. auto.
Qed.
Lemma section_code : prefix_code section_wire.
Proof.
  intros ps qs x y r s (l & b & Hl & Hb & ->) (l' & b' & Hl' & Hb' & ->) E. rewrite <- !app_assoc in E.
  destruct (vli_legal_code _ _ _ _ _ _ Hl Hl' E) as (El & -> & E').
  destruct (app_eq_len b b' r s) as [-> ->]; [unfold len in El; lia|exact E'|].
  split; [exact (props_unique _ _ _ Hb Hb')|auto].
Qed.
Lemma frame_unique t f b t' f' b' bs : f < 16 -> f' < 16 -> frame t f b bs -> frame t' f' b' bs -> t = t' /\ f = f' /\ b = b'.
Proof.
  intros Hf Hf' (l & Hl & ->) (l' & Hl' & E). inversion E as [[E1 E2]].
  rewrite <- (app_nil_r (l ++ b)), <- (app_nil_r (l' ++ b')), <- !app_assoc in E2.
  destruct (vli_legal_code _ _ _ _ _ _ Hl Hl' E2) as (_ & _ & E3). rewrite !app_nil_r in E3.
  repeat split; [lia|lia|exact E3].
Qed.
Lemma list_unique {A} (R : A -> bytes -> Prop) : prefix_code R -> (forall a b, R a b -> b <> []) ->
  forall l m b, list_wire R l b -> list_wire R m b -> l = m.
Proof.
  intros HR HN l m b H; revert m; induction H as [|a l x bs Ha Hl IH]; intros m Hm.
  - inversion Hm as [|a' l' b' bs' Ha' Hl' E1 E2]; auto. subst. apply app_eq_nil in E2 as [-> _]. exfalso; eapply HN; eauto.
  - inversion Hm as [E1 E2|a' l' b' bs' Ha' Hl' E1 E2]; subst.
    + symmetry in E2. apply app_eq_nil in E2 as [-> _]. exfalso; eapply HN; eauto.
    + destruct (HR _ _ _ _ _ _ Ha Ha' (eq_sym E2)) as (-> & -> & ->). f_equal. auto.
Qed.

Lemma opt_inj {A} (f : A -> pval) (o o' : option A) : (forall a b, f a = f b -> a = b) -> opt f o = opt f o' -> o = o'.
Proof. intros Hf. destruct o, o'; cbn; intros E; inversion E; auto. f_equal. auto. Qed.
Lemma map_inj {A} (f : A -> pval) l l' : (forall a b, f a = f b -> a = b) -> map f l = map f l' -> l = l'.
Proof.
  intros Hf. revert l'; induction l as [|a l IH]; intros [|b l']; cbn; intros E; try discriminate; auto.
  inversion E. f_equal; auto.
Qed.
Ltac pv_inj := let E := fresh in intros ? ? E; inversion E; reflexivity.
Ltac same_vals :=
  repeat match goal with
  | H : vals ?i ?ps = opt ?f ?o, H' : vals ?i ?ps = opt ?f ?o' |- _ =>
    rewrite H in H'; apply opt_inj in H'; [subst|pv_inj]; clear H
  | H : vals ?i ?ps = map ?f ?o, H' : vals ?i ?ps = map ?f ?o' |- _ =>
    rewrite H in H'; apply map_inj in H'; [subst|pv_inj]; clear H
  end.
Lemma b2n_inj a b : b2n a = b2n b -> a = b.
Proof. destruct a, b; cbn; intros H; try reflexivity; discriminate. Qed.
Lemma str_nonempty s b : str_wire s b -> b <> [].
Proof. intros (_ & _ & ->) E. discriminate. Qed.

(** ** What a section contains *)
Lemma props_val ps b id v : props_wire ps b -> In v (vals id ps) -> exists k x, In (id, k) property_table /\ pval_wire k v x.
Proof.
  induction 1 as [|i k w ps x bs Hk Hw Hp IH]; unfold vals; cbn [filter map fst]; [intros []|].
  destruct (N.eqb_spec i id) as [->|Hne]; cbn [map snd]; [intros [<-|Hin]|]; eauto.
Qed.
Lemma section_val ps b id v : section_wire ps b -> In v (vals id ps) -> exists k x, In (id, k) property_table /\ pval_wire k v x.
Proof. intros (l & x & _ & H & _). exact (props_val _ _ _ _ H). Qed.

Definition pvsize (v : pval) : N :=
  match v with
  | PV8 _ => 1 | PV16 _ => 2 | PV32 _ => 4 | PVvar n => vsize n | PVstr s => 2 + len s
  | PVpair p => 4 + len (fst p) + len (snd p)
  end.
Definition psum (ps : list property) : N := fold_right (fun p n => 1 + pvsize (snd p) + n) 0 ps.
Lemma psum_cons p ps : psum (p :: ps) = 1 + pvsize (snd p) + psum ps.
Proof. reflexivity. Qed.
Lemma psum_app a b : psum (a ++ b) = psum a + psum b.
Proof. induction a as [|p a IH]; cbn [app]; [reflexivity|]. rewrite !psum_cons, IH. lia. Qed.
Lemma psum_perm a b : Permutation a b -> psum a = psum b.
Proof. induction 1; rewrite ?psum_cons in *; lia. Qed.
Lemma pval_size k v b : pval_wire k v b -> pvsize v <= len b.
Proof.
  destruct 1; cbn [pvsize]; autorewrite with len; try lia.
  - apply vli_legal_size; assumption.
  - destruct H as (_ & _ & ->). autorewrite with len. lia.
  - destruct H as (_ & _ & ->), H0 as (_ & _ & ->). autorewrite with len. cbn [fst snd]. lia.
Qed.
Lemma props_size ps b : props_wire ps b -> psum ps <= len b.
Proof.
  induction 1; [cbn; lia|]. rewrite psum_cons. autorewrite with len. cbn [snd].
  match goal with H : pval_wire _ _ _ |- _ => apply pval_size in H end. lia.
Qed.
Lemma vals_app id a b : vals id (a ++ b) = vals id a ++ vals id b.
Proof. unfold vals. rewrite filter_app, map_app. reflexivity. Qed.
Lemma vals_cons id i v ps : vals id ((i, v) :: ps) = if i =? id then v :: vals id ps else vals id ps.
Proof. unfold vals. cbn [filter fst]. destruct (i =? id); reflexivity. Qed.
Lemma vals_none id ps ids : only ids ps -> ~ In id ids -> vals id ps = [].
Proof.
  induction 1 as [|p ps Hp Hf IH]; intros Hn; [reflexivity|]. unfold vals. cbn [filter].
  destruct (N.eqb_spec (fst p) id) as [E|_]; [subst; contradiction|]. apply IH; auto.
Qed.
Lemma vals_split id v vs ps : vals id ps = v :: vs ->
  exists a b, ps = a ++ (id, v) :: b /\ vals id a = [] /\ vals id b = vs.
Proof.
  induction ps as [|[i w] ps IH]; [discriminate|]. unfold vals. cbn [filter fst].
  destruct (N.eqb_spec i id) as [->|Hne]; cbn [map snd].
  - intros E; inversion E; subst. exists [], ps. auto.
  - intros E. destruct (IH E) as (a & b & -> & Ha & Hb). exists ((i, w) :: a), b. repeat split; auto.
    unfold vals. cbn [filter fst]. destruct (N.eqb_spec i id); [contradiction|exact Ha].
Qed.
Lemma vals_perm ps : forall qs, (forall id, vals id ps = vals id qs) -> Permutation ps qs.
Proof.
  induction ps as [|[i v] ps IH]; intros qs H.
  - destruct qs as [|[j w] qs]; [constructor|]. specialize (H j). unfold vals in H. cbn [filter fst] in H.
    rewrite N.eqb_refl in H. discriminate.
  - pose proof (H i) as Hi. unfold vals at 1 in Hi. cbn [filter fst] in Hi. rewrite N.eqb_refl in Hi. cbn [map snd] in Hi.
    destruct (vals_split _ _ _ _ (eq_sym Hi)) as (a & b & -> & Ha & Hb).
    apply Permutation_cons_app. apply IH. intros id. specialize (H id). rewrite vals_app in *. rewrite !vals_cons in H.
    destruct (N.eqb_spec i id) as [->|Hne].
    + rewrite Ha in *. cbn [app] in *. inversion H. reflexivity.
    + exact H.
Qed.
Lemma only_perm ids ps qs : only ids ps -> only ids qs -> Forall (fun id => vals id ps = vals id qs) ids -> Permutation ps qs.
Proof.
  intros Hp Hq Hf. apply vals_perm. intros id. destruct (in_dec N.eq_dec id ids) as [Hi|Hi].
  - rewrite Forall_forall in Hf. auto.
  - rewrite (vals_none _ _ _ Hp Hi), (vals_none _ _ _ Hq Hi). reflexivity.
Qed.

(** ** Every packet can be read in only one way *)
Lemma frame_inj t f b b' bs : frame t f b bs -> frame t f b' bs -> b = b'.
Proof.
  intros (l & Hl & ->) (l' & Hl' & E). inversion E as [E2].
  rewrite <- (app_nil_r (l ++ b)), <- (app_nil_r (l' ++ b')), <- !app_assoc in E2.
  destruct (vli_legal_code _ _ _ _ _ _ Hl Hl' E2) as (_ & _ & E3). rewrite !app_nil_r in E3. exact E3.
Qed.
Lemma b2n_le b : b2n b <= 1. Proof. destruct b; cbn; lia. Qed.
Lemma publish_flags_inj d q r d' q' r' : q <= 2 -> q' <= 2 ->
  8 * b2n d + 2 * q + b2n r = 8 * b2n d' + 2 * q' + b2n r' -> d = d' /\ q = q' /\ r = r'.
Proof. intros. destruct d, d', r, r'; cbn [b2n] in *; repeat split; lia. Qed.
Lemma publish_unique v v' bs : publish_wire v bs -> publish_wire v' bs -> v = v'.
Proof.
  intros (ps & bp & bt & Hf & Hq & Hid & Hok & Ht & Hs & Ho & H1 & H2 & H3 & H4 & H5 & H6 & H7 & H8)
    (ps' & bp' & bt' & Hf' & Hq' & Hid' & Hok' & Ht' & Hs' & Ho' & H1' & H2' & H3' & H4' & H5' & H6' & H7' & H8').
  pose proof (b2n_le (pb_duplicate v)). pose proof (b2n_le (pb_retain v)).
  pose proof (b2n_le (pb_duplicate v')). pose proof (b2n_le (pb_retain v')).
  assert (Hl : 8 * b2n (pb_duplicate v) + 2 * pb_qos v + b2n (pb_retain v) < 16) by lia.
  assert (Hl' : 8 * b2n (pb_duplicate v') + 2 * pb_qos v' + b2n (pb_retain v') < 16) by lia.
  destruct (frame_unique _ _ _ _ _ _ _ Hl Hl' Hf Hf') as (_ & Efl & Eb).
  apply publish_flags_inj in Efl as (Ed & Eq & Er); [|assumption..].
  destruct (str_code _ _ _ _ _ _ Ht Ht' Eb) as (Et & _ & Eb2).
  rewrite Eq in *.
  assert (pb_packet_id v = pb_packet_id v' /\ bp ++ pb_payload v = bp' ++ pb_payload v') as [Ei Eb3].
  { destruct (N.eqb_spec (pb_qos v') 0); [split; [congruence|exact Eb2]|]. apply be16_code in Eb2; tauto. }
  destruct (section_code _ _ _ _ _ _ Hs Hs' Eb3) as (-> & _ & Ep).
  destruct v, v'. view_cbn. same_vals. congruence.
Qed.
Lemma connack_unique v v' bs : connack_wire v bs -> connack_wire v' bs -> v = v'.
Proof.
  intros (ps & bp & Hf & Hr & Hs & Ho & Hv) (ps' & bp' & Hf' & Hr' & Hs' & Ho' & Hv').
  pose proof (frame_inj _ _ _ _ _ Hf Hf') as E. cbn [app] in E. injection E as E1 E2 E3.
  destruct (section_code _ _ _ _ [] [] Hs Hs' ltac:(rewrite !app_nil_r; exact E3)) as (-> & _ & _).
  apply b2n_inj in E1. destruct v, v'.
  view_cbn.
  repeat match goal with H : _ /\ _ |- _ => destruct H end. same_vals. congruence.
Qed.
Lemma tail_unique (ps ps' : list property) r r' tail :
  ((tail = [] /\ r = 0 /\ ps = []) \/ (tail = [r] /\ ps = []) \/ (exists bp, tail = r :: bp /\ section_wire ps bp)) ->
  ((tail = [] /\ r' = 0 /\ ps' = []) \/ (tail = [r'] /\ ps' = []) \/ (exists bp, tail = r' :: bp /\ section_wire ps' bp)) ->
  r = r' /\ ps = ps'.
Proof.
  assert (Hn : forall qs : list property, ~ section_wire qs []).
  { intros qs (l & b & Hl & _ & E). apply vli_legal_pos in Hl. symmetry in E. apply app_eq_nil in E as [-> _]. revert Hl. rewrite len_nil. lia. }
  intros [(H1 & H2 & H3)|[(H1 & H2)|(bp & H1 & H2)]] [(G1 & G2 & G3)|[(G1 & G2)|(bq & G1 & G2)]]; subst; try discriminate; auto.
  - injection G1 as ->. auto.
  - injection G1 as <- <-. exfalso. exact (Hn _ G2).
  - injection G1 as -> ->. exfalso. exact (Hn _ H2).
  - injection G1 as <- <-. split; auto.
    destruct (section_code _ _ _ _ [] [] H2 G2 eq_refl) as (-> & _ & _). reflexivity.
Qed.
Lemma puback_unique v v' bs : puback_wire v bs -> puback_wire v' bs -> v = v'.
Proof.
  intros (ps & tail & Hf & Hi & Hr & Ht & Ho & H1 & H2) (ps' & tail' & Hf' & Hi' & Hr' & Ht' & Ho' & H1' & H2').
  pose proof (frame_inj _ _ _ _ _ Hf Hf') as E. apply be16_code in E as [Ei <-]; [|lia|lia].
  destruct (tail_unique _ _ _ _ _ Ht Ht') as [Er ->].
  destruct v, v'; view_cbn. same_vals. congruence.
Qed.
Lemma disconnect_unique v v' bs : disconnect_wire v bs -> disconnect_wire v' bs -> v = v'.
Proof.
  intros (ps & tail & Hf & Hr & Ht & Ho & H1 & H2 & H3 & H4) (ps' & tail' & Hf' & Hr' & Ht' & Ho' & H1' & H2' & H3' & H4').
  pose proof (frame_inj _ _ _ _ _ Hf Hf') as <-.
  destruct (tail_unique _ _ _ _ _ Ht Ht') as [Er ->].
  destruct v, v'; view_cbn. same_vals. congruence.
Qed.
Lemma ack_unique t v v' bs : ack_wire t v bs -> ack_wire t v' bs -> v = v'.
Proof.
  intros (ps & bp & Hf & Hi & Hc & Hs & Ho & H1 & H2) (ps' & bp' & Hf' & Hi' & Hc' & Hs' & Ho' & H1' & H2').
  pose proof (frame_inj _ _ _ _ _ Hf Hf') as E. apply be16_code in E as [Ei E]; [|lia|lia].
  destruct (section_code _ _ _ _ _ _ Hs Hs' E) as (-> & _ & Ec).
  destruct v, v'; view_cbn. same_vals. congruence.
Qed.
Lemma subscription_code : prefix_code subscription_wire.
Proof.
  intros a b x y r s (bt & Ht & Hq & Hh & ->) (bt' & Ht' & Hq' & Hh' & ->) E. rewrite <- !app_assoc in E.
  destruct (str_code _ _ _ _ _ _ Ht Ht' E) as (Et & -> & E2). cbn [app] in E2. injection E2 as E3 ->.
  destruct a, b; view_cbn.
  subst. destruct sn_no_local, sn_no_local0, sn_retain_as_published, sn_retain_as_published0; cbn [b2n] in *;
    try (exfalso; lia); assert (sn_qos = sn_qos0 /\ sn_retain_handling = sn_retain_handling0) as [-> ->] by lia; auto.
Qed.
Lemma subscription_nonempty s b : subscription_wire s b -> b <> [].
Proof. intros (bt & Ht & _ & _ & ->) E. apply app_eq_nil in E as [-> _]. exact (str_nonempty _ _ Ht eq_refl). Qed.
Lemma subscribe_unique v v' bs : subscribe_wire v bs -> subscribe_wire v' bs -> v = v'.
Proof.
  intros (ps & bp & bl & Hf & Hi & Hs & Hl & Ho & H1 & H2) (ps' & bp' & bl' & Hf' & Hi' & Hs' & Hl' & Ho' & H1' & H2').
  pose proof (frame_inj _ _ _ _ _ Hf Hf') as E. apply be16_code in E as [Ei E]; [|lia|lia].
  destruct (section_code _ _ _ _ _ _ Hs Hs' E) as (-> & _ & <-).
  pose proof (list_unique _ subscription_code subscription_nonempty _ _ _ Hl Hl') as El.
  destruct v, v'; view_cbn. same_vals. congruence.
Qed.
Lemma unsubscribe_unique v v' bs : unsubscribe_wire v bs -> unsubscribe_wire v' bs -> v = v'.
Proof.
  intros (ps & bp & bl & Hf & Hi & Hs & Hl & Ho & H2) (ps' & bp' & bl' & Hf' & Hi' & Hs' & Hl' & Ho' & H2').
  pose proof (frame_inj _ _ _ _ _ Hf Hf') as E. apply be16_code in E as [Ei E]; [|lia|lia].
  destruct (section_code _ _ _ _ _ _ Hs Hs' E) as (-> & _ & <-).
  pose proof (list_unique _ str_code str_nonempty _ _ _ Hl Hl') as El.
  destruct v, v'; view_cbn. same_vals. congruence.
Qed.
Definition some01 {A} (o : option A) : N := match o with Some _ => 1 | None => 0 end.
Definition will_flags (o : option will) : N := match o with Some w => 4 + 8 * wl_qos w + 32 * b2n (wl_retain w) | None => 0 end.
Lemma flag_split v : (match cn_will v with Some w => wl_qos w <= 2 | None => True end) ->
  connect_flags v = 2 * b2n (cn_clean_start v) + 4 * some01 (cn_will v) + 8 * (match cn_will v with Some w => wl_qos w | None => 0 end) +
    32 * (match cn_will v with Some w => b2n (wl_retain w) | None => 0 end) + 64 * some01 (cn_password v) + 128 * some01 (cn_username v).
Proof. intros _. unfold connect_flags, some01. destruct (cn_will v), (cn_password v), (cn_username v); lia. Qed.
Lemma opt_str_code o o' x y r s : some01 o = some01 o' -> opt_str o x -> opt_str o' y -> x ++ r = y ++ s -> o = o' /\ x = y /\ r = s.
Proof.
  destruct o as [a|], o' as [b|]; cbn [some01 opt_str]; intros Hs H1 H2 E; try discriminate.
  - destruct (str_code _ _ _ _ _ _ H1 H2 E) as (-> & -> & ->). auto.
  - subst. auto.
Qed.
Lemma connect_unique v v' bs : no_stray_delay v -> no_stray_delay v' -> connect_wire v bs -> connect_wire v' bs -> v = v'.
Proof.
  intros Hn Hn'.
  intros (ps & bp & bc & bw & bu & bpw & Hf & Hk & Hq & Hs & Hc & Hw & Hu & Hpw & Ho & Hv)
    (ps' & bp' & bc' & bw' & bu' & bpw' & Hf' & Hk' & Hq' & Hs' & Hc' & Hw' & Hu' & Hpw' & Ho' & Hv').
  pose proof (frame_inj _ _ _ _ _ Hf Hf') as E. cbn [app be16] in E. injection E as Efl E1 E2 E3.
  assert (Ek : cn_keep_alive v = cn_keep_alive v') by lia.
  rewrite (flag_split v Hq), (flag_split v' Hq') in Efl.
  destruct (section_code _ _ _ _ _ _ Hs Hs' E3) as (-> & _ & E4).
  destruct (str_code _ _ _ _ _ _ Hc Hc' E4) as (Ecid & _ & E5).
  assert (cn_clean_start v = cn_clean_start v' /\ some01 (cn_will v) = some01 (cn_will v') /\
    some01 (cn_password v) = some01 (cn_password v') /\ some01 (cn_username v) = some01 (cn_username v') /\
    (match cn_will v with Some w => wl_qos w | None => 0 end) = (match cn_will v' with Some w => wl_qos w | None => 0 end) /\
    (match cn_will v with Some w => b2n (wl_retain w) | None => 0 end) = (match cn_will v' with Some w => b2n (wl_retain w) | None => 0 end))
    as (Ecs & Ewl & Epw & Eun & Ewq & Ewr).
  { assert (forall o : option bytes, some01 o <= 1) as Hb by (intros [|]; cbn; lia).
    pose proof (Hb (cn_password v)). pose proof (Hb (cn_password v')). pose proof (Hb (cn_username v)). pose proof (Hb (cn_username v')).
    pose proof (b2n_le (cn_clean_start v)). pose proof (b2n_le (cn_clean_start v')).
    assert (b2n (cn_clean_start v) = b2n (cn_clean_start v') -> cn_clean_start v = cn_clean_start v') as Hbi by apply b2n_inj.
    destruct (cn_will v) as [w|], (cn_will v') as [w'|]; cbn [some01] in *;
      try pose proof (b2n_le (wl_retain w)); try pose proof (b2n_le (wl_retain w'));
      (split; [apply Hbi; lia|]); repeat split; lia. }
  assert (cn_will v = cn_will v' /\ cn_will_delay v = cn_will_delay v' /\ bu ++ bpw = bu' ++ bpw') as (Ew & Ewd & E6).
  { destruct (cn_will v) as [w|] eqn:Ev, (cn_will v') as [w'|] eqn:Ev'; cbn [some01 will_wire] in *; try discriminate.
    - destruct Hw as (wps & wbp & wbt & wbm & G1 & G2 & G3 & -> & G5 & G6). destruct Hw' as (wps' & wbp' & wbt' & wbm' & F1 & F2 & F3 & -> & F5 & F6).
      rewrite <- !app_assoc in E5.
      destruct (section_code _ _ _ _ _ _ G1 F1 E5) as (-> & _ & E7).
      destruct (str_code _ _ _ _ _ _ G2 F2 E7) as (Et & _ & E8).
      destruct (str_code _ _ _ _ _ _ G3 F3 E8) as (Em & _ & E9).
      apply b2n_inj in Ewr. repeat match goal with H : _ /\ _ |- _ => destruct H end.
      destruct w, w'; view_cbn.
      destruct (cn_will_delay v), (cn_will_delay v'); same_vals; repeat split; congruence.
    - subst bw bw'. cbn [app] in E5. split; [reflexivity|]. split; [|exact E5]. rewrite (Hn Ev), (Hn' Ev'). reflexivity. }
  destruct (opt_str_code _ _ _ _ _ _ Eun Hu Hu' E6) as (Eu & _ & E7).
  destruct (opt_str_code _ _ _ _ [] [] Epw Hpw Hpw' ltac:(rewrite !app_nil_r; exact E7)) as (Ep & _ & _).
  clear - Ek Ecid Ecs Ew Ewd Eu Ep Hv Hv'.
  repeat match goal with H : _ /\ _ |- _ => destruct H end.
  destruct v, v'.
  view_cbn.
  same_vals. congruence.
Qed.
