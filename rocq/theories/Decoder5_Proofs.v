From Verif Require Import Base BaseLemmas Vli_Spec Vli_Lemmas Mqtt5_Views Mqtt5_Spec TopicAlias_Model Decoder5_Model Decoder5_Spec Decoder5_Lemmas Decoder5_Packets Encoder5_Model Validate5_Proofs.
Ltac Zify.zify_post_hook ::= idtac.

(** ** Frames *)
Lemma vli_not_conts' n bs x : vli n bs -> Forall (fun b => 128 <= b) (bs ++ x) -> False.
Proof. induction 1; cbn [app]; intros Hf; apply Forall_cons_iff in Hf as [Hb Hf]; [lia|auto]. Qed.
Lemma app_inj_len5 {A} (a b c d : list A) : length a = length c -> a ++ b = c ++ d -> a = c /\ b = d.
Proof.
  revert c; induction a as [|x a IH]; intros [|y c]; cbn; intros Hl E; try discriminate; [auto|].
  injection E as -> E. destruct (IH c) as [-> ->]; auto.
Qed.
Lemma frame5_inj p q r s : frame5 p -> frame5 q -> p ++ r = q ++ s -> p = q /\ r = s.
Proof.
  intros (b & rl & body & -> & [Hv _] & _) (b' & rl' & body' & -> & [Hv' _] & _) E.
  cbn [app] in E. injection E as -> E2. rewrite <- !app_assoc in E2.
  destruct (vli_det _ _ _ _ _ _ Hv Hv' E2) as (Hl & -> & E3).
  assert (Hb : length body = length body') by (unfold len in Hl; lia).
  destruct (app_inj_len5 _ _ _ _ Hb E3) as [-> ->]. auto.
Qed.
Lemma long_prefix {A} (a b c d : list A) : (length a <= length c)%nat -> a ++ b = c ++ d -> exists y, c = a ++ y.
Proof.
  revert c. induction a as [|x a IH]; intros c Hl E; [exists c; reflexivity|]. destruct c as [|z c]; [cbn in Hl; lia|]. cbn in *. injection E as -> E.
  destruct (IH c ltac:(lia) E) as [y ->]. exists y. reflexivity.
Qed.
Lemma frame5_not_malformed p r : frame5 p -> malformed5 (p ++ r) -> False.
Proof.
  intros (b & rl & body & -> & [Hv Hlen] & Hs) (b' & x & E & Hm). cbn [app] in E. injection E as <- E2. rewrite <- app_assoc in E2.
  destruct Hm as [Hm|(p & q & -> & Hp & Hf)]; [contradiction|].
  destruct (long_prefix rl (body ++ r) p q) as [y ->]; [unfold len in *; lia|exact E2|]. eapply vli_not_conts'; eassumption.
Qed.
Lemma malformed5_app s x : malformed5 s -> malformed5 (s ++ x).
Proof.
  intros (b & r & -> & Hm). exists b, (r ++ x). split; [reflexivity|]. destruct Hm as [Hm|(p & q & -> & Hp & Hf)]; [auto|right].
  exists p, (q ++ x). rewrite <- app_assoc. auto.
Qed.
Lemma frame5_nonempty p : frame5 p -> p <> [].
Proof. intros (b & rl & body & -> & _). discriminate. Qed.
Lemma frame_frame5 t fl body bs : frame t fl body bs -> fl < 16 -> In t [2; 3; 4; 9; 11; 13; 14] -> frame5 bs.
Proof.
  intros (l & Hl & ->) Hfl Ht. exists (t * 16 + fl), l, body. split; [reflexivity|]. split; [exact Hl|]. unfold server_byte. rewrite N.div_add_l by discriminate.
  rewrite N.div_small by exact Hfl. rewrite N.add_0_r. exact Ht.
Qed.
Lemma accepted_frame p bs : packet_accepted p bs -> frame5 bs.
Proof.
  destruct p; cbn [packet_accepted]; try contradiction.
  - intros (? & ? & Hf & _). eapply frame_frame5; [exact Hf|reflexivity|cbn; auto].
  - intros (? & ? & ? & Hf & Hq & _). eapply frame_frame5; [exact Hf| |cbn; auto]. match goal with |- context [pb_duplicate ?p] => destruct (pb_duplicate p), (pb_retain p) end; cbn [b2n]; lia.
  - intros (? & ? & Hf & _). eapply frame_frame5; [exact Hf|reflexivity|cbn; auto].
  - intros (? & ? & Hfl & Hf & _). eapply frame_frame5; [exact Hf|exact Hfl|cbn; auto].
  - intros (? & ? & Hfl & Hf & _). eapply frame_frame5; [exact Hf|exact Hfl|cbn; auto 10].
  - intros Hf. eapply frame_frame5; [exact Hf|reflexivity|cbn; auto 10].
  - intros (? & ? & Hf & _). eapply frame_frame5; [exact Hf|reflexivity|cbn; auto 10].
Qed.
Lemma accepted_unique p q bs : bytes_ok bs -> packet_accepted p bs -> packet_accepted q bs -> p = q.
Proof.
  intros Hok Hp Hq. destruct (accepted_frame p bs Hp) as (b & l & body & -> & Hl & Hs).
  apply bytes_ok_cons in Hok as [Hb Hok]. apply bytes_ok_app in Hok as [_ Hok].
  apply (packet_exact b l body Hb Hl Hok _ Hs) in Hp. apply (packet_exact b l body Hb Hl Hok _ Hs) in Hq. congruence.
Qed.
Lemma decode_packet_view first body a : decode_packet first (len body) body a =
  match view5 first body with Some p => resolve a p | None => (a, None) end.
Proof.
  unfold decode_packet, view5.
  assert (G : forall A (f : A -> packet5) (o : option A), (forall x, resolve a (f x) = (a, Some (f x))) ->
     (a, option_map f o) = match option_map f o with Some p => resolve a p | None => (a, None) end).
  { intros A f [x|] Hf; cbn; [rewrite Hf|]; reflexivity. }
  assert (P : (let '(a, v) := decode_publish first (len body) body a in (a, option_map P_PUBLISH v)) =
    match option_map P_PUBLISH (decode_publish_view first (len body) body) with Some p => resolve a p | None => (a, None) end).
  { unfold decode_publish. destruct (decode_publish_view first (len body) body) as [v|]; [|reflexivity]. cbn [option_map resolve].
    destruct (in_publish a (pb_topic v) (pb_topic_alias v)) as [a1 [t|]]; [|reflexivity]. destruct v. reflexivity. }
  assert (Q : (a, if decode_pingresp first (len body) body then Some P_PINGRESP else None) =
    match (if decode_pingresp first (len body) body then Some P_PINGRESP else None) with Some p => resolve a p | None => (a, None) end).
  { destruct (decode_pingresp first (len body) body); reflexivity. }
  destruct (N.shiftr first 4) as [|p]; [reflexivity|].
  do 4 (destruct p as [p|p|]; try (apply G; reflexivity); try exact P; try exact Q; try reflexivity).
Qed.

(** conforming packets are accepted *)
Lemma latest_opt {A} (f : A -> pval) o l : l = opt f o -> latest f o l.
Proof. intros ->. destruct o; cbn; [exists []|]; reflexivity. Qed.
Lemma wire_accepted p bs : packet_wire p bs -> from_server p -> packet_accepted p bs.
Proof.
  intros Hw Hs. destruct p; cbn [from_server] in Hs; try contradiction; cbn [packet_wire] in Hw; cbn [packet_accepted].
  - destruct Hw as (ps & bp & Hf & _ & Hs1 & Ho & Hw). exists ps, bp. split; [exact Hf|]. split; [exact Hs1|]. split; [exact Ho|].
    repeat match goal with H : _ /\ _ |- _ => destruct H end. splits; try assumption; apply latest_opt; assumption.
  - destruct Hw as (ps & bp & bt & Hf & Hq & Hid & _ & Ht & Hs1 & Ho & Hw). exists ps, bp, bt. split; [exact Hf|]. split; [lia|].
    split; [destruct (pb_qos v =? 0); [exact Hid|lia]|]. split; [exact Ht|]. split; [exact Hs1|]. split; [exact Ho|].
    repeat match goal with H : _ /\ _ |- _ => destruct H end. splits; try assumption; apply latest_opt; assumption.
  - destruct Hw as (ps & tl & Hf & Hid & _ & Ht & Ho & Hw). exists ps, tl. split; [exact Hf|]. split; [lia|]. split; [exact Ht|]. split; [exact Ho|].
    repeat match goal with H : _ /\ _ |- _ => destruct H end. splits; try assumption; apply latest_opt; assumption.
  - destruct Hw as (ps & bp & Hf & Hid & _ & Hs1 & Ho & Hw). exists 0, bp. split; [reflexivity|]. split; [exact Hf|]. split; [lia|]. right. exists ps. split; [exact Hs1|]. split; [exact Ho|].
    repeat match goal with H : _ /\ _ |- _ => destruct H end. splits; try assumption; apply latest_opt; assumption.
  - destruct Hw as (ps & bp & Hf & Hid & _ & Hs1 & Ho & Hw). exists 0, bp. split; [reflexivity|]. split; [exact Hf|]. split; [lia|]. right. exists ps. split; [exact Hs1|]. split; [exact Ho|].
    repeat match goal with H : _ /\ _ |- _ => destruct H end. splits; try assumption; apply latest_opt; assumption.
  - subst bs. exists [0]. split; [|reflexivity]. split; [constructor; reflexivity|]. vm_compute. discriminate.
  - destruct Hw as (ps & tl & Hf & _ & Ht & Ho & Hw). exists ps, tl. split; [exact Hf|]. split; [exact Ht|]. split; [exact Ho|].
    repeat match goal with H : _ /\ _ |- _ => destruct H end. splits; try assumption; apply latest_opt; assumption.
Qed.

Section S.
Variable H : Type.
Variable callback : packet5 -> in_state * H -> (in_state * H) * bool.
Notation consume := (consume5 H callback).
Notation world := (in_state * H)%type.

(** the decoder on a complete packet *)
Lemma handle_spec b l body (w : world) : b < 256 -> vli_legal (len body) l -> bytes_ok body -> server_byte b ->
  match handle_packet H callback b (len body) body w with
  | (w1, true) => forall rest w2 o, consume rest w1 w2 o -> consume ((b :: l ++ body) ++ rest) w w2 o
  | (w1, false) => forall rest, consume ((b :: l ++ body) ++ rest) w w1 Failed5
  end.
Proof.
  intros Hb Hl Hok Hs. unfold handle_packet. rewrite decode_packet_view. destruct w as [a h]. cbn [fst snd].
  pose proof (packet_exact b l body Hb Hl Hok) as He. destruct (view5 b body) as [p|] eqn:Ev.
  - assert (Hp : packet_accepted p (b :: l ++ body)) by (apply He; [exact Hs|reflexivity]).
    destruct (resolve a p) as [a1 [p1|]] eqn:Er.
    + destruct (callback p1 (a1, h)) as [w1 []] eqn:Ec; [intros rest w2 o Hc; eapply consume5_ok; eassumption|intros rest; eapply consume5_fail; eassumption].
    + intros rest. eapply consume5_alias; eassumption.
  - intros rest. apply consume5_reject; [exists b, l, body; auto|]. intros p Hp. apply He in Hp; [discriminate|exact Hs].
Qed.

Lemma consume_det s w w1 o1 : bytes_ok s -> consume s w w1 o1 -> forall w2 o2, consume s w w2 o2 -> w1 = w2 /\ o1 = o2.
Proof.
  intros Hok Hc. revert Hok.
  assert (F : forall pkt rest pkt' rest' p q, bytes_ok (pkt ++ rest) -> pkt ++ rest = pkt' ++ rest' -> packet_accepted p pkt -> packet_accepted q pkt' -> pkt = pkt' /\ rest = rest' /\ p = q).
  { intros pkt rest pkt' rest' p q Hok E Hp Hq. destruct (frame5_inj _ _ _ _ (accepted_frame _ _ Hp) (accepted_frame _ _ Hq) E) as [-> ->]. split; [reflexivity|]. split; [reflexivity|].
    apply bytes_ok_app in Hok as [Hok _]. eapply accepted_unique; eassumption. }
  assert (R : forall pkt rest pkt' rest' p, frame5 pkt -> (forall p, ~ packet_accepted p pkt) -> pkt ++ rest = pkt' ++ rest' -> packet_accepted p pkt' -> False).
  { intros pkt rest pkt' rest' p Hf Hn E Hp. destruct (frame5_inj _ _ _ _ Hf (accepted_frame _ _ Hp) E) as [-> ->]. exact (Hn p Hp). }
  assert (Fr : forall s w w' o, consume s w w' o -> partial5 s -> w' = w /\ o = Waiting5 s).
  { intros s0 w0 w' o0 H0 [Hp1 Hp2]. inversion H0; subst; auto; try contradiction; exfalso; (eapply Hp2; [reflexivity|]); first [eapply accepted_frame; eassumption|assumption]. }
  assert (Ba : forall s w w' o, consume s w w' o -> malformed5 s -> w' = w /\ o = Failed5).
  { intros s0 w0 w' o0 H0 Hm. inversion H0; subst; auto; [destruct H1; contradiction|..]; exfalso; (eapply frame5_not_malformed; [|exact Hm]); first [eapply accepted_frame; eassumption|assumption]. }
  induction Hc as [s w Hp|s w Hm|pkt rest p a h a1 p1 w2 w3 o Hp Hr Hcb Hc IH|pkt rest w Hf Hn|pkt rest p a h a1 Hp Hr|pkt rest p a h a1 p1 w2 Hp Hr Hcb]; intros Hok w4 o4 H4.
  - destruct (Fr _ _ _ _ H4 Hp) as [-> ->]. auto.
  - destruct (Ba _ _ _ _ H4 Hm) as [-> ->]. auto.
  - inversion H4 as [? ? Hx|? ? Hx|pkt' rest' p' a' h' a1' p1' w2' w3' o' Hp' Hr' Hcb' Hc' E1 E2|pkt' rest' ? Hf' Hn' E1|pkt' rest' p' a' h' a1' Hp' Hr' E1|pkt' rest' p' a' h' a1' p1' w2' Hp' Hr' Hcb' E1]; subst.
    + exfalso. destruct Hx as [_ Hx]. eapply Hx; [reflexivity|]. eapply accepted_frame; eassumption.
    + exfalso. eapply frame5_not_malformed; [eapply accepted_frame; exact Hp|exact Hx].
    + destruct (F _ _ _ _ _ _ Hok (eq_sym E1) Hp Hp') as (-> & -> & ->). rewrite Hr in Hr'. injection Hr' as <- <-. rewrite Hcb in Hcb'. injection Hcb' as <-.
      apply IH; [apply bytes_ok_app in Hok; tauto|exact Hc'].
    + exfalso. eapply R; eassumption.
    + destruct (F _ _ _ _ _ _ Hok (eq_sym E1) Hp Hp') as (-> & -> & ->). rewrite Hr in Hr'. discriminate.
    + destruct (F _ _ _ _ _ _ Hok (eq_sym E1) Hp Hp') as (-> & -> & ->). rewrite Hr in Hr'. injection Hr' as <- <-. rewrite Hcb in Hcb'. discriminate.
  - inversion H4 as [? ? Hx|? ? Hx|pkt' rest' p' a' h' a1' p1' w2' w3' o' Hp' Hr' Hcb' Hc' E1 E2|pkt' rest' ? Hf' Hn' E1|pkt' rest' p' a' h' a1' Hp' Hr' E1|pkt' rest' p' a' h' a1' p1' w2' Hp' Hr' Hcb' E1]; subst; auto.
    + exfalso. destruct Hx as [_ Hx]. eapply Hx; [reflexivity|]. assumption.
    + exfalso. symmetry in E1. eapply R; eassumption.
    + exfalso. symmetry in E1. eapply R; eassumption.
    + exfalso. symmetry in E1. eapply R; eassumption.
  - inversion H4 as [? ? Hx|? ? Hx|pkt' rest' p' a' h' a1' p1' w2' w3' o' Hp' Hr' Hcb' Hc' E1 E2|pkt' rest' ? Hf' Hn' E1|pkt' rest' p' a' h' a1' Hp' Hr' E1|pkt' rest' p' a' h' a1' p1' w2' Hp' Hr' Hcb' E1]; subst.
    + exfalso. destruct Hx as [_ Hx]. eapply Hx; [reflexivity|]. eapply accepted_frame; eassumption.
    + exfalso. eapply frame5_not_malformed; [eapply accepted_frame; exact Hp|exact Hx].
    + destruct (F _ _ _ _ _ _ Hok (eq_sym E1) Hp Hp') as (-> & -> & ->). rewrite Hr in Hr'. discriminate.
    + exfalso. eapply R; eassumption.
    + destruct (F _ _ _ _ _ _ Hok (eq_sym E1) Hp Hp') as (-> & -> & ->). rewrite Hr in Hr'. injection Hr' as <-. auto.
    + destruct (F _ _ _ _ _ _ Hok (eq_sym E1) Hp Hp') as (-> & -> & ->). rewrite Hr in Hr'. discriminate.
  - inversion H4 as [? ? Hx|? ? Hx|pkt' rest' p' a' h' a1' p1' w2' w3' o' Hp' Hr' Hcb' Hc' E1 E2|pkt' rest' ? Hf' Hn' E1|pkt' rest' p' a' h' a1' Hp' Hr' E1|pkt' rest' p' a' h' a1' p1' w2' Hp' Hr' Hcb' E1]; subst.
    + exfalso. destruct Hx as [_ Hx]. eapply Hx; [reflexivity|]. eapply accepted_frame; eassumption.
    + exfalso. eapply frame5_not_malformed; [eapply accepted_frame; exact Hp|exact Hx].
    + destruct (F _ _ _ _ _ _ Hok (eq_sym E1) Hp Hp') as (-> & -> & ->). rewrite Hr in Hr'. injection Hr' as <- <-. rewrite Hcb in Hcb'. discriminate.
    + exfalso. eapply R; eassumption.
    + destruct (F _ _ _ _ _ _ Hok (eq_sym E1) Hp Hp') as (-> & -> & ->). rewrite Hr in Hr'. discriminate.
    + destruct (F _ _ _ _ _ _ Hok (eq_sym E1) Hp Hp') as (-> & -> & ->). rewrite Hr in Hr'. injection Hr' as <- <-. rewrite Hcb in Hcb'. injection Hcb' as <-. auto.
Qed.
Lemma consume_app s w w1 o : consume s w w1 o -> forall x,
  match o with
  | Waiting5 pend => forall w2 o2, consume (pend ++ x) w1 w2 o2 -> consume (s ++ x) w w2 o2
  | Failed5 => consume (s ++ x) w w1 Failed5
  end.
Proof.
  induction 1 as [s w Hp|s w Hm|pkt rest p a h a1 p1 w2 w3 o Hp Hr Hcb Hc IH|pkt rest w Hf Hn|pkt rest p a h a1 Hp Hr|pkt rest p a h a1 p1 w2 Hp Hr Hcb]; intros x.
  - auto.
  - apply consume5_bad, malformed5_app, Hm.
  - specialize (IH x). destruct o; intros; rewrite <- app_assoc; eapply consume5_ok; eauto.
  - rewrite <- app_assoc. eapply consume5_reject; eauto.
  - rewrite <- app_assoc. eapply consume5_alias; eauto.
  - rewrite <- app_assoc. eapply consume5_fail; eauto.
Qed.
Lemma consume_pend_ok s w w' p : consume s w w' (Waiting5 p) -> bytes_ok s -> bytes_ok p.
Proof.
  intros Hc. remember (Waiting5 p) as o. induction Hc; inversion Heqo; subst; auto. intros Hok. apply IHHc; auto. apply bytes_ok_app in Hok. tauto.
Qed.

(** ** The loop *)
Definition dinv (d : decoder5) (pend : bytes) : Prop :=
  match d5_st d with
  | DS_READ_PACKET_TYPE => d5_scratch d = [] /\ pend = []
  | DS_READ_REMAINING_LENGTH => server_byte (d5_first d) /\ pend = d5_first d :: d5_scratch d /\ vli_incomplete (d5_scratch d)
  | DS_READ_PACKET => server_byte (d5_first d) /\ exists l, pend = d5_first d :: l ++ d5_scratch d /\ vli_legal (d5_rl d) l /\ len (d5_scratch d) <= d5_rl d
  | DS_FATAL_ERROR => False
  end.
Definition dstrict (d : decoder5) (pend : bytes) : Prop := dinv d pend /\ (d5_st d = DS_READ_PACKET -> len (d5_scratch d) < d5_rl d).
Lemma incomplete_conts l : vli_incomplete l -> Forall (fun b => 128 <= b) l.
Proof. intros [_ Hf]. eapply Forall_impl; [|exact Hf]. cbv beta. lia. Qed.
Lemma dstrict_partial d pend : dstrict d pend -> partial5 pend.
Proof.
  intros [Hd Hs]. unfold dinv in Hd. destruct (d5_st d) eqn:E.
  - destruct Hd as (_ & ->). split; [intros (b & r & E1 & _); discriminate|]. intros pkt rest E1 Hf. symmetry in E1. apply app_eq_nil in E1 as [-> _]. exact (frame5_nonempty _ Hf eq_refl).
  - destruct Hd as (Hb & -> & Hi). split.
    + intros (b' & r & E1 & Hm). injection E1 as <- <-. destruct Hm as [Hm|(p & q & E2 & Hlen & _)]; [contradiction|]. destruct Hi as [Hi _]. rewrite E2, len_app in Hi. lia.
    + intros pkt rest E1 (b' & rl & body & -> & [Hv _] & _). cbn [app] in E1. injection E1 as _ E1.
      apply incomplete_conts in Hi. rewrite E1, <- app_assoc in Hi. eapply vli_not_conts'; [exact Hv|exact Hi].
  - destruct Hd as (Hb & l & -> & Hl & Hle). specialize (Hs eq_refl). split.
    + intros Hm. set (fill := repeat 0 (N.to_nat (d5_rl d - len (d5_scratch d)))). apply (frame5_not_malformed (d5_first d :: l ++ (d5_scratch d ++ fill)) []).
      * exists (d5_first d), l, (d5_scratch d ++ fill). split; [reflexivity|]. split; [|exact Hb]. replace (len (d5_scratch d ++ fill)) with (d5_rl d); [exact Hl|].
        rewrite len_app. unfold fill. unfold len at 2. rewrite repeat_length. lia.
      * rewrite app_nil_r. replace (d5_first d :: l ++ d5_scratch d ++ fill) with ((d5_first d :: l ++ d5_scratch d) ++ fill) by (cbn [app]; rewrite <- app_assoc; reflexivity). apply malformed5_app. exact Hm.
    + intros pkt rest E1 (b' & rl' & body & -> & [Hv' _] & _). destruct Hl as [Hv _]. cbn [app] in E1. injection E1 as _ E1. rewrite <- app_assoc in E1.
      destruct (vli_det _ _ _ _ _ _ Hv Hv' E1) as (Hn & _ & E2). rewrite Hn, E2, len_app in Hs. lia.
  - contradiction.
Qed.
Definition measure (d : decoder5) (data : bytes) : nat :=
  (3 * length data + match d5_st d with DS_READ_REMAINING_LENGTH => 2 | DS_READ_PACKET => 1 | _ => 0 end)%nat.
Lemma decodable b : b < 256 -> is_decodable_packet_type (N.shiftr b 4) = true <-> server_byte b.
Proof.
  intros Hb. rewrite shiftr4. unfold is_decodable_packet_type, server_byte. rewrite existsb_exists. split.
  - intros (x & Hx & E). apply N.eqb_eq in E. rewrite E. exact Hx.
  - intros Hx. exists (b / 16). split; [exact Hx|apply N.eqb_refl].
Qed.
Lemma snoc_incomplete ps byte : vli_incomplete ps -> byte < 256 -> bytes_ok (ps ++ [byte]).
Proof. intros [_ Hf] Hb. apply Forall_app. split; [|constructor; [exact Hb|constructor]]. eapply Forall_impl; [|exact Hf]. cbv beta. intros a [_ Ha]. exact Ha. Qed.
Lemma remaining_length_spec data : forall d, vli_incomplete (d5_scratch d) -> bytes_ok data ->
  match read_remaining_length_on_data d data with
  | (d', data', DRT_MORE_DATA) => data' = [] /\ d' = mkd5 (d5_st d) (d5_scratch d ++ data) (d5_first d) (d5_rl d) /\ vli_incomplete (d5_scratch d ++ data)
  | (d', data', DRT_SUCCESS) => exists x n, data = x ++ data' /\ x <> [] /\ vli_legal n (d5_scratch d ++ x) /\ d' = mkd5 DS_READ_PACKET [] (d5_first d) n
  | (d', data', DRT_ERROR) => exists p q, d5_scratch d ++ data = p ++ q /\ len p = 4 /\ Forall (fun b => 128 <= b) p
  end.
Proof.
  induction data as [|byte data IH]; intros d Hi Hok; cbn [read_remaining_length_on_data].
  - rewrite app_nil_r. destruct d. auto.
  - apply Forall_cons_iff in Hok as [Hb Hok]. cbn [d5_st d5_scratch d5_first d5_rl]. pose proof (snoc_incomplete _ byte Hi Hb) as Hok'.
    pose proof (decode_vli_spec (d5_scratch d ++ [byte]) Hok') as Hv. pose proof (decode_vli_more (d5_scratch d ++ [byte]) Hok') as Hmore. pose proof (decode_vli_bad (d5_scratch d ++ [byte]) Hok') as Hbad.
    destruct (decode_vli (d5_scratch d ++ [byte])) as [|n r|].
    + specialize (IH (mkd5 (d5_st d) (d5_scratch d ++ [byte]) (d5_first d) (d5_rl d)) (proj1 Hmore eq_refl) Hok). cbn [d5_st d5_scratch d5_first d5_rl] in IH.
      replace ((d5_scratch d ++ [byte]) ++ data) with (d5_scratch d ++ byte :: data) in IH by (rewrite <- app_assoc; reflexivity).
      destruct (read_remaining_length_on_data _ data) as [[d' data'] []]; [exact IH| |exact IH].
      destruct IH as (x & n & -> & _ & Hl & ->). exists (byte :: x), n. split; [reflexivity|]. split; [discriminate|]. split; [|reflexivity]. rewrite <- app_assoc in Hl. exact Hl.
    + destruct Hv as (bs & E & Hl). assert (r = []) as ->.
      { destruct r as [|z r]; [reflexivity|exfalso]. destruct (exists_last (l := z :: r) ltac:(discriminate)) as (r' & y & Er). rewrite Er, app_assoc in E.
        apply app_inj_tail in E as [E _]. apply incomplete_conts in Hi. rewrite E in Hi. destruct Hl as [Hl _]. exact (vli_not_conts' _ _ _ Hl Hi). }
      rewrite app_nil_r in E. exists [byte], n. split; [reflexivity|]. split; [discriminate|]. split; [rewrite E; exact Hl|reflexivity].
    + destruct (proj1 Hbad eq_refl) as (p & q & E & Hp & Hf). exists p, (q ++ data). split; [|auto]. rewrite app_assoc, <- E, <- app_assoc. reflexivity.
Qed.

Lemma loop_spec fuel : forall d data w pend, dinv d pend -> bytes_ok (pend ++ data) -> (measure d data < fuel)%nat ->
  match d5_loop H callback fuel d data w with
  | (d', w', DR_SUCCESS) => exists pend', dstrict d' pend' /\ consume (pend ++ data) w w' (Waiting5 pend')
  | (d', w', DR_ERROR) => d5_st d' = DS_FATAL_ERROR /\ consume (pend ++ data) w w' Failed5
  | _ => False
  end.
Proof.
  induction fuel as [|fuel IH]; intros d data w pend Hd Hok Hm; [lia|].
  assert (Wait : forall d' p, dstrict d' p -> p = pend ++ data -> exists pend', dstrict d' pend' /\ consume (pend ++ data) w w (Waiting5 pend')).
  { intros d' p Hs ->. exists (pend ++ data). split; [exact Hs|]. apply consume5_wait. eapply dstrict_partial; exact Hs. }
  cbn [d5_loop]. pose proof Hd as Hd0. unfold dinv in Hd. destruct (d5_st d) eqn:Est; [..|contradiction].
  - destruct Hd as (Hsc & ->). cbn [app] in *. unfold read_packet_type_on_data. destruct data as [|b data].
    + apply (Wait d []); [|reflexivity]. split; [exact Hd0|congruence].
    + apply Forall_cons_iff in Hok as [Hb Hok]. pose proof (decodable b Hb) as Hdec. destruct (is_decodable_packet_type (N.shiftr b 4)) eqn:Ed; cbn [negb].
      * apply proj1 in Hdec. specialize (Hdec eq_refl).
        set (d1 := d5_enter _ _). assert (Ed1 : d1 = mkd5 DS_READ_REMAINING_LENGTH [] b (d5_rl d)) by reflexivity. clearbody d1. subst d1.
        apply (IH _ data w [b]); [|constructor; assumption|unfold measure in Hm |- *; rewrite Est in Hm; cbn [d5_st]; cbn [length] in Hm; lia].
        unfold dinv. cbn. split; [exact Hdec|]. split; [reflexivity|]. split; [reflexivity|constructor].
      * split; [reflexivity|]. apply consume5_bad. exists b, data. split; [reflexivity|]. left. intros Hs. apply Hdec in Hs. discriminate.
  - destruct Hd as (Hb & -> & Hi). pose proof Hok as Hok'. apply bytes_ok_app in Hok' as [_ Hokd].
    pose proof (remaining_length_spec data d Hi Hokd) as Hr. destruct (read_remaining_length_on_data d data) as [[d1 data1] []].
    + destruct Hr as (-> & -> & Hr). eapply Wait; [|reflexivity]. split; [|cbn; rewrite Est; discriminate]. unfold dinv. cbn [d5_st d5_scratch d5_first]. rewrite Est. auto.
    + destruct Hr as (x & n & -> & Hx & Hl & ->). 
      replace ((d5_first d :: d5_scratch d) ++ x ++ data1) with ((d5_first d :: d5_scratch d ++ x) ++ data1) in Hok |- * by (cbn [app]; rewrite <- app_assoc; reflexivity).
      apply IH; [|exact Hok|].
      * unfold dinv. cbn [d5_st d5_scratch d5_first d5_rl]. split; [exact Hb|]. exists (d5_scratch d ++ x). rewrite app_nil_r. split; [reflexivity|]. split; [exact Hl|]. change (len (@nil N)) with 0. lia.
      * unfold measure in *. rewrite Est in Hm. cbn [d5_st]. rewrite app_length in Hm. destruct x; [congruence|]. cbn [length] in Hm. lia.
    + destruct Hr as (p & q & E & Hp & Hf). split; [reflexivity|]. apply consume5_bad. exists (d5_first d), (d5_scratch d ++ data). split; [reflexivity|]. right. eauto.
  - destruct Hd as (Hb & l & -> & Hl & Hle).
    assert (Hfb : d5_first d < 256) by (cbn [app] in Hok; apply Forall_cons_iff in Hok as [Hok _]; exact Hok).
    (* running the packet once [body] is complete *)
    assert (Run : forall sc body rest, len body = d5_rl d -> (d5_first d :: l ++ d5_scratch d) ++ data = (d5_first d :: l ++ body) ++ rest -> (length rest <= length data)%nat ->
      match (let '(d, data, w, r) := (let '(w0, ok) := handle_packet H callback (d5_first d) (d5_rl d) body w in
          if ok then (d5_enter (mkd5 (d5_st d) sc (d5_first d) (d5_rl d)) DS_READ_PACKET_TYPE, rest, w0, DRT_SUCCESS) else (mkd5 (d5_st d) sc (d5_first d) (d5_rl d), rest, w0, DRT_ERROR)) in
        match r with DRT_SUCCESS => d5_loop H callback fuel d data w | DRT_MORE_DATA => (d, w, DR_SUCCESS) | DRT_ERROR => (mkd5 DS_FATAL_ERROR (d5_scratch d) (d5_first d) (d5_rl d), w, DR_ERROR) end) with
      | (d', w', DR_SUCCESS) => exists pend', dstrict d' pend' /\ consume ((d5_first d :: l ++ d5_scratch d) ++ data) w w' (Waiting5 pend')
      | (d', w', DR_ERROR) => d5_st d' = DS_FATAL_ERROR /\ consume ((d5_first d :: l ++ d5_scratch d) ++ data) w w' Failed5
      | _ => False
      end).
    { intros sc body rest Hlen E Hlr. rewrite E in *. apply bytes_ok_app in Hok as [Hok1 Hok2]. apply Forall_cons_iff in Hok1 as [_ Hok1]. apply bytes_ok_app in Hok1 as [_ Hok1].
      rewrite <- Hlen in Hl |- *. pose proof (handle_spec (d5_first d) l body w Hfb Hl Hok1 Hb) as Hh.
      destruct (handle_packet H callback (d5_first d) (len body) body w) as [w1 []].
      - cbn [d5_enter].
        specialize (IH (mkd5 DS_READ_PACKET_TYPE [] 0 0) rest w1 []). cbn [app] in IH.
        assert (I1 : dinv (mkd5 DS_READ_PACKET_TYPE [] 0 0) []) by (cbn; auto).
        assert (I2 : (measure (mkd5 DS_READ_PACKET_TYPE [] 0 0) rest < fuel)%nat) by (unfold measure in *; rewrite Est in Hm; cbn [d5_st]; lia).
        specialize (IH I1 Hok2 I2). destruct (d5_loop H callback fuel _ rest w1) as [[d' w'] []]; try contradiction.
        + destruct IH as (pend' & Hs & Hc). exists pend'. split; [exact Hs|]. apply Hh. exact Hc.
        + destruct IH as (Hs & Hc). split; [exact Hs|]. apply Hh. exact Hc.
      - split; [reflexivity|]. apply Hh. }
    unfold read_packet_on_data. destruct (N.eqb_spec (len (d5_scratch d)) 0) as [Hz|Hz]; cbn [andb].
    + apply len_zero_nil in Hz. rewrite Hz in *. destruct (N.leb_spec (d5_rl d) (len data)) as [Hn|Hn].
      * destruct (advance_split data (d5_rl d) Hn) as (x & y & -> & Ed & Hx). rewrite app_nil_r in Run.
        assert (Hy : (length y <= length data)%nat) by (rewrite Ed, app_length; lia).
        assert (Es : (d5_first d :: l) ++ data = (d5_first d :: l ++ x) ++ y) by (rewrite Ed; cbn [app]; rewrite <- app_assoc; reflexivity).
        specialize (Run [] x y Hx Es Hy).
        assert (Edd : mkd5 (d5_st d) [] (d5_first d) (d5_rl d) = d) by (destruct d; cbn in *; subst; reflexivity). rewrite Edd in Run. rewrite app_nil_r. exact Run.
      * change (len (@nil N)) with 0. rewrite N.sub_0_r, N.min_r by lia. destruct (advance_split data (len data) (N.le_refl _)) as (x & y & -> & Ed & Hx).
        assert (y = []) as -> by (apply len_zero_nil; rewrite Ed, len_app in Hx; lia). rewrite app_nil_r in Ed. subst x.
        destruct (N.ltb_spec (len data) (d5_rl d)); [|lia]. cbn [app]. eapply Wait; [|reflexivity]. split; [|cbn [d5_scratch d5_rl]; lia].
        unfold dinv. cbn [d5_st d5_scratch d5_first d5_rl]. rewrite Est. split; [exact Hb|]. exists l. rewrite app_nil_r. split; [reflexivity|]. split; [exact Hl|lia].
    + set (copy := N.min (d5_rl d - len (d5_scratch d)) (len data)). assert (Hc : copy <= len data) by (unfold copy; lia).
      assert (Hc' : copy = d5_rl d - len (d5_scratch d) \/ copy = len data /\ len data < d5_rl d - len (d5_scratch d)) by (unfold copy; lia). clearbody copy.
      destruct (advance_split data copy Hc) as (x & y & -> & Ed & Hx). destruct (N.ltb_spec copy (d5_rl d - len (d5_scratch d))) as [Hlt|Hge].
      * assert (Hy : y = []) by (apply len_zero_nil; pose proof (f_equal len Ed) as El; rewrite len_app in El; lia). subst y. rewrite app_nil_r in Ed. subst x.
        eapply Wait; [|reflexivity]. split; [|cbn [d5_scratch d5_rl]; rewrite len_app; lia].
        unfold dinv. cbn [d5_st d5_scratch d5_first d5_rl]. rewrite Est. split; [exact Hb|]. exists l. split; [cbn [app]; rewrite <- app_assoc; reflexivity|]. split; [exact Hl|]. rewrite len_app. lia.
      * assert (Hlx : len (d5_scratch d ++ x) = d5_rl d) by (rewrite len_app; lia).
        assert (Hy : (length y <= length data)%nat) by (rewrite Ed, app_length; lia).
        assert (Es : (d5_first d :: l ++ d5_scratch d) ++ data = (d5_first d :: l ++ d5_scratch d ++ x) ++ y) by (rewrite Ed; cbn [app]; rewrite <- !app_assoc; reflexivity).
        specialize (Run (d5_scratch d ++ x) (d5_scratch d ++ x) y Hlx Es Hy).
        cbn [d5_first d5_rl d5_scratch]. exact Run.
Qed.
Lemma on_data_spec d data w pend : dinv d pend -> bytes_ok (pend ++ data) ->
  match d5_on_data H callback d data w with
  | (d', w', DR_SUCCESS) => exists pend', dstrict d' pend' /\ consume (pend ++ data) w w' (Waiting5 pend')
  | (d', w', DR_ERROR) => d5_st d' = DS_FATAL_ERROR /\ consume (pend ++ data) w w' Failed5
  | _ => False
  end.
Proof. intros Hd Hok. apply loop_spec; auto. unfold measure. destruct (d5_st d); lia. Qed.
Lemma on_data_error d data w : d5_st d = DS_FATAL_ERROR -> exists d', d5_on_data H callback d data w = (d', w, DR_ERROR) /\ d5_st d' = DS_FATAL_ERROR.
Proof.
  intros E. unfold d5_on_data. replace (3 * length data + 4)%nat with (S (3 * length data + 3)) by lia. cbn [d5_loop]. rewrite E. eexists. split; reflexivity.
Qed.
Lemma calls_cons d c chunks w : d5_calls H callback d (c :: chunks) w =
  let '(d1, w1, r) := d5_on_data H callback d c w in let '(d2, w2, rs) := d5_calls H callback d1 chunks w1 in (d2, w2, r :: rs).
Proof. reflexivity. Qed.
Lemma calls_error chunks : forall d w, d5_st d = DS_FATAL_ERROR ->
  exists d', d5_calls H callback d chunks w = (d', w, repeat DR_ERROR (length chunks)) /\ d5_st d' = DS_FATAL_ERROR.
Proof.
  induction chunks as [|c chunks IH]; intros d w E; [exists d; auto|]. rewrite calls_cons. cbn [length repeat].
  destruct (on_data_error d c w E) as (d1 & -> & E1). destruct (IH d1 w E1) as (d2 & -> & E2). eauto.
Qed.
Lemma calls_spec chunks : forall d w pend, dstrict d pend -> bytes_ok (pend ++ concat chunks) ->
  exists d' w' rs, d5_calls H callback d chunks w = (d', w', rs) /\
   ((rs = repeat DR_SUCCESS (length chunks) /\ exists pend', dstrict d' pend' /\ consume (pend ++ concat chunks) w w' (Waiting5 pend')) \/
    ((exists k, (k < length chunks)%nat /\ rs = repeat DR_SUCCESS k ++ repeat DR_ERROR (length chunks - k)) /\
      d5_st d' = DS_FATAL_ERROR /\ consume (pend ++ concat chunks) w w' Failed5)).
Proof.
  induction chunks as [|c chunks IH]; intros d w pend Hd Hok.
  - exists d, w, []. split; [reflexivity|]. left. split; [reflexivity|]. exists pend. cbn [concat]. rewrite app_nil_r.
    split; [assumption|]. apply consume5_wait. eapply dstrict_partial; eassumption.
  - rewrite calls_cons. cbn [concat length repeat] in *. pose proof (on_data_spec d c w pend (proj1 Hd)) as Hs.
    rewrite app_assoc in Hok |- *. pose proof Hok as Hok'. apply bytes_ok_app in Hok' as [Hok1 Hokc]. specialize (Hs Hok1).
    destruct (d5_on_data H callback d c w) as [[d1 w1] []]; try contradiction.
    + destruct Hs as (pend1 & Hs1 & Hc1).
      assert (Hok2 : bytes_ok (pend1 ++ concat chunks)) by (apply bytes_ok_app; split; [exact (consume_pend_ok _ _ _ _ Hc1 Hok1)|exact Hokc]).
      destruct (IH d1 w1 pend1 Hs1 Hok2) as (d2 & w2 & rs & -> & [(-> & pend' & Hs2 & Hc2)|((k & Hk & ->) & He & Hc2)]).
      * exists d2, w2, (DR_SUCCESS :: repeat DR_SUCCESS (length chunks)). split; [reflexivity|]. left. split; [reflexivity|].
        exists pend'. split; [assumption|]. exact (consume_app _ _ _ _ Hc1 _ _ _ Hc2).
      * eexists d2, w2, _. split; [reflexivity|]. right. split.
        -- exists (S k). split; [lia|]. cbn [repeat app]. replace (S (length chunks) - S k)%nat with (length chunks - k)%nat by lia. reflexivity.
        -- split; [assumption|]. exact (consume_app _ _ _ _ Hc1 _ _ _ Hc2).
    + destruct Hs as [He Hc1]. destruct (calls_error chunks d1 w1 He) as (d2 & -> & He2).
      eexists d2, w1, _. split; [reflexivity|]. right. split.
      * exists 0%nat. split; [lia|]. reflexivity.
      * split; [assumption|]. exact (consume_app _ _ _ _ Hc1 (concat chunks)).
Qed.
Lemma init_strict : dstrict d5_init [].
Proof. split; [cbn; auto|discriminate]. Qed.
Lemma stream chunks w d' w' rs : bytes_ok (concat chunks) -> d5_calls H callback d5_init chunks w = (d', w', rs) ->
  (rs = repeat DR_SUCCESS (length chunks) /\ exists pend, consume (concat chunks) w w' (Waiting5 pend)) \/
  ((exists k, (k < length chunks)%nat /\ rs = repeat DR_SUCCESS k ++ repeat DR_ERROR (length chunks - k)) /\ consume (concat chunks) w w' Failed5).
Proof.
  intros Hok E. destruct (calls_spec chunks d5_init w [] init_strict Hok) as (d2 & w2 & rs2 & E2 & Hc).
  rewrite E in E2. injection E2 as <- <- <-. cbn [app] in Hc. destruct Hc as [(-> & p & _ & Hc)|(Hk & _ & Hc)]; eauto.
Qed.
Lemma in_error k m : (k < m)%nat -> In DR_ERROR (repeat DR_SUCCESS k ++ repeat DR_ERROR (m - k)).
Proof. intros Hk. apply in_or_app. right. replace (m - k)%nat with (S (m - k - 1)) by lia. left. reflexivity. Qed.
Lemma not_in_error k : ~ In DR_ERROR (repeat DR_SUCCESS k).
Proof. intros Hi. apply repeat_spec in Hi. discriminate. Qed.
Lemma fragmentation c1 c2 w d1 w1 rs1 d2 w2 rs2 : bytes_ok (concat c1) -> concat c1 = concat c2 ->
  d5_calls H callback d5_init c1 w = (d1, w1, rs1) -> d5_calls H callback d5_init c2 w = (d2, w2, rs2) ->
  w1 = w2 /\ (In DR_ERROR rs1 <-> In DR_ERROR rs2).
Proof.
  intros Hok E E1 E2. pose proof Hok as Hok2. rewrite E in Hok2.
  destruct (stream _ _ _ _ _ Hok E1) as [(-> & p & Hc1)|((k & Hk & ->) & Hc1)];
  destruct (stream _ _ _ _ _ Hok2 E2) as [(-> & p2 & Hc2)|((k2 & Hk2 & ->) & Hc2)];
  rewrite <- E in Hc2; destruct (consume_det _ _ _ _ Hok Hc1 _ _ Hc2) as [-> Ho]; try discriminate; split; auto.
  - split; intros Hi; exfalso; eapply not_in_error; eassumption.
  - split; intros _; apply in_error; assumption.
Qed.

(** conforming streams *)
Lemma deliver_consume ps bss : Forall2 packet_wire ps bss -> Forall from_server ps -> forall w,
  match deliver H callback ps w with
  | (w', true) => consume (concat bss) w w' (Waiting5 [])
  | (w', false) => consume (concat bss) w w' Failed5
  end.
Proof.
  induction 1 as [|p bs ps bss Hw Hws IH]; intros Hs w; cbn [deliver concat].
  - apply consume5_wait. exact (dstrict_partial _ _ init_strict).
  - apply Forall_cons_iff in Hs as [Hp Hs]. pose proof (wire_accepted p bs Hw Hp) as Ha. destruct w as [a h]. cbn [fst snd].
    destruct (resolve a p) as [a1 [p1|]] eqn:Er; [|eapply consume5_alias; eassumption].
    destruct (callback p1 (a1, h)) as [w1 []] eqn:Ec; [|eapply consume5_fail; eassumption].
    specialize (IH Hs w1). destruct (deliver H callback ps w1) as [w2 []]; eapply consume5_ok; eassumption.
Qed.
Lemma conforming_stream ps bss chunks w : Forall2 packet_wire ps bss -> Forall from_server ps -> bytes_ok (concat bss) -> concat chunks = concat bss ->
  exists d' rs, d5_calls H callback d5_init chunks w = (d', fst (deliver H callback ps w), rs) /\
    (snd (deliver H callback ps w) = true <-> rs = repeat DR_SUCCESS (length chunks)).
Proof.
  intros Hw Hs Hok E. pose proof (deliver_consume ps bss Hw Hs w) as Hd. destruct (d5_calls H callback d5_init chunks w) as [[d' w'] rs] eqn:Ec.
  rewrite <- E in Hok, Hd. destruct (stream _ _ _ _ _ Hok Ec) as [(-> & p & Hc)|((k & Hk & ->) & Hc)]; destruct (deliver H callback ps w) as [w2 []];
    destruct (consume_det _ _ _ _ Hok Hd _ _ Hc) as [-> Ho]; try discriminate; exists d'; eexists; (split; [reflexivity|]); cbn [snd]; [tauto|].
  split; [discriminate|]. intros F. exfalso. apply (not_in_error (length chunks)). rewrite <- F. apply in_error. exact Hk.
Qed.

(** ** Histories *)
Definition hist_inv (d : decoder5) := d5_st d = DS_FATAL_ERROR \/ exists pend, dstrict d pend /\ bytes_ok pend.
Lemma init_hist : hist_inv d5_init.
Proof. right. exists []. split; [exact init_strict|constructor]. Qed.
Lemma on_data_inv d c w : hist_inv d -> bytes_ok c ->
  exists d' w' r, d5_on_data H callback d c w = (d', w', r) /\ hist_inv d' /\ (r = DR_SUCCESS \/ (r = DR_ERROR /\ d5_st d' = DS_FATAL_ERROR)).
Proof.
  intros [He|(p & Hd & Hp)] Hc.
  - destruct (on_data_error d c w He) as (d' & -> & He'). exists d', w, DR_ERROR. unfold hist_inv. auto.
  - assert (Hok : bytes_ok (p ++ c)) by (apply bytes_ok_app; auto).
    pose proof (on_data_spec d c w p (proj1 Hd) Hok) as Hs.
    destruct (d5_on_data H callback d c w) as [[d' w'] []]; try contradiction; exists d', w'; eexists; (split; [reflexivity|]).
    + destruct Hs as (p' & Hs & Hcs). split; [|auto]. right. exists p'. split; [assumption|]. eapply consume_pend_ok; eassumption.
    + destruct Hs as [Hs _]. unfold hist_inv. auto.
Qed.
Lemma history_safe ops : forall d w d' w' rs, hist_inv d -> Forall (op5_ok H) ops -> d5_history H callback d ops w = (d', w', rs) ->
  hist_inv d' /\ Forall (fun r => r = DR_SUCCESS \/ r = DR_ERROR) rs.
Proof.
  induction ops as [|[c|f] ops IH]; intros d w d' w' rs Hd Hok E; cbn [d5_history] in E.
  - injection E as <- <- <-. split; [assumption|constructor].
  - apply Forall_cons_iff in Hok as [Hc Hok]. destruct (on_data_inv d c w Hd Hc) as (d1 & w1 & r & E1 & Hd1 & Hr). rewrite E1 in E.
    destruct (d5_history H callback d1 ops w1) as [[d2 w2] rs2] eqn:E2. injection E as <- <- <-.
    destruct (IH _ _ _ _ _ Hd1 Hok E2) as [Hd2 Hrs]. split; [assumption|]. constructor; [tauto|assumption].
  - apply Forall_cons_iff in Hok as [_ Hok]. eapply IH; [|eassumption|eassumption]. exact init_hist.
Qed.
Lemma history_app ops1 : forall ops2 d w,
  d5_history H callback d (ops1 ++ ops2) w =
  let '(d1, w1, rs1) := d5_history H callback d ops1 w in
  let '(d2, w2, rs2) := d5_history H callback d1 ops2 w1 in (d2, w2, rs1 ++ rs2).
Proof.
  induction ops1 as [|[c|f] ops IH]; intros ops2 d w; cbn [d5_history app].
  - destruct (d5_history H callback d ops2 w) as [[? ?] ?]. reflexivity.
  - destruct (d5_on_data H callback d c w) as [[d1 w1] r]. rewrite IH.
    destruct (d5_history H callback d1 ops w1) as [[d2 w2] rs2]. destruct (d5_history H callback d2 ops2 w2) as [[? ?] ?]. reflexivity.
  - apply IH.
Qed.
Lemma errors_final ops c chunks w d1 w1 rs1 : Forall (op5_ok H) ops -> bytes_ok c ->
  d5_history H callback d5_init (ops ++ [Feed5 H c]) w = (d1, w1, rs1 ++ [DR_ERROR]) ->
  exists d2, d5_history H callback d5_init (ops ++ Feed5 H c :: map (Feed5 H) chunks) w = (d2, w1, rs1 ++ DR_ERROR :: repeat DR_ERROR (length chunks)).
Proof.
  intros Ho Hc E. change (Feed5 H c :: map (Feed5 H) chunks) with ([Feed5 H c] ++ map (Feed5 H) chunks). rewrite app_assoc, history_app, E.
  assert (d5_st d1 = DS_FATAL_ERROR) as He.
  { rewrite history_app in E. destruct (d5_history H callback d5_init ops w) as [[d0 w0] rs0] eqn:E0.
    destruct (history_safe _ _ _ _ _ _ init_hist Ho E0) as [Hd0 _].
    cbn [d5_history] in E. destruct (on_data_inv d0 c w0 Hd0 Hc) as (d' & w' & r & E1 & Hd1 & Hr). rewrite E1 in E. injection E as <- _ E.
    apply app_inj_tail in E as [_ ->]. destruct Hr as [Hr|[_ Hr]]; [discriminate|assumption]. }
  change (d5_history H callback d1 (map (Feed5 H) chunks) w1) with (d5_calls H callback d1 chunks w1).
  destruct (calls_error chunks d1 w1 He) as (d2 & -> & _). exists d2. rewrite <- app_assoc. reflexivity.
Qed.
Lemma reset_fresh pre f post d w : d5_history H callback d (pre ++ NewConnection5 H f :: post) w =
  let '(_, w1, rs1) := d5_history H callback d pre w in
  let '(d2, w2, rs2) := d5_history H callback d5_init post (f w1) in (d2, w2, rs1 ++ rs2).
Proof. rewrite history_app. destruct (d5_history H callback d pre w) as [[? ?] ?]. reflexivity. Qed.
End S.

(** ** More about variable length integers *)
Lemma prefix_conts n bs : vli n bs -> forall p q, bs = p ++ q -> q <> [] -> Forall (fun b => 128 <= b < 256) p.
Proof.
  induction 1 as [n Hn|r k bs Hr Hv IH]; intros p q E Hq.
  - destruct p as [|x p]; [constructor|]. destruct p; [|discriminate]. injection E as _ E. congruence.
  - destruct p as [|x p]; [constructor|]. injection E as <- E. constructor; [lia|]. eapply IH; eassumption.
Qed.
Lemma prefix_more n p q : vli_legal n (p ++ q) -> q <> [] -> decode_vli p = V_MORE_DATA.
Proof.
  intros [Hv Hl] Hq. pose proof (prefix_conts n _ Hv p q eq_refl Hq) as Hf. apply decode_vli_more.
  - eapply Forall_impl; [|exact Hf]. cbv beta. intros a [_ Ha]. exact Ha.
  - split; [|exact Hf]. rewrite len_app in Hl. destruct q; [congruence|]. rewrite len_cons in Hl. lia.
Qed.
Lemma vli_round_trip n c rest : n <= 268435455 -> 4 <= c -> bytes_ok rest -> decode_vli (bdata (fst (encode_vli (mkbuf c []) n)) ++ rest) = V_SUCCESS n rest.
Proof.
  intros Hn Hc Hr. destruct (vli_encode_spec n (mkbuf c []) Hn) as (k & Hk & H1 & _). cbn [bdata bcap app] in H1. change (len (@nil N)) with 0 in H1.
  assert (Hk4 : k <= 4).
  { unfold vli_size in Hk. repeat match type of Hk with context [if ?b then _ else _] => destruct b end; first [discriminate Hk|injection Hk as <-; lia]. }
  destruct H1 as (bs & -> & [Hv Hm] & Hl); [lia|]. cbn [fst bdata]. apply decode_vli_ok; [|exact Hr]. split; [exact Hv|lia].
Qed.
(** ** Property lengths that lie *)
Lemma rejected b l body : b < 256 -> vli_legal (len body) l -> bytes_ok body -> server_byte b -> view5 b body = None ->
  forall H callback (w : in_state * H), exists d', d5_on_data H callback d5_init (b :: l ++ body) w = (d', w, DR_ERROR).
Proof.
  intros Hb Hl Hok Hs Hv H callback w. assert (Hokp : bytes_ok ([] ++ b :: l ++ body)) by (constructor; [exact Hb|]; apply bytes_ok_app; split; [exact (vli_bytes_ok _ _ (proj1 Hl))|exact Hok]).
  pose proof (on_data_spec H callback d5_init (b :: l ++ body) w [] (proj1 init_strict) Hokp) as Hd. cbn [app] in Hd, Hokp.
  assert (Hc : consume5 H callback (b :: l ++ body) w w Failed5).
  { rewrite <- (app_nil_r (b :: l ++ body)). apply consume5_reject; [exists b, l, body; auto|]. intros p Hp. apply (packet_exact b l body Hb Hl Hok p Hs) in Hp. congruence. }
  destruct (d5_on_data H callback d5_init (b :: l ++ body) w) as [[d' w'] []]; try contradiction.
  - destruct Hd as (p & _ & Hd). destruct (consume_det _ _ _ _ _ _ Hokp Hc _ _ Hd) as [_ F]. discriminate.
  - destruct Hd as (_ & Hd). destruct (consume_det _ _ _ _ _ _ Hokp Hc _ _ Hd) as [-> _]. exists d'. reflexivity.
Qed.
Lemma section_overrun n lp rest : vli_legal n lp -> bytes_ok rest -> read_vli (lp ++ rest) = Some (n, rest).
Proof. apply read_vli_ok. Qed.
Lemma len2 {A} (l : list A) : len l = 2 -> exists a b, l = [a; b].
Proof. destruct l as [|a [|b [|c l]]]; unfold len; cbn [length]; intros H; try lia. eauto. Qed.
Lemma len3 {A} (l : list A) : len l = 3 -> exists a b c, l = [a; b; c].
Proof. destruct l as [|a [|b [|c [|d l]]]]; unfold len; cbn [length]; intros H; try lia. eauto. Qed.
Lemma len1 {A} (l : list A) : len l = 1 -> exists a, l = [a].
Proof. destruct l as [|a [|b l]]; unfold len; cbn [length]; intros H; try lia. eauto. Qed.
Lemma overlong_view b head n lp rest : before_properties b head -> vli_legal n lp -> bytes_ok rest -> len rest < n -> view5 b (head ++ lp ++ rest) = None.
Proof.
  intros Hh Hn Hok Hlt. pose proof (section_overrun n lp rest Hn Hok) as Hv. assert (Hne : (n =? len rest) = false) by (apply N.eqb_neq; lia).
  assert (Hlp : lp <> []) by (destruct Hn as [Hn _]; destruct Hn; discriminate).
  assert (Hnz : len (lp ++ rest) <> 0) by (destruct lp; [congruence|]; cbn [app]; rewrite len_cons; lia).
  unfold view5. rewrite shiftr4. destruct Hh as [(E & Hh)|[(E & t & bt & tl & Ht & -> & Hq)|[(E & Hh)|(E & Hh)]]]; rewrite E.
  - destruct (len2 head Hh) as (x & y & ->). unfold decode_connack. rewrite N.eqb_refl. cbn [negb app read_u8]. destruct (negb (N.land b 15 =? 0)); [reflexivity|]. destruct (negb (N.land x 254 =? 0)); [reflexivity|].
    rewrite Hv, Hne. reflexivity.
  - unfold decode_publish_view. rewrite N.eqb_refl. cbn [negb]. rewrite <- app_assoc, (prefixed_read _ _ _ Ht).
    assert (X : exists pid, (if 0 <? N.land (N.shiftr b 1) 3 then read_be16 (tl ++ lp ++ rest) else Some (0, tl ++ lp ++ rest)) = Some (pid, lp ++ rest)).
    { destruct Hq as [(Hq & ->)|(Hq & Hl)].
      - rewrite Hq. exists 0. reflexivity.
      - destruct (N.ltb_spec 0 (N.land (N.shiftr b 1) 3)); [|lia]. destruct (len2 tl Hl) as (x & y & ->). eexists. reflexivity. }
    destruct X as (pid & ->). rewrite Hv. destruct (N.ltb_spec (len rest) n); [reflexivity|lia].
  - destruct (len3 head Hh) as (x & y & z & ->). unfold decode_puback. rewrite N.eqb_refl. cbn [negb app]. change (read_be16 (x :: y :: z :: lp ++ rest)) with (Some (x * 256 + y, z :: lp ++ rest)). cbv beta iota.
    destruct (negb (N.land b 15 =? 0)); [reflexivity|]. rewrite len_cons. destruct (N.ltb_spec 0 (1 + len (lp ++ rest))); [|lia]. cbn [negb read_u8].
    destruct (N.ltb_spec 0 (len (lp ++ rest))); [|lia]. cbn [negb]. rewrite Hv, Hne. reflexivity.
  - destruct (len1 head Hh) as (x & ->). unfold decode_disconnect. rewrite N.eqb_refl. cbn [negb app read_u8]. destruct (negb (N.land b 15 =? 0)); [reflexivity|].
    rewrite len_cons. destruct (N.ltb_spec 0 (1 + len (lp ++ rest))); [|lia]. cbn [negb]. destruct (N.eqb_spec (len (lp ++ rest)) 0); [congruence|]. rewrite Hv, Hne. reflexivity.
Qed.
Lemma before_server b head : before_properties b head -> server_byte b.
Proof. unfold server_byte. intros [(-> & _)|[(-> & _)|[(-> & _)|(-> & _)]]]; cbn; auto 10. Qed.
Lemma overlong_rejected b l head n lp rest : before_properties b head -> b < 256 -> bytes_ok (head ++ lp ++ rest) ->
  vli_legal (len (head ++ lp ++ rest)) l -> vli_legal n lp -> len rest < n ->
  forall H callback (w : in_state * H), exists d', d5_on_data H callback d5_init (b :: l ++ head ++ lp ++ rest) w = (d', w, DR_ERROR).
Proof.
  intros Hh Hb Hok Hl Hn Hlt. apply rejected; auto; [exact (before_server b head Hh)|]. apply (overlong_view b head n lp rest); auto.
  apply bytes_ok_app in Hok as [_ Hok]. apply bytes_ok_app in Hok as [_ Hok]. exact Hok.
Qed.
