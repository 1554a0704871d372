From Verif Require Import Base BaseLemmas Vli_Spec Vli_Lemmas Fixed311_Model Fixed311_Proofs Packets311_Model Packets311_Spec.
Ltac Zify.zify_post_hook ::= Z.div_mod_to_equations.

Lemma bwrite_bwrite_k {A} b x y (k : buf -> res A) :
  bind (bwrite b x) (fun b1 => bind (bwrite b1 y) k) = bind (bwrite b (x ++ y)) k.
Proof.
  unfold bwrite at 1. unfold bwrite at 2. rewrite len_app.
  destruct (N.leb_spec (len (bdata b) + len x) (bcap b)); cbn [bind].
  - unfold bwrite. cbn [bcap bdata]. autorewrite with len.
    replace (len (bdata b) + len x + len y) with (len (bdata b) + (len x + len y)) by lia.
    rewrite app_assoc. reflexivity.
  - destruct (N.leb_spec (len (bdata b) + (len x + len y)) (bcap b)); [lia|reflexivity].
Qed.
Lemma bwrite_bwrite b x y : bind (bwrite b x) (fun b1 => bwrite b1 y) = bwrite b (x ++ y).
Proof.
  pose proof (bwrite_bwrite_k b x y Ok) as H.
  transitivity (bind (bwrite b (x ++ y)) Ok); [rewrite <- H|].
  - destruct (bwrite b x); cbn [bind]; [|reflexivity]. destruct (bwrite a y); reflexivity.
  - destruct (bwrite b (x ++ y)); reflexivity.
Qed.
Lemma bind_assoc {A B C} (x : res A) (f : A -> res B) (g : B -> res C) : bind (bind x f) g = bind x (fun a => bind (f a) g).
Proof. destruct x; reflexivity. Qed.
Lemma bind_ext {A B} (x : res A) (f g : A -> res B) : (forall a, f a = g a) -> bind x f = bind x g.
Proof. intros H. destruct x; cbn; auto. Qed.
Lemma bind_Ok {A B} (a : A) (f : A -> res B) : bind (Ok a) f = f a.
Proof. reflexivity. Qed.
Lemma bind_ok {A} (x : res A) : bind x Ok = x.
Proof. destruct x; reflexivity. Qed.

Lemma len_str s : len (str s) = 2 + len s.
Proof. unfold str. autorewrite with len. lia. Qed.
#[global] Hint Rewrite len_str : len.

Lemma encode_buffer_eq b s : str_ok s -> encode_buffer b s = bwrite b (str s).
Proof.
  intros H. unfold str_ok in H. unfold encode_buffer, encode_buffer_st. destruct (N.ltb_spec 65535 (len s)); [lia|].
  unfold str. rewrite <- (bwrite_bwrite b (be16 (len s)) s). unfold bwrite_be16.
  destruct (bwrite b (be16 (len s))) as [b1|e]; cbn [bind]; [|reflexivity].
  destruct (bwrite b1 s); reflexivity.
Qed.
Lemma encode_buffer_st_fst b s : str_ok s -> len (bdata b) + (2 + len s) <= bcap b ->
  fst (encode_buffer_st b s) = mkbuf (bcap b) (bdata b ++ str s).
Proof.
  intros H Hc. pose proof (encode_buffer_eq b s H) as E. rewrite bwrite_ok in E by (autorewrite with len; lia).
  unfold encode_buffer in E. destruct (encode_buffer_st b s) as [b' [e|]]; cbn [fst]; [discriminate|]. inversion E; reflexivity.
Qed.
Lemma enc_bind {A} b s (k : buf -> res A) : str_ok s -> bind (encode_buffer b s) k = bind (bwrite b (str s)) k.
Proof. intros H. rewrite encode_buffer_eq by assumption. reflexivity. Qed.
(** merge a chain of writes into one *)
Ltac chain_step :=
  first [ rewrite bwrite_bwrite_k
        | rewrite bwrite_bwrite
        | rewrite bind_assoc
        | etransitivity; [apply bind_ext; intro; first [rewrite bind_Ok; reflexivity | rewrite bind_assoc; reflexivity | rewrite enc_bind by assumption; reflexivity
                                                        | rewrite encode_buffer_eq by assumption; reflexivity]|] ].
Ltac chain := repeat chain_step.
Lemma decode_buffer_str s r : str_ok s -> decode_buffer (str s ++ r) = Ok (s, r).
Proof.
  unfold str_ok. intros H. unfold decode_buffer, str. rewrite <- app_assoc. rewrite read_be16_be16 by lia.
  rewrite advance_app. reflexivity.
Qed.

(** header + body *)
Lemma fh_wire t f body : len body < 2 ^ 28 -> wire t f body (fh_bytes (mkfh t (len body) f) ++ body).
Proof.
  intros H. exists (rlb (len body)).
  assert (len body < 2 ^ 64) by (eapply N.lt_trans; [exact H|reflexivity]).
  split; [|split]; [reflexivity| |apply rlb_minimal; assumption].
  split; [apply rlb_minimal; assumption|]. apply rlb_len; assumption.
Qed.
Lemma wire_eq t f body bs : wire t f body bs -> len body < 2 ^ 28 -> bs = fh_bytes (mkfh t (len body) f) ++ body.
Proof.
  intros (rl & -> & [Hv Hl] & [_ Hm]) H. unfold fh_bytes; cbn [fh_type fh_flags fh_rem app]. f_equal. f_equal.
  assert (len body < 2 ^ 64) by (eapply N.lt_trans; [exact H|reflexivity]).
  destruct (rlb_minimal (len body)) as [Hv' Hm']; [assumption|].
  (* two minimal encodings are equal *)
  assert (E : len rl = len (rlb (len body))) by (specialize (Hm _ Hv'); specialize (Hm' _ Hv); lia).
  clear -Hv Hv' E. revert Hv' E. generalize (rlb (len body)). induction Hv as [b Hb|x q bs Hx Hq IH]; intros cs Hc E.
  - inversion Hc; subst; [reflexivity|]. rewrite !len_cons, len_nil in E. pose proof (vli_len_pos _ _ H0). lia.
  - inversion Hc; subst.
    + rewrite !len_cons, len_nil in E. pose proof (vli_len_pos _ _ Hq). lia.
    + assert (r = x /\ q0 = q) as [-> ->] by lia. f_equal. apply IH; [assumption|]. rewrite !len_cons in E. lia.
Qed.

Lemma connect_flags_arith c w q r p u : q < 4 ->
  N.lor (bit c 1) (N.lor (bit w 2) (N.lor (N.shiftl q 3) (N.lor (bit r 5) (N.lor (bit p 6) (bit u 7))))) mod 256
  = 2 * b2n c + 4 * b2n w + (8 * q + 32 * b2n r) + 64 * b2n p + 128 * b2n u.
Proof.
  intros Hq. assert (q = 0 \/ q = 1 \/ q = 2 \/ q = 3) as [->|[->|[->| ->]]] by lia;
  destruct c, w, r, p, u; reflexivity.
Qed.

(** decode of the header of a wire string *)
Lemma hdr_decode t f body rest : t < 16 -> flags_legal t f -> len body < 2 ^ 28 ->
  fixed_header_decode (fh_bytes (mkfh t (len body) f) ++ body ++ rest) = Ok (mkfh t (len body) f, body ++ rest).
Proof.
  intros Ht Hf Hl. apply fixed_header_decode_bytes; cbn [fh_type fh_flags fh_rem]; auto.
  autorewrite with len. lia.
Qed.
Lemma hdr_encode b t f n : t < 16 -> flags_legal t f -> n < 2 ^ 28 ->
  fixed_header_encode b (mkfh t n f) = bwrite b (fh_bytes (mkfh t n f)).
Proof.
  intros Ht Hf Hl. apply fixed_header_encode_eq; cbn [fh_type fh_flags fh_rem]; auto.
  eapply N.lt_trans; [exact Hl|reflexivity].
Qed.

(** *** acks *)
Lemma ack_roundtrip_gen t f id b rest : t < 16 -> flags_legal t f -> f = required_flags t -> id < 65536 ->
  exists w, wire t f (ack_body id) w /\ ack_encode b (mkack (mkfh t 2 f) id) = bwrite b w /\
  ack_decode (w ++ rest) = Ok (mkack (mkfh t 2 f) id, rest).
Proof.
  intros Ht Hf Hr Hid. exists (fh_bytes (mkfh t (len (ack_body id)) f) ++ ack_body id). split; [|split].
  - apply fh_wire. reflexivity.
  - unfold ack_encode. cbn [ack_fh ack_id]. rewrite hdr_encode by (auto; reflexivity).
    unfold bwrite_be16. apply bwrite_bwrite.
  - unfold ack_decode. rewrite <- app_assoc. rewrite hdr_decode by (auto; reflexivity). cbn [bind fh_flags fh_type].
    rewrite <- Hr, N.eqb_refl. cbn [negb]. unfold ack_body. rewrite read_be16_be16 by assumption. reflexivity.
Qed.

(** *** connack *)
Lemma connack_roundtrip sp code b rest : code < 256 ->
  exists w, wire PT_CONNACK 0 (connack_body sp code) w /\ connack_encode b (connack_init sp code) = bwrite b w /\
  connack_decode (w ++ rest) = Ok (connack_init sp code, rest).
Proof.
  intros Hc. exists (fh_bytes (mkfh PT_CONNACK (len (connack_body sp code)) 0) ++ connack_body sp code).
  assert (Hfl : flags_legal PT_CONNACK 0) by (split; [reflexivity|auto]).
  split; [|split].
  - apply fh_wire. reflexivity.
  - unfold connack_encode, connack_init. cbn [ca_fh ca_session_present ca_code].
    rewrite hdr_encode by (auto; reflexivity). unfold bwrite_u8. rewrite bwrite_bwrite_k, bwrite_bwrite.
    unfold connack_body. rewrite <- app_assoc. cbn [app]. replace (code mod 256) with code by lia. destruct sp; reflexivity.
  - unfold connack_decode. rewrite <- app_assoc. rewrite hdr_decode by (auto; reflexivity). cbn [bind].
    unfold connack_body. cbn [app read_u8 of_opt bind]. unfold connack_init. replace (code mod 256) with code by lia.
    destruct sp; reflexivity.
Qed.

(** *** publish *)
Lemma publish_flags_arith retain qos dup : qos < 4 ->
  N.lor (bit retain 0) (N.lor (N.shiftl (N.land qos 3) 1) (bit dup 3)) mod 256 = publish_flags dup qos retain.
Proof.
  intros Hq. assert (qos = 0 \/ qos = 1 \/ qos = 2 \/ qos = 3) as [->|[->|[->| ->]]] by lia; destruct retain, dup; reflexivity.
Qed.
Lemma publish_flags_get retain qos dup : qos < 4 ->
  N.land (N.shiftr (publish_flags dup qos retain) 1) 3 = qos /\
  negb (N.land (publish_flags dup qos retain) 8 =? 0) = dup /\
  negb (N.land (publish_flags dup qos retain) 1 =? 0) = retain.
Proof.
  intros Hq. assert (qos = 0 \/ qos = 1 \/ qos = 2 \/ qos = 3) as [->|[->|[->| ->]]] by lia; destruct retain, dup; repeat split; reflexivity.
Qed.
Lemma publish_flags_lt retain qos dup : qos < 4 -> publish_flags dup qos retain < 16.
Proof. unfold publish_flags, b2n. destruct dup, retain; lia. Qed.

Lemma p28_64 : 2 ^ 28 < 2 ^ 64. Proof. reflexivity. Qed.
Lemma add64_small a b : a + b < two64 -> add64 a b = a + b.
Proof. unfold add64. change (2 ^ 64) with two64. intros. apply N.mod_small. assumption. Qed.
Lemma sub64_ge a b : b <= a -> a < two64 -> sub64 a b = a - b.
Proof. unfold sub64. change (2 ^ 64) with two64. intros. unfold two64 in *. lia. Qed.
Ltac n28 := change (2 ^ 28) with 268435456 in *; unfold two64 in *.

Lemma publish_roundtrip retain qos dup topic id payload b rest :
  qos <= 2 -> str_ok topic -> (qos = 0 -> id = 0) -> id < 65536 -> len (publish_body qos topic id payload) < 2 ^ 28 ->
  exists w, wire PT_PUBLISH (publish_flags dup qos retain) (publish_body qos topic id payload) w /\
   publish_encode b (publish_init retain qos dup topic id payload) = bwrite b w /\
   publish_decode (w ++ rest) = Ok (publish_init retain qos dup topic id payload, rest).
Proof.
  intros Hq Ht Hid0 Hid Hl. set (body := publish_body qos topic id payload) in *.
  assert (Hblen : exists k, len body = 2 + len topic + k + len payload /\ (qos = 0 -> k = 0) /\ (0 < qos -> k = 2)).
  { exists (if qos =? 0 then 0 else 2). unfold body, publish_body. autorewrite with len.
    destruct (N.eqb_spec qos 0); autorewrite with len; lia. }
  destruct Hblen as (k & Hblen & Hk0 & Hk2).
  assert (Hp : publish_init retain qos dup topic id payload = mkpublish (mkfh PT_PUBLISH (len body) (publish_flags dup qos retain)) id topic payload).
  { unfold publish_init. rewrite publish_flags_arith by lia. f_equal. f_equal. n28. unfold sizeof_encoded_buffer.
    rewrite (add64_small (2 + len topic)) by (unfold two64; lia).
    destruct (N.ltb_spec 0 qos); [|lia].
    rewrite add64_small by (unfold two64; lia). lia. }
  assert (Hfl : flags_legal PT_PUBLISH (publish_flags dup qos retain)).
  { split; [apply publish_flags_lt; lia|discriminate]. }
  rewrite Hp. exists (fh_bytes (mkfh PT_PUBLISH (len body) (publish_flags dup qos retain)) ++ body). split; [|split].
  - apply fh_wire. assumption.
  - unfold publish_encode, publish_encode_headers, publish_get_qos. cbn [pb_fh pb_topic pb_id pb_payload fh_flags].
    rewrite hdr_encode by (auto; reflexivity). destruct (publish_flags_get retain qos dup) as [-> _]; [lia|].
    destruct (N.ltb_spec 0 qos) as [H0|H0]; unfold bwrite_be16; chain.
    + f_equal. unfold body, publish_body.
      destruct (N.eqb_spec qos 0); [lia|]. rewrite <- ?app_assoc. reflexivity.
    + f_equal. unfold body, publish_body.
      destruct (N.eqb_spec qos 0); [|lia]. rewrite <- ?app_assoc. reflexivity.
  - unfold publish_decode. rewrite <- app_assoc. rewrite hdr_decode by (auto; reflexivity). cbn [bind fh_flags fh_rem].
    destruct (publish_flags_get retain qos dup) as [-> _]; [lia|].
    unfold body at 1. unfold publish_body. rewrite <- app_assoc. rewrite decode_buffer_str by assumption. cbn [bind].
    destruct (N.ltb_spec 2 qos); [lia|]. unfold sizeof_encoded_buffer. n28.
    rewrite (sub64_ge (len body) (2 + len topic)) by (unfold two64; lia).
    destruct (N.ltb_spec 0 qos) as [H0|H0]; destruct (N.eqb_spec qos 0) as [E|E]; try lia.
    + rewrite <- app_assoc. rewrite read_be16_be16 by assumption. cbn [of_opt bind].
      rewrite sub64_ge by (unfold two64; lia).
      replace (len body - (2 + len topic) - 2) with (len payload) by lia.
      rewrite advance_app. rewrite N.eqb_refl. reflexivity.
    + cbn [bind app]. replace (len body - (2 + len topic)) with (len payload) by lia.
      rewrite advance_app. rewrite N.eqb_refl. cbn [negb]. rewrite Hid0 by assumption. reflexivity.
Qed.

(** *** subscribe *)
Definition build_subscribe (id : N) (l : list (bytes * N)) : packet_subscribe :=
  fold_left (fun p fq => subscribe_add_topic p (fst fq) (snd fq)) l (subscribe_init id).
Definition filt_wire (l : list (bytes * N)) : bytes := concat (map (fun fq => str (fst fq) ++ [snd fq]) l).
Lemma filt_wire_len_app l m : len (filt_wire (l ++ m)) = len (filt_wire l) + len (filt_wire m).
Proof. unfold filt_wire. rewrite map_app, concat_app. apply len_app. Qed.
Lemma filt_wire_cons f q l : filt_wire ((f, q) :: l) = str f ++ [q] ++ filt_wire l.
Proof. unfold filt_wire. cbn [map concat fst snd]. rewrite <- app_assoc. reflexivity. Qed.
Lemma build_subscribe_gen l : forall p, fh_rem (sb_fh p) + len (filt_wire l) < two64 ->
  fold_left (fun p fq => subscribe_add_topic p (fst fq) (snd fq)) l p =
  mksubscribe (mkfh (fh_type (sb_fh p)) (fh_rem (sb_fh p) + len (filt_wire l)) (fh_flags (sb_fh p))) (sb_id p) (sb_filters p ++ l).
Proof.
  induction l as [|[f q] l IH]; intros p Hl.
  - cbn [fold_left]. unfold filt_wire; cbn. rewrite len_nil, N.add_0_r, app_nil_r. destruct p as [[] ? ?]; reflexivity.
  - rewrite filt_wire_cons in *. autorewrite with len in *. cbn [fold_left fst snd]. rewrite IH.
    + unfold subscribe_add_topic, set_rem, sizeof_encoded_buffer. cbn [sb_fh sb_id sb_filters fh_type fh_rem fh_flags].
      rewrite add64_small by lia. rewrite <- app_assoc. cbn [app]. f_equal. f_equal. lia.
    + unfold subscribe_add_topic, set_rem, sizeof_encoded_buffer. cbn [sb_fh fh_rem].
      rewrite add64_small by lia. lia.
Qed.
Lemma build_subscribe_eq id l : len (subscribe_body id l) < 2 ^ 28 ->
  build_subscribe id l = mksubscribe (mkfh PT_SUBSCRIBE (len (subscribe_body id l)) 2) id l.
Proof.
  intros H. unfold build_subscribe. change (len (subscribe_body id l)) with (len (be16 id ++ filt_wire l)) in *.
  autorewrite with len in *. n28. rewrite build_subscribe_gen by (cbn [sb_fh fh_rem subscribe_init]; unfold two64; lia).
  reflexivity.
Qed.
Lemma land3 q : N.land q 3 = q mod 4.
Proof. change 3 with (N.ones 2). rewrite N.land_ones. reflexivity. Qed.
Lemma subscribe_encode_filters_ok l : forall b, Forall (fun fq => str_ok (fst fq) /\ snd fq <= 2) l ->
  len (bdata b) + len (filt_wire l) <= bcap b -> subscribe_encode_filters b l = Ok (mkbuf (bcap b) (bdata b ++ filt_wire l)).
Proof.
  induction l as [|[f q] l IH]; intros b Hf Hc.
  - cbn. rewrite app_nil_r. destruct b; reflexivity.
  - rewrite filt_wire_cons in *. autorewrite with len in Hc. apply Forall_cons_iff in Hf as [[Hs Hq] Hf]. cbn [fst snd] in *.
    cbn [subscribe_encode_filters]. rewrite encode_buffer_st_fst by (auto; lia). unfold bwrite_u8.
    rewrite bwrite_ok by (cbn [bdata bcap]; autorewrite with len; lia). cbn [bind bdata bcap].
    rewrite IH; [|assumption|cbn [bdata bcap]; autorewrite with len; lia]. cbn [bdata bcap].
    rewrite land3. replace (q mod 4) with q by lia. rewrite <- !app_assoc. reflexivity.
Qed.
Lemma subscribe_decode_loop_ok l : forall fuel acc rest, Forall (fun fq => str_ok (fst fq) /\ snd fq <= 2) l ->
  len (filt_wire l) < two64 -> (length l < fuel)%nat ->
  subscribe_decode_loop fuel (filt_wire l ++ rest) (len (filt_wire l)) acc = Ok (acc ++ l, rest).
Proof.
  induction l as [|[f q] l IH]; intros fuel acc rest Hf Hl Hfuel.
  - destruct fuel; cbn; rewrite app_nil_r; reflexivity.
  - destruct fuel as [|fuel]; [cbn in Hfuel; lia|]. rewrite filt_wire_cons in *.
    apply Forall_cons_iff in Hf as [[Hs Hq] Hf]. cbn [fst snd] in *. cbn [subscribe_decode_loop].
    autorewrite with len in *. destruct (N.eqb_spec (2 + len f + (1 + 0 + len (filt_wire l))) 0); [lia|].
    rewrite <- !app_assoc. rewrite decode_buffer_str by assumption. cbn [bind app read_u8 of_opt].
    rewrite N.shiftr_div_pow2. change (2 ^ 2) with 4. replace (q / 4) with 0 by lia. cbn [negb N.eqb].
    destruct (N.eqb_spec q 3); [lia|]. unfold sizeof_encoded_buffer. rewrite sub64_ge by (unfold two64 in *; lia).
    replace (2 + len f + (1 + 0 + len (filt_wire l)) - (2 + len f + 1)) with (len (filt_wire l)) by lia.
    rewrite IH; [|assumption|lia|cbn in Hfuel; lia]. rewrite land3. replace (q mod 4) with q by lia.
    rewrite <- app_assoc. reflexivity.
Qed.
Lemma filt_wire_length l : (length l <= length (filt_wire l))%nat.
Proof. induction l as [|[f q] l IH]; [cbn; lia|]. rewrite filt_wire_cons, !app_length. cbn [length]. lia. Qed.

Lemma subscribe_roundtrip id l b rest : id < 65536 -> Forall (fun fq => str_ok (fst fq) /\ snd fq <= 2) l ->
  len (subscribe_body id l) < 2 ^ 28 ->
  exists w, wire PT_SUBSCRIBE 2 (subscribe_body id l) w /\
   (len (bdata b) + len w <= bcap b -> subscribe_encode b (build_subscribe id l) = Ok (mkbuf (bcap b) (bdata b ++ w))) /\
   subscribe_decode (w ++ rest) = Ok (build_subscribe id l, rest).
Proof.
  intros Hid Hf Hl. rewrite build_subscribe_eq by assumption.
  exists (fh_bytes (mkfh PT_SUBSCRIBE (len (subscribe_body id l)) 2) ++ subscribe_body id l).
  assert (Hfl : flags_legal PT_SUBSCRIBE 2) by (split; [reflexivity|discriminate]).
  split; [|split].
  - apply fh_wire; assumption.
  - intros Hc. unfold subscribe_encode. cbn [sb_fh sb_id sb_filters]. rewrite hdr_encode by (auto; reflexivity).
    unfold bwrite_be16. rewrite bwrite_bwrite_k. change (subscribe_body id l) with (be16 id ++ filt_wire l) in *.
    autorewrite with len in Hc. rewrite bwrite_ok by (autorewrite with len; lia). cbn [bind].
    rewrite subscribe_encode_filters_ok; [|assumption|cbn [bdata bcap]; autorewrite with len; lia]. cbn [bdata bcap].
    rewrite <- !app_assoc. reflexivity.
  - unfold subscribe_decode. rewrite <- app_assoc. rewrite hdr_decode by (auto; reflexivity). cbn [bind fh_rem].
    change (subscribe_body id l) with (be16 id ++ filt_wire l) in *. autorewrite with len in *.
    destruct (N.ltb_spec (2 + len (filt_wire l)) 2); [lia|]. rewrite <- app_assoc. rewrite read_be16_be16 by assumption.
    cbn [of_opt bind]. replace (2 + len (filt_wire l) - 2) with (len (filt_wire l)) by lia. n28.
    rewrite subscribe_decode_loop_ok; [reflexivity|assumption|unfold two64; lia|].
    rewrite app_length. pose proof (filt_wire_length l). lia.
Qed.

(** *** unsubscribe *)
Definition build_unsubscribe (id : N) (l : list bytes) : packet_unsubscribe :=
  fold_left unsubscribe_add_topic l (unsubscribe_init id).
Definition ufilt_wire (l : list bytes) : bytes := concat (map str l).
Lemma ufilt_wire_cons f l : ufilt_wire (f :: l) = str f ++ ufilt_wire l.
Proof. reflexivity. Qed.
Lemma build_unsubscribe_gen l : forall p, fh_rem (us_fh p) + len (ufilt_wire l) < two64 ->
  fold_left unsubscribe_add_topic l p =
  mkunsubscribe (mkfh (fh_type (us_fh p)) (fh_rem (us_fh p) + len (ufilt_wire l)) (fh_flags (us_fh p))) (us_id p) (us_filters p ++ l).
Proof.
  induction l as [|f l IH]; intros p Hl.
  - cbn [fold_left]. unfold ufilt_wire; cbn. rewrite len_nil, N.add_0_r, app_nil_r. destruct p as [[] ? ?]; reflexivity.
  - rewrite ufilt_wire_cons in *. autorewrite with len in *. cbn [fold_left]. rewrite IH.
    + unfold unsubscribe_add_topic, set_rem, sizeof_encoded_buffer. cbn [us_fh us_id us_filters fh_type fh_rem fh_flags].
      rewrite add64_small by lia. rewrite <- app_assoc. cbn [app]. f_equal. f_equal. lia.
    + unfold unsubscribe_add_topic, set_rem, sizeof_encoded_buffer. cbn [us_fh fh_rem]. rewrite add64_small by lia. lia.
Qed.
Lemma build_unsubscribe_eq id l : len (unsubscribe_body id l) < 2 ^ 28 ->
  build_unsubscribe id l = mkunsubscribe (mkfh PT_UNSUBSCRIBE (len (unsubscribe_body id l)) 2) id l.
Proof.
  intros H. unfold build_unsubscribe. change (len (unsubscribe_body id l)) with (len (be16 id ++ ufilt_wire l)) in *.
  autorewrite with len in *. n28. rewrite build_unsubscribe_gen by (cbn [us_fh fh_rem unsubscribe_init]; unfold two64; lia).
  reflexivity.
Qed.
Lemma unsubscribe_encode_filters_ok l : forall b, Forall str_ok l ->
  len (bdata b) + len (ufilt_wire l) <= bcap b -> unsubscribe_encode_filters b l = Ok (mkbuf (bcap b) (bdata b ++ ufilt_wire l)).
Proof.
  induction l as [|f l IH]; intros b Hf Hc.
  - cbn. rewrite app_nil_r. destruct b; reflexivity.
  - rewrite ufilt_wire_cons in *. autorewrite with len in Hc. apply Forall_cons_iff in Hf as [Hs Hf].
    cbn [unsubscribe_encode_filters]. rewrite encode_buffer_st_fst by (auto; lia).
    rewrite IH; [|assumption|cbn [bdata bcap]; autorewrite with len; lia]. cbn [bdata bcap]. rewrite <- !app_assoc. reflexivity.
Qed.
Lemma unsubscribe_decode_loop_ok l : forall fuel acc rest, Forall str_ok l ->
  len (ufilt_wire l) < two64 -> (length l < fuel)%nat ->
  unsubscribe_decode_loop fuel (ufilt_wire l ++ rest) (len (ufilt_wire l)) acc = Ok (acc ++ l, rest).
Proof.
  induction l as [|f l IH]; intros fuel acc rest Hf Hl Hfuel.
  - destruct fuel; cbn; rewrite app_nil_r; reflexivity.
  - destruct fuel as [|fuel]; [cbn in Hfuel; lia|]. rewrite ufilt_wire_cons in *.
    apply Forall_cons_iff in Hf as [Hs Hf]. cbn [unsubscribe_decode_loop].
    autorewrite with len in *. destruct (N.eqb_spec (2 + len f + len (ufilt_wire l)) 0); [lia|].
    rewrite <- !app_assoc. rewrite decode_buffer_str by assumption. cbn [bind]. unfold sizeof_encoded_buffer.
    rewrite sub64_ge by (unfold two64 in *; lia).
    replace (2 + len f + len (ufilt_wire l) - (2 + len f)) with (len (ufilt_wire l)) by lia.
    rewrite IH; [|assumption|lia|cbn in Hfuel; lia]. rewrite <- app_assoc. reflexivity.
Qed.
Lemma ufilt_wire_length l : (length l <= length (ufilt_wire l))%nat.
Proof. induction l as [|f l IH]; [cbn; lia|]. rewrite ufilt_wire_cons, !app_length. unfold str, be16. cbn [length app]. lia. Qed.
Lemma unsubscribe_roundtrip id l b rest : id < 65536 -> Forall str_ok l -> len (unsubscribe_body id l) < 2 ^ 28 ->
  exists w, wire PT_UNSUBSCRIBE 2 (unsubscribe_body id l) w /\
   (len (bdata b) + len w <= bcap b -> unsubscribe_encode b (build_unsubscribe id l) = Ok (mkbuf (bcap b) (bdata b ++ w))) /\
   unsubscribe_decode (w ++ rest) = Ok (build_unsubscribe id l, rest).
Proof.
  intros Hid Hf Hl. rewrite build_unsubscribe_eq by assumption.
  exists (fh_bytes (mkfh PT_UNSUBSCRIBE (len (unsubscribe_body id l)) 2) ++ unsubscribe_body id l).
  assert (Hfl : flags_legal PT_UNSUBSCRIBE 2) by (split; [reflexivity|discriminate]).
  split; [|split].
  - apply fh_wire; assumption.
  - intros Hc. unfold unsubscribe_encode. cbn [us_fh us_id us_filters]. rewrite hdr_encode by (auto; reflexivity).
    unfold bwrite_be16. rewrite bwrite_bwrite_k. change (unsubscribe_body id l) with (be16 id ++ ufilt_wire l) in *.
    autorewrite with len in Hc. rewrite bwrite_ok by (autorewrite with len; lia). cbn [bind].
    rewrite unsubscribe_encode_filters_ok; [|assumption|cbn [bdata bcap]; autorewrite with len; lia]. cbn [bdata bcap].
    rewrite <- !app_assoc. reflexivity.
  - unfold unsubscribe_decode. rewrite <- app_assoc. rewrite hdr_decode by (auto; reflexivity). cbn [bind fh_rem].
    change (unsubscribe_body id l) with (be16 id ++ ufilt_wire l) in *. autorewrite with len in *.
    destruct (N.ltb_spec (2 + len (ufilt_wire l)) 2); [lia|]. rewrite <- app_assoc. rewrite read_be16_be16 by assumption.
    cbn [of_opt bind]. replace (2 + len (ufilt_wire l) - 2) with (len (ufilt_wire l)) by lia. n28.
    rewrite unsubscribe_decode_loop_ok; [reflexivity|assumption|unfold two64; lia|].
    rewrite app_length. pose proof (ufilt_wire_length l). lia.
Qed.

(** *** suback *)
Fixpoint build_suback_from (p : packet_suback) (l : list N) : res packet_suback :=
  match l with [] => Ok p | c :: l => do p <- suback_add_return_code p c; build_suback_from p l end.
Definition build_suback (id : N) (l : list N) : res packet_suback := build_suback_from (suback_init id) l.
Definition code_ok (c : N) : Prop := c = 0 \/ c = 1 \/ c = 2 \/ c = 128.
Lemma code_ok_check c : code_ok c <-> return_code_check c = true.
Proof. unfold code_ok, return_code_check. lia. Qed.
Lemma build_suback_gen l : forall p, Forall code_ok l -> fh_rem (sa_fh p) + len l < two64 ->
  build_suback_from p l = Ok (mksuback (mkfh (fh_type (sa_fh p)) (fh_rem (sa_fh p) + len l) (fh_flags (sa_fh p))) (sa_id p) (sa_codes p ++ l)).
Proof.
  induction l as [|c l IH]; intros p Hc Hl.
  - cbn. rewrite len_nil, N.add_0_r, app_nil_r. destruct p as [[] ? ?]; reflexivity.
  - apply Forall_cons_iff in Hc as [Hc Hcl]. autorewrite with len in *. cbn [build_suback_from].
    unfold suback_add_return_code at 1. apply code_ok_check in Hc. rewrite Hc. cbn [negb bind].
    rewrite add64_small by lia. rewrite IH; [|assumption|cbn [sa_fh set_rem fh_rem]; lia].
    cbn [sa_fh set_rem fh_rem fh_type fh_flags sa_id sa_codes]. rewrite <- app_assoc. do 3 f_equal. lia.
Qed.
Lemma write_u8s_eq l : forall b, len (bdata b) <= bcap b -> write_u8s b l = bwrite b l.
Proof.
  induction l as [|c l IH]; intros b Hb; cbn [write_u8s].
  - rewrite bwrite_ok by (rewrite len_nil; lia). rewrite app_nil_r. destruct b; reflexivity.
  - unfold bwrite_u8. change (c :: l) with ([c] ++ l). rewrite <- bwrite_bwrite.
    destruct (bwrite b [c]) as [b1|] eqn:E; cbn [bind]; [|reflexivity]. apply IH.
    apply bwrite_inv in E as [E ->]. cbn [bcap bdata]. rewrite len_app. assumption.
Qed.
Lemma suback_decode_loop_ok l : forall acc rest, Forall code_ok l ->
  suback_decode_loop (l ++ rest) (len l) acc = Ok (acc ++ l, rest).
Proof.
  induction l as [|c l IH]; intros acc rest Hc.
  - rewrite len_nil, app_nil_r. cbn [app]. destruct rest; reflexivity.
  - apply Forall_cons_iff in Hc as [Hc Hcl]. autorewrite with len. cbn [app suback_decode_loop].
    destruct (N.eqb_spec (1 + len l) 0); [lia|]. apply code_ok_check in Hc. rewrite Hc. cbn [negb].
    replace (1 + len l - 1) with (len l) by lia. rewrite IH by assumption. rewrite <- app_assoc. reflexivity.
Qed.
Lemma suback_roundtrip id l b rest : id < 65536 -> Forall code_ok l -> len (suback_body id l) < 2 ^ 28 ->
  exists p w, build_suback id l = Ok p /\ wire PT_SUBACK 0 (suback_body id l) w /\ suback_encode b p = bwrite b w /\
   suback_decode (w ++ rest) = Ok (p, rest) /\ sa_id p = id /\ sa_codes p = l.
Proof.
  intros Hid Hf Hl. change (len (suback_body id l)) with (len (be16 id ++ l)) in *. autorewrite with len in Hl. n28.
  exists (mksuback (mkfh PT_SUBACK (2 + len l) 0) id l), (fh_bytes (mkfh PT_SUBACK (len (suback_body id l)) 0) ++ suback_body id l).
  assert (Hfl : flags_legal PT_SUBACK 0) by (split; [reflexivity|reflexivity]).
  assert (E : len (suback_body id l) = 2 + len l) by (unfold suback_body; autorewrite with len; lia).
  repeat split.
  - unfold build_suback. rewrite build_suback_gen; [reflexivity|assumption|cbn; unfold two64; lia].
  - apply fh_wire. rewrite E. n28. lia.
  - unfold suback_encode. cbn [sa_fh sa_id sa_codes]. rewrite E. rewrite hdr_encode by (auto; n28; reflexivity || lia).
    unfold bwrite_be16. rewrite bwrite_bwrite_k. unfold suback_body. rewrite (app_assoc _ (be16 id) l).
    rewrite <- (bwrite_bwrite b (fh_bytes (mkfh PT_SUBACK (2 + len l) 0) ++ be16 id) l).
    destruct (bwrite b (fh_bytes (mkfh PT_SUBACK (2 + len l) 0) ++ be16 id)) as [b1|] eqn:E1; cbn [bind]; [|reflexivity]. apply write_u8s_eq.
    apply bwrite_inv in E1 as [E1 ->]. cbn [bcap bdata]. rewrite len_app. assumption.
  - unfold suback_decode. rewrite <- app_assoc. rewrite hdr_decode by (auto; rewrite ?E; n28; reflexivity || lia).
    cbn [bind fh_rem fh_flags fh_type]. rewrite E. cbn [negb N.eqb].
    unfold suback_body. rewrite <- app_assoc. change (0 =? required_flags PT_SUBACK) with true. cbn [negb].
    rewrite read_be16_be16 by assumption. cbn [of_opt bind].
    rewrite sub64_ge by (unfold two64; lia). replace (2 + len l - 2) with (len l) by lia.
    rewrite suback_decode_loop_ok by assumption. reflexivity.
Qed.

