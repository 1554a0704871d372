(** Further lemmas: refutations and soundness of decoding. *)
From Verif Require Import Base BaseLemmas Vli_Spec Vli_Lemmas Fixed311_Model Fixed311_Proofs Packets311_Model Packets311_Spec Packets311_Proofs.
Ltac Zify.zify_post_hook ::= Z.div_mod_to_equations.

Lemma hdr_flags_ok_legal t f : hdr_flags_ok t f -> flags_legal t f.
Proof.
  intros [H1 H2]. split; [assumption|]. unfold packet_has_flags, PT_SUBSCRIBE, PT_UNSUBSCRIBE, PT_PUBLISH, PT_PUBREL. lia.
Qed.
Lemma fixed_header_roundtrip b t f n rest : t < 16 -> hdr_flags_ok t f -> n < 2 ^ 28 -> n <= len rest ->
  exists h, hdr_prefix t f n h /\ (exists rl, h = (16 * t + f) :: rl /\ vli_minimal n rl) /\
    fixed_header_encode b (mkfh t n f) = bwrite b h /\ fixed_header_decode (h ++ rest) = Ok (mkfh t n f, rest).
Proof.
  intros Ht Hf Hn Hl. apply hdr_flags_ok_legal in Hf.
  assert (n < 2 ^ 64) by (eapply N.lt_trans; [exact Hn|reflexivity]).
  exists (fh_bytes (mkfh t n f)). repeat split.
  - exists (rlb n). split; [reflexivity|]. split; [apply rlb_minimal; assumption|apply rlb_len; assumption].
  - exists (rlb n). split; [reflexivity|]. apply rlb_minimal; assumption.
  - apply hdr_encode; assumption.
  - apply fixed_header_decode_bytes; assumption.
Qed.

(** too long remaining lengths *)
Lemma vli_long_err n bs : vli n bs -> forall r k acc, k <= 3 -> 4 < len bs + k ->
  decode_remaining_length_loop (bs ++ r) (128 ^ k) acc = Err E_INVALID_REMAINING_LENGTH.
Proof.
  induction 1 as [b Hb|x q bs Hx Hq IH]; intros r k acc Hk Hl; autorewrite with len in Hl; [lia|].
  cbn [app decode_remaining_length_loop]. rewrite land128_zero by lia. destruct (N.ltb_spec (x + 128) 128); [lia|].
  assert (Hk' : 128 ^ k * 128 = 128 ^ (k + 1)) by (rewrite N.pow_add_r; reflexivity). rewrite Hk'.
  destruct (N.ltb_spec (128 * 128 * 128) (128 ^ (k + 1))) as [Hb|Hb]; [reflexivity|].
  destruct (N.eq_dec k 3) as [->|].
  - exfalso. change (128 ^ (3 + 1)) with 268435456 in Hb. lia.
  - apply IH; lia.
Qed.
Lemma remaining_length_overflow n b rest : 2 ^ 28 <= n < 2 ^ 64 -> len (bdata b) + 10 <= bcap b ->
  exists w, encode_remaining_length b n = Ok (mkbuf (bcap b) (bdata b ++ w)) /\
            decode_remaining_length (w ++ rest) = Err E_INVALID_REMAINING_LENGTH.
Proof.
  intros [Hn Hn2] Hc. destruct (rlb_minimal n Hn2) as [Hv Hm]. exists (rlb n).
  pose proof (vli_bound _ _ Hv) as Hb.
  assert (Hl : len (rlb n) <= 10).
  { destruct (vli_exists_len 9 n) as (bs & Hb' & Hl & _).
    - eapply N.lt_le_trans; [exact Hn2|]. vm_compute. discriminate.
    - specialize (Hm _ Hb'). lia. }
  assert (4 < len (rlb n)).
  { destruct (N.le_gt_cases (len (rlb n)) 4); [|assumption]. exfalso.
    assert (128 ^ len (rlb n) <= 128 ^ 4) by (apply N.pow_le_mono_r; lia). change (128 ^ 4) with (2 ^ 28) in *. lia. }
  split.
  - rewrite encode_rl_ok by assumption. destruct (N.leb_spec (len (bdata b) + len (rlb n)) (bcap b)); [reflexivity|lia].
  - unfold decode_remaining_length. change 1 with (128 ^ 0). apply (vli_long_err _ _ Hv); lia.
Qed.

(** soundness of header decoding *)
Lemma fixed_header_decode_inv cur h rest : bytes_ok cur -> fixed_header_decode cur = Ok (h, rest) ->
  exists p, cur = p ++ rest /\ hdr_prefix (fh_type h) (fh_flags h) (fh_rem h) p /\ fh_rem h <= len rest /\ fh_flags h < 16 /\ fh_type h < 16 /\ bytes_ok rest.
Proof.
  intros Hok. destruct cur as [|b1 cur]; [discriminate|]. cbn [fixed_header_decode read_u8].
  apply bytes_ok_cons in Hok as [Hb Hok].
  destruct (decode_remaining_length cur) as [[n r]|] eqn:E; cbn [bind]; [|discriminate].
  destruct (N.ltb_spec (len r) n); [discriminate|].
  destruct (_ && _); [discriminate|]. intros H1; inversion H1; subst; clear H1. cbn [fh_type fh_flags fh_rem].
  apply decode_rl_spec in E as (bs & -> & Hv); [|assumption].
  exists (b1 :: bs). split; [reflexivity|]. unfold get_packet_type. rewrite shiftr4, land15.
  apply bytes_ok_app in Hok as [_ Hok].
  repeat split; try lia; try assumption. exists bs. split; [|assumption]. f_equal. lia.
Qed.
Lemma decode_buffer_inv cur s r : bytes_ok cur -> decode_buffer cur = Ok (s, r) ->
  (exists n, cur = be16 n ++ r /\ s = [] /\ len r < n) \/ (cur = str s ++ r /\ str_ok s).
Proof.
  intros Hok. unfold decode_buffer. destruct (read_be16 cur) as [[n c]|] eqn:E; [|discriminate].
  apply read_be16_inv in E as (-> & Hn & Hok'); [|assumption]. unfold advance.
  destruct (N.leb_spec n (len c)) as [Hl|Hl]; intros H; inversion H; subst; clear H.
  - right. assert (Hs : len (firstn (N.to_nat n) c) = n) by (unfold len in *; rewrite firstn_length; lia).
    unfold str, str_ok. rewrite Hs. split; [|lia]. rewrite <- app_assoc, firstn_skipn. reflexivity.
  - left. exists n. auto.
Qed.
Lemma publish_decode_sound cur p rest : bytes_ok cur -> publish_decode cur = Ok (p, rest) -> pb_topic p <> [] -> len cur < two64 ->
  exists h, hdr_prefix (fh_type (pb_fh p)) (fh_flags (pb_fh p)) (len (publish_body (publish_get_qos p) (pb_topic p) (pb_id p) (pb_payload p))) h /\
    cur = h ++ publish_body (publish_get_qos p) (pb_topic p) (pb_id p) (pb_payload p) ++ rest /\
    publish_get_qos p <= 2 /\ str_ok (pb_topic p).
Proof.
  intros Hok H Ht Hcl. unfold publish_decode in H.
  destruct (fixed_header_decode cur) as [[fh c]|] eqn:E1; cbn [bind] in H; [|discriminate].
  apply fixed_header_decode_inv in E1 as (ph & -> & Hph & Hrem & Hfl & Hty & Hokc); [|assumption].
  destruct (decode_buffer c) as [[topic c1]|] eqn:E2; cbn [bind] in H; [|discriminate].
  destruct (N.ltb_spec 2 (N.land (N.shiftr (fh_flags fh) 1) 3)) as [Hq|Hq]; [discriminate|].
  set (qos := N.land (N.shiftr (fh_flags fh) 1) 3) in *.
  apply decode_buffer_inv in E2; [|assumption].
  assert (Hbody : forall id ps c2 idb, (c1 = idb ++ c2) -> ps = sub64 (sub64 (fh_rem fh) (sizeof_encoded_buffer topic)) (len idb) ->
     idb = (if qos =? 0 then [] else be16 id) ->
     (let (payload, cur) := advance c2 ps in if negb (len payload =? ps) then Err E_SHORT_BUFFER else
       Ok (mkpublish fh id topic payload, cur)) = Ok (p, rest) ->
     exists h : bytes, hdr_prefix (fh_type (pb_fh p)) (fh_flags (pb_fh p)) (len (publish_body (publish_get_qos p) (pb_topic p) (pb_id p) (pb_payload p))) h /\
      ph ++ c = h ++ publish_body (publish_get_qos p) (pb_topic p) (pb_id p) (pb_payload p) ++ rest /\
      publish_get_qos p <= 2 /\ str_ok (pb_topic p)).
  { intros id ps c2 idb Hc1 Hps Hidb Hadv. unfold advance in Hadv.
    destruct (N.leb_spec ps (len c2)) as [Hle|Hle].
    - destruct (N.eqb_spec (len (firstn (N.to_nat ps) c2)) ps) as [Hpl|Hpl]; cbn [negb] in Hadv; [|discriminate].
      inversion Hadv; subst p rest. clear Hadv. cbn [pb_topic pb_fh pb_id pb_payload] in *.
      unfold publish_get_qos. cbn [pb_fh]. fold qos.
      destruct E2 as [(n & Hn1 & Hn2 & Hn3)|[Hc Hstr]]; [congruence|].
      assert (Hlc : len c = 2 + len topic + len idb + len c2).
      { rewrite Hc, Hc1. autorewrite with len. lia. }
      assert (Hbl : len (publish_body qos topic id (firstn (N.to_nat ps) c2)) = 2 + len topic + len idb + ps).
      { unfold publish_body. rewrite <- Hidb. autorewrite with len. lia. }
      exists ph. rewrite Hbl. unfold sizeof_encoded_buffer in Hps.
      rewrite len_app in Hcl.
      assert (fh_rem fh = 2 + len topic + len idb + ps).
      { unfold sub64 in Hps. change (2 ^ 64) with two64 in Hps. unfold two64 in *. unfold str_ok in Hstr.
        assert (len idb <= 2) by (subst idb; destruct (qos =? 0); autorewrite with len; lia).
        (* if remaining length was too small the payload size would be close to 2^64 *)
        lia. }
      rewrite <- H0. repeat split; try assumption; try lia.
      unfold publish_body. rewrite <- Hidb. rewrite <- !app_assoc. rewrite firstn_skipn. rewrite <- Hc1, <- Hc. reflexivity.
    - destruct (N.eqb_spec (len (@nil N)) ps) as [Hz|Hz]; cbn [negb] in Hadv; [|discriminate].
      rewrite len_nil in Hz. lia. }
  destruct (N.ltb_spec 0 qos) as [Hq0|Hq0].
  - destruct (read_be16 c1) as [[id c2]|] eqn:E3; cbn [of_opt bind] in H; [|discriminate].
    assert (Hokc1 : bytes_ok c1).
    { destruct E2 as [(n & -> & _)|[-> _]]; [apply bytes_ok_app in Hokc; tauto|].
      apply bytes_ok_app in Hokc; tauto. }
    apply read_be16_inv in E3 as (-> & Hid & _); [|assumption].
    eapply Hbody; [reflexivity| | |exact H]; [rewrite len_be16; reflexivity|].
    destruct (N.eqb_spec qos 0); [lia|reflexivity].
  - cbn [bind] in H. eapply (Hbody 0 _ c1 []); [reflexivity| | |exact H].
    + rewrite len_nil. unfold sub64 at 2. change (2 ^ 64) with two64.
      assert (sub64 (fh_rem fh) (sizeof_encoded_buffer topic) < two64).
      { unfold sub64. change (2 ^ 64) with two64. unfold two64. lia. }
      unfold two64 in *. lia.
    + destruct (N.eqb_spec qos 0); [reflexivity|lia].
Qed.
