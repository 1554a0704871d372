(** Properties C01, C02, C03, C06: MQTT 3.1.1 wire format. *)
From Verif Require Import Base BaseLemmas Vli_Spec Fixed311_Model Fixed311_Proofs Packets311_Model Packets311_Spec Packets311_Proofs
  Connect311_Build Connect311_Proofs Packets311_More.

(** ** C01 *)
(** Every header with remaining length below 2^28 round trips, in a minimal legal encoding. *)
Theorem C01_fixed_header_roundtrip : forall b t f n rest, t < 16 -> hdr_flags_ok t f -> n < 2 ^ 28 -> n <= len rest ->
  exists h, hdr_prefix t f n h /\ (exists rl, h = (16 * t + f) :: rl /\ vli_minimal n rl) /\
    fixed_header_encode b (mkfh t n f) = bwrite b h /\ fixed_header_decode (h ++ rest) = Ok (mkfh t n f, rest).
Proof. exact fixed_header_roundtrip. Qed.
Print Assumptions C01_fixed_header_roundtrip.
Example C01_ex : 3 < 16 /\ hdr_flags_ok 3 13 /\ 300 < 2 ^ 28 /\ 300 <= len (repeat 0 300).
Proof. unfold hdr_flags_ok. repeat split; try reflexivity; auto. Qed.

(** The remaining-length decoder accepts exactly the legal encodings. *)
Theorem C01_remaining_length_decoder_exact : forall cur n rest, bytes_ok cur ->
  (decode_remaining_length cur = Ok (n, rest) <-> exists bs, cur = bs ++ rest /\ vli_legal n bs).
Proof. exact decode_rl_spec. Qed.
Print Assumptions C01_remaining_length_decoder_exact.
(** On any other input it asks for more data exactly if the input can still become legal. *)
Theorem C01_remaining_length_decoder_errors : forall cur e, bytes_ok cur -> decode_remaining_length cur = Err e ->
  (e = E_SHORT_BUFFER /\ vli_incomplete cur) \/
  (e = E_INVALID_REMAINING_LENGTH /\ exists p q, cur = p ++ q /\ len p = 4 /\ Forall (fun b => 128 <= b < 256) p).
Proof. exact decode_rl_err. Qed.
Print Assumptions C01_remaining_length_decoder_errors.
Example C01_ex2 : decode_remaining_length [172; 2; 7] = Ok (300, [7]) /\ decode_remaining_length [172] = Err E_SHORT_BUFFER.
Proof. split; reflexivity. Qed.

(** Refuted part: any larger remaining length is encoded without an error into something the decoder rejects. *)
Theorem C01_large_remaining_length_refuted : forall n b rest, 2 ^ 28 <= n < 2 ^ 64 -> len (bdata b) + 10 <= bcap b ->
  exists w, encode_remaining_length b n = Ok (mkbuf (bcap b) (bdata b ++ w)) /\
            decode_remaining_length (w ++ rest) = Err E_INVALID_REMAINING_LENGTH.
Proof. exact remaining_length_overflow. Qed.
Print Assumptions C01_large_remaining_length_refuted.
Example C01_ex3 : 2 ^ 28 <= 268435456 < 2 ^ 64 /\ len (bdata (mkbuf 20 [])) + 10 <= bcap (mkbuf 20 []).
Proof. repeat split; vm_compute; (reflexivity || discriminate). Qed.

(** ** C02 and C03: each packet kind. [bwrite b w] appends exactly [w] or, if the capacity does not suffice, fails with SHORT_BUFFER;
    [wire t f body w] says that [w] is a well-framed packet with that body. *)
Theorem C02_connect_roundtrip : forall cid clean keep_alive ops b rest,
  str_ok cid -> keep_alive < 65536 -> Forall op_ok ops -> (length (filter is_will ops) <= 1)%nat ->
  exists w, wire 1 0 (connect_body (connect_info_of cid clean keep_alive ops)) w /\
    connect_encode b (build_connect cid clean keep_alive ops) = bwrite b w /\
    connect_decode (w ++ rest) = Ok (build_connect cid clean keep_alive ops, rest).
Proof. exact connect_roundtrip. Qed.
Print Assumptions C02_connect_roundtrip.
Example C02_connect_ex : exists ops, Forall op_ok ops /\ (length (filter is_will ops) <= 1)%nat /\ length ops = 3%nat /\
  connect_info_of [97] true 30 ops = mkci [97] true 30 (Some ([116], 1, true, [109; 109])) (Some [117; 50]) (Some [112]).
Proof.
  exists [AddCredentials [117] [112]; AddWill [116] 1 true [109; 109]; AddCredentials [117; 50] []].
  repeat split; try (repeat constructor; vm_compute; discriminate); reflexivity.
Qed.
(** Calling the will function twice produces a packet whose announced length is wrong. *)
Theorem C03_connect_two_wills_refuted : exists ops b b', Forall op_ok ops /\
  connect_encode b (build_connect [97] true 30 ops) = Ok b' /\
  (forall w rest, wire 1 0 w (bdata b' ++ rest) -> rest <> []).
Proof.
  exists [AddWill [116] 0 false [109]; AddWill [116] 0 false [109]], (mkbuf 100 []).
  eexists. split; [repeat constructor; vm_compute; discriminate|]. split; [vm_compute; reflexivity|].
  intros w rest (rl & E & [Hv Hl] & _) ->. cbn [bdata app] in E. inversion E as [E1]. clear E.
  assert (Hv2 : vli 25 [25]) by (constructor; reflexivity).
  symmetry in E1. change (25 :: ?x) with ([25] ++ x) in E1.
  destruct (Vli_Lemmas.vli_det _ _ _ _ _ _ Hv Hv2 E1) as (Hlen & _ & Hw). rewrite Hw in Hlen. vm_compute in Hlen. discriminate.
Qed.
Print Assumptions C03_connect_two_wills_refuted.

Theorem C02_connack_roundtrip : forall session_present code b rest, code < 256 ->
  exists w, wire 2 0 (connack_body session_present code) w /\
    connack_encode b (connack_init session_present code) = bwrite b w /\
    connack_decode (w ++ rest) = Ok (connack_init session_present code, rest).
Proof. exact connack_roundtrip. Qed.
Print Assumptions C02_connack_roundtrip.
Example C02_connack_ex : exists b w, wire 2 0 (connack_body true 5) w /\ connack_encode b (connack_init true 5) = Ok (mkbuf 10 w) /\ w = [32; 2; 1; 5].
Proof.
  exists (mkbuf 10 []), [32; 2; 1; 5]. split; [|split; reflexivity].
  exists [2]. split; [reflexivity|]. split; [split; [constructor; reflexivity|vm_compute; discriminate]|].
  apply Vli_Lemmas.vli_minimal_intro; [constructor; reflexivity|left; reflexivity].
Qed.

Theorem C02_publish_roundtrip : forall retain qos dup topic id payload b rest,
  qos <= 2 -> str_ok topic -> (qos = 0 -> id = 0) -> id < 65536 -> len (publish_body qos topic id payload) < 2 ^ 28 ->
  exists w, wire 3 (publish_flags dup qos retain) (publish_body qos topic id payload) w /\
   publish_encode b (publish_init retain qos dup topic id payload) = bwrite b w /\
   publish_decode (w ++ rest) = Ok (publish_init retain qos dup topic id payload, rest).
Proof. exact publish_roundtrip. Qed.
Print Assumptions C02_publish_roundtrip.
(** ... and the accessors return what was given. *)
Theorem C02_publish_accessors : forall retain qos dup topic id payload, qos < 4 ->
  let p := publish_init retain qos dup topic id payload in
  publish_get_retain p = retain /\ publish_get_qos p = qos /\ publish_get_dup p = dup /\ pb_topic p = topic /\ pb_id p = id /\ pb_payload p = payload /\
  publish_get_dup (publish_set_dup p) = true /\ publish_get_qos (publish_set_dup p) = qos /\ publish_get_retain (publish_set_dup p) = retain.
Proof.
  intros retain qos dup topic id payload Hq p.
  assert (qos = 0 \/ qos = 1 \/ qos = 2 \/ qos = 3) as [->|[->|[->| ->]]] by lia; destruct retain, dup; repeat split; reflexivity.
Qed.
Print Assumptions C02_publish_accessors.
Example C02_publish_ex : 1 <= 2 /\ str_ok [97; 47; 98] /\ 513 < 65536 /\ len (publish_body 1 [97; 47; 98] 513 [1; 2; 3]) < 2 ^ 28.
Proof. repeat split; vm_compute; (reflexivity || discriminate). Qed.

(** PUBACK 4, PUBREC 5, PUBREL 6 (flags 2), PUBCOMP 7, UNSUBACK 11 *)
Theorem C02_ack_roundtrip : forall id b rest, id < 65536 ->
  Forall (fun '(t, f, p) => exists w, wire t f (ack_body id) w /\ ack_encode b p = bwrite b w /\ ack_decode (w ++ rest) = Ok (p, rest))
   [(4, 0, puback_init id); (5, 0, pubrec_init id); (6, 2, pubrel_init id); (7, 0, pubcomp_init id); (11, 0, unsuback_init id)].
Proof.
  intros id b rest Hid. repeat constructor; apply ack_roundtrip_gen; try assumption; try reflexivity; split; try reflexivity; try discriminate.
Qed.
Print Assumptions C02_ack_roundtrip.

Theorem C02_subscribe_roundtrip : forall id filters b rest, id < 65536 -> Forall (fun fq => str_ok (fst fq) /\ snd fq <= 2) filters ->
  len (subscribe_body id filters) < 2 ^ 28 ->
  exists w, wire 8 2 (subscribe_body id filters) w /\
   (len (bdata b) + len w <= bcap b -> subscribe_encode b (build_subscribe id filters) = Ok (mkbuf (bcap b) (bdata b ++ w))) /\
   subscribe_decode (w ++ rest) = Ok (build_subscribe id filters, rest).
Proof. exact subscribe_roundtrip. Qed.
Print Assumptions C02_subscribe_roundtrip.
Example C02_subscribe_ex : Forall (fun fq => str_ok (fst fq) /\ snd fq <= 2) [([97; 47; 35], 1); ([43], 0); ([], 2)] /\
  len (subscribe_body 7 [([97; 47; 35], 1); ([43], 0); ([], 2)]) < 2 ^ 28.
Proof. split; [repeat constructor; vm_compute; discriminate|reflexivity]. Qed.

Theorem C02_suback_roundtrip : forall id codes b rest, id < 65536 -> Forall code_ok codes -> len (suback_body id codes) < 2 ^ 28 ->
  exists p w, build_suback id codes = Ok p /\ wire 9 0 (suback_body id codes) w /\ suback_encode b p = bwrite b w /\
   suback_decode (w ++ rest) = Ok (p, rest) /\ sa_id p = id /\ sa_codes p = codes.
Proof. exact suback_roundtrip. Qed.
Print Assumptions C02_suback_roundtrip.
Example C02_suback_ex : Forall code_ok [0; 1; 2; 128] /\ len (suback_body 7 [0; 1; 2; 128]) < 2 ^ 28.
Proof. split; [repeat (apply Forall_cons; [unfold code_ok; auto|]); constructor|reflexivity]. Qed.

Theorem C02_unsubscribe_roundtrip : forall id filters b rest, id < 65536 -> Forall str_ok filters -> len (unsubscribe_body id filters) < 2 ^ 28 ->
  exists w, wire 10 2 (unsubscribe_body id filters) w /\
   (len (bdata b) + len w <= bcap b -> unsubscribe_encode b (build_unsubscribe id filters) = Ok (mkbuf (bcap b) (bdata b ++ w))) /\
   unsubscribe_decode (w ++ rest) = Ok (build_unsubscribe id filters, rest).
Proof. exact unsubscribe_roundtrip. Qed.
Print Assumptions C02_unsubscribe_roundtrip.
Example C02_unsubscribe_ex : Forall str_ok [[97; 47; 35]; [43]] /\ len (unsubscribe_body 7 [[97; 47; 35]; [43]]) < 2 ^ 28.
Proof. split; [repeat constructor; vm_compute; discriminate|reflexivity]. Qed.

(** PINGREQ 12, PINGRESP 13, DISCONNECT 14 *)
Theorem C02_connection_packets_roundtrip : forall b rest,
  Forall (fun '(t, p) => exists w, wire t 0 [] w /\ connection_encode b p = bwrite b w /\ connection_decode (w ++ rest) = Ok (p, rest))
   [(12, pingreq_init); (13, pingresp_init); (14, disconnect_init)].
Proof.
  intros b rest. repeat constructor; eexists; (split; [apply fh_wire; reflexivity|]); rewrite app_nil_r; (split;
    [apply hdr_encode; try reflexivity; split; reflexivity|apply fixed_header_decode_bytes; try reflexivity; [split; reflexivity|vm_compute; destruct rest; discriminate]]).
Qed.
Print Assumptions C02_connection_packets_roundtrip.

(** Refuted parts of C03: a SUBSCRIBE whose filter does not fit in the output buffer, or exceeds 65535 bytes, is "successfully" encoded
    with the filter missing. *)
Theorem C03_subscribe_short_buffer_refuted : exists b b' id filters,
  subscribe_encode b (build_subscribe id filters) = Ok b' /\ bdata b = [] /\
  Forall (fun fq => str_ok (fst fq) /\ snd fq <= 2) filters /\
  len (bdata b') < len (subscribe_body id filters).
Proof.
  exists (mkbuf 7 []). eexists. exists 1, [([97; 98; 99], 1)].
  split; [vm_compute; reflexivity|]. split; [reflexivity|]. split; [repeat constructor; vm_compute; discriminate|reflexivity].
Qed.
Print Assumptions C03_subscribe_short_buffer_refuted.
Definition long_filter : bytes := repeat 97 (N.to_nat 65536).
Theorem C03_subscribe_long_filter_refuted : exists b b' id filters,
  subscribe_encode b (build_subscribe id filters) = Ok b' /\ bdata b = [] /\ 70000 <= bcap b /\
  filters = [(long_filter, 1)] /\ bdata b' = [130; 133; 128; 4] ++ [0; 1] ++ [1].
Proof.
  exists (mkbuf 70000 []). eexists. exists 1, [(long_filter, 1)].
  split; [vm_compute; reflexivity|]. split; [reflexivity|]. split; [vm_compute; discriminate|]. split; reflexivity.
Qed.
Print Assumptions C03_subscribe_long_filter_refuted.

(** ** C06 *)
(** A PUBLISH whose topic claims 5 bytes when only 2 follow is delivered with an empty topic. *)
Theorem C06_overlong_string_refuted : exists p, publish_decode [48; 4; 0; 5; 97; 98] = Ok (p, []) /\ pb_topic p = [] /\ pb_payload p = [97; 98].
Proof. eexists. split; [vm_compute; reflexivity|]. split; reflexivity. Qed.
Print Assumptions C06_overlong_string_refuted.
(** Proved part: a PUBLISH delivered with a non-empty topic was well-formed, and its fields are what the bytes say. The full property
    (without [pb_topic p <> []]) is false, see above. *)
Theorem C06_publish_decode_sound_partial : forall cur p rest, bytes_ok cur -> publish_decode cur = Ok (p, rest) -> pb_topic p <> [] ->
  len cur < two64 ->
  exists h, hdr_prefix (fh_type (pb_fh p)) (fh_flags (pb_fh p)) (len (publish_body (publish_get_qos p) (pb_topic p) (pb_id p) (pb_payload p))) h /\
    cur = h ++ publish_body (publish_get_qos p) (pb_topic p) (pb_id p) (pb_payload p) ++ rest /\
    publish_get_qos p <= 2 /\ str_ok (pb_topic p).
Proof. exact publish_decode_sound. Qed.
Print Assumptions C06_publish_decode_sound_partial.
Example C06_ex : exists p, publish_decode [50; 6; 0; 1; 97; 0; 9; 98] = Ok (p, []) /\ pb_topic p = [97] /\ pb_id p = 9.
Proof. eexists. split; [vm_compute; reflexivity|]. split; reflexivity. Qed.
