(** Properties C08, C09, C10 (client to server), C37 and the encoding half of C07: MQTT 5 packets on their way to the server. *)
From Verif Require Import Base Vli_Spec Mqtt5_Views Mqtt5_Spec TopicAlias_Model Encoder5_Model Encoder5_Spec Validate5_Model Validate5_Spec Encoder5_Proofs Validate5_Proofs.

(** ** C07, encoding *)
(** Every value up to 268435455 has a size, is written in exactly that many bytes and in its shortest form if the buffer has room for it
    (into any buffer, after what is already in it), and is otherwise refused; every larger value is refused and leaves the buffer alone. *)
Theorem C07_encode : forall n b, n <= 268435455 -> exists k, vli_size n = Ok k /\
  (len (bdata b) + k <= bcap b -> exists bs, encode_vli b n = (mkbuf (bcap b) (bdata b ++ bs), None) /\ vli_minimal n bs /\ len bs = k) /\
  (len (bdata b) <= bcap b < len (bdata b) + k -> snd (encode_vli b n) = Some E_SHORT_BUFFER).
Proof. exact vli_encode_spec. Qed.
Print Assumptions C07_encode.
Theorem C07_too_large_refused : forall n b, 268435455 < n -> encode_vli b n = (b, Some E_INVALID_ARGUMENT) /\ vli_size n = Err E_INVALID_ARGUMENT.
Proof. exact vli_refused. Qed.
Print Assumptions C07_too_large_refused.
Example C07_encode_ex : encode_vli (mkbuf 6 [9]) 16384 = (mkbuf 6 [9; 128; 128; 1], None) /\ vli_size 16384 = Ok 3 /\ vli_size 16383 = Ok 2 /\
  vli_size 268435455 = Ok 4 /\ encode_vli (mkbuf 3 [9]) 16384 = (mkbuf 3 [9; 128; 128], Some E_SHORT_BUFFER).
Proof. vm_compute. repeat split; reflexivity. Qed.

(** ** C08 *)
(** After any history there is one byte string that the encoder produces whatever buffers it is given. *)
Theorem C08_buffer_independence : forall ops, exists bs, emits (enc_run ops) bs.
Proof. exact run_emits. Qed.
Print Assumptions C08_buffer_independence.
Theorem C08_deterministic : forall e a b, emits e a -> emits e b -> a = b.
Proof. exact emits_fun. Qed.
Print Assumptions C08_deterministic.
(** It is what one sufficiently large buffer receives in one go, ... *)
Theorem C08_one_large_buffer : forall ops bs c, emits (enc_run ops) bs -> len bs + 4 <= c ->
  encode_to_buffer (enc_run ops) (mkbuf c []) = (mkencoder [] (enc_resolver (enc_run ops)), mkbuf c bs, ER_FINISHED).
Proof. intros ops bs c H Hc. exact (one_buffer _ bs (enc_run_steps ops) H c Hc). Qed.
Print Assumptions C08_one_large_buffer.
(** ... and one more buffer of at least four bytes than it is long always suffices: *)
Theorem C08_terminates : forall ops bs caps, emits (enc_run ops) bs -> len bs < len (filter (N.leb 4) caps) ->
  exists e out, encode_to_buffers (enc_run ops) caps = (e, out, true) /\ concat out = bs /\ enc_steps e = [].
Proof. exact enough_buffers. Qed.
Print Assumptions C08_terminates.
(** A buffer that already holds data [d] is filled like an empty one with the capacity that is left. *)
Theorem C08_partly_filled_buffer : forall e d b, let '(e1, b1, r) := encode_to_buffer e b in
  encode_to_buffer e (mkbuf (len d + bcap b) (d ++ bdata b)) = (e1, mkbuf (len d + bcap b) (d ++ bdata b1), r).
Proof. exact partly_filled. Qed.
Print Assumptions C08_partly_filled_buffer.
(** The four bytes are needed: with buffers of three, a DISCONNECT is never finished, however many buffers are offered. *)
Theorem C08_small_buffers_stall : forall n, snd (encode_to_buffers (enc_run [EAppend (P_DISCONNECT (mkdisconnect 0 None None [] None))]) (repeat 3 n)) = false.
Proof. exact small_stall_bye. Qed.
Print Assumptions C08_small_buffers_stall.
Definition ex_publish (id qos : N) : packet5 :=
  P_PUBLISH (mkpublish [104; 105] id qos false false [97; 47; 98] None (Some 60) None None None [] (Some [116]) [([107], [118])]).
Definition ex_bytes : bytes := [50; 26; 0; 3; 97; 47; 98; 0; 7; 16; 2; 0; 0; 0; 60; 3; 0; 1; 116; 38; 0; 1; 107; 0; 1; 118; 104; 105].
Example C08_ex :
  let '(_, out, fin) := encode_to_buffers (enc_run [EAppend (ex_publish 7 1)]) [4; 5; 10; 4; 4; 4; 4; 4; 4; 4] in concat out = ex_bytes /\ fin = true /\ len out = 7.
Proof. vm_compute. repeat split; reflexivity. Qed.

(** ** C09 *)
(** After any history: a packet that passed option validation and has the packet identifier it needs is, as [q], appended as bytes that are
    [q] by the MQTT 5 specification (which fixes every length in it), the encoded-size query gives their number, and the encoder will
    produce what it would have produced before followed by these bytes. A packet whose remaining length MQTT cannot express is refused by
    the encoder and by the size query. [remaining_length] is written down from the specification. *)
Theorem C09_framing : forall ops p q b0, Forall op_typed ops -> typed p -> validate_packet p = true -> has_packet_id p -> let e := enc_run ops in
  resolved e p = Some q -> emits e b0 ->
  (remaining_length q <= 268435455 -> exists bs, snd (append_packet e p) = A_OK /\ packet_wire q bs /\ emits (fst (append_packet e p)) (b0 ++ bs) /\
     (no_size_query q \/ get_encoded_size q = Ok (len bs)) /\ len bs = wire_size q) /\
  (268435455 < remaining_length q < 4294967296 -> (exists x, snd (append_packet e p) = A_FAILED x) /\ exists x, get_encoded_size q = Err x).
Proof. exact framing. Qed.
Print Assumptions C09_framing.
(** Only an oversized PUBLISH or CONNECT can be refused: every other validated packet is expressible, and a CONNECT stays below 2^32. *)
Theorem C09_others_expressible : forall p, validate_packet p = true -> (forall v, p <> P_PUBLISH v) ->
  remaining_length p < 4294967296 /\ ((forall v, p <> P_CONNECT v) -> remaining_length p <= 268435455).
Proof. exact others_small. Qed.
Print Assumptions C09_others_expressible.
(** So does everything that passed the size check made before sending, with the packet identifier and alias it gets after the check. *)
Theorem C09_checked_below_overflow : forall ops s id p q, Forall op_typed ops -> op_typed (EAppend p) -> validate_packet p = true -> validate_vs_settings s p = true ->
  resolved (enc_run ops) (with_packet_id id p) = Some q -> remaining_length q < 4294967296.
Proof. intros ops s id p q H1 H2 H3 H4 H5. exact (proj1 (proj2 (settings_bound ops s id p q H1 H2 H3 H4 H5))). Qed.
Print Assumptions C09_checked_below_overflow.
(** Giving a validated packet its packet identifier yields a packet that meets the hypotheses above. *)
Theorem C09_packet_id_completes : forall id p, 0 < id < 65536 -> typed p -> validate_packet p = true -> (forall v, p <> P_PUBACK v) ->
  typed (with_packet_id id p) /\ validate_packet (with_packet_id id p) = true /\ has_packet_id (with_packet_id id p).
Proof. exact id_keeps. Qed.
Print Assumptions C09_packet_id_completes.
Example C09_ex : validate_packet (ex_publish 7 1) = true /\ has_packet_id (ex_publish 7 1) /\ resolved (enc_run [EBuffer 9]) (ex_publish 7 1) = Some (ex_publish 7 1) /\
  remaining_length (ex_publish 7 1) = 26 /\ get_encoded_size (ex_publish 7 1) = Ok 28 /\ len ex_bytes = 28.
Proof. vm_compute. repeat split; auto. Qed.
Definition octets (b : bytes) : bool := forallb (fun x => x <? 256) b.
Example C09_ex_typed : typed (ex_publish 7 1).
Proof.
  assert (Hb : forall b, octets b = true -> bytes_ok b) by (intros b H; apply Forall_forall; intros x Hx; apply N.ltb_lt; exact (proj1 (forallb_forall _ _) H x Hx)).
  cbn. unfold obelow, obytes, upbytes. repeat (split; [first [reflexivity | apply Hb; reflexivity | discriminate | (intros x E; injection E as <-; first [reflexivity|apply Hb; reflexivity])]|]).
  constructor; [split; apply Hb; reflexivity|constructor].
Qed.

(** ** C10, client to server *)
(** The encoder produces bytes for exactly the packets that MQTT 5 can express, and these are bytes of the packet (with the topic and alias
    of the resolver, which C20 relates to the user's topic). *)
Theorem C10_client_packets : forall ops p q b0, let e := enc_run ops in resolved e p = Some q -> from_client q -> expressible q -> emits e b0 ->
  exists bs, snd (append_packet e p) = A_OK /\ packet_wire q bs /\ emits (fst (append_packet e p)) (b0 ++ bs) /\
    (no_size_query q \/ get_encoded_size q = Ok (len bs)) /\ len bs = wire_size q.
Proof. exact append_emits. Qed.
Print Assumptions C10_client_packets.
Theorem C10_expressible : forall q, from_client q -> (expressible q <-> fields_fit q /\ remaining_length q <= 268435455).
Proof. exact expressible_iff. Qed.
Print Assumptions C10_expressible.
(** The bytes describe one packet only. (A CONNECT does not transmit the delay of a will it does not have.) *)
Theorem C10_unambiguous : forall p q bs, (forall v, p = P_CONNECT v -> no_stray_delay v) -> (forall v, q = P_CONNECT v -> no_stray_delay v) ->
  packet_wire p bs -> packet_wire q bs -> p = q.
Proof. exact packet_unique. Qed.
Print Assumptions C10_unambiguous.
Example C10_client_ex : snd (append_packet (enc_run []) (ex_publish 7 1)) = A_OK /\ fst (encode_to_buffer (fst (append_packet (enc_run []) (ex_publish 7 1))) (mkbuf 40 [])) = (mkencoder [] None, mkbuf 40 ex_bytes) /\
  fields_fit (ex_publish 7 1) /\ remaining_length (ex_publish 7 1) <= 268435455.
Proof.
  split; [vm_compute; reflexivity|]. split; [vm_compute; reflexivity|]. split; [apply validated_fits; [exact C09_ex_typed|reflexivity|right; reflexivity]|discriminate].
Qed.

(** ** C37 *)
(** The statement "no packet sent after the check is larger than the server's maximum packet size" is false: a QoS 1 PUBLISH of exactly the
    maximum size passes the check, is then given its packet identifier, and is sent with two bytes too many; ... *)
Theorem C37_packet_id_refuted : exists s p q, typed p /\ validate_packet p = true /\ validate_vs_settings s p = true /\
  resolved (enc_run []) (with_packet_id 1 p) = Some q /\ lm_packet_size s + 2 = wire_size q.
Proof. exact size_refuted_id. Qed.
Print Assumptions C37_packet_id_refuted.
(** ... and an LRU alias resolver adds an alias to a PUBLISH that passed the check. *)
Theorem C37_alias_refuted : exists ops s p q, Forall op_typed ops /\ typed p /\ validate_packet p = true /\ validate_vs_settings s p = true /\
  resolved (enc_run ops) p = Some q /\ lm_packet_size s + 3 = wire_size q.
Proof. exact size_refuted_alias. Qed.
Print Assumptions C37_alias_refuted.
(** It holds of packets that already have (or need no) packet identifier when the resolver does not choose aliases itself; ... *)
Theorem C37_size_respected_partial : forall ops s p q, Forall op_typed ops -> op_typed (EAppend p) -> validate_packet p = true -> validate_vs_settings s p = true ->
  let e := enc_run ops in (forall o, enc_resolver e = Some o -> ~ lru_resolver o) -> resolved e p = Some q -> wire_size q <= lm_packet_size s.
Proof. exact settings_exact. Qed.
Print Assumptions C37_size_respected_partial.
(** ... in every case the excess is at most seven bytes. *)
Theorem C37_excess_bounded_partial : forall ops s id p q, Forall op_typed ops -> op_typed (EAppend p) -> validate_packet p = true -> validate_vs_settings s p = true ->
  resolved (enc_run ops) (with_packet_id id p) = Some q -> wire_size q <= lm_packet_size s + 7.
Proof. intros ops s id p q H1 H2 H3 H4 H5. exact (proj2 (proj2 (settings_bound ops s id p q H1 H2 H3 H4 H5))). Qed.
Print Assumptions C37_excess_bounded_partial.
Example C37_ex : validate_vs_settings (mklimits 28 1 true None) (ex_publish 7 1) = true /\ validate_vs_settings (mklimits 27 1 true None) (ex_publish 7 1) = false /\
  wire_size (ex_publish 7 1) = 28.
Proof. vm_compute. repeat split; reflexivity. Qed.
