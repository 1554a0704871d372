(** Properties C11, C12, the server's half of C10 and the decoding half of C07: MQTT 5 packets on their way from the server.
    See Decoder5_Spec.v for [packet_accepted], [consume5] and [deliver], Mqtt5_Spec.v for [packet_wire]. *)
From Verif Require Import Base Vli_Spec Mqtt5_Views Mqtt5_Spec TopicAlias_Model Encoder5_Model Validate5_Proofs Decoder5_Model Decoder5_Spec Decoder5_Lemmas Decoder5_Proofs.

(** a callback for the examples: note the packet; DISCONNECT is an error *)
Definition note (p : packet5) (w : in_state * list packet5) : (in_state * list packet5) * bool :=
  ((fst w, snd w ++ [p]), match p with P_DISCONNECT _ => false | _ => true end).
Definition w0 : in_state * list packet5 := (in_connect 2, []).

(** ** C07, decoding *)
Theorem C07_decode : forall cur n rest, bytes_ok cur ->
  decode_vli cur = V_SUCCESS n rest <-> exists bs, cur = bs ++ rest /\ vli_legal n bs.
Proof. exact decode_vli_iff. Qed.
Print Assumptions C07_decode.
Theorem C07_decode_prefix : forall n p q, vli_legal n (p ++ q) -> q <> [] -> decode_vli p = V_MORE_DATA.
Proof. exact prefix_more. Qed.
Print Assumptions C07_decode_prefix.
Theorem C07_decode_more_data : forall cur, bytes_ok cur -> decode_vli cur = V_MORE_DATA <-> vli_incomplete cur.
Proof. exact decode_vli_more. Qed.
Print Assumptions C07_decode_more_data.
Theorem C07_decode_error : forall cur, bytes_ok cur ->
  decode_vli cur = V_ERROR <-> exists p q, cur = p ++ q /\ len p = 4 /\ Forall (fun b => 128 <= b) p.
Proof. exact decode_vli_bad. Qed.
Print Assumptions C07_decode_error.
(** What the encoder writes into a buffer with room, followed by anything, decodes to the value and exactly the rest. *)
Theorem C07_round_trip : forall n c rest, n <= 268435455 -> 4 <= c -> bytes_ok rest ->
  decode_vli (bdata (fst (encode_vli (mkbuf c []) n)) ++ rest) = V_SUCCESS n rest.
Proof. exact vli_round_trip. Qed.
Print Assumptions C07_round_trip.
Example C07_decode_ex : decode_vli [255; 255; 255; 127; 9] = V_SUCCESS 268435455 [9] /\ decode_vli [128; 128] = V_MORE_DATA /\ decode_vli [128; 0; 7] = V_SUCCESS 0 [7] /\
  decode_vli [255; 255; 255; 128; 0] = V_ERROR.
Proof. vm_compute. repeat split; reflexivity. Qed.

(** ** C10, from the server to the client *)
(** If the server sends the packets [ps], each in any form the MQTT 5 specification allows for it, then however the network cuts the
    stream, the client's callback gets exactly these packets (with topic aliases replaced by topics), in order, until it fails. *)
Theorem C10_server_stream : forall (H : Type) callback ps bss chunks (w : in_state * H),
  Forall2 packet_wire ps bss -> Forall from_server ps -> bytes_ok (concat bss) -> concat chunks = concat bss ->
  exists d' rs, d5_calls H callback d5_init chunks w = (d', fst (deliver H callback ps w), rs) /\
    (snd (deliver H callback ps w) = true <-> rs = repeat DR_SUCCESS (length chunks)).
Proof. exact conforming_stream. Qed.
Print Assumptions C10_server_stream.
Example C10_server_ex :
  (exists d, d5_calls _ note d5_init [[48; 8]; [0; 1; 97; 3; 35; 0; 2]; [104]; [48; 7; 0; 0; 3; 35; 0; 2; 105; 208; 0]] w0 =
    (d, (mkin [None; Some [97]] true,
      [P_PUBLISH (mkpublish [104] 0 0 false false [97] None None (Some 2) None None [] None []);
       P_PUBLISH (mkpublish [105] 0 0 false false [97] None None (Some 2) None None [] None []); P_PINGRESP]), repeat DR_SUCCESS 4)) /\
  packet_wire P_PINGRESP [208; 0] /\ from_server P_PINGRESP.
Proof. split; [eexists; vm_compute; reflexivity|]. split; [reflexivity|exact I]. Qed.

Example C10_server_ex_wire : packet_wire (P_PUBLISH (mkpublish [104] 0 0 false false [97] None None (Some 2) None None [] None [])) [48; 8; 0; 1; 97; 3; 35; 0; 2; 104].
Proof.
  exists [(35, PV16 2)], [3; 35; 0; 2], [0; 1; 97]. split; [exists [8]; split; [split; [constructor; reflexivity|vm_compute; discriminate]|reflexivity]|].
  split; [vm_compute; discriminate|]. split; [reflexivity|]. split; [repeat constructor|]. split; [split; [reflexivity|]; split; [repeat constructor|reflexivity]|].
  split. { exists [3], [35; 0; 2]. split; [split; [constructor; reflexivity|vm_compute; discriminate]|]. split; [|reflexivity].
    apply (psw_cons 35 K16 (PV16 2) [] (be16 2) []); [cbn; auto 30|constructor; reflexivity|constructor]. }
  split; [constructor; [cbn; auto 30|constructor]|]. cbn. repeat split; reflexivity.
Qed.

(** ** C11 *)
(** Whatever the chunks, the calls do to the world exactly what reading the whole stream packet by packet does ([consume5], which does not
    mention chunks): all calls succeed if the stream is fine so far, otherwise they succeed up to some call and fail from there on. *)
Theorem C11_stream_semantics : forall (H : Type) callback chunks (w : in_state * H) d' w' rs,
  bytes_ok (concat chunks) -> d5_calls H callback d5_init chunks w = (d', w', rs) ->
  (rs = repeat DR_SUCCESS (length chunks) /\ exists pend, consume5 H callback (concat chunks) w w' (Waiting5 pend)) \/
  ((exists k, (k < length chunks)%nat /\ rs = repeat DR_SUCCESS k ++ repeat DR_ERROR (length chunks - k)) /\
    consume5 H callback (concat chunks) w w' Failed5).
Proof. exact stream. Qed.
Print Assumptions C11_stream_semantics.
Theorem C11_consume_deterministic : forall (H : Type) callback s (w : in_state * H) w1 o1, bytes_ok s ->
  consume5 H callback s w w1 o1 -> forall w2 o2, consume5 H callback s w w2 o2 -> w1 = w2 /\ o1 = o2.
Proof. exact consume_det. Qed.
Print Assumptions C11_consume_deterministic.
Theorem C11_fragmentation_independent : forall (H : Type) callback c1 c2 (w : in_state * H) d1 w1 rs1 d2 w2 rs2,
  bytes_ok (concat c1) -> concat c1 = concat c2 ->
  d5_calls H callback d5_init c1 w = (d1, w1, rs1) -> d5_calls H callback d5_init c2 w = (d2, w2, rs2) ->
  w1 = w2 /\ (In DR_ERROR rs1 <-> In DR_ERROR rs2).
Proof. exact fragmentation. Qed.
Print Assumptions C11_fragmentation_independent.
Example C11_ex : (exists d, d5_calls _ note d5_init [[64]; [2; 0]; []; [7; 208; 0; 224]; [0; 208; 0]; [208]] w0 =
    (d, (in_connect 2, [P_PUBACK (mkpuback 7 0 None []); P_PINGRESP; P_DISCONNECT (mkdisconnect 0 None None [] None)]),
      [DR_SUCCESS; DR_SUCCESS; DR_SUCCESS; DR_SUCCESS; DR_ERROR; DR_ERROR])) /\
  (exists d, d5_calls _ note d5_init [[64; 2; 0; 7; 208; 0; 224; 0; 208; 0; 208]] w0 =
    (d, (in_connect 2, [P_PUBACK (mkpuback 7 0 None []); P_PINGRESP; P_DISCONNECT (mkdisconnect 0 None None [] None)]), [DR_ERROR])).
Proof. split; eexists; vm_compute; reflexivity. Qed.

(** ** C12 *)
(** Every call of every history ends, with success or failure ([DR_FUEL], the model's way to loop, never comes out). *)
Theorem C12_never_loops : forall (H : Type) callback ops (w : in_state * H) d' w' rs, Forall (op5_ok H) ops ->
  d5_history H callback d5_init ops w = (d', w', rs) -> Forall (fun r => r = DR_SUCCESS \/ r = DR_ERROR) rs.
Proof. intros H callback ops w d' w' rs Ho E. exact (proj2 (history_safe H callback _ _ _ _ _ _ init_hist Ho E)). Qed.
Print Assumptions C12_never_loops.
(** After a failure, all later calls on this connection fail and do nothing to the world: nothing is delivered. *)
Theorem C12_errors_final : forall (H : Type) callback ops c chunks (w : in_state * H) d1 w1 rs1, Forall (op5_ok H) ops -> bytes_ok c ->
  d5_history H callback d5_init (ops ++ [Feed5 H c]) w = (d1, w1, rs1 ++ [DR_ERROR]) ->
  exists d2, d5_history H callback d5_init (ops ++ Feed5 H c :: map (Feed5 H) chunks) w = (d2, w1, rs1 ++ DR_ERROR :: repeat DR_ERROR (length chunks)).
Proof. exact errors_final. Qed.
Print Assumptions C12_errors_final.
Theorem C12_reset_fresh : forall (H : Type) callback pre f post d (w : in_state * H),
  d5_history H callback d (pre ++ NewConnection5 H f :: post) w =
  let '(_, w1, rs1) := d5_history H callback d pre w in
  let '(d2, w2, rs2) := d5_history H callback d5_init post (f w1) in (d2, w2, rs1 ++ rs2).
Proof. exact reset_fresh. Qed.
Print Assumptions C12_reset_fresh.
(** A packet is never read in two ways. (Which packets are accepted, and that all others fail, is C11_stream_semantics.) *)
Theorem C12_unambiguous : forall p q bs, bytes_ok bs -> packet_accepted p bs -> packet_accepted q bs -> p = q.
Proof. exact accepted_unique. Qed.
Print Assumptions C12_unambiguous.
(** A CONNACK, PUBLISH, PUBACK or DISCONNECT whose property length exceeds the rest of the packet fails, and nothing is delivered. *)
Theorem C12_overlong_properties_rejected : forall b l head n lp rest, before_properties b head -> b < 256 -> bytes_ok (head ++ lp ++ rest) ->
  vli_legal (len (head ++ lp ++ rest)) l -> vli_legal n lp -> len rest < n ->
  forall H callback (w : in_state * H), exists d', d5_on_data H callback d5_init (b :: l ++ head ++ lp ++ rest) w = (d', w, DR_ERROR).
Proof. exact overlong_rejected. Qed.
Print Assumptions C12_overlong_properties_rejected.
Example C12_overlong_ex : before_properties 50 [0; 1; 97; 0; 7] /\ vli_legal 9 [9] /\
  exists d, d5_on_data _ note d5_init [50; 7; 0; 1; 97; 0; 7; 9; 1] w0 = (d, w0, DR_ERROR).
Proof.
  split; [|split; [split; [constructor; reflexivity|vm_compute; discriminate]|eexists; vm_compute; reflexivity]].
  right. left. split; [reflexivity|]. exists [97], [0; 1; 97], [0; 7]. split; [split; [reflexivity|]; split; [repeat constructor|reflexivity]|]. split; [reflexivity|]. right. split; [discriminate|reflexivity].
Qed.
(** Finding: not so for SUBACK (and UNSUBACK). This one announces 100 bytes of properties and has none; its two remaining bytes are handed
    to the client as reason codes. *)
Theorem C12_suback_length_refuted :
  exists d, d5_on_data _ note d5_init [144; 5; 0; 1; 100; 0; 1] w0 = (d, (in_connect 2, [P_SUBACK (mksuback 1 None [] [0; 1])]), DR_SUCCESS).
Proof. eexists. vm_compute. reflexivity. Qed.
Print Assumptions C12_suback_length_refuted.
(** Finding: other packets MQTT 5 calls malformed are accepted: QoS 3, packet identifier 0, flags in a SUBACK, a repeated property *)
Theorem C12_lenient_refuted : exists d1 d2 d3 d4,
  d5_on_data _ note d5_init [54; 6; 0; 1; 97; 0; 7; 0] w0 = (d1, (in_connect 2, [P_PUBLISH (mkpublish [] 7 3 false false [97] None None None None None [] None [])]), DR_SUCCESS) /\
  d5_on_data _ note d5_init [50; 6; 0; 1; 97; 0; 0; 0] w0 = (d2, (in_connect 2, [P_PUBLISH (mkpublish [] 0 1 false false [97] None None None None None [] None [])]), DR_SUCCESS) /\
  d5_on_data _ note d5_init [159; 4; 0; 1; 0; 0] w0 = (d3, (in_connect 2, [P_SUBACK (mksuback 1 None [] [0])]), DR_SUCCESS) /\
  d5_on_data _ note d5_init [48; 8; 0; 1; 97; 4; 1; 0; 1; 1] w0 = (d4, (in_connect 2, [P_PUBLISH (mkpublish [] 0 0 false false [97] (Some 1) None None None None [] None [])]), DR_SUCCESS).
Proof. do 4 eexists. vm_compute. repeat split. Qed.
Print Assumptions C12_lenient_refuted.
Example C12_ex : exists d, d5_history _ note d5_init [Feed5 _ [208]; Feed5 _ [1; 0]; Feed5 _ [208; 0]; NewConnection5 _ (fun w => (in_connect 1, snd w)); Feed5 _ [208; 0]] w0 =
  (d, (in_connect 1, [P_PINGRESP]), [DR_SUCCESS; DR_ERROR; DR_ERROR; DR_SUCCESS]).
Proof. eexists. vm_compute. reflexivity. Qed.
