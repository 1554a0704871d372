(** Model of source/v5/mqtt5_encoder.c and the encoding macros of include/aws/mqtt/private/v5/mqtt5_encoder.h.
    Sizes are computed with size_t in the code; the model uses unbounded numbers for sums of lengths of buffers that are all in
    memory at once (simplification: such a sum does not reach 2^64). Casts to narrower types are explicit. Logging is left out, as is
    the step type AWS_MQTT5_EST_STREAM, which nothing pushes. *)
From Verif Require Import Base Mqtt5_Views TopicAlias_Model.

(** AWS_MQTT5_MAXIMUM_VARIABLE_LENGTH_INTEGER, include/aws/mqtt/private/v5/mqtt5_utils.h *)
Definition max_vli : N := 268435455.
Definition u8 (n : N) : N := n mod 256.
Definition u16 (n : N) : N := n mod 65536.
Definition u32 (n : N) : N := n mod 4294967296.

(** aws_mqtt5_encode_variable_length_integer, mqtt5_encoder.c:19-39. A uint32_t needs at most 5 rounds. *)
Fixpoint encode_vli_loop (fuel : nat) (b : buf) (value : N) : buf * option err :=
  match fuel with
  | O => (b, Some E_FUEL)
  | S fuel =>
    let byte := value mod 128 in
    let value := value / 128 in
    let byte := if negb (value =? 0) then N.lor byte 128 else byte in
    match bwrite_u8 b byte with
    | Err _ => (b, Some E_SHORT_BUFFER)
    | Ok b => if negb (value =? 0) then encode_vli_loop fuel b value else (b, None)
    end
  end.
Definition encode_vli (b : buf) (value : N) : buf * option err :=
  if max_vli <? value then (b, Some E_INVALID_ARGUMENT) else encode_vli_loop 5 b value.
(** aws_mqtt5_get_variable_length_encode_size, 41-57 *)
Definition vli_size (value : N) : res N :=
  if max_vli <? value then Err E_INVALID_ARGUMENT else
  if value <? 128 then Ok 1 else if value <? 16384 then Ok 2 else if value <? 2097152 then Ok 3 else Ok 4.

(** ** Encoding steps: struct aws_mqtt5_encoding_step, mqtt5_encoder.h *)
Inductive step := SU8 (n : N) | SU16 (n : N) | SU32 (n : N) | SVLI (n : N) | SCURSOR (c : bytes).
(** Steps pushed so far and the error that stopped the pushing, if any: the macros return from the begin function on the first
    failure and leave the pushed steps in the encoder. *)
Definition pushed := (list step * option err)%type.
Definition seq (a b : pushed) : pushed :=
  match a with
  | (sa, None) => let '(sb, e) := b in (sa ++ sb, e)
  | (sa, Some e) => (sa, Some e)
  end.
Notation "a ;;; b" := (seq a b) (at level 90, right associativity).
Definition nothing : pushed := ([], None).
(** aws_mqtt5_encoder_push_step_u8/u16/u32/vli/cursor, 61-116 *)
Definition push_u8 (n : N) : pushed := ([SU8 (u8 n)], None).
Definition push_u16 (n : N) : pushed := ([SU16 (u16 n)], None).
Definition push_u32 (n : N) : pushed := ([SU32 (u32 n)], None).
Definition push_vli (n : N) : pushed := if max_vli <? n then ([], Some E_ENCODE_FAILURE) else ([SVLI n], None).
Definition push_cursor (c : bytes) : pushed := ([SCURSOR c], None).
(** ADD_ENCODE_STEP_LENGTH_PREFIXED_CURSOR and the OPTIONAL variants, mqtt5_encoder.h *)
Definition push_prefixed (c : bytes) : pushed := push_u16 (len c) ;;; push_cursor c.
Definition push_opt_prefixed (o : option bytes) : pushed := match o with Some c => push_prefixed c | None => nothing end.
Definition push_opt_u8 (id : N) (o : option N) : pushed := match o with Some v => push_u8 id ;;; push_u8 v | None => nothing end.
Definition push_opt_u16 (id : N) (o : option N) : pushed := match o with Some v => push_u8 id ;;; push_u16 v | None => nothing end.
Definition push_opt_u32 (id : N) (o : option N) : pushed := match o with Some v => push_u8 id ;;; push_u32 v | None => nothing end.
Definition push_opt_vli (id : N) (o : option N) : pushed := match o with Some v => push_u8 id ;;; push_vli v | None => nothing end.
Definition push_opt_cursor (id : N) (o : option bytes) : pushed :=
  match o with Some c => push_u8 id ;;; push_u16 (len c) ;;; push_cursor c | None => nothing end.
(** ADD_OPTIONAL_*_PROPERTY_LENGTH, mqtt5_encoder.h *)
Definition opt_u8_len (o : option N) : N := match o with Some _ => 2 | None => 0 end.
Definition opt_u16_len (o : option N) : N := match o with Some _ => 3 | None => 0 end.
Definition opt_u32_len (o : option N) : N := match o with Some _ => 5 | None => 0 end.
Definition opt_cursor_len (o : option bytes) : N := match o with Some c => 3 + len c | None => 0 end.
(** aws_mqtt5_compute_fixed_header_byte1, mqtt5_utils.c:12-14 *)
Definition fixed_header_byte1 (type flags : N) : N := u8 (N.lor flags (u8 (N.shiftl type 4))).

(** aws_mqtt5_compute_user_property_encode_length, 126-145 *)
Definition user_properties_length (l : list user_property) : N :=
  5 * len l + fold_right (fun p n => len (fst p) + len (snd p) + n) 0 l.
(** aws_mqtt5_add_user_property_encoding_steps, 147-163 *)
Definition push_user_properties (l : list user_property) : pushed :=
  fold_right (fun p r =>
    push_u8 38 ;;; push_u16 (len (fst p)) ;;; push_cursor (fst p) ;;; push_u16 (len (snd p)) ;;; push_cursor (snd p) ;;; r) nothing l.

(** ** PINGREQ: s_aws_mqtt5_encoder_begin_pingreq, 165-177 *)
Definition begin_pingreq : pushed := push_u8 (fixed_header_byte1 12 0) ;;; push_u8 0.

(** ** DISCONNECT: s_compute_disconnect_variable_length_fields, 179-202; begin, 204-255. Lengths: (total remaining, properties). *)
Definition disconnect_lengths (v : disconnect) : res (N * N) :=
  let pl := user_properties_length (dc_user_properties v) + opt_u32_len (dc_session_expiry v)
            + opt_cursor_len (dc_server_reference v) + opt_cursor_len (dc_reason_string v) in
  do sz <- vli_size pl;
  Ok (1 + pl + sz, pl).
Definition begin_disconnect (v : disconnect) : pushed :=
  match disconnect_lengths v with
  | Err e => ([], Some e)
  | Ok (rl, pl) =>
    push_u8 (fixed_header_byte1 14 0) ;;; push_vli (u32 rl) ;;; push_u8 (dc_reason_code v) ;;; push_vli (u32 pl) ;;;
    (if 0 <? pl then
       push_opt_u32 17 (dc_session_expiry v) ;;; push_opt_cursor 31 (dc_reason_string v) ;;;
       push_opt_cursor 28 (dc_server_reference v) ;;; push_user_properties (dc_user_properties v)
     else nothing)
  end.

(** ** CONNECT: s_compute_connect_variable_length_fields, 245-320. Lengths: (total remaining, properties, will properties).
    The encode size of the will properties is computed on the length cast to uint32_t, 293-297. *)
Definition connect_lengths (v : connect) : res (N * N * N) :=
  let pl := user_properties_length (cn_user_properties v) + opt_u32_len (cn_session_expiry v)
            + opt_u16_len (cn_receive_maximum v) + opt_u32_len (cn_maximum_packet_size v) + opt_u16_len (cn_topic_alias_maximum v)
            + opt_u8_len (cn_request_response_info v) + opt_u8_len (cn_request_problem_info v)
            + opt_cursor_len (cn_auth_method v) + opt_cursor_len (cn_auth_data v) in
  do sz <- vli_size pl;
  let header := sz + 10 + pl in
  let payload := 2 + len (cn_client_id v) in
  do pw <- match cn_will v with
           | None => Ok (payload, 0)
           | Some w =>
             let wl := user_properties_length (wl_user_properties w) + opt_u32_len (cn_will_delay v)
                       + opt_u8_len (wl_payload_format w) + opt_u32_len (wl_message_expiry w) + opt_cursor_len (wl_content_type w)
                       + opt_cursor_len (wl_response_topic w) + opt_cursor_len (wl_correlation_data w) in
             do wsz <- vli_size (u32 wl);
             Ok (payload + wl + wsz + (2 + len (wl_topic w)) + (2 + len (wl_payload w)), wl)
           end;
  let '(payload, wl) := pw in
  let payload := payload + match cn_username v with Some c => len c + 2 | None => 0 end in
  let payload := payload + match cn_password v with Some c => len c + 2 | None => 0 end in
  Ok (payload + header, u32 pl, wl).
(** s_aws_mqtt5_connect_compute_connect_flags, 322-346 *)
Definition compute_connect_flags (v : connect) : N :=
  let flags := if cn_clean_start v then 2 else 0 in
  let flags := match cn_will v with
               | Some w => let flags := N.lor (N.lor flags 4) (N.shiftl (u8 (wl_qos w)) 3) in
                           if wl_retain w then N.lor flags 32 else flags
               | None => flags
               end in
  let flags := match cn_password v with Some _ => N.lor flags 64 | None => flags end in
  u8 (match cn_username v with Some _ => N.lor flags 128 | None => flags end).
(** g_aws_mqtt5_connect_protocol_cursor, mqtt5_utils.c:16-22 *)
Definition protocol_cursor : bytes := [0; 4; 77; 81; 84; 84; 5].
(** s_aws_mqtt5_encoder_begin_connect, 348-437 *)
Definition begin_connect (v : connect) : pushed :=
  match connect_lengths v with
  | Err e => ([], Some e)
  | Ok (rl, pl, wl) =>
    push_u8 (fixed_header_byte1 1 0) ;;; push_vli (u32 rl) ;;; push_cursor protocol_cursor ;;; push_u8 (compute_connect_flags v) ;;;
    push_u16 (cn_keep_alive v) ;;; push_vli (u32 pl) ;;;
    push_opt_u32 17 (cn_session_expiry v) ;;; push_opt_u16 33 (cn_receive_maximum v) ;;;
    push_opt_u32 39 (cn_maximum_packet_size v) ;;; push_opt_u16 34 (cn_topic_alias_maximum v) ;;;
    push_opt_u8 25 (cn_request_response_info v) ;;; push_opt_u8 23 (cn_request_problem_info v) ;;;
    push_opt_cursor 21 (cn_auth_method v) ;;; push_opt_cursor 22 (cn_auth_data v) ;;;
    push_user_properties (cn_user_properties v) ;;; push_prefixed (cn_client_id v) ;;;
    match cn_will v with
    | Some w =>
      push_vli (u32 wl) ;;; push_opt_u32 24 (cn_will_delay v) ;;; push_opt_u8 1 (wl_payload_format w) ;;;
      push_opt_u32 2 (wl_message_expiry w) ;;; push_opt_cursor 3 (wl_content_type w) ;;; push_opt_cursor 8 (wl_response_topic w) ;;;
      push_opt_cursor 9 (wl_correlation_data w) ;;; push_user_properties (wl_user_properties w) ;;; push_prefixed (wl_topic w) ;;;
      push_u16 (len (wl_payload w)) ;;; push_cursor (wl_payload w)
    | None => nothing
    end ;;;
    push_opt_prefixed (cn_username v) ;;; push_opt_prefixed (cn_password v)
  end.

(** ** SUBSCRIBE: s_aws_mqtt5_subscribe_compute_subscription_flags, 439-455 *)
Definition subscription_flags (s : subscription) : N :=
  let flags := u8 (sn_qos s) in
  let flags := if sn_no_local s then N.lor flags 4 else flags in
  let flags := if sn_retain_as_published s then N.lor flags 8 else flags in
  u8 (N.lor flags (N.shiftl (u8 (sn_retain_handling s)) 4)).
(** s_compute_subscribe_variable_length_fields, 483-531. An identifier that is too large leaves its length at 0. *)
Definition subscribe_lengths (v : subscribe) : res (N * N) :=
  let pl := user_properties_length (sb_user_properties v)
            + match sb_subscription_identifier v with
              | Some id => match vli_size id with Ok n => n | Err _ => 0 end + 1
              | None => 0
              end in
  do sz <- vli_size pl;
  Ok (sz + (2 + pl) + (fold_right (fun s n => len (sn_topic_filter s) + n) 0 (sb_subscriptions v) + 3 * len (sb_subscriptions v)), pl).
(** aws_mqtt5_add_subscribe_topic_filter_encoding_steps, 457-467 *)
Definition push_subscriptions (l : list subscription) : pushed :=
  fold_right (fun s r => push_prefixed (sn_topic_filter s) ;;; push_u8 (subscription_flags s) ;;; r) nothing l.
(** s_aws_mqtt5_encoder_begin_subscribe, 533-603 *)
Definition begin_subscribe (v : subscribe) : pushed :=
  match subscribe_lengths v with
  | Err e => ([], Some e)
  | Ok (rl, pl) =>
    push_u8 (fixed_header_byte1 8 2) ;;; push_vli (u32 rl) ;;; push_u16 (sb_packet_id v) ;;; push_vli (u32 pl) ;;;
    match sb_subscription_identifier v with Some id => push_u8 11 ;;; push_vli id | None => nothing end ;;;
    push_user_properties (sb_user_properties v) ;;; push_subscriptions (sb_subscriptions v)
  end.

(** ** UNSUBSCRIBE: s_compute_unsubscribe_variable_length_fields, 605-645; begin, 647-715 *)
Definition unsubscribe_lengths (v : unsubscribe) : res (N * N) :=
  let pl := user_properties_length (us_user_properties v) in
  do sz <- vli_size pl;
  Ok (sz + (2 + pl) + (fold_right (fun t n => len t + n) 0 (us_topic_filters v) + 2 * len (us_topic_filters v)), pl).
(** aws_mqtt5_add_unsubscribe_topic_filter_encoding_steps, 469-481 *)
Definition push_filters (l : list bytes) : pushed := fold_right (fun t r => push_prefixed t ;;; r) nothing l.
Definition begin_unsubscribe (v : unsubscribe) : pushed :=
  match unsubscribe_lengths v with
  | Err e => ([], Some e)
  | Ok (rl, pl) =>
    push_u8 (fixed_header_byte1 10 2) ;;; push_vli (u32 rl) ;;; push_u16 (us_packet_id v) ;;; push_vli (u32 pl) ;;;
    push_user_properties (us_user_properties v) ;;; push_filters (us_topic_filters v)
  end.

(** ** PUBLISH: s_compute_publish_variable_length_fields, 716-773 *)
Fixpoint subscription_ids_length (l : list N) : res N :=
  match l with
  | [] => Ok 0
  | id :: l => do n <- vli_size id; do r <- subscription_ids_length l; Ok (1 + n + r)
  end.
Definition publish_lengths (v : publish) : res (N * N) :=
  let pl := user_properties_length (pb_user_properties v) + opt_u8_len (pb_payload_format v) + opt_u32_len (pb_message_expiry v)
            + opt_u16_len (pb_topic_alias v) + opt_cursor_len (pb_response_topic v) + opt_cursor_len (pb_correlation_data v)
            + opt_cursor_len (pb_content_type v) in
  do ids <- subscription_ids_length (pb_subscription_identifiers v);
  let pl := pl + ids in
  do sz <- vli_size pl;
  Ok (sz + (2 + len (pb_topic v)) + (if negb (pb_packet_id v =? 0) then 2 else 0) + pl + len (pb_payload v), u32 pl).
Definition push_subscription_ids (l : list N) : pushed := fold_right (fun id r => push_opt_vli 11 (Some id) ;;; r) nothing l.
Definition publish_flags (v : publish) : N :=
  let flags := if pb_duplicate v then 8 else 0 in
  let flags := N.lor flags (N.shiftl (u8 (pb_qos v)) 1) in
  u8 (if pb_retain v then N.lor flags 1 else flags).
(** the part of s_aws_mqtt5_encoder_begin_publish after alias resolution, 824-925 *)
Definition begin_publish_resolved (v : publish) : pushed :=
  match publish_lengths v with
  | Err e => ([], Some e)
  | Ok (rl, pl) =>
    push_u8 (fixed_header_byte1 3 (publish_flags v)) ;;; push_vli (u32 rl) ;;; push_prefixed (pb_topic v) ;;;
    (if negb (pb_qos v =? 0) then push_u16 (pb_packet_id v) else nothing) ;;; push_vli (u32 pl) ;;;
    push_opt_u8 1 (pb_payload_format v) ;;; push_opt_u32 2 (pb_message_expiry v) ;;; push_opt_u16 35 (pb_topic_alias v) ;;;
    push_opt_cursor 8 (pb_response_topic v) ;;; push_opt_cursor 9 (pb_correlation_data v) ;;;
    push_subscription_ids (pb_subscription_identifiers v) ;;; push_opt_cursor 3 (pb_content_type v) ;;;
    push_user_properties (pb_user_properties v) ;;;
    (if 0 <? len (pb_payload v) then push_cursor (pb_payload v) else nothing)
  end.
Definition with_topic (v : publish) (topic : bytes) (alias : option N) : publish :=
  mkpublish (pb_payload v) (pb_packet_id v) (pb_qos v) (pb_duplicate v) (pb_retain v) topic (pb_payload_format v)
    (pb_message_expiry v) alias (pb_response_topic v) (pb_correlation_data v) (pb_subscription_identifiers v)
    (pb_content_type v) (pb_user_properties v).

(** ** PUBACK: s_compute_puback_variable_length_fields, 927-970; begin, 972-1040 *)
Definition puback_lengths (v : puback) : res (N * N) :=
  let pl := user_properties_length (pa_user_properties v) + opt_cursor_len (pa_reason_string v) in
  if pl =? 0 then Ok (if pa_reason_code v =? 0 then 2 else 3, u32 pl) else
  do sz <- vli_size pl;
  Ok (sz + 3 + pl, u32 pl).
Definition begin_puback (v : puback) : pushed :=
  match puback_lengths v with
  | Err e => ([], Some e)
  | Ok (rl, pl) =>
    push_u8 (fixed_header_byte1 4 0) ;;; push_vli (u32 rl) ;;; push_u16 (pa_packet_id v) ;;;
    (if rl =? 2 then nothing else
     push_u8 (pa_reason_code v) ;;;
     (if rl <? 4 then nothing else
      push_vli (u32 pl) ;;; push_opt_cursor 31 (pa_reason_string v) ;;; push_user_properties (pa_user_properties v)))
  end.

(** ** The encoder: struct aws_mqtt5_encoder. The list holds the steps from current_encoding_step_index on (a cursor step is shortened in
    place when it is written partially). *)
Record encoder := mkencoder { enc_steps : list step; enc_resolver : option outbound }.
(** outcome of aws_mqtt5_encoder_append_packet_encoding; [A_ABORT] is the FATAL_ASSERT at 816 *)
Inductive append_result := A_OK | A_FAILED (e : err) | A_ABORT.
Definition append (e : encoder) (r : option outbound) (p : pushed) : encoder * append_result :=
  (mkencoder (enc_steps e ++ fst p) r, match snd p with None => A_OK | Some x => A_FAILED x end).
(** aws_mqtt5_encoder_append_packet_encoding, 1209-1220, with the function table 1167-1187 and, for PUBLISH, the alias resolution of
    s_aws_mqtt5_encoder_begin_publish, 777-823 *)
Definition append_packet (e : encoder) (p : packet5) : encoder * append_result :=
  let r := enc_resolver e in
  match p with
  | P_CONNECT v => append e r (begin_connect v)
  | P_PUBLISH v =>
    match r with
    | None => append e r (begin_publish_resolved v)
    | Some o =>
      match out_publish o (pb_topic v) (pb_topic_alias v) with
      | (o, SAbort) => (mkencoder (enc_steps e) (Some o), A_ABORT)
      | (o, SFailed) => (mkencoder (enc_steps e) (Some o), A_FAILED E_INVALID_TOPIC_ALIAS)
      | (o, SSent topic alias) => append e (Some o) (begin_publish_resolved (with_topic v topic alias))
      end
    end
  | P_PUBACK v => append e r (begin_puback v)
  | P_SUBSCRIBE v => append e r (begin_subscribe v)
  | P_UNSUBSCRIBE v => append e r (begin_unsubscribe v)
  | P_PINGREQ => append e r begin_pingreq
  | P_DISCONNECT v => append e r (begin_disconnect v)
  | P_CONNACK _ | P_SUBACK _ | P_UNSUBACK _ | P_PINGRESP => (e, A_FAILED E_ENCODE_FAILURE)
  end.

(** enum aws_mqtt5_encoding_result *)
Inductive encoding_result := ER_FINISHED | ER_OUT_OF_ROOM | ER_ERROR.
Definition room (b : buf) : N := bcap b - len (bdata b).
Definition write (b : buf) (x : bytes) : buf := match bwrite b x with Ok b => b | Err _ => b end.
(** s_execute_encode_step, 1042-1137: what is left of the step (None: finished) *)
Definition execute_step (s : step) (b : buf) : option step * buf :=
  match s with
  | SU8 n => if room b <? 1 then (Some s, b) else (None, write b [n])
  | SU16 n => if room b <? 2 then (Some s, b) else (None, write b (be16 n))
  | SU32 n => if room b <? 4 then (Some s, b) else (None, write b (be32 n))
  | SVLI n => if room b <? 4 then (Some s, b) else (None, fst (encode_vli b n))
  | SCURSOR c =>
    if room b <? 1 then (Some s, b) else
    let n := N.min (room b) (len c) in
    let rest := snd (advance c n) in
    ((if len rest =? 0 then None else Some (SCURSOR rest)), write b (fst (advance c n)))
  end.
(** aws_mqtt5_encoder_encode_to_buffer, 1139-1165 *)
Fixpoint encode_steps (l : list step) (b : buf) : list step * buf * encoding_result :=
  match l with
  | [] => ([], b, ER_FINISHED)      (* 1155-1159: the finished steps are dropped *)
  | s :: l =>
    match execute_step s b with
    | (None, b) => encode_steps l b
    | (Some s, b) => (s :: l, b, ER_OUT_OF_ROOM)
    end
  end.
Definition encode_to_buffer (e : encoder) (b : buf) : encoder * buf * encoding_result :=
  let '(l, b, r) := encode_steps (enc_steps e) b in (mkencoder l (enc_resolver e), b, r).
(** The client's use of it (mqtt5_client.c:3396-3409 and the write completion): one fresh buffer of the given capacity after another,
    until FINISHED. Result: what each buffer held, and whether encoding finished. *)
Fixpoint encode_to_buffers (e : encoder) (caps : list N) : encoder * list bytes * bool :=
  match caps with
  | [] => (e, [], false)
  | c :: caps =>
    let '(e, b, r) := encode_to_buffer e (mkbuf c []) in
    match r with
    | ER_FINISHED => (e, [bdata b], true)
    | _ => let '(e, out, fin) := encode_to_buffers e caps in (e, bdata b :: out, fin)
    end
  end.

(** What can happen to an encoder: append, encode into a buffer with the given room, aws_mqtt5_encoder_reset (1212-1215) and
    aws_mqtt5_encoder_set_outbound_topic_alias_resolver (1296-1301), which the client calls with a resolver it has just reset to the
    server's alias maximum (mqtt5_client.c:3104-3113). A failed append leaves its steps queued. *)
Inductive enc_op := EAppend (p : packet5) | EBuffer (cap : N) | EReset | ESetResolver (r : option (behavior * N)).
Definition enc_do (e : encoder) (o : enc_op) : encoder :=
  match o with
  | EAppend p => fst (append_packet e p)
  | EBuffer cap => fst (fst (encode_to_buffer e (mkbuf cap [])))
  | EReset => mkencoder [] (enc_resolver e)
  | ESetResolver r => mkencoder (enc_steps e) (match r with Some (b, max) => Some (out_reset (out_new b) max) | None => None end)
  end.
(** aws_mqtt5_encoder_init, 1189-1206, then the given history *)
Definition enc_run (ops : list enc_op) : encoder := fold_left enc_do ops (mkencoder [] None).

(** ** aws_mqtt5_packet_view_get_encoded_size, 1222-1290. (aws_add_size_checked cannot overflow here.) *)
Definition packet_size (rl : N) : res N := do n <- vli_size rl; Ok (1 + n + rl).
Definition get_encoded_size (p : packet5) : res N :=
  match p with
  | P_PINGREQ => Ok 2
  | P_PUBLISH v => do x <- publish_lengths v; packet_size (fst x)
  | P_SUBSCRIBE v => do x <- subscribe_lengths v; packet_size (fst x)
  | P_UNSUBSCRIBE v => do x <- unsubscribe_lengths v; packet_size (fst x)
  | P_DISCONNECT v => do x <- disconnect_lengths v; packet_size (fst x)
  | P_PUBACK v => do x <- puback_lengths v; packet_size (fst x)
  | _ => Err E_ENCODE_FAILURE
  end.
