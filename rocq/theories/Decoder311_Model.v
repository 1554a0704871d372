(** Model of source/mqtt311_decoder.c: framing of the incoming byte stream of an MQTT 3.1.1 connection. *)
From Verif Require Import Base Fixed311_Model.

(** enum aws_mqtt_311_decoder_state_type, include/aws/mqtt/private/mqtt311_decoder.h:34-59 *)
Inductive d311_state := READ_FIRST_BYTE | READ_REMAINING_LENGTH | READ_BODY | PROTOCOL_ERROR.
(** struct aws_mqtt311_decoder, mqtt311_decoder.h:76-89 (without the configuration) *)
Record decoder311 := mkd311 { d3_state : d311_state; d3_total : N; d3_buf : bytes }.
(** enum aws_mqtt311_decoding_directive, mqtt311_decoder.c:37; [D_ABORT] is a failed AWS_FATAL_ASSERT. *)
Inductive directive := D_CONTINUE | D_OUT_OF_DATA | D_PROTOCOL_ERROR | D_ABORT.

Section Decoder.
(** [H] is the state of everything the packet handlers touch. The handler table has 16 optional entries
    (mqtt311_decoder.h:22-24); a handler gets the packet bytes and succeeds or fails. *)
Variable H : Type.
Variable handlers : N -> option (bytes -> H -> H * bool).

(** s_aws_mqtt311_decoder_reset, mqtt311_decoder.c:10-14; also init 16-25 and reset_for_new_connection 209-211 *)
Definition d311_reset (d : decoder311) : decoder311 := mkd311 READ_FIRST_BYTE 0 [].
Definition d311_init : decoder311 := mkd311 READ_FIRST_BYTE 0 [].
(** s_aws_mqtt311_decoder_reset_for_new_packet, 31-35 *)
Definition d311_reset_for_new_packet (d : decoder311) : decoder311 :=
  match d3_state d with PROTOCOL_ERROR => d | _ => d311_reset d end.
(** s_aws_mqtt311_decoder_safe_packet_handle, 43-53 *)
Definition safe_packet_handle (ptype : N) (packet : bytes) (h : H) : H * bool :=
  match handlers ptype with Some f => f packet h | None => (h, false) end.
(** aws_result_to_mqtt311_decoding_directive, 39-41 *)
Definition result_to_directive (ok : bool) : directive := if ok then D_CONTINUE else D_PROTOCOL_ERROR.

(** s_handle_decoder_read_first_byte, 55-106. Returns decoder, data cursor, handler state, directive.
    The pointer difference at 79 is the number of bytes consumed by the fixed header. *)
Definition handle_read_first_byte (d : decoder311) (data : bytes) (h : H) : decoder311 * bytes * H * directive :=
  if negb (len (d3_buf d) =? 0) then (d, data, h, D_ABORT) else
  match data with
  | [] => (d, data, h, D_OUT_OF_DATA)
  | byte :: data' =>
    let greedy :=
      match fixed_header_decode data with
      | Ok (ph, temp) => if fh_rem ph <=? len temp then Some (len data - len temp + fh_rem ph) else None
      | Err _ => None
      end in
    match greedy with
    | Some n =>
      let whole := firstn (N.to_nat n) data in
      let data := snd (advance data n) in
      let ptype := get_packet_type (hd 0 whole) in
      let '(h, ok) := safe_packet_handle ptype whole h in
      (d, data, h, result_to_directive ok)
    | None => (mkd311 READ_REMAINING_LENGTH (d3_total d) (d3_buf d ++ [byte]), data', h, D_CONTINUE)
    end
  end.
(** s_handle_decoder_read_remaining_length, 108-142 *)
Definition handle_read_remaining_length (d : decoder311) (data : bytes) (h : H) : decoder311 * bytes * H * directive :=
  if negb (d3_total d =? 0) then (d, data, h, D_ABORT) else
  match data with
  | [] => (d, data, h, D_OUT_OF_DATA)
  | byte :: data =>
    let buf := d3_buf d ++ [byte] in
    match decode_remaining_length (snd (advance buf 1)) with
    | Err E_SHORT_BUFFER => (mkd311 (d3_state d) (d3_total d) buf, data, h, D_CONTINUE)
    | Err _ => (mkd311 (d3_state d) (d3_total d) buf, data, h, D_PROTOCOL_ERROR)
    | Ok (rem, _) =>
      let total := rem + len buf in
      if negb (0 <? total) then (d, data, h, D_ABORT) else
      (mkd311 READ_BODY total buf, data, h, D_CONTINUE)
    end
  end.
(** s_handle_decoder_read_body, 144-169 *)
Definition handle_read_body (d : decoder311) (data : bytes) (h : H) : decoder311 * bytes * H * directive :=
  if negb (0 <? d3_total d) then (d, data, h, D_ABORT) else
  let amount := N.min (d3_total d - len (d3_buf d)) (len data) in
  let (copy, data) := advance data amount in
  let buf := d3_buf d ++ copy in
  let d := mkd311 (d3_state d) (d3_total d) buf in
  if len buf =? d3_total d then
    let ptype := get_packet_type (hd 0 buf) in
    let '(h, ok) := safe_packet_handle ptype buf h in
    if ok then (d311_reset_for_new_packet d, data, h, D_CONTINUE) else (d, data, h, D_PROTOCOL_ERROR)
  else (d, data, h, D_OUT_OF_DATA).

(** aws_mqtt311_decoder_on_bytes_received, 171-207. Every two iterations consume at least one byte; the fuel is
    2 * |data| + 4 and [R_FUEL] is proved unreachable. *)
Inductive d311_result := R_SUCCESS | R_ERROR | R_ABORT | R_FUEL.
Fixpoint d311_loop (fuel : nat) (d : decoder311) (data : bytes) (h : H) : decoder311 * H * d311_result :=
  match fuel with
  | O => (d, h, R_FUEL)
  | S fuel =>
    let '(d, data, h, dir) :=
      match d3_state d with
      | READ_FIRST_BYTE => handle_read_first_byte d data h
      | READ_REMAINING_LENGTH => handle_read_remaining_length d data h
      | READ_BODY => handle_read_body d data h
      | PROTOCOL_ERROR => (d, data, h, D_PROTOCOL_ERROR)
      end in
    match dir with
    | D_CONTINUE => d311_loop fuel d data h
    | D_OUT_OF_DATA => (d, h, R_SUCCESS)
    | D_PROTOCOL_ERROR => (mkd311 PROTOCOL_ERROR (d3_total d) (d3_buf d), h, R_ERROR)
    | D_ABORT => (d, h, R_ABORT)
    end
  end.
Definition d311_on_bytes (d : decoder311) (data : bytes) (h : H) : decoder311 * H * d311_result :=
  d311_loop (2 * length data + 4) d data h.

(** A history of calls: the return value of each call. *)
Fixpoint d311_calls (d : decoder311) (chunks : list bytes) (h : H) : decoder311 * H * list d311_result :=
  match chunks with
  | [] => (d, h, [])
  | c :: chunks =>
    let '(d, h, r) := d311_on_bytes d c h in
    let '(d, h, rs) := d311_calls d chunks h in
    (d, h, r :: rs)
  end.
(** A history of one decoder: data, or aws_mqtt311_decoder_reset_for_new_connection (mqtt311_decoder.c:209-211). *)
Inductive d311_op := Feed (data : bytes) | NewConnection.
Fixpoint d311_history (d : decoder311) (ops : list d311_op) (h : H) : decoder311 * H * list d311_result :=
  match ops with
  | [] => (d, h, [])
  | NewConnection :: ops => d311_history (d311_reset d) ops h
  | Feed c :: ops =>
    let '(d, h, r) := d311_on_bytes d c h in
    let '(d, h, rs) := d311_history d ops h in
    (d, h, r :: rs)
  end.
End Decoder.
