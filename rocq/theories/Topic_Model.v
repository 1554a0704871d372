(** Model of topic validation (source/mqtt.c:16-92), UTF-8 text validation (mqtt.c:338-371) and of the shared-subscription and
    IoT Core topic helpers (source/v5/mqtt5_utils.c:427-568). *)
From Verif Require Import Base Split.

(** ** UTF-8 *)
(** aws_mqtt_utf8_decoder, mqtt.c:338-361 *)
Definition codepoint_ok (cp : N) : bool :=
  if cp <=? 31 then false else
  if (127 <=? cp) && (cp <=? 159) then false else
  if 65534 <=? N.land cp 65535 then false else
  if (64976 <=? cp) && (cp <=? 65007) then false else true.
(** aws_decode_utf8 (aws-c-common, trusted): decodes UTF-8 per RFC 3629 (no overlong forms, no surrogates, at most U+10FFFF),
    calls the callback for every code point and stops at the first failure. *)
Definition cont (b : N) : bool := (128 <=? b) && (b <? 192).
Definition utf8_check (mn cp : N) (l : bytes) : option (N * bytes) :=
  if cp <? mn then None else if (55296 <=? cp) && (cp <=? 57343) then None else if 1114111 <? cp then None else Some (cp, l).
Definition utf8_next (l : bytes) : option (N * bytes) :=
  match l with
  | [] => None
  | b :: l =>
    if b <? 128 then Some (b, l)
    else if b <? 192 then None
    else if b <? 224 then
      match l with c1 :: l => if cont c1 then utf8_check 128 ((b - 192) * 64 + (c1 - 128)) l else None | _ => None end
    else if b <? 240 then
      match l with c1 :: c2 :: l => if cont c1 && cont c2 then utf8_check 2048 (((b - 224) * 64 + (c1 - 128)) * 64 + (c2 - 128)) l else None | _ => None end
    else if b <? 248 then
      match l with c1 :: c2 :: c3 :: l => if cont c1 && cont c2 && cont c3 then utf8_check 65536 ((((b - 240) * 64 + (c1 - 128)) * 64 + (c2 - 128)) * 64 + (c3 - 128)) l else None | _ => None end
    else None
  end.
Fixpoint utf8_loop (fuel : nat) (l : bytes) : bool :=
  match l with
  | [] => true
  | _ => match fuel with
    | O => false
    | S fuel => match utf8_next l with Some (cp, l) => if codepoint_ok cp then utf8_loop fuel l else false | None => false end
    end
  end.
(** aws_mqtt_validate_utf8_text, mqtt.c:367-369 *)
Definition validate_utf8_text (l : bytes) : bool := utf8_loop (length l) l.

(** ** Topics *)
(** memchr *)
Definition has (c : N) (l : bytes) : bool := existsb (N.eqb c) l.
(** the loop over topic levels, mqtt.c:44-80 *)
Fixpoint levels_ok (is_filter saw_hash : bool) (parts : list bytes) : bool :=
  match parts with
  | [] => true
  | p :: parts =>
    if saw_hash then false else
    if len p =? 0 then levels_ok is_filter saw_hash parts else
    if has 43 p && negb is_filter then false else
    if has 43 p && (1 <? len p) then false else
    if has 35 p && negb is_filter then false else
    if has 35 p && (1 <? len p) then false else
    levels_ok is_filter (has 35 p) parts
  end.
(** s_is_valid_topic, mqtt.c:16-83 (the topic pointer is not NULL) *)
Definition is_valid_topic_gen (is_filter : bool) (t : bytes) : bool :=
  if len t =? 0 then false else
  if negb (validate_utf8_text t) then false else
  if has 0 t then false else
  if 65535 <? len t then false else
  levels_ok is_filter false (split 47 t).
(** aws_mqtt_is_valid_topic 85-88, aws_mqtt_is_valid_topic_filter 89-92 *)
Definition is_valid_topic := is_valid_topic_gen false.
Definition is_valid_topic_filter := is_valid_topic_gen true.

(** ** Shared subscriptions and IoT Core limits *)
(** aws_byte_cursor_eq_ignore_case (aws-c-common): ASCII case folding *)
Definition lower (b : N) : N := if (65 <=? b) && (b <=? 90) then b + 32 else b.
Fixpoint eq_ignore_case (a b : bytes) : bool :=
  match a, b with
  | [], [] => true
  | x :: a, y :: b => (lower x =? lower y) && eq_ignore_case a b
  | _, _ => false
  end.
Definition share_prefix : bytes := [36; 115; 104; 97; 114; 101].                      (* "$share" *)
Definition rules_prefix : bytes := [36; 97; 119; 115; 47; 114; 117; 108; 101; 115; 47]. (* "$aws/rules/" *)
(** s_aws_mqtt5_topic_skip_aws_iot_rules_prefix, mqtt5_utils.c:429-464 *)
Definition skip_rules_prefix (t : bytes) : bytes :=
  if len t <? len rules_prefix then t else
  if negb (eq_ignore_case rules_prefix (firstn (length rules_prefix) t)) then t else
  let copy := snd (advance t (len rules_prefix)) in
  if len copy =? 0 then t else
  let seg := hd [] (split 47 copy) in
  if len copy <? len seg + 1 then t else
  snd (advance copy (len seg + 1)).
(** s_aws_mqtt5_topic_skip_shared_prefix, 472-515 *)
Definition skip_shared_prefix (t : bytes) : bytes :=
  match split 47 t with
  | [] => t
  | first :: rest =>
    if negb (eq_ignore_case share_prefix first) then t else
    match rest with
    | [] => t
    | second :: _ =>
      if (len second =? 0) || negb (forallb (fun b => negb (b =? 43) && negb (b =? 35)) second) then t else
      let remaining := len t - (len first + 1 + len second) in
      if remaining =? 0 then t else snd (advance t (len t - remaining + 1))
    end
  end.
(** aws_mqtt5_topic_skip_aws_iot_core_uncounted_prefix, 517-522 *)
Definition skip_uncounted_prefix (t : bytes) : bytes := skip_rules_prefix (skip_shared_prefix t).
(** aws_mqtt5_topic_get_segment_count, 524-535 *)
Definition segment_count (t : bytes) : N := len (split 47 t).
(** aws_mqtt_is_valid_topic_filter_for_iot_core, 537-540 *)
Definition is_valid_topic_filter_for_iot_core (t : bytes) : bool := segment_count (skip_uncounted_prefix t) <=? 8.
(** aws_mqtt_is_valid_topic_for_iot_core, 542-549 *)
Definition is_valid_topic_for_iot_core (t : bytes) : bool :=
  let s := skip_uncounted_prefix t in if 8 <? segment_count s then false else len s <=? 256.
(** aws_mqtt_is_topic_filter_shared_subscription, 551-563 *)
Definition is_shared_subscription (t : bytes) : bool :=
  let r := skip_shared_prefix t in
  if len r =? len t then false else is_valid_topic_filter r.
