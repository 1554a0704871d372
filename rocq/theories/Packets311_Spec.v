(** Wire format of MQTT 3.1.1 control packets, from the OASIS specification (sections 2 and 3); independent of packets.c.
    [wire t f body bs]: [bs] is a control packet of type [t], flag nibble [f] with the given body. *)
From Verif Require Import Base Vli_Spec.

(** 1.5.3: length-prefixed string *)
Definition str (s : bytes) : bytes := be16 (len s) ++ s.
Definition str_ok (s : bytes) : Prop := len s <= 65535.

(** 2.2: fixed header, remaining length (minimal, legal), body *)
Definition wire (t f : N) (body bs : bytes) : Prop :=
  exists rl, bs = [16 * t + f] ++ rl ++ body /\ vli_legal (len body) rl /\ vli_minimal (len body) rl.

Definition b2n (b : bool) : N := if b then 1 else 0.

(** 3.1 CONNECT: what the user asks for *)
Record connect_info := mkci {
  ci_client_id : bytes; ci_clean : bool; ci_keep_alive : N;
  ci_will : option (bytes * N * bool * bytes);   (* topic, qos, retain, message *)
  ci_username : option bytes; ci_password : option bytes }.
Definition opt_str (o : option bytes) : bytes := match o with Some s => str s | None => [] end.
Definition is_some {A} (o : option A) : bool := match o with Some _ => true | None => false end.
Definition connect_body (c : connect_info) : bytes :=
  str [77; 81; 84; 84] ++ [4] ++
  [2 * b2n (ci_clean c) + 4 * b2n (is_some (ci_will c)) +
   match ci_will c with Some (_, q, r, _) => 8 * q + 32 * b2n r | None => 0 end +
   64 * b2n (is_some (ci_password c)) + 128 * b2n (is_some (ci_username c))] ++
  be16 (ci_keep_alive c) ++ str (ci_client_id c) ++
  match ci_will c with Some (t, _, _, m) => str t ++ str m | None => [] end ++
  opt_str (ci_username c) ++ opt_str (ci_password c).
(** 3.2 CONNACK *)
Definition connack_body (session_present : bool) (code : N) : bytes := [b2n session_present; code].
(** 3.3 PUBLISH *)
Definition publish_flags (dup : bool) (qos : N) (retain : bool) : N := 8 * b2n dup + 2 * qos + b2n retain.
Definition publish_body (qos : N) (topic : bytes) (id : N) (payload : bytes) : bytes :=
  str topic ++ (if qos =? 0 then [] else be16 id) ++ payload.
(** 3.4-3.7, 3.11 *)
Definition ack_body (id : N) : bytes := be16 id.
(** 3.8 SUBSCRIBE *)
Definition subscribe_body (id : N) (filters : list (bytes * N)) : bytes :=
  be16 id ++ concat (map (fun fq => str (fst fq) ++ [snd fq]) filters).
(** 3.9 SUBACK *)
Definition suback_body (id : N) (codes : list N) : bytes := be16 id ++ codes.
(** 3.10 UNSUBSCRIBE *)
Definition unsubscribe_body (id : N) (filters : list bytes) : bytes := be16 id ++ concat (map str filters).

(** 2.2.2: flag nibbles. Only PUBLISH (3), PUBREL (6), SUBSCRIBE (8), UNSUBSCRIBE (10) may have non-zero flags. *)
Definition hdr_flags_ok (t f : N) : Prop := f < 16 /\ (t = 3 \/ t = 6 \/ t = 8 \/ t = 10 \/ f = 0).

(** A string that claims to be a packet with the given header: first byte, remaining length [n] (any legal encoding), then at least [n] bytes *)
Definition hdr_prefix (t f n : N) (h : bytes) : Prop := exists rl, h = (16 * t + f) :: rl /\ vli_legal n rl.
