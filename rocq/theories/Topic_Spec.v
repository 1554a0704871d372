(** Independent specifications for C13, C14 and C15. *)
From Verif Require Import Base.

(** ** Unicode *)
(** RFC 3629 encoding of a code point *)
Definition utf8_encode (cp : N) : bytes :=
  if cp <? 128 then [cp]
  else if cp <? 2048 then [192 + cp / 64; 128 + cp mod 64]
  else if cp <? 65536 then [224 + cp / 4096; 128 + cp / 64 mod 64; 128 + cp mod 64]
  else [240 + cp / 262144; 128 + cp / 4096 mod 64; 128 + cp / 64 mod 64; 128 + cp mod 64].
(** Unicode scalar values: code points except surrogates *)
Definition scalar (cp : N) : Prop := cp <= 1114111 /\ ~ (55296 <= cp <= 57343).
Definition control_character (cp : N) : Prop := cp <= 31 \/ 127 <= cp <= 159.
(** U+FDD0..U+FDEF and the last two code points of each plane *)
Definition noncharacter (cp : N) : Prop := 64976 <= cp <= 65007 \/ exists plane, plane <= 16 /\ (cp = plane * 65536 + 65534 \/ cp = plane * 65536 + 65535).
Definition text_char (cp : N) : Prop := scalar cp /\ ~ control_character cp /\ ~ noncharacter cp.
(** MQTT text: the UTF-8 encoding of a sequence of allowed characters *)
Definition mqtt_text (s : bytes) : Prop := exists cps, Forall text_char cps /\ s = concat (map utf8_encode cps).

(** ** Topics: '/' is 47, '+' is 43, '#' is 35 *)
Definition level_starts_after (a : bytes) : Prop := a = [] \/ exists a', a = a' ++ [47].
Definition level_ends_before (b : bytes) : Prop := b = [] \/ exists b', b = 47 :: b'.
Definition topic_name (t : bytes) : Prop := t <> [] /\ len t <= 65535 /\ mqtt_text t /\ ~ In 43 t /\ ~ In 35 t.
Definition topic_filter (t : bytes) : Prop :=
  t <> [] /\ len t <= 65535 /\ mqtt_text t /\
  (forall a b, t = a ++ 43 :: b -> level_starts_after a /\ level_ends_before b) /\
  (forall a b, t = a ++ 35 :: b -> level_starts_after a /\ b = []).

(** ** Shared subscriptions: <share>/<group>/<filter> *)
Definition ascii_lower (b : N) : N := if (65 <=? b) && (b <=? 90) then b + 32 else b.
(** the first level of the filter is "$share", in any letter case *)
Definition shared_parts (t share group rest : bytes) : Prop :=
  t = share ++ 47 :: group ++ 47 :: rest /\
  map ascii_lower share = [36; 115; 104; 97; 114; 101] /\
  group <> [] /\ ~ In 47 group /\ ~ In 43 group /\ ~ In 35 group.
(** "$aws/rules/<name>/<rest>", in any letter case *)
Definition rules_parts (t rest : bytes) : Prop :=
  exists p name, t = p ++ name ++ 47 :: rest /\ map ascii_lower p = [36; 97; 119; 115; 47; 114; 117; 108; 101; 115; 47] /\ ~ In 47 name.
(** the part of a topic that counts towards the IoT Core limits *)
Inductive counted : bytes -> bytes -> Prop :=
| counted_none t t' : t' = t -> (forall s g r, ~ shared_parts t s g r) -> (forall r, ~ rules_parts t r) -> counted t t'
| counted_shared t s g r : shared_parts t s g r -> (forall r', ~ rules_parts r r') -> counted t r
| counted_rules t r : (forall s g r, ~ shared_parts t s g r) -> rules_parts t r -> counted t r
| counted_both t s g r r' : shared_parts t s g r -> rules_parts r r' -> counted t r'.
Definition slashes (t : bytes) : N := N.of_nat (count_occ N.eq_dec t 47).
