(** Properties C13, C14, C15: topics, text and shared subscriptions. *)
From Verif Require Import Base Split Topic_Model Topic_Spec Topic_Proofs.

(** ** C13 *)
Theorem C13_topic_accepted_iff_name : forall t, is_valid_topic t = true <-> topic_name t.
Proof. exact valid_topic_spec. Qed.
Print Assumptions C13_topic_accepted_iff_name.
Theorem C13_filter_accepted_iff_filter : forall t, is_valid_topic_filter t = true <-> topic_filter t.
Proof. exact valid_filter_spec. Qed.
Print Assumptions C13_filter_accepted_iff_filter.
(** "a/+/#", "a/+b", "#/a", "a/b", and "+" as a topic *)
Example C13_ex : is_valid_topic_filter [97; 47; 43; 47; 35] = true /\ is_valid_topic_filter [97; 47; 43; 98] = false /\
  is_valid_topic_filter [35; 47; 97] = false /\ is_valid_topic [97; 47; 98] = true /\ is_valid_topic [43] = false /\ is_valid_topic [] = false.
Proof. repeat split; vm_compute; reflexivity. Qed.

(** ** C14 *)
Theorem C14_codepoint_rejected_iff_forbidden : forall cp, cp <= 1114111 ->
  (codepoint_ok cp = false <-> control_character cp \/ noncharacter cp).
Proof. exact codepoint_rejected_spec. Qed.
Print Assumptions C14_codepoint_rejected_iff_forbidden.
Theorem C14_text_accepted_iff_mqtt_text : forall s, validate_utf8_text s = true <-> mqtt_text s.
Proof. exact validate_utf8_spec. Qed.
Print Assumptions C14_text_accepted_iff_mqtt_text.
(** the code points of a text are determined by its bytes *)
Theorem C14_text_has_one_reading : forall a b, Forall scalar a -> Forall scalar b -> concat (map utf8_encode a) = concat (map utf8_encode b) -> a = b.
Proof. exact utf8_unique. Qed.
Print Assumptions C14_text_has_one_reading.
Example C14_ex : validate_utf8_text (concat (map utf8_encode [97; 233; 8364; 128512])) = true /\ validate_utf8_text (utf8_encode 131070) = false /\
  validate_utf8_text [192; 128] = false /\ validate_utf8_text [237; 160; 128] = false.
Proof. repeat split; vm_compute; reflexivity. Qed.

(** ** C15 *)
Theorem C15_shared_iff_form : forall t, is_shared_subscription t = true <-> exists share group filter, shared_parts t share group filter /\ topic_filter filter.
Proof. exact shared_spec. Qed.
Print Assumptions C15_shared_iff_form.
(** the share name may be in any letter case, which MQTT 5 (4.8.2) does not allow: "$SHARE/g/t" *)
Theorem C15_share_name_letter_case_refuted : exists t rest, is_shared_subscription t = true /\ t = [36; 83; 72; 65; 82; 69] ++ rest.
Proof. exists [36; 83; 72; 65; 82; 69; 47; 103; 47; 116], [47; 103; 47; 116]. split; vm_compute; reflexivity. Qed.
Print Assumptions C15_share_name_letter_case_refuted.
(** every topic has exactly one counted part, and it decides acceptance for IoT Core *)
Theorem C15_counted_part_unique : forall t, exists r, counted t r /\ forall r', counted t r' -> r' = r.
Proof. exact counted_unique. Qed.
Print Assumptions C15_counted_part_unique.
Theorem C15_iot_core_filter_limits : forall t r, counted t r -> (is_valid_topic_filter_for_iot_core t = true <-> slashes r <= 7).
Proof. exact iot_filter_spec. Qed.
Print Assumptions C15_iot_core_filter_limits.
Theorem C15_iot_core_topic_limits : forall t r, counted t r -> (is_valid_topic_for_iot_core t = true <-> slashes r <= 7 /\ len r <= 256).
Proof. exact iot_topic_spec. Qed.
Print Assumptions C15_iot_core_topic_limits.
(** "$share/g/$aws/rules/n/a/b" counts "a/b"; "$share/g/a/#" is shared, "$share/+/a" and "$share/g/" are not *)
Definition ex_rules : bytes := [36; 115; 104; 97; 114; 101; 47; 103; 47; 36; 97; 119; 115; 47; 114; 117; 108; 101; 115; 47; 110; 47; 97; 47; 98].
Example C15_ex : counted ex_rules [97; 47; 98] /\ is_valid_topic_for_iot_core ex_rules = true /\
  is_shared_subscription [36; 115; 104; 97; 114; 101; 47; 103; 47; 97; 47; 35] = true /\
  is_shared_subscription [36; 115; 104; 97; 114; 101; 47; 43; 47; 97] = false /\
  is_shared_subscription [36; 115; 104; 97; 114; 101; 47; 103; 47] = false.
Proof. split; [apply counted_spec; vm_compute; reflexivity|]. repeat split; vm_compute; reflexivity. Qed.
Example C15_ex_limits : is_valid_topic_for_iot_core (repeat 97 256) = true /\ is_valid_topic_for_iot_core (repeat 97 257) = false /\
  is_valid_topic_for_iot_core (repeat 47 7) = true /\ is_valid_topic_filter_for_iot_core (repeat 47 8) = false.
Proof. repeat split; vm_compute; reflexivity. Qed.
