(** The claims about the user name that is sent when SDK metrics are configured. [append platform u (Some m) true] makes it from the user's [u], the metrics [m] and the name of the platform *)
From Verif Require Topic_Spec Topic_Proofs.
From Verif Require Import Base Split Metrics_Model Metrics_Spec Metrics_Proofs.

(** C72. A server that takes the query to be what is after the last question mark finds the user's name before it; in it the keys of the user's parameters, in order, and after them no others than SDK, Platform and Metadata.
    The name is at most 65535 bytes long, and its size is what is reported. The text of the metrics must not hold '?' or '&', and the user's query not the parameter "=" *)
Theorem C72_user_name_kept_partial platform u m out n base q ps : append platform u (Some m) true = Done out n -> named u base q -> reads 38 q ps -> ~ In ([], []) ps -> plain [63; 38] platform m ->
  n = len out /\ len out <= 65535 /\ exists q' ps' added, named out base q' /\ reads 38 q' ps' /\ map fst ps' = map fst ps ++ added /\ incl added [k_sdk; k_platform; k_metadata].
Proof.
  intros D N R Z P. destruct (user_read _ _ _ _ N R) as [-> ->]. destruct (done_username _ _ _ _ _ D) as (_ & -> & E & L). destruct (username_read platform u m P Z) as (q' & A & B). destruct (all_keys platform u m) as (added & K & I). eauto 10.
Qed.
Print Assumptions C72_user_name_kept_partial.
(** The user's values are kept; SDK is the library's name and Platform that of the platform, unless the user gave others *)
Theorem C72_values platform u m out n base q ps base' q' ps' : append platform u (Some m) true = Done out n -> named u base q -> reads 38 q ps -> ~ In ([], []) ps -> plain [63; 38] platform m -> named out base' q' -> reads 38 q' ps' ->
  (forall k v, k <> k_metadata -> value_of k ps (Some v) -> value_of k ps' (Some v))
  /\ (value_of k_sdk ps None -> value_of k_sdk ps' (Some (match mt_library m with [] => default_library | l => l end)))
  /\ (value_of k_platform ps None -> value_of k_platform ps' (Some platform))
  /\ (forall k, ~ In k [k_sdk; k_platform; k_metadata] -> value_of k ps None -> value_of k ps' None).
Proof.
  intros D N R Z P N' R'. destruct (user_read _ _ _ _ N R) as [-> ->]. rewrite (output_read _ _ _ _ _ _ _ _ P Z D N' R'). repeat split.
  - intros k v K V. apply value_lookup in V. assert (E := all_lookup platform u m k K). rewrite V in E. rewrite <- E. apply lookup_value.
  - intro V. apply value_lookup in V. assert (E := all_lookup platform u m k_sdk ltac:(discriminate)). rewrite V in E. cbn in E. fold (library m). rewrite <- E. apply lookup_value.
  - intro V. apply value_lookup in V. assert (E := all_lookup platform u m k_platform ltac:(discriminate)). rewrite V in E. cbn in E. rewrite <- E. apply lookup_value.
  - intros k K V. apply value_lookup in V. assert (E := all_lookup platform u m k ltac:(intros ->; apply K; cbn; auto)). rewrite V in E.
    assert (K1 : TopicAlias_Model.bytes_eqb k_sdk k = false) by (apply TopicAlias_Proofs.bytes_eqb_false; intros <-; apply K; cbn; auto). assert (K2 : TopicAlias_Model.bytes_eqb k_platform k = false) by (apply TopicAlias_Proofs.bytes_eqb_false; intros <-; apply K; cbn; auto).
    rewrite K1, K2 in E. rewrite <- E. apply lookup_value.
Qed.
Print Assumptions C72_values.
(** Metadata has the user's entries, and those of the metrics with other keys. Keys and values of the metrics must not hold ';', keys not '=' *)
Theorem C72_metadata platform u m out n base q ps base' q' ps' v old : append platform u (Some m) true = Done out n -> named u base q -> reads 38 q ps -> ~ In ([], []) ps -> plain [63; 38] platform m -> named out base' q' -> reads 38 q' ps' ->
  mt_entries m <> [] -> Forall (fun e => ~ In 61 (fst e) /\ ~ In 59 (fst e) /\ ~ In 59 (snd e) /\ e <> ([], [])) (mt_entries m) -> value_of k_metadata ps v -> holds v old -> ~ In ([], []) old ->
  exists v' new, value_of k_metadata ps' (Some v') /\ holds (Some v') new /\ forall k a b, value_of k old a -> value_of k (mt_entries m) b -> value_of k new (match a with Some _ => a | None => b end).
Proof.
  intros D N R Z P N' R' E S V H O. destruct (user_read _ _ _ _ N R) as [-> ->]. rewrite (output_read _ _ _ _ _ _ _ _ P Z D N' R'). apply value_lookup in V. subst v. destruct (metadata_read platform u m old E S H O) as (c & L & Rc). exists (40 :: c ++ [41]), (merge (mt_entries m) old). split; [rewrite <- L; apply lookup_value|]. split; [right; eauto|].
  intros k a b A B. apply value_lookup in A, B. assert (M := lookup_merge k (mt_entries m) old). rewrite A, B in M. destruct a; rewrite <- M; apply lookup_value.
Qed.
Print Assumptions C72_metadata.
(** without entries, or if the user's Metadata is not of the form (...), it is left alone *)
Theorem C72_metadata_kept platform u m out n base q ps base' q' ps' v : append platform u (Some m) true = Done out n -> named u base q -> reads 38 q ps -> ~ In ([], []) ps -> plain [63; 38] platform m -> named out base' q' -> reads 38 q' ps' ->
  value_of k_metadata ps v -> (mt_entries m = [] \/ exists x, v = Some x /\ x <> [] /\ forall c, x <> 40 :: c ++ [41]) -> value_of k_metadata ps' v.
Proof.
  intros D N R Z P N' R' V H. destruct (user_read _ _ _ _ N R) as [-> ->]. rewrite (output_read _ _ _ _ _ _ _ _ P Z D N' R'). apply value_lookup in V. subst v. rewrite <- (metadata_kept platform u m H). apply lookup_value.
Qed.
Print Assumptions C72_metadata_kept.
(** "me?x=1&Metadata=(a=1)" becomes "me?x=1&Metadata=(a=1;b=3)&SDK=lib&Platform=Linux" *)
Example C72_case : append linux a_user (Some some_metrics) true = Done ([109; 101; 63; 120; 61; 49; 38] ++ k_metadata ++ [61; 40; 97; 61; 49; 59; 98; 61; 51; 41; 38] ++ k_sdk ++ [61; 108; 105; 98; 38] ++ k_platform ++ 61 :: linux) 48
  /\ (exists q ps, named a_user [109; 101] q /\ reads 38 q ps /\ ~ In ([], []) ps /\ value_of k_metadata ps (Some [40; 97; 61; 49; 41]) /\ holds (Some [40; 97; 61; 49; 41]) [([97], [49])]) /\ plain [63; 38] linux some_metrics.
Proof.
  split; [vm_compute; reflexivity|]. split; [|exact plain_case]. exists (skipn 3 a_user), [([120], [49]); (k_metadata, [40; 97; 61; 49; 41])]. split; [left; split; [reflexivity|cbn; intros K; repeat destruct K as [K|K]; try discriminate; exact K]|].
  split; [exact (parse_reads 38 (skipn 3 a_user))|]. split; [intros [K|[K|[]]]; discriminate|]. split; [apply V_there; [discriminate|constructor]|]. right. exists [97; 61; 49]. split; [reflexivity|]. exact (parse_reads 59 [97; 61; 49]).
Qed.
(** without metrics the name is the user's *)
Theorem C72_no_metrics platform u : append platform u None true = Done u (len u).
Proof. reflexivity. Qed.
Print Assumptions C72_no_metrics.
(** metrics with text that is not MQTT text (Topic_Spec) are refused *)
Theorem C72_invalid_refused platform u m want : ~ Topic_Spec.mqtt_text (mt_library m) \/ (exists k v, In (k, v) (mt_entries m) /\ (~ Topic_Spec.mqtt_text k \/ ~ Topic_Spec.mqtt_text v)) -> append platform u (Some m) want = Failed.
Proof.
  intro H. unfold append. replace (valid_metrics m) with false; [reflexivity|]. symmetry. apply not_true_is_false. intro V. unfold valid_metrics in V. apply andb_prop in V. destruct V as [A B]. rewrite forallb_forall in B. destruct H as [H|(k & v & I & H)]; [apply H, Topic_Proofs.validate_utf8_spec, A|].
  specialize (B _ I). apply andb_prop in B. destruct B as [B C]. cbn in B, C. destruct H as [H|H]; apply H, Topic_Proofs.validate_utf8_spec; assumption.
Qed.
Print Assumptions C72_invalid_refused.
(** in the plain case, a name without a query and metrics without entries, the name is u?SDK=library&Platform=platform, and it is refused exactly if it is longer than 65535 bytes *)
Theorem C72_plain_case platform u l : ~ In 63 u -> l <> [] -> platform <> [] -> Topic_Spec.mqtt_text l ->
  let name := u ++ [63; 83; 68; 75; 61] ++ l ++ [38; 80; 108; 97; 116; 102; 111; 114; 109; 61] ++ platform in
  (len name <= 65535 -> append platform u (Some (mkmetrics l [])) true = Done name (len name)) /\ (65535 < len name -> append platform u (Some (mkmetrics l [])) true = Failed).
Proof.
  intros H L P T name. rewrite append_eq, (simple_name platform u l H L P). fold name. replace (valid_metrics (mkmetrics l [])) with true by (unfold valid_metrics; cbn [mt_library mt_entries forallb]; rewrite (proj2 (Topic_Proofs.validate_utf8_spec l) T); reflexivity). cbn [negb]. unfold max_username.
  split; intro K; [replace (65535 <? len name) with false by lia|replace (65535 <? len name) with true by lia]; reflexivity.
Qed.
Print Assumptions C72_plain_case.
Example C72_plain_example : ~ In 63 [109; 101] /\ Topic_Spec.mqtt_text [108; 105; 98] /\ append linux [109; 101] (Some (mkmetrics [108; 105; 98] [])) true = Done ([109; 101; 63; 83; 68; 75; 61; 108; 105; 98; 38; 80; 108; 97; 116; 102; 111; 114; 109; 61] ++ linux) 25.
Proof. split; [intros [K|[K|[]]]; discriminate|]. split; [apply Topic_Proofs.validate_utf8_spec|]; vm_compute; reflexivity. Qed.
(** asking for the size alone gives the size of the name *)
Theorem C72_size_query platform u m name n : append platform u (Some m) true = Done name n -> append platform u (Some m) false = Done [] n.
Proof. rewrite !append_eq. destruct (negb _); [discriminate|]. destruct (_ <? _); [discriminate|]. intro E. injection E as _ <-. reflexivity. Qed.
Print Assumptions C72_size_query.
(** the full claim, that the user's name is sent as it is, with something after it, is false: "a?b=" becomes "a?b&SDK=..." *)
Theorem C72_user_name_kept_refuted : ~ forall platform u m out n, append platform u (Some m) true = Done out n -> exists more, out = u ++ more.
Proof. intro H. specialize (H linux [97; 63; 98; 61] some_metrics). vm_compute in H. specialize (H _ _ eq_refl). destruct H as (more & H). discriminate. Qed.
Print Assumptions C72_user_name_kept_refuted.
(** and a '?' in the name of the library changes the user name a server finds *)
Theorem C72_question_mark_refuted : ~ forall platform u m out n base q base' q', append platform u (Some m) true = Done out n -> named u base q -> named out base' q' -> base' = base.
Proof.
  intro H. specialize (H linux [97] (mkmetrics [98; 63; 99] [])). vm_compute in H. specialize (H _ _ [97] [] [97; 63; 83; 68; 75; 61; 98] ([99; 38] ++ k_platform ++ 61 :: linux) eq_refl). discriminate H.
  - right. split; [intros [K|[]]; discriminate|auto].
  - left. split; [reflexivity|]. cbn. intros K. repeat destruct K as [K|K]; try discriminate. exact K.
Qed.
Print Assumptions C72_question_mark_refuted.

(** C73. Appending the metrics never reads through a null pointer if there is an output buffer; the full claim, for a size query too, is false if the name is too long *)
Theorem C73_no_null_pointer_partial platform u m : append platform u m true <> Crash.
Proof. destruct m as [m|]; [|discriminate]. rewrite append_eq. destruct (negb _); [discriminate|]. destruct (_ <? _); discriminate. Qed.
Print Assumptions C73_no_null_pointer_partial.
Theorem C73_no_null_pointer_refuted : ~ forall platform u m, append platform u m false <> Crash.
Proof. intro H. apply (H linux (repeat 97 (N.to_nat 65536)) (Some some_metrics)). apply (too_long linux some_metrics false); [rewrite N2Nat.id; reflexivity|reflexivity]. Qed.
Print Assumptions C73_no_null_pointer_refuted.
