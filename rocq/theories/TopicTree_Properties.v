(** Properties C16 (dispatch), C17 (memory safety) and C39 (clean-up, enumeration, leaks) of the 3.1.1 client's subscription tree. *)
From Coq Require Import Permutation.
From Verif Require Import Base Split Topic_Model Topic_Spec Topic_Proofs SubSet_Model SubSet_Spec SubSet_Proofs TopicTree_Model TopicTree_Spec TopicTree_Mem.

(** ** C16 *)
(** After any history of valid subscribe and unsubscribe requests, committed or rolled back, a message on a valid topic invokes the handler of every subscription in force whose
    filter matches (but not 'a/#' for 'a'), each exactly once, and nothing else, whatever the hash tables' order of enumeration, as long as no fault occurred. *)
Theorem C16_dispatch_exact : forall iter ops h root calls topic out, Forall op_filters_valid ops -> tt_run iter ops = Some (h, root, calls) -> topic_name topic ->
  tt_publish h root (split 47 topic) = Some out ->
  exists matching, (forall e, In e matching <-> In e (t_in_force ops) /\ tree_matches (fst e) topic) /\ NoDup (map fst matching) /\ Permutation out (flat_map t_received matching).
Proof. exact tree_dispatch. Qed.
Print Assumptions C16_dispatch_exact.
(** a/b/c, a/+, a/#, b in one request; x rolled back; b removed; a/+ replaced *)
Definition ex_sub (n : N) : tsub := mkts 1 n (Some (n + 10)) (n + 100).
Definition ex_tree_ops : list top := [TSubscribe [([97; 47; 98; 47; 99], ex_sub 1); ([97; 47; 43], ex_sub 2); ([97; 47; 35], ex_sub 3); ([98], ex_sub 4)] true;
  TSubscribe [([120], ex_sub 5)] false; TUnsubscribe [98]; TSubscribe [([97; 47; 43], ex_sub 6)] true].
Definition run_publish (iter : list bytes -> list bytes) (ops : list top) (topic : bytes) : option (list call) :=
  match tt_run iter ops with Some (h, root, _) => tt_publish h root (split 47 topic) | None => None end.
Example C16_ex : run_publish (fun l => l) ex_tree_ops [97; 47; 98; 47; 99] = Some [(3, 103); (1, 101)] /\ run_publish (@rev bytes) ex_tree_ops [97; 47; 122] = Some [(3, 103); (6, 106)] /\
  run_publish (fun l => l) ex_tree_ops [98] = Some [].
Proof. repeat split; vm_compute; reflexivity. Qed.
(** By the MQTT rules 'a/#' matches 'a'; the tree does not deliver it. *)
Theorem C16_parent_level_refuted : exists ops h root calls f topic, Forall op_filters_valid ops /\ tt_run (fun l => l) ops = Some (h, root, calls) /\ topic_name topic /\
  In f (map fst (t_in_force ops)) /\ topic_matches f topic /\ tt_publish h root (split 47 topic) = Some [].
Proof.
  exists [TSubscribe [([97; 47; 35], ex_sub 1)] true]. eexists _, _, _. exists [97; 47; 35], [97]. split; [constructor; [|constructor]; cbn; constructor; [|constructor]; apply valid_filter_spec; reflexivity|].
  split; [vm_compute; reflexivity|]. split; [apply valid_topic_spec; reflexivity|]. split; [left; reflexivity|]. split; [|vm_compute; reflexivity]. unfold topic_matches. apply lmb_spec. vm_compute. reflexivity.
Qed.
Print Assumptions C16_parent_level_refuted.

(** ** C17 *)
(** On histories that never unsubscribe a filter while one below it is in force, nor name one filter twice in one request, no operation touches freed memory, crashes or aborts: the
    history itself, a message on any topic, the enumeration, the destruction. *)
Theorem C17_safe_histories_partial : forall iter ops, enumeration iter -> safe_history ops -> Forall op_filters_valid ops ->
  exists h root calls, tt_run iter ops = Some (h, root, calls) /\ (forall topic, tt_publish h root (split 47 topic) <> None) /\ tt_iterate h root <> None /\ tn_destroy h root <> None.
Proof. exact tree_alive. Qed.
Print Assumptions C17_safe_histories_partial.
Example C17_ex : safe_history ex_tree_ops /\ Forall op_filters_valid ex_tree_ops /\ enumeration (@rev bytes).
Proof.
  split; [|split].
  - cbn. split; [|split; [|split; [|split; [|exact I]]]].
    + repeat constructor; cbn; intuition discriminate.
    + repeat constructor; intros [].
    + intros _ g Hg (q & Hq & E). cbn in Hg. destruct Hg as [<-|[<-|[<-|[<-|[]]]]]; cbn in E; try discriminate. injection E as E. congruence.
    + repeat constructor; intros [].
  - unfold ex_tree_ops. repeat (apply Forall_cons; [cbn; try exact I; repeat (apply Forall_cons; [apply valid_filter_spec; reflexivity|]); apply Forall_nil|]). apply Forall_nil.
  - intros l. apply Permutation_sym, Permutation_rev.
Qed.
(** Unsubscribing from a/b and then a/b/c reads a freed string. *)
Theorem C17_use_after_free_refuted : exists ops, Forall op_filters_valid ops /\ tt_run (fun l => l) (removelast ops) <> None /\ tt_run (fun l => l) ops = None /\
  ops = [TSubscribe [([97; 47; 98], ex_sub 1)] true; TSubscribe [([97; 47; 98; 47; 99], ex_sub 2)] true; TUnsubscribe [97; 47; 98]; TUnsubscribe [97; 47; 98; 47; 99]].
Proof.
  eexists. split; [|split; [|split; [|reflexivity]]]; [|vm_compute; discriminate|vm_compute; reflexivity].
  repeat (apply Forall_cons; [cbn; try exact I; repeat (apply Forall_cons; [apply valid_filter_spec; reflexivity|]); apply Forall_nil|]). apply Forall_nil.
Qed.
Print Assumptions C17_use_after_free_refuted.
(** One request naming a filter twice leaves a node pointing at a freed string; any later message reads it. *)
Theorem C17_duplicate_in_request_refuted : exists ops h root calls topic, Forall op_filters_valid ops /\ tt_run (fun l => l) ops = Some (h, root, calls) /\ topic_name topic /\
  tt_publish h root (split 47 topic) = None /\ ops = [TSubscribe [([97; 47; 98], ex_sub 1); ([97; 47; 98], ex_sub 2)] true] /\ topic = [97; 47; 98].
Proof.
  eexists _, _, _, _, _. split; [|split; [|split; [|split; [|split; reflexivity]]]]; [|vm_compute; reflexivity|apply valid_topic_spec; reflexivity|vm_compute; reflexivity].
  repeat (apply Forall_cons; [cbn; try exact I; repeat (apply Forall_cons; [apply valid_filter_spec; reflexivity|]); apply Forall_nil|]). apply Forall_nil.
Qed.
Print Assumptions C17_duplicate_in_request_refuted.

(** ** C39 *)
(** Enumerating (which is what resubscribing after a lost session uses) reports exactly the subscriptions in force with their QoS, and the count agrees. *)
Theorem C39_enumerates_subscriptions : forall iter ops, enumeration iter -> safe_history ops -> exists h root calls r, tt_run iter ops = Some (h, root, calls) /\ tt_iterate h root = Some r /\
  Permutation r (map (fun e => (fst e, ts_qos (snd e))) (t_in_force ops)) /\ tt_count root = len (t_in_force ops).
Proof. exact tree_lists. Qed.
Print Assumptions C39_enumerates_subscriptions.
(** Over a whole life every committed subscription's clean-up handler is invoked exactly once with its (non-NULL) user data; if every request was committed no string is leaked. *)
Theorem C39_cleanup_exactly_once : forall iter ops, enumeration iter -> safe_history ops -> exists h root calls h' out, tt_run iter ops = Some (h, root, calls) /\ tn_destroy h root = Some (h', out) /\
  Permutation (calls ++ out) (flat_map t_cleanup (flat_map t_committed ops)) /\ (Forall all_committed ops -> hp_live h' = []).
Proof. exact tree_cleanup. Qed.
Print Assumptions C39_cleanup_exactly_once.
Example C39_ex : exists h root h' out, tt_run (fun l => l) ex_tree_ops = Some (h, root, [(14, 104); (12, 102)]) /\ tn_destroy h root = Some (h', out) /\ out = [(16, 106); (13, 103); (11, 101)] /\ hp_live h' = [].
Proof. eexists _, _, _, _. split; [vm_compute; reflexivity|]. split; [vm_compute; reflexivity|]. split; vm_compute; reflexivity. Qed.
(** Rolling back a subscription to a level that already exists leaks its string. *)
Theorem C39_roll_back_leak_refuted : exists ops h root calls h' out, safe_history ops /\ Forall op_filters_valid ops /\ tt_run (fun l => l) ops = Some (h, root, calls) /\ tn_destroy h root = Some (h', out) /\
  map snd (hp_live h') = [[97]].
Proof.
  exists [TSubscribe [([97; 47; 98], ex_sub 1)] true; TSubscribe [([97], ex_sub 2)] false]. eexists _, _, _, _, _. split; [|split; [|split; [vm_compute; reflexivity|split; [vm_compute; reflexivity|vm_compute; reflexivity]]]].
  - cbn. split; [|split; [|exact I]]; repeat constructor; intros [].
  - repeat (apply Forall_cons; [cbn; try exact I; repeat (apply Forall_cons; [apply valid_filter_spec; reflexivity|]); apply Forall_nil|]). apply Forall_nil.
Qed.
Print Assumptions C39_roll_back_leak_refuted.
