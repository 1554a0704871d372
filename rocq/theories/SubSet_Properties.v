(** Property C18 (and C38, clean-up handlers): the subscription set of the 3.1.1-on-5 adapter. *)
From Coq Require Import Permutation.
From Verif Require Import Base Split Topic_Spec SubSet_Model SubSet_Spec SubSet_Proofs.

(** ** C18 *)
(** After any history of valid additions and of removals the set is alive (no abort, no crash); the three views agree with the subscriptions in force. *)
Theorem C18_views_agree : forall ops, Forall op_valid ops -> exists s c, ss_run ops = Some (s, c) /\
  ss_get s = in_force ops /\ NoDup (map so_filter (in_force ops)) /\
  forall f, (ss_is_subscribed s f = true <-> In f (map so_filter (in_force ops))) /\ (ss_in_tree s f = true <-> In f (map so_filter (in_force ops))).
Proof. exact views_agree. Qed.
Print Assumptions C18_views_agree.
(** A message on a valid topic invokes the handler of every subscription in force whose filter matches, each exactly once, and nothing else. *)
Theorem C18_dispatch_exact : forall ops s c topic, Forall op_valid ops -> ss_run ops = Some (s, c) -> topic_name topic ->
  exists matching, (forall o, In o matching <-> In o (in_force ops) /\ topic_matches (so_filter o) topic) /\ NoDup (map so_filter matching) /\
    Permutation (ss_publish s topic) (flat_map received matching).
Proof. exact dispatch_exact. Qed.
Print Assumptions C18_dispatch_exact.
(** a/b, a/+, a/#, #, a/b/c; then a/b/c is removed and a/b replaced *)
Definition ex_ops : list sop := [SAdd (mkso [97; 47; 98] (Some 1) (Some 11) 101); SAdd (mkso [97; 47; 43] (Some 2) None 0); SAdd (mkso [97; 47; 35] (Some 3) (Some 13) 103);
  SAdd (mkso [35] (Some 4) (Some 14) 104); SAdd (mkso [97; 47; 98; 47; 99] (Some 5) (Some 15) 105); SRemove [97; 47; 98; 47; 99]; SAdd (mkso [97; 47; 98] (Some 6) (Some 16) 106)].
Example C18_ex : exists s c, ss_run ex_ops = Some (s, c) /\ ss_publish s [97; 47; 98] = [(4, 104); (3, 103); (6, 106); (2, 0)] /\
  ss_publish s [97] = [(4, 104); (3, 103)] /\ ss_publish s [97; 47; 98; 47; 99] = [(4, 104); (3, 103)] /\ c = [(15, 105); (11, 101)].
Proof. eexists _, _. split; [vm_compute; reflexivity|]. vm_compute. repeat split; reflexivity. Qed.
(** On a "topic" with a literal '+' level (which a server must not send) handlers can be invoked twice. *)
Theorem C18_invalid_topic_twice_refuted : exists ops s c topic, Forall op_valid ops /\ ss_run ops = Some (s, c) /\ ~ topic_name topic /\ ss_publish s topic = [(1, 9); (1, 9)].
Proof. exact invalid_topic_twice. Qed.
Print Assumptions C18_invalid_topic_twice_refuted.

(** ** C38 *)
(** Over a whole life (any history, then destruction) the clean-up handler of every subscription ever added is invoked exactly once with its user data,
    provided handlers come with non-NULL user data. *)
Theorem C38_cleanup_exactly_once : forall ops, Forall op_valid ops -> Forall op_good ops -> exists s c, ss_run ops = Some (s, c) /\
  Permutation (c ++ ss_destroy s) (flat_map added ops).
Proof. exact cleanup_exactly_once. Qed.
Print Assumptions C38_cleanup_exactly_once.
Example C38_ex : Forall op_good ex_ops.
Proof. repeat (apply Forall_cons; [cbn; try exact I; first [left; reflexivity|right; discriminate]|]). apply Forall_nil. Qed.
(** With NULL user data the handler is skipped or invoked depending on what else is subscribed. *)
Theorem C38_null_user_data_refuted : exists ops1 ops2 s1 s2, 
  ss_run ops1 = Some (s1, []) /\ ss_destroy s1 = [] /\ ops1 = [SAdd (mkso [97] (Some 1) (Some 2) 0); SRemove [97]] /\
  ss_run ops2 = Some (s2, [(2, 0)]) /\ ops2 = [SAdd (mkso [97] (Some 1) (Some 2) 0); SAdd (mkso [97; 47; 98] (Some 3) None 0); SRemove [97]].
Proof. eexists _, _, _, _. repeat split; vm_compute; reflexivity. Qed.
Print Assumptions C38_null_user_data_refuted.
