(** The claims about operations on a 3.1.1 connection that runs on an MQTT 5 client. [history l]: after the steps [l], of which those that are not possible are skipped; [t_out]: the trace, newest first *)
From Verif Require Import Base BridgeOps_Model BridgeOps_Spec BridgeOps_Proofs.

(** C83. The id of an operation that is accepted is between 1 and 65535, and no other operation that is open has it *)
Theorem C83_ids l later h id earlier : t_out (history l) = later ++ O_ACCEPTED h id :: earlier -> 1 <= id <= 65535 /\ ~ In id (map fst (open earlier)) /\ ~ accepted h earlier.
Proof. intro E. exact (proj2 (each_at _ _ (r_each _ (i_trace _ (history_inv l))) _ _ _ E)). Qed.
Print Assumptions C83_ids.
(** So at any time the open operations have different ids *)
Theorem C83_different l : let tr := t_out (history l) in NoDup (map fst (open tr)) /\ NoDup (map snd (open tr)) /\ forall id h, In (id, h) (open tr) -> In (O_ACCEPTED h id) tr.
Proof. intro tr. assert (R := i_trace _ (history_inv l)). split; [apply R|]. split; [apply R|]. intros id h. apply open_accepted. Qed.
Print Assumptions C83_different.
(** A call with valid arguments, as long as the connection is not released, is accepted, or refused if all 65535 ids are in use; one with others is refused *)
Theorem C83_call l k valid : let tr := t_out (history l) in ~ In I_RELEASE tr -> exists h r, ~ accepted h tr /\ t_out (history (l ++ [CALL k valid])) = r :: I_CALL h k :: tr
  /\ (valid = false -> r = O_INVALID h) /\ (valid = true -> N.of_nat (length (open tr)) < 65535 -> exists id, r = O_ACCEPTED h id) /\ (valid = true -> 65535 <= N.of_nat (length (open tr)) -> r = O_FULL h).
Proof.
  intros tr N. assert (V := history_inv l). assert (U : t_user (history l) = true). { destruct (t_user (history l)) eqn:U; [reflexivity|]. destruct (N (proj1 (i_rel _ V) U)). }
  assert (O := i_open _ V). fold tr in O. assert (D := r_ids _ (i_trace _ V)). fold tr in D. assert (FR : ~ accepted (t_count (history l)) tr) by (intro K; assert (L := i_old _ V _ (or_introl K)); lia).
  unfold history at 1. rewrite fold_left_app. fold (history l). cbn [fold_left handle]. rewrite U. unfold call. exists (t_count (history l)). destruct valid; cbn [negb]; [|eexists; split; [exact FR|split; [reflexivity|split; [reflexivity|split; discriminate]]]]. cbn [t_table t_next]. rewrite O.
  destruct (find_id _ _ _) as [id|] eqn:F; eexists; (split; [exact FR|]).
  - split; [reflexivity|]. split; [discriminate|]. split; [intros _ _; exists id; reflexivity|]. intros _ L. exfalso. destruct (find_some _ _ _ _ (i_next _ V) F) as [R1 R2].
    apply (too_many (map fst (open tr)) id); [exact D| |exact R1|exact R2|rewrite map_length; exact L]. intros x K. apply in_map_iff in K as ([a b] & E & K). cbn in E. subst a. apply open_accepted in K. exact (accepted_range _ _ _ (r_each _ (i_trace _ V)) K).
  - unfold release_op. cbn [set_armed set_op t_ops]. rewrite put_same. cbn [o_refs o_hold]. rewrite N.eqb_refl. split; [reflexivity|]. split; [discriminate|]. split; [|reflexivity]. intros _ L. exfalso. apply (all_used (map fst (open tr))); [rewrite map_length; exact L|]. intros id R. exact (find_full _ _ _ (i_next _ V) F R).
Qed.
Print Assumptions C83_call.

(** C84. The callback of an operation is called at most once, and not at all if it was refused *)
Theorem C84_at_most_once l h : let tr := t_out (history l) in (dones h tr <= 1)%nat /\ (~ accepted h tr -> dones h tr = O).
Proof.
  intro tr. assert (R := i_trace _ (history_inv l)). fold tr in R. split; [|apply R]. destruct (in_dec N.eq_dec h (map snd (open tr))) as [K|K]; [rewrite (r_none _ R _ K); lia|]. destruct (Nat.eq_dec (dones h tr) 0) as [E|E]; [lia|]. destruct (classify h tr) as [A|A]; [rewrite (r_one _ R _ A K); lia|destruct (E (r_not _ R _ A))].
Qed.
Print Assumptions C84_at_most_once.
(** It is called when the client completes the operation, with its id *)
Theorem C84_completed l h c p : let tr := t_out (history l) in In (O_SENT h) tr -> (forall c' p', ~ In (I_COMPLETED h c' p') tr) -> ~ In O_TERMINATED tr ->
  exists k id c', In (I_CALL h k) tr /\ In (O_ACCEPTED h id) tr /\ outcome k c p c' /\ dones h tr = O /\ t_out (history (l ++ [COMPLETE h c p])) = O_DONE h id c' :: I_COMPLETED h c p :: tr.
Proof.
  intros tr S N T. assert (V := history_inv l). destruct (k_sent _ (history_linked l) h S) as [K|(e & q & K)]; [|destruct (N _ _ K)]. cbn in K. destruct (complete_inv h c p _ V K) as (_ & A & _).
  destruct (t_gone (history l)) eqn:G; [destruct T; apply (i_term _ V); exact G|]. destruct (A eq_refl) as (k & id & J & F & E). exists k, id, (final k c p). rewrite (i_open _ V) in J. split; [exact F|]. split; [apply open_accepted; exact J|]. split; [apply outcome_final|]. split; [apply (r_none _ (i_trace _ V)); exact (in_snd _ _ _ J)|].
  unfold history. rewrite fold_left_app. fold (history l). cbn [fold_left handle]. rewrite (proj2 (mem_in _ _) K). exact E.
Qed.
Print Assumptions C84_completed.
(** By the time the termination callback is called, it was called for every operation that was accepted *)
Theorem C84_all l h : let tr := t_out (history l) in In O_TERMINATED tr -> accepted h tr -> dones h tr = 1%nat.
Proof. intros tr T A. assert (V := history_inv l). apply (i_term _ V) in T. destruct (i_gone _ V T) as [_ E]. rewrite (i_open _ V) in E. fold tr in E. apply (r_one _ (i_trace _ V)); [exact A|]. change (~ In h (map snd (open tr))). rewrite E. intros []. Qed.
Print Assumptions C84_all.
(** Whenever it is called there is a reason: the client has completed the operation, there was nothing to resubscribe to, or the connection is being destroyed; and the id is the one the call returned *)
Theorem C84_why l later h id c earlier : t_out (history l) = later ++ O_DONE h id c :: earlier -> In (O_ACCEPTED h id) earlier /\ why h c earlier.
Proof. intro E. destruct (proj2 (each_at _ _ (r_each _ (i_trace _ (history_inv l))) _ _ _ E)) as [A B]. split; [apply open_accepted; exact A|exact B]. Qed.
Print Assumptions C84_why.

(** C85. Nothing that was freed is used, whenever the client completes operations *)
Theorem C85_safe l : t_crash (history l) = false.
Proof. apply history_inv. Qed.
Print Assumptions C85_safe.
(** The termination callback is called once the connection was released and the listener is detached; after it nothing is called, returned or handed to the client *)
Theorem C85_last l later earlier : t_out (history l) = later ++ O_TERMINATED :: earlier -> In I_RELEASE earlier /\ In I_DETACHED earlier /\ open earlier = [] /\ forall e, In e later -> output e = false.
Proof.
  intro E. assert (R := r_each _ (i_trace _ (history_inv l))). destruct (proj2 (each_at _ _ R _ _ _ E)) as (A & B & C). split; [exact B|]. split; [exact C|]. split; [exact A|]. intros e K. apply in_split in K as (l1 & l2 & ->). rewrite <- app_assoc in E. cbn in E. destruct (output e) eqn:O; [|reflexivity]. destruct (proj1 (each_at _ _ R _ _ _ E) O). apply in_app_iff. right. left. reflexivity.
Qed.
Print Assumptions C85_last.
(** Destruction is possible as soon as the listener is detached and the tasks of the operations have run. It reports each operation that is open, the oldest first, and then calls the termination callback *)
Theorem C85_destroys l : let tr := t_out (history l) in In I_DETACHED tr -> (forall h, accepted h tr -> In (I_TASK h) tr) -> ~ In O_TERMINATED tr ->
  t_out (history (l ++ [DESTROY])) = O_TERMINATED :: rev (map (fun p => O_DONE (snd p) (fst p) DESTROYED) (open tr)) ++ I_DESTROY :: tr.
Proof.
  intros tr D A T. assert (V := history_inv l). assert (K := history_linked l). assert (G : t_gone (history l) = false) by (destruct (t_gone (history l)) eqn:G; [destruct T; apply (i_term _ V); exact G|reflexivity]).
  assert (P : t_pending (history l) = []). { destruct (t_pending (history l)) as [|h ps] eqn:P; [reflexivity|]. exfalso. assert (I : In h (t_pending (history l))) by (rewrite P; left; reflexivity). apply (k_task _ K h I). apply A. destruct (in_dec N.eq_dec h (map snd (t_table (history l)))) as [J|J]; [|destruct (i_no _ V _ J) as (_ & _ & Q); destruct (Q I)]. rewrite (i_open _ V) in J. apply in_map_iff in J as ([a b] & E & J). cbn in E. subst b. exists a. apply open_accepted. exact J. }
  assert (DY : t_dying (history l) = true). { rewrite (i_dying _ V), (i_refs _ V), P. assert (Q := k_det _ K D). cbn in Q. rewrite Q. reflexivity. }
  unfold history. rewrite fold_left_app. fold (history l). cbn [fold_left handle]. rewrite DY, G. cbn [negb andb]. rewrite (proj2 (destroy_inv _ V DY G)), (i_open _ V). reflexivity.
Qed.
Print Assumptions C85_destroys.

(** two publishes, one of which is completed with a refusal, a resubscribe with nothing to subscribe to, and a subscribe that is open at the destruction and completed after it *)
Definition a_use : list op := [CALL PUB true; CALL SUB true; CALL PUB false; SUBMIT 0 QUEUED; CALL RESUB true; COMPLETE 0 OK (Some 135); SUBMIT 3 NOTHING; RELEASE; SUBMIT 1 QUEUED; DETACHED; DESTROY; COMPLETE 1 OK None].
Example C83_case : rev (t_out (history a_use)) =
  [I_CALL 0 PUB; O_ACCEPTED 0 1; I_CALL 1 SUB; O_ACCEPTED 1 2; I_CALL 2 PUB; O_INVALID 2; I_TASK 0; O_SENT 0; I_CALL 3 RESUB; O_ACCEPTED 3 3; I_COMPLETED 0 OK (Some 135); O_DONE 0 1 ACK_FAILURE; I_TASK 3; O_DONE 3 3 NO_TOPICS;
   I_RELEASE; I_TASK 1; O_SENT 1; I_DETACHED; I_DESTROY; O_DONE 1 2 DESTROYED; O_TERMINATED; I_COMPLETED 1 OK None].
Proof. vm_compute. reflexivity. Qed.
(** the hypotheses of C84_completed, C85_destroys and C84_all *)
Example C84_case : let tr := t_out (history (firstn 5 a_use)) in In (O_SENT 0) tr /\ (forall c p, ~ In (I_COMPLETED 0 c p) tr) /\ ~ In O_TERMINATED tr.
Proof. vm_compute. split; [auto|]. split; [intros c p K|intro K]; intuition discriminate. Qed.
Example C85_case : let tr := t_out (history (firstn 10 a_use)) in In I_DETACHED tr /\ (forall h, accepted h tr -> In (I_TASK h) tr) /\ ~ In O_TERMINATED tr /\ open tr = [(2, 1)] /\ In O_TERMINATED (t_out (history a_use)).
Proof.
  vm_compute. split; [auto|]. split; [|split; [intro K; intuition discriminate|split; [reflexivity|auto]]]. intros h [id K].
  repeat (destruct K as [K|K]; [try discriminate K; injection K as <- _; repeat (first [left; reflexivity|right])|]). destruct K.
Qed.
(** any number of operations up to 65535 may be open, so all ids may be in use *)
Example C83_full_case n : N.of_nat n <= 65535 -> let tr := t_out (history (repeat (CALL PUB true) n)) in ~ In I_RELEASE tr /\ length (open tr) = n.
Proof.
  induction n as [|n IH]; intro L; [split; [intros []|reflexivity]|]. destruct IH as [A B]; [lia|]. replace (repeat (CALL PUB true) (S n)) with (repeat (CALL PUB true) n ++ [CALL PUB true]) by (symmetry; apply repeat_cons).
  destruct (C83_call _ PUB true A) as (h & r & _ & E & _ & C & _). destruct (C eq_refl) as [id ->]; [rewrite B; lia|]. rewrite E. cbn [open]. rewrite app_length, B. split; [intros [K|[K|K]]; [discriminate|discriminate|exact (A K)]|cbn; lia].
Qed.
