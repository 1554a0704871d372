(** Properties of the request-response client: the order of operations. *)
From Verif Require Import Base TopicAlias_Model SubSet_Model RR_Model RR_Spec RR_Examples RR_All RR_Order.

(** C88. No operation overtakes another: when the client turns to one, each that was put in its queue earlier has been taken from it or is destroyed. *)
Theorem C88_taken_in_order cf connected l tr1 id2 a tr2 t1 t2 id1 : config_ok cf -> trace (history cf connected l) = tr1 ++ O_INTAKE id2 a :: tr2 -> tr1 = t1 ++ I_QUEUED id2 :: t2 -> In (I_QUEUED id1) t1 ->
  (exists a1, In (O_INTAKE id1 a1) tr1) \/ In (O_GONE id1) tr1.
Proof. exact (taken_in_order cf connected l tr1 id2 a tr2 t1 t2 id1). Qed.
Print Assumptions C88_taken_in_order.
(** The third request waits for the token of the first, and the fourth, whose own token is free, is not taken before it. *)
Example C88_case : count (takes 3) (trace (history limits true (same_token ++ [(at_ 15, ERequest ask_w); (at_ 16, ESubmit 4); (at_ 17, EService)]))) = 0%nat /\
  count (takes 4) (trace (history limits true (same_token ++ [(at_ 15, ERequest ask_w); (at_ 16, ESubmit 4); (at_ 17, EService)]))) = 0%nat /\ r_token ask_w <> r_token ask_q.
Proof. split; [vm_compute; reflexivity|]. split; [vm_compute; reflexivity|discriminate]. Qed.
Example C88_nonvacuous : exists tr1 t1 t2, trace (history limits true token_again) = tr1 ++ O_INTAKE 4 A_SUBSCRIBING :: [] /\ tr1 = t1 ++ I_QUEUED 4 :: t2 /\ In (I_QUEUED 3) t1 /\ In (O_INTAKE 3 A_SUBSCRIBED) t2.
Proof.
  set (T := trace (history limits true token_again)). exists (firstn 39 T), (firstn 34 (firstn 39 T)), (skipn 35 (firstn 39 T)). split; [|split; [|split]].
  - rewrite <- (firstn_skipn 39 T) at 1. apply (f_equal (app _)). vm_compute. reflexivity.
  - rewrite <- (firstn_skipn 34 (firstn 39 T)) at 1. apply (f_equal (app _)). vm_compute. reflexivity.
  - apply (nth_error_In _ 11). vm_compute. reflexivity.
  - apply (nth_error_In _ 1). vm_compute. reflexivity.
Qed.
