(** The claims about listeners of a client. [history cf l]: after the operations [l]; [s_out]: the trace, newest first. The user acquires and releases only what it holds ([polite]), and there are fewer than 2^64 - 1 operations *)
From Verif Require Import Base Listeners_Model Listeners_Spec Listeners_Proofs.

(** C74. A message is offered to the listeners that are in place and have a handler, the newest first, each at most once, until one handles it; if none does, it goes to the client's own handler.
    For 3.1.1 it goes to all of them *)
Theorem C74_offered cf l m answer : let s := history cf l in len l + 1 < two64 -> polite (s_out s) ->
  NoDup (attached (s_out s)) /\ exists o handled, offered (s_out s) m (fun u => cf_five cf && answer u) (attached (s_out s)) o handled
  /\ s_out (history cf (l ++ [PUBLISH m answer])) = rev (o ++ if negb handled && (cf_five cf && cf_publish cf) then [O_OWN_PUBLISH m] else []) ++ s_out s.
Proof.
  intros s L P. assert (V := history_inv cf l L P). fold s in V. split; [apply attached_nodup, V|]. destruct (offered_shape cf (s_out s) m answer (s_sets s) s (entry_publish _ _ V)) as (o & b & O & E). exists o, b. rewrite (v_sets _ _ V) in O. split; [exact O|].
  unfold history. rewrite fold_left_app. fold (history cf l). fold s. cbn [fold_left]. unfold handle. rewrite (v_crash _ _ V), E. reflexivity.
Qed.
Print Assumptions C74_offered.
(** 1 and 0 are in place; 7 is handled by neither of them, 8 by 1 *)
Example C74_case : polite (s_out (history a_client (firstn 4 two_listeners))) /\ attached (s_out (history a_client (firstn 4 two_listeners))) = [1; 0]
  /\ s_out (history a_client (firstn 6 two_listeners)) = [O_PUBLISH 1 8; O_OWN_PUBLISH 7; O_PUBLISH 0 7; O_PUBLISH 1 7] ++ s_out (history a_client (firstn 4 two_listeners)).
Proof. split; [apply (polite_app (firstn 13 over_trace)); rewrite <- (firstn_skipn 13 over_trace); exact over_polite|]. split; vm_compute; reflexivity. Qed.

(** C75. Other events go to all listeners that are in place and have a handler, the newest first, and then to the client's own handler *)
Theorem C75_told cf l e : let s := history cf l in len l + 1 < two64 -> polite (s_out s) ->
  NoDup (attached (s_out s)) /\ exists o, told (s_out s) e (attached (s_out s)) o
  /\ s_out (history cf (l ++ [EVENT e])) = rev (o ++ if cf_five cf && cf_event cf then [O_OWN_EVENT e] else []) ++ s_out s.
Proof.
  intros s L P. assert (V := history_inv cf l L P). fold s in V. split; [apply attached_nodup, V|]. destruct (told_shape cf (s_out s) e (s_sets s) s (entry_event _ _ e V)) as (o & O & E). exists o. rewrite (v_sets _ _ V) in O. split; [exact O|].
  unfold history. rewrite fold_left_app. fold (history cf l). fold s. cbn [fold_left]. unfold handle. rewrite (v_crash _ _ V), E. reflexivity.
Qed.
Print Assumptions C75_told.

(** C76. A listener gets nothing before it is initialized and nothing after it is terminated *)
Theorem C76_between cf l later earlier u x : len l + 1 < two64 -> polite (s_out (history cf l)) -> s_out (history cf l) = later ++ x :: earlier -> (exists m, x = O_PUBLISH u m) \/ (exists e, x = O_EVENT u e) ->
  In (T_INIT u) earlier /\ ~ In (O_TERMINATED u) earlier.
Proof.
  intros L P E X. assert (V := v_each _ _ (history_inv cf l L P)). assert (F := each_at _ V _ _ _ E). assert (G : each earlier) by (rewrite E in V; clear - V; induction later as [|y later IH]; destruct V as [_ V]; auto).
  assert (In u (attached earlier)) as A by (destruct X as [[m ->]|[e ->]]; exact F). split; [apply attached_init; exact A|apply attached_not_over; assumption].
Qed.
Print Assumptions C76_between.
(** It is terminated once, and not while the user holds a reference *)
Theorem C76_terminated cf l later earlier u : len l + 1 < two64 -> polite (s_out (history cf l)) -> s_out (history cf l) = later ++ O_TERMINATED u :: earlier ->
  held u earlier = 0 /\ In (T_INIT u) earlier /\ ~ In (O_TERMINATED u) earlier.
Proof. intros L P E. destruct (each_at _ (v_each _ _ (history_inv cf l L P)) _ _ _ E) as (A & B & C). split; [exact B|]. split; [apply attached_init; exact A|exact C]. Qed.
Print Assumptions C76_terminated.
(** Once nobody holds it, it is terminated, as soon as the event loop has run the tasks it was given *)
Theorem C76_terminates cf l u h : let w := (2 * length (s_tasks (history cf l)))%nat in len l + N.of_nat w + 1 < two64 -> polite (s_out (history cf l)) -> In (I_NEW u h) (s_out (history cf l)) -> held u (s_out (history cf l)) = 0 ->
  exists k, (k <= w)%nat /\ In (O_TERMINATED u) (s_out (history cf (l ++ repeat (RUN 0) k))).
Proof.
  intros w L P K H. assert (W : (work (s_tasks (history cf l)) <= w)%nat) by (unfold w; clear; induction (s_tasks (history cf l)) as [|[v|v] t IH]; cbn in *; lia).
  destruct (run_all cf w l W L P) as (k & Kw & T & P' & H'). exists k. split; [exact Kw|]. eapply settled; [apply history_inv; [|exact P']|exact T| |rewrite H'; exact H].
  - unfold len in *. rewrite app_length, repeat_length. lia.
  - destruct (history_grows cf l (repeat (RUN 0) k)) as (x & ->). apply in_app_iff. right. exact K.
Qed.
Print Assumptions C76_terminates.
(** No assertion fails and nothing is used after it is freed *)
Theorem C76_safe cf l : len l + 1 < two64 -> polite (s_out (history cf l)) -> s_crash (history cf l) = false.
Proof. intros L P. exact (v_crash _ _ (history_inv cf l L P)). Qed.
Print Assumptions C76_safe.
(** Each listener holds its client until it is terminated: the references are those of the listeners made, without those that are terminated *)
Theorem C76_client_held cf l : len l + 1 < two64 -> polite (s_out (history cf l)) ->
  s_client (history cf l) + len (filter (fun e => match e with O_TERMINATED _ => true | _ => false end) (s_out (history cf l))) = len (filter (fun e => match e with I_NEW _ _ => true | _ => false end) (s_out (history cf l))).
Proof. intros L P. rewrite over_filter, (made_filter cf l). apply client_refs; assumption. Qed.
Print Assumptions C76_client_held.
(** listener 0 is released and terminated; the event after that does not reach it *)
Example C76_case : polite (s_out (history a_client one_over)) /\ s_out (history a_client one_over) = [O_OWN_EVENT 5] ++ O_TERMINATED 0 :: skipn 2 over_trace /\ s_client (history a_client one_over) = 1
  /\ In (I_NEW 0 both) (s_out (history a_client (firstn 11 one_over))) /\ held 0 (s_out (history a_client (firstn 11 one_over))) = 0 /\ length (s_tasks (history a_client (firstn 11 one_over))) = 1%nat.
Proof. rewrite over_case. split; [exact over_polite|]. split; [reflexivity|]. split; [vm_compute; reflexivity|]. split; [vm_compute; tauto|]. split; vm_compute; reflexivity. Qed.
(** without the condition on the user the claim is false, as it must be: releasing twice what was acquired once stops the program *)
Example C76_impolite : s_crash (history a_client [NEW both; RUN 0; RELEASE 0; RELEASE 0]) = true.
Proof. vm_compute. reflexivity. Qed.
