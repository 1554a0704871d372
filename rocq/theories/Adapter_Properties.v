(** The claims about the protocol adapter between the request-response client and an MQTT 5 client ([five]) or a 3.1.1 connection. [history five l]: after the operations [l]; [a_out]: the trace, newest first *)
From Verif Require Import Base Adapter_Model Adapter_Spec Adapter_Proofs.

(** C77. The completion callback of a publish the client took is called exactly once: by the time the client completes it or the adapter is terminated, whichever is first, and not before. That of any other is not called *)
Theorem C77_once five l id : let tr := a_out (history five l) in proper tr ->
  (In (I_CALL id PUB true) tr -> (exists r, In (I_COMPLETED id r) tr) \/ In O_TERMINATED tr -> calls id tr = 1%nat)
  /\ (In (I_CALL id PUB true) tr -> (forall r, ~ In (I_COMPLETED id r) tr) -> ~ In O_TERMINATED tr -> calls id tr = O)
  /\ (~ In (I_CALL id PUB true) tr -> calls id tr = O).
Proof.
  intros tr P. assert (V := history_inv five l P). destruct (v_pubs _ V id) as (A & B & C). fold tr in A, B, C. split; [|split; [|exact C]].
  - intros K [[r D]|D]; apply (B K); [left; intro O; apply (v_link _ V) in O; exact (proj2 O r D)|right; destruct (a_alive (history five l)) eqn:E; [destruct (proj1 (v_alive _ V) E D)|reflexivity]].
  - intros K D T. apply A; [apply (v_link _ V); auto|apply (v_alive _ V); exact T].
Qed.
Print Assumptions C77_once.
(** At termination those that are open get the error SHUT_DOWN, the oldest first, and then the termination callback is called *)
Theorem C77_shut_down five l : proper (a_out (history five (l ++ [TERMINATE]))) -> let tr := a_out (history five l) in
  exists ids, (forall id, In id ids <-> In (id, PUB) (open tr)) /\ NoDup ids /\ ids = map fst (filter (fun p => match snd p with PUB => true | _ => false end) (open tr))
  /\ a_out (history five (l ++ [TERMINATE])) = O_TERMINATED :: rev (map (fun id => O_PUBLISHED id SHUT_DOWN) ids) ++ I_TERMINATE :: tr.
Proof.
  intro P. destruct (before _ _ _ P) as (_ & V & R & ->). intro tr. exists (pubs_of (open tr)). split; [intro id; apply pubs_of_in|]. split; [apply pubs_of_nodup, V|]. split; [apply pubs_of_filter|].
  unfold handle. rewrite (v_crash _ V). exact (proj2 (terminate_inv _ V R)).
Qed.
Print Assumptions C77_shut_down.

(** C78. A completion before the termination is answered by exactly one callback: with the topic filter that was asked for, success exactly if the client and the server say so, and retryable exactly in the listed cases. One after the termination is answered by none *)
Theorem C78_answer five l id r : proper (a_out (history five (l ++ [COMPLETE id r]))) -> let tr := a_out (history five l) in exists k, In (I_CALL id k true) tr
  /\ (In O_TERMINATED tr -> a_out (history five (l ++ [COMPLETE id r])) = I_COMPLETED id r :: tr)
  /\ (~ In O_TERMINATED tr -> result_of five k r -> exists e, answer five id r k e /\ a_out (history five (l ++ [COMPLETE id r])) = e :: I_COMPLETED id r :: tr).
Proof.
  intro P. destruct (before _ _ _ P) as (_ & V & R & ->). intro tr. unfold handle. rewrite (v_crash _ V). destruct (complete_inv five id r _ V R) as (_ & k & K & A & B). exists k. split; [exact K|]. split.
  - intro T. apply A. destruct (a_alive (history five l)) eqn:E; [destruct (proj1 (v_alive _ V) E T)|reflexivity].
  - intros T F. eexists. split; [|apply B; apply (v_alive _ V); exact T]. destruct k.
    + constructor; [apply (report_sub five filter); exact F|apply worth_sub_spec].
    + constructor; [intros ->; apply report_unsub|intros ->; reflexivity|apply worth_unsub_spec].
    + constructor. apply report_pub; exact F.
Qed.
Print Assumptions C78_answer.
(** An operation the client does not take is refused and leads to nothing else; one it takes leads to nothing yet *)
Theorem C78_call five l k taken : proper (a_out (history five (l ++ [CALL k taken]))) -> exists id, (forall k' b, ~ In (I_CALL id k' b) (a_out (history five l)))
  /\ a_out (history five (l ++ [CALL k taken])) = (if taken then [] else [O_REFUSED id]) ++ I_CALL id k taken :: a_out (history five l).
Proof.
  intro P. destruct (before _ _ _ P) as (_ & V & R & ->). exists (a_count (history five l)). split; [intros k' b K; apply (v_calls _ V) in K; lia|]. unfold handle. rewrite (v_crash _ V). apply proper_here in R. apply (v_alive _ V) in R. unfold call. rewrite R. destruct taken; reflexivity.
Qed.
Print Assumptions C78_call.

(** C79. An adapter used as it should be does not touch what is gone, and nothing is reported after the termination callback *)
Theorem C79_safe five l : proper (a_out (history five l)) -> a_crash (history five l) = false.
Proof. intro P. apply (history_inv five l P). Qed.
Print Assumptions C79_safe.
Theorem C79_last five l later e earlier : proper (a_out (history five l)) -> a_out (history five l) = later ++ e :: earlier -> In O_TERMINATED earlier -> exists id r, e = I_COMPLETED id r.
Proof. intro P. exact (quiet_at _ (history_quiet five l P) later e earlier). Qed.
Print Assumptions C79_last.
(** Until then every message is passed on, and every change of the connection *)
Theorem C79_passed five l o : proper (a_out (history five (l ++ [o]))) -> let tr := a_out (history five l) in let tr' := a_out (history five (l ++ [o])) in
  match o with
  | INCOMING m => tr' = [O_INCOMING m; I_INCOMING m] ++ tr
  | HAPPENS (CONNECTED b) => tr' = [O_CONNECTED b; I_HAPPENS (CONNECTED b)] ++ tr
  | HAPPENS LOST => tr' = [O_DISCONNECTED; I_HAPPENS LOST] ++ tr
  | HAPPENS ELSE => tr' = [I_HAPPENS ELSE] ++ tr
  | _ => True
  end.
Proof.
  intro P. destruct (before _ _ _ P) as (_ & V & R & ->). apply proper_here in R. unfold handle. rewrite (v_crash _ V). destruct o; try exact I; cbn [input allowed] in R; apply (v_alive _ V) in R.
  - unfold incoming. cbn [emit a_alive]. rewrite R. reflexivity.
  - unfold happens. cbn [emit a_alive]. rewrite R. destruct h; reflexivity.
Qed.
Print Assumptions C79_passed.

(** a subscribe that is granted and one the server refuses for good, an unsubscribe that times out, a publish the client refuses, one that is acknowledged, and two operations that are open at the termination *)
Definition a_use : list op :=
  [CALL (SUB [97]) true; HAPPENS (CONNECTED false); COMPLETE 0 (mkresult OK (Some [1])); CALL (SUB [98]) true; COMPLETE 1 (mkresult OK (Some [135])); CALL (UNSUB [97]) true; COMPLETE 2 (mkresult TIMEOUT None);
   CALL PUB false; CALL PUB true; INCOMING 5; COMPLETE 4 (mkresult OK (Some [16])); CALL PUB true; CALL (SUB [99]) true; HAPPENS LOST; TERMINATE; COMPLETE 5 (mkresult OK (Some [0]))].
Example C77_case : proper (a_out (history true a_use)) /\ rev (a_out (history true a_use)) =
  [I_CALL 0 (SUB [97]) true; I_HAPPENS (CONNECTED false); O_CONNECTED false; I_COMPLETED 0 (mkresult OK (Some [1])); O_EVENT true [97] OK true; I_CALL 1 (SUB [98]) true; I_COMPLETED 1 (mkresult OK (Some [135])); O_EVENT true [98] FAILING_REASON_CODE false;
   I_CALL 2 (UNSUB [97]) true; I_COMPLETED 2 (mkresult TIMEOUT None); O_EVENT false [97] TIMEOUT true; I_CALL 3 PUB false; O_REFUSED 3; I_CALL 4 PUB true; I_INCOMING 5; O_INCOMING 5; I_COMPLETED 4 (mkresult OK (Some [16])); O_PUBLISHED 4 OK;
   I_CALL 5 PUB true; I_CALL 6 (SUB [99]) true; I_HAPPENS LOST; O_DISCONNECTED; I_TERMINATE; O_PUBLISHED 5 SHUT_DOWN; O_TERMINATED; I_COMPLETED 5 (mkresult OK (Some [0]))].
Proof.
  split; [|vm_compute; reflexivity]. apply proper_list_ok. vm_compute. repeat split; try (intro; intuition discriminate); try (intros; intro; intuition discriminate); try (eexists; intuition reflexivity).
Qed.
(** for 3.1.1: a SUBACK that refuses, and a PUBACK *)
Example C78_three : let l := [CALL (SUB [97]) true; CALL PUB true; COMPLETE 0 (mkresult OK (Some [128]))] in proper (a_out (history false (l ++ [COMPLETE 1 (mkresult OK None)])))
  /\ a_out (history false (l ++ [COMPLETE 1 (mkresult OK None)])) = [O_PUBLISHED 1 OK; I_COMPLETED 1 (mkresult OK None); O_EVENT true [97] FAILING_REASON_CODE true; I_COMPLETED 0 (mkresult OK (Some [128])); I_CALL 1 PUB true; I_CALL 0 (SUB [97]) true].
Proof. split; [|vm_compute; reflexivity]. apply proper_list_ok. vm_compute. repeat split; try (intro; intuition discriminate); try (intros; intro; intuition discriminate); try (eexists; intuition reflexivity). Qed.
