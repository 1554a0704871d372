(** A client that stop() does not stop. *)
From Verif Require Import Base Mqtt5_Views Negotiated_Model TopicAlias_Model Encoder5_Model RateLimiter_Model Client5_State Client5_Model Client5_Spec Client5_Timing_Spec
  Client5_Wakeup Client5_Examples.

Lemma blocked_state : let s := client_history cf1 1 blocked in c_crash s = None /\ normal_b cf1 (c_out s) = true /\ desired s = D_STOPPED /\ current s = CLEAN_DISCONNECT /\
  run_at s = 0 /\ chan s = CH_UP /\ outstanding s = false.
Proof. vm_compute. repeat split. Qed.
Lemma blocked_stop : exists ev d, In (ev, EStop d) blocked.
Proof. exists (at_ 1010), (Some ex_disconnect). unfold blocked. apply in_or_app. right. left. reflexivity. Qed.
Lemma stuck cf s l : run_at s = 0 -> chan s = CH_UP -> outstanding s = false ->
  (forall ev e, In (ev, e) l -> e = EService \/ exists err, e = EWritten err \/ e = ESetup err) -> fold_left (client_step cf) l s = s.
Proof.
  intros R C W H. induction l as [|[ev e] l IH]; [reflexivity|]. cbn [fold_left].
  assert (client_step cf s (ev, e) = s) as ->.
  { unfold client_step. destruct (c_crash s); [reflexivity|]. assert (enabled ev e s = false) as ->; [|rewrite orb_true_r; reflexivity].
    destruct (H ev e (or_introl eq_refl)) as [->|(err & [-> | ->])]; cbn [enabled]; rewrite ?R, ?C, ?W; reflexivity. }
  apply IH. intros ev' e' Hi. apply (H ev' e'). right. exact Hi.
Qed.
Lemma history_app cf now0 l l' : client_history cf now0 (l ++ l') = fold_left (client_step cf) l' (client_history cf now0 l).
Proof. unfold client_history, client_run. apply fold_left_app. Qed.
Lemma blocked_forever : exists cf now0 l, let s := client_history cf now0 l in
  c_crash s = None /\ normal cf (c_out s) /\ (exists ev d, In (ev, EStop d) l) /\ desired s = D_STOPPED /\ current s <> STOPPED /\
  forall l', (forall ev e, In (ev, e) l' -> e = EService \/ exists err, e = EWritten err \/ e = ESetup err) -> client_history cf now0 (l ++ l') = s.
Proof.
  exists cf1, 1, blocked. cbv zeta. destruct blocked_state as (H1 & H2 & H3 & H4 & H5 & H6 & H7). split; [exact H1|]. split; [apply normal_ok; exact H2|]. split; [exact blocked_stop|]. split; [exact H3|].
  split; [rewrite H4; discriminate|]. intros l' H. rewrite history_app. apply stuck; assumption.
Qed.
