(** What is observed of the request-response client: one thing per step, and hence an invariant about what has been observed holds at every moment. *)
From Verif Require Import Base Split TopicAlias_Model TopicAlias_Proofs SubSet_Model Topic_Model Paths RR_Model RR_Spec RR_Steps RR_Decomp RR_Subs RR_Flights RR_Kinds.
From Coq Require Import Permutation.

Definition quiet (x : out) : Prop := match x with O_MESSAGE _ _ _ | I_MESSAGE _ _ _ => True | _ => False end.
Definition emitted (l : list out) : Prop := l = [] \/ (exists x, l = [x]) \/ (exists topic payload j l', l = l' ++ [I_MESSAGE topic payload j] /\ Forall (is_message topic payload) l').
Lemma wake_out now s : c_out (wake now s) = c_out s.
Proof. unfold wake. destruct (active _); [|reflexivity]. destruct (_ || _); reflexivity. Qed.
Lemma fail_out id e s : c_out (fail id e s) = c_out s \/ exists x, c_out (fail id e s) = x :: c_out s.
Proof.
  unfold fail. destruct (get_op id s) as [o|]; [|auto]. unfold complete, halt. destruct (o_kind o).
  - destruct (state_is _ _); [auto|]. right. eexists. reflexivity.
  - destruct (_ || _); [auto|]. right. eexists. reflexivity.
Qed.
Lemma listen_out k id s f : c_out (listen k id s f) = c_out s.
Proof. unfold listen. destruct (get_sub f s); reflexivity. Qed.
Lemma unlisten_out id s f : c_out (unlisten id s f) = c_out s.
Proof. unfold unlisten. destruct (get_sub f s); [|reflexivity]. destruct (filter _ _); [|reflexivity]. unfold status. destruct (active _); reflexivity. Qed.
Lemma unlisten_frame id s f : sig (unlisten id s f) = sig s /\ c_ops (unlisten id s f) = c_ops s /\ c_flights (unlisten id s f) = c_flights s /\ c_phase (unlisten id s f) = c_phase s /\ c_tokens (unlisten id s f) = c_tokens s /\ c_paths (unlisten id s f) = c_paths s /\
   c_queue (unlisten id s f) = c_queue s /\ c_streams (unlisten id s f) = c_streams s /\ c_publishes (unlisten id s f) = c_publishes s /\ c_next (unlisten id s f) = c_next s.
Proof. unfold unlisten. destruct (get_sub f s); [|repeat split]. destruct (filter _ _); [|repeat split]. unfold status. destruct (active _); repeat split. Qed.
Lemma listen_frame k id s f : sig (listen k id s f) = sig s /\ c_ops (listen k id s f) = c_ops s /\ c_flights (listen k id s f) = c_flights s /\ c_phase (listen k id s f) = c_phase s /\ c_tokens (listen k id s f) = c_tokens s /\ c_paths (listen k id s f) = c_paths s /\
   c_queue (listen k id s f) = c_queue s /\ c_streams (listen k id s f) = c_streams s /\ c_publishes (listen k id s f) = c_publishes s /\ c_next (listen k id s f) = c_next s /\ c_events (listen k id s f) = c_events s.
Proof. unfold listen. destruct (get_sub f s); repeat split. Qed.
Lemma submitted_out id now s : c_out (submitted id now s) = I_QUEUED id :: c_out s.
Proof. unfold submitted. cbn [release upd_op set_ops c_out]. rewrite wake_out. reflexivity. Qed.
Lemma add_tables_out o s : c_out (add_tables o s) = c_out s.
Proof. apply add_tables_frame. Qed.
Lemma untabled_out o s : c_out (untabled o s) = c_out s.
Proof. apply untabled_frame. Qed.
Lemma streamed_out topic payload s : exists l, c_out (streamed topic payload s) = l ++ c_out s /\ Forall (is_message topic payload) l.
Proof. destruct (streamed_emits topic payload s) as (l & -> & H). exists l. auto. Qed.
Lemma big_out cf g s g' s' : big cf (g, s) (g', s') -> exists l, c_out s' = l ++ c_out s /\ emitted l.
Proof.
  intros B. assert (E0 : c_out s' = c_out s -> exists l, c_out s' = l ++ c_out s /\ emitted l) by (intros H; exists []; split; [exact H|left; reflexivity]).
  assert (E1 : forall x, c_out s' = x :: c_out s -> exists l, c_out s' = l ++ c_out s /\ emitted l) by (intros x H; exists [x]; split; [exact H|right; left; eauto]).
  inversion B as [x y P|s0 Ha Hs|s0 Hp Ho He Hu]; subst; try (eapply E1; reflexivity).
  clear B. inversion P; subst; try (apply E0; reflexivity); try (eapply E1; reflexivity).
  - unfold create in *. rewrite H4 in *. eapply E1. reflexivity.
  - eapply E1. apply submitted_out.
  - destruct (fail_out (o_id o) E_TIMEOUT (upd_op (o_id o) (set_timed false) s)) as [H|[x H]]; [apply E0, H|eapply E1, H].
  - apply E0, listen_out.
  - apply E0, add_tables_out.
  - apply E0, wake_out.
  - destruct (o_state o); eapply E1; reflexivity.
  - destruct (streamed_out topic payload (emit (I_MESSAGE topic payload j) s)) as (l & H & Hl). cbn [emit c_out] in H. exists (l ++ [I_MESSAGE topic payload j]). split; [rewrite H, <- app_assoc; reflexivity|]. right. right. eauto 10.
  - apply E0, unlisten_out.
  - eapply E1. cbn [emit c_out]. rewrite untabled_out. reflexivity.
Qed.
(** whatever holds of the observations in all reachable states holds of all that was ever observed *)
Lemma at_all_times cf (R : ghost -> client -> Prop) (Q : list out -> Prop) connected : R IDLE (client_new connected) -> (forall g s g' s', R g s -> big cf (g, s) (g', s') -> R g' s') ->
  (forall g s, R g s -> Q (c_out s)) -> (forall x l, Q l -> quiet x -> Q (x :: l)) -> forall l l1 l2, c_out (history cf connected l) = l1 ++ l2 -> Q l2.
Proof.
  intros H0 HR HQ Hq l. apply (history_inv cf (fun g s => R g s /\ forall l1 l2, c_out s = l1 ++ l2 -> Q l2)).
  - split; [exact H0|]. intros l1 l2 H. change (c_out (client_new connected)) with (@nil out) in H. symmetry in H. apply app_eq_nil in H as [_ ->]. apply (HQ IDLE _ H0).
  - intros g s g' s' [R1 R2] B. pose proof (HR _ _ _ _ R1 B) as R1'. split; [exact R1'|]. destruct (big_out cf g s g' s' B) as (m & Hm & He). intros l1 l2 H. rewrite Hm in H.
    assert (QS : Q (c_out s)) by (apply (HQ g s R1)).
    assert (K : forall m' l1 l2, m' ++ c_out s = l1 ++ l2 -> (exists a, c_out s = a ++ l2) \/ (exists a b, m' = a ++ b /\ l2 = b ++ c_out s)).
    { clear. induction m' as [|x m' IH]; intros l1 l2 H; [left; exists l1; exact H|]. destruct l1 as [|y l1]; [right; exists [], (x :: m'); auto|]. injection H as -> H. destruct (IH _ _ H) as [K|(a & b & -> & ->)]; [left; exact K|]. right. exists (y :: a), b. auto. }
    destruct (K m l1 l2 H) as [(a & Ha)|(a & b & -> & ->)]; [eapply R2; eassumption|].
    destruct He as [He|[[x He]|(topic & payload & j & l' & He & Hf)]].
    + apply app_eq_nil in He as [_ ->]. exact QS.
    + destruct b as [|y b]; [exact QS|]. destruct a as [|z a]; [|injection He as _ He; destruct a; discriminate]. cbn [app] in *. rewrite <- Hm. apply (HQ _ _ R1').
    + assert (Hall : Forall quiet (a ++ b)). { rewrite He. apply Forall_app. split; [|constructor; [exact I|constructor]]. eapply Forall_impl; [|exact Hf]. intros x (id & ->). exact I. }
      apply Forall_app in Hall as [_ Hb]. clear - QS Hq Hb. induction Hb as [|x b Hx _ IH]; [exact QS|]. cbn [app]. apply Hq; assumption.
Qed.
Lemma at_all_times_trace cf (R : ghost -> client -> Prop) (Q : list out -> Prop) connected : R IDLE (client_new connected) -> (forall g s g' s', R g s -> big cf (g, s) (g', s') -> R g' s') ->
  (forall g s, R g s -> Q (trace s)) -> (forall x l, Q l -> quiet x -> Q (l ++ [x])) -> forall l tr1 tr2, trace (history cf connected l) = tr1 ++ tr2 -> Q tr1.
Proof.
  intros H0 HR HQ Hq l tr1 tr2 H. rewrite <- (rev_involutive tr1). apply (at_all_times cf R (fun l => Q (rev l)) connected H0 HR) with (l := l) (l1 := rev tr2).
  - intros g s. apply HQ.
  - intros x l0 K Kq. cbn [rev]. apply Hq; assumption.
  - unfold trace in H. apply (f_equal (@rev _)) in H. rewrite rev_involutive, rev_app_distr in H. exact H.
Qed.
