(** The invariant of a 3.1.1 connection over an MQTT 5 client *)
From Verif Require Import Base Bridge_Model Bridge_Spec.

Fixpoint ran (tr : list event) : list N := match tr with [] => [] | T_CONNECT id :: l | T_DISCONNECT id :: l => id :: ran l | _ :: l => ran l end.
Definition tid (t : task) : N := match t with DO_CONNECT id | DO_DISCONNECT id => id end.
(** nothing has settled the connect since it was carried out *)
Fixpoint unsettled (id : N) (tr : list event) : Prop := match tr with [] => False | T_CONNECT v :: l => v = id \/ unsettled id l | e :: l => ~ settles e /\ unsettled id l end.
(** the disconnect made the client stop, and since then it has not stopped and there was no connect *)
Definition after (id : N) (tr : list event) : Prop := match tr with T_DISCONNECT v :: _ => v = id | O_COMPLETE _ _ _ :: T_DISCONNECT v :: _ => v = id | _ => False end.
Fixpoint asked (id : N) (tr : list event) : Prop := match tr with [] => False | O_STOP :: l => after id l | T_CONNECT _ :: _ | E_EVENT STOPPED :: _ => False | _ :: l => asked id l end.
Lemma unsettled_at id tr : unsettled id tr -> exists mid rest, tr = mid ++ T_CONNECT id :: rest /\ forall e, In e mid -> ~ settles e.
Proof.
  assert (G : forall e l, ~ settles e -> (exists mid rest, l = mid ++ T_CONNECT id :: rest /\ forall e, In e mid -> ~ settles e) -> exists mid rest, e :: l = mid ++ T_CONNECT id :: rest /\ forall e, In e mid -> ~ settles e).
  { intros e l A (mid & rest & -> & B). exists (e :: mid), rest. split; [reflexivity|]. intros x [<-|K]; auto. }
  induction tr as [|e l IH]; cbn; [tauto|]. intro H. assert (D : (exists v, e = T_CONNECT v /\ (v = id \/ unsettled id l)) \/ (~ settles e /\ unsettled id l)) by (destruct e; try (right; exact H); left; eexists; split; [reflexivity|exact H]).
  destruct D as [(v & -> & [->|D])|[D1 D2]]; [exists [], l; split; [reflexivity|intros x []]|apply G; [cbn; tauto|auto]|apply G; auto].
Qed.
Lemma asked_at id tr : asked id tr -> exists mid near rest, tr = mid ++ O_STOP :: near ++ T_DISCONNECT id :: rest /\ (near = [] \/ exists c e b, near = [O_COMPLETE c e b]) /\ forall e, In e mid -> e <> E_EVENT STOPPED /\ forall v, e <> T_CONNECT v.
Proof.
  assert (G : forall e l, (e <> E_EVENT STOPPED /\ forall v, e <> T_CONNECT v) -> (exists mid near rest, l = mid ++ O_STOP :: near ++ T_DISCONNECT id :: rest /\ (near = [] \/ exists c e b, near = [O_COMPLETE c e b]) /\ forall e, In e mid -> e <> E_EVENT STOPPED /\ forall v, e <> T_CONNECT v)
    -> exists mid near rest, e :: l = mid ++ O_STOP :: near ++ T_DISCONNECT id :: rest /\ (near = [] \/ exists c e b, near = [O_COMPLETE c e b]) /\ forall e, In e mid -> e <> E_EVENT STOPPED /\ forall v, e <> T_CONNECT v).
  { intros e l A (mid & near & rest & -> & B & C). exists (e :: mid), near, rest. split; [reflexivity|]. split; [exact B|]. intros x [<-|K]; auto. }
  induction tr as [|e l IH]; [intros []|]. intro H. destruct e; try (apply G; [split; [discriminate|intro; discriminate]|apply IH; exact H]); try (destruct H).
  - destruct e; try (apply G; [split; [discriminate|intro; discriminate]|apply IH; exact H]). destruct H.
  - destruct l as [|x l]; [destruct H|]. cbn in H. destruct x; try destruct H; [exists [], [], l; split; [reflexivity|]; split; [auto|intros y []]|]. destruct l as [|y l]; [destruct H|]. destruct y; try destruct H. exists [], [O_COMPLETE id0 c session], l. split; [reflexivity|]. split; [right; eauto|intros y []].
Qed.

Definition fits (e : event) (l : list event) : Prop :=
  match e with
  | O_COMPLETE id c s => reason id c s l
  | O_DISCONNECTED id => In id (leaving l)
  | O_INTERRUPTED c => on l = true /\ exists c' m, c' <> RESET_FOR_CONNECT /\ c = translate c' /\ l = E_EVENT (LOST c') :: m
  | O_RESUMED s => on l = true /\ exists m, l = O_SUCCESS s :: E_EVENT (CONNECTED s) :: m
  | _ => True
  end.
Record inv (s : state) : Prop := {
  v_on : b_phase s = STAY_CONNECTED <-> on (b_out s) = true;
  v_first : b_phase s = FIRST_CONNECT -> exists id, b_complete s = Some id /\ In id (waiting (b_out s)) /\ answers id (b_out s) = O /\ unsettled id (b_out s);
  v_ids : NoDup (map tid (b_tasks s) ++ ran (b_out s));
  v_count : forall id, In id (map tid (b_tasks s) ++ ran (b_out s)) -> id < b_count s;
  v_answers : forall id, (answers id (b_out s) <= 1)%nat /\ (~ In id (ran (b_out s)) -> answers id (b_out s) = O);
  v_waiting : forall id, In id (waiting (b_out s)) -> In id (ran (b_out s));
  v_leaving : match b_disconnect s with Some id => b_phase s = STAY_DISCONNECTED /\ leaving (b_out s) = [id] /\ farewells id (b_out s) = O /\ In id (ran (b_out s)) /\ asked id (b_out s) | None => leaving (b_out s) = [] end;
  v_farewells : forall id, (farewells id (b_out s) <= 1)%nat /\ (~ In id (ran (b_out s)) -> farewells id (b_out s) = O);
  v_each : each fits (b_out s) }.
Lemma is_reset_spec c : is_reset c = false <-> c <> RESET_FOR_CONNECT.
Proof. destruct c; cbn; split; intro; try discriminate; auto; congruence. Qed.
Lemma translate_ok c : translate c = SUCCESS -> c = SUCCESS.
Proof. destruct c; cbn; try discriminate; auto. Qed.
Lemma on_complete id c b l : on (O_COMPLETE id c b :: l) = match c with SUCCESS => true | _ => on l end.
Proof. destruct c; reflexivity. Qed.
Lemma sane_tl a b : sane (a ++ b) -> sane b.
Proof. unfold sane. rewrite in_app_iff. tauto. Qed.
(** events that change nothing of what is counted *)
Definition plain (e : event) : Prop := match e with I_CONNECT _ | I_DISCONNECT _ | I_DESIRE _ | O_CLOSED | O_SUCCESS _ | O_FAILURE _ | O_START | O_INTERRUPTED _ | O_RESUMED _ => True | E_EVENT ATTEMPTING | E_EVENT (LOST _) => True | E_EVENT (FAILED RESET_FOR_CONNECT) => True | _ => False end.
Lemma emit_plain e s : plain e -> fits e (b_out s) -> inv s -> inv (emit e s).
Proof.
  intros P F V. assert (A : on (e :: b_out s) = on (b_out s) /\ waiting (e :: b_out s) = waiting (b_out s) /\ leaving (e :: b_out s) = leaving (b_out s) /\ ran (e :: b_out s) = ran (b_out s) /\ (forall id, answers id (e :: b_out s) = answers id (b_out s)) /\ (forall id, farewells id (e :: b_out s) = farewells id (b_out s)) /\ (forall id, unsettled id (b_out s) -> unsettled id (e :: b_out s)) /\ (forall id, asked id (b_out s) -> asked id (e :: b_out s))).
  { destruct e; try destruct P; try (repeat split; cbn; auto; fail). destruct e; try destruct P; try (repeat split; cbn; auto; fail). destruct c; try destruct P. repeat split; cbn; auto. }
  destruct A as (A1 & A2 & A3 & A4 & A5 & A6 & A7 & A8). constructor; unfold emit; cbn [b_phase b_complete b_disconnect b_stopped b_tasks b_count b_out]; rewrite ?A1, ?A2, ?A3, ?A4; try apply V.
  - intro K. destruct (v_first _ V K) as (id & B1 & B2 & B3 & B4). exists id. rewrite A5. auto.
  - intro id. rewrite A5. apply V.
  - assert (K := v_leaving _ V). destruct (b_disconnect s) as [id|]; [|exact K]. rewrite A6. intuition.
  - intro id. rewrite A6. apply V.
  - split; [exact F|apply V].
Qed.
Lemma emit_event e s : b_phase s <> FIRST_CONNECT -> e <> STOPPED -> inv s -> inv (emit (E_EVENT e) s).
Proof.
  intros P F V. assert (A1 : on (E_EVENT e :: b_out s) = on (b_out s)) by (destruct e; try reflexivity; congruence). constructor; unfold emit; cbn [b_phase b_complete b_disconnect b_stopped b_tasks b_count b_out waiting leaving answers farewells ran]; rewrite ?A1; try apply V.
  - intro K. congruence.
  - assert (K := v_leaving _ V). destruct (b_disconnect s) as [id|]; [|exact K]. destruct e; try exact K. congruence.
  - split; [exact I|apply V].
Qed.
Lemma filter_out id (l : list N) v : In v (filter (fun v => negb (v =? id)) l) <-> In v l /\ v <> id.
Proof. rewrite filter_In. split; intros [A B]; split; auto; [intros ->; rewrite N.eqb_refl in B; discriminate|]. destruct (N.eqb_spec v id); [contradiction|reflexivity]. Qed.
Lemma first_none s : inv s -> b_phase s = FIRST_CONNECT -> b_disconnect s = None /\ leaving (b_out s) = [].
Proof. intros V P. assert (K := v_leaving _ V). destruct (b_disconnect s); [destruct K; congruence|auto]. Qed.
Lemma settle p id c b e x s : inv s -> b_phase s = FIRST_CONNECT -> b_complete s = Some id -> (p = STAY_CONNECTED /\ c = SUCCESS \/ p = STAY_DISCONNECTED /\ c <> SUCCESS) -> e <> STOPPED -> match x with O_SUCCESS _ | O_FAILURE _ => True | _ => False end ->
  reason id c b (x :: E_EVENT e :: b_out s) -> inv (mkstate p None (b_disconnect s) (b_stopped s) (b_tasks s) (b_count s) (O_COMPLETE id c b :: x :: E_EVENT e :: b_out s)).
Proof.
  intros V P C Q E X R. destruct (v_first _ V P) as (id' & B1 & B2 & B3 & B4). rewrite C in B1. injection B1 as <-. destruct (first_none s V P) as [D L].
  assert (O : on (b_out s) = false). { destruct (on (b_out s)) eqn:O; [|reflexivity]. apply (v_on _ V) in O. congruence. }
  assert (O' : on (x :: E_EVENT e :: b_out s) = false) by (destruct x; try destruct X; destruct e; try exact O; congruence).
  assert (W : waiting (x :: E_EVENT e :: b_out s) = waiting (b_out s) /\ leaving (x :: E_EVENT e :: b_out s) = [] /\ ran (x :: E_EVENT e :: b_out s) = ran (b_out s) /\ (forall i, answers i (x :: E_EVENT e :: b_out s) = answers i (b_out s)) /\ (forall i, farewells i (x :: E_EVENT e :: b_out s) = farewells i (b_out s))) by (destruct x; try destruct X; cbn; auto).
  destruct W as (W1 & W2 & W3 & W4 & W5). set (out := x :: E_EVENT e :: b_out s) in *.
  constructor; cbn [b_phase b_complete b_disconnect b_stopped b_tasks b_count b_out waiting leaving farewells ran]; rewrite ?W1, ?W2, ?W3; try apply V.
  - rewrite on_complete, O'. destruct Q as [[-> ->]|[-> Q]]; [tauto|]. destruct c; try congruence; split; discriminate.
  - intro K. destruct Q as [[-> _]|[-> _]]; discriminate.
  - intro i. cbn [answers]. rewrite W4. destruct (N.eqb_spec id i) as [<-|N]; [|apply V]. rewrite B3. split; [lia|]. intro K. exfalso. apply K. apply (v_waiting _ V). exact B2.
  - intros i K. apply filter_out in K. apply (v_waiting _ V). tauto.
  - rewrite D. reflexivity.
  - intro i. rewrite W5. apply V.
  - split; [exact R|]. unfold out. destruct x; try destruct X; (split; [exact I|]); (split; [exact I|]); apply V.
Qed.
Lemma stop_inv s : inv s -> inv (lifecycle_handler STOPPED (emit (E_EVENT STOPPED) s)).
Proof.
  intro V. cbn [lifecycle_handler]. unfold call_disconnect. cbn [emit b_disconnect]. assert (K := v_leaving _ V). destruct (b_disconnect s) as [id|] eqn:D.
  - destruct K as (K1 & K2 & K3 & K4 & K5). constructor; cbn [b_phase b_complete b_disconnect b_stopped b_tasks b_count b_out waiting leaving answers farewells ran set_phase set_disconnect emit on]; try apply V.
    + split; discriminate.
    + discriminate.
    + rewrite K2. cbn. rewrite N.eqb_refl. reflexivity.
    + intro i. destruct (N.eqb_spec id i) as [<-|N]; [rewrite K3; split; [lia|tauto]|apply V].
    + split; [exact I|]. split; [cbn; rewrite K2; left; reflexivity|]. split; [exact I|]. apply V.
  - constructor; cbn [b_phase b_complete b_disconnect b_stopped b_tasks b_count b_out waiting leaving answers farewells ran set_phase set_disconnect emit on]; rewrite ?D; try apply V.
    + split; discriminate.
    + discriminate.
    + exact K.
    + repeat (split; [exact I|]). apply V.
Qed.
Lemma event_inv e s : sane (E_EVENT e :: b_out s) -> inv s -> inv (lifecycle_handler e (emit (E_EVENT e) s)).
Proof.
  intros S V. destruct e.
  - cbn [lifecycle_handler]. destruct (b_phase s) eqn:P; cbn [emit b_phase]; rewrite P.
    + destruct (v_first _ V P) as (id & B1 & B2 & _). unfold call_complete. cbn [emit b_complete]. rewrite B1. apply (settle STAY_CONNECTED id SUCCESS session (CONNECTED session) (O_SUCCESS session) s V P B1); [auto|discriminate|exact I|]. split; [exact B2|]. left. split; [reflexivity|]. eauto.
    + assert (W : inv (emit (O_SUCCESS session) (emit (E_EVENT (CONNECTED session)) s))) by (apply emit_plain; [exact I|exact I|]; apply emit_event; [congruence|discriminate|exact V]). apply emit_plain; [exact I| |exact W]. split; [|eexists; reflexivity]. apply (v_on _ W). exact P.
    + apply emit_event; [congruence|discriminate|exact V].
  - cbn [lifecycle_handler]. destruct (is_reset c) eqn:R; [destruct c; try discriminate; apply emit_plain; [exact I|exact I|exact V]|]. apply is_reset_spec in R. destruct (b_phase s) eqn:P; cbn [emit b_phase]; rewrite P.
    + destruct (v_first _ V P) as (id & B1 & B2 & _). unfold call_complete. cbn [emit b_complete]. rewrite B1. apply (settle STAY_DISCONNECTED id (translate c) false (FAILED c) (O_FAILURE (translate c)) s V P B1); [|discriminate|exact I|].
      * right. split; [reflexivity|]. intro K. apply translate_ok in K. subst c. apply S. left. reflexivity.
      * split; [exact B2|]. right. right. right. exists c. eauto.
    + apply emit_plain; [exact I|exact I|]. apply emit_event; [congruence|discriminate|exact V].
    + apply emit_event; [congruence|discriminate|exact V].
  - assert (W : inv (emit (E_EVENT (LOST c)) s)) by (apply emit_plain; [exact I|exact I|exact V]). cbn [lifecycle_handler]. destruct (b_phase s) eqn:P; cbn [emit b_phase]; rewrite P; try exact W. destruct (is_reset c) eqn:R; [exact W|]. apply is_reset_spec in R. apply emit_plain; [exact I| |exact W]. split; [apply (v_on _ W); exact P|]. exists c, (b_out s). split; [exact R|]. split; reflexivity.
  - apply stop_inv. exact V.
  - apply emit_plain; [exact I|exact I|exact V].
Qed.
(** the task that runs *)
Lemma move (t : N) l r : NoDup ((t :: l) ++ r) -> NoDup (l ++ t :: r) /\ ~ In t (l ++ r).
Proof. intro H. split; [|inversion H; assumption]. apply NoDup_Add with (a := t) (l := l ++ r); [apply Add_app|]. inversion H; auto. Qed.
Lemma connect_inv id l s : b_tasks s = DO_CONNECT id :: l -> inv s -> inv (connect_handler id (emit (T_CONNECT id) (mkstate (b_phase s) (b_complete s) (b_disconnect s) (b_stopped s) l (b_count s) (b_out s)))).
Proof.
  intros T V. assert (I1 := v_ids _ V). rewrite T in I1. cbn [map tid] in I1. destruct (move _ _ _ I1) as [I2 I3]. assert (R : ~ In id (ran (b_out s))) by (intro K; apply I3, in_app_iff; auto).
  assert (CT : forall i, In i (map tid l ++ id :: ran (b_out s)) -> i < b_count s) by (intros i K; apply (v_count _ V); rewrite T; cbn [map tid]; apply in_app_iff in K; cbn [app In]; rewrite in_app_iff; cbn in K; tauto).
  assert (NW : ~ In id (waiting (b_out s))) by (intro K; apply R, (v_waiting _ V), K).
  assert (AN : answers id (b_out s) = O) by (apply (v_answers _ V); exact R).
  unfold connect_handler. cbn [emit b_phase]. assert (PL := v_leaving _ V). destruct (b_phase s) eqn:P.
  - destruct (v_first _ V P) as (id0 & B1 & B2 & B3 & B4). destruct (first_none s V P) as [D L]. assert (N : id <> id0) by (intros ->; contradiction).
    constructor; cbn [b_phase b_complete b_disconnect b_stopped b_tasks b_count b_out waiting leaving answers farewells ran emit on]; rewrite ?P; try assumption; try apply V.
    + assert (K := v_on _ V). rewrite P in K. exact K.
    + intros _. exists id0. split; [exact B1|]. split; [apply filter_out; cbn; auto|]. destruct (N.eqb_spec id id0); [contradiction|]. split; [exact B3|]. cbn. tauto.
    + intro i. destruct (N.eqb_spec id i) as [<-|]; [rewrite AN; cbn; split; [lia|tauto]|]. destruct (v_answers _ V i) as [K1 K2]. split; [exact K1|]. cbn. tauto.
    + intros i K. apply filter_out in K. cbn in K |- *. destruct K as [[K|K] M]; [congruence|]. right. apply (v_waiting _ V), K.
    + rewrite D. exact L.
    + intro i. destruct (v_farewells _ V i) as [K1 K2]. split; [exact K1|]. cbn. tauto.
    + cbn. split; [|split; [exact I|apply V]]. split; [left; reflexivity|]. right. left. split; [reflexivity|]. split; [reflexivity|]. exists (b_out s). split; [reflexivity|]. right. intro K. rewrite K in B2. exact B2.
  - destruct (b_disconnect s) as [d|] eqn:D; [destruct PL; congruence|].
    constructor; cbn [b_phase b_complete b_disconnect b_stopped b_tasks b_count b_out waiting leaving answers farewells ran emit on]; rewrite ?P, ?D; try assumption; try apply V.
    + assert (K := v_on _ V). rewrite P in K. exact K.
    + discriminate.
    + intro i. destruct (N.eqb_spec id i) as [<-|]; [rewrite AN; cbn; split; [lia|tauto]|]. destruct (v_answers _ V i) as [K1 K2]. split; [exact K1|]. cbn. tauto.
    + intros i K. apply filter_out in K. cbn in K |- *. destruct K as [[K|K] M]; [congruence|]. right. apply (v_waiting _ V), K.
    + intro i. destruct (v_farewells _ V i) as [K1 K2]. split; [exact K1|]. cbn. tauto.
    + cbn. split; [|split; [exact I|apply V]]. split; [left; reflexivity|]. right. left. split; [reflexivity|]. split; [reflexivity|]. exists (b_out s). split; [reflexivity|]. left. apply (v_on _ V). exact P.
  - assert (O : on (b_out s) = false). { destruct (on (b_out s)) eqn:O; [|reflexivity]. apply (v_on _ V) in O. congruence. }
    unfold call_disconnect. cbn [emit b_disconnect]. destruct (b_disconnect s) as [d|] eqn:D.
    + destruct PL as (_ & L & F & G & H). assert (N : d <> id) by (intros ->; contradiction).
      constructor; cbn [b_phase b_complete b_disconnect b_stopped b_tasks b_count b_out waiting leaving answers farewells ran emit on set_complete set_stopped set_phase set_disconnect]; try assumption; try apply V.
      * rewrite O. split; discriminate.
      * intros _. exists id. split; [reflexivity|]. split; [left; reflexivity|]. split; [exact AN|]. cbn. repeat split; auto.
      * intro i. destruct (v_answers _ V i) as [K1 K2]. split; [exact K1|]. cbn. tauto.
      * intros i [<-|K]; [left; reflexivity|right; apply (v_waiting _ V), K].
      * rewrite L. cbn. rewrite N.eqb_refl. reflexivity.
      * intro i. destruct (v_farewells _ V i) as [K1 K2]. destruct (N.eqb_spec d i) as [<-|]; [rewrite F; split; [lia|cbn; tauto]|]. split; [exact K1|]. cbn. tauto.
      * split; [exact I|]. split; [cbn; rewrite L; left; reflexivity|]. split; [exact I|]. apply V.
    + constructor; cbn [b_phase b_complete b_disconnect b_stopped b_tasks b_count b_out waiting leaving answers farewells ran emit on set_complete set_stopped set_phase set_disconnect]; try assumption; try apply V.
      * rewrite O. split; discriminate.
      * intros _. exists id. split; [reflexivity|]. split; [left; reflexivity|]. split; [exact AN|]. cbn. repeat split; auto.
      * intro i. destruct (v_answers _ V i) as [K1 K2]. split; [exact K1|]. cbn. tauto.
      * intros i [<-|K]; [left; reflexivity|right; apply (v_waiting _ V), K].
      * intro i. destruct (v_farewells _ V i) as [K1 K2]. split; [exact K1|]. cbn. tauto.
      * repeat (split; [exact I|]). apply V.
Qed.
Lemma disconnect_inv id l s : b_tasks s = DO_DISCONNECT id :: l -> inv s -> inv (disconnect_handler id (emit (T_DISCONNECT id) (mkstate (b_phase s) (b_complete s) (b_disconnect s) (b_stopped s) l (b_count s) (b_out s)))).
Proof.
  intros T V. assert (I1 := v_ids _ V). rewrite T in I1. cbn [map tid] in I1. destruct (move _ _ _ I1) as [I2 I3]. assert (R : ~ In id (ran (b_out s))) by (intro K; apply I3, in_app_iff; auto).
  assert (CT : forall i, In i (map tid l ++ id :: ran (b_out s)) -> i < b_count s) by (intros i K; apply (v_count _ V); rewrite T; cbn [map tid]; apply in_app_iff in K; cbn [app In]; rewrite in_app_iff; cbn in K; tauto).
  assert (FN : farewells id (b_out s) = O) by (apply (v_farewells _ V); exact R).
  assert (AN : forall i, (answers i (b_out s) <= 1)%nat /\ (~ In i (id :: ran (b_out s)) -> answers i (b_out s) = O)) by (intro i; destruct (v_answers _ V i); split; [assumption|cbn; tauto]).
  assert (FA : forall i, (farewells i (b_out s) <= 1)%nat /\ (~ In i (id :: ran (b_out s)) -> farewells i (b_out s) = O)) by (intro i; destruct (v_farewells _ V i); split; [assumption|cbn; tauto]).
  assert (WA : forall i, In i (waiting (b_out s)) -> In i (id :: ran (b_out s))) by (intros i K; right; apply (v_waiting _ V), K).
  unfold disconnect_handler. cbn [emit b_phase]. assert (PL := v_leaving _ V). destruct (b_phase s) eqn:P.
  - destruct (v_first _ V P) as (id0 & B1 & B2 & B3 & B4). destruct (first_none s V P) as [D L]. unfold call_complete. cbn [emit b_complete]. rewrite B1. cbn [set_phase set_complete emit b_stopped]. assert (A0 : forall i, ((if N.eqb id0 i then S (answers i (b_out s)) else answers i (b_out s)) <= 1)%nat /\ (~ In i (id :: ran (b_out s)) -> (if N.eqb id0 i then S (answers i (b_out s)) else answers i (b_out s)) = O)).
    { intro i. destruct (N.eqb_spec id0 i) as [<-|]; [|apply AN]. rewrite B3. split; [lia|]. intro K. exfalso. apply K. right. apply (v_waiting _ V), B2. }
    assert (E0 : each fits (O_COMPLETE id0 SHUTDOWN false :: T_DISCONNECT id :: b_out s)). { split; [split; [exact B2|right; right; left; eauto]|]. split; [exact I|apply V]. }
    destruct (b_stopped s) eqn:St.
    + constructor; cbn [b_phase b_complete b_disconnect b_stopped b_tasks b_count b_out waiting leaving answers farewells ran emit on set_complete set_stopped set_phase set_disconnect]; rewrite ?D; try assumption.
      * split; discriminate.
      * discriminate.
      * intros i K. apply filter_out in K. apply WA. tauto.
      * rewrite L. cbn. rewrite N.eqb_refl. reflexivity.
      * intro i. destruct (N.eqb_spec id i) as [<-|]; [rewrite FN; split; [lia|cbn; tauto]|apply FA].
      * split; [exact I|]. split; [left; reflexivity|]. exact E0.
    + constructor; cbn [b_phase b_complete b_disconnect b_stopped b_tasks b_count b_out waiting leaving answers farewells ran emit on set_complete set_stopped set_phase set_disconnect]; rewrite ?D; try assumption.
      * split; discriminate.
      * discriminate.
      * intros i K. apply filter_out in K. apply WA. tauto.
      * rewrite L. split; [reflexivity|]. split; [reflexivity|]. split; [exact FN|]. split; [left; reflexivity|]. reflexivity.
      * split; [exact I|]. exact E0.
  - destruct (b_disconnect s) as [d|] eqn:D; [destruct PL; congruence|]. cbn [set_phase emit b_stopped]. assert (E0 : each fits (T_DISCONNECT id :: b_out s)) by (split; [exact I|apply V]).
    destruct (b_stopped s) eqn:St.
    + constructor; cbn [b_phase b_complete b_disconnect b_stopped b_tasks b_count b_out waiting leaving answers farewells ran emit on set_complete set_stopped set_phase set_disconnect]; rewrite ?D; try assumption.
      * split; discriminate.
      * discriminate.
      * rewrite PL. cbn. rewrite N.eqb_refl. reflexivity.
      * intro i. destruct (N.eqb_spec id i) as [<-|]; [rewrite FN; split; [lia|cbn; tauto]|apply FA].
      * split; [exact I|]. split; [left; reflexivity|]. exact E0.
    + constructor; cbn [b_phase b_complete b_disconnect b_stopped b_tasks b_count b_out waiting leaving answers farewells ran emit on set_complete set_stopped set_phase set_disconnect]; rewrite ?D; try assumption.
      * split; discriminate.
      * discriminate.
      * rewrite PL. split; [reflexivity|]. split; [reflexivity|]. split; [exact FN|]. split; [left; reflexivity|]. reflexivity.
      * split; [exact I|]. exact E0.
  - constructor; cbn [b_phase b_complete b_disconnect b_stopped b_tasks b_count b_out waiting leaving answers farewells ran emit on]; rewrite ?P; try assumption.
    + split; discriminate.
    + discriminate.
    + destruct (b_disconnect s) as [d|] eqn:D.
      * destruct PL as (_ & L & F & G & H). assert (N : d <> id) by (intros ->; contradiction). rewrite L. cbn. rewrite N.eqb_refl. cbn. destruct (N.eqb_spec d id); [contradiction|]. cbn. destruct (N.eqb_spec id d); [congruence|]. auto 10.
      * rewrite PL. cbn. rewrite N.eqb_refl. reflexivity.
    + intro i. destruct (N.eqb_spec id i) as [<-|]; [rewrite FN; split; [lia|cbn; tauto]|apply FA].
    + split; [left; reflexivity|]. split; [exact I|]. apply V.
Qed.
Lemma api_inv t s x : (forall i, x = I_CONNECT i \/ x = I_DISCONNECT i -> True) -> plain x -> fits x (b_out s) -> tid t = b_count s -> inv s -> inv (mkstate (b_phase s) (b_complete s) (b_disconnect s) (b_stopped s) (b_tasks s ++ [t]) (b_count s + 1) (x :: b_out s)).
Proof.
  intros _ P F T V. assert (W := emit_plain x s P F V). destruct W as [W1 W2 W3 W4 W5 W6 W7 W8 W9]. unfold emit in *. cbn [b_phase b_complete b_disconnect b_stopped b_tasks b_count b_out] in *. constructor; cbn [b_phase b_complete b_disconnect b_stopped b_tasks b_count b_out]; try assumption.
  - rewrite map_app. cbn [map]. rewrite <- app_assoc. apply NoDup_Add with (a := tid t) (l := map tid (b_tasks s) ++ ran (x :: b_out s)); [apply Add_app|]. split; [exact W3|]. intro K. apply W4 in K. lia.
  - intros i K. rewrite map_app, <- app_assoc in K. apply in_app_iff in K. cbn [map app In] in K. destruct K as [K|[K|K]]; [|subst i; lia|]; enough (i < b_count s) by lia; apply W4, in_app_iff; auto.
Qed.
Lemma handle_inv o s : sane (b_out (handle s o)) -> inv s -> inv (handle s o).
Proof.
  intros S V. destruct o.
  - apply api_inv; try exact I; auto.
  - apply api_inv; try exact I; auto.
  - cbn [handle] in *. destruct (b_tasks s) as [|[id|id] l] eqn:T; [exact V|apply connect_inv; assumption|apply disconnect_inv; assumption].
  - apply event_inv; [|exact V]. unfold sane. intros [K|K].
    + injection K as ->. apply S. cbn. destruct (b_phase s); cbn; auto. unfold call_complete. cbn. destruct (b_complete s); cbn; auto.
    + apply S. assert (G : forall e s, exists x, b_out (lifecycle_handler e s) = x ++ b_out s).
      { clear. intros e s. destruct e; cbn.
        - destruct (b_phase s); [unfold call_complete; cbn; destruct (b_complete s); cbn; [eexists [_; _]|eexists [_]]; reflexivity|eexists [_; _]; reflexivity|exists []; reflexivity].
        - destruct (is_reset c); [exists []; reflexivity|]. destruct (b_phase s); [unfold call_complete; cbn; destruct (b_complete s); cbn; [eexists [_; _]|eexists [_]]; reflexivity|eexists [_]; reflexivity|exists []; reflexivity].
        - destruct (b_phase s); try (exists []; reflexivity). destruct (is_reset c); [exists []|eexists [_]]; reflexivity.
        - unfold call_disconnect. destruct (b_disconnect s); cbn; [eexists [_; _]|eexists [_]]; reflexivity.
        - exists []. reflexivity. }
      cbn [handle]. destruct (G e (emit (E_EVENT e) s)) as [x ->]. apply in_app_iff. right. right. exact K.
  - apply (emit_plain (I_DESIRE stop) (set_stopped stop s)); [exact I|exact I|]. destruct V. constructor; assumption.
Qed.
Lemma lifecycle_grows e s : exists x, b_out (lifecycle_handler e s) = x ++ b_out s.
Proof.
  destruct e; cbn.
  - destruct (b_phase s); [unfold call_complete; cbn; destruct (b_complete s); cbn; [eexists [_; _]|eexists [_]]; reflexivity|eexists [_; _]; reflexivity|exists []; reflexivity].
  - destruct (is_reset c); [exists []; reflexivity|]. destruct (b_phase s); [unfold call_complete; cbn; destruct (b_complete s); cbn; [eexists [_; _]|eexists [_]]; reflexivity|eexists [_]; reflexivity|exists []; reflexivity].
  - destruct (b_phase s); try (exists []; reflexivity). destruct (is_reset c); [exists []|eexists [_]]; reflexivity.
  - unfold call_disconnect. destruct (b_disconnect s); cbn; [eexists [_; _]|eexists [_]]; reflexivity.
  - exists []. reflexivity.
Qed.
Lemma handle_grows s o : exists x, b_out (handle s o) = x ++ b_out s.
Proof.
  destruct o; cbn [handle].
  - eexists [_]; reflexivity.
  - eexists [_]; reflexivity.
  - destruct (b_tasks s) as [|[id|id] l]; [exists []; reflexivity| |].
    + unfold connect_handler. cbn [emit b_phase]. destruct (b_phase s); [eexists [_; _]; reflexivity|eexists [_; _]; reflexivity|]. unfold call_disconnect. cbn. destruct (b_disconnect s); cbn; [eexists [_; _; _]|eexists [_; _]]; reflexivity.
    + unfold disconnect_handler. cbn [emit b_phase]. destruct (b_phase s).
      * unfold call_complete. cbn. destruct (b_complete s); cbn; destruct (b_stopped s); cbn; [eexists [_; _; _; _]|eexists [_; _; _]|eexists [_; _; _]|eexists [_; _]]; reflexivity.
      * cbn. destruct (b_stopped s); cbn; [eexists [_; _; _]|eexists [_; _]]; reflexivity.
      * eexists [_; _]; reflexivity.
  - destruct (lifecycle_grows e (emit (E_EVENT e) s)) as [x ->]. exists (x ++ [E_EVENT e]). rewrite <- app_assoc. reflexivity.
  - eexists [_]; reflexivity.
Qed.
Lemma initial_inv b : inv (initial b).
Proof. constructor; cbn; try tauto; try (split; discriminate); try discriminate; try constructor; auto. Qed.
Lemma history_inv b l : sane (b_out (history b l)) -> inv (history b l).
Proof.
  induction l as [|o l IH] using rev_ind; intro S; [apply initial_inv|]. unfold history in *. rewrite fold_left_app in *. cbn [fold_left] in *. apply handle_inv; [exact S|]. apply IH. destruct (handle_grows (fold_left handle l (initial b)) o) as [x E]. rewrite E in S. exact (sane_tl _ _ S).
Qed.
(** what waits if nobody else stops the client *)
Definition one (s : state) : Prop := waiting (b_out s) = match b_phase s with FIRST_CONNECT => match b_complete s with Some id => [id] | None => [] end | _ => [] end.
Lemma undisturbed_tl a b : undisturbed (a ++ b) -> undisturbed b.
Proof. intros H later earlier ->. apply (H (a ++ later)). apply app_assoc. Qed.
Lemma handle_one o s : inv s -> undisturbed (b_out (handle s o)) -> one s -> one (handle s o).
Proof.
  intros V U W. unfold one in *. destruct o; cbn [handle] in *; try exact W.
  - destruct (b_tasks s) as [|[id|id] l] eqn:T; [exact W| |].
    + unfold connect_handler. cbn [emit b_phase]. assert (I1 := v_ids _ V). rewrite T in I1. cbn [map tid] in I1. destruct (move _ _ _ I1) as [_ I3]. assert (NW : ~ In id (waiting (b_out s))) by (intro K; apply I3, in_app_iff; right; apply (v_waiting _ V), K).
      destruct (b_phase s) eqn:P; cbn; rewrite ?P.
      * destruct (v_first _ V P) as (id0 & B1 & B2 & _). rewrite B1 in *. rewrite W in *. cbn in *. rewrite N.eqb_refl. cbn. destruct (N.eqb_spec id0 id); [exfalso; auto|reflexivity].
      * rewrite W, N.eqb_refl. reflexivity.
      * unfold call_disconnect. cbn. destruct (b_disconnect s); cbn; rewrite W; reflexivity.
    + unfold disconnect_handler. cbn [emit b_phase]. destruct (b_phase s) eqn:P.
      * destruct (v_first _ V P) as (id0 & B1 & _). rewrite B1 in W. unfold call_complete. cbn. rewrite B1. cbn. destruct (b_stopped s); cbn; rewrite W; cbn; rewrite N.eqb_refl; reflexivity.
      * cbn. destruct (b_stopped s); cbn; exact W.
      * cbn. rewrite ?P. exact W.
  - destruct e; cbn [lifecycle_handler] in *.
    + destruct (b_phase s) eqn:P; cbn [emit b_phase] in *; rewrite ?P.
      * destruct (v_first _ V P) as (id0 & B1 & _). rewrite B1 in W. unfold call_complete. cbn. rewrite B1. cbn. rewrite W. cbn. rewrite N.eqb_refl. reflexivity.
      * cbn. rewrite ?P. exact W.
      * cbn. rewrite ?P. exact W.
    + destruct (is_reset c); [exact W|]. destruct (b_phase s) eqn:P; cbn [emit b_phase] in *; rewrite ?P.
      * destruct (v_first _ V P) as (id0 & B1 & _). rewrite B1 in W. unfold call_complete. cbn. rewrite B1. cbn. rewrite W. cbn. rewrite N.eqb_refl. reflexivity.
      * cbn. rewrite ?P. exact W.
      * cbn. rewrite ?P. exact W.
    + destruct (b_phase s) eqn:P; cbn [emit b_phase] in *; rewrite ?P; [cbn; rewrite ?P; exact W| |cbn; rewrite ?P; exact W]. destruct (is_reset c); cbn; rewrite ?P; exact W.
    + assert (K : waiting (b_out s) = []). { unfold call_disconnect in U. cbn in U. destruct (b_disconnect s); cbn in U; [apply (U [O_CLOSED; O_DISCONNECTED n])|apply (U [O_CLOSED])]; reflexivity. }
      unfold call_disconnect. cbn. destruct (b_disconnect s); cbn; exact K.
    + exact W.
Qed.
Lemma history_one b l : sane (b_out (history b l)) -> undisturbed (b_out (history b l)) -> one (history b l).
Proof.
  induction l as [|o l IH] using rev_ind; intros S U; [reflexivity|]. unfold history in *. rewrite fold_left_app in *. cbn [fold_left] in *. destruct (handle_grows (fold_left handle l (initial b)) o) as [x E]. assert (S' := S). assert (U' := U). rewrite E in S', U'. apply sane_tl in S'. apply undisturbed_tl in U'. apply handle_one; [apply (history_inv b l S')|exact U|apply IH; assumption].
Qed.
Lemma each_at tr : each fits tr -> forall later e earlier, tr = later ++ e :: earlier -> fits e earlier.
Proof. intros H later. revert tr H. induction later as [|y later IH]; intros tr H e l ->; destruct H as [A B]; [exact A|exact (IH _ B _ _ eq_refl)]. Qed.
Lemma waiting_in id tr : In id (waiting tr) -> In (T_CONNECT id) tr.
Proof. induction tr as [|e t IH]; cbn; [tauto|]. destruct e; try (intro K; right; apply IH; exact K). - intros [->|K]; [left; reflexivity|right; apply IH; exact K]. - intro K. apply filter_out in K. right. apply IH. tauto. Qed.
Lemma leaving_in id tr : In id (leaving tr) -> In (T_DISCONNECT id) tr.
Proof. induction tr as [|e t IH]; cbn; [tauto|]. destruct e; try (intro K; right; apply IH; exact K). - intros [->|K]; [left; reflexivity|right; apply IH; exact K]. - intro K. apply filter_out in K. right. apply IH. tauto. Qed.
Lemma answers_in id tr : each fits tr -> ~ In (T_CONNECT id) tr -> answers id tr = O.
Proof. induction tr as [|e t IH]; [reflexivity|]. intros [F E] N. cbn in N. assert (K : answers id t = O) by (apply IH; tauto). destruct e; try exact K. cbn. destruct (N.eqb_spec id0 id) as [->|]; [|exact K]. exfalso. apply N. right. apply waiting_in, F. Qed.
Lemma farewells_in id tr : each fits tr -> ~ In (T_DISCONNECT id) tr -> farewells id tr = O.
Proof. induction tr as [|e t IH]; [reflexivity|]. intros [F E] N. cbn in N. assert (K : farewells id t = O) by (apply IH; tauto). destruct e; try exact K. cbn. destruct (N.eqb_spec id0 id) as [->|]; [|exact K]. exfalso. apply N. right. apply leaving_in, F. Qed.
