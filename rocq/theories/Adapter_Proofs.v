(** The invariant of the protocol adapter *)
From Verif Require Import Base Adapter_Model Adapter_Spec.

Lemma error_eqb_spec a b : error_eqb a b = true <-> a = b.
Proof. destruct a, b; cbn; split; intro H; try discriminate; auto; [apply N.eqb_eq in H; congruence|injection H as ->; apply N.eqb_refl]. Qed.
Lemma error_eqb_false a b : error_eqb a b = false <-> a <> b.
Proof. destruct (error_eqb a b) eqn:E; split; intro H; try discriminate; auto. - apply error_eqb_spec in E. congruence. - intro K. apply error_eqb_spec in K. congruence. Qed.
Lemma one_good_spec r : one_good r = true <-> exists c, r_codes r = Some [c] /\ c < 128.
Proof.
  unfold one_good. destruct (r_codes r) as [[|c [|d l]]|]; split; try discriminate; try (intros (c' & K & _); discriminate).
  - intro H. exists c. split; [reflexivity|]. lia.
  - intros (c' & K & L). injection K as ->. lia.
Qed.
Lemma report_sub five f r : result_of five (SUB f) r -> reported (granted r) r (sub_error five r).
Proof.
  intro R. unfold sub_error, reported, granted. destruct (error_eqb (r_error r) OK) eqn:E; [apply error_eqb_spec in E|apply error_eqb_false in E; right; left; tauto]. destruct five.
  - destruct (one_good r) eqn:G; [apply one_good_spec in G; tauto|]. right. right. split; [|auto]. intros [_ K]. apply one_good_spec in K. congruence.
  - destruct R as [R|[c R]]; [discriminate|]. unfold first_code. rewrite R. destruct (128 <=? c) eqn:L; [right; right; split; [|auto]; intros [_ (c' & K & M)]; injection K as ->; lia|]. left. split; [|auto]. split; [auto|]. exists c. split; [reflexivity|lia].
Qed.
Lemma report_unsub r : reported (granted r) r (unsub_error true r).
Proof.
  unfold unsub_error, reported, granted. cbn. destruct (error_eqb (r_error r) OK) eqn:E; [apply error_eqb_spec in E|apply error_eqb_false in E; right; left; tauto].
  destruct (one_good r) eqn:G; [apply one_good_spec in G; tauto|]. right. right. split; [|auto]. intros [_ K]. apply one_good_spec in K. congruence.
Qed.
Lemma report_pub five r : result_of five PUB r -> reported (sent five r) r (pub_error five r).
Proof.
  intro R. unfold pub_error, reported, sent. destruct (error_eqb (r_error r) OK) eqn:E; [apply error_eqb_spec in E|apply error_eqb_false in E; rewrite andb_false_r; right; left; tauto]. destruct five; cbn; [|left; split; [split; [auto|discriminate]|auto]].
  unfold first_code. destruct R as [R|[c R]]; rewrite R; cbn; [left; split; [split; [auto|discriminate]|reflexivity]|]. destruct (128 <=? c) eqn:L.
  - right. right. split; [|auto]. intros [_ K]. specialize (K eq_refl c eq_refl). lia.
  - left. split; [|auto]. split; [auto|]. intros _ c' K. injection K as ->. lia.
Qed.
Lemma worth_sub_spec five r : sub_retryable five r = true <-> worth_sub five r.
Proof.
  unfold sub_retryable, worth_sub. destruct five; cbn [negb]; [|tauto]. destruct (error_eqb (r_error r) PACKET_VALIDATION) eqn:A; [apply error_eqb_spec in A; split; [discriminate|intros [K|(K & _)]; [discriminate|congruence]]|]. destruct (error_eqb (r_error r) SUBSCRIBE_VALIDATION) eqn:B; [apply error_eqb_spec in B; split; [discriminate|intros [K|(_ & K & _)]; [discriminate|congruence]]|].
  apply error_eqb_false in A, B. cbn [orb]. destruct (error_eqb (r_error r) OK) eqn:C; cbn [negb].
  - apply error_eqb_spec in C. rewrite existsb_exists. unfold first_code. split.
    + intros (x & I & K). right. split; [auto|]. split; [auto|]. intros _ c l E. rewrite E in K. apply N.eqb_eq in K. subst x. cbn in *. intuition.
    + intros [K|(_ & _ & K)]; [discriminate|]. destruct (r_codes r) as [[|c l]|]; [exists 0; cbn; auto| |exists 0; cbn; auto]. exists c. split; [specialize (K C c l eq_refl); cbn in *; intuition|apply N.eqb_refl].
  - apply error_eqb_false in C. split; [|reflexivity]. intros _. right. tauto.
Qed.
Lemma worth_unsub_spec five r : unsub_retryable five r = true <-> worth_unsub five r.
Proof.
  unfold unsub_retryable, worth_unsub. destruct five; cbn [negb].
  - destruct (error_eqb (r_error r) PACKET_VALIDATION) eqn:A; [apply error_eqb_spec in A; split; [discriminate|intros [K|(_ & K & _)]; congruence]|]. destruct (error_eqb (r_error r) UNSUBSCRIBE_VALIDATION) eqn:B; [apply error_eqb_spec in B; split; [discriminate|intros [K|(_ & _ & K & _)]; congruence]|].
    apply error_eqb_false in A, B. cbn [orb]. destruct (error_eqb (r_error r) TIMEOUT) eqn:C; [apply error_eqb_spec in C; tauto|]. apply error_eqb_false in C. rewrite existsb_exists. unfold first_code. split.
    + intros (x & I & K). right. split; [auto|]. split; [auto|]. split; [auto|]. apply N.eqb_eq in K. subst x. destruct (r_codes r) as [[|c l]|]; cbn in I; try (intuition discriminate). exists c, l. intuition.
    + intros [K|(_ & _ & _ & c & l & E & K)]; [congruence|]. exists c. rewrite E. split; [cbn; intuition|apply N.eqb_refl].
  - rewrite error_eqb_spec. split; [auto|]. intros [K|(K & _)]; [auto|discriminate].
Qed.

Record inv (s : state) : Prop := {
  v_crash : a_crash s = false;
  v_alive : a_alive s = true <-> ~ In O_TERMINATED (a_out s);
  v_data : forall id, match a_data s id with Some d => In (id, d_kind d) (open (a_out s)) /\ d_adapter d = a_alive s | None => ~ In id (map fst (open (a_out s))) end;
  v_list : a_list s = if a_alive s then map fst (open (a_out s)) else [];
  v_nodup : NoDup (map fst (open (a_out s)));
  v_calls : forall id k b, In (I_CALL id k b) (a_out s) -> id < a_count s;
  v_one : forall id k b k' b', In (I_CALL id k b) (a_out s) -> In (I_CALL id k' b') (a_out s) -> k = k' /\ b = b';
  v_link : forall id k, In (id, k) (open (a_out s)) <-> In (I_CALL id k true) (a_out s) /\ forall r, ~ In (I_COMPLETED id r) (a_out s);
  v_done : forall id r, In (I_COMPLETED id r) (a_out s) -> exists k, In (I_CALL id k true) (a_out s);
  v_pubs : forall id, (In (id, PUB) (open (a_out s)) -> a_alive s = true -> calls id (a_out s) = O)
    /\ (In (I_CALL id PUB true) (a_out s) -> ~ In (id, PUB) (open (a_out s)) \/ a_alive s = false -> calls id (a_out s) = 1%nat)
    /\ (~ In (I_CALL id PUB true) (a_out s) -> calls id (a_out s) = O) }.
Lemma proper_app a b : proper (a ++ b) -> proper b.
Proof. intros H later e before ->. apply (H (a ++ later) e before). apply app_assoc. Qed.
Lemma proper_here e l : proper (e :: l) -> allowed e l.
Proof. intro H. exact (H [] e l eq_refl). Qed.
Lemma open_in id k tr : In (id, k) (open tr) -> In id (map fst (open tr)). Proof. apply (in_map fst). Qed.
Lemma nodup_app_one (l : list N) x : NoDup l -> ~ In x l -> NoDup (l ++ [x]).
Proof. intros N H. induction N as [|y l K N IH]; cbn; [constructor; [tauto|constructor]|]. constructor; [|apply IH; cbn in H; tauto]. rewrite in_app_iff. cbn in *. intuition. Qed.
Lemma fst_filter id (l : list (N * kind)) : map fst (filter (fun p => negb (fst p =? id)) l) = filter (fun v => negb (v =? id)) (map fst l).
Proof. induction l as [|[v k] l IH]; cbn; [reflexivity|]. destruct (v =? id); cbn; rewrite IH; reflexivity. Qed.
Lemma filter_id id (l : list N) : ~ In id l -> filter (fun v => negb (v =? id)) l = l.
Proof. induction l as [|x l IH]; cbn; intro H; [reflexivity|]. destruct (N.eqb_spec x id) as [->|]; [exfalso; auto|]. cbn. rewrite IH; auto. Qed.

Lemma call_inv k taken s : inv s -> proper (a_out (call k taken s)) -> inv (call k taken s).
Proof.
  intros V P. assert (A : a_alive s = true).
  { apply V. assert (Q : proper (I_CALL (a_count s) k taken :: a_out s)). { unfold call in P. destruct (negb (a_alive s)); [exact P|]. destruct taken; [exact P|]. exact (proper_app [O_REFUSED (a_count s)] _ P). } exact (proper_here _ _ Q). }
  assert (F : forall k b, ~ In (I_CALL (a_count s) k b) (a_out s)) by (intros k0 b K; apply (v_calls _ V) in K; lia).
  assert (O : ~ In (a_count s) (map fst (open (a_out s)))). { intro K. apply in_map_iff in K. destruct K as ([x k0] & E & K). cbn in E. subst x. apply (v_link _ V) in K. exact (F _ _ (proj1 K)). }
  assert (D : forall r, ~ In (I_COMPLETED (a_count s) r) (a_out s)) by (intros r K; apply (v_done _ V) in K; destruct K as [k0 K]; exact (F _ _ K)).
  unfold call. rewrite A. cbn [negb]. destruct taken.
  - constructor; cbn [a_crash a_alive a_list a_data a_count a_out open].
    + apply V.
    + split; [intros _ [K|K]; [discriminate|exact (proj1 (v_alive _ V) A K)]|reflexivity].
    + intro id. unfold put. destruct (N.eqb_spec id (a_count s)) as [->|N].
      * cbn. split; [apply in_app_iff; cbn; auto|reflexivity].
      * assert (G := v_data _ V id). destruct (a_data s id) as [d|]; [rewrite in_app_iff; rewrite A in G; tauto|]. rewrite map_app, in_app_iff. cbn. intuition.
    + rewrite (v_list _ V), A, map_app. reflexivity.
    + rewrite map_app. apply nodup_app_one; [apply V|exact O].
    + intros id k0 b [K|K]; [injection K as <- _ _; lia|apply (v_calls _ V) in K; lia].
    + intros id k0 b k' b' [K|K] [L|L]; try discriminate; [split; congruence|exfalso; injection K as E1 E2 E3; rewrite <- E1 in L; exact (F _ _ L)|exfalso; injection L as E1 E2 E3; rewrite <- E1 in K; exact (F _ _ K)|exact (v_one _ V _ _ _ _ _ K L)].
    + intros id k0. rewrite in_app_iff, (v_link _ V). cbn. split.
      * intros [[K L]|[K|[]]]; [split; [auto|intros r [M|M]; [discriminate|exact (L r M)]]|]. injection K as <- <-. split; [auto|]. intros r [M|M]; [discriminate|exact (D r M)].
      * intros [[K|K] L]; [right; left; congruence|]. left. split; [exact K|]. intros r M. apply (L r). auto.
    + intros id r [K|K]; [discriminate|]. apply (v_done _ V) in K. destruct K as [k0 K]. exists k0. right. exact K.
    + intro id. destruct (v_pubs _ V id) as (A1 & A2 & A3). cbn [calls]. split; [|split].
      * intros K _. apply in_app_iff in K. destruct K as [K|[K|[]]]; [auto|]. injection K as <- ->. apply A3. apply F.
      * intros K [L|L]; [|congruence]. destruct K as [K|K]; [exfalso; injection K as <- ->; apply L, in_app_iff; cbn; auto|]. apply A2; [exact K|]. left. intro M. apply L, in_app_iff. auto.
      * intro K. apply A3. intro M. apply K. right. exact M.
  - unfold destroy, emit. cbn [a_crash a_alive a_list a_data a_count a_out]. constructor; cbn [a_crash a_alive a_list a_data a_count a_out open].
    + apply V.
    + split; [intros _ [K|[K|K]]; [discriminate|discriminate|exact (proj1 (v_alive _ V) A K)]|auto].
    + intro id. unfold put. assert (G := v_data _ V id). destruct (N.eqb_spec id (a_count s)) as [->|N]; [exact O|]. rewrite A in G. destruct (a_data s id); exact G.
    + rewrite filter_app. cbn. rewrite N.eqb_refl. cbn. rewrite app_nil_r, (v_list _ V), A. apply filter_id. exact O.
    + apply V.
    + intros id k0 b [K|[K|K]]; [discriminate|injection K as <- _ _; lia|apply (v_calls _ V) in K; lia].
    + intros id k0 b k' b' [K|[K|K]] [L|[L|L]]; try discriminate; try discriminate; [split; congruence|exfalso; injection K as E1 E2 E3; rewrite <- E1 in L; exact (F _ _ L)|exfalso; injection L as E1 E2 E3; rewrite <- E1 in K; exact (F _ _ K)|exact (v_one _ V _ _ _ _ _ K L)].
    + intros id k0. rewrite (v_link _ V). cbn. split.
      * intros [K L]. split; [auto|]. intros r [M|[M|M]]; [discriminate|discriminate|exact (L r M)].
      * intros [[K|[K|K]] L]; [discriminate|discriminate|]. split; [exact K|]. intros r M. apply (L r). auto.
    + intros id r [K|[K|K]]; [discriminate|discriminate|]. apply (v_done _ V) in K. destruct K as [k0 K]. exists k0. cbn. auto.
    + intro id. destruct (v_pubs _ V id) as (A1 & A2 & A3). cbn [calls]. rewrite A in *. split; [|split].
      * auto.
      * intros [K|[K|K]] L; [discriminate|discriminate|auto].
      * intro K. apply A3. intro M. apply K. cbn. auto.
Qed.

(** events that matter to nobody *)
Lemma plain_inv s e : inv s -> match e with I_INCOMING _ | I_HAPPENS _ | O_INCOMING _ | O_CONNECTED _ | O_DISCONNECTED | I_TERMINATE | O_EVENT _ _ _ _ => True | _ => False end -> inv (emit e s).
Proof.
  intros V E. assert (X : forall x, x <> e -> In x (e :: a_out s) <-> In x (a_out s)) by (intros x N; cbn; split; [intros [K|K]; [congruence|exact K]|auto]).
  assert (C : forall id k b, I_CALL id k b <> e) by (intros id k b K; subst e; exact E). assert (D : forall id r, I_COMPLETED id r <> e) by (intros id r K; subst e; exact E). assert (T : O_TERMINATED <> e) by (intro K; subst e; exact E).
  assert (O : open (e :: a_out s) = open (a_out s)) by (destruct e; try destruct E; reflexivity). assert (Q : forall id, calls id (e :: a_out s) = calls id (a_out s)) by (intro id; destruct e; try destruct E; reflexivity).
  constructor; unfold emit; cbn [a_crash a_alive a_list a_data a_count a_out]; rewrite ?O; try apply V.
  - rewrite X by exact T. apply V.
  - intros id k b. rewrite X by apply C. apply V.
  - intros id k b k' b'. rewrite !X by apply C. apply V.
  - intros id k. rewrite X by apply C. rewrite (v_link _ V). split; intros [K L]; split; auto; intros r M; apply (L r); [rewrite X in M by apply D|rewrite X by apply D]; exact M.
  - intros id r. rewrite X by apply D. intro K. apply (v_done _ V) in K. destruct K as [k K]. exists k. right. exact K.
  - intro id. rewrite Q, X by apply C. apply V.
Qed.

Lemma complete_inv five id r s : inv s -> proper (I_COMPLETED id r :: a_out s) -> inv (complete five id r (emit (I_COMPLETED id r) s)) /\
  exists k, In (I_CALL id k true) (a_out s) /\ (a_alive s = false -> a_out (complete five id r (emit (I_COMPLETED id r) s)) = I_COMPLETED id r :: a_out s)
    /\ (a_alive s = true -> a_out (complete five id r (emit (I_COMPLETED id r) s)) = match k with SUB f => O_EVENT true f (sub_error five r) (sub_retryable five r) | UNSUB f => O_EVENT false f (unsub_error five r) (unsub_retryable five r) | PUB => O_PUBLISHED id (pub_error five r) end :: I_COMPLETED id r :: a_out s).
Proof.
  intros V P. apply proper_here in P. destruct P as [[k K] N]. assert (O : In (id, k) (open (a_out s))) by (apply (v_link _ V); auto). assert (G := v_data _ V id). unfold complete. cbn [emit a_data a_alive]. destruct (a_data s id) as [d|]; [|destruct (G (open_in _ _ _ O))]. destruct G as [G1 G2].
  assert (E : d_kind d = k) by (apply (v_link _ V) in G1; destruct (v_one _ V _ _ _ _ _ (proj1 G1) K); assumption). rewrite E, G2. clear d G1 G2 E.
  set (x := match k with SUB f => O_EVENT true f (sub_error five r) (sub_retryable five r) | UNSUB f => O_EVENT false f (unsub_error five r) (unsub_retryable five r) | PUB => O_PUBLISHED id (pub_error five r) end).
  set (out := if a_alive s then x :: I_COMPLETED id r :: a_out s else I_COMPLETED id r :: a_out s).
  assert (Y : destroy id (if a_alive s then if a_alive s then match k with SUB f => emit (O_EVENT true f (sub_error five r) (sub_retryable five r)) (emit (I_COMPLETED id r) s) | UNSUB f => emit (O_EVENT false f (unsub_error five r) (unsub_retryable five r)) (emit (I_COMPLETED id r) s) | PUB => emit (O_PUBLISHED id (pub_error five r)) (emit (I_COMPLETED id r) s) end else crash (emit (I_COMPLETED id r) s) else emit (I_COMPLETED id r) s)
    = mkstate (a_alive s) (filter (fun v => negb (v =? id)) (a_list s)) (put id None (a_data s)) (a_count s) out (a_crash s)) by (unfold out, x; destruct (a_alive s) eqn:A; [destruct k|]; unfold destroy, emit; cbn; rewrite ?A; reflexivity).
  cbn [emit] in Y |- *. rewrite Y. clear Y. split.
  2:{ exists k. split; [exact K|]. unfold out. split; intro A; cbn; rewrite A; reflexivity. }
  assert (Xc : forall i k b, I_CALL i k b <> x) by (intros; unfold x; destruct k; discriminate). assert (Xd : forall i r, I_COMPLETED i r <> x) by (intros; unfold x; destruct k; discriminate). assert (Xt : O_TERMINATED <> x) by (unfold x; destruct k; discriminate).
  assert (Ic : forall i k b, In (I_CALL i k b) out <-> In (I_CALL i k b) (a_out s)) by (intros i k0 b; unfold out; destruct (a_alive s); cbn; split; auto; intros [M|M]; try discriminate M; auto; [exfalso; exact (Xc _ _ _ (eq_sym M))|destruct M as [M|M]; [discriminate|exact M]]).
  assert (It : In O_TERMINATED out <-> In O_TERMINATED (a_out s)) by (unfold out; destruct (a_alive s); cbn; split; auto; intros [M|M]; try discriminate M; auto; [exfalso; exact (Xt (eq_sym M))|destruct M as [M|M]; [discriminate|exact M]]).
  assert (Id : forall i q, In (I_COMPLETED i q) out <-> (i = id /\ q = r) \/ In (I_COMPLETED i q) (a_out s)).
  { intros i q. unfold out. destruct (a_alive s); cbn; split.
    - intros [M|[M|M]]; [exfalso; exact (Xd _ _ (eq_sym M))|injection M as <- <-; auto|auto].
    - intros [[-> ->]|M]; auto.
    - intros [M|M]; [injection M as <- <-; auto|auto].
    - intros [[-> ->]|M]; auto. }
  assert (Oo : open out = filter (fun p => negb (fst p =? id)) (open (a_out s))) by (unfold out, x; destruct (a_alive s) eqn:A; [destruct k|]; unfold destroy, emit; cbn; rewrite ?A; reflexivity).
  constructor; cbn [a_crash a_alive a_list a_data a_count a_out].
  - apply V.
  - rewrite It. apply V.
  - intro i. rewrite Oo, fst_filter. unfold put. assert (G := v_data _ V i). destruct (N.eqb_spec i id) as [->|M]; [rewrite filter_In, N.eqb_refl; cbn; intros [_ L]; discriminate|]. destruct (a_data s i) as [d|].
    + rewrite filter_In. cbn. destruct (N.eqb_spec i id); [congruence|]. cbn. tauto.
    + rewrite filter_In. tauto.
  - rewrite Oo, fst_filter, (v_list _ V). destruct (a_alive s); reflexivity.
  - rewrite Oo, fst_filter. apply NoDup_filter, V.
  - intros i k0 b M. apply Ic in M. exact (v_calls _ V _ _ _ M).
  - intros i k0 b k' b' M L. apply Ic in M, L. exact (v_one _ V _ _ _ _ _ M L).
  - intros i k0. rewrite Oo, filter_In, Ic, (v_link _ V). cbn. split.
    + intros [[A B] C]. split; [exact A|]. intros q M. apply Id in M. destruct M as [[-> _]|M]; [rewrite N.eqb_refl in C; discriminate|exact (B q M)].
    + intros [A B]. split; [split; [exact A|intros q M; apply (B q), Id; auto]|]. destruct (N.eqb_spec i id) as [->|]; [exfalso; apply (B r), Id; auto|reflexivity].
  - intros i q M. apply Id in M. destruct M as [[-> ->]|M]; [exists k; apply Ic; exact K|]. apply (v_done _ V) in M. destruct M as [k0 M]. exists k0. apply Ic. exact M.
  - intro i. rewrite Oo, Ic. destruct (v_pubs _ V i) as (A1 & A2 & A3). assert (Q : calls i out = if a_alive s then match k with PUB => if id =? i then S (calls i (a_out s)) else calls i (a_out s) | _ => calls i (a_out s) end else calls i (a_out s)) by (unfold out, x; destruct (a_alive s) eqn:A; [destruct k|]; unfold destroy, emit; cbn; rewrite ?A; reflexivity).
    rewrite Q. clear Q. destruct (N.eqb_spec id i) as [<-|M].
    + assert (U : forall k', In (I_CALL id k' true) (a_out s) -> k' = k) by (intros k' U; exact (proj1 (v_one _ V _ _ _ _ _ U K))). split; [|split].
      * intro B. apply filter_In in B. cbn in B. rewrite N.eqb_refl in B. destruct B; discriminate.
      * intros B _. apply U in B. subst k. destruct (a_alive s) eqn:A; [rewrite A1; auto|auto].
      * intro B. destruct k; [| |exfalso; auto]; destruct (a_alive s); auto.
    + assert (W : forall b : bool, (if b then match k with PUB => calls i (a_out s) | _ => calls i (a_out s) end else calls i (a_out s)) = calls i (a_out s)) by (intros [|]; [destruct k|]; reflexivity). rewrite W. split; [|split].
      * intros B. apply filter_In in B. apply A1, B.
      * intros B [C|C]; apply A2; auto. left. intro L. apply C, filter_In. split; [exact L|]. cbn. destruct (N.eqb_spec i id); [congruence|reflexivity].
      * exact A3.
Qed.

(** termination *)
Definition pubs_of (l : list (N * kind)) : list N := flat_map (fun p => match snd p with PUB => [fst p] | _ => [] end) l.
Lemma release_all_eq l : forall s, NoDup (map fst l) -> (forall id k, In (id, k) l -> exists a, a_data s id = Some (mkdata k a)) ->
  let s' := release_all (map fst l) s in
  a_alive s' = a_alive s /\ a_list s' = a_list s /\ a_count s' = a_count s /\ a_crash s' = a_crash s /\ a_out s' = rev (map (fun id => O_PUBLISHED id SHUT_DOWN) (pubs_of l)) ++ a_out s
  /\ forall id, (forall k, In (id, k) l -> a_data s' id = Some (mkdata k false)) /\ (~ In id (map fst l) -> a_data s' id = a_data s id).
Proof.
  induction l as [|[id k] l IH]; intros s N H; cbn [map fst release_all].
  - cbn. repeat split; auto. intros k [].
  - inversion N; subst. destruct (H id k (or_introl eq_refl)) as [a E]. rewrite E. cbn [d_kind].
    set (s1 := match k with PUB => emit (O_PUBLISHED id SHUT_DOWN) _ | _ => _ end).
    assert (D : a_data s1 = put id (Some (mkdata k false)) (a_data s)) by (unfold s1; destruct k; reflexivity). assert (F : a_alive s1 = a_alive s /\ a_list s1 = a_list s /\ a_count s1 = a_count s /\ a_crash s1 = a_crash s) by (unfold s1; destruct k; auto).
    assert (O : a_out s1 = match k with PUB => [O_PUBLISHED id SHUT_DOWN] | _ => [] end ++ a_out s) by (unfold s1; destruct k; reflexivity). clearbody s1.
    destruct (IH s1 H3) as (B1 & B2 & B3 & B4 & B5 & B6).
    { intros i k' K. rewrite D. unfold put. destruct (N.eqb_spec i id) as [->|]; [exfalso; apply H2; apply (in_map fst) in K; exact K|]. apply H. right. exact K. }
    destruct F as (F1 & F2 & F3 & F4). rewrite B1, B2, B3, B4, B5, O, F1, F2, F3, F4. repeat split; auto.
    + cbn. destruct k; cbn; auto. rewrite <- app_assoc. reflexivity.
    + intros k' [K|K]; [injection K as -> ->; rewrite (proj2 (B6 id0) H2), D; unfold put; rewrite N.eqb_refl; reflexivity|apply B6; exact K].
    + intro K. cbn in K. rewrite (proj2 (B6 id0)) by tauto. rewrite D. unfold put. destruct (N.eqb_spec id0 id) as [->|]; [exfalso; auto|reflexivity].
Qed.
Lemma pubs_of_in id l : In id (pubs_of l) <-> In (id, PUB) l.
Proof. unfold pubs_of. rewrite in_flat_map. split. - intros ([i k] & K & L). destruct k; cbn in L; try tauto. destruct L as [->|[]]. exact K. - intro K. exists (id, PUB). cbn. auto. Qed.
Lemma pubs_of_nodup l : NoDup (map fst l) -> NoDup (pubs_of l).
Proof. induction l as [|[i k] l IH]; cbn; intro N; [constructor|]. inversion N; subst. destruct k; cbn; auto. constructor; [|auto]. intro K. apply pubs_of_in in K. apply H1. apply (in_map fst) in K. exact K. Qed.
Lemma calls_app id a b : calls id (a ++ b) = (calls id a + calls id b)%nat.
Proof. induction a as [|e a IH]; cbn; [reflexivity|]. destruct e; auto. destruct (id0 =? id); cbn; rewrite IH; reflexivity. Qed.
Lemma calls_map id l : NoDup l -> calls id (rev (map (fun id => O_PUBLISHED id SHUT_DOWN) l)) = if existsb (N.eqb id) l then 1%nat else O.
Proof.
  induction 1 as [|x l K N IH]; [reflexivity|]. cbn [map rev existsb]. rewrite calls_app, IH. cbn. rewrite (N.eqb_sym x id). destruct (N.eqb_spec id x) as [->|]; cbn; [|lia].
  replace (existsb (N.eqb x) l) with false; [reflexivity|]. symmetry. apply not_true_is_false. intro E. apply existsb_exists in E. destruct E as (y & I & E). apply N.eqb_eq in E. subst y. auto.
Qed.
Lemma terminate_inv s : inv s -> proper (I_TERMINATE :: a_out s) -> inv (terminate (emit I_TERMINATE s)) /\
  a_out (terminate (emit I_TERMINATE s)) = O_TERMINATED :: rev (map (fun id => O_PUBLISHED id SHUT_DOWN) (pubs_of (open (a_out s)))) ++ I_TERMINATE :: a_out s.
Proof.
  intros V0 P. apply proper_here in P. assert (V := plain_inv s I_TERMINATE V0 I). assert (A : a_alive s = true) by (apply V0; exact P). unfold terminate. set (t := emit I_TERMINATE s) in *. change (a_alive s) with (a_alive t) in A. rewrite A. cbn [negb]. cbv zeta. rewrite (v_list _ V), A.
  change (open (a_out s)) with (open (a_out t)). set (s0 := mkstate true [] (a_data t) (a_count t) (a_out t) (a_crash t)).
  assert (H : forall id k, In (id, k) (open (a_out t)) -> exists a, a_data s0 id = Some (mkdata k a)).
  { intros id k K. assert (G := v_data _ V id). cbn [s0 a_data]. change (a_data s0 id) with (a_data t id). destruct (a_data t id) as [[dk da]|]; [|destruct (G (open_in _ _ _ K))]. destruct G as [G _]. cbn in G. exists da. apply (v_link _ V) in G, K. destruct (v_one _ V _ _ _ _ _ (proj1 G) (proj1 K)) as [-> _]. reflexivity. }
  destruct (release_all_eq (open (a_out t)) s0 (v_nodup _ V) H) as (B1 & B2 & B3 & B4 & B5 & B6). set (s1 := release_all (map fst (open (a_out t))) s0) in *. cbn [emit a_out]. split; [|rewrite B5; reflexivity].
  set (ps := rev (map (fun id => O_PUBLISHED id SHUT_DOWN) (pubs_of (open (a_out t))))) in *.
  assert (X : forall x, (forall i e, x <> O_PUBLISHED i e) -> x <> O_TERMINATED -> In x (O_TERMINATED :: a_out s1) <-> In x (a_out t)).
  { intros x K L. rewrite B5. cbn [In]. rewrite in_app_iff. split; [|auto]. intros [M|[M|M]]; [congruence| |exact M]. unfold ps in M. apply in_rev in M. apply in_map_iff in M. destruct M as (i & M & _). destruct (K i SHUT_DOWN). auto. }
  assert (Oo : open (O_TERMINATED :: a_out s1) = open (a_out t)). { rewrite B5. cbn [open]. unfold ps. rewrite <- map_rev. induction (rev (pubs_of (open (a_out t)))) as [|y l IH]; [reflexivity|exact IH]. }
  constructor; unfold emit; cbn [a_crash a_alive a_list a_data a_count a_out].
  - rewrite B4. apply V.
  - split; [discriminate|]. intro K. exfalso. apply K. left. reflexivity.
  - intro id. rewrite Oo. destruct (in_dec N.eq_dec id (map fst (open (a_out t)))) as [K|K].
    + apply in_map_iff in K. destruct K as ([i k] & E & K). cbn in E. subst i. rewrite (proj1 (B6 id) k K). cbn. auto.
    + rewrite (proj2 (B6 id) K). change (a_data s0 id) with (a_data t id). assert (G := v_data _ V id). destruct (a_data t id) as [d|]; [exfalso; apply K; apply (open_in _ _ _ (proj1 G))|exact G].
  - rewrite B2. reflexivity.
  - rewrite Oo. apply V.
  - intros id k b K. rewrite B3. rewrite X in K by discriminate. exact (v_calls _ V _ _ _ K).
  - intros id k b k' b' K L. rewrite X in K, L by discriminate. exact (v_one _ V _ _ _ _ _ K L).
  - intros id k. rewrite Oo, X by discriminate. rewrite (v_link _ V). split; intros [K L]; (split; [exact K|]); intros r M; apply (L r); [rewrite X in M by discriminate|rewrite X by discriminate]; exact M.
  - intros id r K. rewrite X in K by discriminate. apply (v_done _ V) in K. destruct K as [k K]. exists k. rewrite X by discriminate. exact K.
  - intro id. rewrite Oo, X by discriminate. destruct (v_pubs _ V id) as (A1 & A2 & A3). rewrite B5. cbn [calls]. rewrite calls_app. unfold ps. rewrite calls_map by (apply pubs_of_nodup, V). change (a_out s0) with (a_out t).
    assert (E : existsb (N.eqb id) (pubs_of (open (a_out t))) = true <-> In (id, PUB) (open (a_out t))). { rewrite existsb_exists, <- pubs_of_in. split; [intros (y & I & K); apply N.eqb_eq in K; congruence|intro K; exists id; split; [exact K|apply N.eqb_refl]]. }
    split; [discriminate|]. destruct (existsb (N.eqb id) (pubs_of (open (a_out t)))) eqn:Q.
    + assert (K : In (id, PUB) (open (a_out t))) by tauto. split; [intros _ _; rewrite A1; auto|]. intro L. exfalso. apply L. apply (v_link _ V) in K. tauto.
    + assert (K : ~ In (id, PUB) (open (a_out t))) by (intro K; apply E in K; discriminate). split; [intros L _; rewrite A2; auto|]. intro L. rewrite A3; auto.
Qed.

Lemma grows five s o : exists x, a_out (handle five s o) = x ++ a_out s.
Proof.
  assert (R : forall l s, exists x, a_out (release_all l s) = x ++ a_out s).
  { clear. induction l as [|id l IH]; intro s; [exists []; reflexivity|]. cbn [release_all]. destruct (a_data s id) as [d|]; [|exists []; reflexivity]. cbv zeta. match goal with |- context [release_all l ?y] => destruct (IH y) as [x E] end. rewrite E. destruct (d_kind d); [exists x; reflexivity|exists x; reflexivity|exists (x ++ [O_PUBLISHED id SHUT_DOWN]); rewrite <- app_assoc; reflexivity]. }
  unfold handle. destruct (a_crash s); [exists []; reflexivity|]. destruct o.
  - unfold call. destruct (negb (a_alive s)); [exists [I_CALL (a_count s) k taken]; reflexivity|]. destruct taken; [exists [I_CALL (a_count s) k true]|exists [O_REFUSED (a_count s); I_CALL (a_count s) k false]]; reflexivity.
  - unfold complete. cbn [emit a_data a_alive]. destruct (a_data s id) as [d|]; [|exists [I_COMPLETED id r]; reflexivity]. cbv zeta. destruct (d_adapter d); [|exists [I_COMPLETED id r]; reflexivity]. destruct (a_alive s); [|exists [I_COMPLETED id r]; reflexivity].
    destruct (d_kind d); eexists [_; I_COMPLETED id r]; reflexivity.
  - unfold incoming. cbn [emit a_alive]. destruct (negb (a_alive s)); [exists [I_INCOMING m]|exists [O_INCOMING m; I_INCOMING m]]; reflexivity.
  - unfold happens. cbn [emit a_alive]. destruct (negb (a_alive s)); [exists [I_HAPPENS h]; reflexivity|]. destruct h; [exists [O_CONNECTED session; I_HAPPENS (CONNECTED session)]|exists [O_DISCONNECTED; I_HAPPENS LOST]|exists [I_HAPPENS ELSE]]; reflexivity.
  - unfold terminate. cbn [emit a_alive]. destruct (negb (a_alive s)); [exists [I_TERMINATE]; reflexivity|]. cbv zeta. cbn [emit a_out]. match goal with |- context [release_all ?l ?y] => destruct (R l y) as [x E] end. rewrite E. exists (O_TERMINATED :: x ++ [I_TERMINATE]). cbn. rewrite <- app_assoc. reflexivity.
Qed.
(** what the event handed in is *)
Definition input (s : state) (o : op) : event := match o with CALL k b => I_CALL (a_count s) k b | COMPLETE id r => I_COMPLETED id r | INCOMING m => I_INCOMING m | HAPPENS h => I_HAPPENS h | TERMINATE => I_TERMINATE end.
Lemma grows_input five s o : a_crash s = false -> exists x, a_out (handle five s o) = x ++ input s o :: a_out s.
Proof.
  intro C. destruct o.
  - unfold handle. rewrite C. unfold call. destruct (negb (a_alive s)); [exists []; reflexivity|]. destruct taken; [exists []|exists [O_REFUSED (a_count s)]]; reflexivity.
  - unfold handle. rewrite C. unfold complete. cbn [emit a_data a_alive]. destruct (a_data s id) as [d|]; [|exists []; reflexivity]. cbv zeta. destruct (d_adapter d); [|exists []; reflexivity]. destruct (a_alive s); [|exists []; reflexivity]. destruct (d_kind d); eexists [_]; reflexivity.
  - unfold handle. rewrite C. unfold incoming. cbn [emit a_alive]. destruct (negb (a_alive s)); [exists []|exists [O_INCOMING m]]; reflexivity.
  - unfold handle. rewrite C. unfold happens. cbn [emit a_alive]. destruct (negb (a_alive s)); [exists []; reflexivity|]. destruct h; [exists [O_CONNECTED session]|exists [O_DISCONNECTED]|exists []]; reflexivity.
  - assert (R : forall l s, exists x, a_out (release_all l s) = x ++ a_out s).
    { clear. induction l as [|id l IH]; intro s; [exists []; reflexivity|]. cbn [release_all]. destruct (a_data s id) as [d|]; [|exists []; reflexivity]. cbv zeta. match goal with |- context [release_all l ?y] => destruct (IH y) as [x E] end. rewrite E. destruct (d_kind d); [exists x; reflexivity|exists x; reflexivity|exists (x ++ [O_PUBLISHED id SHUT_DOWN]); rewrite <- app_assoc; reflexivity]. }
    unfold handle. rewrite C. unfold terminate. cbn [emit a_alive]. destruct (negb (a_alive s)); [exists []; reflexivity|]. cbv zeta. cbn [emit a_out]. match goal with |- context [release_all ?l ?y] => destruct (R l y) as [x E] end. rewrite E. exists (O_TERMINATED :: x). reflexivity.
Qed.
Lemma handle_inv five o s : inv s -> proper (a_out (handle five s o)) -> inv (handle five s o).
Proof.
  intros V P. destruct (grows_input five s o (v_crash _ V)) as [x G]. assert (Q : proper (input s o :: a_out s)) by (rewrite G in P; exact (proper_app _ _ P)). unfold handle in *. rewrite (v_crash _ V) in *. destruct o; cbn [input] in Q.
  - apply call_inv; assumption.
  - apply complete_inv; assumption.
  - apply proper_here in Q. unfold incoming. cbn [emit a_alive]. replace (a_alive s) with true by (symmetry; apply V; exact Q). cbn [negb]. apply plain_inv; [apply (plain_inv s (I_INCOMING m)); [exact V|exact I]|exact I].
  - apply proper_here in Q. unfold happens. cbn [emit a_alive]. replace (a_alive s) with true by (symmetry; apply V; exact Q). cbn [negb]. assert (W := plain_inv s (I_HAPPENS h) V I). destruct h; [apply (plain_inv _ (O_CONNECTED session) W I)|apply (plain_inv _ O_DISCONNECTED W I)|exact W].
  - apply terminate_inv; assumption.
Qed.
Lemma initial_inv : inv initial.
Proof. constructor; cbn; try tauto; try (split; [tauto|reflexivity]). constructor. Qed.
Lemma history_inv five l : proper (a_out (history five l)) -> inv (history five l).
Proof.
  induction l as [|o l IH] using rev_ind; intro P; [exact initial_inv|]. unfold history in *. rewrite fold_left_app in *. cbn [fold_left] in *. apply handle_inv; [|exact P]. apply IH. destruct (grows five (fold_left (handle five) l initial) o) as [x G]. rewrite G in P. exact (proper_app _ _ P).
Qed.
(** nothing but completions after the termination callback *)
Fixpoint quiet (tr : list event) : Prop := match tr with [] => True | e :: l => (In O_TERMINATED l -> exists id r, e = I_COMPLETED id r) /\ quiet l end.
Lemma quiet_at tr : quiet tr -> forall later e earlier, tr = later ++ e :: earlier -> In O_TERMINATED earlier -> exists id r, e = I_COMPLETED id r.
Proof. intros Q later. revert tr Q. induction later as [|y later IH]; intros tr Q e earlier -> H; destruct Q as [A B]; [auto|exact (IH _ B _ _ eq_refl H)]. Qed.
Lemma quiet_more x l : quiet l -> ~ In O_TERMINATED l -> ~ In O_TERMINATED x -> quiet (x ++ l).
Proof. intros Q H. induction x as [|e x IH]; cbn; intro K; [exact Q|]. split; [rewrite in_app_iff; tauto|apply IH; tauto]. Qed.
Lemma handle_quiet five o s : inv s -> proper (a_out (handle five s o)) -> quiet (a_out s) -> quiet (a_out (handle five s o)).
Proof.
  intros V P Q. destruct (grows_input five s o (v_crash _ V)) as [x G]. assert (R : proper (input s o :: a_out s)) by (rewrite G in P; exact (proper_app _ _ P)). destruct (a_alive s) eqn:A.
  - assert (T : ~ In O_TERMINATED (a_out s)) by (apply V; exact A). unfold handle in *. rewrite (v_crash _ V) in *. destruct o; cbn [input] in R.
    + unfold call. rewrite A. cbn [negb]. destruct taken; [apply (quiet_more [_])|apply (quiet_more [_; _])]; auto; cbn; intuition discriminate.
    + destruct (complete_inv five id r s V R) as (_ & k & _ & _ & E). rewrite (E A). apply (quiet_more [_; _]); auto. destruct k; cbn; intuition discriminate.
    + unfold incoming. cbn [emit a_alive]. rewrite A. cbn [negb]. apply (quiet_more [_; _]); auto. cbn. intuition discriminate.
    + unfold happens. cbn [emit a_alive]. rewrite A. cbn [negb]. destruct h; [apply (quiet_more [_; _])|apply (quiet_more [_; _])|apply (quiet_more [_])]; auto; cbn; intuition discriminate.
    + destruct (terminate_inv s V R) as [_ ->]. assert (K : ~ In O_TERMINATED (rev (map (fun id => O_PUBLISHED id SHUT_DOWN) (pubs_of (open (a_out s)))) ++ [I_TERMINATE])).
      { rewrite in_app_iff, <- in_rev, in_map_iff. intros [(i & E & _)|[E|[]]]; discriminate. }
      change (I_TERMINATE :: a_out s) with ([I_TERMINATE] ++ a_out s). rewrite app_assoc. split; [rewrite in_app_iff; tauto|]. apply quiet_more; assumption.
  - assert (T : In O_TERMINATED (a_out s)). { destruct (in_dec (fun a b : event => ltac:(repeat decide equality) : {a = b} + {a <> b}) O_TERMINATED (a_out s)) as [T|T]; [exact T|]. apply V in T. congruence. }
    unfold handle in *. rewrite (v_crash _ V) in *. assert (R' := proper_here _ _ R). destruct o; cbn [input allowed] in R'; try contradiction.
    destruct (complete_inv five id r s V R) as (_ & k & _ & E & _). rewrite (E A). split; [intros _; exists id, r; reflexivity|exact Q].
Qed.
Lemma history_quiet five l : proper (a_out (history five l)) -> quiet (a_out (history five l)).
Proof.
  induction l as [|o l IH] using rev_ind; intro P; [exact I|]. unfold history in *. rewrite fold_left_app in *. cbn [fold_left] in *. assert (P' : proper (a_out (fold_left (handle five) l initial))) by (destruct (grows five (fold_left (handle five) l initial) o) as [x G]; rewrite G in P; exact (proper_app _ _ P)).
  apply handle_quiet; [apply history_inv; exact P'|exact P|apply IH; exact P'].
Qed.
Lemma before five l o : proper (a_out (history five (l ++ [o]))) -> proper (a_out (history five l)) /\ inv (history five l) /\ proper (input (history five l) o :: a_out (history five l)) /\ history five (l ++ [o]) = handle five (history five l) o.
Proof.
  unfold history. rewrite fold_left_app. cbn [fold_left]. intro P. assert (P' : proper (a_out (fold_left (handle five) l initial))) by (destruct (grows five (fold_left (handle five) l initial) o) as [x G]; rewrite G in P; exact (proper_app _ _ P)).
  assert (V := history_inv five l P'). unfold history in V. split; [exact P'|]. split; [exact V|]. split; [|reflexivity]. destruct (grows_input five (fold_left (handle five) l initial) o (v_crash _ V)) as [x G]. rewrite G in P. exact (proper_app _ _ P).
Qed.
(** deciding [proper] for the examples *)
Fixpoint proper_list (tr : list event) : Prop := match tr with [] => True | e :: l => allowed e l /\ proper_list l end.
Lemma proper_list_ok tr : proper_list tr -> proper tr.
Proof. intros H later. revert tr H. induction later as [|y later IH]; intros tr H e l ->; destruct H as [A B]; [exact A|exact (IH _ B _ _ eq_refl)]. Qed.
Lemma pubs_of_filter l : pubs_of l = map fst (filter (fun p => match snd p with PUB => true | _ => false end) l).
Proof. induction l as [|[i [| |]] l IH]; cbn; [reflexivity|exact IH|exact IH|]. f_equal. exact IH. Qed.
