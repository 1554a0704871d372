(** Proofs about the operations of 3.1.1 connections over an MQTT 5 client *)
From Verif Require Import Base BridgeOps_Model BridgeOps_Spec.
From Coq Require Import FinFun.
Ltac Zify.zify_post_hook ::= idtac.

(** ** Ids *)
Definition orbit (i k : N) : N := (i - 1 + k) mod 65535 + 1.
Lemma orbit_0 i : 1 <= i <= 65535 -> orbit i 0 = i.
Proof. intros. unfold orbit. rewrite N.add_0_r, N.mod_small by lia. lia. Qed.
Lemma orbit_next i k : next_id (orbit i k) = orbit i (k + 1).
Proof.
  unfold orbit, next_id. rewrite N.add_assoc. set (a := i - 1 + k). rewrite (N.add_mod a 1 65535) by discriminate. change (1 mod 65535) with 1.
  pose proof (N.mod_upper_bound a 65535 ltac:(discriminate)) as H. set (b := a mod 65535) in *. clearbody b. destruct (N.eq_dec b 65534) as [->|Hb]; [reflexivity|].
  rewrite (N.mod_small (b + 1)) by lia. rewrite (N.mod_small (b + 1 + 1)) by lia. destruct (N.eqb_spec (b + 1 + 1) 0); lia.
Qed.
Lemma orbit_onto i id : 1 <= i <= 65535 -> 1 <= id <= 65535 -> exists k, k < 65535 /\ orbit i k = id.
Proof.
  intros H1 H3. destruct (N.le_gt_cases i id) as [H|H].
  - exists (id - i). split; [lia|]. unfold orbit. rewrite N.mod_small by lia. lia.
  - exists (id + 65535 - i). split; [lia|]. unfold orbit. replace (i - 1 + (id + 65535 - i)) with (id - 1 + 1 * 65535) by lia. rewrite N.mod_add by discriminate. rewrite N.mod_small by lia. lia.
Qed.
Lemma next_range id : 1 <= next_id id <= 65535.
Proof. unfold next_id. assert (K := N.mod_upper_bound (id + 1) 65536 ltac:(discriminate)). set (a := (id + 1) mod 65536) in *. clearbody a. destruct (N.eqb_spec a 0); lia. Qed.
Lemma used_in id t : used id t = true <-> In id (map fst t).
Proof. unfold used. rewrite existsb_exists, in_map_iff. split; intros (p & A & B); exists p; [apply N.eqb_eq in B|apply N.eqb_eq in A]; auto. Qed.
Lemma find_some rounds t : forall id id', 1 <= id <= 65535 -> find_id rounds t id = Some id' -> 1 <= id' <= 65535 /\ ~ In id' (map fst t).
Proof.
  induction rounds as [|r IH]; cbn; [discriminate|]. intros id id' R. destruct (used id t) eqn:U; [intro E; exact (IH _ _ (next_range id) E)|]. intro E. injection E as <-. split; [exact R|]. rewrite <- used_in. congruence.
Qed.
Lemma find_none rounds t i : forall k, find_id rounds t (orbit i k) = None -> forall j, (j < rounds)%nat -> In (orbit i (k + N.of_nat j)) (map fst t).
Proof.
  induction rounds as [|r IH]; intros k E j L; [lia|]. cbn in E. destruct (used (orbit i k) t) eqn:U; [|discriminate]. rewrite orbit_next in E. destruct j as [|j].
  - rewrite N.add_0_r. apply used_in, U.
  - replace (k + N.of_nat (S j)) with (k + 1 + N.of_nat j) by lia. apply IH; [exact E|lia].
Qed.
Lemma find_full t i id : 1 <= i <= 65535 -> find_id (N.to_nat 65535) t i = None -> 1 <= id <= 65535 -> In id (map fst t).
Proof.
  intros R E D. rewrite <- (orbit_0 i R) in E. destruct (orbit_onto i id R D) as (k & K & <-). assert (A := find_none _ _ _ _ E (N.to_nat k)). rewrite N2Nat.id, N.add_0_l in A. apply A. lia.
Qed.

(** ** Lists *)
Lemma mem_in h l : mem h l = true <-> In h l.
Proof. unfold mem. rewrite existsb_exists. split; [intros (x & A & B); apply N.eqb_eq in B; subst; exact A|intro A; exists h; split; [exact A|apply N.eqb_refl]]. Qed.
Lemma without_in h x l : In x (without h l) <-> In x l /\ x <> h.
Proof. unfold without. rewrite filter_In. destruct (N.eqb_spec x h); cbn; intuition congruence. Qed.
Lemma filter_same {A} (f : A -> bool) l : (forall x, In x l -> f x = true) -> filter f l = l.
Proof. induction l as [|a l IH]; cbn; [reflexivity|]. intro H. rewrite H by auto. rewrite IH; auto. Qed.
Lemma without_none h l : ~ In h l -> without h l = l.
Proof. intro H. apply filter_same. intros x K. destruct (N.eqb_spec x h); [subst; contradiction|reflexivity]. Qed.
Lemma without_len h l : NoDup l -> In h l -> len l = len (without h l) + 1.
Proof.
  unfold len. induction 1 as [|a l X D IH]; [intros []|]. cbn. intros [->|K].
  - rewrite N.eqb_refl. cbn. fold (without h l). rewrite without_none by exact X. lia.
  - destruct (N.eqb_spec a h) as [->|]; [contradiction|]. cbn. fold (without h l). specialize (IH K). lia.
Qed.
Lemma without_nodup h l : NoDup l -> NoDup (without h l). Proof. apply NoDup_filter. Qed.
Lemma nodup_snoc {A} (a : A) l : NoDup l -> ~ In a l -> NoDup (l ++ [a]).
Proof. intros D N. induction D as [|b l X D IH]; cbn; [constructor; [exact N|constructor]|]. constructor; [rewrite in_app_iff; cbn; intros [K|[<-|[]]]; [auto|apply N; left; reflexivity]|apply IH; intro K; apply N; right; exact K]. Qed.
Lemma map_filter_nodup {A B} (g : A -> B) f l : NoDup (map g l) -> NoDup (map g (filter f l)).
Proof. induction l as [|a l IH]; cbn; [auto|]. intro D. inversion D as [|? ? X Y]; subst. destruct (f a); cbn; [|auto]. constructor; [|auto]. intro K. apply X. apply in_map_iff in K as (x & E & I). apply filter_In in I. apply in_map_iff. exists x. tauto. Qed.
Lemma snd_unique (t : list (N * N)) a b h : NoDup (map snd t) -> In (a, h) t -> In (b, h) t -> a = b.
Proof. induction t as [|[x y] t IH]; cbn; [tauto|]. intro D. inversion D as [|? ? X Y]; subst. intros [E|E] [F|F]; try congruence; [injection E as -> ->|injection F as -> ->|exact (IH Y E F)]; destruct X; apply in_map_iff; eexists; (split; [|eassumption]); reflexivity. Qed.
Lemma fst_unique (t : list (N * N)) a b h : NoDup (map fst t) -> In (h, a) t -> In (h, b) t -> a = b.
Proof. induction t as [|[x y] t IH]; cbn; [tauto|]. intro D. inversion D as [|? ? X Y]; subst. intros [E|E] [F|F]; try congruence; [injection E as -> ->|injection F as -> ->|exact (IH Y E F)]; destruct X; apply in_map_iff; eexists; (split; [|eassumption]); reflexivity. Qed.
Lemma in_snd id h (t : list (N * N)) : In (id, h) t -> In h (map snd t). Proof. intro K. apply in_map_iff. exists (id, h). auto. Qed.
Lemma in_fst id h (t : list (N * N)) : In (id, h) t -> In id (map fst t). Proof. intro K. apply in_map_iff. exists (id, h). auto. Qed.
Lemma filters_agree t id h : NoDup (map fst t) -> NoDup (map snd t) -> In (id, h) t -> filter (fun q => negb (fst q =? id)) t = filter (fun p : N * N => negb (snd p =? h)) t.
Proof. intros D E K. apply filter_ext_in. intros [a b] I. cbn. destruct (N.eqb_spec a id) as [->|X], (N.eqb_spec b h) as [->|Y]; try reflexivity; exfalso; [apply Y; exact (fst_unique _ _ _ _ D I K)|apply X; exact (snd_unique _ _ _ _ E I K)]. Qed.
Lemma closed_in h x (t : list (N * N)) : In x (map snd (filter (fun p => negb (snd p =? h)) t)) <-> In x (map snd t) /\ x <> h.
Proof. rewrite !in_map_iff. split; [intros (p & <- & I); apply filter_In in I as [I J]; destruct (N.eqb_spec (snd p) h); [discriminate|]; eauto|]. intros [(p & <- & I) X]. exists p. split; [reflexivity|]. apply filter_In. split; [exact I|]. destruct (N.eqb_spec (snd p) h); [contradiction|reflexivity]. Qed.

(** ** The trace *)
Definition fits (e : event) (l : list event) : Prop :=
  (output e = true -> ~ In O_TERMINATED l) /\
  match e with
  | O_ACCEPTED h id => 1 <= id <= 65535 /\ ~ In id (map fst (open l)) /\ ~ accepted h l
  | O_FULL _ => forall id, 1 <= id <= 65535 -> In id (map fst (open l))
  | O_DONE h id c => In (id, h) (open l) /\ why h c l
  | O_TERMINATED => open l = [] /\ In I_RELEASE l /\ In I_DETACHED l
  | _ => True
  end.
Record trace (l : list event) : Prop := {
  r_ids : NoDup (map fst (open l)); r_hs : NoDup (map snd (open l));
  r_acc : forall id h, In (id, h) (open l) -> In (O_ACCEPTED h id) l;
  r_none : forall h, In h (map snd (open l)) -> dones h l = O;
  r_one : forall h, accepted h l -> ~ In h (map snd (open l)) -> dones h l = 1%nat;
  r_not : forall h, ~ accepted h l -> dones h l = O;
  r_each : each fits l }.
Definition plain (e : event) : bool := match e with O_ACCEPTED _ _ | O_DONE _ _ _ => false | _ => true end.
Lemma trace_plain e l : plain e = true -> fits e l -> trace l -> trace (e :: l).
Proof.
  intros P F R. assert (A : forall h, accepted h (e :: l) <-> accepted h l). { intro h. split; intros [id K]; exists id; [destruct K as [->|K]; [discriminate|exact K]|right; exact K]. }
  destruct R. destruct e; try discriminate P; (constructor; [assumption|assumption|intros; right; apply r_acc0; assumption|assumption|intros hh K NN; apply A in K; exact (r_one0 hh K NN)|intros hh K; exact (r_not0 hh (fun J => K (proj2 (A hh) J)))|split; assumption]).
Qed.
Lemma trace_accept h id l : fits (O_ACCEPTED h id) l -> trace l -> trace (O_ACCEPTED h id :: l).
Proof.
  intros F R. destruct F as (T & F1 & F2 & F3). assert (X : ~ In h (map snd (open l))). { intro K. apply in_map_iff in K as ([a b] & E & K). cbn in E. subst. apply (r_acc _ R) in K. apply F3. eexists. exact K. }
  constructor; cbn [open dones].
  - rewrite map_app. apply nodup_snoc; [apply R|exact F2].
  - rewrite map_app. apply nodup_snoc; [apply R|exact X].
  - intros i x K. apply in_app_iff in K as [K|[E|[]]]; [right; apply (r_acc _ R); exact K|injection E as <- <-; left; reflexivity].
  - intros x K. rewrite map_app in K. apply in_app_iff in K as [K|[<-|[]]]; [apply (r_none _ R); exact K|apply (r_not _ R); exact F3].
  - intros x [i K] N. rewrite map_app, in_app_iff in N. destruct K as [E|K]; [injection E as -> ->; exfalso; apply N; right; left; reflexivity|]. apply (r_one _ R); [exists i; exact K|tauto].
  - intros x K. apply (r_not _ R). intros [i J]. apply K. exists i. right. exact J.
  - split; [split; auto|apply R].
Qed.
Lemma trace_done h id c l : fits (O_DONE h id c) l -> trace l -> trace (O_DONE h id c :: l).
Proof.
  intros F R. destruct F as (T & F1 & F2). assert (A := r_acc _ R _ _ F1).
  assert (Q : forall x, accepted x (O_DONE h id c :: l) <-> accepted x l). { intro x. split; intros [i K]; exists i; [destruct K as [K|K]; [discriminate|exact K]|right; exact K]. }
  constructor; cbn [open dones].
  - apply map_filter_nodup, R.
  - apply map_filter_nodup, R.
  - intros i x K. apply filter_In in K as [K _]. right. apply (r_acc _ R). exact K.
  - intros x K. apply closed_in in K as [K J]. destruct (N.eqb_spec h x); [congruence|]. apply (r_none _ R). exact K.
  - intros x K N. apply Q in K. rewrite closed_in in N. destruct (N.eqb_spec h x) as [<-|E]; [f_equal; apply (r_none _ R); exact (in_snd _ _ _ F1)|]. apply (r_one _ R); [exact K|]. intro; apply N; auto.
  - intros x K. destruct (N.eqb_spec h x) as [<-|E]; [exfalso; apply K; exists id; right; exact A|]. apply (r_not _ R). intro; apply K, Q; assumption.
  - split; [split; auto|apply R].
Qed.

(** ** The state *)
Record inv (s : state) : Prop := {
  i_crash : t_crash s = false;
  i_refs : t_refs s = (if t_detached s then 0 else 1) + len (t_pending s);
  i_dying : t_dying s = (t_refs s =? 0);
  i_gone : t_gone s = true -> t_dying s = true /\ t_table s = [];
  i_user : t_detached s = true -> t_user s = false;
  i_next : 1 <= t_next s <= 65535;
  i_open : t_table s = open (t_out s);
  i_old : forall h, accepted h (t_out s) \/ In h (map snd (t_table s)) -> h < t_count s;
  i_op : forall id h, In (id, h) (t_table s) -> t_armed s h = true /\ exists k, t_ops s h = Some (mkdata k id (if mem h (t_pending s) then 2 else 1) (mem h (t_pending s))) /\ In (I_CALL h k) (t_out s);
  i_no : forall h, ~ In h (map snd (t_table s)) -> t_ops s h = None /\ t_armed s h = false /\ ~ In h (t_pending s);
  i_pend : NoDup (t_pending s);
  i_sent : forall h, In h (t_sent s) -> ~ In h (t_pending s) /\ (t_gone s = false -> In h (map snd (t_table s)));
  i_term : In O_TERMINATED (t_out s) <-> t_gone s = true;
  i_rel : (t_user s = false -> In I_RELEASE (t_out s)) /\ (t_detached s = true -> In I_DETACHED (t_out s));
  i_trace : trace (t_out s) }.
Lemma initial_inv : inv initial.
Proof.
  assert (A : forall h, ~ accepted h []) by (intros h [id []]).
  constructor; cbn [initial t_crash t_refs t_detached t_pending t_dying t_gone t_table t_user t_next t_out t_count t_armed t_ops t_sent map].
  1-3: reflexivity. 1-2: discriminate. lia. reflexivity. intros h [K|[]]; destruct (A _ K). intros id h []. auto. constructor. intros h []. split; [intros []|discriminate]. split; discriminate.
  constructor; cbn; try constructor; try tauto. intros h K. destruct (A _ K).
Qed.
Lemma dying_no_pending s : inv s -> t_dying s = true -> t_pending s = [] /\ t_detached s = true /\ t_user s = false /\ t_refs s = 0.
Proof.
  intros V D. rewrite (i_dying _ V) in D. apply N.eqb_eq in D. assert (R := i_refs _ V). rewrite D in R. unfold len in R. destruct (t_detached s) eqn:E; [|lia]. destruct (t_pending s); [|cbn in R; lia]. split; [reflexivity|]. split; [reflexivity|]. split; [apply (i_user _ V E)|exact D].
Qed.

(** the step that ends an operation: it is reported and leaves the table; its task, if any, is over too *)
Lemma close_inv s s' id h c x : inv s -> t_gone s = false -> In (id, h) (t_table s) ->
  t_crash s' = false -> t_user s' = t_user s -> t_detached s' = t_detached s -> t_gone s' = false -> t_next s' = t_next s -> t_count s' = t_count s ->
  t_table s' = filter (fun q => negb (fst q =? id)) (t_table s) -> (forall y, t_ops s' y = if y =? h then None else t_ops s y) -> (forall y, t_armed s' y = if y =? h then false else t_armed s y) ->
  t_pending s' = without h (t_pending s) -> t_refs s' = (if t_detached s then 0 else 1) + len (without h (t_pending s)) -> t_dying s' = (t_refs s' =? 0) -> (forall y, In y (t_sent s') -> In y (t_sent s) /\ y <> h) ->
  t_out s' = O_DONE h id c :: x ++ t_out s -> (forall e, In e x -> plain e = true /\ e <> O_TERMINATED /\ forall l, ~ In O_TERMINATED l -> fits e l) -> why h c (x ++ t_out s) -> inv s'.
Proof.
  intros V G K C1 C2 C3 C4 C5 C6 C7 C8 C9 C10 C11 C12 C13 C14 X W.
  assert (T : ~ In O_TERMINATED (t_out s)) by (rewrite (i_term _ V); congruence).
  assert (Y : trace (x ++ t_out s) /\ open (x ++ t_out s) = open (t_out s) /\ ~ In O_TERMINATED (x ++ t_out s) /\ forall v, accepted v (x ++ t_out s) <-> accepted v (t_out s)).
  { clear - X V T. induction x as [|e x IH]; cbn [app]; [split; [apply V|split; [reflexivity|split; [exact T|tauto]]]|]. destruct (IH (fun e' I => X e' (or_intror I))) as (A & B & D & F). destruct (X e (or_introl eq_refl)) as (P & Q & Z). split; [apply trace_plain; auto|]. split; [destruct e; try discriminate P; exact B|]. split; [intros [->|J]; [apply Q; reflexivity|exact (D J)]|].
    intro v. rewrite <- F. split; intros [i J]; exists i; [destruct J as [->|J]; [discriminate P|exact J]|right; exact J]. }
  destruct Y as (Y1 & Y2 & Y3 & Y4). assert (O := i_open _ V). assert (D1 := r_ids _ (i_trace _ V)). assert (D2 := r_hs _ (i_trace _ V)). rewrite <- O in D1, D2.
  assert (E : t_table s' = filter (fun p => negb (snd p =? h)) (t_table s)) by (rewrite C7; apply filters_agree; assumption).
  assert (M : forall y, y <> h -> mem y (without h (t_pending s)) = mem y (t_pending s)). { intros y N. apply eq_true_iff_eq. rewrite !mem_in, without_in. tauto. }
  constructor.
  - exact C1.
  - rewrite C11, C3, C10. reflexivity.
  - exact C12.
  - congruence.
  - rewrite C2, C3. apply V.
  - rewrite C5. apply V.
  - rewrite C14, E. cbn [open]. rewrite Y2, O. reflexivity.
  - rewrite C14, C6, E. intros v [[i [J|J]]|J]; [discriminate|apply (i_old _ V); left; apply Y4; exists i; exact J|apply closed_in in J; apply (i_old _ V); right; tauto].
  - rewrite E, C14, C10. intros i v J. apply filter_In in J as [J N]. cbn in N. destruct (N.eqb_spec v h) as [|N']; [discriminate|]. destruct (i_op _ V _ _ J) as (A & k & B & F). rewrite C8, C9. destruct (N.eqb_spec v h); [contradiction|]. split; [exact A|]. exists k. rewrite (M v N'). split; [exact B|]. right. apply in_app_iff. right. exact F.
  - rewrite E, C10. intros v N. rewrite closed_in in N. rewrite C8, C9, without_in. destruct (N.eqb_spec v h) as [->|N']; [split; [reflexivity|split; [reflexivity|tauto]]|]. destruct (i_no _ V v) as (A & B & F); [tauto|]. tauto.
  - rewrite C10. apply without_nodup, V.
  - rewrite C10, E. intros v J. apply C13 in J as [J N]. destruct (i_sent _ V _ J) as [A B]. split; [rewrite without_in; tauto|]. intros _. apply closed_in. auto.
  - rewrite C14, C4. split; [|discriminate]. intros [J|J]; [discriminate|contradiction].
  - rewrite C14, C2, C3. destruct (i_rel _ V) as [A B]. split; intro J; right; apply in_app_iff; right; auto.
  - rewrite C14. apply trace_done; [|exact Y1]. split; [intros _; exact Y3|]. split; [rewrite Y2, <- O; exact K|exact W].
Qed.

Lemma find_entry (t : list (N * N)) id h : NoDup (map fst t) -> In (id, h) t -> find (fun p => fst p =? id) t = Some (id, h).
Proof. induction t as [|[a b] t IH]; cbn; [tauto|]. intro D. inversion D as [|? ? X Y]; subst. intros [E|E]; [injection E as -> ->; rewrite N.eqb_refl; reflexivity|]. destruct (N.eqb_spec a id) as [->|]; [destruct X; exact (in_fst _ _ _ E)|auto]. Qed.
Lemma remove_eq s id h : t_gone s = false -> NoDup (map fst (t_table s)) -> In (id, h) (t_table s) -> remove id s = release_op h (set_table (filter (fun q => negb (fst q =? id)) (t_table s)) s).
Proof. intros G D K. unfold remove. rewrite G, (find_entry _ _ _ D K). reflexivity. Qed.
Lemma outcome_final k c p : outcome k c p (final k c p).
Proof.
  unfold outcome. destruct k; try (right; split; [intros (E & _); discriminate|reflexivity]). destruct c; try (right; split; [intros (_ & E & _); discriminate|reflexivity]). destruct p as [r|]; [|right; split; [intros (_ & _ & r & E & _); discriminate|reflexivity]]. cbn. destruct (N.leb_spec 128 r).
  - left. split; [|reflexivity]. split; [reflexivity|]. split; [reflexivity|]. exists r. auto.
  - right. split; [|reflexivity]. intros (_ & _ & r' & E & L). injection E as <-. lia.
Qed.
Lemma open_not_gone s : inv s -> t_table s <> [] -> t_gone s = false.
Proof. intros V N. destruct (t_gone s) eqn:G; [destruct (i_gone _ V G); contradiction|reflexivity]. Qed.
Lemma complete_inv h c p s : inv s -> In h (t_sent s) -> inv (complete h c p s) /\
  (t_gone s = false -> exists k id, In (id, h) (t_table s) /\ In (I_CALL h k) (t_out s) /\ t_out (complete h c p s) = O_DONE h id (final k c p) :: I_COMPLETED h c p :: t_out s) /\ (t_gone s = true -> t_out (complete h c p s) = I_COMPLETED h c p :: t_out s).
Proof.
  intros V K. destruct (i_sent _ V _ K) as [NP IT]. destruct (t_gone s) eqn:G.
  - destruct (i_gone _ V G) as [D T]. destruct (i_no _ V h) as (A & B & F); [rewrite T; intros []|]. unfold complete. rewrite B. cbn [negb]. split; [|split; [discriminate|reflexivity]].
    assert (Z := V). destruct Z. constructor; cbn; auto.
    + intros v [[i [J|J]]|J]; [discriminate|apply i_old0; left; exists i; exact J|apply i_old0; right; exact J].
    + intros i v J. destruct (i_op0 _ _ J) as (Q & k & R & W). split; [exact Q|]. exists k. auto.
    + intros v J. apply without_in in J. apply i_sent0. tauto.
    + rewrite <- i_term0. split; [intros [J|J]; [discriminate|exact J]|auto].
    + split; intro; right; apply i_rel0; assumption.
    + apply trace_plain; [reflexivity|split; [discriminate|exact I]|exact i_trace0].
  - assert (J := IT eq_refl). apply in_map_iff in J as ([id h'] & E & J). cbn in E. subst h'. destruct (i_op _ V _ _ J) as (A & k & B & F). assert (D : NoDup (map fst (t_table s))) by (rewrite (i_open _ V); apply V).
    assert (NP' : mem h (t_pending s) = false) by (destruct (mem h (t_pending s)) eqn:M; [apply mem_in in M; contradiction|reflexivity]). rewrite NP' in B. unfold complete. rewrite A. cbn [negb t_ops]. rewrite B. cbn [o_id o_kind].
    rewrite (remove_eq _ id h) by (cbn; assumption). unfold release_op. cbn [set_table emit t_ops]. rewrite B. cbn [o_refs o_hold]. rewrite N.eqb_refl.
    split; [|split; [intros _; exists k, id; split; [exact J|split; [exact F|reflexivity]]|discriminate]].
    apply (close_inv s _ id h (final k c p) [I_COMPLETED h c p]); try reflexivity; try assumption; cbn [set_armed set_op set_table emit t_crash t_user t_detached t_gone t_refs t_pending t_sent t_dying t_out app].
    + apply V.
    + symmetry. apply without_none. exact NP.
    + rewrite without_none by exact NP. apply V.
    + apply V.
    + intros y Y. apply without_in in Y. exact Y.
    + intros e [<-|[]]. split; [reflexivity|]. split; [discriminate|]. intros. split; [discriminate|exact I].
    + left. exists k, c, p, (t_out s). split; [reflexivity|]. split; [exact F|apply outcome_final].
Qed.

Lemma put_same {A} h (a : A) f : put h a f h = a. Proof. unfold put. rewrite N.eqb_refl. reflexivity. Qed.
Definition dropped (s : state) : state := mkstate (t_user s) (t_detached s) (t_refs s - 1) (t_refs s =? 1) (t_gone s) (t_next s) (t_table s) (t_ops s) (t_pending s) (t_sent s) (t_armed s) (t_count s) (t_out s) (t_crash s).
Lemma release_adapter_ok s : t_gone s = false -> t_refs s <> 0 -> release_adapter s = dropped s.
Proof. intros G R. unfold release_adapter, dropped. rewrite G. destruct (N.eqb_spec (t_refs s) 0); [contradiction|reflexivity]. Qed.
Lemma cross_last h s k id : t_ops s h = Some (mkdata k id 1 true) -> t_gone s = false -> t_refs s <> 0 -> release_cross h s = set_armed h false (set_op h None (dropped (set_op h (Some (mkdata k id 1 false)) s))).
Proof. intros O G R. unfold release_cross. rewrite O. cbn [o_hold o_kind o_id o_refs]. rewrite release_adapter_ok by assumption. unfold release_op. cbn [dropped set_op t_ops]. rewrite put_same. reflexivity. Qed.
Lemma cross_first h s k id : t_ops s h = Some (mkdata k id 2 true) -> t_gone s = false -> t_refs s <> 0 -> release_cross h s = set_op h (Some (mkdata k id 1 false)) (dropped (set_op h (Some (mkdata k id 2 false)) s)).
Proof. intros O G R. unfold release_cross. rewrite O. cbn [o_hold o_kind o_id o_refs]. rewrite release_adapter_ok by assumption. unfold release_op. cbn [dropped set_op t_ops]. rewrite put_same. reflexivity. Qed.
Lemma put_put {A} h (a b : A) f y : put h a (put h b f) y = if y =? h then a else f y.
Proof. unfold put. destruct (y =? h); reflexivity. Qed.

(** a submission task that ends the operation *)
Lemma submit_close s h k id c x : inv s -> In h (t_pending s) -> In (id, h) (t_table s) -> t_ops s h = Some (mkdata k id 2 true) ->
  (forall e, In e x -> plain e = true /\ e <> O_TERMINATED /\ forall l, ~ In O_TERMINATED l -> fits e l) -> why h c (x ++ t_out s) ->
  let s1 := mkstate (t_user s) (t_detached s) (t_refs s) (t_dying s) (t_gone s) (t_next s) (t_table s) (t_ops s) (without h (t_pending s)) (t_sent s) (t_armed s) (t_count s) (x ++ t_out s) (t_crash s) in
  inv (release_cross h (remove id (emit (O_DONE h id c) s1))).
Proof.
  intros V P J B X W s1. assert (D : NoDup (map fst (t_table s))) by (rewrite (i_open _ V); apply V). assert (G : t_gone s = false) by (apply open_not_gone; [exact V|intro E; rewrite E in J; destruct J]).
  assert (L := without_len h _ (i_pend _ V) P). assert (R := i_refs _ V). rewrite (remove_eq _ id h) by (cbn; assumption). unfold release_op. cbn [set_table emit s1 t_ops]. rewrite B. cbn [o_refs o_kind o_id o_hold]. change (2 =? 1) with false. cbn iota. change (2 - 1) with 1.
  rewrite (cross_last h _ k id); [|cbn; apply put_same|exact G|cbn; lia].
  apply (close_inv s _ id h c x); try reflexivity; try assumption; cbn [set_armed set_op set_table emit dropped s1 t_crash t_user t_detached t_gone t_refs t_pending t_sent t_dying t_out t_ops t_armed].
  - apply V.
  - intro y. rewrite put_put. unfold put. destruct (y =? h); reflexivity.
  - rewrite R. lia.
  - destruct (N.eqb_spec (t_refs s) 1), (N.eqb_spec (t_refs s - 1) 0); lia || reflexivity.
  - intros y Y. split; [exact Y|]. intros ->. destruct (i_sent _ V _ Y). contradiction.
Qed.
Lemma submit_inv h w s : inv s -> In h (t_pending s) -> inv (submit h w s).
Proof.
  intros V P. assert (J : In h (map snd (t_table s))). { destruct (in_dec N.eq_dec h (map snd (t_table s))) as [J|J]; [exact J|]. destruct (i_no _ V _ J) as (_ & _ & K). contradiction. }
  apply in_map_iff in J as ([id h'] & E & J). cbn in E. subst h'. destruct (i_op _ V _ _ J) as (A & k & B & F). rewrite (proj2 (mem_in h _) P) in B.
  assert (G : t_gone s = false) by (apply open_not_gone; [exact V|intro E; rewrite E in J; destruct J]). assert (L := without_len h _ (i_pend _ V) P). assert (R := i_refs _ V).
  assert (XT : plain (I_TASK h) = true /\ I_TASK h <> O_TERMINATED /\ forall l, ~ In O_TERMINATED l -> fits (I_TASK h) l) by (split; [reflexivity|split; [discriminate|intros; split; [discriminate|exact I]]]).
  assert (T : ~ In O_TERMINATED (t_out s)) by (rewrite (i_term _ V); congruence).
  assert (Q : inv (release_cross h (emit (O_SENT h) (mkstate (t_user s) (t_detached s) (t_refs s) (t_dying s) (t_gone s) (t_next s) (t_table s) (t_ops s) (without h (t_pending s)) (t_sent s ++ [h]) (t_armed s) (t_count s) (I_TASK h :: t_out s) (t_crash s))))).
  { rewrite (cross_first h _ k id); [|exact B|exact G|cbn; lia]. assert (M : forall y, y <> h -> mem y (without h (t_pending s)) = mem y (t_pending s)). { intros y N. apply eq_true_iff_eq. rewrite !mem_in, without_in. tauto. }
    assert (M' : mem h (without h (t_pending s)) = false). { destruct (mem h (without h (t_pending s))) eqn:M'; [|reflexivity]. apply mem_in, without_in in M'. tauto. }
    constructor; cbn [set_armed set_op set_table emit dropped t_crash t_user t_detached t_gone t_refs t_pending t_sent t_dying t_out t_ops t_armed t_table t_next t_count open].
    - apply V.
    - rewrite R. lia.
    - destruct (N.eqb_spec (t_refs s) 1), (N.eqb_spec (t_refs s - 1) 0); lia || reflexivity.
    - congruence.
    - apply V.
    - apply V.
    - apply V.
    - intros v [[i [K|[K|K]]]|K]; try discriminate; apply (i_old _ V); [left; exists i; exact K|right; exact K].
    - intros i v K. destruct (i_op _ V _ _ K) as (A' & k' & B' & F'). split; [exact A'|]. rewrite put_put. destruct (N.eqb_spec v h) as [->|N].
      + exists k. rewrite M'. split; [|right; right; exact F]. rewrite B in B'. injection B' as <- <- _. reflexivity.
      + exists k'. rewrite (M v N). split; [exact B'|right; right; exact F'].
    - intros v K. destruct (i_no _ V _ K) as (A' & B' & F'). rewrite put_put, without_in. destruct (N.eqb_spec v h) as [->|N]; [contradiction|]. tauto.
    - apply without_nodup, V.
    - intros v K. rewrite without_in. apply in_app_iff in K as [K|[<-|[]]]; [destruct (i_sent _ V _ K); tauto|]. split; [tauto|]. intros _. exact (in_snd _ _ _ J).
    - rewrite <- (i_term _ V). split; [intros [K|[K|K]]; [discriminate|discriminate|exact K]|intro K; right; right; exact K].
    - split; intro K; right; right; apply (i_rel _ V); exact K.
    - apply trace_plain; [reflexivity|split; [intros _ [K|K]; [discriminate|contradiction]|exact I]|]. apply trace_plain; [reflexivity|apply XT; exact T|apply V]. }
  unfold submit. cbn [t_ops]. rewrite B. cbn [o_kind o_id]. destruct w as [| |c p].
  - destruct k; exact Q.
  - destruct k; try exact Q. apply (submit_close s h RESUB id NO_TOPICS [I_TASK h]); auto.
    + intros e [<-|[]]. exact XT.
    + right. left. split; [reflexivity|]. split; [right; exact F|exists (t_out s); reflexivity].
  - assert (Z : inv (release_cross h (remove id (emit (O_DONE h id (final k c p)) (mkstate (t_user s) (t_detached s) (t_refs s) (t_dying s) (t_gone s) (t_next s) (t_table s) (t_ops s) (without h (t_pending s)) (t_sent s) (t_armed s) (t_count s) ([I_COMPLETED h c p; O_SENT h; I_TASK h] ++ t_out s) (t_crash s)))))).
    { apply (submit_close s h k id); auto.
      - intros e [<-|[<-|[<-|[]]]]; [|split; [reflexivity|split; [discriminate|intros l K; split; [intros _; exact K|exact I]]]|exact XT]. split; [reflexivity|split; [discriminate|intros; split; [discriminate|exact I]]].
      - left. exists k, c, p, ([O_SENT h; I_TASK h] ++ t_out s). split; [reflexivity|]. split; [right; right; exact F|apply outcome_final]. }
    destruct k; exact Z.
Qed.

Lemma user_not_gone s : inv s -> t_user s = true -> t_gone s = false.
Proof. intros V U. destruct (t_gone s) eqn:G; [|reflexivity]. destruct (i_gone _ V G) as [D _]. destruct (dying_no_pending _ V D) as (_ & _ & E & _). congruence. Qed.
Lemma term_cons s e : inv s -> e <> O_TERMINATED -> (In O_TERMINATED (e :: t_out s) <-> t_gone s = true).
Proof. intros V N. rewrite <- (i_term _ V). split; [intros [K|K]; [congruence|exact K]|intro K; right; exact K]. Qed.
Lemma acc_cons h e l : plain e = true -> accepted h (e :: l) -> accepted h l.
Proof. intros P [i [->|K]]; [discriminate|exists i; exact K]. Qed.
(** steps that only add an event to the trace, and may use up a number *)
Lemma quiet_inv s s' e : inv s -> plain e = true -> e <> O_TERMINATED -> fits e (t_out s) -> open (e :: t_out s) = open (t_out s) ->
  t_crash s' = t_crash s -> t_user s' = t_user s -> t_detached s' = t_detached s -> t_refs s' = t_refs s -> t_dying s' = t_dying s -> t_gone s' = t_gone s -> t_next s' = t_next s -> t_table s' = t_table s -> (forall y, t_ops s' y = t_ops s y) -> t_pending s' = t_pending s -> t_sent s' = t_sent s -> (forall y, t_armed s' y = t_armed s y) ->
  t_count s <= t_count s' -> t_out s' = e :: t_out s -> inv s'.
Proof.
  intros V P N F O E1 E2 E3 E4 E5 E6 E7 E8 E9 E10 E11 E12 E13 E14. constructor; rewrite ?E1, ?E2, ?E3, ?E4, ?E5, ?E6, ?E7, ?E8, ?E10, ?E11, ?E14; try apply V.
  - rewrite O. apply V.
  - intros h K. assert (h < t_count s); [|lia]. apply (i_old _ V). destruct K as [K|K]; [left; exact (acc_cons _ _ _ P K)|right; exact K].
  - intros id h K. rewrite E9, E12. destruct (i_op _ V _ _ K) as (A & k & B & C). split; [exact A|]. exists k. split; [exact B|right; exact C].
  - intros h K. rewrite E9, E12. apply V. exact K.
  - apply term_cons; assumption.
  - split; intro K; right; apply (i_rel _ V); exact K.
  - apply trace_plain; [exact P|exact F|apply V].
Qed.
Lemma call_inv k valid s : inv s -> t_user s = true -> inv (call k valid s).
Proof.
  intros V U. assert (G := user_not_gone _ V U). assert (T : ~ In O_TERMINATED (t_out s)) by (rewrite (i_term _ V); congruence). unfold call.
  set (h := t_count s). set (s1 := mkstate (t_user s) (t_detached s) (t_refs s) (t_dying s) (t_gone s) (t_next s) (t_table s) (t_ops s) (t_pending s) (t_sent s) (t_armed s) (h + 1) (I_CALL h k :: t_out s) (t_crash s)).
  assert (V1 : inv s1). { apply (quiet_inv s _ (I_CALL h k)); try reflexivity; try assumption; [discriminate|split; [discriminate|exact I]|cbn; lia]. }
  assert (T1 : ~ In O_TERMINATED (t_out s1)) by (intros [K|K]; [discriminate|contradiction]).
  assert (H1 : ~ In h (map snd (t_table s1))). { intro K. assert (L := i_old _ V h (or_intror K)). unfold h in L. lia. }
  assert (H2 : ~ accepted h (t_out s1)). { intro K. apply acc_cons in K; [|reflexivity]. assert (L := i_old _ V h (or_introl K)). unfold h in L. lia. }
  destruct (i_no _ V1 _ H1) as (A & B & C). destruct valid; cbn [negb].
  - destruct (find_id (N.to_nat 65535) (t_table s1) (t_next s1)) as [id|] eqn:E.
    + destruct (find_some _ _ _ _ (i_next _ V1) E) as [E1 E2]. clear E. assert (X : t_count s1 = h + 1) by reflexivity. assert (Y : In (I_CALL h k) (t_out s1)) by (left; reflexivity). assert (GG : t_gone s1 = false) by exact G. assert (UU : t_user s1 = true) by exact U. clearbody s1 h. clear V G T U s. rename s1 into s.
      constructor; cbn [set_armed set_op set_table emit t_crash t_user t_detached t_gone t_refs t_pending t_sent t_dying t_out t_ops t_armed t_table t_next t_count open].
      * apply V1.
      * rewrite (i_refs _ V1). unfold len. rewrite app_length. cbn. lia.
      * rewrite (i_dying _ V1). destruct (N.eqb_spec (t_refs s) 0) as [Z|Z], (N.eqb_spec (t_refs s + 1) 0); try lia; try reflexivity. exfalso. assert (D : t_dying s = true) by (rewrite (i_dying _ V1), Z; reflexivity). destruct (dying_no_pending _ V1 D) as (_ & _ & Q & _). congruence.
      * congruence.
      * apply V1.
      * apply next_range.
      * rewrite (i_open _ V1). reflexivity.
      * intros v K. rewrite X. rewrite map_app, in_app_iff in K. destruct K as [[i [K|K]]|[K|[<-|[]]]]; [injection K as <- <-; lia| | |cbn; lia]; (assert (L : v < t_count s); [|lia]); apply (i_old _ V1); [left; exists i; exact K|right; exact K].
      * intros i v K. unfold put. apply in_app_iff in K as [K|[K|[]]].
        -- assert (N : v <> h) by (intros ->; apply H1; exact (in_snd _ _ _ K)). destruct (N.eqb_spec v h); [contradiction|]. destruct (i_op _ V1 _ _ K) as (P1 & k' & P2 & P3). split; [exact P1|]. exists k'. split; [|right; exact P3].
           replace (mem v (t_pending s ++ [h])) with (mem v (t_pending s)); [exact P2|]. apply eq_true_iff_eq. rewrite !mem_in, in_app_iff. cbn. intuition congruence.
        -- injection K as <- <-. rewrite N.eqb_refl. split; [reflexivity|]. exists k. split; [|right; exact Y]. replace (mem h (t_pending s ++ [h])) with true; [reflexivity|]. symmetry. apply mem_in, in_app_iff. right. left. reflexivity.
      * intros v K. rewrite map_app, in_app_iff in K. cbn in K. assert (N : v <> h) by (intros ->; tauto). unfold put. destruct (N.eqb_spec v h); [contradiction|]. destruct (i_no _ V1 v) as (P1 & P2 & P3); [tauto|]. split; [exact P1|]. split; [exact P2|]. rewrite in_app_iff. cbn. intuition congruence.
      * apply nodup_snoc; [apply V1|exact C].
      * intros v K. destruct (i_sent _ V1 _ K) as [P1 P2]. specialize (P2 GG). assert (N : v <> h) by (intros ->; contradiction). split; [rewrite in_app_iff; cbn; intuition congruence|]. intros _. rewrite map_app, in_app_iff. left. exact P2.
      * rewrite GG. split; [intros [K|K]; [discriminate|contradiction]|discriminate].
      * split; intro K; right; apply (i_rel _ V1); exact K.
      * apply trace_accept; [|apply V1]. split; [intros _; exact T1|]. rewrite <- (i_open _ V1). auto.
    + unfold release_op. cbn [set_armed set_op t_ops]. rewrite put_same. cbn [o_refs o_hold]. rewrite N.eqb_refl.
      apply (quiet_inv s1 _ (O_FULL h)); try reflexivity; try assumption; try discriminate.
      * split; [intros _; exact T1|]. intros id R. rewrite <- (i_open _ V1). exact (find_full _ _ _ (i_next _ V1) E R).
      * intro y. cbn. rewrite put_put. destruct (N.eqb_spec y h) as [->|]; [symmetry; exact A|reflexivity].
      * intro y. cbn. rewrite put_put. destruct (N.eqb_spec y h) as [->|]; [symmetry; exact B|reflexivity].
  - apply (quiet_inv s1 _ (O_INVALID h)); try reflexivity; try assumption; try discriminate. split; [intros _; exact T1|exact I].
Qed.
Lemma fail_all_eq t : forall s, (forall id h, In (id, h) t -> exists k, t_ops s h = Some (mkdata k id 1 false)) ->
  fail_all t s = mkstate (t_user s) (t_detached s) (t_refs s) (t_dying s) (t_gone s) (t_next s) (t_table s) (t_ops s) (t_pending s) (t_sent s) (t_armed s) (t_count s) (rev (map (fun p => O_DONE (snd p) (fst p) DESTROYED) t) ++ t_out s) (t_crash s).
Proof.
  induction t as [|[id h] t IH]; intros s H; [destruct s; reflexivity|]. cbn [fail_all]. destruct (H id h (or_introl eq_refl)) as [k K]. rewrite K. rewrite IH by (intros i v J; apply H; right; exact J). cbn [emit t_user t_detached t_refs t_dying t_gone t_next t_table t_ops t_pending t_sent t_armed t_count t_out t_crash o_id map rev fst snd]. rewrite <- app_assoc. reflexivity.
Qed.
Lemma release_all_eq t : forall s, NoDup (map snd t) -> (forall id h, In (id, h) t -> exists k, t_ops s h = Some (mkdata k id 1 false)) -> exists ops armed,
  release_all t s = mkstate (t_user s) (t_detached s) (t_refs s) (t_dying s) (t_gone s) (t_next s) (t_table s) ops (t_pending s) (t_sent s) armed (t_count s) (t_out s) (t_crash s)
  /\ (forall y, In y (map snd t) -> ops y = None /\ armed y = false) /\ (forall y, ~ In y (map snd t) -> ops y = t_ops s y /\ armed y = t_armed s y).
Proof.
  induction t as [|[id h] t IH]; intros s D H; [exists (t_ops s), (t_armed s); split; [destruct s; reflexivity|split; [intros y []|auto]]|]. inversion D as [|? ? X Y]; subst. cbn [release_all]. destruct (H id h (or_introl eq_refl)) as [k K]. unfold release_op. rewrite K. cbn [o_refs o_hold]. rewrite N.eqb_refl.
  destruct (IH (set_armed h false (set_op h None s)) Y) as (ops & armed & E & A & B).
  { intros i v J. cbn. unfold put. destruct (N.eqb_spec v h) as [->|]; [destruct X; exact (in_snd _ _ _ J)|]. exact (H i v (or_intror J)). }
  exists ops, armed. split; [exact E|]. split.
  - intros y [J|J]; [|exact (A y J)]. cbn in J. subst y. destruct (B h X) as [-> ->]. cbn. rewrite !put_same. auto.
  - intros y J. cbn [map snd] in J. destruct (B y) as [-> ->]; [intro Q; apply J; right; exact Q|]. cbn. unfold put. destruct (N.eqb_spec y h) as [->|]; [exfalso; apply J; left; reflexivity|auto].
Qed.
Lemma trace_destroyed t : forall l, open l = t -> trace l -> ~ In O_TERMINATED l -> In I_DESTROY l -> let l' := rev (map (fun p => O_DONE (snd p) (fst p) DESTROYED) t) ++ l in
  trace l' /\ open l' = [] /\ ~ In O_TERMINATED l' /\ (forall h, accepted h l' -> accepted h l) /\ forall e, In e l -> In e l'.
Proof.
  induction t as [|[id h] t IH]; intros l O R T D; [exact (conj R (conj O (conj T (conj (fun _ K => K) (fun _ K => K)))))|]. cbn [map rev fst snd].
  assert (X : NoDup (map snd (open l))) by apply R. rewrite O in X. cbn in X. inversion X as [|? ? X1 X2]; subst.
  assert (O1 : open (O_DONE h id DESTROYED :: l) = t). { cbn [open]. rewrite O. cbn. rewrite N.eqb_refl. cbn. apply filter_same. intros [a b] K. cbn. destruct (N.eqb_spec b h) as [->|]; [destruct X1; exact (in_snd _ _ _ K)|reflexivity]. }
  assert (R1 : trace (O_DONE h id DESTROYED :: l)). { apply trace_done; [|exact R]. split; [intros _; exact T|]. split; [rewrite O; left; reflexivity|]. right. right. auto. }
  destruct (IH _ O1 R1) as (A & B & C & E & F); [intros [K|K]; [discriminate|contradiction]|right; exact D|]. rewrite <- app_assoc. cbn [app]. split; [exact A|]. split; [exact B|]. split; [exact C|]. split; [|intros e K; apply F; right; exact K].
  intros v K. apply E in K. destruct K as [i [K|K]]; [discriminate|exists i; exact K].
Qed.
Lemma destroy_inv s : inv s -> t_dying s = true -> t_gone s = false -> inv (destroy s) /\ t_out (destroy s) = O_TERMINATED :: rev (map (fun p => O_DONE (snd p) (fst p) DESTROYED) (t_table s)) ++ I_DESTROY :: t_out s.
Proof.
  intros V D G. destruct (dying_no_pending _ V D) as (P & DT & U & R0). assert (T : ~ In O_TERMINATED (t_out s)) by (rewrite (i_term _ V); congruence).
  assert (H : forall id h, In (id, h) (t_table s) -> exists k, t_ops s h = Some (mkdata k id 1 false)). { intros id h K. destruct (i_op _ V _ _ K) as (_ & k & B & _). rewrite P in B. exists k. exact B. }
  unfold destroy. rewrite fail_all_eq by exact H. destruct (release_all_eq (t_table s) (mkstate (t_user (emit I_DESTROY s)) (t_detached (emit I_DESTROY s)) (t_refs (emit I_DESTROY s)) (t_dying (emit I_DESTROY s)) (t_gone (emit I_DESTROY s)) (t_next (emit I_DESTROY s)) (t_table (emit I_DESTROY s)) (t_ops (emit I_DESTROY s)) (t_pending (emit I_DESTROY s)) (t_sent (emit I_DESTROY s)) (t_armed (emit I_DESTROY s)) (t_count (emit I_DESTROY s)) (rev (map (fun p => O_DONE (snd p) (fst p) DESTROYED) (t_table s)) ++ t_out (emit I_DESTROY s)) (t_crash (emit I_DESTROY s)))) as (ops & armed & E & A & B).
  { rewrite (i_open _ V). apply V. } { exact H. }
  rewrite E. cbn [emit t_user t_detached t_refs t_dying t_gone t_next t_table t_ops t_pending t_sent t_armed t_count t_out t_crash] in *.
  split; [|reflexivity]. assert (RD : trace (I_DESTROY :: t_out s)) by (apply trace_plain; [reflexivity|split; [discriminate|exact I]|apply V]).
  destruct (trace_destroyed (t_table s) (I_DESTROY :: t_out s)) as (C1 & C2 & C3 & C4 & C5); [symmetry; apply V|exact RD|intros [K|K]; [discriminate|contradiction]|left; reflexivity|].
  assert (Z : forall y, ops y = None /\ armed y = false). { intro y. destruct (in_dec N.eq_dec y (map snd (t_table s))) as [K|K]; [exact (A y K)|]. destruct (B y K) as [-> ->]. destruct (i_no _ V _ K) as (Q1 & Q2 & _). auto. }
  destruct (i_rel _ V) as [L1 L2].
  constructor; cbn [emit t_user t_detached t_refs t_dying t_gone t_next t_table t_ops t_pending t_sent t_armed t_count t_out t_crash open map].
  - apply V.
  - apply V.
  - apply V.
  - auto.
  - apply V.
  - apply V.
  - symmetry. exact C2.
  - intros v [K|[]]. apply acc_cons in K; [|reflexivity]. apply C4 in K. apply acc_cons in K; [|reflexivity]. apply (i_old _ V). left. exact K.
  - intros id h [].
  - intros y _. destruct (Z y) as [-> ->]. rewrite P. auto.
  - apply V.
  - intros v K. split; [apply (i_sent _ V); exact K|discriminate].
  - split; [reflexivity|intros _; left; reflexivity].
  - split; intro K; right; apply C5; right; auto.
  - apply trace_plain; [reflexivity| |exact C1]. split; [intros _; exact C3|]. split; [exact C2|]. split; apply C5; right; auto.
Qed.
Lemma handle_inv s o : inv s -> inv (handle s o).
Proof.
  intro V. destruct o as [k v|h w|h c p| | |]; cbn [handle].
  - destruct (t_user s) eqn:U; [apply call_inv; assumption|exact V].
  - destruct (mem h (t_pending s)) eqn:M; [apply submit_inv; [exact V|apply mem_in, M]|exact V].
  - destruct (mem h (t_sent s)) eqn:M; [apply complete_inv; [exact V|apply mem_in, M]|exact V].
  - destruct (t_user s) eqn:U; [|exact V]. assert (Z := V). destruct Z. constructor; cbn; auto.
    + intros h K. apply i_old0. destruct K as [K|K]; [left; apply acc_cons in K; [exact K|reflexivity]|right; exact K].
    + intros id h K. destruct (i_op0 _ _ K) as (A & k & B & C). split; [exact A|]. exists k. auto.
    + apply (term_cons s I_RELEASE V). discriminate.
    + split; [auto|]. intro K. right. apply i_rel0. exact K.
    + apply trace_plain; [reflexivity|split; [discriminate|exact I]|exact i_trace0].
  - destruct (t_user s) eqn:U; [exact V|]. destruct (t_detached s) eqn:D; [exact V|]. cbn [negb andb]. assert (R := i_refs _ V). rewrite D in R. unfold len in R.
    assert (G : t_gone s = false). { destruct (t_gone s) eqn:G; [|reflexivity]. destruct (i_gone _ V G) as [Y _]. destruct (dying_no_pending _ V Y) as (_ & Q & _). congruence. }
    rewrite release_adapter_ok; [|exact G|cbn; lia]. assert (Z := V). destruct Z. constructor; cbn; auto.
    + unfold len. lia.
    + destruct (N.eqb_spec (t_refs s) 1), (N.eqb_spec (t_refs s - 1) 0); lia || reflexivity.
    + congruence.
    + intros h K. apply i_old0. destruct K as [K|K]; [left; apply acc_cons in K; [exact K|reflexivity]|right; exact K].
    + intros id h K. destruct (i_op0 _ _ K) as (A & k & B & C). split; [exact A|]. exists k. auto.
    + apply (term_cons s I_DETACHED V). discriminate.
    + split; [|auto]. intro K. right. apply i_rel0. exact U.
    + apply trace_plain; [reflexivity|split; [discriminate|exact I]|exact i_trace0].
  - destruct (t_dying s) eqn:D; [|exact V]. destruct (t_gone s) eqn:G; [exact V|]. cbn. apply destroy_inv; assumption.
Qed.
Lemma history_inv l : inv (history l).
Proof. unfold history. assert (G : forall s, inv s -> inv (fold_left handle l s)) by (induction l as [|o l IH]; cbn; auto using handle_inv). apply G, initial_inv. Qed.
Lemma each_at f tr : each f tr -> forall later e earlier, tr = later ++ e :: earlier -> f e earlier.
Proof. induction tr as [|a t IH]; intros E later e earlier Q; [destruct later; discriminate|]. destruct later as [|b later]; injection Q as -> ->; [exact (proj1 E)|exact (IH (proj2 E) _ _ _ eq_refl)]. Qed.

(** ** What the trace says about tasks, the client and the listener *)
Definition core (s : state) := (t_sent s, t_pending s, t_out s, t_count s, t_detached s).
Lemma core_adapter s : core (release_adapter s) = core s. Proof. unfold release_adapter. destruct (t_gone s || (t_refs s =? 0)); reflexivity. Qed.
Lemma core_op h s : core (release_op h s) = core s.
Proof. unfold release_op. destruct (t_ops s h) as [d|]; [|reflexivity]. destruct (o_refs d =? 1); [|reflexivity]. destruct (o_hold d); [rewrite core_adapter|]; reflexivity. Qed.
Lemma core_cross h s : core (release_cross h s) = core s.
Proof. unfold release_cross. destruct (t_ops s h) as [d|]; [|reflexivity]. rewrite core_op. destruct (o_hold d); [rewrite core_adapter|]; reflexivity. Qed.
Lemma core_remove id s : core (remove id s) = core s.
Proof. unfold remove. destruct (t_gone s); [reflexivity|]. destruct (find _ _); [rewrite core_op|]; reflexivity. Qed.
Record linked (c : list N * list N * list event * N * bool) : Prop := {
  k_sent : forall h, In (O_SENT h) (snd (fst (fst c))) -> In h (fst (fst (fst (fst c)))) \/ exists e p, In (I_COMPLETED h e p) (snd (fst (fst c)));
  k_task : forall h, In h (snd (fst (fst (fst c)))) -> ~ In (I_TASK h) (snd (fst (fst c)));
  k_told : forall h, In (I_TASK h) (snd (fst (fst c))) \/ In h (snd (fst (fst (fst c)))) -> h < snd (fst c);
  k_det : In I_DETACHED (snd (fst (fst c))) -> snd c = true }.
Lemma linked_out a p o n d x : linked (a, p, o, n, d) -> (forall e, In e x -> (forall h, e <> O_SENT h) /\ (forall h, e <> I_TASK h) /\ e <> I_DETACHED) -> linked (a, p, x ++ o, n, d).
Proof.
  intros [A B C D] X. constructor; cbn in *.
  - intros h K. apply in_app_iff in K as [K|K]; [destruct (X _ K) as [Q _]; destruct (Q h); reflexivity|]. destruct (A h K) as [J|(e & q & J)]; [auto|right; exists e, q; apply in_app_iff; auto].
  - intros h K J. apply in_app_iff in J as [J|J]; [destruct (X _ J) as (_ & Q & _); destruct (Q h); reflexivity|exact (B h K J)].
  - intros h [K|K]; [apply in_app_iff in K as [K|K]; [destruct (X _ K) as (_ & Q & _); destruct (Q h); reflexivity|auto]|auto].
  - intro K. apply in_app_iff in K as [K|K]; [destruct (X _ K) as (_ & _ & Q); congruence|auto].
Qed.
Lemma core_fail t : forall s, exists x, core (fail_all t s) = (t_sent s, t_pending s, x ++ t_out s, t_count s, t_detached s) /\ forall e, In e x -> exists h i c, e = O_DONE h i c.
Proof.
  induction t as [|[i h] t IH]; intro s; [exists []; split; [reflexivity|intros e []]|]. cbn. destruct (t_ops s h) as [d|]; [|exact (IH (crash s))]. destruct (IH (emit (O_DONE h (o_id d) DESTROYED) s)) as (x & E & X). exists (x ++ [O_DONE h (o_id d) DESTROYED]). rewrite <- app_assoc. split; [exact E|]. intros e K. apply in_app_iff in K as [K|[<-|[]]]; eauto.
Qed.
Lemma core_release t : forall s, core (release_all t s) = core s.
Proof. induction t as [|[i h] t IH]; intro s; [reflexivity|]. cbn. rewrite IH. apply core_op. Qed.
Lemma handle_linked s o : linked (core s) -> linked (core (handle s o)).
Proof.
  intro K. destruct o as [k v|h w|h c p| | |]; cbn [handle].
  - destruct (t_user s); [|exact K]. unfold call. destruct v; cbn [negb].
    + assert (Q : linked (t_sent s, t_pending s, I_CALL (t_count s) k :: t_out s, t_count s + 1, t_detached s)). { destruct K as [A B C D]; constructor; cbn in *; [intros h [J|J]; [discriminate|]; destruct (A h J) as [|(e & q & ?)]; [auto|right; exists e, q; auto]|intros h J [F|F]; [discriminate|exact (B h J F)]| |intros [J|J]; [discriminate|auto]]. intros h J. assert (h < t_count s); [|lia]. apply C. destruct J as [[J|J]|J]; [discriminate|auto|auto]. }
      destruct (find_id _ _ _) as [id|].
      * unfold core. cbn. assert (F : forall h, In h (t_pending s ++ [t_count s]) -> In h (t_pending s) \/ h = t_count s) by (intros h J; apply in_app_iff in J as [J|[<-|[]]]; auto). apply (linked_out _ _ _ _ _ [O_ACCEPTED (t_count s) id]); [|intros e [<-|[]]; split; [discriminate|split; discriminate]]. destruct K as [_ _ C0 _]. cbn in C0. destruct Q as [A B C D]. constructor; cbn in *; auto.
        -- intros h J. destruct (F h J) as [J'| ->]; [apply B; exact J'|]. intros [L|L]; [discriminate|]. assert (t_count s < t_count s) by (apply C0; auto). lia.
        -- intros h [J|J]; [apply C; auto|]. destruct (F h J) as [J'| ->]; [apply C; auto|lia].
      * unfold emit at 1. match goal with |- linked (core (mkstate _ _ _ _ _ _ _ _ (t_pending ?a) _ _ _ _ _)) => assert (E := core_op (t_count s) (set_armed (t_count s) true (set_op (t_count s) (Some (mkdata k 0 1 false)) (mkstate (t_user s) (t_detached s) (t_refs s) (t_dying s) (t_gone s) (t_next s) (t_table s) (t_ops s) (t_pending s) (t_sent s) (t_armed s) (t_count s + 1) (I_CALL (t_count s) k :: t_out s) (t_crash s))))); change (core (mkstate (t_user a) (t_detached a) (t_refs a) (t_dying a) (t_gone a) (t_next a) (t_table a) (t_ops a) (t_pending a) (t_sent a) (t_armed a) (t_count a) (O_FULL (t_count s) :: t_out a) (t_crash a))) with (t_sent a, t_pending a, [O_FULL (t_count s)] ++ t_out a, t_count a, t_detached a); set (b := a) in * end.
        clearbody b. unfold core in E. injection E as -> -> -> -> ->. apply linked_out; [exact Q|]. intros e [<-|[]]. split; [discriminate|split; discriminate].
    + unfold core. cbn. apply (linked_out _ _ _ _ _ [O_INVALID (t_count s); I_CALL (t_count s) k]); [|intros e [<-|[<-|[]]]; (split; [discriminate|split; discriminate])]. destruct K as [A B C D]. constructor; cbn in *; auto. intros h J. assert (h < t_count s); [auto|lia].
  - destruct (mem h (t_pending s)) eqn:M; [|exact K]. apply mem_in in M.
    assert (Q : linked (t_sent s, without h (t_pending s), I_TASK h :: t_out s, t_count s, t_detached s)). { destruct K as [A B C D]. constructor; cbn in *.
      - intros v [J|J]; [discriminate|]. destruct (A v J) as [|(e & q & ?)]; [auto|right; exists e, q; auto].
      - intros v J [F|F]; apply without_in in J; [injection F as <-; tauto|exact (B v (proj1 J) F)].
      - intros v [[J|J]|J]; [injection J as <-; auto|auto|]. apply without_in in J. apply C. tauto.
      - intros [J|J]; [discriminate|auto]. }
    unfold submit. cbn [t_ops]. destruct (t_ops s h) as [d|]; [|exact Q]. rewrite core_cross.
    assert (Q1 : linked (t_sent s ++ [h], without h (t_pending s), O_SENT h :: I_TASK h :: t_out s, t_count s, t_detached s)). { destruct Q as [A B C D]. constructor; cbn in *.
      - intros v [J|J]; [injection J as <-; left; apply in_app_iff; right; left; reflexivity|]. destruct (A v J) as [L|(e & q & L)]; [left; apply in_app_iff; auto|right; exists e, q; auto].
      - intros v J [F|F]; [discriminate|exact (B v J F)].
      - intros v [[J|J]|J]; [discriminate|auto|auto].
      - intros [J|J]; [discriminate|auto]. }
    assert (Q2 : forall e p c, linked (t_sent s, without h (t_pending s), O_DONE h (o_id d) c :: I_COMPLETED h e p :: O_SENT h :: I_TASK h :: t_out s, t_count s, t_detached s)). { intros e p c. apply (linked_out _ _ _ _ _ [O_DONE h (o_id d) c]); [|intros x [<-|[]]; split; [discriminate|split; discriminate]]. destruct Q as [A B C D]. constructor; cbn in *.
      - intros v [J|[J|J]]; [discriminate|injection J as <-; right; exists e, p; auto|]. destruct (A v J) as [L|(x & q & L)]; [auto|right; exists x, q; auto].
      - intros v J [F|[F|F]]; [discriminate|discriminate|exact (B v J F)].
      - intros v [[J|[J|J]]|J]; [discriminate|discriminate|auto|auto].
      - intros [J|[J|J]]; [discriminate|discriminate|auto]. }
    assert (Q3 : linked (t_sent s, without h (t_pending s), O_DONE h (o_id d) NO_TOPICS :: I_TASK h :: t_out s, t_count s, t_detached s)) by (apply (linked_out _ _ _ _ _ [O_DONE h (o_id d) NO_TOPICS]); [exact Q|intros x [<-|[]]; split; [discriminate|split; discriminate]]).
    destruct (o_kind d), w; rewrite ?core_remove; first [exact Q1|exact Q3|exact (Q2 _ _ _)].
  - destruct (mem h (t_sent s)) eqn:M; [|exact K].
    assert (Q : linked (without h (t_sent s), t_pending s, I_COMPLETED h c p :: t_out s, t_count s, t_detached s)). { destruct K as [A B C D]. constructor; cbn in *.
      - intros v [J|J]; [discriminate|]. destruct (N.eq_dec v h) as [->|N]; [right; exists c, p; auto|]. destruct (A v J) as [L|(e & q & L)]; [left; apply without_in; auto|right; exists e, q; auto].
      - intros v J [F|F]; [discriminate|exact (B v J F)].
      - intros v [[J|J]|J]; [discriminate|auto|auto].
      - intros [J|J]; [discriminate|auto]. }
    unfold complete. destruct (t_armed s h); cbn [negb]; [|exact Q]. cbn [t_ops]. destruct (t_ops s h) as [d|]; [|exact Q]. rewrite core_remove. apply (linked_out _ _ _ _ _ [O_DONE h (o_id d) (final (o_kind d) c p)]); [exact Q|intros x [<-|[]]; split; [discriminate|split; discriminate]].
  - destruct (t_user s); [|exact K]. apply (linked_out _ _ _ _ _ [I_RELEASE]); [exact K|intros x [<-|[]]; split; [discriminate|split; discriminate]].
  - destruct (negb (t_user s) && negb (t_detached s)); [|exact K]. rewrite core_adapter. destruct K as [A B C D]. constructor; cbn in *; auto.
    + intros v [J|J]; [discriminate|]. destruct (A v J) as [L|(e & q & L)]; [auto|right; exists e, q; auto].
    + intros v J [F|F]; [discriminate|exact (B v J F)].
    + intros v [[J|J]|J]; [discriminate|auto|auto].
  - destruct (t_dying s && negb (t_gone s)); [|exact K]. unfold destroy. assert (E := core_release (t_table s) (fail_all (t_table s) (emit I_DESTROY s))). set (b := release_all _ _) in *. clearbody b. destruct (core_fail (t_table s) (emit I_DESTROY s)) as (x & F & X). rewrite F in E. unfold core in E |- *. cbn. injection E as -> -> -> -> ->.
    apply (linked_out _ _ _ _ _ [O_TERMINATED]); [|intros e [<-|[]]; split; [discriminate|split; discriminate]]. apply linked_out; [|intros e J; destruct (X e J) as (? & ? & ? & ->); split; [discriminate|split; discriminate]]. apply (linked_out _ _ _ _ _ [I_DESTROY]); [exact K|intros e [<-|[]]; split; [discriminate|split; discriminate]].
Qed.
Lemma history_linked l : linked (core (history l)).
Proof. unfold history. assert (G : forall s, linked (core s) -> linked (core (fold_left handle l s))) by (induction l as [|o l IH]; cbn; auto using handle_linked). apply G. constructor; cbn; tauto. Qed.
Lemma open_accepted id h l : In (id, h) (open l) -> In (O_ACCEPTED h id) l.
Proof. induction l as [|e l IH]; cbn; [tauto|]. destruct e; try (intro K; right; apply IH; exact K). - intro K. apply in_app_iff in K as [K|[K|[]]]; [right; apply IH; exact K|injection K as <- <-; left; reflexivity]. - intro K. apply filter_In in K. right. apply IH. tauto. Qed.
Lemma classify h l : accepted h l \/ ~ accepted h l.
Proof.
  induction l as [|e l [A|A]]; [right; intros [i []]|left; destruct A as [i K]; exists i; right; exact K|]. destruct e as [| | | | | |h' id| | | | |]; try (right; intros [i [J|J]]; [discriminate|apply A; exists i; exact J]).
  destruct (N.eq_dec h' h) as [->|N]; [left; exists id; left; reflexivity|right; intros [i [J|J]]; [congruence|apply A; exists i; exact J]].
Qed.
Lemma accepted_range h id l : each fits l -> In (O_ACCEPTED h id) l -> 1 <= id <= 65535.
Proof. intros E K. apply in_split in K as (l1 & l2 & ->). exact (proj1 (proj2 (each_at _ _ E _ _ _ eq_refl))). Qed.
Definition range : list N := map N.of_nat (seq 1 (N.to_nat 65535)).
Lemma range_in x : In x range <-> 1 <= x <= 65535.
Proof. unfold range. rewrite in_map_iff. split; [intros (n & <- & K); apply in_seq in K; lia|]. intro R. exists (N.to_nat x). split; [lia|]. apply in_seq. lia. Qed.
Lemma range_nodup : NoDup range.
Proof. unfold range. apply Injective_map_NoDup; [intros a b E; lia|apply seq_NoDup]. Qed.
Lemma range_length : length range = N.to_nat 65535.
Proof. unfold range. rewrite map_length, seq_length. reflexivity. Qed.
Lemma all_used l : N.of_nat (length l) < 65535 -> ~ (forall id, 1 <= id <= 65535 -> In id l).
Proof. intros L A. assert (K := NoDup_incl_length range_nodup (fun x J => A x (proj1 (range_in x) J))). rewrite range_length in K. lia. Qed.
Lemma too_many l id : NoDup l -> (forall x, In x l -> 1 <= x <= 65535) -> 1 <= id <= 65535 -> ~ In id l -> ~ 65535 <= N.of_nat (length l).
Proof.
  intros D A R N L. assert (D' : NoDup (id :: l)) by (constructor; assumption). assert (I : incl (id :: l) range) by (intros x [<-|K]; apply range_in; auto). assert (K := NoDup_incl_length D' I). rewrite range_length in K. cbn [length] in K. lia.
Qed.
