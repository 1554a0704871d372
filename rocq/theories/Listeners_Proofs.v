(** The invariant of listeners *)
From Verif Require Import Base Listeners_Model Listeners_Spec.

Definition teq (a b : task) : {a = b} + {a <> b}. Proof. decide equality; apply N.eq_dec. Defined.
Notation cnt := (count_occ teq).
Definition who (e : N * (N * handlers)) : N := fst (snd e).
(** what is true of every event of the trace and what was before it *)
Definition fits (e : event) (l : list event) : Prop :=
  match e with
  | O_PUBLISH u _ | O_EVENT u _ => In u (attached l)
  | O_TERMINATED u => In u (attached l) /\ held u l = 0 /\ ~ In (O_TERMINATED u) l
  | I_NEW u _ => forall h, ~ In (I_NEW u h) l
  | T_INIT u => ~ In (T_INIT u) l /\ exists h, In (I_NEW u h) l
  | _ => True
  end.
Fixpoint each (l : list event) : Prop := match l with [] => True | e :: m => fits e m /\ each m end.
Lemma each_at l : each l -> forall later e earlier, l = later ++ e :: earlier -> fits e earlier.
Proof. intros H later. revert l H. induction later as [|x later IH]; intros l H e earlier ->; destruct H as [F H]; [exact F|]. exact (IH _ H _ _ eq_refl). Qed.

Definition fresh (out : list event) (tasks : list task) (count u : N) : Prop :=
  (u < count -> In (O_TERMINATED u) out) /\ (count <= u -> forall h, ~ In (I_NEW u h) out) /\ held u out = 0 /\ cnt tasks (INIT u) = O /\ cnt tasks (TERM u) = O /\ ~ In u (attached out) /\ (In (T_INIT u) out -> u < count) /\ (In (O_TERMINATED u) out -> u < count).
Definition live (out : list event) (tasks : list task) (sets : list (N * (N * handlers))) (count u : N) (o : obj) : Prop :=
  u < count /\ In (I_NEW u (o_handlers o)) out /\ ~ In (O_TERMINATED u) out /\
  ((~ In (T_INIT u) out /\ o_refs o = held u out + 1 /\ cnt tasks (INIT u) = 1%nat /\ cnt tasks (TERM u) = O /\ ~ In u (attached out))
   \/ (In (T_INIT u) out /\ o_refs o = held u out /\ cnt tasks (INIT u) = O /\ cnt tasks (TERM u) = (if held u out =? 0 then 1%nat else O) /\ In (o_set o, (u, o_handlers o)) sets)).
Definition obj_ok out tasks sets count u (o : option obj) : Prop := match o with None => fresh out tasks count u | Some o => live out tasks sets count u o end.
Record inv (n : N) (s : state) : Prop := {
  v_crash : s_crash s = false;
  v_obj : forall u, obj_ok (s_out s) (s_tasks s) (s_sets s) (s_count s) u (s_objs s u);
  v_sets : map who (s_sets s) = attached (s_out s);
  v_entry : forall id u h, In (id, (u, h)) (s_sets s) -> id < s_next s /\ exists o, s_objs s u = Some o /\ o_set o = id /\ o_handlers o = h;
  v_ids : NoDup (map fst (s_sets s));
  v_next : s_next s <= n + 1;
  v_one : forall u h h', In (I_NEW u h) (s_out s) -> In (I_NEW u h') (s_out s) -> h = h';
  v_each : each (s_out s) }.

Lemma cnt_app l x y : cnt (l ++ [x]) y = (cnt l y + if teq x y then 1 else 0)%nat.
Proof. rewrite count_occ_app. cbn. destruct (teq x y); reflexivity. Qed.
Lemma cnt_drop n l t : nth_error l n = Some t -> forall y, cnt l y = (cnt (drop n l) y + if teq t y then 1 else 0)%nat.
Proof.
  revert n. induction l as [|x l IH]; intros [|n] E y; cbn in *; try discriminate.
  - injection E as ->. destruct (teq t y); lia.
  - rewrite (IH _ E y). destruct (teq x y); lia.
Qed.
Lemma polite_app a b : polite (a ++ b) -> polite b.
Proof. intros H later earlier u [E|E]; subst b; apply (H (a ++ later) earlier u); [left|right]; rewrite <- app_assoc; reflexivity. Qed.
Lemma polite_acquire u b : polite (I_ACQUIRE u :: b) -> 0 < held u b.
Proof. intro H. apply (H [] b u). auto. Qed.
Lemma polite_release u b : polite (I_RELEASE u :: b) -> 0 < held u b.
Proof. intro H. apply (H [] b u). auto. Qed.

Lemma remove_in id l e : In e (remove_set id l) -> In e l.
Proof. induction l as [|x l IH]; cbn; [tauto|]. destruct (fst x =? id); cbn; intuition. Qed.
Lemma remove_other id l e : In e l -> fst e <> id -> In e (remove_set id l).
Proof. induction l as [|x l IH]; cbn; [tauto|]. intros [->|H] K; [destruct (N.eqb_spec (fst e) id); [congruence|cbn; auto]|]. destruct (fst x =? id); cbn; auto. Qed.
Lemma remove_nodup id l : NoDup (map fst l) -> NoDup (map fst (remove_set id l)).
Proof.
  induction l as [|x l IH]; cbn; intro H; [constructor|]. inversion H; subst. destruct (fst x =? id); [assumption|]. cbn. constructor; [|auto].
  intro K. apply in_map_iff in K. destruct K as (y & E & K). apply H2. rewrite <- E. apply in_map. eapply remove_in; eauto.
Qed.
Lemma filter_all u (l : list N) : ~ In u l -> filter (fun v => negb (v =? u)) l = l.
Proof. induction l as [|x l IH]; cbn; intro H; [reflexivity|]. destruct (N.eqb_spec x u) as [->|]; [exfalso; auto|]. cbn. rewrite IH; auto. Qed.
Lemma remove_who id u l : NoDup (map fst l) -> (forall e, In e l -> fst e = id <-> who e = u) -> map who (remove_set id l) = filter (fun v => negb (v =? u)) (map who l).
Proof.
  induction l as [|x l IH]; cbn; intros N H; [reflexivity|]. inversion N; subst. destruct (N.eqb_spec (fst x) id) as [E|E].
  - assert (who x = u) as -> by (apply H; auto). rewrite N.eqb_refl. cbn. symmetry. apply filter_all. intro K. apply in_map_iff in K. destruct K as (y & Y & K). apply H2. rewrite E. replace id with (fst y) by (apply H; auto). apply in_map. exact K.
  - destruct (N.eqb_spec (who x) u) as [F|F]; [exfalso; apply E, H; auto|]. cbn. rewrite IH; auto.
Qed.

Lemma new_inv n h s : inv n s -> inv (n + 1) (new h s).
Proof.
  intros V. assert (F := v_obj _ _ V (s_count s)). destruct (s_objs s (s_count s)) as [o|] eqn:O; [destruct F as [F _]; lia|]. destruct F as (F1 & F2 & F3 & F4 & F5 & F6 & F7 & F8). constructor; cbn; try apply V.
  - intro u. unfold put. destruct (N.eqb_spec u (s_count s)) as [->|U].
    + unfold obj_ok, live. cbn. split; [lia|]. split; [auto|]. split; [intros [K|K]; [discriminate|specialize (F8 K); lia]|]. left. rewrite N.eqb_refl, F3. split; [intros [K|K]; [discriminate|specialize (F7 K); lia]|]. split; [reflexivity|]. rewrite !cnt_app, F4, F5. destruct (teq _ _); [|congruence]. destruct (teq _ _); [discriminate|]. auto.
    + assert (G := v_obj _ _ V u). destruct (s_objs s u) as [o|]; unfold obj_ok, live in *; cbn in *.
      * destruct G as (A & B & C & D). split; [lia|]. split; [auto|]. split; [intros [K|K]; [discriminate|auto]|]. rewrite !cnt_app. destruct (teq (INIT (s_count s)) (INIT u)); [congruence|]. destruct (teq (INIT (s_count s)) (TERM u)); [discriminate|].
        destruct (N.eqb_spec (s_count s) u); [congruence|]. rewrite !Nat.add_0_r. destruct D as [(D1 & D)|(D1 & D)]; [left|right]; (split; [|exact D]); [intros [K|K]; [discriminate|auto]|auto].
      * destruct G as (A & B & C & D & E & G & H & I). unfold fresh. cbn. rewrite !cnt_app. destruct (teq (INIT (s_count s)) (INIT u)); [congruence|]. destruct (teq (INIT (s_count s)) (TERM u)); [discriminate|]. destruct (N.eqb_spec (s_count s) u); [congruence|]. rewrite !Nat.add_0_r.
        repeat split; auto.
        -- intro L. right. apply A. lia.
        -- intros L h0 [K|K]; [congruence|]. apply (B ltac:(lia) _ K).
        -- intros [K|K]; [discriminate|]. specialize (H K). lia.
        -- intros [K|K]; [discriminate|]. specialize (I K). lia.
  - intros id u h0 K. destruct (v_entry _ _ V id u h0 K) as (A & o & B & C). split; [exact A|]. exists o. unfold put. destruct (N.eqb_spec u (s_count s)); [congruence|]. auto.
  - assert (L := v_next _ _ V). lia.
  - intros u a b [A|A] [B|B]; try congruence.
    + injection A as <- <-. exfalso. exact (F2 ltac:(lia) _ B).
    + injection B as <- <-. exfalso. exact (F2 ltac:(lia) _ A).
    + eapply (v_one _ _ V); eauto.
  - split; [|apply V]. apply F2. lia.
Qed.

(** an event about a listener leaves the others alone *)
Lemma other_acquire out tasks sets count u v o : u <> v -> obj_ok out tasks sets count v o -> obj_ok (I_ACQUIRE u :: out) tasks sets count v o.
Proof.
  intros U. unfold obj_ok, fresh, live. cbn. destruct (N.eqb_spec u v); [congruence|]. destruct o as [o|].
  - intros (A & B & C & D). split; [auto|]. split; [auto|]. split; [intros [K|K]; [discriminate|auto]|]. destruct D as [(D1 & D)|(D1 & D)]; [left|right]; (split; [|exact D]); [intros [K|K]; [discriminate|auto]|auto].
  - intros (A & B & C & D & E & G & H & I). repeat split; auto; [intros L h [K|K]; [discriminate|apply (B L _ K)]|intros [K|K]; [discriminate|auto]|intros [K|K]; [discriminate|auto]].
Qed.
Lemma other_release out tasks sets count u v o : u <> v -> obj_ok out tasks sets count v o -> obj_ok (I_RELEASE u :: out) tasks sets count v o.
Proof.
  intros U. unfold obj_ok, fresh, live. cbn. destruct (N.eqb_spec u v); [congruence|]. destruct o as [o|].
  - intros (A & B & C & D). split; [auto|]. split; [auto|]. split; [intros [K|K]; [discriminate|auto]|]. destruct D as [(D1 & D)|(D1 & D)]; [left|right]; (split; [|exact D]); [intros [K|K]; [discriminate|auto]|auto].
  - intros (A & B & C & D & E & G & H & I). repeat split; auto; [intros L h [K|K]; [discriminate|apply (B L _ K)]|intros [K|K]; [discriminate|auto]|intros [K|K]; [discriminate|auto]].
Qed.
Lemma other_tasks out tasks tasks' sets count v o : cnt tasks' (INIT v) = cnt tasks (INIT v) -> cnt tasks' (TERM v) = cnt tasks (TERM v) -> obj_ok out tasks sets count v o -> obj_ok out tasks' sets count v o.
Proof. intros E F. unfold obj_ok, fresh, live. rewrite E, F. auto. Qed.

Lemma acquire_inv n u s : inv n s -> polite (s_out (acquire u (emit (I_ACQUIRE u) s))) -> inv (n + 1) (acquire u (emit (I_ACQUIRE u) s)).
Proof.
  intros V P. assert (F := v_obj _ _ V u). unfold acquire in *. cbn [s_objs emit s_out] in *. destruct (s_objs s u) as [o|] eqn:O.
  2:{ cbn in P. apply polite_acquire in P. destruct F as (_ & _ & F & _). lia. }
  assert (H : 0 < held u (s_out s)) by (apply polite_acquire; destruct (o_refs o =? 0); exact P). destruct F as (A & B & C & D).
  destruct (N.eqb_spec (o_refs o) 0); [exfalso; destruct D as [(_ & D & _)|(_ & D & _)]; lia|]. constructor; cbn; try apply V.
  - intro v. unfold put. destruct (N.eqb_spec v u) as [->|U].
    + unfold obj_ok, live. cbn. split; [auto|]. split; [auto|]. split; [intros [K|K]; [discriminate|auto]|]. cbn. rewrite N.eqb_refl. destruct D as [(D1 & D2 & D)|(D1 & D2 & D3 & D4 & D5)]; [left|right].
      * split; [intros [K|K]; [discriminate|auto]|]. split; [lia|exact D].
      * split; [auto|]. split; [lia|]. split; [auto|]. rewrite D4. destruct (N.eqb_spec (held u (s_out s)) 0); [lia|]. destruct (N.eqb_spec (held u (s_out s) + 1) 0); [lia|]. auto.
    + apply other_acquire; [congruence|]. apply V.
  - intros id v h K. destruct (v_entry _ _ V id v h K) as (X & o' & Y & Z). split; [exact X|]. unfold put. destruct (N.eqb_spec v u) as [->|]; [|eauto]. rewrite O in Y. injection Y as <-. eexists. split; [reflexivity|exact Z].
  - assert (L := v_next _ _ V). lia.
  - intros v a b [K|K] [K'|K']; try discriminate. eapply (v_one _ _ V); eauto.
  - split; [exact I|apply V].
Qed.
Lemma release_inv n u s : inv n s -> polite (s_out (release u (emit (I_RELEASE u) s))) -> inv (n + 1) (release u (emit (I_RELEASE u) s)).
Proof.
  intros V P. assert (F := v_obj _ _ V u). unfold release in *. cbn [s_objs emit s_out] in *. destruct (s_objs s u) as [o|] eqn:O.
  2:{ cbn in P. apply polite_release in P. destruct F as (_ & _ & F & _). lia. }
  assert (H : 0 < held u (s_out s)) by (apply polite_release; destruct (o_refs o =? 0); [exact P|destruct (o_refs o =? 1); exact P]). destruct F as (A & B & C & D).
  destruct (N.eqb_spec (o_refs o) 0); [exfalso; destruct D as [(_ & D & _)|(_ & D & _)]; lia|]. cbv zeta.
  set (tasks' := if o_refs o =? 1 then s_tasks s ++ [TERM u] else s_tasks s).
  assert (E : forall f, (if o_refs o =? 1 then set_tasks (s_tasks (set_objs f (emit (I_RELEASE u) s)) ++ [TERM u]) (set_objs f (emit (I_RELEASE u) s)) else set_objs f (emit (I_RELEASE u) s)) = set_tasks tasks' (set_objs f (emit (I_RELEASE u) s))) by (intro f; unfold tasks'; destruct (o_refs o =? 1); reflexivity).
  rewrite E. clear E P. constructor; cbn; try apply V.
  - intro v. unfold put. destruct (N.eqb_spec v u) as [->|U].
    + unfold obj_ok, live. cbn. split; [auto|]. split; [auto|]. split; [intros [K|K]; [discriminate|auto]|]. cbn. rewrite N.eqb_refl. unfold tasks'. destruct D as [(D1 & D2 & D3 & D4 & D5)|(D1 & D2 & D3 & D4 & D5)]; [left|right].
      * split; [intros [K|K]; [discriminate|auto]|]. split; [lia|]. destruct (N.eqb_spec (o_refs o) 1); [lia|]. auto.
      * split; [auto|]. split; [lia|]. rewrite D2. destruct (N.eqb_spec (held u (s_out s)) 0); [lia|]. destruct (N.eqb_spec (held u (s_out s)) 1) as [L|L].
        -- rewrite !cnt_app, D3, D4, L. destruct (teq _ _); [discriminate|]. destruct (teq _ _); [|congruence]. auto.
        -- destruct (N.eqb_spec (held u (s_out s) - 1) 0); [lia|]. auto.
    + apply other_release; [congruence|]. eapply other_tasks; [| |apply V]; unfold tasks'; destruct (o_refs o =? 1); auto; rewrite cnt_app; destruct (teq _ _); try congruence; lia.
  - intros id v h K. destruct (v_entry _ _ V id v h K) as (X & o' & Y & Z). split; [exact X|]. unfold put. destruct (N.eqb_spec v u) as [->|]; [|eauto]. rewrite O in Y. injection Y as <-. eexists. split; [reflexivity|exact Z].
  - assert (L := v_next _ _ V). lia.
  - intros v a b [K|K] [K'|K']; try discriminate. eapply (v_one _ _ V); eauto.
  - split; [exact I|apply V].
Qed.

Lemma cnt_run n l t y : nth_error l n = Some t -> t <> y -> cnt (drop n l) y = cnt l y.
Proof. intros E K. rewrite (cnt_drop _ _ _ E y). destruct (teq t y); [congruence|lia]. Qed.
Lemma cnt_ran n l t : nth_error l n = Some t -> cnt l t = S (cnt (drop n l) t).
Proof. intros E. rewrite (cnt_drop _ _ _ E t). destruct (teq t t); [lia|congruence]. Qed.

Lemma init_inv n k u s : inv n s -> n + 2 < two64 -> nth_error (s_tasks s) k = Some (INIT u) -> inv (n + 1) (init_task u (emit (T_INIT u) (set_tasks (drop k (s_tasks s)) s))).
Proof.
  intros V L K. assert (F := v_obj _ _ V u). unfold init_task, release. cbn [s_objs emit s_out set_tasks s_next s_sets s_tasks s_count s_client s_crash]. assert (Q := cnt_ran _ _ _ K). destruct (s_objs s u) as [o|] eqn:O.
  2:{ destruct F as (_ & _ & _ & F & _). congruence. }
  destruct F as (A & B & C & [(D1 & D2 & D3 & D4 & D5)|(_ & _ & D & _)]); [|congruence].
  unfold put at 1. rewrite N.eqb_refl. cbn [o_refs o_set o_handlers]. destruct (N.eqb_spec (o_refs o) 0); [lia|]. cbv zeta. cbn [set_objs s_next s_sets s_objs s_tasks s_count s_client s_out s_crash].
  assert (M := v_next _ _ V). rewrite (N.mod_small (s_next s + 1)) by lia.
  set (tasks' := if o_refs o =? 1 then drop k (s_tasks s) ++ [TERM u] else drop k (s_tasks s)).
  match goal with |- inv _ (if _ then set_tasks _ ?x else _) => assert (E : (if o_refs o =? 1 then set_tasks (drop k (s_tasks s) ++ [TERM u]) x else x) = set_tasks tasks' x) by (unfold tasks'; destruct (o_refs o =? 1); reflexivity) end.
  rewrite E. clear E. assert (T : ~ In u (map who (s_sets s))) by (rewrite (v_sets _ _ V); exact D5). constructor; cbn.
  - apply V.
  - intro v. unfold put. destruct (N.eqb_spec v u) as [->|U].
    + unfold obj_ok, live. cbn. split; [auto|]. split; [auto|]. split; [intros [X|X]; [discriminate|auto]|]. right. cbn. split; [auto|]. split; [lia|]. unfold tasks'. destruct (N.eqb_spec (o_refs o) 1) as [X|X].
      * rewrite !cnt_app, (cnt_run _ _ _ (TERM u) K) by discriminate. destruct (teq _ _); [discriminate|]. destruct (teq _ _); [|congruence]. destruct (N.eqb_spec (held u (s_out s)) 0); [|lia]. split; [lia|]. split; [lia|auto].
      * rewrite (cnt_run _ _ _ (TERM u) K) by discriminate. destruct (N.eqb_spec (held u (s_out s)) 0); [lia|]. split; [lia|]. auto.
    + assert (G := v_obj _ _ V v). assert (C1 : cnt tasks' (INIT v) = cnt (s_tasks s) (INIT v)) by (unfold tasks'; destruct (o_refs o =? 1); rewrite ?cnt_app, (cnt_run _ _ _ (INIT v) K) by congruence; [destruct (teq _ _); [discriminate|lia]|reflexivity]).
      assert (C2 : cnt tasks' (TERM v) = cnt (s_tasks s) (TERM v)) by (unfold tasks'; destruct (o_refs o =? 1); rewrite ?cnt_app, (cnt_run _ _ _ (TERM v) K) by congruence; [destruct (teq _ _); [congruence|lia]|reflexivity]).
      unfold obj_ok, fresh, live in *. cbn. rewrite C1, C2. destruct (s_objs s v) as [o'|].
      * destruct G as (A' & B' & C' & D'). split; [auto|]. split; [auto|]. split; [intros [X|X]; [discriminate|auto]|]. destruct D' as [(X1 & X2 & X3 & X4 & X5)|(X1 & X2 & X3 & X4 & X5)]; [left|right].
        -- split; [intros [X|X]; [congruence|auto]|]. repeat (split; [auto|]). intros [X|X]; [congruence|auto].
        -- split; [auto|]. auto.
      * destruct G as (A' & B' & C' & D' & E & G & H & I). repeat split; auto; [intros Y h [X|X]; [discriminate|apply (B' Y _ X)]|intros [X|X]; [congruence|auto]|intros [X|X]; [congruence|auto]|intros [X|X]; [discriminate|auto]].
  - rewrite (v_sets _ _ V). reflexivity.
  - intros id v h [X|X].
    + injection X as <- <- <-. split; [lia|]. unfold put. rewrite N.eqb_refl. eexists. split; [reflexivity|auto].
    + destruct (v_entry _ _ V id v h X) as (Y & o' & Z). split; [lia|]. exists o'. unfold put. destruct (N.eqb_spec v u) as [->|]; [|exact Z]. exfalso. apply T. apply (in_map who) in X. exact X.
  - constructor; [|apply V]. intro X. apply in_map_iff in X. destruct X as ([id [v h]] & E & X). apply (v_entry _ _ V) in X. cbn in E. lia.
  - lia.
  - intros v a b [X|X] [Y|Y]; try discriminate. eapply (v_one _ _ V); eauto.
  - split; [|apply V]. split; [auto|eauto].
Qed.

Lemma term_inv n k u s : inv n s -> nth_error (s_tasks s) k = Some (TERM u) -> inv (n + 1) (term_task u (set_tasks (drop k (s_tasks s)) s)).
Proof.
  intros V K. assert (F := v_obj _ _ V u). unfold term_task. cbn [s_objs emit s_out set_tasks s_next s_sets s_tasks s_count s_client s_crash]. assert (Q := cnt_ran _ _ _ K). destruct (s_objs s u) as [o|] eqn:O.
  2:{ destruct F as (_ & _ & _ & _ & F & _). congruence. }
  destruct F as (A & B & C & [(_ & _ & _ & D & _)|(D1 & D2 & D3 & D4 & D5)]); [congruence|]. destruct (N.eqb_spec (held u (s_out s)) 0) as [Z|]; [|congruence].
  assert (W : forall e, In e (s_sets s) -> fst e = o_set o <-> who e = u).
  { intros [id [v h]] X. cbn. destruct (v_entry _ _ V id v h X) as (_ & o' & Y & S & _). split.
    - intros ->. assert (NoDup (map fst (s_sets s))) as N by apply V. clear - N X D5. induction (s_sets s) as [|x l IH]; [destruct X|]. inversion N; subst. destruct X as [X|X], D5 as [D|D].
      + congruence.
      + exfalso. apply H1. apply (in_map fst) in D. rewrite X. exact D.
      + exfalso. apply H1. apply (in_map fst) in X. rewrite D. exact X.
      + auto.
    - intros ->. congruence. }
  constructor; cbn.
  - apply V.
  - intro v. unfold put. destruct (N.eqb_spec v u) as [->|U].
    + cbn. unfold fresh. cbn. rewrite (cnt_run _ _ _ (INIT u) K) by discriminate. repeat split; auto; try lia.
      intro X. apply filter_In in X. rewrite N.eqb_refl in X. destruct X; discriminate.
    + assert (G := v_obj _ _ V v). unfold obj_ok, fresh, live in *. cbn. rewrite (cnt_run _ _ _ (INIT v) K), (cnt_run _ _ _ (TERM v) K) by congruence. destruct (s_objs s v) as [o'|].
      * destruct G as (A' & B' & C' & D'). split; [auto|]. split; [auto|]. split; [intros [X|X]; [congruence|auto]|]. destruct D' as [(X1 & X2 & X3 & X4 & X5)|(X1 & X2 & X3 & X4 & X5)]; [left|right].
        -- split; [intros [X|X]; [discriminate|auto]|]. repeat (split; [auto|]). intro X. apply filter_In in X. tauto.
        -- repeat (split; [auto|]). apply remove_other; [exact X5|]. cbn. intro Y. apply U. apply (W _ X5). exact Y.
      * destruct G as (A' & B' & C' & D' & E & G & H & I). repeat split; auto; [intros Y h [X|X]; [discriminate|apply (B' Y _ X)]|intro X; apply filter_In in X; tauto|intros [X|X]; [discriminate|auto]|intros [X|X]; [congruence|auto]].
  - rewrite (remove_who _ u); [|apply V|exact W]. rewrite (v_sets _ _ V). reflexivity.
  - intros id v h X. assert (R := remove_in _ _ _ X). destruct (v_entry _ _ V id v h R) as (Y & o' & S1 & S2 & S3). split; [exact Y|]. exists o'. unfold put. destruct (N.eqb_spec v u) as [->|]; [|auto]. exfalso.
    assert (M : In u (map who (remove_set (o_set o) (s_sets s)))) by (apply (in_map who) in X; exact X). rewrite (remove_who _ u) in M; [|apply V|exact W]. apply filter_In in M. rewrite N.eqb_refl in M. destruct M; discriminate.
  - apply remove_nodup. apply V.
  - assert (L := v_next _ _ V). lia.
  - intros v a b [X|X] [Y|Y]; try discriminate. eapply (v_one _ _ V); eauto.
  - split; [|apply V]. split; [|auto]. rewrite <- (v_sets _ _ V). apply (in_map who) in D5. exact D5.
Qed.

(** callbacks change nothing but the trace *)
Definition silent (e : event) : Prop := match e with O_PUBLISH _ _ | O_EVENT _ _ | O_OWN_PUBLISH _ | O_OWN_EVENT _ => True | _ => False end.
Definition calls (s s' : state) : Prop := exists o, s' = mkstate (s_next s) (s_sets s) (s_objs s) (s_count s) (s_client s) (s_tasks s) (o ++ s_out s) (s_crash s) /\ Forall (fun e => silent e /\ forall u, (forall m, e <> O_PUBLISH u m) /\ (forall m, e <> O_EVENT u m) \/ In u (map who (s_sets s))) o.
Lemma silent_attached o l : Forall silent o -> attached (o ++ l) = attached l /\ forall u, held u (o ++ l) = held u l.
Proof. induction 1 as [|e o S F [IH IH2]]; [auto|]. destruct e; destruct S; cbn; auto. Qed.
Lemma silent_in o l e : Forall silent o -> ~ silent e -> In e (o ++ l) <-> In e l.
Proof. intros F S. rewrite in_app_iff. split; [|auto]. intros [K|K]; [|exact K]. rewrite Forall_forall in F. destruct (S (F _ K)). Qed.
Lemma calls_inv n s s' : inv n s -> calls s s' -> inv (n + 1) s'.
Proof.
  intros V (o & -> & F). assert (S : Forall silent o) by (eapply Forall_impl; [|exact F]; cbn; tauto). destruct (silent_attached o (s_out s) S) as [A H]. constructor; cbn; try apply V.
  - intro u. assert (G := v_obj _ _ V u). destruct (s_objs s u); cbn in *; unfold fresh, live in *; rewrite A, H, !(silent_in o (s_out s)) by (auto || (cbn; tauto)); auto.
    destruct G as (G1 & G2 & G). split; [auto|]. split; [|exact G]. intros L h. rewrite (silent_in o (s_out s)) by (auto || (cbn; tauto)). auto.
  - rewrite A. apply V.
  - assert (L := v_next _ _ V). lia.
  - intros u a b X Y. rewrite (silent_in o (s_out s)) in X, Y by (auto || (cbn; tauto)). eapply (v_one _ _ V); eauto.
  - assert (E := v_each _ _ V). assert (T := v_sets _ _ V). clear - F S E T. induction o as [|e o IH]; [exact E|]. inversion F; subst. inversion S; subst. destruct (silent_attached o (s_out s) H4) as [A _]. split; [|auto]. destruct H1 as [_ H1]. destruct e; try destruct H3; cbn; auto; rewrite A, <- T; destruct (H1 u) as [[X Y]|]; auto; [destruct (X m)|destruct (Y e)]; reflexivity.
Qed.

Lemma offered_shape cf tr m answer l s : (forall id u h, In (id, (u, h)) l -> (for_publish tr u <-> h_publish h = true)) ->
  exists o b, offered tr m (fun u => cf_five cf && answer u) (map who l) o b /\
    publish cf m answer l s = mkstate (s_next s) (s_sets s) (s_objs s) (s_count s) (s_client s) (s_tasks s) (rev (o ++ if negb b && (cf_five cf && cf_publish cf) then [O_OWN_PUBLISH m] else []) ++ s_out s) (s_crash s).
Proof.
  revert s. induction l as [|[id [u h]] l IH]; intros s H; cbn [map publish who fst snd].
  - exists [], false. split; [constructor|]. cbn. destruct (cf_five cf && cf_publish cf); destruct s; reflexivity.
  - assert (P := H id u h (or_introl eq_refl)). assert (H' : forall id u h, In (id, (u, h)) l -> (for_publish tr u <-> h_publish h = true)) by (intros; eapply H; right; eauto). destruct (h_publish h) eqn:E.
    + destruct (cf_five cf && answer u) eqn:F; cbv zeta.
      * exists [O_PUBLISH u m], true. split; [apply F_handled; [tauto|exact F]|]. destruct s; reflexivity.
      * destruct (IH (emit (O_PUBLISH u m) s) H') as (o & b & O & ->). exists (O_PUBLISH u m :: o), b. split; [apply F_passed; [tauto|exact F|exact O]|]. cbn. rewrite <- app_assoc. reflexivity.
    + destruct (IH s H') as (o & b & O & ->). exists o, b. split; [apply F_skip; [intro K; apply P in K; discriminate|exact O]|]. reflexivity.
Qed.
Lemma told_shape cf tr e l s : (forall id u h, In (id, (u, h)) l -> (for_event tr e u <-> h_event h e = true)) ->
  exists o, told tr e (map who l) o /\
    tell cf e l s = mkstate (s_next s) (s_sets s) (s_objs s) (s_count s) (s_client s) (s_tasks s) (rev (o ++ if cf_five cf && cf_event cf then [O_OWN_EVENT e] else []) ++ s_out s) (s_crash s).
Proof.
  revert s. induction l as [|[id [u h]] l IH]; intros s H; cbn [map tell who fst snd].
  - exists []. split; [constructor|]. cbn. destruct (cf_five cf && cf_event cf); destruct s; reflexivity.
  - assert (P := H id u h (or_introl eq_refl)). assert (H' : forall id u h, In (id, (u, h)) l -> (for_event tr e u <-> h_event h e = true)) by (intros; eapply H; right; eauto). destruct (h_event h e) eqn:E.
    + destruct (IH (emit (O_EVENT u e) s) H') as (o & O & ->). exists (O_EVENT u e :: o). split; [apply D_told; [tauto|exact O]|]. cbn. rewrite <- app_assoc. reflexivity.
    + destruct (IH s H') as (o & O & ->). exists o. split; [apply D_skip; [intro K; apply P in K; discriminate|exact O]|]. reflexivity.
Qed.
Lemma entry_publish n s : inv n s -> forall id u h, In (id, (u, h)) (s_sets s) -> (for_publish (s_out s) u <-> h_publish h = true).
Proof.
  intros V id u h K. destruct (v_entry _ _ V id u h K) as (_ & o & O & _ & E). assert (F := v_obj _ _ V u). rewrite O in F. destruct F as (_ & F & _). rewrite E in F. split; [|intro; exists h; auto]. intros (h' & X & Y). rewrite (v_one _ _ V u h h' F X). exact Y.
Qed.
Lemma entry_event n s e : inv n s -> forall id u h, In (id, (u, h)) (s_sets s) -> (for_event (s_out s) e u <-> h_event h e = true).
Proof.
  intros V id u h K. destruct (v_entry _ _ V id u h K) as (_ & o & O & _ & E). assert (F := v_obj _ _ V u). rewrite O in F. destruct F as (_ & F & _). rewrite E in F. split; [|intro; exists h; auto]. intros (h' & X & Y). rewrite (v_one _ _ V u h h' F X). exact Y.
Qed.
Lemma offered_in tr m f l o b : offered tr m f l o b -> Forall (fun e => exists u, e = O_PUBLISH u m /\ In u l) o.
Proof.
  induction 1.
  - constructor.
  - eapply Forall_impl; [|exact IHoffered]. intros e (v & -> & K). exists v. cbn. auto.
  - repeat constructor. exists u. cbn. auto.
  - constructor; [exists u; cbn; auto|]. eapply Forall_impl; [|exact IHoffered]. intros e (v & -> & K). exists v. cbn. auto.
Qed.
Lemma told_in tr e l o : told tr e l o -> Forall (fun x => exists u, x = O_EVENT u e /\ In u l) o.
Proof.
  induction 1.
  - constructor.
  - eapply Forall_impl; [|exact IHtold]. intros x (v & -> & K). exists v. cbn. auto.
  - constructor; [exists u; cbn; auto|]. eapply Forall_impl; [|exact IHtold]. intros x (v & -> & K). exists v. cbn. auto.
Qed.
Lemma publish_calls n cf m answer s : inv n s -> calls s (publish cf m answer (s_sets s) s).
Proof.
  intro V. destruct (offered_shape cf (s_out s) m answer (s_sets s) s (entry_publish _ _ V)) as (o & b & O & ->). eexists. split; [reflexivity|]. apply offered_in in O. apply Forall_rev. apply Forall_app. split.
  - eapply Forall_impl; [|exact O]. intros e (u & -> & K). split; [exact I|]. intro v. destruct (N.eq_dec v u) as [->|]; [auto|]. left. split; congruence.
  - destruct (negb b && (cf_five cf && cf_publish cf)); [|constructor]. constructor; [split; [exact I|intro u; left; split; discriminate]|constructor].
Qed.
Lemma tell_calls n cf e s : inv n s -> calls s (tell cf e (s_sets s) s).
Proof.
  intro V. destruct (told_shape cf (s_out s) e (s_sets s) s (entry_event _ _ e V)) as (o & O & ->). eexists. split; [reflexivity|]. apply told_in in O. apply Forall_rev. apply Forall_app. split.
  - eapply Forall_impl; [|exact O]. intros x (u & -> & K). split; [exact I|]. intro v. destruct (N.eq_dec v u) as [->|]; [auto|]. left. split; congruence.
  - destruct (cf_five cf && cf_event cf); [|constructor]. constructor; [split; [exact I|intro u; left; split; discriminate]|constructor].
Qed.

Lemma weaken n s : inv n s -> inv (n + 1) s.
Proof. intro V. constructor; try apply V. assert (L := v_next _ _ V). lia. Qed.
Lemma handle_inv n cf o s : inv n s -> n + 2 < two64 -> polite (s_out (handle cf s o)) -> inv (n + 1) (handle cf s o).
Proof.
  intros V L. unfold handle. rewrite (v_crash _ _ V). destruct o; intro P.
  - apply new_inv; auto.
  - apply acquire_inv; auto.
  - apply release_inv; auto.
  - destruct (nth_error (s_tasks s) n0) as [[u|u]|] eqn:E; [apply init_inv; auto|eapply term_inv; eauto|apply weaken; auto].
  - eapply calls_inv; [exact V|]. eapply publish_calls; eauto.
  - eapply calls_inv; [exact V|]. eapply tell_calls; eauto.
Qed.
(** the trace only grows *)
Lemma publish_grows cf m answer l s : exists x, s_out (publish cf m answer l s) = x ++ s_out s.
Proof.
  revert s. induction l as [|[id [u h]] l IH]; intro s; cbn.
  - destruct (_ && _); [exists [O_OWN_PUBLISH m]|exists []]; reflexivity.
  - destruct (h_publish h); [|apply IH]. destruct (_ && _); [exists [O_PUBLISH u m]; reflexivity|]. destruct (IH (emit (O_PUBLISH u m) s)) as (x & ->). exists (x ++ [O_PUBLISH u m]). rewrite <- app_assoc. reflexivity.
Qed.
Lemma tell_grows cf e l s : exists x, s_out (tell cf e l s) = x ++ s_out s.
Proof.
  revert s. induction l as [|[id [u h]] l IH]; intro s; cbn.
  - destruct (_ && _); [exists [O_OWN_EVENT e]|exists []]; reflexivity.
  - destruct (h_event h e); [|apply IH]. destruct (IH (emit (O_EVENT u e) s)) as (x & ->). exists (x ++ [O_EVENT u e]). rewrite <- app_assoc. reflexivity.
Qed.
Lemma release_out u s : s_out (release u s) = s_out s.
Proof. unfold release. destruct (s_objs s u) as [o|]; [|reflexivity]. destruct (o_refs o =? 0); [reflexivity|]. cbv zeta. destruct (o_refs o =? 1); reflexivity. Qed.
Lemma acquire_out u s : s_out (acquire u s) = s_out s.
Proof. unfold acquire. destruct (s_objs s u) as [o|]; [|reflexivity]. destruct (o_refs o =? 0); reflexivity. Qed.
Lemma grows cf s o : exists x, s_out (handle cf s o) = x ++ s_out s.
Proof.
  unfold handle. destruct (s_crash s); [exists []; reflexivity|]. destruct o.
  - exists [I_NEW (s_count s) h]. reflexivity.
  - exists [I_ACQUIRE u]. rewrite acquire_out. reflexivity.
  - exists [I_RELEASE u]. rewrite release_out. reflexivity.
  - destruct (nth_error (s_tasks s) n) as [[u|u]|]; [| |exists []; reflexivity].
    + exists [T_INIT u]. unfold init_task. cbn [s_objs emit set_tasks]. destruct (s_objs s u); [rewrite release_out|]; reflexivity.
    + unfold term_task. cbn [s_objs set_tasks]. destruct (s_objs s u); [exists [O_TERMINATED u]|exists []]; reflexivity.
  - apply publish_grows.
  - apply tell_grows.
Qed.
Lemma initial_inv : inv 0 initial.
Proof.
  constructor; cbn; [reflexivity| |reflexivity|tauto|constructor|lia|tauto|exact I]. intro u. unfold fresh. cbn. repeat split; auto; try lia; tauto.
Qed.
Lemma history_inv cf l : len l + 1 < two64 -> polite (s_out (history cf l)) -> inv (len l) (history cf l).
Proof.
  induction l as [|o l IH] using rev_ind; intros L P; [exact initial_inv|]. unfold history, len in *. rewrite fold_left_app, app_length in *. cbn [fold_left length] in *. destruct (grows cf (fold_left (handle cf) l initial) o) as (x & G).
  assert (P' := P). rewrite G in P'. apply polite_app in P'. replace (N.of_nat (length l + 1)) with (N.of_nat (length l) + 1) in * by lia. apply handle_inv; [apply IH; [lia|exact P']|lia|exact P].
Qed.

(** a prefix of a polite history is one *)
Lemma history_grows cf l l' : exists x, s_out (history cf (l ++ l')) = x ++ s_out (history cf l).
Proof.
  induction l' as [|o l' IH] using rev_ind; [exists []; rewrite app_nil_r; reflexivity|]. destruct IH as (x & E). unfold history in *. rewrite app_assoc, fold_left_app. cbn [fold_left].
  destruct (grows cf (fold_left (handle cf) (l ++ l') initial) o) as (y & ->). rewrite E. exists (y ++ x). apply app_assoc.
Qed.
Lemma attached_init tr u : In u (attached tr) -> In (T_INIT u) tr.
Proof. induction tr as [|e tr IH]; cbn; [tauto|]. destruct e; cbn; auto. - intros [<-|K]; auto. - intro K. apply filter_In in K. tauto. Qed.
Lemma attached_not_over tr u : each tr -> In u (attached tr) -> ~ In (O_TERMINATED u) tr.
Proof.
  induction tr as [|e tr IH]; cbn; [tauto|]. intros [F E]. destruct e; cbn in *; try (intros K [X|X]; [discriminate|exact (IH E K X)]).
  - intros [<-|K] [X|X]; try discriminate; [|exact (IH E K X)]. apply in_split in X. destruct X as (a & b & ->). destruct F as [F _]. apply F. destruct (each_at _ E a (O_TERMINATED u0) b eq_refl) as [G _]. apply attached_init in G. apply in_app_iff. right. right. exact G.
  - intros K [X|X]; [injection X as ->; apply filter_In in K; rewrite N.eqb_refl in K; destruct K; discriminate|]. apply filter_In in K. exact (IH E (proj1 K) X).
Qed.
(** when no task is left, a listener nobody holds is over *)
Lemma settled n s u h : inv n s -> s_tasks s = [] -> In (I_NEW u h) (s_out s) -> held u (s_out s) = 0 -> In (O_TERMINATED u) (s_out s).
Proof.
  intros V T K H. assert (F := v_obj _ _ V u). rewrite T in F. destruct (s_objs s u) as [o|].
  - destruct F as (_ & _ & _ & [(_ & _ & F & _)|(_ & _ & _ & F & _)]); [discriminate|]. rewrite H in F. discriminate.
  - destruct F as (F1 & F2 & _). destruct (N.lt_ge_cases u (s_count s)) as [L|L]; [auto|]. destruct (F2 L _ K).
Qed.
(** running tasks ends *)
Fixpoint work (l : list task) : nat := match l with [] => O | INIT _ :: l => S (S (work l)) | TERM _ :: l => S (work l) end.
Lemma work_app a b : work (a ++ b) = (work a + work b)%nat.
Proof. induction a as [|[u|u] a IH]; cbn; lia. Qed.
Lemma release_work u s : s_crash (release u s) = true \/ (work (s_tasks (release u s)) <= S (work (s_tasks s)))%nat.
Proof. unfold release. destruct (s_objs s u) as [o|]; [|left; reflexivity]. destruct (o_refs o =? 0); [left; reflexivity|]. right. cbv zeta. destruct (o_refs o =? 1); cbn [s_tasks set_tasks set_objs]; [rewrite work_app|]; cbn [work]; lia. Qed.
Lemma run_work cf s : s_crash s = false -> s_tasks s <> [] -> s_crash (handle cf s (RUN 0)) = true \/ (work (s_tasks (handle cf s (RUN 0))) < work (s_tasks s))%nat.
Proof.
  intros C T. unfold handle. rewrite C. destruct (s_tasks s) as [|[u|u] l] eqn:E; [congruence| |]; cbn [nth_error drop].
  - unfold init_task. cbn [s_objs emit set_tasks]. destruct (s_objs s u) as [o|]; [|left; reflexivity]. match goal with |- context [release u ?x] => destruct (release_work u x) as [R|R] end; [left; exact R|right]. eapply Nat.le_lt_trans; [exact R|]. cbn [work]. apply Nat.lt_succ_diag_r.
  - unfold term_task. cbn [s_objs set_tasks]. destruct (s_objs s u); [right|left]; cbn; [lia|reflexivity].
Qed.
Lemma run_polite cf s : s_crash s = false -> polite (s_out s) -> polite (s_out (handle cf s (RUN 0))).
Proof.
  intros C P. unfold handle. rewrite C. destruct (nth_error (s_tasks s) 0) as [[u|u]|]; [| |exact P].
  - unfold init_task. cbn [s_objs emit set_tasks]. destruct (s_objs s u); [rewrite release_out|]; cbn; intros [|x later] earlier v [K|K]; try discriminate; injection K as _ K; eapply P; [left|right|left|right]; exact K.
  - unfold term_task. cbn [s_objs set_tasks]. destruct (s_objs s u); [|exact P]. cbn. intros [|x later] earlier v [K|K]; try discriminate; injection K as _ K; eapply P; [left|right]; exact K.
Qed.
Lemma run_held cf s u : held u (s_out (handle cf s (RUN 0))) = held u (s_out s).
Proof.
  unfold handle. destruct (s_crash s); [reflexivity|]. destruct (nth_error (s_tasks s) 0) as [[v|v]|]; [| |reflexivity].
  - unfold init_task. cbn [s_objs emit set_tasks]. destruct (s_objs s v); [rewrite release_out|]; reflexivity.
  - unfold term_task. cbn [s_objs set_tasks]. destruct (s_objs s v); reflexivity.
Qed.
Lemma run_all cf w : forall l, (work (s_tasks (history cf l)) <= w)%nat -> len l + N.of_nat w + 1 < two64 -> polite (s_out (history cf l)) ->
  exists k, (k <= w)%nat /\ s_tasks (history cf (l ++ repeat (RUN 0) k)) = [] /\ polite (s_out (history cf (l ++ repeat (RUN 0) k))) /\ forall u, held u (s_out (history cf (l ++ repeat (RUN 0) k))) = held u (s_out (history cf l)).
Proof.
  induction w as [|w IH]; intros l W L P.
  - exists O. cbn. rewrite app_nil_r. split; [lia|]. split; [|auto]. destruct (s_tasks (history cf l)) as [|[u|u] t]; cbn in W; [reflexivity|lia|lia].
  - destruct (s_tasks (history cf l)) as [|t ts] eqn:E; [exists O; cbn; rewrite app_nil_r; split; [lia|auto]|]. assert (V : inv (len l) (history cf l)) by (apply history_inv; [lia|exact P]).
    assert (ST : history cf (l ++ [RUN 0]) = handle cf (history cf l) (RUN 0)) by (unfold history; rewrite fold_left_app; reflexivity). assert (P' := run_polite cf _ (v_crash _ _ V) P). rewrite <- ST in P'.
    assert (LL : len (l ++ [RUN 0]) = len l + 1) by (unfold len; rewrite app_length; cbn; lia). assert (V' : inv (len (l ++ [RUN 0])) (history cf (l ++ [RUN 0]))) by (apply history_inv; [lia|exact P']).
    destruct (run_work cf (history cf l) (v_crash _ _ V) ltac:(congruence)) as [C|C]; rewrite <- ST in C; [rewrite (v_crash _ _ V') in C; discriminate|]. rewrite E in C.
    destruct (IH (l ++ [RUN 0]) ltac:(lia) ltac:(lia) P') as (k & K & A & B & H). exists (S k). cbn [repeat]. change (RUN 0 :: repeat (RUN 0) k) with ([RUN 0] ++ repeat (RUN 0) k). rewrite app_assoc. split; [lia|]. split; [exact A|]. split; [exact B|]. intro u. rewrite H, ST. apply run_held.
Qed.
(** the references to the client *)
Fixpoint over (tr : list event) : list N := match tr with [] => [] | O_TERMINATED u :: l => u :: over l | _ :: l => over l end.
Lemma over_in tr u : In u (over tr) <-> In (O_TERMINATED u) tr.
Proof.
  induction tr as [|e tr IH]; cbn; [tauto|]. destruct e; cbn; rewrite IH; split; intros K; try tauto; try (destruct K as [K|K]; [discriminate|tauto]).
  - destruct K as [->|K]; auto.
  - destruct K as [K|K]; [injection K as ->|]; auto.
Qed.
Lemma over_nodup tr : each tr -> NoDup (over tr).
Proof. induction tr as [|e tr IH]; cbn; [constructor|]. intros [F E]. destruct e; cbn in *; auto. constructor; [rewrite over_in; tauto|auto]. Qed.
Lemma over_few n s u o : inv n s -> s_objs s u = Some o -> len (over (s_out s)) < s_count s.
Proof.
  intros V O. assert (F := v_obj _ _ V u). rewrite O in F. destruct F as (L & _ & F & _). assert (N1 : NoDup (u :: over (s_out s))) by (constructor; [rewrite over_in; exact F|apply over_nodup, V]).
  assert (I : incl (u :: over (s_out s)) (map N.of_nat (seq 0 (N.to_nat (s_count s))))).
  { intros v K. assert (v < s_count s). { destruct K as [<-|K]; [exact L|]. apply over_in in K. assert (G := v_obj _ _ V v). destruct (s_objs s v) as [o'|]; [destruct G as [G _]; exact G|]. destruct G as (_ & _ & _ & _ & _ & _ & _ & G). auto. }
    apply in_map_iff. exists (N.to_nat v). split; [apply N2Nat.id|]. apply in_seq. lia. }
  apply (NoDup_incl_length N1) in I. rewrite map_length, seq_length in I. cbn in I. unfold len. lia.
Qed.
Lemma calls_same s s' : calls s s' -> s_client s' = s_client s /\ s_count s' = s_count s /\ over (s_out s') = over (s_out s).
Proof. intros (o & -> & F). cbn. split; [auto|]. split; [auto|]. induction F as [|e o [S _] F IH]; [reflexivity|]. destruct e; try destruct S; exact IH. Qed.
Lemma release_same u s : s_client (release u s) = s_client s /\ s_count (release u s) = s_count s.
Proof. unfold release. destruct (s_objs s u) as [o|]; [|auto]. destruct (o_refs o =? 0); [auto|]. cbv zeta. destruct (o_refs o =? 1); auto. Qed.
Lemma acquire_same u s : s_client (acquire u s) = s_client s /\ s_count (acquire u s) = s_count s.
Proof. unfold acquire. destruct (s_objs s u) as [o|]; [|auto]. destruct (o_refs o =? 0); auto. Qed.
Lemma client_refs cf l : len l + 1 < two64 -> polite (s_out (history cf l)) -> s_client (history cf l) + len (over (s_out (history cf l))) = s_count (history cf l).
Proof.
  induction l as [|o l IH] using rev_ind; intros L P; [reflexivity|]. destruct (history_grows cf l [o]) as (x & G). assert (P' := P). rewrite G in P'. apply polite_app in P'. assert (LL : len (l ++ [o]) = len l + 1) by (unfold len; rewrite app_length; cbn; lia).
  specialize (IH ltac:(lia) P'). assert (V : inv (len l) (history cf l)) by (apply history_inv; [lia|exact P']). clear G P P' x. unfold history in *. rewrite fold_left_app. cbn [fold_left]. set (s := fold_left (handle cf) l initial) in *. unfold handle. rewrite (v_crash _ _ V). destruct o.
  - cbn. lia.
  - rewrite acquire_out. destruct (acquire_same u (emit (I_ACQUIRE u) s)) as [-> ->]. exact IH.
  - rewrite release_out. destruct (release_same u (emit (I_RELEASE u) s)) as [-> ->]. exact IH.
  - destruct (nth_error (s_tasks s) n) as [[u|u]|]; [| |exact IH].
    + unfold init_task. cbn [s_objs emit set_tasks]. destruct (s_objs s u) as [o|]; [|exact IH]. rewrite release_out. match goal with |- context [release u ?x] => destruct (release_same u x) as [-> ->] end. exact IH.
    + unfold term_task. cbn [s_objs set_tasks]. destruct (s_objs s u) as [o|] eqn:O; [|exact IH]. assert (F := over_few _ _ _ _ V O). cbn. unfold len in *. cbn [length]. lia.
  - destruct (calls_same _ _ (publish_calls _ cf m answer s V)) as (-> & -> & ->). exact IH.
  - destruct (calls_same _ _ (tell_calls _ cf e s V)) as (-> & -> & ->). exact IH.
Qed.
Lemma attached_nodup tr : each tr -> NoDup (attached tr).
Proof.
  induction tr as [|e tr IH]; cbn; [constructor|]. intros [F E]. destruct e; cbn in *; auto.
  - constructor; [|auto]. intro K. apply attached_init in K. tauto.
  - apply NoDup_filter. auto.
Qed.
Lemma polite_step tr e : polite tr -> (forall u, e = I_ACQUIRE u \/ e = I_RELEASE u -> 0 < held u tr) -> polite (e :: tr).
Proof. intros P H [|x later] earlier u [K|K]; cbn in K; injection K as K1 K2; subst; [apply H; auto|apply H; auto|eapply P; left; reflexivity|eapply P; right; reflexivity]. Qed.
Lemma polite_nil : polite [].
Proof. intros [|x later] earlier u [K|K]; discriminate. Qed.
(** a case: listener 0 has both handlers, listener 1 only one for messages; then 0 is released *)
Definition both := mkhandlers true (fun _ => true).
Definition messages_only := mkhandlers true (fun _ => false).
Definition a_client := mkconfig true true true.
Definition two_listeners : list op := [NEW both; NEW messages_only; RUN 0; RUN 0; PUBLISH 7 (fun _ => false); PUBLISH 8 (fun u => u =? 1); EVENT 3].
Definition one_over : list op := two_listeners ++ [ACQUIRE 0; RELEASE 0; RELEASE 0; EVENT 4; RUN 0; EVENT 5].
Definition over_trace : list event :=
  [O_OWN_EVENT 5; O_TERMINATED 0; O_OWN_EVENT 4; O_EVENT 0 4; I_RELEASE 0; I_RELEASE 0; I_ACQUIRE 0; O_OWN_EVENT 3; O_EVENT 0 3; O_PUBLISH 1 8; O_OWN_PUBLISH 7; O_PUBLISH 0 7; O_PUBLISH 1 7; T_INIT 1; T_INIT 0; I_NEW 1 messages_only; I_NEW 0 both].
Lemma over_case : s_out (history a_client one_over) = over_trace.
Proof. vm_compute. reflexivity. Qed.
Lemma over_polite : polite over_trace.
Proof. unfold over_trace. repeat (apply polite_step; [|intros u [K|K]; (discriminate K || (injection K as <-; vm_compute; reflexivity))]). exact polite_nil. Qed.
Lemma over_filter tr : len (filter (fun e => match e with O_TERMINATED _ => true | _ => false end) tr) = len (over tr).
Proof. unfold len. f_equal. induction tr as [|e tr IH]; [reflexivity|]. destruct e; cbn; auto. Qed.
Definition made (tr : list event) : N := len (filter (fun e => match e with I_NEW _ _ => true | _ => false end) tr).
Lemma publish_made cf m answer l s : made (s_out (publish cf m answer l s)) = made (s_out s) /\ s_count (publish cf m answer l s) = s_count s.
Proof. revert s. induction l as [|[id [u h]] l IH]; intro s; cbn; [destruct (_ && _); auto|]. destruct (h_publish h); [|apply IH]. destruct (_ && _); [auto|]. exact (IH (emit (O_PUBLISH u m) s)). Qed.
Lemma tell_made cf e l s : made (s_out (tell cf e l s)) = made (s_out s) /\ s_count (tell cf e l s) = s_count s.
Proof. revert s. induction l as [|[id [u h]] l IH]; intro s; cbn; [destruct (_ && _); auto|]. destruct (h_event h e); [|apply IH]. exact (IH (emit (O_EVENT u e) s)). Qed.
Lemma made_filter cf l : len (filter (fun e => match e with I_NEW _ _ => true | _ => false end) (s_out (history cf l))) = s_count (history cf l).
Proof.
  fold (made (s_out (history cf l))). induction l as [|o l IH] using rev_ind; [reflexivity|]. unfold history in *. rewrite fold_left_app. cbn [fold_left]. set (s := fold_left (handle cf) l initial) in *. unfold handle. destruct (s_crash s); [exact IH|]. destruct o.
  - cbn. rewrite <- IH. unfold made, len. cbn. lia.
  - rewrite acquire_out. destruct (acquire_same u (emit (I_ACQUIRE u) s)) as [_ ->]. exact IH.
  - rewrite release_out. destruct (release_same u (emit (I_RELEASE u) s)) as [_ ->]. exact IH.
  - destruct (nth_error (s_tasks s) n) as [[u|u]|]; [| |exact IH].
    + unfold init_task. cbn [s_objs emit set_tasks]. destruct (s_objs s u) as [o|]; [|exact IH]. rewrite release_out. match goal with |- context [release u ?x] => destruct (release_same u x) as [_ ->] end. exact IH.
    + unfold term_task. cbn [s_objs set_tasks]. destruct (s_objs s u) as [o|]; exact IH.
  - destruct (publish_made cf m answer (s_sets s) s) as [-> ->]. exact IH.
  - destruct (tell_made cf e (s_sets s) s) as [-> ->]. exact IH.
Qed.
