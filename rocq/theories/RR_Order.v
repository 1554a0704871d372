(** Operations are taken from the queue in the order in which they were put there. *)
From Verif Require Import Base Split TopicAlias_Model TopicAlias_Proofs SubSet_Model Topic_Model Paths RR_Model RR_Spec RR_Steps RR_Decomp RR_Subs RR_Flights RR_Kinds RR_Trace RR_OpsTrace RR_Filters RR_All RR_Lives RR_Requests RR_Why RR_Streams RR_Tokens.
From Coq Require Import Permutation.

(** neither put in the queue nor taken from it *)
Definition still (x : out) : Prop := match x with I_QUEUED _ | O_INTAKE _ _ => False | _ => True end.
Definition stays (g g' : ghost) (m : list out) : Prop := forall o rest, g = LEAVING o rest -> (exists rest', g' = LEAVING o rest') \/ In (O_GONE (o_id o)) m.
Definition moves (g : ghost) (s : client) (g' : ghost) (s' : client) (m : list out) : Prop :=
  (c_queue s' = c_queue s /\ Forall still m /\ stays g g' m) \/
  (exists id, m = [I_QUEUED id] /\ c_queue s' = c_queue s ++ [id] /\ g = IDLE) \/
  (exists id a q, m = [O_INTAKE id a] /\ c_queue s = id :: q /\ c_queue s' = q /\ forall o rest, g <> LEAVING o rest) \/
  (exists o rest, m = [] /\ g = IDLE /\ g' = LEAVING o rest /\ c_queue s' = filter (fun i => negb (N.eqb (o_id o) i)) (c_queue s)).
Lemma fail_queue id e s : c_queue (fail id e s) = c_queue s.
Proof.
  unfold fail. destruct (get_op id s) as [o|]; [|reflexivity]. unfold complete, halt. destruct (o_kind o); [destruct (state_is _ _)|destruct (_ || _)]; reflexivity.
Qed.
Lemma listen_queue k id s f : c_queue (listen k id s f) = c_queue s.
Proof. unfold listen. destruct (get_sub f s); reflexivity. Qed.
Ltac st := intros ? ? K; first [discriminate K|injection K as <- <-; left; eexists; reflexivity|left; eexists; exact K].
Lemma prim_moves cf g s g' s' : J7 g s -> prim cf (g, s) (g', s') -> exists m, c_out s' = m ++ c_out s /\ moves g s g' s' m.
Proof.
  intros J P.
  assert (E0 : c_out s' = c_out s -> c_queue s' = c_queue s -> stays g g' [] -> exists m, c_out s' = m ++ c_out s /\ moves g s g' s' m) by (intros H1 H2 H3; exists []; split; [exact H1|left; split; [exact H2|split; [constructor|exact H3]]]).
  assert (E1 : forall x, c_out s' = x :: c_out s -> c_queue s' = c_queue s -> still x -> stays g g' [x] -> exists m, c_out s' = m ++ c_out s /\ moves g s g' s' m) by (intros x H1 H2 Hx H3; exists [x]; split; [exact H1|left; split; [exact H2|split; [constructor; [exact Hx|constructor]|exact H3]]]).
  inversion P; subst; try solve [apply E0; [reflexivity|reflexivity|st]]; try solve [eapply E1; [reflexivity|reflexivity|exact I|st]].
  - (* create *) rewrite create_shape in * by assumption. eapply E1; [reflexivity|reflexivity|exact I|st].
  - (* submitted *) exists [I_QUEUED id]. split; [apply submitted_out|]. right. left. exists id. split; [reflexivity|]. split; [|reflexivity]. destruct (submitted_is id now s) as [n ->]. reflexivity.
  - (* timeout *) set (s1 := upd_op (o_id o) (set_timed false) s) in *. pose proof (fail_queue (o_id o) E_TIMEOUT s1) as Hq. revert E0 E1 Hq. unfold fail. destruct (get_op (o_id o) s1) as [x|]; [|intros E0 E1 Hq; apply E0; [reflexivity|reflexivity|st]]. unfold complete, halt. destruct (o_kind x).
    + destruct (state_is _ _); intros E0 E1 Hq; [apply E0; [reflexivity|reflexivity|st]|eapply E1; [reflexivity|reflexivity|exact I|st]].
    + destruct (_ || _); intros E0 E1 Hq; [apply E0; [reflexivity|reflexivity|st]|eapply E1; [reflexivity|reflexivity|exact I|st]].
  - (* refuse *) exists [O_INTAKE id a]. split; [reflexivity|]. right. right. left. exists id, a, q. split; [reflexivity|]. split; [assumption|]. split; [reflexivity|discriminate].
  - (* listen *) apply E0; [apply listen_out|apply listen_queue|st].
  - (* took *) destruct (j7_head _ _ J o [] eq_refl) as [q Hq]. exists [O_INTAKE (o_id o) a]. split; [reflexivity|]. right. right. left. exists (o_id o), a, q. split; [reflexivity|]. split; [exact Hq|]. split; [cbn [emit set_queue c_queue]; rewrite Hq; reflexivity|discriminate].
  - (* tables *) apply E0; [apply add_tables_out|apply add_tables_queue|st].
  - (* wake *) apply E0; [apply wake_out|destruct (wake_is now s) as [n ->]; reflexivity|st].
  - (* established *) destruct (o_state o); (eapply E1; [reflexivity|reflexivity|exact I|st]).
  - (* acked *) destruct b; (eapply E1; [reflexivity|reflexivity|exact I|st]).
  - (* message *) rewrite streamed_exact. exists (messages topic payload (filter (listening (emit (I_MESSAGE topic payload j) s)) (recipients topic (emit (I_MESSAGE topic payload j) s))) ++ [I_MESSAGE topic payload j]). split; [rewrite <- app_assoc; reflexivity|]. left. split; [reflexivity|]. split; [|st].
    apply Forall_app. split; [|constructor; [exact I|constructor]]. unfold messages. apply Forall_rev, Forall_forall. intros x Hx. apply in_map_iff in Hx as (i & <- & _). exact I.
  - (* leave *) exists []. split; [reflexivity|]. right. right. right. exists o, (o_filters o). repeat split.
  - (* unlisten *) apply E0; [apply unlisten_out|apply unlisten_frame|st].
  - (* gone *) eapply E1; [cbn [emit c_out]; rewrite untabled_out; reflexivity|cbn [emit c_queue]; apply untabled_ops|exact I|]. intros o1 r1 K. injection K as <- _. right. left. reflexivity.
Qed.

(** [id] is over: it was taken from the queue, or it is destroyed *)
Definition off (g : ghost) (id : N) (l : list out) : Prop := (exists a, In (O_INTAKE id a) l) \/ In (O_GONE id) l \/ exists o rest, g = LEAVING o rest /\ o_id o = id.
Definition before (id1 id2 : N) (q : list N) : Prop := exists q1 q2, q = q1 ++ id1 :: q2 /\ In id2 q2.
Record J18 (g : ghost) (s : client) : Prop := {
  o_in : forall id, In (I_QUEUED id) (c_out s) -> In id (c_queue s) \/ off g id (c_out s);
  o_order : forall l1 id2 l2 id1, c_out s = l1 ++ I_QUEUED id2 :: l2 -> In (I_QUEUED id1) l2 -> In id2 (c_queue s) -> before id1 id2 (c_queue s) \/ off g id1 (c_out s) }.
Definition J19 (s : client) : Prop := forall l1 id2 a l2 m1 m2 id1, c_out s = l1 ++ O_INTAKE id2 a :: l2 -> l2 = m1 ++ I_QUEUED id2 :: m2 -> In (I_QUEUED id1) m2 -> (exists a1, In (O_INTAKE id1 a1) l2) \/ In (O_GONE id1) l2.
Lemma off_more g g' m l id : stays g g' m -> off g id l -> off g' id (m ++ l).
Proof.
  intros Hs [[a H]|[H|(o & rest & H & <-)]]; [left; exists a; apply in_or_app; auto|right; left; apply in_or_app; auto|]. destruct (Hs _ _ H) as [[rest' K]|K]; [right; right; exists o, rest'; auto|right; left; apply in_or_app; auto].
Qed.
Lemma stays_any g g' m : (forall o rest, g <> LEAVING o rest) -> stays g g' m.
Proof. intros H o rest K. destruct (H _ _ K). Qed.
Lemma still_queued m l id : Forall still m -> In (I_QUEUED id) (m ++ l) -> In (I_QUEUED id) l.
Proof. intros Hm H. apply in_app_or in H as [H|H]; [|exact H]. rewrite Forall_forall in Hm. destruct (Hm _ H). Qed.
Lemma J18_moves g s g' s' m : J18 g s -> c_out s' = m ++ c_out s -> moves g s g' s' m -> J18 g' s'.
Proof.
  intros [A B] Ho [(Hq & Hm & Hs)|[(id & -> & Hq & Hg)|[(id & a & q & -> & Hq & Hq' & Hg)|(o & rest & -> & Hg & Hg' & Hq)]]]; constructor; rewrite Ho.
  - intros i K. rewrite Hq. destruct (A i (still_queued _ _ _ Hm K)) as [L|L]; [auto|right; eapply off_more; eassumption].
  - intros l1 id2 l2 id1 K K1 K2. rewrite Hq in *. destruct (split_more _ _ _ _ _ K) as [[b L]|(b & L & _)]; [|rewrite L in Hm; apply Forall_app in Hm as [_ Hm]; inversion Hm as [|? ? Hx _]; destruct Hx].
    destruct (B _ _ _ _ L K1 K2) as [M|M]; [auto|right; eapply off_more; eassumption].
  - assert (Hs : stays g g' [I_QUEUED id]) by (apply stays_any; rewrite Hg; discriminate). intros i [K|K]; rewrite Hq, in_app_iff; [injection K as <-; left; right; left; reflexivity|]. destruct (A i K) as [L|L]; [auto|right; eapply off_more; eassumption].
  - assert (Hs : stays g g' [I_QUEUED id]) by (apply stays_any; rewrite Hg; discriminate). intros l1 id2 l2 id1 K K1 K2. rewrite Hq in *.
    assert (K1' : In (I_QUEUED id1) (c_out s)). { destruct l1 as [|z l1]; injection K as _ K; [subst l2; exact K1|]. cbn [app] in K. rewrite K. apply in_or_app. right. right. exact K1. }
    assert (Last : before id1 id (c_queue s ++ [id]) \/ off g' id1 ([I_QUEUED id] ++ c_out s)).
    { destruct (A id1 K1') as [L|L]; [|right; eapply off_more; eassumption]. left. apply in_split in L as (q1 & q2 & ->). exists q1, (q2 ++ [id]). split; [rewrite <- app_assoc; reflexivity|]. apply in_or_app. right. left. reflexivity. }
    destruct l1 as [|z l1]; injection K as Kz K; [subst id2; exact Last|]. apply in_app_or in K2 as [K2|[<-|[]]]; [|exact Last].
    destruct (B _ _ _ _ K K1 K2) as [(q1 & q2 & M1 & M2)|M]; [|right; eapply off_more; eassumption]. left. exists q1, (q2 ++ [id]). split; [rewrite M1, <- app_assoc; reflexivity|]. apply in_or_app. left. exact M2.
  - intros i [K|K]; [discriminate|]. rewrite Hq'. destruct (A i K) as [L|L]; [|right; eapply off_more; [apply stays_any; exact Hg|exact L]]. rewrite Hq in L. destruct L as [<-|L]; [right; left; exists a; left; reflexivity|auto].
  - intros l1 id2 l2 id1 K K1 K2. rewrite Hq' in *. destruct l1 as [|z l1]; [discriminate|]. injection K as _ K. destruct (B _ _ _ _ K K1) as [(q1 & q2 & M1 & M2)|M]; [rewrite Hq; right; exact K2| |right; eapply off_more; [apply stays_any; exact Hg|exact M]].
    rewrite Hq in M1. destruct q1 as [|x q1]; injection M1 as M1 M3; [subst id1; right; left; exists a; left; reflexivity|]. left. exists q1, q2. auto.
  - intros i K. rewrite Hq. destruct (A i K) as [L|L]; [|right; apply (off_more g g' []); [apply stays_any; rewrite Hg; discriminate|exact L]]. destruct (N.eqb_spec (o_id o) i) as [E|E]; [right; right; right; exists o, rest; auto|left; apply filter_In; split; [exact L|]]. apply negb_true_iff, N.eqb_neq, E.
  - intros l1 id2 l2 id1 K K1 K2. rewrite Hq in *. apply filter_In in K2 as [K2 K3]. cbn [app] in K. destruct (B _ _ _ _ K K1 K2) as [(q1 & q2 & M1 & M2)|M]; [|right; apply (off_more g g' []); [apply stays_any; rewrite Hg; discriminate|exact M]].
    destruct (N.eqb_spec (o_id o) id1) as [E|E]; [right; right; right; exists o, rest; auto|]. left. rewrite M1, filter_app. cbn [filter]. rewrite (proj2 (N.eqb_neq _ _) E). cbn [negb]. eexists _, _. split; [reflexivity|]. apply filter_In. auto.
Qed.
Lemma J19_moves g s g' s' m : J7 g s -> J18 g s -> J19 s -> c_out s' = m ++ c_out s -> moves g s g' s' m -> J19 s'.
Proof.
  intros HJ [A B] J Ho Hm l1 id2 a l2 m1 m2 id1 K Hl K1. rewrite Ho in K. destruct (split_more _ _ _ _ _ K) as [[b L]|(b & L & L')]; [exact (J _ _ _ _ _ _ _ L Hl K1)|].
  destruct Hm as [(_ & Hm & _)|[(id & -> & _ & _)|[(id & a' & q & -> & Hq & _ & Hg)|(o & rest & -> & _)]]].
  - rewrite L in Hm. apply Forall_app in Hm as [_ Hm]. inversion Hm as [|? ? Hx _]. destruct Hx.
  - destruct l1 as [|z [|? ?]]; discriminate L.
  - destruct l1 as [|z [|? ?]]; [|discriminate L|discriminate L]. injection L as -> _ <-. cbn [app] in L'. rewrite L' in *. clear L' l2.
    destruct (B _ _ _ _ Hl K1) as [(q1 & q2 & M1 & M2)|[M|[M|(o & rest & M & _)]]]; [rewrite Hq; left; reflexivity| |auto|auto|destruct (Hg _ _ M)].
    exfalso. pose proof (proj1 (j7_queue _ _ HJ)) as Hn. rewrite Hq in M1, Hn. apply NoDup_cons_iff in Hn as [Hn _]. apply Hn. destruct q1 as [|x q1]; injection M1 as -> ->; [exact M2|]. apply in_or_app. right. right. exact M2.
  - destruct l1; discriminate L.
Qed.
Lemma order_step cf g s g' s' : J7 g s -> J18 g s /\ J19 s -> big cf (g, s) (g', s') -> J18 g' s' /\ J19 s'.
Proof.
  intros HJ [H18 H19] Bg. assert (M : exists m, c_out s' = m ++ c_out s /\ moves g s g' s' m).
  { inversion Bg as [x y P|s0 Ha Hs|s0 Hp Ho He Hu]; subst; [eapply prim_moves; eassumption| |]; eexists [_]; (split; [reflexivity|]); left; (split; [reflexivity|split; [constructor; [exact I|constructor]|st]]). }
  destruct M as (m & E & M). split; [eapply J18_moves|eapply J19_moves]; eassumption.
Qed.
Lemma taken_in_order cf connected l tr1 id2 a tr2 t1 t2 id1 : cf_ok cf -> trace (history cf connected l) = tr1 ++ O_INTAKE id2 a :: tr2 -> tr1 = t1 ++ I_QUEUED id2 :: t2 -> In (I_QUEUED id1) t1 ->
  (exists a1, In (O_INTAKE id1 a1) tr1) \/ In (O_GONE id1) tr1.
Proof.
  intros Hc H Ht Hi. assert (J : JB cf IDLE (history cf connected l) /\ J18 IDLE (history cf connected l) /\ J19 (history cf connected l)).
  { apply (history_inv cf (fun g s => JB cf g s /\ J18 g s /\ J19 s)).
    - split; [apply JB_new|]. split; [constructor; [intros id []|intros [|? ?] ? ? ? K; discriminate]|intros [|? ?] ? ? ? ? ? ? K; discriminate].
    - intros g s g' s' [HB HO] B. split; [eapply JB_step; eassumption|eapply order_step; [exact (jb7 _ _ _ HB)|exact HO|exact B]]. }
  destruct J as (_ & _ & J). unfold trace in H. apply (f_equal (@rev out)) in H. rewrite rev_involutive, rev_app_distr in H. cbn [rev] in H. rewrite <- app_assoc in H. cbn [app] in H.
  destruct (J _ _ _ _ (rev t2) (rev t1) id1 H) as [[a1 K]|K].
  - rewrite Ht, rev_app_distr. cbn [rev]. rewrite <- app_assoc. reflexivity.
  - apply in_rev in Hi. exact Hi.
  - left. exists a1. apply in_rev. exact K.
  - right. apply in_rev. exact K.
Qed.
