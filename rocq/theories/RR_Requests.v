(** How often requests are completed and published: from the invariants to what is observed. *)
From Verif Require Import Base Split TopicAlias_Model TopicAlias_Proofs SubSet_Model Topic_Model Paths RR_Model RR_Spec RR_Steps RR_Decomp RR_Subs RR_Flights RR_Kinds RR_Trace RR_OpsTrace RR_Filters RR_All RR_Lives.
From Coq Require Import Permutation.

Lemma J7_new connected : J7 IDLE (client_new connected).
Proof.
  constructor.
  - discriminate.
  - intros id. left. cbn. lia.
  - intros id. cbn. lia.
  - discriminate.
  - intros id r d _ [].
  - intros id _. repeat split.
  - split; [constructor|intros id []].
  - discriminate.
Qed.
Lemma J8_new connected : J8 IDLE (client_new connected).
Proof. constructor; [discriminate|exact I]. Qed.
Record JB (cf : config) (g : ghost) (s : client) : Prop := { jba : JA cf g s; jb7 : J7 g s; jb8 : J8 g s }.
Lemma JB_new cf connected : JB cf IDLE (client_new connected).
Proof. constructor; [apply JA_new|apply J7_new|apply J8_new]. Qed.
Lemma JB_step cf : cf_ok cf -> forall g s g' s', JB cf g s -> big cf (g, s) (g', s') -> JB cf g' s'.
Proof.
  intros Hc g s g' s' [A J7s J8s] B. constructor; [eapply JA_step; eassumption| |].
  - eapply J7_step; [exact (ja2 _ _ _ A)|exact (ja5 _ _ _ A)|exact J8s|exact J7s|exact B].
  - eapply J8_step; [exact (ja2 _ _ _ A)|exact J7s|exact J8s|exact B].
Qed.
Lemma JB_history cf connected l : cf_ok cf -> JB cf IDLE (history cf connected l).
Proof. intros Hc. apply (history_inv cf (JB cf)); [apply JB_new|apply JB_step; assumption]. Qed.

Lemma count_rev {A} (p : A -> bool) l : count p (rev l) = count p l.
Proof. induction l as [|x l IH]; [reflexivity|]. cbn [rev]. unfold count in *. rewrite filter_app, app_length, IH. cbn [filter]. destruct (p x); cbn [length]; lia. Qed.
Lemma count_trace p s : count p (trace s) = count p (c_out s).
Proof. apply count_rev. Qed.
Lemma completes_some id l : (1 <= count (completes id) l)%nat -> exists r, In (O_COMPLETE id r) l.
Proof.
  unfold count. destruct (filter (completes id) l) as [|x m] eqn:E; [cbn; lia|]. intros _. assert (H : In x (filter (completes id) l)) by (rewrite E; left; reflexivity).
  apply filter_In in H as [H Hx]. destruct x; try discriminate. apply N.eqb_eq in Hx. subst. eauto.
Qed.
Lemma completes_in id r l : In (O_COMPLETE id r) l -> existsb (completes id) l = true.
Proof. intros H. apply existsb_exists. eexists. split; [exact H|]. apply N.eqb_refl. Qed.
Lemma early_seen id l : early id l = true -> taken_too_late id (rev l).
Proof.
  induction l as [|x l IH]; [discriminate|]. cbn [early rev]. intros H. apply orb_prop in H as [H|H].
  - apply andb_prop in H as [H1 H2]. destruct x; try discriminate. apply N.eqb_eq in H1. subst. apply existsb_exists in H2 as (y & Hy & Hc). destruct y; try discriminate. apply N.eqb_eq in Hc. subst.
    exists (rev l), r, [], r0. split; [reflexivity|]. apply -> in_rev. exact Hy.
  - destruct (IH H) as (a & b & c & d & -> & Hd). exists a, b, (c ++ [x]), d. split; [rewrite <- app_assoc; reflexivity|exact Hd].
Qed.
Lemma wasted_made id l tr1 ok tr2 r : rev l = tr1 ++ O_PUBLISH id ok :: tr2 -> In (O_COMPLETE id r) tr1 -> wasted id l = true.
Proof.
  intros H Hc. assert (E : l = rev tr2 ++ O_PUBLISH id ok :: rev tr1). { apply (f_equal (@rev _)) in H. rewrite rev_involutive in H. rewrite H, rev_app_distr. cbn [rev]. rewrite <- app_assoc. reflexivity. }
  subst l. clear H. induction (rev tr2) as [|x m IH]; cbn [app wasted].
  - cbn [publishes]. rewrite N.eqb_refl, (completes_in id r); [reflexivity|]. apply -> in_rev. exact Hc.
  - rewrite IH. apply orb_true_r.
Qed.

Lemma completed_once cf connected l id : cf_ok cf -> ~ taken_too_late id (trace (history cf connected l)) -> (count (completes id) (trace (history cf connected l)) <= 1)%nat.
Proof.
  intros Hc Hn. rewrite count_trace. destruct (j7_past _ _ (jb7 _ _ _ (JB_history cf connected l Hc)) id) as [H|[_ H]]; [exact H|]. destruct Hn. apply early_seen. exact H.
Qed.
Lemma completed_twice cf connected l id : cf_ok cf -> (count (completes id) (trace (history cf connected l)) <= 2)%nat.
Proof. intros Hc. rewrite count_trace. destruct (j7_past _ _ (jb7 _ _ _ (JB_history cf connected l Hc)) id) as [H|[H _]]; lia. Qed.
Lemma completed_in_the_end cf connected l id r d : cf_ok cf -> In I_SHUTDOWN (trace (history cf connected l)) -> In (I_OPERATION id (W_REQUEST r) d) (trace (history cf connected l)) -> exists x, In (O_COMPLETE id x) (trace (history cf connected l)).
Proof.
  intros Hc Hs Hi. pose proof (JB_history cf connected l Hc) as J. set (s := history cf connected l) in *. clearbody s. unfold trace in *. rewrite <- in_rev in *.
  destruct (completes_some id (c_out s)) as [x Hx]; [|exists x; rewrite <- in_rev; exact Hx]. destruct (get_op id s) as [o|] eqn:E; [|eapply (j7_dead _ _ (jb7 _ _ _ J)); eassumption].
  pose proof (j7_live _ _ (jb7 _ _ _ J) _ _ E) as L. pose proof (get_op_id _ _ _ E) as <-. assert (Hk : o_kind o = REQUEST). { destruct (j5_uniq _ _ (ja5 _ _ _ (jba _ _ _ J)) _ _ _ _ _ Hi (j5_in _ _ (ja5 _ _ _ (jba _ _ _ J)) _ _ E)) as [Hw _]. unfold o_kind. rewrite <- Hw. reflexivity. }
  assert (Hp : c_phase s <> ACTIVE) by (intros K; apply (proj1 (ja6 _ _ _ (jba _ _ _ J))) in K; auto). destruct (l_down _ _ _ _ _ _ _ _ L Hp Hk) as [_ K]. apply K; discriminate.
Qed.
Lemma published_once cf connected l id : cf_ok cf -> (count (publishes id) (trace (history cf connected l)) <= 1)%nat.
Proof. intros Hc. rewrite count_trace. pose proof (j7_pub _ _ (jb7 _ _ _ (JB_history cf connected l Hc)) id). lia. Qed.
Lemma published_in_time cf connected l id : cf_ok cf -> published_too_late id (trace (history cf connected l)) -> taken_too_late id (trace (history cf connected l)).
Proof.
  intros Hc (tr1 & ok & tr2 & r & H & Hr). apply early_seen. apply (j7_wasted _ _ (jb7 _ _ _ (JB_history cf connected l Hc))). eapply wasted_made; eassumption.
Qed.
