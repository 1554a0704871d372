(** What the tree stores, whatever happens to the strings: every operation that does not fault keeps the tree a representation of the subscriptions in force. *)
From Coq Require Import Permutation.
From Verif Require Import Base BaseLemmas Split Topic_Model Topic_Spec Topic_Proofs TopicAlias_Model TopicAlias_Proofs
  SubSet_Model SubSet_Spec Paths SubSet_Proofs TopicTree_Model TopicTree_Spec.

Definition data_here (d : tdata) (h : list tsub) : Prop :=
  match h with
  | [] => d_cb d = None /\ d_cl d = None
  | o :: _ => d_cb d = Some (ts_cb o) /\ d_cl d = ts_cl o /\ d_user d = ts_user o /\ d_qos d = ts_qos o
  end.
(** [F]: the subscriptions; [G]: the filters for which nodes exist *)
Inductive trep : tnode -> paths tsub -> paths unit -> Prop :=
| trep_node d cs F G : data_here d (here F) -> NoDup (map fst cs) ->
    (forall s c, find_key s cs = Some c -> tails s G <> []) ->
    (forall s c, find_key s cs = Some c -> trep c (tails s F) (tails s G)) ->
    (forall s, find_key s cs = None -> tails s G = []) ->
    trep (TNode d cs) F G.
(** Trees that differ only in the order of the tables *)
Inductive teq : tnode -> tnode -> Prop :=
| teq_node d cs cs' : (NoDup (map fst cs) -> NoDup (map fst cs')) ->
    (forall s, find_key s cs = None <-> find_key s cs' = None) ->
    (forall s c c', find_key s cs = Some c -> find_key s cs' = Some c' -> teq c c') -> teq (TNode d cs) (TNode d cs').

Section TnodeInd.
  Context (P : tnode -> Prop) (H : forall d cs, Forall (fun e => P (snd e)) cs -> P (TNode d cs)).
  Fixpoint tnode_ind' (n : tnode) : P n :=
    match n with
    | TNode d cs => H d cs ((fix go (cs : list (bytes * tnode)) : Forall (fun e => P (snd e)) cs :=
        match cs with [] => Forall_nil _ | e :: cs => Forall_cons e (tnode_ind' (snd e)) (go cs) end) cs)
    end.
End TnodeInd.

Lemma teq_refl n : teq n n.
Proof.
  induction n as [d cs IH] using tnode_ind'. constructor; [auto|tauto|]. intros s c c' E E'. rewrite E in E'. injection E' as <-.
  rewrite Forall_forall in IH. apply find_key_in in E. apply (IH _ E).
Qed.
Lemma trep_teq n F G : trep n F G -> forall n', teq n n' -> trep n' F G.
Proof.
  induction 1 as [d cs F G Hd Hn H1 H2 IH H3]; intros n' Ht. inversion Ht as [d' cs0 cs' Hn' Hk Hc]; subst. constructor; auto.
  - intros s c' E. destruct (find_key s cs) as [c|] eqn:Ec; [eauto|]. apply Hk in Ec. congruence.
  - intros s c' E. destruct (find_key s cs) as [c|] eqn:Ec; [eauto|]. apply Hk in Ec. congruence.
  - intros s E. apply Hk in E. auto.
Qed.
Lemma tails_nil_iff {A} s (G : paths A) : tails s G = [] <-> forall p, ~ In (s :: p) (map fst G).
Proof.
  split.
  - intros E p Hi. apply in_tails_fst in Hi. rewrite E in Hi. destruct Hi.
  - intros H. destruct (tails s G) as [|[q x] l] eqn:E; [reflexivity|]. exfalso. apply (H q). apply in_tails_fst. rewrite E. left. reflexivity.
Qed.
Lemma trep_shape n F G : trep n F G -> forall G' : paths unit, (forall p, In p (map fst G) <-> In p (map fst G')) -> trep n F G'.
Proof.
  induction 1 as [d cs F G Hd Hn H1 H2 IH H3]; intros G' HG. constructor; auto.
  - intros s c E Ht. apply (H1 s c E). rewrite tails_nil_iff in *. intros p Hp. apply HG in Hp. exact (Ht p Hp).
  - intros s c E. apply (IH s c E). intros p. rewrite !in_tails_fst. apply HG.
  - intros s E. apply H3 in E. rewrite tails_nil_iff in *. intros p Hp. apply HG in Hp. exact (E p Hp).
Qed.
Lemma data_here_perm d (F F' : paths tsub) : NoDup (map fst F) -> Permutation F F' -> data_here d (here F) -> data_here d (here F').
Proof. intros Hn Hp. rewrite (perm_here F F') by assumption. auto. Qed.
Lemma trep_perm n F G : trep n F G -> NoDup (map fst F) -> forall F', Permutation F F' -> trep n F' G.
Proof.
  induction 1 as [d cs F G Hd Hn H1 H2 IH H3]; intros Hnd F' Hp. constructor; auto.
  - eapply data_here_perm; eassumption.
  - intros s c E. apply (IH s c E); [apply nodup_tails; assumption|apply perm_tails; assumption].
Qed.

(** ** Insertion *)
Lemma trep_new c f : trep (tnode_new c f) [] [].
Proof. constructor; [cbn; auto|constructor|discriminate|discriminate|reflexivity]. Qed.
Lemma tails_fst_nil {A B} s (F : paths A) (G : paths B) : incl (map fst F) (map fst G) -> tails s G = [] -> tails s F = [].
Proof. intros Hi E. apply tails_nil_iff. intros p Hp. apply Hi in Hp. rewrite tails_nil_iff in E. exact (E p Hp). Qed.
Lemma incl_tails {A B} s (F : paths A) (G : paths B) : incl (map fst F) (map fst G) -> incl (map fst (tails s F)) (map fst (tails s G)).
Proof. intros H p Hp. apply in_tails_fst in Hp. apply in_tails_fst. auto. Qed.
Definition no_prefix {A} (q : list bytes) (G : paths A) : Prop := forall r, ~ In (q ++ r) (map fst G).
Lemma walk_spec h id p : forall off n F G n' cr ow, trep n F G -> incl (map fst F) (map fst G) -> tt_walk h id off p n = Some (n', cr, ow) ->
  trep n' F ((p, tt) :: G) /\
  match cr with Some k => (k < length p)%nat /\ no_prefix (firstn (S k) p) G /\ ow = false | None => p = [] \/ exists r, In (p ++ r) (map fst G) end.
Proof.
  induction p as [|s p IH]; intros off n F G n' cr ow H Hi E; inversion H as [d cs F' G' Hd Hn H1 H2 H3]; subst; cbn [tt_walk] in E.
  - inversion E; subst. split; [|left; reflexivity]. constructor; assumption.
  - destruct (negb (keys_ok h cs)); [discriminate|]. destruct (find_key s cs) as [c|] eqn:Ec.
    + destruct (tt_walk h id (off + len s + 1) p c) as [[[c' cr'] ow']|] eqn:Ew; [|discriminate]. inversion E; subst.
      destruct (IH _ _ _ _ _ _ _ (H2 _ _ Ec) (incl_tails s _ _ Hi) Ew) as [Hc Hcr]. split.
      * constructor; auto.
        -- apply nodup_put; assumption.
        -- intros s' c2 Hf. rewrite find_put in Hf. rewrite tails_cons. destruct (bytes_eqb s' s) eqn:Es; [discriminate|]. eauto.
        -- intros s' c2 Hf. rewrite find_put in Hf. rewrite tails_cons. destruct (bytes_eqb s' s) eqn:Es; [|eauto].
           apply bytes_eqb_spec in Es. injection Hf as <-. subst. assumption.
        -- intros s' Hf. rewrite find_put in Hf. rewrite tails_cons. destruct (bytes_eqb s' s) eqn:Es; [discriminate|]. eauto.
      * destruct cr' as [k|]; cbn [option_map].
        -- destruct Hcr as (Hk & Hnp & How). split; [cbn; lia|]. split; [|assumption]. intros r Hr. cbn [firstn app] in Hr. apply (Hnp r). apply in_tails_fst. exact Hr.
        -- right. destruct Hcr as [->|(r & Hr)].
           ++ pose proof (H1 _ _ Ec) as Hne. destruct (tails s G) as [|[q x] l] eqn:Et; [congruence|]. exists q. cbn. apply in_tails_fst. rewrite Et. left. reflexivity.
           ++ exists r. cbn. apply in_tails_fst. assumption.
    + destruct (tt_walk h id (off + len s + 1) p (tnode_new (Some (mkcur id off (len s))) (Some id))) as [[[c' cr'] ow']|] eqn:Ew; [|discriminate]. inversion E; subst.
      pose proof (H3 _ Ec) as Et. pose proof (tails_fst_nil s _ _ Hi Et) as EtF.
      destruct (IH _ _ [] [] _ _ _ (trep_new _ _) (incl_refl _) Ew) as [Hc Hcr]. split; [|split; [cbn; lia|split]].
      * constructor; auto.
        -- apply nodup_put; assumption.
        -- intros s' c2 Hf. rewrite find_put in Hf. rewrite tails_cons. destruct (bytes_eqb s' s) eqn:Es; [discriminate|]. eauto.
        -- intros s' c2 Hf. rewrite find_put in Hf. rewrite tails_cons. destruct (bytes_eqb s' s) eqn:Es; [|eauto].
           apply bytes_eqb_spec in Es. injection Hf as <-. subst. rewrite Et, EtF. assumption.
        -- intros s' Hf. rewrite find_put in Hf. rewrite tails_cons. destruct (bytes_eqb s' s) eqn:Es; [discriminate|]. eauto.
      * intros r Hr. cbn in Hr. rewrite tails_nil_iff in Et. exact (Et _ Hr).
      * destruct cr' as [k|]; [tauto|]. destruct Hcr as [->|(r & [])]. cbn in Ew. inversion Ew. reflexivity.
Qed.
Lemma insert_spec h root f s F G h' root' a : trep root F G -> incl (map fst F) (map fst G) -> tt_insert h root f s = Some (h', root', a) ->
  trep root' F ((split 47 f, tt) :: G) /\ ta_path a = split 47 f /\ ta_sub a = s /\
  match ta_created a with Some k => (k < length (split 47 f))%nat /\ no_prefix (firstn (S k) (split 47 f)) G | None => True end.
Proof.
  intros H Hi. unfold tt_insert. cbn [alloc]. destruct (tt_walk _ _ 0 (split 47 f) root) as [[[r cr] ow]|] eqn:E; [|discriminate].
  destruct (walk_spec _ _ _ _ _ _ _ _ _ _ H Hi E) as [Hr Hcr]. intros Hres.
  assert (Hx : root' = r /\ ta_path a = split 47 f /\ ta_sub a = s /\ ta_created a = cr).
  { destruct ow; [destruct (free _ _); [|discriminate]|]; inversion Hres; subst; repeat split. }
  destruct Hx as (-> & -> & -> & ->). split; [assumption|]. split; [reflexivity|]. split; [reflexivity|]. destruct cr; [tauto|exact I].
Qed.

(** ** Commit *)
Definition nz (o : tsub) : list call := match ts_cl o with Some f => if ts_user o =? 0 then [] else [(f, ts_user o)] | None => [] end.
Definition told (p : list bytes) (F : paths tsub) : list tsub := flat_map (fun e => if path_eqb p (fst e) then [snd e] else []) F.
Lemma told_cons p q o F : told p ((q, o) :: F) = if path_eqb p q then o :: told p F else told p F.
Proof. unfold told. cbn [flat_map fst snd]. destruct (path_eqb p q); reflexivity. Qed.
Lemma told_nil F : told [] F = here F.
Proof. induction F as [|[[|x p] o] F IH]; [reflexivity| |]; rewrite told_cons, here_cons; cbn [path_eqb]; rewrite IH; reflexivity. Qed.
Lemma told_tails s p F : told (s :: p) F = told p (tails s F).
Proof.
  induction F as [|[[|x q] o] F IH]; [reflexivity| |]; rewrite tails_cons, told_cons; cbn [path_eqb]; [assumption|].
  destruct (bytes_eqb s x) eqn:E; cbn [andb]; [|assumption]. rewrite told_cons, IH. reflexivity.
Qed.
Lemma told_absent p F : ~ In p (map fst F) -> told p F = [].
Proof.
  induction F as [|[q o] F IH]; intros H; [reflexivity|]. cbn [map fst In] in *. rewrite told_cons.
  destruct (path_eqb p q) eqn:E; [apply path_eqb_spec in E; exfalso; apply H; left; congruence|]. apply IH. tauto.
Qed.
Lemma cleanup_here d (F : paths tsub) : NoDup (map fst F) -> data_here d (here F) -> cleanup_of d = flat_map nz (here F).
Proof.
  intros Hn Hd. destruct (nodup_here F Hn) as [E|(o & E)]; rewrite E in *; cbn in *; unfold cleanup_of.
  - destruct Hd as [_ ->]. reflexivity.
  - destruct Hd as (_ & -> & -> & _). rewrite app_nil_r. reflexivity.
Qed.
Lemma commit_spec h a p : forall n F G n' h' out, trep n F G -> NoDup (map fst F) -> at_path (commit_node h a) p n = Some (n', h', out) ->
  trep n' ((p, ta_sub a) :: del p F) G /\ out = flat_map nz (told p F).
Proof.
  induction p as [|s p IH]; intros n F G n' h' out H Hnd E; inversion H as [d cs F' G' Hd Hn H1 H2 H3]; subst; cbn [at_path] in E.
  - assert (Hx : exists d', n' = TNode d' cs /\ out = cleanup_of d /\ d_cb d' = Some (ts_cb (ta_sub a)) /\ d_cl d' = ts_cl (ta_sub a) /\ d_user d' = ts_user (ta_sub a) /\ d_qos d' = ts_qos (ta_sub a)).
    { unfold commit_node in E. destruct (ta_str a); [destruct (d_owns d && _); [destruct (free h n); [|discriminate]|]|]; inversion E; subst; eexists; repeat split. }
    destruct Hx as (d' & -> & -> & Hcb & Hcl & Hu & Hq). split; [|rewrite told_nil; apply cleanup_here; assumption]. constructor; auto.
    + rewrite here_cons. cbn. auto.
    + intros s c Hf. rewrite tails_cons, tails_del_nil. eauto.
  - destruct (find_key s cs) as [c|] eqn:Ec; [|discriminate]. destruct (at_path (commit_node h a) p c) as [[[c' h2] l]|] eqn:Ea; [|discriminate]. inversion E; subst.
    destruct (IH _ _ _ _ _ _ (H2 _ _ Ec) (nodup_tails s F Hnd) Ea) as [Hc ->]. split; [|rewrite told_tails; reflexivity]. constructor.
    + rewrite here_cons, here_del_cons. assumption.
    + apply nodup_put. assumption.
    + intros s' c2 Hf. rewrite find_put in Hf. destruct (bytes_eqb s' s) eqn:Es; [|eauto]. apply bytes_eqb_spec in Es. subst. eauto.
    + intros s' c2 Hf. rewrite find_put in Hf. rewrite tails_cons, tails_del. destruct (bytes_eqb s' s) eqn:Es; [|eauto].
      apply bytes_eqb_spec in Es. injection Hf as <-. subst. assumption.
    + intros s' Hf. rewrite find_put in Hf. destruct (bytes_eqb s' s) eqn:Es; [discriminate|]. eauto.
Qed.

(** ** Destruction *)
Fixpoint destroys (h : heap) (cs : list (bytes * tnode)) : option (heap * list call) :=
  match cs with
  | [] => Some (h, [])
  | (_, c) :: cs =>
    match tn_destroy h c with
    | None => None
    | Some (h, l1) => match destroys h cs with None => None | Some (h, l2) => Some (h, l1 ++ l2) end
    end
  end.
Lemma tn_destroy_eq h d cs : tn_destroy h (TNode d cs) =
  match destroys h cs with
  | None => None
  | Some (h, l) => match (if d_owns d then free_opt h (d_filter d) else Some h) with None => None | Some h => Some (h, l ++ cleanup_of d) end
  end.
Proof. reflexivity. Qed.
Lemma t_heads_in_children {A B} (cs : list (bytes * A)) (F : paths B) x p o : (forall s, find_key s cs = None -> tails s F = []) -> In (x :: p, o) F -> In x (map fst cs).
Proof.
  intros H3 Hi. destruct (in_dec (list_eq_dec N.eq_dec) x (map fst cs)) as [|Hn]; [assumption|]. exfalso. apply find_key_none_in in Hn. apply H3 in Hn.
  apply in_tails in Hi. rewrite Hn in Hi. destruct Hi.
Qed.
Lemma tn_destroy_spec n F G : trep n F G -> incl (map fst F) (map fst G) -> NoDup (map fst F) -> forall h h' out, tn_destroy h n = Some (h', out) ->
  Permutation out (flat_map nz (map snd F)).
Proof.
  induction 1 as [d cs F G Hd Hn H1 H2 IH H3]; intros Hi Hnd h h' out E. rewrite tn_destroy_eq in E.
  destruct (destroys h cs) as [[h1 l]|] eqn:Ed; [|discriminate].
  assert (out = l ++ cleanup_of d) as -> by (destruct (if d_owns d then _ else _); [|discriminate]; inversion E; reflexivity). clear E.
  assert (H3F : forall s, find_key s cs = None -> tails s F = []) by (intros s Es; eapply tails_fst_nil; eauto).
  etransitivity; [|apply Permutation_sym, (paths_partition nz (map fst cs) F Hn)].
  2:{ intros x p o. apply t_heads_in_children. assumption. }
  rewrite (cleanup_here d F Hnd Hd). etransitivity; [apply Permutation_app_comm|]. apply Permutation_app_head.
  assert (Hall : forall e, In e cs -> forall h h' out, tn_destroy h (snd e) = Some (h', out) -> Permutation out (flat_map nz (map snd (tails (fst e) F)))).
  { intros [k c] He. cbn [fst snd]. apply (IH k c); [apply in_find_key; assumption|apply incl_tails; assumption|apply nodup_tails; assumption]. }
  clear -Hall Ed. revert h h1 l Ed. induction cs as [|[k c] cs IHc]; intros h h1 l Ed; cbn [destroys] in Ed.
  - inversion Ed. constructor.
  - destruct (tn_destroy h c) as [[h2 l1]|] eqn:E1; [|discriminate]. destruct (destroys h2 cs) as [[h3 l2]|] eqn:E2; [|discriminate]. inversion Ed; subst.
    cbn [map fst flat_map]. apply Permutation_app; [apply (Hall (k, c) (or_introl eq_refl) _ _ _ E1)|]. eapply IHc; [|eassumption]. intros e He. apply Hall. right. assumption.
Qed.

(** ** Roll-back *)
Lemma find_key_remove {A} k k' (l : list (bytes * A)) : find_key k (remove_key k' l) = if bytes_eqb k k' then None else find_key k l.
Proof.
  destruct (bytes_eqb k k') eqn:E; [apply bytes_eqb_spec in E; subst; apply find_remove_same|]. apply find_remove_other, bytes_eqb_false. assumption.
Qed.
(** a freshly created chain: no strings owned, nothing to clean up, one child at most *)
Inductive fresh : tnode -> Prop :=
| fresh_node d cs : d_owns d = false -> d_cl d = None -> (forall s c, find_key s cs = Some c -> fresh c) -> NoDup (map fst cs) -> fresh (TNode d cs).
Lemma fresh_destroy n : fresh n -> forall h, tn_destroy h n = Some (h, []).
Proof.
  induction 1 as [d cs Ho Hc Hf IH Hn]. intros h. rewrite tn_destroy_eq, Ho. unfold cleanup_of. rewrite Hc.
  assert (E : destroys h cs = Some (h, [])); [|rewrite E; reflexivity].
  assert (Hall : forall e, In e cs -> tn_destroy h (snd e) = Some (h, [])) by (intros [k c] He; apply (IH k c); apply in_find_key; assumption).
  clear -Hall. induction cs as [|[k c] cs IHc]; [reflexivity|]. cbn [destroys]. pose proof (Hall (k, c) (or_introl eq_refl)) as Hk. cbn [snd] in Hk.
  rewrite Hk, IHc; [reflexivity|]. intros e He. apply Hall. right. assumption.
Qed.
Lemma teq_fresh n : fresh n -> forall n', teq n n' -> fresh n'.
Proof.
  induction 1 as [d cs Ho Hc Hf IH Hn]. intros n' Ht. inversion Ht as [d' c0 cs' Hn' Hk Hcs]; subst. constructor; auto.
  intros s c' E. destruct (find_key s cs) as [c|] eqn:Ec; [eauto|]. apply Hk in Ec. congruence.
Qed.
Lemma walk_fresh h id p : forall off n n' cr ow, fresh n -> tt_walk h id off p n = Some (n', cr, ow) -> fresh n'.
Proof.
  induction p as [|s p IH]; intros off n n' cr ow H E; inversion H as [d cs Ho Hc Hf Hn]; subst; cbn [tt_walk] in E.
  - inversion E; subst. assumption.
  - destruct (negb (keys_ok h cs)); [discriminate|].
    assert (Hx : exists c0 c' cr' ow', fresh c0 /\ tt_walk h id (off + len s + 1) p c0 = Some (c', cr', ow') /\ n' = TNode d (put_key s c' cs)).
    { destruct (find_key s cs) as [c|] eqn:Ec.
      - destruct (tt_walk _ _ _ p c) as [[[c' cr'] ow']|] eqn:Ew; [|discriminate]. inversion E; subst. eauto 10.
      - destruct (tt_walk _ _ _ p _) as [[[c' cr'] ow']|] eqn:Ew; [|discriminate]. inversion E; subst. eexists _, _, _, _. split; [|split; [exact Ew|reflexivity]].
        constructor; [reflexivity|reflexivity|discriminate|constructor]. }
    destruct Hx as (c0 & c' & cr' & ow' & Hc0 & Ew & ->). pose proof (IH _ _ _ _ _ Hc0 Ew) as Hc'. constructor; auto; [|apply nodup_put; assumption].
    intros s' c2 Hf2. rewrite find_put in Hf2. destruct (bytes_eqb s' s); [injection Hf2 as <-; assumption|eauto].
Qed.
Lemma teq_child d cs cs' s c c' : (NoDup (map fst cs) -> NoDup (map fst cs')) -> teq c c' -> find_key s cs = Some c -> find_key s cs' = Some c' ->
  (forall k, k <> s -> (find_key k cs = None <-> find_key k cs' = None) /\ (forall x y, find_key k cs = Some x -> find_key k cs' = Some y -> teq x y)) -> teq (TNode d cs) (TNode d cs').
Proof.
  intros Hn Ht E E' Ho. constructor; [assumption| |].
  - intros k. destruct (bytes_eqb k s) eqn:Ek; [apply bytes_eqb_spec in Ek; subst; rewrite E, E'; split; discriminate|]. apply bytes_eqb_false in Ek. apply Ho; assumption.
  - intros k x y Hx Hy. destruct (bytes_eqb k s) eqn:Ek.
    + apply bytes_eqb_spec in Ek. subst. rewrite E in Hx. rewrite E' in Hy. inversion Hx. inversion Hy. subst. assumption.
    + apply bytes_eqb_false in Ek. destruct (Ho k Ek) as [_ Ho']. eauto.
Qed.
Inductive wfn : tnode -> Prop := wfn_node d cs : NoDup (map fst cs) -> (forall s c, find_key s cs = Some c -> wfn c) -> wfn (TNode d cs).
Lemma trep_wfn n F G : trep n F G -> wfn n.
Proof. induction 1. constructor; auto. Qed.
(** rolling back a creation, on a tree that has not changed but for the order of its tables, restores the tree before it *)
Lemma roll_back_spec h id h2 p : forall off n n' k ow m m' h3 out, tt_walk h id off p n = Some (n', Some k, ow) -> teq n' m -> wfn n ->
  at_path (roll_back_node h2 (nth k p [])) (firstn k p) m = Some (m', h3, out) -> teq n m' /\ h3 = h2 /\ out = [].
Proof.
  induction p as [|s p IH]; intros off n n' k ow m m' h3 out Ew Ht Hw Er; inversion Hw as [d cs Hn Hc]; subst; cbn [tt_walk] in Ew; [inversion Ew|].
  destruct (negb (keys_ok h cs)); [discriminate|]. destruct (find_key s cs) as [c|] eqn:Ec.
  - destruct (tt_walk h id (off + len s + 1) p c) as [[[c' cr'] ow']|] eqn:Ew'; [|discriminate]. destruct cr' as [k'|]; [|discriminate]. cbn in Ew. inversion Ew; subst.
    inversion Ht as [d' cs0 cs' Hn' Hk Hcs]; subst. cbn [nth firstn at_path] in Er.
    assert (Hp : find_key s (put_key s c' cs) = Some c') by (rewrite find_put, bytes_eqb_refl; reflexivity).
    destruct (find_key s cs') as [c2|] eqn:E2; [|apply Hk in E2; congruence].
    destruct (at_path (roll_back_node h2 (nth k' p [])) (firstn k' p) c2) as [[[c3 h4] out']|] eqn:Er'; [|discriminate]. inversion Er; subst.
    assert (Hc2 : teq c' c2) by (eapply Hcs; eassumption).
    destruct (IH _ _ _ _ _ _ _ _ _ Ew' Hc2 (Hc _ _ Ec) Er') as (Hc3 & -> & ->). split; [|auto].
    apply (teq_child d cs _ s c c3); auto.
    + intros _. apply nodup_put, Hn', nodup_put, Hn.
    + rewrite find_put, bytes_eqb_refl. reflexivity.
    + intros k Hks. assert (Eks : bytes_eqb k s = false) by (apply bytes_eqb_false; assumption). rewrite find_put, Eks. rewrite <- Hk, find_put, Eks.
      split; [tauto|]. intros x y Hx Hy. apply (Hcs k); [rewrite find_put, Eks|]; assumption.
  - destruct (tt_walk h id (off + len s + 1) p _) as [[[c' cr'] ow']|] eqn:Ew'; [|discriminate]. inversion Ew; subst.
    inversion Ht as [d' cs0 cs' Hn' Hk Hcs]; subst. cbn [nth firstn at_path roll_back_node] in Er. destruct (negb (keys_ok h2 cs')); [discriminate|].
    assert (Hp : find_key s (put_key s c' cs) = Some c') by (rewrite find_put, bytes_eqb_refl; reflexivity).
    destruct (find_key s cs') as [c2|] eqn:E2; [|discriminate].
    assert (Hf : fresh c2).
    { eapply teq_fresh; [|eapply Hcs; eassumption]. eapply walk_fresh; [|exact Ew']. constructor; [reflexivity|reflexivity|discriminate|constructor]. }
    rewrite (fresh_destroy _ Hf) in Er. inversion Er; subst. split; [|auto]. constructor.
    + intros _. apply nodup_remove, Hn', nodup_put, Hn.
    + intros k. rewrite find_key_remove. destruct (bytes_eqb k s) eqn:Eks.
      * apply bytes_eqb_spec in Eks. subst. tauto.
      * rewrite <- Hk, find_put, Eks. tauto.
    + intros k x y Hx Hy. rewrite find_key_remove in Hy. destruct (bytes_eqb k s) eqn:Eks; [discriminate|]. apply (Hcs k); [rewrite find_put, Eks|]; assumption.
Qed.
Lemma teq_trans a : forall b c, teq a b -> teq b c -> teq a c.
Proof.
  induction a as [d cs IH] using tnode_ind'. intros b c H1 H2. inversion H1 as [d1 c1 cs1 Hn1 Hk1 Hc1]; subst. inversion H2 as [d2 c2 cs2 Hn2 Hk2 Hc2]; subst. constructor.
  - auto.
  - intros s. rewrite Hk1. apply Hk2.
  - intros s x z Hx Hz. destruct (find_key s cs1) as [y|] eqn:Ey; [|apply Hk2 in Ey; congruence]. rewrite Forall_forall in IH. apply find_key_in in Hx as Hi.
    apply (IH _ Hi y); [apply (Hc1 s x y); assumption|apply (Hc2 s y z); assumption].
Qed.
Lemma walk_none_teq h id p : forall off n n' ow, wfn n -> tt_walk h id off p n = Some (n', None, ow) -> teq n' n.
Proof.
  induction p as [|s p IH]; intros off n n' ow Hw E; inversion Hw as [d cs Hn Hc]; subst; cbn [tt_walk] in E; [inversion E; subst; apply teq_refl|].
  destruct (negb (keys_ok h cs)); [discriminate|]. destruct (find_key s cs) as [c|] eqn:Ec.
  - destruct (tt_walk h id (off + len s + 1) p c) as [[[c' cr'] ow']|] eqn:Ew; [|discriminate]. destruct cr'; [discriminate|]. inversion E; subst.
    apply (teq_child d _ cs s c' c).
    + auto.
    + eapply IH; eauto.
    + rewrite find_put, bytes_eqb_refl. reflexivity.
    + assumption.
    + intros k Hk. assert (Eks : bytes_eqb k s = false) by (apply bytes_eqb_false; assumption). rewrite find_put, Eks. split; [tauto|].
      intros x y Hx Hy. rewrite Hx in Hy. inversion Hy. apply teq_refl.
  - destruct (tt_walk h id (off + len s + 1) p _) as [[[c' cr'] ow']|]; discriminate.
Qed.
Lemma teq_sym a : forall b, teq a b -> (forall d cs, b = TNode d cs -> wfn b) -> wfn a -> teq b a.
Proof.
  induction a as [d cs IH] using tnode_ind'. intros b H Hb Ha. inversion H as [d1 c1 cs1 Hn1 Hk1 Hc1]; subst. inversion Ha as [d0 cs0 Hna Hca]; subst.
  specialize (Hb _ _ eq_refl). inversion Hb as [d0 cs0 Hnb Hcb]; subst. constructor.
  - auto.
  - intros s. symmetry. apply Hk1.
  - intros s y x Hy Hx. rewrite Forall_forall in IH. apply find_key_in in Hx as Hi. apply (IH _ Hi y); [apply (Hc1 s x y); assumption| |apply (Hca s x); assumption].
    intros. apply (Hcb s y). assumption.
Qed.
Lemma wfn_teq a : wfn a -> forall b, teq a b -> wfn b.
Proof.
  induction 1 as [d cs Hn Hc IH]. intros b Ht. inversion Ht as [d1 c1 cs1 Hn1 Hk1 Hc1]; subst. constructor; [auto|]. intros s y Hy.
  destruct (find_key s cs) as [x|] eqn:Ex; [eauto|]. apply Hk1 in Ex. congruence.
Qed.
Lemma tt_each_app f l1 : forall l2 h n, tt_each f h n (l1 ++ l2) = match tt_each f h n l1 with None => None | Some (h, n, c) =>
  match tt_each f h n l2 with None => None | Some (h, n, c') => Some (h, n, c ++ c') end end.
Proof.
  induction l1 as [|a l1 IH]; intros l2 h n; cbn [app tt_each].
  - destruct (tt_each f h n l2) as [[[h' n'] c']|]; reflexivity.
  - destruct (f h n a) as [[[n1 h1] c1]|]; [|reflexivity]. rewrite IH. destruct (tt_each f h1 n1 l1) as [[[h2 n2] c2]|]; [|reflexivity].
    destruct (tt_each f h2 n2 l2) as [[[h3 n3] c3]|]; [|reflexivity]. rewrite app_assoc. reflexivity.
Qed.
Lemma inserts_roll_back subs : forall h root h1 root1 acts F G, tt_inserts h root subs = Some (h1, root1, acts) -> trep root F G -> incl (map fst F) (map fst G) ->
  forall h2 m h3 m' out, teq root1 m -> tt_each tt_roll_back_insert h2 m (rev acts) = Some (h3, m', out) -> teq root m' /\ out = [].
Proof.
  induction subs as [|[f s] subs IH]; intros h root h1 root1 acts F G E Hr Hi h2 m h3 m' out Ht Er; cbn [tt_inserts] in E.
  - inversion E; subst. cbn in Er. inversion Er; subst. auto.
  - destruct (tt_insert h root f s) as [[[ha roota] a]|] eqn:Ea; [|discriminate]. destruct (tt_inserts ha roota subs) as [[[hb rootb] acts']|] eqn:Eb; [|discriminate].
    inversion E; subst. destruct (insert_spec _ _ _ _ _ _ _ _ _ Hr Hi Ea) as (Hra & Hpath & _ & _).
    assert (Hia : incl (map fst F) (map fst ((split 47 f, tt) :: G))) by (intros x Hx; right; apply Hi, Hx).
    cbn [rev] in Er. rewrite tt_each_app in Er. destruct (tt_each tt_roll_back_insert h2 m (rev acts')) as [[[h4 m2] c]|] eqn:Ec; [|discriminate].
    destruct (IH _ _ _ _ _ _ _ Eb Hra Hia _ _ _ _ _ Ht Ec) as [Ht2 ->]. cbn [tt_each] in Er.
    destruct (tt_roll_back_insert h4 m2 a) as [[[m3 h5] c']|] eqn:Ed; [|discriminate]. inversion Er; subst. rewrite app_nil_r. cbn [app].
    pose proof (trep_wfn _ _ _ Hr) as Hw.
    unfold tt_insert in Ea. cbn [alloc] in Ea. destruct (tt_walk _ _ 0 (split 47 f) root) as [[[r cr] ow]|] eqn:Ew; [|discriminate].
    assert (Hx : roota = r /\ ta_created a = cr) by (destruct ow; [destruct (free _ _); [|discriminate]|]; inversion Ea; subst; auto).
    destruct Hx as [-> Hcr]. unfold tt_roll_back_insert in Ed. rewrite Hcr, Hpath in Ed. destruct cr as [k|].
    + destruct (at_path _ _ m2) as [[[m4 h6] c6]|] eqn:Ep; [|discriminate]. destruct (roll_back_spec _ _ _ _ _ _ _ _ _ _ _ _ _ Ew Ht2 Hw Ep) as (Hm & -> & ->).
      destruct (free_opt h4 (ta_str a)); [|discriminate]. inversion Ed; subst. auto.
    + inversion Ed; subst. split; [|reflexivity]. pose proof (walk_none_teq _ _ _ _ _ _ _ Hw Ew) as Hwt.
      apply (teq_trans _ r); [|assumption]. apply teq_sym; [assumption| |eapply trep_wfn; eassumption]. intros; assumption.
Qed.
(** ** Inserting and committing *)
Lemma inserts_spec subs : forall h root h1 root1 acts F G, tt_inserts h root subs = Some (h1, root1, acts) -> trep root F G -> incl (map fst F) (map fst G) ->
  trep root1 F (rev (map (fun e => (split 47 (fst e), tt)) subs) ++ G) /\ map (fun a => (ta_path a, ta_sub a)) acts = map (fun e => (split 47 (fst e), snd e)) subs.
Proof.
  induction subs as [|[f s] subs IH]; intros h root h1 root1 acts F G E Hr Hi; cbn [tt_inserts] in E.
  - inversion E; subst. cbn. auto.
  - destruct (tt_insert h root f s) as [[[ha roota] a]|] eqn:Ea; [|discriminate]. destruct (tt_inserts ha roota subs) as [[[hb rootb] acts']|] eqn:Eb; [|discriminate].
    inversion E; subst. destruct (insert_spec _ _ _ _ _ _ _ _ _ Hr Hi Ea) as (Hra & Hpath & Hsub & _).
    assert (Hia : incl (map fst F) (map fst ((split 47 f, tt) :: G))) by (intros x Hx; right; apply Hi, Hx).
    destruct (IH _ _ _ _ _ _ _ Eb Hra Hia) as [H1 H2]. cbn [map rev fst snd]. rewrite <- app_assoc. split; [exact H1|]. rewrite Hpath, Hsub, H2. reflexivity.
Qed.
Definition put_path (F : paths tsub) (e : list bytes * tsub) : paths tsub := e :: del (fst e) F.
Fixpoint replacedl (F : paths tsub) (l : list (list bytes * tsub)) : list call :=
  match l with [] => [] | e :: l => flat_map nz (told (fst e) F) ++ replacedl (put_path F e) l end.
Lemma nodup_put_path F e : NoDup (map fst F) -> NoDup (map fst (put_path F e)).
Proof.
  intros H. unfold put_path. cbn. constructor; [|apply nodup_del; assumption]. intros Hi. apply in_map_iff in Hi as (x & E & Hi). apply del_in in Hi. tauto.
Qed.
Lemma commits_spec acts : forall h root h1 root1 out F G, tt_each tt_commit_insert h root acts = Some (h1, root1, out) -> trep root F G -> NoDup (map fst F) ->
  trep root1 (fold_left put_path (map (fun a => (ta_path a, ta_sub a)) acts) F) G /\ out = replacedl F (map (fun a => (ta_path a, ta_sub a)) acts).
Proof.
  induction acts as [|a acts IH]; intros h root h1 root1 out F G E Hr Hn; cbn [tt_each] in E.
  - inversion E; subst. auto.
  - destruct (tt_commit_insert h root a) as [[[r2 h2] c]|] eqn:Ea; [|discriminate]. destruct (tt_each tt_commit_insert h2 r2 acts) as [[[h3 r3] c']|] eqn:Eb; [|discriminate].
    inversion E; subst. destruct (commit_spec _ _ _ _ _ _ _ _ _ Hr Hn Ea) as [Hr2 ->].
    destruct (IH _ _ _ _ _ _ _ Eb Hr2 (nodup_put_path F (ta_path a, ta_sub a) Hn)) as [Hr3 ->]. cbn [map fold_left replacedl fst]. split; [assumption|reflexivity].
Qed.

(** ** Removal *)
Definition gof {A} (F : paths A) : paths unit := map (fun e => (fst e, tt)) F.
Lemma gof_fst {A} (F : paths A) : map fst (gof F) = map fst F.
Proof. unfold gof. rewrite map_map. reflexivity. Qed.
Lemma tails_gof {A} s (F : paths A) : tails s (gof F) = gof (tails s F).
Proof.
  unfold gof. induction F as [|[p o] F IH]; [reflexivity|]. cbn [map fst]. rewrite !tails_cons, IH. destruct p as [|x p]; [reflexivity|]. destruct (bytes_eqb s x); reflexivity.
Qed.
Lemma gof_nil {A} (F : paths A) : gof F = [] <-> F = [].
Proof. destruct F; split; intros; [reflexivity|reflexivity|discriminate|discriminate]. Qed.
Lemma find_false p : forall h n F G, trep n F G -> incl (map fst F) (map fst G) -> tt_find h n p = Some false -> ~ In p (map fst F).
Proof.
  induction p as [|s p IH]; intros h n F G H Hi E; inversion H as [d cs F' G' Hd Hn H1 H2 H3]; subst; cbn [tt_find tn_children] in E; [discriminate|].
  destruct (negb (keys_ok h cs)); [discriminate|]. rewrite <- in_tails_fst. destruct (find_key s cs) as [c|] eqn:Ec.
  - eapply IH; [eapply H2; eassumption|apply incl_tails; assumption|eassumption].
  - rewrite (tails_fst_nil s F G Hi (H3 _ Ec)). intros [].
Qed.
Definition same_content (d d' : tdata) : Prop := d_cb d' = d_cb d /\ d_cl d' = d_cl d /\ d_user d' = d_user d /\ d_qos d' = d_qos d.
Definition bare (c : option tnode) : Prop := match c with Some (TNode d cs) => d_cl d = None /\ cs = [] | None => True end.
Lemma fix_node_spec iter st d cs off nf st' r : fix_node iter st (TNode d cs) off nf = Some (st', r) -> bare (cs_cur st) ->
  exists d' off' nf', r = CFix (TNode d' cs) off' nf' /\ same_content d d' /\ cs_calls st' = cs_calls st /\ bare (cs_cur st').
Proof.
  unfold fix_node. destruct (cs_cur st) as [[cd ccs]|] eqn:Ecur; [|discriminate]. destruct (d_topic d) as [topic|]; [|discriminate]. intros E Hb. cbn [bare] in Hb.
  destruct (same_str (d_filter d) (d_filter cd)).
  - destruct nf as [f|].
    + inversion E; subst. eexists _, _, _. split; [reflexivity|]. split; [repeat split|]. split; [reflexivity|]. rewrite Ecur. exact Hb.
    + destruct (find_filter_below iter (d_filter cd) cs) as [f|]; [|discriminate]. destruct (free_opt (cs_heap st) (d_filter cd)) as [h|]; [|discriminate]. inversion E; subst.
      eexists _, _, _. split; [reflexivity|]. split; [repeat split|]. split; [reflexivity|]. exact Hb.
  - inversion E; subst. eexists _, _, _. split; [reflexivity|]. split; [repeat split|]. split; [reflexivity|]. rewrite Ecur. exact Hb.
Qed.
Lemma trep_same_content d d' cs F G : same_content d d' -> trep (TNode d cs) F G -> trep (TNode d' cs) F G.
Proof.
  intros (E1 & E2 & E3 & E4) H. inversion H as [d0 cs0 F' G' Hd Hn H1 H2 H3]; subst. constructor; auto. unfold data_here in *. destruct (here F); rewrite ?E1, ?E2, ?E3, ?E4; assumption.
Qed.
Lemma all_nil {A} (F : paths A) : (forall s, tails s F = []) -> here F = [] -> F = [].
Proof.
  intros Ht Hh. destruct F as [|[[|x p] o] F]; [reflexivity|discriminate|]. specialize (Ht x). rewrite tails_cons, bytes_eqb_refl in Ht. discriminate.
Qed.
Lemma climb_spec iter h p : forall top n F st r, trep n F (gof F) -> NoDup (map fst F) -> (top = true -> p <> []) -> tt_climb iter h top n p = Some (st, r) ->
  cs_calls st = flat_map nz (told p F) /\ bare (cs_cur st) /\
  match r with
  | CDone n' | CFix n' _ _ => trep n' (del p F) (gof (del p F)) /\ (top = false -> del p F <> [])
  | CGone n' => del p F = [] /\ bare (Some n') /\ trep n' [] [] /\ top = false
  end.
Proof.
  induction p as [|s p IH]; intros top n F st r H Hnd Htop E; inversion H as [d cs F' G' Hd Hn H1 H2 H3]; subst; cbn [tt_climb] in E.
  - assert (Ecl : cleanup_of d = flat_map nz (told [] F)) by (rewrite told_nil; apply cleanup_here; assumption).
    assert (top = false) as -> by (destruct top; [exfalso; apply Htop; reflexivity|reflexivity]).
    assert (Hrep : trep (TNode (mktd (d_topic d) (d_filter d) (d_owns d) None None 0 (d_qos d)) cs) (del [] F) (gof (del [] F))).
    { constructor; [rewrite here_del_nil; cbn; auto|assumption| | |]; intros s; [intros c Hf|intros c Hf|intros Hf]; rewrite tails_gof, tails_del_nil, <- tails_gof; eauto. }
    destruct cs as [|[k c] cs]; cbn [is_nil] in E; inversion E; subst; cbn [cs_calls cs_cur bare].
    + split; [assumption|]. split; [split; reflexivity|].
      assert (Hdel : del [] F = []).
      { apply all_nil; [|apply here_del_nil]. intros x. rewrite tails_del_nil. apply (gof_nil (tails x F)). rewrite <- tails_gof. apply H3. reflexivity. }
      rewrite Hdel in Hrep. split; [assumption|]. split; [split; reflexivity|]. split; [exact Hrep|reflexivity].
    + split; [assumption|]. split; [exact I|]. split; [assumption|]. intros _ Hdel. apply (H1 k c); [rewrite find_key_cons, bytes_eqb_refl; reflexivity|].
      rewrite tails_gof. apply gof_nil. rewrite <- (tails_del_nil k F), Hdel. reflexivity.
  - destruct (find_key s cs) as [c|] eqn:Ec; [|discriminate]. destruct (tt_climb iter h false c p) as [[st1 r1]|] eqn:E1; [|discriminate].
    pose proof (H2 _ _ Ec) as Hc. rewrite tails_gof in Hc.
    assert (Hft : false = true -> p <> []) by discriminate.
    destruct (IH _ _ _ _ _ Hc (nodup_tails s F Hnd) Hft E1) as (Hcalls & Hcur & Hr). rewrite <- told_tails in Hcalls.
    assert (Hput : forall c', trep c' (del p (tails s F)) (gof (del p (tails s F))) -> del p (tails s F) <> [] ->
      trep (TNode d (put_key s c' cs)) (del (s :: p) F) (gof (del (s :: p) F)) /\ del (s :: p) F <> []).
    { intros c' Hc' Hne. split.
      - constructor.
        + rewrite here_del_cons. assumption.
        + apply nodup_put. assumption.
        + intros s' c2 Hf. rewrite find_put in Hf. rewrite tails_gof, tails_del. destruct (bytes_eqb s' s) eqn:Es; [rewrite gof_nil|rewrite <- tails_gof; eauto].
          apply bytes_eqb_spec in Es. subst. assumption.
        + intros s' c2 Hf. rewrite find_put in Hf. rewrite tails_gof, tails_del. destruct (bytes_eqb s' s) eqn:Es; [|rewrite <- tails_gof; eauto].
          apply bytes_eqb_spec in Es. injection Hf as <-. subst. assumption.
        + intros s' Hf. rewrite find_put in Hf. rewrite tails_gof, tails_del. destruct (bytes_eqb s' s) eqn:Es; [discriminate|]. rewrite <- tails_gof. eauto.
      - intros E0. apply Hne. assert (Ht : tails s (del (s :: p) F) = []) by (rewrite E0; reflexivity). rewrite tails_del, bytes_eqb_refl in Ht. assumption. }
    destruct r1 as [c'|c'|c' off nf].
    + inversion E; subst. destruct Hr as [Hr1 Hr2]. destruct (Hput c' Hr1 (Hr2 eq_refl)) as [Hp1 Hp2]. auto.
    + destruct (negb (keys_ok (cs_heap st1) (put_key s c' cs))); [discriminate|]. destruct Hr as (Hdel & Hbare & Hrc & _).
      assert (Hrep : trep (TNode d (remove_key s cs)) (del (s :: p) F) (gof (del (s :: p) F))).
      { constructor.
        - rewrite here_del_cons. assumption.
        - apply nodup_remove. assumption.
        - intros s' c2 Hf. rewrite find_key_remove in Hf. rewrite tails_gof, tails_del. destruct (bytes_eqb s' s); [discriminate|]. rewrite <- tails_gof. eauto.
        - intros s' c2 Hf. rewrite find_key_remove in Hf. rewrite tails_gof, tails_del. destruct (bytes_eqb s' s); [discriminate|]. rewrite <- tails_gof. eauto.
        - intros s' Hf. rewrite find_key_remove in Hf. rewrite tails_gof, tails_del. destruct (bytes_eqb s' s) eqn:Es.
          + apply bytes_eqb_spec in Es. subst. rewrite Hdel. reflexivity.
          + rewrite <- tails_gof. eauto. }
      set (st2 := if is_nil p then Some st1 else match tn_destroy (cs_heap st1) c' with None => None | Some (h0, out) => Some (mkcst h0 (cs_calls st1 ++ out) (cs_cur st1)) end) in E.
      destruct st2 as [st2'|] eqn:Est2; [|discriminate].
      assert (Hst : cs_calls st2' = cs_calls st1 /\ cs_cur st2' = cs_cur st1).
      { subst st2. destruct (is_nil p); [inversion Est2; auto|]. destruct c' as [d' cs']. cbn in Hbare. destruct Hbare as [Hcl ->]. rewrite tn_destroy_eq in Est2. cbn [destroys] in Est2.
        unfold cleanup_of in Est2. rewrite Hcl in Est2. destruct (if d_owns d' then _ else _); [|discriminate]. inversion Est2; subst. cbn. rewrite app_nil_r. auto. }
      destruct Hst as [Hst1 Hst2]. rewrite <- Hst1 in Hcalls. rewrite <- Hst2 in Hcur. destruct top.
      * inversion E; subst. split; [assumption|]. split; [assumption|]. split; [assumption|discriminate].
      * destruct (is_nil (remove_key s cs) && match d_cb d with Some _ => false | None => true end) eqn:Eg.
        -- apply andb_true_iff in Eg as [Eg1 Eg2]. inversion E; subst. split; [assumption|]. split; [assumption|].
           assert (Hnil : remove_key s cs = []) by (destruct (remove_key s cs); [reflexivity|discriminate]).
           assert (Hh : here F = []).
           { unfold data_here in Hd. destruct (here F); [reflexivity|]. destruct Hd as [Hd _]. rewrite Hd in Eg2. discriminate. }
           assert (Hd0 : del (s :: p) F = []).
           { apply all_nil; [|rewrite here_del_cons; assumption]. intros x. inversion Hrep as [d0 cs0 F0 G0 _ _ _ _ Hr3]; subst. apply (gof_nil (tails x (del (s :: p) F))). rewrite <- tails_gof. apply Hr3.
             rewrite Hnil. reflexivity. }
           rewrite Hd0 in Hrep. split; [assumption|]. split; [|split; [exact Hrep|reflexivity]]. cbn. split; [|assumption]. rewrite Hh in Hd. apply Hd.
        -- assert (Hne : del (s :: p) F <> []).
           { intros E0. apply andb_false_iff in Eg as [Eg|Eg].
             - destruct (remove_key s cs) as [|[k x] l] eqn:El; [discriminate|]. inversion Hrep as [d0 cs0 F0 G0 _ _ Hr1 _ _]; subst. apply (Hr1 k x); [rewrite find_key_cons, bytes_eqb_refl; reflexivity|].
               rewrite E0. reflexivity.
             - unfold data_here in Hd. destruct (here F) eqn:Eh; [destruct Hd as [Hd _]; rewrite Hd in Eg; discriminate|]. rewrite <- (here_del_cons s p), E0 in Eh. discriminate. }
           destruct (start_offset d) as [off|]; [|discriminate].
           destruct (fix_node_spec _ _ _ _ _ _ _ _ E Hcur) as (d' & off' & nf' & -> & Hsc & Hcl & Hb). rewrite Hcl. split; [assumption|]. split; [assumption|].
           split; [eapply trep_same_content; eassumption|auto].
    + destruct Hr as [Hr1 Hr2]. destruct (Hput c' Hr1 (Hr2 eq_refl)) as [Hp1 Hp2]. destruct top.
      * inversion E; subst. auto.
      * destruct (fix_node_spec _ _ _ _ _ _ _ _ E Hcur) as (d' & off' & nf' & -> & Hsc & Hcl & Hb). rewrite Hcl. split; [assumption|]. split; [assumption|].
        split; [eapply trep_same_content; eassumption|auto].
Qed.
Lemma remove_spec iter h root f F root' h' out : trep root F (gof F) -> NoDup (map fst F) -> tt_remove iter h root f = Some (root', h', out) ->
  trep root' (del (split 47 f) F) (gof (del (split 47 f) F)) /\ out = flat_map nz (told (split 47 f) F).
Proof.
  intros H Hn E. unfold tt_remove in E. destruct (tt_find h root (split 47 f)) as [[|]|] eqn:Ef; [| |discriminate].
  - destruct (tt_climb iter h true root (split 47 f)) as [[st r]|] eqn:Ec; [|discriminate].
    destruct (climb_spec _ _ _ _ _ _ _ _ H Hn (fun _ => split_nonempty _ _) Ec) as (H1 & H2 & H3). destruct r as [n'|n'|n' o nf]; [|discriminate|discriminate].
    destruct H3 as [H3 _]. destruct (cs_cur st) as [[d cs]|]; [|inversion E; subst; auto]. cbn [bare] in H2. destruct H2 as [Hcl ->].
    rewrite tn_destroy_eq in E. cbn [destroys] in E. unfold cleanup_of in E. rewrite Hcl in E. destruct (if d_owns d then _ else _); [|discriminate]. inversion E; subst.
    rewrite !app_nil_r. auto.
  - inversion E; subst. assert (Hni : ~ In (split 47 f) (map fst F)) by (eapply find_false; [exact H|rewrite gof_fst; apply incl_refl|exact Ef]).
    rewrite del_absent by assumption. rewrite told_absent by assumption. auto.
Qed.

(** ** Publish *)
Fixpoint tmb (f ts : list bytes) : bool :=
  match f, ts with
  | [], [] => true
  | x :: f, t :: ts => if bytes_eqb x hash && is_nil f then true else (bytes_eqb x plus || bytes_eqb x t) && tmb f ts
  | _, _ => false
  end.
Definition trecv (o : tsub) : list call := [(ts_cb o, ts_user o)].
Definition tmatched (segs : list bytes) (e : list bytes * tsub) : list call := if tmb (fst e) segs then trecv (snd e) else [].
Lemma call_here d cs (F : paths tsub) : NoDup (map fst F) -> data_here d (here F) -> tn_call (TNode d cs) = flat_map trecv (here F).
Proof.
  intros Hn Hd. unfold tn_call, tn_data. destruct (nodup_here F Hn) as [E|(o & E)]; rewrite E in *; cbn in *.
  - destruct Hd as [-> _]. reflexivity.
  - destruct Hd as (-> & _ & -> & _). reflexivity.
Qed.
Definition t_hash (e : list bytes * tsub) : list call :=
  match fst e with x :: q => if bytes_eqb hash x then match q with [] => trecv (snd e) | _ => [] end else [] | [] => [] end.
Lemma flat_map_t_hash F : flat_map t_hash F = flat_map trecv (here (tails hash F)).
Proof. rewrite <- flat_map_here. rewrite <- flat_map_tails. apply flat_map_ext. intros [[|x q] o]; reflexivity. Qed.
Lemma publish_tree_spec h segs : forall n F G calls, trep n F G -> incl (map fst F) (map fst G) -> NoDup (map fst F) -> Forall (fun e => hash_last (fst e)) F ->
  Forall (fun s => s <> plus /\ s <> hash) segs -> tt_publish h n segs = Some calls -> Permutation calls (flat_map (tmatched segs) F).
Proof.
  induction segs as [|s segs IH]; intros n F G calls H Hi Hd Hv Hs E; inversion H as [d cs F' G' Hdh Hn H1 H2 H3]; subst; cbn [tt_publish tn_children] in E.
  - inversion E; subst. rewrite (call_here _ _ _ Hd Hdh). rewrite <- flat_map_here. apply eq_perm, flat_map_ext. intros [[|x q] o]; reflexivity.
  - destruct (negb (keys_ok h cs)); [discriminate|]. apply Forall_cons_iff in Hs as [[Hsp Hsh] Hs].
    assert (Hnone : forall k, find_key k cs = None -> tails k F = []) by (intros k Hk; eapply tails_fst_nil; eauto).
    assert (Hchild : forall k l, (match find_key k cs with Some c => tt_publish h c segs | None => Some [] end) = Some l -> Permutation l (flat_map (tmatched segs) (tails k F))).
    { intros k l El. destruct (find_key k cs) as [c|] eqn:Ek.
      - eapply IH; [eapply H2; eassumption|apply incl_tails; assumption|apply nodup_tails; assumption|apply hash_last_tails; assumption|assumption|assumption].
      - inversion El. rewrite (Hnone _ Ek). constructor. }
    assert (Hhash : forall l, (match find_key hash cs with
        | None => Some [] | Some c => match d_cb (tn_data c) with None => None | Some f => Some [(f, d_user (tn_data c))] end end) = Some l -> l = flat_map t_hash F).
    { intros l El. rewrite flat_map_t_hash. destruct (find_key hash cs) as [c|] eqn:Ek; [|inversion El; rewrite (Hnone _ Ek); reflexivity].
      pose proof (H2 _ _ Ek) as Hc. inversion Hc as [dc csc Fc Gc Hdc _ _ _ _]; subst. rewrite <- (call_here dc csc _ (nodup_tails hash F Hd) Hdc).
      unfold tn_call. cbn [tn_data] in *. destruct (d_cb dc); [|discriminate]. inversion El. reflexivity. }
    destruct (match find_key hash cs with Some _ => _ | None => _ end) as [a|]; [|discriminate]. rewrite (Hhash a eq_refl) in E. clear Hhash.
    destruct (match find_key plus cs with Some _ => _ | None => _ end) as [b|] eqn:Eb; [|discriminate]. apply Hchild in Eb.
    destruct (match find_key s cs with Some _ => _ | None => _ end) as [c|] eqn:Ec; [|discriminate]. apply Hchild in Ec.
    inversion E; subst. clear E. etransitivity; [apply Permutation_app_head, Permutation_app; eassumption|]. rewrite <- !flat_map_tails.
    etransitivity; [apply Permutation_app_head, Permutation_sym, flat_map_split|]. etransitivity; [apply Permutation_sym, flat_map_split|].
    apply eq_perm, flat_map_ext_in'. intros [[|x q] o] Hin; unfold t_hash, tmatched; cbn [fst snd tmb app]; [reflexivity|].
    rewrite Forall_forall in Hv. specialize (Hv _ Hin). cbn in Hv. destruct Hv as [Hv _].
    rewrite (bytes_eqb_sym x hash), (bytes_eqb_sym x plus), (bytes_eqb_sym x s).
    destruct (bytes_eqb hash x) eqn:Eh.
    + apply bytes_eqb_spec in Eh. subst x. rewrite (Hv eq_refl). cbn [andb is_nil]. destruct (bytes_eqb s hash) eqn:E2; [apply bytes_eqb_spec in E2; congruence|].
      change (bytes_eqb plus hash) with false. cbn iota. rewrite !app_nil_r. reflexivity.
    + cbn [andb app]. destruct (bytes_eqb s x) eqn:Es.
      * apply bytes_eqb_spec in Es. subst x. destruct (bytes_eqb plus s) eqn:Ep; [apply bytes_eqb_spec in Ep; congruence|]. cbn [orb andb]. reflexivity.
      * rewrite orb_false_r, app_nil_r. destruct (bytes_eqb plus x); reflexivity.
Qed.
(** ** Counting *)
Fixpoint counts (cs : list (bytes * tnode)) : N :=
  match cs with [] => 0 | (_, c) :: cs => (match d_cb (tn_data c) with None => 0 | Some _ => 1 end) + tt_count c + counts cs end.
Lemma tt_count_eq d cs : tt_count (TNode d cs) = counts cs.
Proof. reflexivity. Qed.
Lemma len_flat_map_unit {A} (l : list A) : len (flat_map (fun x => [x]) l) = len l.
Proof. f_equal. induction l as [|x l IH]; [reflexivity|]. cbn. rewrite IH. reflexivity. Qed.
Lemma len_perm {A} (a b : list A) : Permutation a b -> len a = len b.
Proof. intros H. unfold len. rewrite (Permutation_length H). reflexivity. Qed.
Lemma count_spec n F G : trep n F G -> incl (map fst F) (map fst G) -> NoDup (map fst F) -> tt_count n + len (here F) = len F.
Proof.
  induction 1 as [d cs F G Hd Hn H1 H2 IH H3]; intros Hi Hnd. rewrite tt_count_eq.
  assert (H3F : forall s, find_key s cs = None -> tails s F = []) by (intros s Es; eapply tails_fst_nil; eauto).
  pose proof (paths_partition (fun x : tsub => [x]) (map fst cs) F Hn (fun x p o => t_heads_in_children cs F x p o H3F)) as Hp. apply len_perm in Hp.
  rewrite len_flat_map_unit, len_app, len_flat_map_unit in Hp.
  replace (len (map snd F)) with (len F) in Hp by (unfold len; rewrite map_length; reflexivity). rewrite Hp.
  assert (Hall : forall e, In e cs -> (match d_cb (tn_data (snd e)) with None => 0 | Some _ => 1 end) + tt_count (snd e) = len (tails (fst e) F)).
  { intros [k c] He. cbn [fst snd]. apply in_find_key in He; [|assumption]. pose proof (IH k c He (incl_tails k F G Hi) (nodup_tails k F Hnd)) as Hk.
    rewrite <- Hk. pose proof (H2 k c He) as Hc. inversion Hc as [dc csc Fc Gc Hdc _ _ _ _]; subst. cbn [tn_data].
    destruct (nodup_here (tails k F) (nodup_tails k F Hnd)) as [E|(o & E)]; rewrite E in *; cbn in Hdc.
    - destruct Hdc as [-> _]. unfold len. cbn [length]. lia.
    - destruct Hdc as [-> _]. unfold len. cbn [length]. lia. }
  enough (counts cs = len (flat_map (fun s => flat_map (fun x : tsub => [x]) (map snd (tails s F))) (map fst cs))) as -> by lia.
  clear -Hall. induction cs as [|[k c] cs IHc]; [reflexivity|]. cbn [counts map fst flat_map]. rewrite len_app, len_flat_map_unit.
  rewrite <- IHc by (intros e He; apply Hall; right; assumption). pose proof (Hall (k, c) (or_introl eq_refl)) as Hk. cbn [fst snd] in Hk. rewrite Hk.
  unfold len. rewrite map_length. lia.
Qed.

(** ** Whole histories *)
Definition tp (e : bytes * tsub) : list bytes * tsub := (split 47 (fst e), snd e).
Definition tinv (root : tnode) (l : list (bytes * tsub)) : Prop := trep root (map tp l) (gof (map tp l)) /\ NoDup (map fst l).
Lemma tinv_init : tinv tt_init [].
Proof. split; [apply trep_new|constructor]. Qed.
Lemma nodup_tp l : NoDup (map fst l) -> NoDup (map fst (map tp l)).
Proof.
  rewrite map_map. cbn. intros H. rewrite <- (map_map fst (split 47)). apply FinFun.Injective_map_NoDup; [|assumption]. intros a b E. eapply split_inj. eassumption.
Qed.
Lemma in_tp f l : In (split 47 f) (map fst (map tp l)) <-> In f (map fst l).
Proof.
  rewrite map_map. rewrite !in_map_iff. split; intros (o & E & Hi); exists o; (split; [|assumption]).
  - apply split_inj in E. assumption.
  - cbn. rewrite E. reflexivity.
Qed.
Lemma not_filter_eqb f e : not_filter f e = negb (bytes_eqb f (fst e)).
Proof.
  unfold not_filter. destruct (list_eq_dec N.eq_dec (fst e) f) as [->|Hn]; [rewrite bytes_eqb_refl; reflexivity|].
  rewrite (proj2 (bytes_eqb_false f (fst e))); [reflexivity|congruence].
Qed.
Lemma del_tp f l : del (split 47 f) (map tp l) = map tp (filter (not_filter f) l).
Proof.
  induction l as [|o l IH]; [reflexivity|]. cbn [map filter]. unfold tp at 1. rewrite del_cons, IH, not_filter_eqb.
  destruct (bytes_eqb f (fst o)) eqn:E.
  - apply bytes_eqb_spec in E. subst. rewrite (proj2 (path_eqb_spec _ _) eq_refl). reflexivity.
  - rewrite (proj2 (path_eqb_false _ _)); [reflexivity|]. intros Hs. apply split_inj in Hs. apply bytes_eqb_false in E. congruence.
Qed.
Lemma nodup_not_filter f l : NoDup (map fst l) -> NoDup (map fst (filter (not_filter f) l)).
Proof.
  induction l as [|o l IH]; intros H; [constructor|]. inversion H as [|x y Hn Hd]; subst. cbn [filter]. destruct (not_filter f o); [|auto]. cbn [map]. constructor; [|auto].
  intros Hi. apply Hn. apply in_map_iff in Hi as (o' & <- & Hi). apply filter_In in Hi. apply in_map, Hi.
Qed.
Lemma in_not_filter f l e : In e (filter (not_filter f) l) <-> In e l /\ fst e <> f.
Proof. rewrite filter_In, not_filter_eqb, negb_true_iff, bytes_eqb_false. split; intros [? ?]; split; auto. Qed.
Lemma put_tp l e : put_path (map tp l) (tp e) = map tp (subscribed l e).
Proof. unfold put_path, subscribed. cbn [map]. f_equal. apply del_tp. Qed.
Lemma fold_put_tp subs : forall l, fold_left put_path (map tp subs) (map tp l) = map tp (fold_left subscribed subs l).
Proof. induction subs as [|e subs IH]; intros l; [reflexivity|]. cbn [map fold_left]. rewrite put_tp. apply IH. Qed.
Lemma nodup_subscribed l e : NoDup (map fst l) -> NoDup (map fst (subscribed l e)).
Proof.
  intros H. unfold subscribed. cbn. constructor; [|apply nodup_not_filter; assumption]. intros Hi. apply in_map_iff in Hi as (x & E & Hi). apply in_not_filter in Hi. tauto.
Qed.
Lemma nodup_fold subs : forall l, NoDup (map fst l) -> NoDup (map fst (fold_left subscribed subs l)).
Proof. induction subs as [|e subs IH]; intros l H; [assumption|]. apply IH, nodup_subscribed, H. Qed.
Lemma in_subscribed l e f : In f (map fst (subscribed l e)) <-> f = fst e \/ In f (map fst l).
Proof.
  unfold subscribed. cbn [map In]. split.
  - intros [->|Hi]; [auto|]. apply in_map_iff in Hi as (x & <- & Hi). apply in_not_filter in Hi. right. apply in_map, Hi.
  - intros [->|Hi]; [auto|]. destruct (list_eq_dec N.eq_dec f (fst e)) as [->|Hn]; [auto|]. right. apply in_map_iff in Hi as (x & <- & Hi). apply in_map, in_not_filter. auto.
Qed.
Lemma in_fold subs : forall l f, In f (map fst (fold_left subscribed subs l)) <-> In f (map fst subs) \/ In f (map fst l).
Proof.
  induction subs as [|e subs IH]; intros l f; cbn [fold_left map In]; [tauto|]. rewrite IH, in_subscribed. split; [intros [|[->|]]; auto|intros [[<-|]|]; auto].
Qed.
Lemma told_perm p F : NoDup (map fst F) -> Permutation (flat_map nz (told p F) ++ flat_map nz (map snd (del p F))) (flat_map nz (map snd F)).
Proof.
  intros _. induction F as [|[q o] F IH]; [constructor|]. rewrite told_cons, del_cons. destruct (path_eqb p q); cbn [map snd flat_map].
  - rewrite <- app_assoc. apply Permutation_app_head. exact IH.
  - etransitivity; [apply Permutation_app_swap_app|]. apply Permutation_app_head. exact IH.
Qed.
Lemma replacedl_perm l : forall F, NoDup (map fst F) -> Permutation (replacedl F l ++ flat_map nz (map snd (fold_left put_path l F))) (flat_map nz (map snd F) ++ flat_map nz (map snd l)).
Proof.
  induction l as [|[p o] l IH]; intros F Hn; cbn [replacedl fold_left map snd flat_map fst]; [rewrite app_nil_r; apply Permutation_refl|].
  rewrite <- app_assoc. etransitivity; [apply Permutation_app_head, (IH (put_path F (p, o)) (nodup_put_path F (p, o) Hn))|].
  unfold put_path. cbn [map snd flat_map fst]. etransitivity; [|apply Permutation_app_tail, (told_perm p F Hn)].
  rewrite <- !app_assoc. apply Permutation_app_head. etransitivity; [apply Permutation_app_swap_app|]. apply Permutation_refl.
Qed.
Lemma step_inv iter h root op l h' root' c : tinv root l -> tt_op iter h root op = Some (h', root', c) ->
  tinv root' (t_in_force_step l op) /\
  Permutation (c ++ flat_map t_cleanup (t_in_force_step l op)) (flat_map t_cleanup l ++ flat_map t_cleanup (t_committed op)).
Proof.
  intros [Hr Hn] E. pose proof (nodup_tp l Hn) as Hnp. assert (Hi : incl (map fst (map tp l)) (map fst (gof (map tp l)))) by (rewrite gof_fst; apply incl_refl).
  assert (Hnz : forall l, flat_map nz (map snd (map tp l)) = flat_map t_cleanup l).
  { intros l0. induction l0 as [|e l0 IH]; [reflexivity|]. cbn [map flat_map]. rewrite IH. reflexivity. }
  destruct op as [subs [|]|f]; cbn [tt_op t_in_force_step t_committed] in *.
  - destruct (tt_inserts h root subs) as [[[h1 r1] acts]|] eqn:E1; [|discriminate]. destruct (inserts_spec _ _ _ _ _ _ _ _ E1 Hr Hi) as [Hr1 Ha].
    destruct (commits_spec _ _ _ _ _ _ _ _ E Hr1 Hnp) as [Hr2 ->]. rewrite Ha in *. fold tp in *. change (map (fun e => (split 47 (fst e), snd e)) subs) with (map tp subs) in *.
    split.
    + split; [|apply nodup_fold; assumption]. rewrite fold_put_tp in Hr2. eapply trep_shape; [exact Hr2|]. intros p. rewrite map_app, in_app_iff, !gof_fst, map_rev, <- in_rev, !map_map.
      cbn [fst]. rewrite !in_map_iff. split.
      * intros [(e & <- & He)|(e & <- & He)]; [pose proof (proj2 (in_fold subs l (fst e)) (or_introl (in_map fst _ _ He))) as Hf|pose proof (proj2 (in_fold subs l (fst e)) (or_intror (in_map fst _ _ He))) as Hf];
        apply in_map_iff in Hf as (x & Ex & Hx); exists x; (split; [cbn; rewrite Ex; reflexivity|assumption]).
      * intros (e & <- & He). pose proof (in_map fst _ _ He) as Hf. apply in_fold in Hf as [Hf|Hf]; apply in_map_iff in Hf as (x & Ex & Hx); [left|right]; exists x; (split; [cbn; rewrite Ex; reflexivity|assumption]).
    + pose proof (replacedl_perm (map tp subs) (map tp l) Hnp) as Hp. rewrite fold_put_tp, !Hnz in Hp. exact Hp.
  - destruct (tt_inserts h root subs) as [[[h1 r1] acts]|] eqn:E1; [|discriminate].
    destruct (inserts_roll_back _ _ _ _ _ _ _ _ E1 Hr Hi _ _ _ _ _ (teq_refl _) E) as [Ht ->]. split; [|cbn; rewrite app_nil_r; apply Permutation_refl].
    split; [|assumption]. eapply trep_teq; eassumption.
  - destruct (tt_remove iter h root f) as [[[r1 h1] c1]|] eqn:E1; [|discriminate]. inversion E; subst. destruct (remove_spec _ _ _ _ _ _ _ _ Hr Hnp E1) as [Hr1 ->].
    rewrite del_tp in Hr1. split; [split; [assumption|apply nodup_not_filter; assumption]|]. cbn [flat_map]. rewrite app_nil_r.
    pose proof (told_perm (split 47 f) (map tp l) Hnp) as Hp. rewrite del_tp, !Hnz in Hp. exact Hp.
Qed.
Lemma run_inv iter ops : forall h root calls l h' root' calls', tinv root l -> fold_left (tt_step iter) ops (Some (h, root, calls)) = Some (h', root', calls') ->
  tinv root' (fold_left t_in_force_step ops l) /\
  exists c, calls' = calls ++ c /\ Permutation (c ++ flat_map t_cleanup (fold_left t_in_force_step ops l)) (flat_map t_cleanup l ++ flat_map t_cleanup (flat_map t_committed ops)).
Proof.
  induction ops as [|op ops IH]; intros h root calls l h' root' calls' Hi E; cbn [fold_left] in *.
  - inversion E; subst. split; [assumption|]. exists []. cbn. rewrite !app_nil_r. split; [reflexivity|apply Permutation_refl].
  - unfold tt_step at 2 in E. destruct (tt_op iter h root op) as [[[h1 r1] c1]|] eqn:E1.
    + destruct (step_inv _ _ _ _ _ _ _ _ Hi E1) as [Hi1 Hc1]. destruct (IH _ _ _ _ _ _ _ Hi1 E) as (Hi2 & c2 & -> & Hc2). split; [assumption|]. exists (c1 ++ c2). rewrite app_assoc. split; [reflexivity|].
      cbn [flat_map]. rewrite flat_map_app, <- app_assoc. etransitivity; [apply Permutation_app_head, Hc2|]. rewrite app_assoc.
      etransitivity; [apply Permutation_app_tail, Hc1|]. rewrite <- app_assoc. apply Permutation_refl.
    + exfalso. clear -E. induction ops as [|op ops IH]; cbn in E; [discriminate|auto].
Qed.
Lemma filters_valid_fold subs : forall l, Forall (fun e => topic_filter (fst e)) subs -> Forall (fun e : bytes * tsub => topic_filter (fst e)) l -> Forall (fun e => topic_filter (fst e)) (fold_left subscribed subs l).
Proof.
  induction subs as [|e subs IH]; intros l H1 H2; [assumption|]. apply Forall_cons_iff in H1 as [He H1]. cbn [fold_left]. apply IH; [assumption|]. unfold subscribed. constructor; [assumption|].
  rewrite Forall_forall in *. intros x Hx. apply in_not_filter in Hx. apply H2, Hx.
Qed.
Lemma filters_valid_run ops : forall l, Forall op_filters_valid ops -> Forall (fun e : bytes * tsub => topic_filter (fst e)) l -> Forall (fun e => topic_filter (fst e)) (fold_left t_in_force_step ops l).
Proof.
  induction ops as [|op ops IH]; intros l H1 H2; [assumption|]. apply Forall_cons_iff in H1 as [Ho H1]. cbn [fold_left]. apply IH; [assumption|].
  destruct op as [subs [|]|f]; cbn [t_in_force_step op_filters_valid] in *; [apply filters_valid_fold; assumption|assumption|].
  rewrite Forall_forall in *. intros x Hx. apply in_not_filter in Hx. apply H2, Hx.
Qed.
(** matching *)
Lemma lm_length g : forall ts, levels_match g ts -> ~ In hash g -> length g = length ts.
Proof.
  induction g as [|x g IH]; intros ts H Hn; inversion H; subst; cbn; try reflexivity.
  - exfalso. apply Hn. left. reflexivity.
  - f_equal. apply IH; [assumption|]. intros Hi. apply Hn. right. assumption.
  - f_equal. apply IH; [assumption|]. intros Hi. apply Hn. right. assumption.
Qed.
Lemma hash_last_prefix g : hash_last (g ++ [hash]) -> ~ In hash g.
Proof. induction g as [|x g IH]; intros H; [intros []|]. cbn in H. destruct H as [H1 H2]. intros [->|Hi]; [specialize (H1 eq_refl); destruct g; discriminate|exact (IH H2 Hi)]. Qed.
Lemma tmb_spec f : forall ts, hash_last f -> (tmb f ts = true <-> levels_match f ts /\ ~ exists g, f = g ++ [hash] /\ levels_match g ts).
Proof.
  induction f as [|x f IH]; intros ts Hl; cbn [tmb].
  - destruct ts; split; intros H; try discriminate.
    + split; [constructor|]. intros ([|] & E & _); discriminate.
    + reflexivity.
    + destruct H as [H _]. inversion H.
  - destruct Hl as [Hx Hl]. destruct ts as [|t ts].
    + split; [discriminate|]. intros [H Hn]. exfalso. inversion H; subst. apply Hn. exists []. split; [reflexivity|constructor].
    + destruct (bytes_eqb x hash && is_nil f) eqn:E.
      * apply andb_true_iff in E as [E1 E2]. apply bytes_eqb_spec in E1. subst x. destruct f; [|discriminate]. split; [|reflexivity]. intros _. split; [constructor|].
        intros (g & Eg & Hg). destruct g as [|y g]; [inversion Hg|]. destruct g; discriminate.
      * assert (Hxf : x <> hash).
        { intros ->. rewrite (Hx eq_refl) in E. discriminate. }
        rewrite andb_true_iff, orb_true_iff, !bytes_eqb_spec, (IH ts Hl). split.
        -- intros [Hxt [Hm Hn]]. split; [destruct Hxt as [->| ->]; constructor; assumption|]. intros (g & Eg & Hg). apply Hn. destruct g as [|y g]; [inversion Eg; congruence|].
           inversion Eg; subst. exists g. split; [reflexivity|]. inversion Hg; subst; [exfalso; apply Hxf; reflexivity|assumption|assumption].
        -- intros [Hm Hn]. assert (Hxt : x = plus \/ x = t) by (inversion Hm; subst; [exfalso; apply Hxf; reflexivity|auto|auto]). split; [assumption|]. split.
           ++ inversion Hm; subst; [exfalso; apply Hxf; reflexivity|assumption|assumption].
           ++ intros (g & -> & Hg). apply Hn. exists (x :: g). split; [reflexivity|]. destruct Hxt as [->| ->]; constructor; assumption.
Qed.
Lemma publish_matches h root l t calls : tinv root l -> Forall (fun e => topic_filter (fst e)) l -> topic_name t -> tt_publish h root (split 47 t) = Some calls ->
  exists m, (forall e, In e m <-> In e l /\ tree_matches (fst e) t) /\ NoDup (map fst m) /\ Permutation calls (flat_map t_received m).
Proof.
  intros [Hr Hn] Hv Ht E.
  assert (Hh : forall e, In e l -> hash_last (split 47 (fst e))).
  { intros e He. apply valid_hash_last, valid_filter_spec. rewrite Forall_forall in Hv. auto. }
  exists (filter (fun e => tmb (split 47 (fst e)) (split 47 t)) l). split; [|split].
  - intros e. rewrite filter_In. split.
    + intros [He Hm]. split; [assumption|]. apply tmb_spec in Hm; [exact Hm|auto].
    + intros [He Hm]. split; [assumption|]. apply tmb_spec; [auto|exact Hm].
  - clear -Hn. induction l as [|o l IH]; [constructor|]. inversion Hn as [|x y Hx Hd]; subst. cbn [filter].
    destruct (tmb (split 47 (fst o)) (split 47 t)); [|auto]. cbn [map]. constructor; [|auto].
    intros Hi. apply Hx. apply in_map_iff in Hi as (o' & <- & Hi). apply filter_In in Hi. apply in_map, Hi.
  - etransitivity; [apply (publish_tree_spec h (split 47 t) root _ _ calls Hr)|].
    + rewrite gof_fst. apply incl_refl.
    + apply nodup_tp. assumption.
    + apply Forall_forall. intros x Hx. apply in_map_iff in Hx as (e & <- & He). cbn. auto.
    + apply topic_no_wild. assumption.
    + exact E.
    + apply eq_perm. clear. induction l as [|o l IH]; [reflexivity|]. cbn [map flat_map filter]. rewrite IH. unfold tmatched, tp. cbn [fst snd].
      destruct (tmb (split 47 (fst o)) (split 47 t)); reflexivity.
Qed.
