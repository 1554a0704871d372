From Coq Require Import Permutation.
From Verif Require Import Base BaseLemmas Split Topic_Model Topic_Spec Topic_Proofs TopicAlias_Model TopicAlias_Proofs SubSet_Model SubSet_Spec Paths.

(** ** The tree represents a set of paths *)
Definition node_here (b : bool) (pb cl : option N) (u : N) (h : list sopts) : Prop :=
  match h with
  | [] => b = false /\ cl = None
  | o :: _ => b = true /\ pb = so_publish o /\ cl = so_cleanup o /\ u = so_user o
  end.
Inductive rep : N -> snode -> paths sopts -> Prop :=
| rep_node extra r b pb cl u cs F :
    r = len F + extra -> node_here b pb cl u (here F) -> NoDup (map fst cs) ->
    (forall s c, find_key s cs = Some c -> tails s F <> []) ->
    (forall s c, find_key s cs = Some c -> rep 0 c (tails s F)) ->
    (forall s, find_key s cs = None -> tails s F = []) ->
    rep extra (SNode r b pb cl u cs) F.
Lemma rep_perm extra n F : rep extra n F -> NoDup (map fst F) -> forall F', Permutation F F' -> rep extra n F'.
Proof.
  induction 1 as [extra r b pb cl u cs F Hr Hh Hn H1 H2 IH H3]; intros Hd F' Hp. constructor.
  - rewrite Hr. unfold len. rewrite (Permutation_length Hp). reflexivity.
  - rewrite <- (perm_here F F') by assumption. assumption.
  - assumption.
  - intros s c Hf E. apply (H1 s c Hf). pose proof (perm_tails s _ _ Hp) as Hpt. rewrite E in Hpt. apply Permutation_sym, Permutation_nil in Hpt. assumption.
  - intros s c Hf. apply (IH s c Hf); [apply nodup_tails; assumption|apply perm_tails; assumption].
  - intros s Hf. pose proof (perm_tails s _ _ Hp) as Hpt. rewrite (H3 s Hf) in Hpt. apply Permutation_nil in Hpt. assumption.
Qed.
Lemma rep_new : rep 1 snode_new [].
Proof. constructor; [reflexivity|cbn; auto|constructor|discriminate|discriminate|reflexivity]. Qed.

Lemma get_existing_spec p : forall extra n F, rep extra n F -> (get_existing n p <> None <-> In p (map fst F)).
Proof.
  induction p as [|s p IH]; intros extra n F H; inversion H as [ex r b pb cl u cs F' Hr Hh Hn H1 H2 H3]; subst; cbn [get_existing sn_sub sn_children].
  - unfold node_here in Hh. destruct (here F) as [|o l] eqn:E.
    + destruct Hh as [-> _]. split; [congruence|]. intros Hi. apply in_map_iff in Hi as ([q o] & Eq & Hi). cbn in Eq. subst. apply in_here in Hi. rewrite E in Hi. destruct Hi.
    + destruct Hh as [-> _]. split; [intros _|discriminate]. apply in_map_iff. exists ([], o). split; [reflexivity|]. apply in_here. rewrite E. left. reflexivity.
  - rewrite <- in_tails_fst. destruct (find_key s cs) as [c|] eqn:E.
    + eapply IH. eapply H2. eassumption.
    + rewrite (H3 _ E). split; [congruence|intros []].
Qed.

(** updating the node itself *)
Definition olds (p : list bytes) (F : paths sopts) : list sopts := flat_map (fun e => if path_eqb p (fst e) then [snd e] else []) F.
Lemma olds_cons p q o F : olds p ((q, o) :: F) = if path_eqb p q then o :: olds p F else olds p F.
Proof. unfold olds. cbn [flat_map fst snd]. destruct (path_eqb p q); reflexivity. Qed.
Definition replaced (p : list bytes) (F : paths sopts) : list call := flat_map cleanup_call (olds p F).
Lemma replaced_nil F : replaced [] F = flat_map cleanup_call (here F).
Proof. unfold replaced. f_equal. induction F as [|[[|x p] o] F IH]; [reflexivity| |]; rewrite olds_cons, here_cons; cbn [path_eqb]; rewrite IH; reflexivity. Qed.
Lemma replaced_cons s p F : replaced (s :: p) F = replaced p (tails s F).
Proof.
  unfold replaced. f_equal. induction F as [|[[|x q] o] F IH]; [reflexivity| |]; rewrite tails_cons, olds_cons; cbn [path_eqb]; [assumption|].
  destruct (bytes_eqb s x) eqn:E; cbn [andb]; [|assumption]. rewrite olds_cons, IH. reflexivity.
Qed.
Lemma replaced_absent p F : ~ In p (map fst F) -> replaced p F = [].
Proof.
  unfold replaced. induction F as [|[q o] F IH]; intros H; [reflexivity|]. cbn [map fst In] in *. rewrite olds_cons.
  destruct (path_eqb p q) eqn:E; [apply path_eqb_spec in E; exfalso; apply H; left; congruence|]. apply IH. tauto.
Qed.
Lemma node_here_calls b pb cl u F : NoDup (map fst F) -> node_here b pb cl u (here F) -> match cl with Some h => [(h, u)] | None => [] end = replaced [] F.
Proof.
  intros Hn Hh. rewrite replaced_nil. destruct (nodup_here F Hn) as [E|(o & E)]; rewrite E in *; cbn in *.
  - destruct Hh as [_ ->]. reflexivity.
  - destruct Hh as (_ & _ & -> & ->). unfold cleanup_call. rewrite app_nil_r. reflexivity.
Qed.
Lemma update_path_spec o p : forall extra n F, rep extra n F -> NoDup (map fst F) -> In p (map fst F) ->
  rep extra (fst (update_path (set_subscription o) n p)) ((p, o) :: del p F) /\ snd (update_path (set_subscription o) n p) = replaced p F.
Proof.
  induction p as [|s p IH]; intros extra n F H Hd Hi; inversion H as [ex r b pb cl u cs F' Hr Hh Hn H1 H2 H3]; subst; cbn [update_path].
  - cbn [set_subscription fst snd]. split; [|eapply node_here_calls; eassumption]. constructor.
    + rewrite len_cons. rewrite (len_del [] F) by assumption. lia.
    + rewrite here_cons. cbn. auto.
    + assumption.
    + intros s c Hf. rewrite tails_cons, tails_del_nil. eauto.
    + intros s c Hf. rewrite tails_cons, tails_del_nil. eauto.
    + intros s Hf. rewrite tails_cons, tails_del_nil. eauto.
  - apply in_tails_fst in Hi as Hi'. destruct (find_key s cs) as [c|] eqn:E; [|rewrite (H3 _ E) in Hi'; destruct Hi'].
    destruct (IH 0 c (tails s F) (H2 _ _ E) (nodup_tails s F Hd) Hi') as [Hc Ho].
    destruct (update_path (set_subscription o) c p) as [c' out]. cbn [fst snd] in *. split; [|rewrite replaced_cons; assumption]. constructor.
    + rewrite len_cons. rewrite (len_del (s :: p) F) by assumption. lia.
    + rewrite here_cons, here_del_cons. assumption.
    + apply nodup_put. assumption.
    + intros s' c2 Hf. rewrite find_put in Hf. rewrite tails_cons, tails_del. destruct (bytes_eqb s' s) eqn:Es; [discriminate|]. eauto.
    + intros s' c2 Hf. rewrite find_put in Hf. rewrite tails_cons, tails_del. destruct (bytes_eqb s' s) eqn:Es.
      * apply bytes_eqb_spec in Es. injection Hf as <-. subst. assumption.
      * eauto.
    + intros s' Hf. rewrite find_put in Hf. rewrite tails_cons, tails_del. destruct (bytes_eqb s' s) eqn:Es; [discriminate|]. eauto.
Qed.
(** adding a new path: the node already carries the additional reference *)
Lemma create_path_spec o p : forall extra n F, rep (extra + 1) n F -> NoDup (map fst F) -> ~ In p (map fst F) ->
  rep extra (fst (create_path (set_subscription o) n p)) ((p, o) :: F) /\ snd (create_path (set_subscription o) n p) = [].
Proof.
  induction p as [|s p IH]; intros extra n F H Hd Hi; inversion H as [ex r b pb cl u cs F' Hr Hh Hn H1 H2 H3]; subst; cbn [create_path].
  - cbn [set_subscription fst snd]. split.
    + constructor.
      * rewrite len_cons. lia.
      * rewrite here_cons. cbn. auto.
      * assumption.
      * intros s c Hf. rewrite tails_cons. eauto.
      * intros s c Hf. rewrite tails_cons. eauto.
      * intros s Hf. rewrite tails_cons. eauto.
    + rewrite (node_here_calls _ _ _ _ _ Hd Hh). apply replaced_absent. assumption.
  - assert (Hi' : ~ In p (map fst (tails s F))) by (rewrite in_tails_fst; assumption).
    assert (Hc : rep (0 + 1) (match find_key s cs with None => snode_new | Some (SNode r' b' p' cl' u' cs') => SNode (r' + 1) b' p' cl' u' cs' end) (tails s F)).
    { destruct (find_key s cs) as [c|] eqn:E.
      - pose proof (H2 _ _ E) as Hc. inversion Hc as [ex' r' b' pb' cl' u' cs' F'' Hr' Hh' Hn' H1' H2' H3']; subst. constructor; auto. lia.
      - rewrite (H3 _ E). apply rep_new. }
    destruct (IH 0 _ (tails s F) Hc (nodup_tails s F Hd) Hi') as [Hc' Ho].
    destruct (create_path (set_subscription o) _ p) as [c' out]. cbn [fst snd] in *. split; [|assumption]. constructor.
    + rewrite len_cons. lia.
    + rewrite here_cons. assumption.
    + apply nodup_put. assumption.
    + intros s' c2 Hf. rewrite find_put in Hf. rewrite tails_cons. destruct (bytes_eqb s' s) eqn:Es; [discriminate|]. eauto.
    + intros s' c2 Hf. rewrite find_put in Hf. rewrite tails_cons. destruct (bytes_eqb s' s) eqn:Es.
      * apply bytes_eqb_spec in Es. injection Hf as <-. subst. assumption.
      * eauto.
    + intros s' Hf. rewrite find_put in Hf. rewrite tails_cons. destruct (bytes_eqb s' s) eqn:Es; [discriminate|]. eauto.
Qed.

(** ** Destruction: every remaining subscription is cleaned up once (if its user data is not NULL) *)
Definition cleanup_nz (o : sopts) : list call := match so_cleanup o with Some h => if so_user o =? 0 then [] else [(h, so_user o)] | None => [] end.
Definition destroy_children (cs : list (bytes * snode)) : list call := flat_map (fun e => destroy_node (snd e)) cs.
Lemma destroy_node_eq r b pb cl u cs : destroy_node (SNode r b pb cl u cs) =
  destroy_children cs ++ match cl with Some h => if u =? 0 then [] else [(h, u)] | None => [] end.
Proof.
  cbn [destroy_node]. f_equal. unfold destroy_children. induction cs as [|[k c] cs IH]; [reflexivity|]. cbn [flat_map snd]. rewrite IH. reflexivity.
Qed.
Lemma heads_in_children {A} cs (F : paths A) x p o : (forall s, find_key s cs = None -> tails s F = []) -> In (x :: p, o) F -> In x (map fst (cs : list (bytes * snode))).
Proof.
  intros H3 Hi. destruct (in_dec (list_eq_dec N.eq_dec) x (map fst cs)) as [|Hn]; [assumption|]. exfalso. apply find_key_none_in in Hn. apply H3 in Hn.
  apply in_tails in Hi. rewrite Hn in Hi. destruct Hi.
Qed.
Lemma destroy_spec extra n F : rep extra n F -> NoDup (map fst F) -> Permutation (destroy_node n) (flat_map cleanup_nz (map snd F)).
Proof.
  induction 1 as [extra r b pb cl u cs F Hr Hh Hn H1 H2 IH H3]; intros Hd. rewrite destroy_node_eq.
  etransitivity; [|apply Permutation_sym, (paths_partition cleanup_nz (map fst cs) F Hn)].
  2:{ intros x p o. apply heads_in_children. assumption. }
  etransitivity; [apply Permutation_app_comm|].
  assert (E : match cl with Some h => if u =? 0 then [] else [(h, u)] | None => [] end = flat_map cleanup_nz (here F)).
  { destruct (nodup_here F Hd) as [E|(o & E)]; rewrite E in *; cbn in *; [destruct Hh as [_ ->]; reflexivity|].
    destruct Hh as (_ & _ & -> & ->). rewrite app_nil_r. reflexivity. }
  apply Permutation_app; [exact (eq_perm _ _ E)|]. clear E. unfold destroy_children.
  assert (Hall : forall e, In e cs -> Permutation (destroy_node (snd e)) (flat_map cleanup_nz (map snd (tails (fst e) F)))).
  { intros [k c] Hi. cbn [fst snd]. apply (IH k c); [apply in_find_key; assumption|apply nodup_tails; assumption]. }
  clear -Hall. induction cs as [|e cs IHc]; [constructor|]. cbn [flat_map map]. apply Permutation_app; [apply Hall; left; reflexivity|].
  apply IHc. intros e' He'. apply Hall. right. assumption.
Qed.

(** ** Removal *)
Lemma good_cleanup o : good o -> cleanup_nz o = cleanup_call o.
Proof. unfold good, cleanup_nz, cleanup_call. intros [->|H]; [reflexivity|]. destruct (so_cleanup o); [|reflexivity]. destruct (N.eqb_spec (so_user o) 0); [congruence|reflexivity]. Qed.
Lemma len_0 {A} (l : list A) : len l = 0 -> l = [].
Proof. destruct l; [reflexivity|]. rewrite len_cons. lia. Qed.
Lemma remove_path_spec p : forall extra n F, rep extra n F -> NoDup (map fst F) -> In p (map fst F) ->
  match remove_path n p with
  | (RNode n', out) => rep extra n' (del p F) /\ (del p F <> [] \/ 0 < extra) /\ (Forall good (map snd F) -> out = replaced p F)
  | (RGone, out) => extra = 0 /\ del p F = [] /\ (Forall good (map snd F) -> out = replaced p F)
  | (RCrash, _) => False
  end.
Proof.
  induction p as [|s p IH]; intros extra n F H Hd Hi; inversion H as [ex r b pb cl u cs F' Hr Hh Hn H1 H2 H3]; subst.
  all: pose proof (len_del _ F Hd Hi) as Hl.
  - cbn [remove_path]. destruct (N.eqb_spec (len F + extra - 1) 0) as [E|E].
    + assert (Hdel : del [] F = []) by (apply len_0; lia). split; [lia|]. split; [assumption|]. intros Hg.
      destruct (split_path [] F Hd Hi) as (o & Ho & Hp). rewrite Hdel in Hp. apply Permutation_sym, Permutation_length_1_inv in Hp. subst F.
      pose proof (destroy_spec _ _ _ H Hd) as Hds. cbn [map snd flat_map] in Hds. rewrite app_nil_r in Hds. inversion Hg; subst.
      rewrite good_cleanup in Hds by assumption. rewrite replaced_nil. cbn. rewrite app_nil_r. unfold cleanup_call in *. destruct (so_cleanup o).
      * apply Permutation_sym, Permutation_length_1_inv in Hds. assumption.
      * apply Permutation_sym, Permutation_nil in Hds. assumption.
    + split; [|split].
      * constructor.
        -- lia.
        -- rewrite here_del_nil. cbn. auto.
        -- assumption.
        -- intros s c Hf. rewrite tails_del_nil. eauto.
        -- intros s c Hf. rewrite tails_del_nil. eauto.
        -- intros s Hf. rewrite tails_del_nil. eauto.
      * destruct (del [] F) eqn:Ed; [right; rewrite len_nil in Hl; lia|left; discriminate].
      * intros _. eapply node_here_calls; eassumption.
  - cbn [remove_path]. destruct (N.eqb_spec (len F + extra - 1) 0) as [E|E].
    + assert (Hdel : del (s :: p) F = []) by (apply len_0; lia). split; [lia|]. split; [assumption|]. intros Hg.
      destruct (split_path (s :: p) F Hd Hi) as (o & Ho & Hp). rewrite Hdel in Hp. apply Permutation_sym, Permutation_length_1_inv in Hp. subst F.
      pose proof (destroy_spec _ _ _ H Hd) as Hds. cbn [map snd flat_map] in Hds. rewrite app_nil_r in Hds. inversion Hg; subst.
      rewrite good_cleanup in Hds by assumption. unfold replaced. rewrite olds_cons. rewrite (proj2 (path_eqb_spec (s :: p) (s :: p)) eq_refl). cbn [flat_map app olds]. rewrite app_nil_r.
      unfold cleanup_call in *. destruct (so_cleanup o).
      * apply Permutation_sym, Permutation_length_1_inv in Hds. assumption.
      * apply Permutation_sym, Permutation_nil in Hds. assumption.
    + apply in_tails_fst in Hi as Hi'. destruct (find_key s cs) as [c|] eqn:Ef; [|rewrite (H3 _ Ef) in Hi'; destruct Hi'].
      pose proof (IH 0 c (tails s F) (H2 _ _ Ef) (nodup_tails s F Hd) Hi') as Hc.
      assert (Hgt : Forall good (map snd F) -> Forall good (map snd (tails s F))).
      { rewrite !Forall_forall. intros Hg o Ho. apply in_map_iff in Ho as ([q o'] & <- & Ho). apply in_tails in Ho. apply Hg. apply in_map_iff. exists (s :: q, o'). auto. }
      destruct (remove_path c p) as [[c'| |] out]; [| |assumption].
      * destruct Hc as (Hc & Hne & Ho). split; [|split].
        -- constructor.
           ++ lia.
           ++ rewrite here_del_cons. assumption.
           ++ apply nodup_put. assumption.
           ++ intros s' c2 Hf. rewrite find_put in Hf. rewrite tails_del. destruct (bytes_eqb s' s) eqn:Es; [|eauto].
              apply bytes_eqb_spec in Es. subst. destruct Hne; [assumption|lia].
           ++ intros s' c2 Hf. rewrite find_put in Hf. rewrite tails_del. destruct (bytes_eqb s' s) eqn:Es; [|eauto].
              apply bytes_eqb_spec in Es. injection Hf as <-. subst. assumption.
           ++ intros s' Hf. rewrite find_put in Hf. rewrite tails_del. destruct (bytes_eqb s' s) eqn:Es; [discriminate|]. eauto.
        -- destruct (del (s :: p) F) eqn:Ed; [right; rewrite len_nil in Hl; lia|left; discriminate].
        -- intros Hg. rewrite replaced_cons. auto.
      * destruct Hc as (_ & Hne & Ho). split; [|split].
        -- constructor.
           ++ lia.
           ++ rewrite here_del_cons. assumption.
           ++ apply nodup_remove. assumption.
           ++ intros s' c2 Hf. rewrite tails_del. destruct (bytes_eqb s' s) eqn:Es.
              ** apply bytes_eqb_spec in Es. subst. rewrite find_remove_same in Hf. discriminate.
              ** apply bytes_eqb_false in Es. rewrite find_remove_other in Hf by assumption. eauto.
           ++ intros s' c2 Hf. rewrite tails_del. destruct (bytes_eqb s' s) eqn:Es.
              ** apply bytes_eqb_spec in Es. subst. rewrite find_remove_same in Hf. discriminate.
              ** apply bytes_eqb_false in Es. rewrite find_remove_other in Hf by assumption. eauto.
           ++ intros s' Hf. rewrite tails_del. destruct (bytes_eqb s' s) eqn:Es.
              ** apply bytes_eqb_spec in Es. subst. assumption.
              ** apply bytes_eqb_false in Es. rewrite find_remove_other in Hf by assumption. eauto.
        -- destruct (del (s :: p) F) eqn:Ed; [right; rewrite len_nil in Hl; lia|left; discriminate].
        -- intros Hg. rewrite replaced_cons. auto.
Qed.

(** ** Dispatch *)
Fixpoint lmb (f ts : list bytes) : bool :=
  match f with
  | [] => match ts with [] => true | _ => false end
  | x :: f => if bytes_eqb x hash && (match f with [] => true | _ => false end) then true else
    match ts with [] => false | t :: ts => (bytes_eqb x plus || bytes_eqb x t) && lmb f ts end
  end.
Lemma lmb_spec f : forall ts, lmb f ts = true <-> levels_match f ts.
Proof.
  induction f as [|x f IH]; intros ts; cbn [lmb].
  - destruct ts; split; intros H; try discriminate; [constructor|reflexivity|inversion H].
  - destruct (bytes_eqb x hash && match f with [] => true | _ => false end) eqn:E.
    + apply andb_true_iff in E as [E1 E2]. apply bytes_eqb_spec in E1. subst x. destruct f; [|discriminate]. split; [intros _; constructor|reflexivity].
    + destruct ts as [|t ts].
      * split; [discriminate|]. intros H. inversion H; subst. discriminate.
      * rewrite andb_true_iff, orb_true_iff, !bytes_eqb_spec, IH. split.
        -- intros [[->| ->] H]; constructor; assumption.
        -- intros H. inversion H; subst; auto. discriminate.
Qed.
Fixpoint hash_last (p : list bytes) : Prop := match p with [] => True | x :: q => (x = hash -> q = []) /\ hash_last q end.
Definition matched (segs : list bytes) (e : list bytes * sopts) : list call := if lmb (fst e) segs then received (snd e) else [].
Lemma invoke_here extra n F : rep extra n F -> NoDup (map fst F) -> invoke (Some n) = flat_map received (here F).
Proof.
  intros H Hd. inversion H as [ex r b pb cl u cs F' Hr Hh Hn H1 H2 H3]; subst. destruct (nodup_here F Hd) as [E|(o & E)]; rewrite E in *; cbn in *.
  - destruct Hh as [-> _]. reflexivity.
  - destruct Hh as (-> & -> & _ & ->). rewrite app_nil_r. reflexivity.
Qed.
Definition m_hash (e : list bytes * sopts) : list call :=
  match fst e with x :: q => if bytes_eqb hash x then match q with [] => received (snd e) | _ => [] end else [] | [] => [] end.
Lemma flat_map_hash F : flat_map m_hash F = flat_map received (here (tails hash F)).
Proof.
  rewrite <- flat_map_here. rewrite <- flat_map_tails. apply flat_map_ext. intros [[|x q] o]; reflexivity.
Qed.
Lemma hash_last_tails {A} s (F : paths A) : Forall (fun e => hash_last (fst e)) F -> Forall (fun e => hash_last (fst e)) (tails s F).
Proof.
  rewrite !Forall_forall. intros H [q o] Hi. apply in_tails in Hi. apply H in Hi. cbn in *. tauto.
Qed.
Lemma dispatch_spec segs : forall extra n F, rep extra n F -> NoDup (map fst F) -> Forall (fun e => hash_last (fst e)) F ->
  Forall (fun s => s <> plus /\ s <> hash) segs -> Permutation (dispatch n segs) (flat_map (matched segs) F).
Proof.
  induction segs as [|s segs IH]; intros extra n F H Hd Hv Hs; inversion H as [ex r b pb cl u cs F' Hr Hh Hn H1 H2 H3]; subst; cbn [dispatch sn_children].
  all: assert (Hhash : invoke (find_key hash cs) = flat_map m_hash F).
  1,3: (rewrite flat_map_hash; destruct (find_key hash cs) as [c|] eqn:E;
        [apply (invoke_here 0); [eauto|apply nodup_tails; assumption]|rewrite (H3 _ E); reflexivity]).
  - rewrite Hhash, (invoke_here _ _ _ H Hd). rewrite <- flat_map_here. etransitivity; [apply Permutation_sym, flat_map_split|].
    apply eq_perm, flat_map_ext. intros [[|x q] o]; unfold m_hash, matched; cbn [fst snd lmb app].
    + reflexivity.
    + rewrite app_nil_r. rewrite (bytes_eqb_sym x hash). destruct (bytes_eqb hash x); [|reflexivity]. destruct q; reflexivity.
  - apply Forall_cons_iff in Hs as [[Hsp Hsh] Hs].
    assert (Hchild : forall k, Permutation (match find_key k cs with Some c => dispatch c segs | None => [] end) (flat_map (matched segs) (tails k F))).
    { intros k. destruct (find_key k cs) as [c|] eqn:E; [|rewrite (H3 _ E); constructor]. apply (IH 0); [eauto|apply nodup_tails; assumption|apply hash_last_tails; assumption|assumption]. }
    rewrite Hhash. etransitivity; [apply Permutation_app_head, Permutation_app; apply Hchild|]. rewrite <- !flat_map_tails.
    etransitivity; [apply Permutation_app_head, Permutation_sym, flat_map_split|]. etransitivity; [apply Permutation_sym, flat_map_split|].
    apply eq_perm, flat_map_ext_in'. intros [[|x q] o] Hi; unfold m_hash, matched; cbn [fst snd lmb app]; [reflexivity|].
    rewrite Forall_forall in Hv. specialize (Hv _ Hi). cbn in Hv. destruct Hv as [Hv _].
    rewrite (bytes_eqb_sym x hash), (bytes_eqb_sym x plus), (bytes_eqb_sym x s).
    destruct (bytes_eqb hash x) eqn:Eh.
    + apply bytes_eqb_spec in Eh. subst x. rewrite (Hv eq_refl). cbn [andb]. destruct (bytes_eqb s hash) eqn:E2; [apply bytes_eqb_spec in E2; congruence|].
      change (bytes_eqb plus hash) with false. cbn iota. rewrite !app_nil_r. reflexivity.
    + cbn [andb app]. destruct (bytes_eqb s x) eqn:Es.
      * apply bytes_eqb_spec in Es. subst x. destruct (bytes_eqb plus s) eqn:Ep; [apply bytes_eqb_spec in Ep; congruence|]. cbn [orb andb]. rewrite app_nil_r. reflexivity.
      * rewrite orb_false_r. destruct (bytes_eqb plus x); reflexivity.
Qed.

(** ** The whole set *)
Definition to_path (o : sopts) : list bytes * sopts := (split 47 (so_filter o), o).
Definition to_sub (o : sopts) : bytes * sopts := (so_filter o, o).
Definition ss_inv (s : sset) (l : list sopts) : Prop :=
  rep 1 (ss_root s) (map to_path l) /\ NoDup (map so_filter l) /\ ss_subs s = map to_sub l /\ Forall (fun o => is_valid_topic_filter (so_filter o) = true) l.
Lemma nodup_paths l : NoDup (map so_filter l) -> NoDup (map fst (map to_path l)).
Proof.
  rewrite map_map. cbn. intros H. rewrite <- (map_map so_filter (split 47)). apply FinFun.Injective_map_NoDup; [|assumption]. intros a b E. eapply split_inj. eassumption.
Qed.
Lemma in_paths f l : In (split 47 f) (map fst (map to_path l)) <-> In f (map so_filter l).
Proof.
  rewrite map_map. rewrite !in_map_iff. split; intros (o & E & Hi); exists o; (split; [|assumption]).
  - apply split_inj in E. assumption.
  - cbn. rewrite E. reflexivity.
Qed.
Lemma other_eqb f o : other f o = negb (bytes_eqb f (so_filter o)).
Proof.
  unfold other. destruct (list_eq_dec N.eq_dec (so_filter o) f) as [->|Hn]; [rewrite bytes_eqb_refl; reflexivity|].
  rewrite (proj2 (bytes_eqb_false f (so_filter o))); [reflexivity|congruence].
Qed.
Lemma del_paths f l : del (split 47 f) (map to_path l) = map to_path (filter (other f) l).
Proof.
  induction l as [|o l IH]; [reflexivity|]. cbn [map filter]. unfold to_path at 1. rewrite del_cons, IH, other_eqb.
  destruct (bytes_eqb f (so_filter o)) eqn:E.
  - apply bytes_eqb_spec in E. subst. rewrite (proj2 (path_eqb_spec _ _) eq_refl). reflexivity.
  - rewrite (proj2 (path_eqb_false _ _)); [reflexivity|]. intros Hs. apply split_inj in Hs. apply bytes_eqb_false in E. congruence.
Qed.
Lemma remove_subs f l : remove_key f (map to_sub l) = map to_sub (filter (other f) l).
Proof.
  induction l as [|o l IH]; [reflexivity|]. cbn [map filter]. unfold to_sub at 1. rewrite remove_key_cons, IH, other_eqb. destruct (bytes_eqb f (so_filter o)); reflexivity.
Qed.
Lemma filter_other_twice f l : filter (other f) (filter (other f) l) = filter (other f) l.
Proof. induction l as [|o l IH]; [reflexivity|]. cbn. destruct (other f o) eqn:E; cbn; rewrite ?E, IH; reflexivity. Qed.
Lemma filter_other_in f l o : In o (filter (other f) l) <-> In o l /\ so_filter o <> f.
Proof. rewrite filter_In, other_eqb, negb_true_iff, bytes_eqb_false. split; intros [? ?]; split; auto. Qed.
Lemma nodup_filter_other f l : NoDup (map so_filter l) -> NoDup (map so_filter (filter (other f) l)).
Proof.
  induction l as [|o l IH]; intros H; [constructor|]. inversion H as [|x y Hn Hd]; subst. cbn [filter]. destruct (other f o); [|auto]. cbn [map]. constructor; [|auto].
  intros Hi. apply Hn. apply in_map_iff in Hi as (o' & <- & Hi). apply filter_other_in in Hi. apply in_map, Hi.
Qed.
Lemma filter_absent f l : ~ In f (map so_filter l) -> filter (other f) l = l.
Proof.
  induction l as [|o l IH]; intros H; [reflexivity|]. cbn [map In filter] in *. rewrite other_eqb. destruct (bytes_eqb f (so_filter o)) eqn:E.
  - apply bytes_eqb_spec in E. exfalso. apply H. left. congruence.
  - cbn [negb]. rewrite IH by tauto. reflexivity.
Qed.
Lemma replaced_perm f l : Permutation (replaced (split 47 f) (map to_path l) ++ flat_map cleanup_call (filter (other f) l)) (flat_map cleanup_call l).
Proof.
  induction l as [|o l IH]; [constructor|]. unfold replaced in *. cbn [map filter]. unfold to_path at 1. rewrite olds_cons, other_eqb.
  destruct (bytes_eqb f (so_filter o)) eqn:E; cbn [negb].
  - apply bytes_eqb_spec in E. subst f. rewrite (proj2 (path_eqb_spec _ _) eq_refl). cbn [flat_map]. rewrite <- app_assoc. apply Permutation_app_head. exact IH.
  - rewrite (proj2 (path_eqb_false _ _)).
    2:{ intros Hs. apply split_inj in Hs. apply bytes_eqb_false in E. congruence. }
    cbn [flat_map]. etransitivity; [|apply Permutation_app_head; exact IH]. rewrite !app_assoc. apply Permutation_app_tail, Permutation_app_comm.
Qed.
Lemma ss_in_tree_spec s l f : ss_inv s l -> (ss_in_tree s f = true <-> In f (map so_filter l)).
Proof.
  intros (Hr & _). unfold ss_in_tree. rewrite <- in_paths. rewrite <- (get_existing_spec _ _ _ _ Hr). destruct (get_existing (ss_root s) (split 47 f)); split; intros; congruence.
Qed.
Lemma ss_is_subscribed_spec s l f : ss_inv s l -> (ss_is_subscribed s f = true <-> In f (map so_filter l)).
Proof.
  intros (_ & _ & Hs & _). unfold ss_is_subscribed. rewrite Hs.
  assert (E : map so_filter l = map fst (map to_sub l)) by (rewrite map_map; reflexivity). rewrite E. pose proof (find_key_none_in f (map to_sub l)) as Hn.
  destruct (find_key f (map to_sub l)).
  - split; [intros _|reflexivity]. destruct (in_dec (list_eq_dec N.eq_dec) f (map fst (map to_sub l))) as [|H]; [assumption|]. apply Hn in H. discriminate.
  - split; [discriminate|]. intros H. exfalso. apply (proj1 Hn eq_refl H).
Qed.
Lemma ss_step_inv s l op : ss_inv s l -> op_valid op -> exists s' c,
  (match op with SAdd o => ss_add s o | SRemove f => ss_remove s f end) = Some (s', c) /\ ss_inv s' (in_force_step l op) /\
  (Forall good l -> op_good op -> Permutation (c ++ flat_map cleanup_call (in_force_step l op)) (flat_map cleanup_call l ++ added op) /\ Forall good (in_force_step l op)).
Proof.
  intros (Hr & Hd & Hs & Hv) Hop. pose proof (nodup_paths l Hd) as Hdp. destruct op as [o|f]; cbn [in_force_step op_valid op_good added] in *.
  - apply valid_filter_spec in Hop. unfold ss_add. rewrite Hop. cbn [negb]. rewrite Hs. unfold put_key. rewrite !remove_subs, filter_other_twice.
    assert (Hgood : Forall good l -> good o -> Forall good (o :: filter (other (so_filter o)) l)).
    { intros Hg Ho. constructor; [assumption|]. rewrite Forall_forall in *. intros x Hx. apply filter_other_in in Hx. apply Hg, Hx. }
    assert (Hnew : forall root, rep 1 root ((split 47 (so_filter o), o) :: del (split 47 (so_filter o)) (map to_path l)) ->
      ss_inv (mkss ((so_filter o, o) :: map to_sub (filter (other (so_filter o)) l)) root) (o :: filter (other (so_filter o)) l)).
    { intros root Hroot. rewrite del_paths in Hroot. split; [exact Hroot|]. split; [|split].
      - cbn [map]. constructor; [|apply nodup_filter_other; assumption]. intros Hi. apply in_map_iff in Hi as (x & E & Hi). apply filter_other_in in Hi. tauto.
      - reflexivity.
      - constructor; [assumption|]. rewrite Forall_forall in *. intros x Hx. apply filter_other_in in Hx. apply Hv, Hx. }
    pose proof (get_existing_spec (split 47 (so_filter o)) _ _ _ Hr) as Hg. destruct (get_existing (ss_root s) (split 47 (so_filter o))) as [n|].
    + assert (Hi : In (split 47 (so_filter o)) (map fst (map to_path l))) by (apply Hg; discriminate).
      pose proof (update_path_spec o _ _ _ _ Hr Hdp Hi) as [H1 H2]. destruct (update_path (set_subscription o) (ss_root s) (split 47 (so_filter o))) as [root out].
      cbn [fst snd] in *. eexists _, _. split; [reflexivity|]. split; [apply Hnew; assumption|]. intros Hg1 Hg2. split; [|auto]. subst out.
      cbn [flat_map]. etransitivity; [|apply Permutation_app_comm]. rewrite Permutation_app_swap_app. apply Permutation_app_head, replaced_perm.
    + assert (Hi : ~ In (split 47 (so_filter o)) (map fst (map to_path l))) by (intros Hi; apply Hg in Hi; congruence).
      inversion Hr as [ex r b pb cl u cs F' Hr' Hh Hn H1 H2 H3 Ex En EF].
      assert (Hr1 : rep (1 + 1) (SNode (r + 1) b pb cl u cs) (map to_path l)) by (constructor; auto; lia).
      pose proof (create_path_spec o _ 1 _ _ Hr1 Hdp Hi) as [H4 H5]. destruct (create_path (set_subscription o) (SNode (r + 1) b pb cl u cs) (split 47 (so_filter o))) as [root out].
      cbn [fst snd] in *. subst out. eexists _, _. split; [reflexivity|]. split; [apply Hnew; rewrite del_absent by assumption; assumption|]. intros Hg1 Hg2. split; [|auto].
      cbn [flat_map app]. rewrite filter_absent by (rewrite <- in_paths; assumption). apply Permutation_app_comm.
  - unfold ss_remove. rewrite Hs, remove_subs. pose proof (ss_in_tree_spec s l f (conj Hr (conj Hd (conj Hs Hv)))) as Ht.
    assert (Hnew : forall root, rep 1 root (del (split 47 f) (map to_path l)) -> ss_inv (mkss (map to_sub (filter (other f) l)) root) (filter (other f) l)).
    { intros root Hroot. rewrite del_paths in Hroot. split; [exact Hroot|]. split; [apply nodup_filter_other; assumption|]. split; [reflexivity|].
      rewrite Forall_forall in *. intros x Hx. apply filter_other_in in Hx. apply Hv, Hx. }
    destruct (ss_in_tree s f) eqn:E; cbn [negb].
    + assert (Hi : In (split 47 f) (map fst (map to_path l))) by (apply in_paths, Ht; reflexivity).
      pose proof (remove_path_spec _ _ _ _ Hr Hdp Hi) as Hrm. destruct (remove_path (ss_root s) (split 47 f)) as [[root| |] out]; [|lia|destruct Hrm].
      destruct Hrm as (H1 & _ & H2). eexists _, _. split; [reflexivity|]. split; [apply Hnew; assumption|]. intros Hg _. rewrite app_nil_r. split.
      * rewrite H2; [apply replaced_perm|]. rewrite map_map. cbn. rewrite map_id. assumption.
      * rewrite Forall_forall in *. intros x Hx. apply filter_other_in in Hx. apply Hg, Hx.
    + assert (Hi : ~ In f (map so_filter l)) by (intros Hi; apply Ht in Hi; discriminate).
      eexists _, _. split; [reflexivity|]. split.
      * apply Hnew. rewrite del_absent by (rewrite in_paths; assumption). assumption.
      * intros Hg _. rewrite filter_absent by assumption. rewrite app_nil_r. split; [apply Permutation_refl|assumption].
Qed.
Lemma ss_inv_new : ss_inv ss_new [].
Proof. split; [apply rep_new|]. split; [constructor|]. split; [reflexivity|constructor]. Qed.
Lemma ss_run_gen ops : forall s l calls, ss_inv s l -> Forall op_valid ops -> exists s' c,
  fold_left ss_step ops (Some (s, calls)) = Some (s', calls ++ c) /\ ss_inv s' (fold_left in_force_step ops l) /\
  (Forall good l -> Forall op_good ops -> Permutation (c ++ flat_map cleanup_call (fold_left in_force_step ops l)) (flat_map cleanup_call l ++ flat_map added ops) /\
     Forall good (fold_left in_force_step ops l)).
Proof.
  induction ops as [|op ops IH]; intros s l calls Hi Hv.
  - exists s, []. cbn. rewrite app_nil_r. split; [reflexivity|]. split; [assumption|]. intros Hg _. rewrite app_nil_r. split; [apply Permutation_refl|assumption].
  - apply Forall_cons_iff in Hv as [Hop Hv]. destruct (ss_step_inv s l op Hi Hop) as (s1 & c1 & E1 & Hi1 & Hc1).
    destruct (IH s1 _ (calls ++ c1) Hi1 Hv) as (s2 & c2 & E2 & Hi2 & Hc2). exists s2, (c1 ++ c2). cbn [fold_left]. unfold ss_step at 2. rewrite E1.
    rewrite E2, <- app_assoc. split; [reflexivity|]. split; [assumption|]. intros Hg Hgo. apply Forall_cons_iff in Hgo as [Hgo Hgos].
    destruct (Hc1 Hg Hgo) as [Hp1 Hg1]. destruct (Hc2 Hg1 Hgos) as [Hp2 Hg2]. split; [|assumption].
    rewrite <- app_assoc. etransitivity; [apply Permutation_app_head; exact Hp2|]. rewrite app_assoc. cbn [flat_map]. rewrite app_assoc.
    apply Permutation_app_tail. assumption.
Qed.
Lemma hash_last_levels parts : (forall pre p post, parts = pre ++ p :: post -> In 35 p -> p = [35] /\ post = []) -> hash_last parts.
Proof.
  induction parts as [|p parts IH]; intros H; [exact I|]. split.
  - intros ->. apply (H [] hash parts eq_refl). left. reflexivity.
  - apply IH. intros pre q post E Hi. apply (H (p :: pre) q post); [cbn; rewrite E; reflexivity|assumption].
Qed.
Lemma valid_hash_last f : is_valid_topic_filter f = true -> hash_last (split 47 f).
Proof.
  unfold is_valid_topic_filter, is_valid_topic_gen. repeat match goal with |- context[if ?b then _ else _] => destruct b; [discriminate|] end.
  intros H. apply hash_last_levels. intros pre p post E. apply (proj1 (levels_filter _) H _ _ _ E).
Qed.
Lemma topic_no_wild t : topic_name t -> Forall (fun s => s <> plus /\ s <> hash) (split 47 t).
Proof.
  intros (_ & _ & _ & H43 & H35). rewrite (split_in_iff 47 43) in H43 by discriminate. rewrite (split_in_iff 47 35) in H35 by discriminate.
  apply Forall_forall. intros s Hs. split; intros ->; [apply H43; exists plus|apply H35; exists hash]; (split; [exact Hs|left; reflexivity]).
Qed.
Lemma publish_spec s l t : ss_inv s l -> topic_name t ->
  exists m, (forall o, In o m <-> In o l /\ topic_matches (so_filter o) t) /\ NoDup (map so_filter m) /\ Permutation (ss_publish s t) (flat_map received m).
Proof.
  intros (Hr & Hd & Hs & Hv) Ht. exists (filter (fun o => lmb (split 47 (so_filter o)) (split 47 t)) l). split; [|split].
  - intros o. rewrite filter_In, lmb_spec. reflexivity.
  - clear -Hd. induction l as [|o l IH]; [constructor|]. inversion Hd as [|x y Hn Hd']; subst. cbn [filter].
    destruct (lmb (split 47 (so_filter o)) (split 47 t)); [|auto]. cbn [map]. constructor; [|auto].
    intros Hi. apply Hn. apply in_map_iff in Hi as (o' & <- & Hi). apply filter_In in Hi. apply in_map, Hi.
  - unfold ss_publish. etransitivity.
    { apply (dispatch_spec _ _ _ _ Hr (nodup_paths _ Hd)); [|apply topic_no_wild; assumption].
      apply Forall_forall. intros e He. apply in_map_iff in He as (o & <- & Ho). cbn [to_path fst]. apply valid_hash_last. rewrite Forall_forall in Hv. auto. }
    apply eq_perm. clear. induction l as [|o l IH]; [reflexivity|]. cbn [map flat_map filter]. rewrite IH. unfold matched, to_path. cbn [fst snd].
    destruct (lmb (split 47 (so_filter o)) (split 47 t)); reflexivity.
Qed.
Lemma ss_run_spec ops : Forall op_valid ops -> exists s c, ss_run ops = Some (s, c) /\ ss_inv s (in_force ops) /\
  (Forall op_good ops -> Permutation (c ++ ss_destroy s) (flat_map added ops)).
Proof.
  intros Hv. destruct (ss_run_gen ops ss_new [] [] ss_inv_new Hv) as (s & c & E & Hi & Hc). exists s, c. split; [exact E|]. split; [exact Hi|].
  intros Hg. destruct (Hc (Forall_nil _) Hg) as [Hp Hgl]. etransitivity; [|exact Hp]. apply Permutation_app_head. unfold ss_destroy.
  destruct Hi as (Hr & Hd & _). etransitivity; [apply (destroy_spec _ _ _ Hr (nodup_paths _ Hd))|].
  rewrite map_map. cbn. rewrite map_id. apply eq_perm. unfold in_force in *. clear -Hgl. revert Hgl. generalize (fold_left in_force_step ops []). intros l Hgl.
  induction Hgl as [|o l Ho Hl IH]; [reflexivity|]. cbn [flat_map]. rewrite IH, (good_cleanup _ Ho). reflexivity.
Qed.
Lemma views_agree ops : Forall op_valid ops -> exists s c, ss_run ops = Some (s, c) /\
  ss_get s = in_force ops /\ NoDup (map so_filter (in_force ops)) /\
  forall f, (ss_is_subscribed s f = true <-> In f (map so_filter (in_force ops))) /\ (ss_in_tree s f = true <-> In f (map so_filter (in_force ops))).
Proof.
  intros Hv. destruct (ss_run_spec ops Hv) as (s & c & E & Hi & _). exists s, c. split; [assumption|]. split; [|split; [apply Hi|]].
  - destruct Hi as (_ & _ & Hs & _). unfold ss_get. rewrite Hs, map_map. cbn. apply map_id.
  - intros f. split; [apply ss_is_subscribed_spec|apply ss_in_tree_spec]; assumption.
Qed.
Lemma dispatch_exact ops s c topic : Forall op_valid ops -> ss_run ops = Some (s, c) -> topic_name topic ->
  exists matching, (forall o, In o matching <-> In o (in_force ops) /\ topic_matches (so_filter o) topic) /\ NoDup (map so_filter matching) /\
    Permutation (ss_publish s topic) (flat_map received matching).
Proof.
  intros Hv E Ht. destruct (ss_run_spec ops Hv) as (s' & c' & E' & Hi & _). rewrite E in E'. inversion E'; subst. apply publish_spec; assumption.
Qed.
Lemma cleanup_exactly_once ops : Forall op_valid ops -> Forall op_good ops -> exists s c, ss_run ops = Some (s, c) /\
  Permutation (c ++ ss_destroy s) (flat_map added ops).
Proof. intros Hv Hg. destruct (ss_run_spec ops Hv) as (s & c & E & _ & H). exists s, c. auto. Qed.
Lemma invalid_topic_twice : exists ops s c topic, Forall op_valid ops /\ ss_run ops = Some (s, c) /\ ~ topic_name topic /\ ss_publish s topic = [(1, 9); (1, 9)].
Proof.
  exists [SAdd (mkso [43] (Some 1) None 9)]. eexists _, _. exists [43]. split; [|split; [vm_compute; reflexivity|split]].
  - constructor; [|constructor]. cbn [op_valid so_filter]. apply valid_filter_spec. vm_compute. reflexivity.
  - intros (_ & _ & _ & H & _). apply H. left. reflexivity.
  - vm_compute. reflexivity.
Qed.
