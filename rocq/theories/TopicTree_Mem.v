(** Memory safety of the tree on safe histories: every cursor points into a string owned by a subscription at or below its node. *)
From Coq Require Import Permutation.
From Verif Require Import Base BaseLemmas Split Topic_Model Topic_Spec Topic_Proofs TopicAlias_Model TopicAlias_Proofs
  SubSet_Model SubSet_Spec Paths SubSet_Proofs TopicTree_Model TopicTree_Spec TopicTree_Func.

(** ** The heap *)
Definition ids (h : heap) : list N := map fst (hp_live h).
Definition hwf (h : heap) : Prop := NoDup (ids h) /\ forall id, In id (ids h) -> id < hp_next h.
Lemma lookup_cons n live id b x : lookup (mkheap n ((id, b) :: live)) x = if id =? x then Some b else lookup (mkheap n live) x.
Proof. unfold lookup. cbn [hp_live find fst]. destruct (id =? x); reflexivity. Qed.
Lemma lookup_in h id : lookup h id <> None <-> In id (ids h).
Proof.
  destruct h as [n live]. unfold ids. cbn [hp_live]. induction live as [|[x b] live IH]; [split; [intros H; exfalso; apply H; reflexivity|intros []]|]. rewrite lookup_cons. cbn [map fst In].
  destruct (N.eqb_spec x id) as [->|Hx]; [split; [auto|discriminate]|]. rewrite IH. split; [auto|]. intros [|]; [congruence|assumption].
Qed.
Lemma lookup_filter n live id x : x <> id -> lookup (mkheap n (filter (fun e => negb (fst e =? id)) live)) x = lookup (mkheap n live) x.
Proof.
  intros Hx. induction live as [|[y b] live IH]; [reflexivity|]. cbn [filter fst]. destruct (N.eqb_spec y id) as [->|Hy]; cbn [negb].
  - rewrite lookup_cons. destruct (N.eqb_spec id x); [congruence|assumption].
  - rewrite !lookup_cons, IH. reflexivity.
Qed.
Lemma lookup_free h id h' x : free h id = Some h' -> x <> id -> lookup h' x = lookup h x.
Proof. unfold free. destruct (lookup h id); [|discriminate]. intros [= <-] Hx. destruct h. cbn. apply lookup_filter. assumption. Qed.
Lemma free_ok h id : In id (ids h) -> exists h', free h id = Some h'.
Proof. intros H. apply lookup_in in H. unfold free. destruct (lookup h id); [eauto|congruence]. Qed.
Lemma filter_ids id (live : list (N * bytes)) : NoDup (map fst live) -> In id (map fst live) -> Permutation (map fst live) (id :: map fst (filter (fun e => negb (fst e =? id)) live)).
Proof.
  induction live as [|[y b] live IH]; intros Hn Hi; [destruct Hi|]. inversion Hn as [|a l Ha Hl]; subst. cbn [map fst filter In] in *. destruct (N.eqb_spec y id) as [->|Hy]; cbn [negb].
  - apply perm_skip. assert (E : filter (fun e => negb (fst e =? id)) live = live); [|rewrite E; apply Permutation_refl].
    clear -Ha. induction live as [|[z c] live IH]; [reflexivity|]. cbn [map fst filter In] in *. destruct (N.eqb_spec z id) as [->|Hz]; [exfalso; apply Ha; auto|]. cbn [negb]. rewrite IH by tauto. reflexivity.
  - destruct Hi as [|Hi]; [congruence|]. cbn [map fst]. etransitivity; [apply perm_skip, IH; assumption|]. apply perm_swap.
Qed.
Lemma free_ids h id h' : hwf h -> free h id = Some h' -> Permutation (ids h) (id :: ids h') /\ hwf h' /\ hp_next h' = hp_next h.
Proof.
  intros [Hn Hb] E. unfold free in E. destruct (lookup h id) eqn:El; [|discriminate]. inversion E; subst. assert (Hi : In id (ids h)) by (apply lookup_in; congruence).
  pose proof (filter_ids id (hp_live h) Hn Hi) as Hp. split; [exact Hp|]. split; [|reflexivity]. split.
  - unfold ids in *. cbn [hp_live]. apply (Permutation_NoDup Hp) in Hn. inversion Hn. assumption.
  - intros x Hx. cbn [hp_next]. apply Hb. eapply Permutation_in; [apply Permutation_sym, Hp|]. right. exact Hx.
Qed.
Lemma alloc_spec h b h' id : hwf h -> alloc h b = (h', id) -> hwf h' /\ ids h' = id :: ids h /\ lookup h' id = Some b /\ (forall x, x <> id -> lookup h' x = lookup h x) /\ ~ In id (ids h).
Proof.
  intros [Hn Hb] [= <- <-]. assert (Hni : ~ In (hp_next h) (ids h)) by (intros H; apply Hb in H; lia). split; [|split; [|split; [|split]]].
  - split; [constructor; assumption|]. cbn [hp_next]. intros x [<-|Hx]; cbn [fst]; [lia|]. apply Hb in Hx. lia.
  - reflexivity.
  - rewrite lookup_cons, N.eqb_refl. reflexivity.
  - intros x Hx. rewrite lookup_cons. destruct (N.eqb_spec (hp_next h) x); [congruence|]. destruct h; reflexivity.
  - assumption.
Qed.

(** ** Cursors *)
Definition hok (h : heap) (base : bytes) (O : paths N) : Prop := forall q id, In (q, id) O -> q <> [] -> lookup h id = Some (base ++ join 47 q).
Lemma hok_tails h base s O : hok h base O -> hok h (base ++ s ++ [47]) (tails s O).
Proof.
  intros H q id Hi Hq. apply in_tails in Hi. rewrite (H _ _ Hi) by discriminate. rewrite join_cons by assumption. rewrite <- !app_assoc. reflexivity.
Qed.
Lemma deref_part h id base s q : lookup h id = Some (base ++ join 47 (s :: q)) -> deref h (mkcur id (len base) (len s)) = Some s.
Proof.
  intros H. unfold deref. cbn [c_str c_off c_len]. rewrite H.
  assert (E : exists r, join 47 (s :: q) = s ++ r) by (destruct q; [exists []; cbn; rewrite app_nil_r|eexists]; reflexivity). destruct E as (r & ->).
  rewrite !len_app. destruct (N.leb_spec (len base + len s) (len base + (len s + len r))); [|lia]. f_equal. unfold len. rewrite !Nat2N.id.
  rewrite skipn_app, skipn_all, Nat.sub_diag. cbn [app skipn]. rewrite firstn_app, firstn_all, Nat.sub_diag. cbn. apply app_nil_r.
Qed.
(** a node's own part of the string *)
Definition refers (off : N) (s : bytes) (d : tdata) (O : paths N) : Prop :=
  exists id q, d_topic d = Some (mkcur id off (len s)) /\ d_filter d = Some id /\ In (q, id) O.
Definition owner (d : tdata) (h : list N) : Prop :=
  match h with [] => d_owns d = false /\ d_cb d = None | id :: _ => d_owns d = true /\ d_filter d = Some id /\ d_cb d <> None end.
Inductive mok : N -> tnode -> paths N -> paths N -> Prop :=
| mok_node off d cs Ot Op : owner d (here Ot) -> NoDup (map fst cs) ->
    (forall s c, find_key s cs = Some c -> refers off s (tn_data c) (tails s (Ot ++ Op))) ->
    (forall s c, find_key s cs = Some c -> mok (off + len s + 1) c (tails s Ot) (tails s Op)) ->
    (forall s, find_key s cs = None -> tails s (Ot ++ Op) = []) -> mok off (TNode d cs) Ot Op.
Lemma tails_app {A} s (a b : paths A) : tails s (a ++ b) = tails s a ++ tails s b.
Proof. unfold tails. apply flat_map_app. Qed.
Lemma mok_teq off n Ot Op : mok off n Ot Op -> forall n', teq n n' -> mok off n' Ot Op.
Proof.
  induction 1 as [off d cs Ot Op Hd Hn H1 H2 IH H3]; intros n' Ht. inversion Ht as [d' cs0 cs' Hn' Hk Hc]; subst. constructor; auto.
  - intros s c' E. destruct (find_key s cs) as [c|] eqn:Ec; [|apply Hk in Ec; congruence]. pose proof (Hc s c c' Ec E) as Hcc. inversion Hcc; subst. cbn [tn_data]. apply (H1 s _ Ec).
  - intros s c' E. destruct (find_key s cs) as [c|] eqn:Ec; [|apply Hk in Ec; congruence]. eauto.
  - intros s E. apply Hk in E. auto.
Qed.
Lemma mok_keys h base d cs Ot Op : mok (len base) (TNode d cs) Ot Op -> hok h base (Ot ++ Op) -> keys_ok h cs = true.
Proof.
  intros H Hh. inversion H as [off d' cs' Ot' Op' Hd Hn H1 H2 H3]; subst. unfold keys_ok. apply forallb_forall. intros [s c] Hi. apply in_find_key in Hi; [|assumption].
  destruct (H1 _ _ Hi) as (id & q & Et & _ & Hq). apply in_tails in Hq. unfold key_ok. cbn [fst snd]. rewrite Et.
  rewrite (deref_part h id base s q (Hh _ _ Hq ltac:(discriminate))). apply bytes_eqb_refl.
Qed.
Lemma set_tails {A} s (O O' : paths A) : (forall x, In x O <-> In x O') -> forall x, In x (tails s O) <-> In x (tails s O').
Proof. intros H [p x]. rewrite !in_tails. apply H. Qed.
Lemma set_nil {A} (O O' : list A) : (forall x, In x O <-> In x O') -> O = [] -> O' = [].
Proof. intros H ->. destruct O' as [|x l]; [reflexivity|]. exfalso. apply (H x). left. reflexivity. Qed.
Lemma mok_pending off n Ot Op : mok off n Ot Op -> forall Op', (forall x, In x (Ot ++ Op) <-> In x (Ot ++ Op')) -> mok off n Ot Op'.
Proof.
  induction 1 as [off d cs Ot Op Hd Hn H1 H2 IH H3]; intros Op' HO. constructor; auto.
  - intros s c E. destruct (H1 s c E) as (id & q & Et & Ef & Hq). exists id, q. split; [assumption|]. split; [assumption|]. apply (set_tails s _ _ HO). assumption.
  - intros s c E. apply (IH s c E). intros x. rewrite <- !tails_app. apply set_tails, HO.
  - intros s E. eapply set_nil; [apply (set_tails s _ _ HO)|]. auto.
Qed.
Lemma mok_perm off n Ot Op : mok off n Ot Op -> NoDup (map fst Ot) -> forall Ot', Permutation Ot Ot' -> mok off n Ot' Op.
Proof.
  induction 1 as [off d cs Ot Op Hd Hn H1 H2 IH H3]; intros Hnd Ot' Hp.
  assert (HO : forall x, In x (Ot ++ Op) <-> In x (Ot' ++ Op)).
  { intros x. rewrite !in_app_iff. split; (intros [Hx|Hx]; [left|right; assumption]); (eapply Permutation_in; [|exact Hx]); [|apply Permutation_sym]; assumption. }
  constructor; auto.
  - rewrite <- (perm_here Ot Ot') by assumption. assumption.
  - intros s c E. destruct (H1 s c E) as (id & q & Et & Ef & Hq). exists id, q. split; [assumption|]. split; [assumption|]. apply (set_tails s _ _ HO). assumption.
  - intros s c E. apply (IH s c E); [apply nodup_tails; assumption|apply perm_tails; assumption].
  - intros s E. eapply set_nil; [apply (set_tails s _ _ HO)|]. auto.
Qed.
Lemma len_snoc (base s : bytes) : len (base ++ s ++ [47]) = len base + len s + 1.
Proof. rewrite !len_app, len_cons, len_nil. lia. Qed.

(** ** Insertion *)
Lemma walk_data h id p : forall off n n' cr ow, tt_walk h id off p n = Some (n', cr, ow) -> tn_data n' = tn_data n.
Proof.
  destruct p as [|s p]; intros off [d cs] n' cr ow E; cbn [tt_walk] in E; [inversion E; reflexivity|]. destruct (negb (keys_ok h cs)); [discriminate|].
  destruct (find_key s cs); (destruct (tt_walk _ _ _ p _) as [[[c' cr'] ow']|]; [|discriminate]; inversion E; reflexivity).
Qed.
Lemma here_in_fst {A} (O : paths A) : here O = [] <-> ~ In [] (map fst O).
Proof. rewrite path_nil_in. destruct (here O); split; intros H; try reflexivity; try congruence. exfalso. apply H. discriminate. Qed.
Lemma walk_mem h id p : forall base n Ot Op, mok (len base) n Ot Op -> hok h base (Ot ++ Op) -> (p <> [] -> lookup h id = Some (base ++ join 47 p)) ->
  exists n' cr ow, tt_walk h id (len base) p n = Some (n', cr, ow) /\ mok (len base) n' Ot ((p, id) :: Op) /\ (if ow then In p (map fst Ot) /\ cr = None else ~ In p (map fst Ot)).
Proof.
  induction p as [|s p IH]; intros base n Ot Op H Hh Hl; inversion H as [off d cs Ot' Op' Hd Hn H1 H2 H3]; subst; cbn [tt_walk].
  - exists (TNode d cs), None, (d_owns d). split; [reflexivity|]. split.
    + constructor; auto.
      * intros s c E. destruct (H1 s c E) as (id' & q & Et & Ef & Hq). exists id', q. split; [assumption|]. split; [assumption|]. rewrite tails_app, tails_cons, <- tails_app. assumption.
      * intros s E. rewrite tails_app, tails_cons, <- tails_app. auto.
    + unfold owner in Hd. destruct (here Ot) eqn:Eh.
      * destruct Hd as [-> _]. apply here_in_fst. assumption.
      * destruct Hd as [-> _]. split; [|reflexivity]. apply path_nil_in. congruence.
  - rewrite (mok_keys _ _ _ _ _ _ H Hh). cbn [negb].
    assert (Hl' : p <> [] -> lookup h id = Some ((base ++ s ++ [47]) ++ join 47 p)).
    { intros Hp. rewrite Hl by discriminate. rewrite join_cons by assumption. rewrite <- !app_assoc. reflexivity. }
    destruct (find_key s cs) as [c|] eqn:Ec.
    + pose proof (H2 _ _ Ec) as Hc. rewrite <- len_snoc in Hc.
      assert (Hhc : hok h (base ++ s ++ [47]) (tails s Ot ++ tails s Op)) by (rewrite <- tails_app; apply hok_tails; assumption).
      destruct (IH _ _ _ _ Hc Hhc Hl') as (c' & cr & ow & Ew & Hc' & How). rewrite <- len_snoc, Ew. eexists _, _, _. split; [reflexivity|]. split.
      * constructor; auto.
        -- apply nodup_put. assumption.
        -- intros s' c2 Hf. rewrite find_put in Hf. destruct (bytes_eqb s' s) eqn:Es.
           ++ apply bytes_eqb_spec in Es. injection Hf as <-. subst. rewrite (walk_data _ _ _ _ _ _ _ _ Ew). destruct (H1 _ _ Ec) as (id' & q & Et & Ef & Hq).
              exists id', q. split; [assumption|]. split; [assumption|]. rewrite tails_app in *. apply in_app_iff in Hq. apply in_app_iff. destruct Hq as [|Hq]; [auto|]. right. rewrite tails_cons, bytes_eqb_refl. right. assumption.
           ++ destruct (H1 _ _ Hf) as (id' & q & Et & Ef & Hq). exists id', q. split; [assumption|]. split; [assumption|]. rewrite tails_app, tails_cons, Es, <- tails_app. assumption.
        -- intros s' c2 Hf. rewrite find_put in Hf. rewrite tails_cons. destruct (bytes_eqb s' s) eqn:Es; [|eauto].
           apply bytes_eqb_spec in Es. injection Hf as <-. subst. rewrite <- len_snoc. assumption.
        -- intros s' Hf. rewrite find_put in Hf. rewrite tails_app, tails_cons. destruct (bytes_eqb s' s) eqn:Es; [discriminate|]. rewrite <- tails_app. auto.
      * destruct ow; [|intros Hi; apply How; apply in_tails_fst; exact Hi]. destruct How as [Hi ->]. split; [|reflexivity]. apply in_tails_fst in Hi. exact Hi.
    + pose proof (H3 _ Ec) as Et. rewrite tails_app in Et. apply app_eq_nil in Et as [EtT EtP].
      assert (Hnew : mok (len (base ++ s ++ [47])) (tnode_new (Some (mkcur id (len base) (len s))) (Some id)) [] []).
      { constructor; [cbn; auto|constructor|discriminate|discriminate|reflexivity]. }
      assert (Hhc : hok h (base ++ s ++ [47]) ([] ++ [])) by (intros q x []).
      destruct (IH _ _ _ _ Hnew Hhc Hl') as (c' & cr & ow & Ew & Hc' & How). rewrite <- len_snoc, Ew. eexists _, _, _. split; [reflexivity|]. split.
      * constructor; auto.
        -- apply nodup_put. assumption.
        -- intros s' c2 Hf. rewrite find_put in Hf. destruct (bytes_eqb s' s) eqn:Es.
           ++ apply bytes_eqb_spec in Es. injection Hf as <-. subst. rewrite (walk_data _ _ _ _ _ _ _ _ Ew). exists id, p. split; [reflexivity|]. split; [reflexivity|].
              rewrite tails_app, EtT, tails_cons, bytes_eqb_refl. left. reflexivity.
           ++ destruct (H1 _ _ Hf) as (id' & q & Et & Ef & Hq). exists id', q. split; [assumption|]. split; [assumption|]. rewrite tails_app, tails_cons, Es, <- tails_app. assumption.
        -- intros s' c2 Hf. rewrite find_put in Hf. rewrite tails_cons. destruct (bytes_eqb s' s) eqn:Es; [|eauto].
           apply bytes_eqb_spec in Es. injection Hf as <-. subst. rewrite <- len_snoc, EtT, EtP. assumption.
        -- intros s' Hf. rewrite find_put in Hf. rewrite tails_app, tails_cons. destruct (bytes_eqb s' s) eqn:Es; [discriminate|]. rewrite <- tails_app. auto.
      * destruct ow; [destruct How as [[] _]|]. intros Hi. apply in_tails_fst in Hi. rewrite EtT in Hi. destruct Hi.
Qed.

(** ** Commit *)
Definition cur_at (off : N) (p : list bytes) (id : N) : cursor := mkcur id (off + len (join 47 p) - len (last p [])) (len (last p [])).
Lemma commit_data h a n n' h' out : commit_node h a n = Some (n', h', out) -> exists d cs d', n = TNode d cs /\ n' = TNode d' cs /\ d_cb d' = Some (ts_cb (ta_sub a)) /\ d_topic d' = (match ta_topic a with Some c => Some c | None => d_topic d end).
Proof.
  unfold commit_node. destruct n as [d cs]. intros E. destruct (ta_str a); [destruct (d_owns d && _); [destruct (free h n); [|discriminate]|]|]; inversion E; subst; eexists _, _, _; repeat split.
Qed.
Lemma incl_set_cons {A} s (O : paths A) e x : In x (tails s O) -> In x (tails s (e :: O)).
Proof. destruct x as [p x]. rewrite !in_tails. intros H. right. assumption. Qed.
(** a fresh subscription takes over its string *)
Lemma commit_mem_new h a id p : forall off n Ot Op, mok off n Ot Op -> In (p, id) Op -> ~ In p (map fst Ot) -> ta_str a = Some id -> 
  (p <> [] -> ta_topic a = Some (cur_at off p id)) ->
  exists n' out, at_path (commit_node h a) p n = Some (n', h, out) /\ mok off n' ((p, id) :: Ot) Op /\
    (p = [] -> d_topic (tn_data n') = (match ta_topic a with Some c => Some c | None => d_topic (tn_data n) end)) /\ (p <> [] -> tn_data n' = tn_data n) /\
    (p = [] -> d_filter (tn_data n') = Some id).
Proof.
  induction p as [|s p IH]; intros off n Ot Op H Hp Hnp Hs Ht; inversion H as [off' d cs Ot' Op' Hd Hn H1 H2 H3]; subst; cbn [at_path].
  - apply here_in_fst in Hnp. rewrite Hnp in Hd. cbn in Hd. destruct Hd as [Ho Hcb]. unfold commit_node. rewrite Hs, Ho. cbn [andb]. eexists _, _. split; [reflexivity|]. split; [|split; [|split]].
    + constructor.
      * cbn. repeat split; congruence.
      * assumption.
      * intros s c E. destruct (H1 _ _ E) as (id' & q & Et & Ef & Hq). exists id', q. split; [assumption|]. split; [assumption|]. cbn [app]. apply incl_set_cons. assumption.
      * intros s c E. change (tails s (([], id) :: Ot)) with (tails s Ot). auto.
      * intros s E. cbn [app]. change (tails s (([], id) :: Ot ++ Op)) with (tails s (Ot ++ Op)). auto.
    + reflexivity.
    + congruence.
    + reflexivity.
  - assert (Hp' : In (p, id) (tails s Op)) by (apply in_tails; assumption). assert (Hnp' : ~ In p (map fst (tails s Ot))) by (rewrite in_tails_fst; assumption).
    destruct (find_key s cs) as [c|] eqn:Ec.
    2:{ exfalso. pose proof (H3 _ Ec) as E0. rewrite tails_app in E0. apply app_eq_nil in E0 as [_ E0]. rewrite E0 in Hp'. destruct Hp'. }
    assert (Ht' : p <> [] -> ta_topic a = Some (cur_at (off + len s + 1) p id)).
    { intros Hne. rewrite Ht by discriminate. unfold cur_at. rewrite join_cons by assumption. rewrite len_app, len_cons.
      replace (last (s :: p) []) with (last p []) by (destruct p; [congruence|reflexivity]). do 2 f_equal. lia. }
    destruct (IH _ _ _ _ (H2 _ _ Ec) Hp' Hnp' Hs Ht') as (c' & out & Ea & Hc' & Hd1 & Hd2 & Hd3). rewrite Ea. eexists _, _. split; [reflexivity|]. split; [|split; [|split]].
    + constructor.
      * rewrite here_cons. assumption.
      * apply nodup_put. assumption.
      * intros s' c2 Hf. rewrite find_put in Hf. destruct (bytes_eqb s' s) eqn:Es.
        -- apply bytes_eqb_spec in Es. injection Hf as <-. subst. destruct (list_eq_dec (list_eq_dec N.eq_dec) p []) as [->|Hne].
           ++ exists id, []. rewrite (Hd1 eq_refl), (Hd3 eq_refl), Ht by discriminate. split; [|split; [reflexivity|]].
              ** unfold cur_at. cbn [join last]. do 2 f_equal. lia.
              ** apply in_tails. left. reflexivity.
           ++ rewrite (Hd2 Hne). destruct (H1 _ _ Ec) as (id' & q & Et & Ef & Hq). exists id', q. split; [assumption|]. split; [assumption|]. cbn [app]. apply incl_set_cons. assumption.
        -- destruct (H1 _ _ Hf) as (id' & q & Et & Ef & Hq). exists id', q. split; [assumption|]. split; [assumption|]. cbn [app]. apply incl_set_cons. assumption.
      * intros s' c2 Hf. rewrite find_put in Hf. rewrite tails_cons. destruct (bytes_eqb s' s) eqn:Es; [|eauto].
        apply bytes_eqb_spec in Es. injection Hf as <-. subst. assumption.
      * intros s' Hf. rewrite find_put in Hf. cbn [app]. rewrite tails_cons. destruct (bytes_eqb s' s) eqn:Es; [discriminate|]. eauto.
    + discriminate.
    + reflexivity.
    + discriminate.
Qed.
(** an existing subscription keeps its string *)
Lemma commit_mem_old h a p : forall off n Ot Op, mok off n Ot Op -> In p (map fst Ot) -> ta_str a = None -> ta_topic a = None ->
  exists n' out, at_path (commit_node h a) p n = Some (n', h, out) /\ mok off n' Ot Op /\ d_topic (tn_data n') = d_topic (tn_data n) /\ d_filter (tn_data n') = d_filter (tn_data n).
Proof.
  induction p as [|s p IH]; intros off n Ot Op H Hp Hs Ht; inversion H as [off' d cs Ot' Op' Hd Hn H1 H2 H3]; subst; cbn [at_path].
  - unfold commit_node. rewrite Hs, Ht. eexists _, _. split; [reflexivity|]. split; [|split; reflexivity]. constructor; auto.
    apply path_nil_in in Hp. unfold owner in *. destruct (here Ot); [congruence|]. cbn. repeat split; [apply Hd|apply Hd|discriminate].
  - apply in_tails_fst in Hp as Hp'. destruct (find_key s cs) as [c|] eqn:Ec.
    2:{ exfalso. pose proof (H3 _ Ec) as E0. rewrite tails_app in E0. apply app_eq_nil in E0 as [E0 _]. rewrite E0 in Hp'. destruct Hp'. }
    destruct (IH _ _ _ _ (H2 _ _ Ec) Hp' Hs Ht) as (c' & out & Ea & Hc' & Hd1 & Hd2). rewrite Ea. eexists _, _. split; [reflexivity|]. split; [|split; reflexivity]. constructor; auto.
    + apply nodup_put. assumption.
    + intros s' c2 Hf. rewrite find_put in Hf. destruct (bytes_eqb s' s) eqn:Es; [|eauto].
      apply bytes_eqb_spec in Es. injection Hf as <-. subst. unfold refers. rewrite Hd1, Hd2. apply (H1 _ _ Ec).
    + intros s' c2 Hf. rewrite find_put in Hf. destruct (bytes_eqb s' s) eqn:Es; [|eauto].
      apply bytes_eqb_spec in Es. injection Hf as <-. subst. assumption.
    + intros s' Hf. rewrite find_put in Hf. destruct (bytes_eqb s' s) eqn:Es; [discriminate|]. eauto.
Qed.

(** ** Roll-back *)
Lemma rb_ok h id h2 p : forall off base n n' k ow m Ot Op, tt_walk h id off p n = Some (n', Some k, ow) -> teq n' m -> mok (len base) m Ot Op -> hok h2 base (Ot ++ Op) ->
  at_path (roll_back_node h2 (nth k p [])) (firstn k p) m <> None.
Proof.
  induction p as [|s p IH]; intros off base n n' k ow m Ot Op Ew Ht Hm Hh; destruct n as [d cs]; cbn [tt_walk] in Ew; [inversion Ew|].
  destruct (negb (keys_ok h cs)); [discriminate|]. destruct (find_key s cs) as [c|] eqn:Ec.
  - destruct (tt_walk h id (off + len s + 1) p c) as [[[c' cr'] ow']|] eqn:Ew'; [|discriminate]. destruct cr' as [k'|]; [|discriminate]. cbn in Ew. inversion Ew; subst.
    inversion Ht as [d' cs0 cs' Hn' Hk Hcs]; subst. cbn [nth firstn at_path].
    assert (Hp : find_key s (put_key s c' cs) = Some c') by (rewrite find_put, bytes_eqb_refl; reflexivity).
    destruct (find_key s cs') as [c2|] eqn:E2; [|apply Hk in E2; congruence].
    assert (Hc2 : teq c' c2) by (eapply Hcs; eassumption). inversion Hm as [o d0 cs0 Ot0 Op0 Hd Hn H1 H2 H3]; subst. pose proof (H2 _ _ E2) as Hmc. rewrite <- len_snoc in Hmc.
    assert (Hhc : hok h2 (base ++ s ++ [47]) (tails s Ot ++ tails s Op)) by (rewrite <- tails_app; apply hok_tails; assumption).
    pose proof (IH _ _ _ _ _ _ _ _ _ Ew' Hc2 Hmc Hhc) as Hr. destruct (at_path _ (firstn k' p) c2) as [[[? ?] ?]|]; [discriminate|congruence].
  - destruct (tt_walk h id (off + len s + 1) p _) as [[[c' cr'] ow']|] eqn:Ew'; [|discriminate]. inversion Ew; subst.
    inversion Ht as [d' cs0 cs' Hn' Hk Hcs]; subst. cbn [nth firstn at_path roll_back_node]. rewrite (mok_keys _ _ _ _ _ _ Hm Hh). cbn [negb].
    assert (Hp : find_key s (put_key s c' cs) = Some c') by (rewrite find_put, bytes_eqb_refl; reflexivity).
    destruct (find_key s cs') as [c2|] eqn:E2; [|apply Hk in E2; congruence].
    assert (Hf : fresh c2).
    { eapply teq_fresh; [|eapply Hcs; eassumption]. eapply walk_fresh; [|exact Ew']. constructor; [reflexivity|reflexivity|discriminate|constructor]. }
    rewrite (fresh_destroy _ Hf). discriminate.
Qed.

(** ** A whole subscribe request *)
Record minv (h : heap) (root : tnode) (Ot Op : paths N) (L : list N) : Prop := mkminv {
  mi_tree : mok 0 root Ot Op; mi_heap : hok h [] (Ot ++ Op); mi_wf : hwf h; mi_nodup : NoDup (map fst Ot);
  mi_ne : ~ In [] (map fst (Ot ++ Op)); mi_ids : Permutation (ids h) (map snd Ot ++ map snd Op ++ L) }.
Definition pend (acts : list taction) : paths N := flat_map (fun a => match ta_str a with Some id => [(ta_path a, id)] | None => [] end) acts.
Definition act_ok (Ot : paths N) (a : taction) : Prop :=
  match ta_str a with
  | None => In (ta_path a) (map fst Ot) /\ ta_topic a = None
  | Some id => ~ In (ta_path a) (map fst Ot) /\ ta_path a <> [] /\ ta_topic a = Some (cur_at 0 (ta_path a) id)
  end.
Lemma mok_wfn off n Ot Op : mok off n Ot Op -> wfn n.
Proof. induction 1. constructor; auto. Qed.
Lemma mok_init : mok 0 tt_init [] [].
Proof. constructor; [cbn; auto|constructor|discriminate|discriminate|reflexivity]. Qed.
Lemma insert_mem h root Ot Op L f sub : minv h root Ot Op L -> ~ In (split 47 f) (map fst Op) ->
  exists h' root' a, tt_insert h root f sub = Some (h', root', a) /\ ta_path a = split 47 f /\ act_ok Ot a /\ minv h' root' Ot (pend [a] ++ Op) L /\
    exists id h1 ow, tt_walk h1 id 0 (split 47 f) root = Some (root', ta_created a, ow) /\ (ta_created a <> None -> ta_str a = Some id).
Proof.
  intros [Ht Hh Hw Hn He Hi] Hp. unfold tt_insert. destruct (alloc h f) as [h1 id] eqn:Ea. destruct (alloc_spec _ _ _ _ Hw Ea) as (Hw1 & Ei & Hl & Hlo & Hni).
  assert (Hold : forall q x, In (q, x) (Ot ++ Op) -> x <> id).
  { intros q x Hq ->. apply Hni. eapply Permutation_in; [apply Permutation_sym, Hi|]. rewrite app_assoc, <- map_app. apply in_app_iff. left. apply (in_map snd) in Hq. exact Hq. }
  assert (Hh1 : hok h1 [] (Ot ++ Op)).
  { intros q x Hq Hne. rewrite Hlo by (eapply Hold; eassumption). apply Hh; assumption. }
  change 0 with (len (@nil N)) in Ht. assert (Hlk : split 47 f <> [] -> lookup h1 id = Some ([] ++ join 47 (split 47 f))) by (intros _; cbn [app]; rewrite join_split; assumption).
  destruct (walk_mem _ _ _ _ _ _ _ Ht Hh1 Hlk) as (n' & cr & ow & Ew & Hm & How). change (len (@nil N)) with 0 in *. rewrite Ew. destruct ow.
  - destruct How as [Hin ->]. destruct (free_ok h1 id) as (h2 & Ef); [rewrite Ei; left; reflexivity|]. rewrite Ef. destruct (free_ids _ _ _ Hw1 Ef) as (Hpi & Hw2 & _).
    eexists _, _, _. split; [reflexivity|]. split; [reflexivity|]. split; [split; [assumption|reflexivity]|]. split; [|eexists _, _, _; split; [exact Ew|cbn; congruence]].
    cbn [pend flat_map ta_str app]. constructor; auto.
    + eapply mok_teq; [exact Ht|]. apply teq_sym; [eapply walk_none_teq; [eapply mok_wfn; exact Ht|exact Ew]| |eapply mok_wfn; exact Hm]. intros; eapply mok_wfn; exact Ht.
    + intros q x Hq Hne. rewrite (lookup_free _ _ _ _ Ef) by (eapply Hold; eassumption). apply Hh1; assumption.
    + rewrite Ei in Hpi. apply Permutation_cons_inv in Hpi. etransitivity; [apply Permutation_sym; exact Hpi|assumption].
  - eexists _, _, _. split; [reflexivity|]. split; [reflexivity|]. split.
    { cbn. split; [assumption|]. split; [apply split_nonempty|]. unfold cur_at. rewrite join_split. reflexivity. }
    split; [|eexists _, _, _; split; [exact Ew|cbn; congruence]].
    cbn [pend flat_map ta_str ta_path app]. constructor; auto.
    + intros q x Hq Hne. apply in_app_iff in Hq. destruct Hq as [Hq|[[= <- <-]|Hq]]; [apply Hh1; [apply in_app_iff; auto|assumption]|apply Hlk; assumption|apply Hh1; [apply in_app_iff; auto|assumption]].
    + rewrite map_app in *. intros Hx. apply He. apply in_app_iff in Hx. apply in_app_iff. destruct Hx as [|[Hx|]]; auto. exfalso. cbn in Hx. exact (split_nonempty _ _ Hx).
    + rewrite Ei. cbn [map snd app]. etransitivity; [apply perm_skip; exact Hi|]. apply Permutation_middle.
Qed.
Lemma pend_cons a acts : pend (a :: acts) = pend [a] ++ pend acts.
Proof. unfold pend. cbn [flat_map]. rewrite app_nil_r. reflexivity. Qed.
Lemma pend_path a q id : In (q, id) (pend [a]) -> q = ta_path a.
Proof. unfold pend. cbn. destruct (ta_str a); [|intros []]. intros [[= <- _]|[]]. reflexivity. Qed.
Lemma minv_pending h root Ot Op Op' L : Permutation Op Op' -> minv h root Ot Op L -> minv h root Ot Op' L.
Proof.
  intros Hp [Ht Hh Hw Hn He Hi].
  assert (HO : forall x, In x (Ot ++ Op) <-> In x (Ot ++ Op')).
  { intros x. rewrite !in_app_iff. split; (intros [Hx|Hx]; [left; assumption|right]); (eapply Permutation_in; [|exact Hx]); [|apply Permutation_sym]; assumption. }
  constructor; auto.
  - eapply mok_pending; eassumption.
  - intros q x Hq. apply HO in Hq. auto.
  - intros Hx. apply He. apply in_map_iff in Hx as (e & <- & Hx). apply in_map. apply HO. assumption.
  - etransitivity; [exact Hi|]. apply Permutation_app_head, Permutation_app_tail, Permutation_map. assumption.
Qed.
Lemma inserts_mem subs : forall h root Ot Op L, minv h root Ot Op L -> NoDup (map fst subs) -> (forall f, In f (map fst subs) -> ~ In (split 47 f) (map fst Op)) ->
  exists h1 root1 acts, tt_inserts h root subs = Some (h1, root1, acts) /\ map ta_path acts = map (fun e => split 47 (fst e)) subs /\ Forall (act_ok Ot) acts /\ minv h1 root1 Ot (pend acts ++ Op) L.
Proof.
  induction subs as [|[f s] subs IH]; intros h root Ot Op L H Hn Hd; cbn [tt_inserts].
  - eexists _, _, _. split; [reflexivity|]. split; [reflexivity|]. split; [constructor|]. exact H.
  - cbn [map fst] in Hn, Hd. inversion Hn as [|x y Hx Hy]; subst. destruct (insert_mem _ _ _ _ _ f s H (Hd f (or_introl eq_refl))) as (h1 & r1 & a & Ea & Hp & Ha & Hm & _). rewrite Ea.
    destruct (IH _ _ _ _ _ Hm Hy) as (h2 & r2 & acts & Eb & Hp2 & Ha2 & Hm2).
    { intros g Hg Hx2. rewrite map_app, in_app_iff in Hx2. destruct Hx2 as [Hx2|Hx2]; [|apply (Hd g); [right|]; assumption].
      apply in_map_iff in Hx2 as ([q id] & Eq & Hx2). apply pend_path in Hx2. cbn [fst] in Eq. rewrite Hx2, Hp in Eq. apply split_inj in Eq. subst g. contradiction. }
    rewrite Eb. eexists _, _, _. split; [reflexivity|]. split; [cbn [map fst]; rewrite Hp, Hp2; reflexivity|]. split; [constructor; assumption|].
    rewrite pend_cons. eapply minv_pending; [|exact Hm2]. rewrite !app_assoc. apply Permutation_app_tail. apply Permutation_app_comm.
Qed.
Lemma commits_mem acts : forall h root Ot Op L, minv h root Ot (pend acts ++ Op) L -> Forall (act_ok Ot) acts -> NoDup (map ta_path acts) ->
  exists root' out, tt_each tt_commit_insert h root acts = Some (h, root', out) /\ minv h root' (rev (pend acts) ++ Ot) Op L.
Proof.
  induction acts as [|a acts IH]; intros h root Ot Op L H Hf Hn; cbn [tt_each].
  - eexists _, _. split; [reflexivity|]. exact H.
  - apply Forall_cons_iff in Hf as [Ha Hf]. cbn [map] in Hn. inversion Hn as [|x y Hx Hy]; subst. unfold tt_commit_insert at 1. destruct H as [Ht Hh Hw Hnd He Hi].
    destruct (ta_str a) as [id|] eqn:Es; unfold act_ok in Ha; rewrite Es in Ha.
    + destruct Ha as (Hnp & Hne & Htp). assert (Ep : pend [a] = [(ta_path a, id)]) by (unfold pend; cbn; rewrite Es; reflexivity). rewrite (pend_cons a acts), Ep in Ht, Hh, He, Hi |- *. cbn [app] in Ht, Hh, He, Hi |- *.
      destruct (commit_mem_new h a id (ta_path a) _ _ _ _ Ht (or_introl eq_refl) Hnp Es) as (n' & out & Ec & Hm & _); [intros _; exact Htp|]. rewrite Ec.
      assert (HO : forall x, In x (((ta_path a, id) :: Ot) ++ (ta_path a, id) :: pend acts ++ Op) <-> In x (((ta_path a, id) :: Ot) ++ pend acts ++ Op)).
      { intros z. cbn [app In]. rewrite !in_app_iff. cbn [In]. rewrite !in_app_iff. tauto. }
      assert (Hm' : minv h n' ((ta_path a, id) :: Ot) (pend acts ++ Op) L).
      { constructor; auto.
        - eapply mok_pending; [exact Hm|exact HO].
        - intros q z Hq. apply HO in Hq. cbn [app In] in Hq. apply Hh. rewrite in_app_iff in *. cbn [In]. tauto.
        - constructor; assumption.
        - intros Hz. apply He. rewrite map_app in *. cbn [map fst app In] in *. rewrite in_app_iff in *. cbn [In]. tauto.
        - etransitivity; [exact Hi|]. cbn [map snd app]. apply Permutation_sym, Permutation_middle. }
      destruct (IH _ _ _ _ _ Hm') as (r' & o' & Ee & Hm2); [|assumption|].
      { rewrite Forall_forall in *. intros b Hb. specialize (Hf b Hb). assert (Hab : ta_path b <> ta_path a) by (intros E; apply Hx; rewrite <- E; apply in_map; assumption).
        unfold act_ok in *. cbn [map fst In]. destruct (ta_str b); [|tauto]. destruct Hf as (H1 & H2 & H3). split; [|auto]. intros [Hc|Hc]; [congruence|contradiction]. }
      rewrite Ee. eexists _, _. split; [reflexivity|]. cbn [rev]. rewrite <- app_assoc. exact Hm2.
    + destruct Ha as [Hin Htp]. assert (Ep : pend [a] = []) by (unfold pend; cbn; rewrite Es; reflexivity). rewrite (pend_cons a acts), Ep in Ht, Hh, He, Hi |- *. cbn [app] in Ht, Hh, He, Hi |- *.
      destruct (commit_mem_old h a (ta_path a) _ _ _ _ Ht Hin Es Htp) as (n' & out & Ec & Hm & _). rewrite Ec.
      assert (Hm' : minv h n' Ot (pend acts ++ Op) L) by (constructor; auto). destruct (IH _ _ _ _ _ Hm' Hf Hy) as (r' & o' & Ee & Hm2). rewrite Ee. eexists _, _. split; [reflexivity|]. exact Hm2.
Qed.
Lemma roll_backs_mem subs : forall h root h1 root1 acts Ot Op L, tt_inserts h root subs = Some (h1, root1, acts) -> minv h root Ot Op L -> NoDup (map fst subs) ->
  (forall f, In f (map fst subs) -> ~ In (split 47 f) (map fst Op)) -> forall h2 m L2, teq root1 m -> minv h2 m Ot (pend acts ++ Op) L2 ->
  exists h3 m' out L3, tt_each tt_roll_back_insert h2 m (rev acts) = Some (h3, m', out) /\ teq root m' /\ minv h3 m' Ot Op L3.
Proof.
  induction subs as [|[f s] subs IH]; intros h root h1 root1 acts Ot Op L E H Hn Hd h2 m L2 Ht Hm; cbn [tt_inserts] in E.
  - inversion E; subst. cbn. eexists _, _, _, _. split; [reflexivity|]. split; [assumption|exact Hm].
  - cbn [map fst] in Hn, Hd. inversion Hn as [|x y Hx Hy]; subst. destruct (insert_mem _ _ _ _ _ f s H (Hd f (or_introl eq_refl))) as (ha & ra & a & Ea & Hp & Ha & Hma & id & hx & ow & Ew & Hid).
    rewrite Ea in E. destruct (tt_inserts ha ra subs) as [[[hb rb] acts']|] eqn:Eb; [|discriminate]. inversion E; subst.
    assert (Hd' : forall g, In g (map fst subs) -> ~ In (split 47 g) (map fst (pend [a] ++ Op))).
    { intros g Hg Hx2. rewrite map_app, in_app_iff in Hx2. destruct Hx2 as [Hx2|Hx2]; [|apply (Hd g); [right|]; assumption].
      apply in_map_iff in Hx2 as ([q j] & Eq & Hx2). apply pend_path in Hx2. cbn [fst] in Eq. rewrite Hx2, Hp in Eq. apply split_inj in Eq. subst g. contradiction. }
    assert (Hmm : minv h2 m Ot (pend acts' ++ pend [a] ++ Op) L2).
    { eapply minv_pending; [|exact Hm]. rewrite pend_cons, !app_assoc. apply Permutation_app_tail, Permutation_app_comm. }
    destruct (IH _ _ _ _ _ _ _ _ Eb Hma Hy Hd' _ _ _ Ht Hmm) as (h3 & m2 & out & L3 & Er & Ht2 & Hm2). cbn [rev]. rewrite tt_each_app, Er. cbn [tt_each].
    unfold tt_roll_back_insert. rewrite Hp. destruct H as [Htr Hh Hw Hnd He Hi]. destruct Hm2 as [Htr2 Hh2 Hw2 Hnd2 He2 Hi2].
    assert (Hwf : wfn root) by (eapply mok_wfn; exact Htr).
    assert (Hhold : hok h3 [] (Ot ++ Op)).
    { intros q z Hq. apply Hh2. rewrite !in_app_iff in *. tauto. }
    destruct (ta_created a) as [k|] eqn:Ek.
    + assert (Es : ta_str a = Some id) by (apply Hid; discriminate). assert (Ep : pend [a] = [(ta_path a, id)]) by (unfold pend; cbn; rewrite Es; reflexivity). rewrite Ep in *. cbn [app] in *.
      pose proof (rb_ok hx id h3 (split 47 f) _ [] _ _ _ _ _ _ _ Ew Ht2 Htr2 Hh2) as Hrb. destruct (at_path _ _ m2) as [[[m3 h4] c]|] eqn:Ep2; [|congruence].
      destruct (roll_back_spec _ _ _ _ _ _ _ _ _ _ _ _ _ Ew Ht2 Hwf Ep2) as (Ht3 & -> & ->). rewrite Es. cbn [free_opt].
      assert (Hidl : In id (ids h3)).
      { eapply Permutation_in; [apply Permutation_sym, Hi2|]. apply in_app_iff. right. cbn [map snd app]. left. reflexivity. }
      destruct (free_ok _ _ Hidl) as (h5 & Ef). rewrite Ef. destruct (free_ids _ _ _ Hw2 Ef) as (Hp5 & Hw5 & _).
      assert (Hi5 : Permutation (ids h5) (map snd Ot ++ map snd Op ++ L3)).
      { apply (Permutation_cons_inv (a := id)). etransitivity; [apply Permutation_sym; exact Hp5|]. etransitivity; [exact Hi2|]. cbn [map snd app]. apply Permutation_sym, Permutation_middle. }
      eexists _, _, _, L3. split; [reflexivity|]. split; [assumption|]. constructor; auto.
      * eapply mok_teq; eassumption.
      * intros q z Hq Hne. rewrite (lookup_free _ _ _ _ Ef); [apply Hhold; assumption|]. intros ->. destruct Hw2 as [Hnd3 _]. apply (Permutation_NoDup Hp5) in Hnd3. inversion Hnd3 as [|u v Hu Hv]; subst. apply Hu.
        eapply Permutation_in; [apply Permutation_sym, Hi5|]. rewrite app_assoc, <- map_app. apply in_app_iff. left. apply (in_map snd) in Hq. exact Hq.
    + assert (Htt : teq root m2).
      { apply (teq_trans _ ra); [|assumption]. apply teq_sym; [eapply walk_none_teq; [exact Hwf|exact Ew]| |eapply mok_wfn; apply (mi_tree _ _ _ _ _ Hma)]. intros; assumption. }
      eexists _, _, _, (map snd (pend [a]) ++ L3). split; [reflexivity|]. split; [assumption|]. constructor; auto.
      * eapply mok_teq; eassumption.
      * etransitivity; [exact Hi2|]. apply Permutation_app_head. rewrite map_app, <- app_assoc. rewrite !app_assoc. apply Permutation_app_tail, Permutation_app_comm.
Qed.

(** ** Removal *)
Lemma snd_inj {A} (O : list (A * N)) a b x : NoDup (map snd O) -> In (a, x) O -> In (b, x) O -> a = b.
Proof.
  induction O as [|[c y] O IH]; intros Hn Ha Hb; [destruct Ha|]. cbn [map snd] in Hn. inversion Hn as [|u v Hu Hv]; subst. destruct Ha as [E1|Ha], Hb as [E2|Hb]; [congruence| | |auto];
  exfalso; apply Hu; [inversion E1; subst; apply (in_map snd) in Hb|inversion E2; subst; apply (in_map snd) in Ha]; assumption.
Qed.
Lemma fst_inj {A} (O : list (A * N)) a x y : NoDup (map fst O) -> In (a, x) O -> In (a, y) O -> x = y.
Proof.
  induction O as [|[c z] O IH]; intros Hn Ha Hb; [destruct Ha|]. cbn [map fst] in Hn. inversion Hn as [|u v Hu Hv]; subst. destruct Ha as [E1|Ha], Hb as [E2|Hb]; [congruence| | |auto];
  exfalso; apply Hu; [inversion E1; subst; apply (in_map fst) in Hb|inversion E2; subst; apply (in_map fst) in Ha]; assumption.
Qed.
Lemma nodup_snd_tails s (O : paths N) : NoDup (map snd O) -> NoDup (map snd (tails s O)).
Proof.
  induction O as [|[q x] O IH]; intros Hn; [constructor|]. cbn [map snd] in Hn. inversion Hn as [|u v Hu Hv]; subst. rewrite tails_cons. destruct q as [|y q]; [auto|]. destruct (bytes_eqb s y); [|auto].
  cbn [map snd]. constructor; [|auto]. intros Hi. apply Hu. apply in_map_iff in Hi as ([a b] & E & Hi). cbn in E. subst. apply in_tails in Hi. apply (in_map snd) in Hi. exact Hi.
Qed.
Lemma del_no_id p id (O : paths N) : NoDup (map snd O) -> In (p, id) O -> forall q, ~ In (q, id) (del p O).
Proof. intros Hn Hi q Hq. apply del_in in Hq as [Hq Hne]. apply Hne. cbn. eapply snd_inj; eassumption. Qed.
Lemma keys_ok_put h cs s c c' : keys_ok h cs = true -> NoDup (map fst cs) -> find_key s cs = Some c -> d_topic (tn_data c') = d_topic (tn_data c) -> keys_ok h (put_key s c' cs) = true.
Proof.
  intros H Hn Hf Hd. unfold keys_ok in *. rewrite forallb_forall in *. intros [k x] Hi. destruct Hi as [[= <- <-]|Hi].
  - specialize (H _ (find_key_in _ _ _ Hf)). unfold key_ok in *. cbn [fst snd] in *. rewrite Hd. assumption.
  - apply remove_key_in in Hi as [Hi _]. auto.
Qed.
Lemma first_some_all {A B} (g : A -> option B) (P : B -> Prop) l : l <> [] -> (forall k, In k l -> exists f, g k = Some f /\ P f) -> exists f, first_some (map g l) = Some f /\ P f.
Proof. destruct l as [|k l]; [congruence|]. intros _ H. destruct (H k (or_introl eq_refl)) as (f & E & Hf). cbn. rewrite E. eauto. Qed.
Definition cur_ok (id : N) (cur : option tnode) (owns : bool) : Prop := exists cd, cur = Some (TNode cd []) /\ d_filter cd = Some id /\ d_owns cd = owns.
Definition fixed (h : heap) (id : N) (h' : heap) (cur : option tnode) (nf : option N) (O : paths N) : Prop :=
  match nf with None => h' = h /\ cur_ok id cur true | Some f => free h id = Some h' /\ cur_ok id cur false /\ In f (map snd O) end.
Lemma find_below iter id off d cs O : enumeration iter -> mok off (TNode d cs) O [] -> (forall q, ~ In (q, id) O) -> cs <> [] ->
  exists f, find_filter_below iter (Some id) cs = Some f /\ In f (map snd O).
Proof.
  intros Hit H Hid Hcs. inversion H as [o d' cs' Ot' Op' Hd Hn H1 H2 H3]; subst. rewrite app_nil_r in *. unfold find_filter_below. apply first_some_all.
  - intros E. pose proof (Hit (map fst cs)) as Hp. rewrite E in Hp. apply Permutation_nil in Hp. destruct cs; [congruence|discriminate].
  - intros k Hk. apply (Permutation_in _ (Hit _)) in Hk. destruct (find_key k cs) as [c|] eqn:Ec; [|apply find_key_none_in in Ec; contradiction].
    destruct (H1 _ _ Ec) as (j & q & _ & Ef & Hq). apply in_tails in Hq. exists j. split; [|apply (in_map snd) in Hq; exact Hq]. destruct c as [dc cc]. cbn [tn_data] in Ef. cbn [find_filter]. rewrite Ef.
    destruct (N.eqb_spec j id) as [->|]; [exfalso; eapply Hid; exact Hq|reflexivity].
Qed.
Lemma refers_len noff t d O : refers noff t d O -> exists id q, d_topic d = Some (mkcur id noff (len t)) /\ d_filter d = Some id /\ In (q, id) O.
Proof. exact (fun H => H). Qed.
Lemma fix_mem iter h st d cs (base : bytes) noff t p id Ot nf : enumeration iter -> len base = noff + len t + 1 -> refers noff t d Ot -> mok (len base) (TNode d cs) (del p Ot) [] ->
  NoDup (map fst Ot) -> NoDup (map snd Ot) -> In id (ids h) -> In (p, id) Ot -> p <> [] -> del p Ot <> [] -> fixed h id (cs_heap st) (cs_cur st) nf (del p Ot) ->
  exists st' n' nf', fix_node iter st (TNode d cs) (len base) nf = Some (st', CFix n' noff nf') /\ mok (len base) n' (del p Ot) [] /\ refers noff t (tn_data n') (del p Ot) /\
    fixed h id (cs_heap st') (cs_cur st') nf' (del p Ot).
Proof.
  intros Hit Hb (id0 & q0 & Et & Ef & Hq0) Hm Hn1 Hn2 Hl Hp Hpne Hne Hfx. unfold fix_node. rewrite Et.
  assert (Hcur : exists cd, cs_cur st = Some (TNode cd []) /\ d_filter cd = Some id).
  { destruct nf; cbn [fixed] in Hfx; [destruct Hfx as (_ & (cd & E1 & E2 & _) & _)|destruct Hfx as (_ & (cd & E1 & E2 & _))]; eauto. }
  destruct Hcur as (cd & Ec & Ecf). rewrite Ec, Ef, Ecf. cbn [c_len same_str]. replace (len base - (len t + 1)) with noff by lia.
  destruct (N.eqb_spec id0 id) as [->|Hid].
  - (* the node uses the removed string: it is not a subscription *)
    inversion Hm as [o d' cs' Ot' Op' Hd Hn H1 H2 H3]; subst.
    assert (Hh : here (del p Ot) = []).
    { destruct (here (del p Ot)) as [|j l] eqn:Eh; [reflexivity|]. cbn in Hd. destruct Hd as (_ & Hf & _). rewrite Ef in Hf. inversion Hf; subst.
      exfalso. apply (del_no_id p j Ot Hn2 Hp []). apply in_here. rewrite Eh. left. reflexivity. }
    assert (Hnew : forall f, In f (map snd (del p Ot)) -> mok (len base) (TNode (mktd (Some (mkcur f noff (len t))) (Some f) (d_owns d) (d_cb d) (d_cl d) (d_user d) (d_qos d)) cs) (del p Ot) [] /\
      refers noff t (mktd (Some (mkcur f noff (len t))) (Some f) (d_owns d) (d_cb d) (d_cl d) (d_user d) (d_qos d)) (del p Ot)).
    { intros f Hf. split; [constructor; auto; rewrite Hh in *; exact Hd|]. apply in_map_iff in Hf as ([q j] & E & Hf). cbn in E. subst. exists f, q. auto. }
    destruct nf as [f|].
    + cbn [fixed] in Hfx. destruct Hfx as (E1 & E2 & E3). destruct (Hnew f E3). eexists _, _, _. split; [reflexivity|]. cbn [tn_data fixed]. auto.
    + cbn [fixed] in Hfx. destruct Hfx as (E1 & (cd' & E2 & _ & E3)).
      destruct (find_below iter id _ _ _ _ Hit Hm (del_no_id p id Ot Hn2 Hp)) as (f & Eff & Hf).
      { intros ->. destruct (del p Ot) as [|[[|x q] j] l] eqn:Ed; [congruence|rewrite here_cons in Hh; discriminate|]. specialize (H3 x eq_refl). cbn [app] in H3. rewrite tails_cons, bytes_eqb_refl in H3. discriminate. }
      rewrite Eff. cbn [free_opt]. destruct (free_ok h id Hl) as (h' & Efr). rewrite E1, Efr. destruct (Hnew f Hf). eexists _, _, _. split; [reflexivity|]. cbn [tn_data fixed cs_heap cs_cur].
      split; [assumption|]. split; [assumption|]. split; [assumption|]. split; [|assumption]. eexists. cbn. auto.
  - eexists _, _, _. split; [reflexivity|]. cbn [tn_data]. split; [assumption|]. split; [|assumption]. exists id0, q0. split; [assumption|]. split; [assumption|]. apply del_in. split; [assumption|].
    cbn. intros ->. apply Hid. eapply fst_inj; eassumption.
Qed.
(** what the passes leave of a subtree: gone, or fixed *)
Definition climbed (h : heap) (base : bytes) (noff : N) (t : bytes) (n : tnode) (p : list bytes) (id : N) (Ot : paths N) (st : cstate) (r : climb) : Prop :=
  match r with
  | CDone _ => False
  | CGone n' => del p Ot = [] /\ cs_heap st = h /\ cur_ok id (cs_cur st) true /\ tn_children n' = [] /\ d_topic (tn_data n') = d_topic (tn_data n) /\ (p <> [] -> d_owns (tn_data n') = false)
  | CFix n' o nf => o = noff /\ mok (len base) n' (del p Ot) [] /\ refers noff t (tn_data n') (del p Ot) /\ fixed h id (cs_heap st) (cs_cur st) nf (del p Ot)
  end.
(** a child is gone: its parent *)
Lemma gone_parent off d cs s p Ot : mok off (TNode d cs) Ot [] -> del p (tails s Ot) = [] -> mok off (TNode d (remove_key s cs)) (del (s :: p) Ot) [].
Proof.
  intros H He. inversion H as [o d' cs' Ot' Op' Hd Hn H1 H2 H3]; subst. constructor.
  - rewrite here_del_cons. assumption.
  - apply nodup_remove. assumption.
  - intros k c Hk. rewrite find_key_remove in Hk. destruct (bytes_eqb k s) eqn:Ek; [discriminate|]. rewrite app_nil_r, tails_del, Ek. specialize (H1 _ _ Hk). rewrite app_nil_r in H1. exact H1.
  - intros k c Hk. rewrite find_key_remove in Hk. destruct (bytes_eqb k s) eqn:Ek; [discriminate|]. rewrite tails_del, Ek. auto.
  - intros k Hk. rewrite find_key_remove in Hk. rewrite app_nil_r, tails_del. destruct (bytes_eqb k s) eqn:Ek; [apply bytes_eqb_spec in Ek; subst; assumption|]. specialize (H3 _ Hk). rewrite app_nil_r in H3. exact H3.
Qed.
(** a child is changed: its parent *)
Lemma fixed_parent off d cs s p Ot c' : mok off (TNode d cs) Ot [] -> refers off s (tn_data c') (del p (tails s Ot)) -> mok (off + len s + 1) c' (del p (tails s Ot)) [] ->
  mok off (TNode d (put_key s c' cs)) (del (s :: p) Ot) [].
Proof.
  intros H Hr Hm. inversion H as [o d' cs' Ot' Op' Hd Hn H1 H2 H3]; subst. constructor.
  - rewrite here_del_cons. assumption.
  - apply nodup_put. assumption.
  - intros k c Hk. rewrite find_put in Hk. rewrite app_nil_r, tails_del. destruct (bytes_eqb k s) eqn:Ek.
    + apply bytes_eqb_spec in Ek. injection Hk as <-. subst. assumption.
    + specialize (H1 _ _ Hk). rewrite app_nil_r in H1. exact H1.
  - intros k c Hk. rewrite find_put in Hk. rewrite tails_del. destruct (bytes_eqb k s) eqn:Ek.
    + apply bytes_eqb_spec in Ek. injection Hk as <-. subst. assumption.
    + auto.
  - intros k Hk. rewrite find_put in Hk. rewrite app_nil_r, tails_del. destruct (bytes_eqb k s) eqn:Ek; [discriminate|]. specialize (H3 _ Hk). rewrite app_nil_r in H3. exact H3.
Qed.
Lemma climb_mem iter h p : enumeration iter -> forall (base : bytes) noff t n Ot id, len base = noff + len t + 1 -> refers noff t (tn_data n) Ot -> mok (len base) n Ot [] -> hok h base Ot ->
  NoDup (map fst Ot) -> NoDup (map snd Ot) -> In id (ids h) -> In (p, id) Ot -> (forall q, In (p ++ q) (map fst Ot) -> q = []) ->
  exists st r, tt_climb iter h false n p = Some (st, r) /\ climbed h base noff t n p id Ot st r.
Proof.
  intros Hit. induction p as [|s p IH]; intros base noff t n Ot id Hb Hr Hm Hh Hn1 Hn2 Hl Hp Hleaf; inversion Hm as [o d cs Ot' Op' Hd Hn H1 H2 H3]; subst; cbn [tt_climb].
  - assert (Hh0 : here Ot <> []) by (apply path_nil_in; apply (in_map fst) in Hp; exact Hp).
    assert (Ecs : cs = []).
    { destruct cs as [|[k c] cs]; [reflexivity|]. exfalso. assert (Ek : find_key k ((k, c) :: cs) = Some c) by (rewrite find_key_cons, bytes_eqb_refl; reflexivity).
      destruct (H1 _ _ Ek) as (j & q & _ & _ & Hq). rewrite app_nil_r in Hq. apply in_tails in Hq. apply (in_map fst) in Hq. specialize (Hleaf (k :: q) Hq). discriminate. }
    subst cs. cbn [is_nil]. eexists _, _. split; [reflexivity|]. cbn [climbed cs_heap cs_cur tn_children tn_data d_topic d_owns]. split; [|split; [reflexivity|split; [|split; [reflexivity|split; [reflexivity|congruence]]]]].
    + destruct (del [] Ot) as [|[[|x q] j] l] eqn:Ed; [reflexivity| |].
      * exfalso. pose proof (here_del_nil Ot) as E. rewrite Ed, here_cons in E. discriminate.
      * exfalso. specialize (H3 x eq_refl). rewrite app_nil_r, <- tails_del_nil, Ed, tails_cons, bytes_eqb_refl in H3. discriminate.
    + unfold owner in Hd. destruct (here Ot) as [|j l] eqn:Eh; [congruence|]. destruct Hd as (Ho & Hf & _). eexists. split; [reflexivity|]. cbn. split; [|assumption].
      rewrite Hf. f_equal. eapply fst_inj; [exact Hn1| |exact Hp]. apply in_here. rewrite Eh. left. reflexivity.
  - assert (Hp' : In (p, id) (tails s Ot)) by (apply in_tails; assumption).
    destruct (find_key s cs) as [c|] eqn:Ec; [|exfalso; specialize (H3 _ Ec); rewrite app_nil_r in H3; rewrite H3 in Hp'; destruct Hp'].
    pose proof (H1 _ _ Ec) as Hrc. rewrite app_nil_r in Hrc. pose proof (H2 _ _ Ec) as Hmc. rewrite <- len_snoc in Hmc.
    destruct (IH (base ++ s ++ [47]) (len base) s c (tails s Ot) id (len_snoc _ _) Hrc Hmc (hok_tails _ _ _ _ Hh) (nodup_tails _ _ Hn1) (nodup_snd_tails _ _ Hn2) Hl Hp') as (st & r & E & Hcl).
    { intros q Hq. apply Hleaf. cbn [app]. apply in_tails_fst. assumption. }
    rewrite E. destruct r as [c'|c'|c' o' nf]; cbn [climbed] in Hcl; [destruct Hcl| |].
    + destruct Hcl as (Hdel & Ehp & Hcur & Hch & Htp & Hown). rewrite Ehp. assert (Hk0 : keys_ok h cs = true) by (eapply mok_keys; [exact Hm|rewrite app_nil_r; exact Hh]).
      rewrite (keys_ok_put _ _ _ _ c' Hk0 Hn Ec Htp). cbn [negb].
      assert (Est : exists st', (if is_nil p then Some st else match tn_destroy h c' with None => None | Some (h, out) => Some (mkcst h (cs_calls st ++ out) (cs_cur st)) end) = Some st' /\ cs_heap st' = h /\ cur_ok id (cs_cur st') true).
      { destruct p as [|x p]; cbn [is_nil]; [eauto|]. destruct c' as [dc cc]. cbn [tn_children tn_data] in *. subst cc. rewrite tn_destroy_eq. cbn [destroys]. rewrite Hown by discriminate. eexists. split; [reflexivity|]. cbn. auto. }
      destruct Est as (st' & -> & Ehp' & Hcur'). pose proof (gone_parent _ _ _ s p _ Hm Hdel) as Hmp.
      destruct (is_nil (remove_key s cs) && match d_cb d with None => true | Some _ => false end) eqn:Eg.
      * apply andb_true_iff in Eg as [Eg1 Eg2]. eexists _, _. split; [reflexivity|]. cbn [climbed tn_children tn_data]. destruct (remove_key s cs) eqn:Erk; [|discriminate].
        inversion Hmp as [o2 d2 cs2 Ot2 Op2 Hd2 Hn2' H12 H22 H32]; subst. split; [|split; [assumption|split; [assumption|split; [reflexivity|split; [reflexivity|]]]]].
        -- destruct (del (s :: p) Ot) as [|[[|x q] j] l] eqn:Ed; [reflexivity| |].
           ++ exfalso. rewrite here_cons in Hd2. cbn in Hd2. destruct (d_cb d); [discriminate|]. destruct Hd2 as (_ & _ & Hx). congruence.
           ++ exfalso. specialize (H32 x eq_refl). cbn [app] in H32. rewrite tails_cons, bytes_eqb_refl in H32. discriminate.
        -- intros _. unfold owner in Hd. destruct (here Ot); [apply Hd|]. destruct Hd as (_ & _ & Hx). destruct (d_cb d); [discriminate|congruence].
      * assert (Hso : start_offset d = Some (len base)).
        { destruct Hr as (j & q & Et & Ef & _). cbn [tn_data] in *. unfold start_offset. rewrite Et, Ef. cbn [c_str c_off c_len]. rewrite N.eqb_refl. f_equal. lia. }
        rewrite Hso.
        assert (Hne : del (s :: p) Ot <> []).
        { inversion Hmp as [o2 d2 cs2 Ot2 Op2 Hd2 Hn2' H12 H22 H32]; subst. intros E0. rewrite E0 in *. apply andb_false_iff in Eg as [Eg|Eg].
          - destruct (remove_key s cs) as [|[k x] l] eqn:Erk; [discriminate|]. assert (Ek : find_key k ((k, x) :: l) = Some x) by (rewrite find_key_cons, bytes_eqb_refl; reflexivity).
            destruct (H12 _ _ Ek) as (j & q & _ & _ & []).
          - cbn in Hd2. destruct Hd2 as [_ Hx]. rewrite Hx in Eg. discriminate. }
        assert (Hfx : fixed h id (cs_heap st') (cs_cur st') None (del (s :: p) Ot)) by (cbn; auto).
        assert (Hsp : s :: p <> []) by discriminate.
        destruct (fix_mem iter h st' d _ base noff t (s :: p) id Ot None Hit Hb Hr Hmp Hn1 Hn2 Hl Hp Hsp Hne Hfx) as (st2 & n2 & nf2 & E2 & Hm2 & Hr2 & Hf2).
        rewrite E2. eexists _, _. split; [reflexivity|]. cbn [climbed]. auto.
    + destruct Hcl as (-> & Hmc' & Hrc' & Hfx). rewrite len_snoc in Hmc'. pose proof (fixed_parent _ _ _ s p _ c' Hm Hrc' Hmc') as Hmp.
      assert (Hsub : forall x, In x (del p (tails s Ot)) -> In (s :: fst x, snd x) (del (s :: p) Ot)).
      { intros [q j] Hq. apply in_tails. rewrite tails_del, bytes_eqb_refl. exact Hq. }
      assert (Hne : del (s :: p) Ot <> []).
      { destruct Hrc' as (j & q & _ & _ & Hq). apply Hsub in Hq. intros E0. rewrite E0 in Hq. destruct Hq. }
      assert (Hfx' : fixed h id (cs_heap st) (cs_cur st) nf (del (s :: p) Ot)).
      { destruct nf as [f|]; [|exact Hfx]. cbn [fixed] in *. destruct Hfx as (F1 & F2 & F3). split; [assumption|]. split; [assumption|]. apply in_map_iff in F3 as (x & <- & F3). apply Hsub in F3. apply (in_map snd) in F3. exact F3. }
      assert (Hsp : s :: p <> []) by discriminate.
      destruct (fix_mem iter h st d _ base noff t (s :: p) id Ot nf Hit Hb Hr Hmp Hn1 Hn2 Hl Hp Hsp Hne Hfx') as (st2 & n2 & nf2 & E2 & Hm2 & Hr2 & Hf2).
      rewrite E2. eexists _, _. split; [reflexivity|]. cbn [climbed]. auto.
Qed.
Lemma find_mem h p : forall base n Ot, mok (len base) n Ot [] -> hok h base Ot -> exists b, tt_find h n p = Some b /\ (In p (map fst Ot) -> b = true).
Proof.
  induction p as [|s p IH]; intros base n Ot Hm Hh; cbn [tt_find]; [eauto|]. inversion Hm as [o d cs Ot' Op' Hd Hn H1 H2 H3]; subst. cbn [tn_children].
  assert (Hk0 : keys_ok h cs = true) by (eapply mok_keys; [exact Hm|rewrite app_nil_r; exact Hh]). rewrite Hk0. cbn [negb]. destruct (find_key s cs) as [c|] eqn:Ec.
  - pose proof (H2 _ _ Ec) as Hmc. rewrite <- len_snoc in Hmc. destruct (IH _ _ _ Hmc (hok_tails _ _ _ _ Hh)) as (b & E & Hb). exists b. split; [assumption|]. intros Hi. apply Hb, in_tails_fst, Hi.
  - exists false. split; [reflexivity|]. intros Hi. exfalso. specialize (H3 _ Ec). rewrite app_nil_r in H3. apply in_tails_fst in Hi. rewrite H3 in Hi. destruct Hi.
Qed.
Lemma climb_absent iter h p : forall off top n Ot, mok off n Ot [] -> ~ In p (map fst Ot) -> tt_find h n p = Some true -> (p = [] -> Ot <> []) ->
  exists st n', tt_climb iter h top n p = Some (st, CDone n') /\ cs_heap st = h /\ cs_cur st = None /\ mok off n' Ot [] /\ d_topic (tn_data n') = d_topic (tn_data n) /\ d_filter (tn_data n') = d_filter (tn_data n).
Proof.
  induction p as [|s p IH]; intros off top n Ot Hm Hp Hf Hne; inversion Hm as [o d cs Ot' Op' Hd Hn H1 H2 H3]; subst; cbn [tt_climb].
  - apply here_in_fst in Hp. destruct cs as [|e cs].
    + exfalso. destruct Ot as [|[[|x q] j] l]; [apply Hne; reflexivity|rewrite here_cons in Hp; discriminate|]. specialize (H3 x eq_refl). rewrite app_nil_r, tails_cons, bytes_eqb_refl in H3. discriminate.
    + cbn [is_nil]. eexists _, _. split; [reflexivity|]. cbn [cs_heap cs_cur tn_data d_topic d_filter]. split; [reflexivity|]. split; [reflexivity|]. split; [|auto]. constructor; auto. rewrite Hp in *. cbn in *. tauto.
  - cbn [tt_find tn_children] in Hf. destruct (negb (keys_ok h cs)); [discriminate|]. destruct (find_key s cs) as [c|] eqn:Ec; [|discriminate].
    destruct (IH _ false _ _ (H2 _ _ Ec)) as (st & c' & E & Eh & Ecu & Hm' & Et & Ef); [rewrite in_tails_fst; assumption|assumption| |].
    { intros _ E0. destruct (H1 _ _ Ec) as (j & q & _ & _ & Hq). rewrite app_nil_r, E0 in Hq. destruct Hq. }
    rewrite E. eexists _, _. split; [reflexivity|]. split; [assumption|]. split; [assumption|]. split; [|auto]. constructor; auto.
    + apply nodup_put. assumption.
    + intros k x Hk. rewrite find_put in Hk. destruct (bytes_eqb k s) eqn:Ek; [|eauto]. apply bytes_eqb_spec in Ek. injection Hk as <-. subst. unfold refers. rewrite Et, Ef. apply (H1 _ _ Ec).
    + intros k x Hk. rewrite find_put in Hk. destruct (bytes_eqb k s) eqn:Ek; [|eauto]. apply bytes_eqb_spec in Ek. injection Hk as <-. subst. assumption.
    + intros k Hk. rewrite find_put in Hk. destruct (bytes_eqb k s) eqn:Ek; [discriminate|eauto].
Qed.
Lemma climb_top iter h s p : enumeration iter -> forall n Ot id, mok 0 n Ot [] -> hok h [] Ot -> NoDup (map fst Ot) -> NoDup (map snd Ot) -> In id (ids h) -> In (s :: p, id) Ot ->
  (forall q, In ((s :: p) ++ q) (map fst Ot) -> q = []) ->
  exists st n' nf, tt_climb iter h true n (s :: p) = Some (st, CDone n') /\ mok 0 n' (del (s :: p) Ot) [] /\ fixed h id (cs_heap st) (cs_cur st) nf (del (s :: p) Ot).
Proof.
  intros Hit n Ot id Hm Hh Hn1 Hn2 Hl Hp Hleaf. inversion Hm as [o d cs Ot' Op' Hd Hn H1 H2 H3]; subst. cbn [tt_climb].
  assert (Hp' : In (p, id) (tails s Ot)) by (apply in_tails; assumption).
  destruct (find_key s cs) as [c|] eqn:Ec; [|exfalso; specialize (H3 _ Ec); rewrite app_nil_r in H3; rewrite H3 in Hp'; destruct Hp'].
  pose proof (H1 _ _ Ec) as Hrc. rewrite app_nil_r in Hrc. pose proof (H2 _ _ Ec) as Hmc. change (0 + len s + 1) with (len (@nil N) + len s + 1) in Hmc. rewrite <- len_snoc in Hmc.
  destruct (climb_mem iter h p Hit ([] ++ s ++ [47]) 0 s c (tails s Ot) id (len_snoc [] s) Hrc Hmc (hok_tails _ _ _ _ Hh) (nodup_tails _ _ Hn1) (nodup_snd_tails _ _ Hn2) Hl Hp') as (st & r & E & Hcl).
  { intros q Hq. apply Hleaf. cbn [app]. apply in_tails_fst. assumption. }
  rewrite E. destruct r as [c'|c'|c' o' nf]; cbn [climbed] in Hcl; [destruct Hcl| |].
  - destruct Hcl as (Hdel & Ehp & Hcur & Hch & Htp & Hown). rewrite Ehp. assert (Hk0 : keys_ok h cs = true) by (eapply (mok_keys h []); [exact Hm|rewrite app_nil_r; exact Hh]).
    rewrite (keys_ok_put _ _ _ _ c' Hk0 Hn Ec Htp). cbn [negb].
    assert (Est : exists st', (if is_nil p then Some st else match tn_destroy h c' with None => None | Some (h, out) => Some (mkcst h (cs_calls st ++ out) (cs_cur st)) end) = Some st' /\ cs_heap st' = h /\ cur_ok id (cs_cur st') true).
    { destruct p as [|x p]; cbn [is_nil]; [eauto|]. destruct c' as [dc cc]. cbn [tn_children tn_data] in *. subst cc. rewrite tn_destroy_eq. cbn [destroys]. rewrite Hown by discriminate. eexists. split; [reflexivity|]. cbn. auto. }
    destruct Est as (st' & -> & Ehp' & Hcur'). exists st', (TNode d (remove_key s cs)), None. split; [reflexivity|]. split; [apply gone_parent; assumption|]. cbn. auto.
  - destruct Hcl as (-> & Hmc' & Hrc' & Hfx). rewrite len_snoc in Hmc'. exists st, (TNode d (put_key s c' cs)), nf. split; [reflexivity|]. split; [apply fixed_parent; assumption|].
    destruct nf as [f|]; [|exact Hfx]. cbn [fixed] in *. destruct Hfx as (F1 & F2 & F3). split; [assumption|]. split; [assumption|]. apply in_map_iff in F3 as ([q j] & <- & F3).
    assert (Hq : In (s :: q, j) (del (s :: p) Ot)) by (apply in_tails; rewrite tails_del, bytes_eqb_refl; exact F3). apply (in_map snd) in Hq. exact Hq.
Qed.
Lemma perm_nodup_l {A} (a b : list A) : NoDup (a ++ b) -> NoDup a.
Proof. induction a as [|x a IH]; intros H; [constructor|]. inversion H as [|y l Hn Hd]; subst. constructor; [|auto]. intros Hi. apply Hn, in_app_iff. auto. Qed.
Lemma remove_mem iter h root Ot L f : enumeration iter -> minv h root Ot [] L -> (In (split 47 f) (map fst Ot) -> forall q, In (split 47 f ++ q) (map fst Ot) -> q = []) ->
  exists root' h' out, tt_remove iter h root f = Some (root', h', out) /\ minv h' root' (del (split 47 f) Ot) [] L.
Proof.
  intros Hit [Ht Hh Hw Hn He Hi] Hs. rewrite app_nil_r in Hh, He. unfold tt_remove. destruct (find_mem h (split 47 f) [] root Ot Ht Hh) as (b & Eb & Hb). rewrite Eb.
  assert (Hsn : split 47 f <> []) by apply split_nonempty. destruct (in_dec (list_eq_dec (list_eq_dec N.eq_dec)) (split 47 f) (map fst Ot)) as [Hin|Hni].
  - rewrite (Hb Hin) in *. apply in_map_iff in Hin as Hin'. destruct Hin' as ([q id] & Eq & Hid). cbn in Eq. subst q.
    assert (Hn2 : NoDup (map snd Ot)) by (destruct Hw as [Hw _]; eapply perm_nodup_l, Permutation_NoDup; [exact Hi|exact Hw]).
    assert (Hl : In id (ids h)) by (eapply Permutation_in; [apply Permutation_sym, Hi|]; apply in_app_iff; left; apply (in_map snd) in Hid; exact Hid).
    destruct (split 47 f) as [|s p] eqn:Es; [congruence|]. destruct (climb_top iter h s p Hit root Ot id Ht Hh Hn Hn2 Hl Hid (Hs Hin)) as (st & n' & nf & Ec & Hm & Hfx). rewrite Ec.
    assert (Hfree : exists h' out, (match cs_cur st with None => Some (n', cs_heap st, cs_calls st) | Some c => match tn_destroy (cs_heap st) c with None => None | Some (h, out) => Some (n', h, cs_calls st ++ out) end end)
      = Some (n', h', out) /\ free h id = Some h').
    { destruct nf as [x|]; cbn [fixed] in Hfx.
      - destruct Hfx as (F1 & (cd & F2 & F3 & F4) & _). rewrite F2, tn_destroy_eq. cbn [destroys]. rewrite F4. eauto.
      - destruct Hfx as (F1 & (cd & F2 & F3 & F4)). rewrite F2, tn_destroy_eq, F1. cbn [destroys]. rewrite F4, F3. cbn [free_opt]. destruct (free_ok h id Hl) as (h' & Ef). rewrite Ef. eauto. }
    destruct Hfree as (h' & out & -> & Ef). eexists _, _, _. split; [reflexivity|]. destruct (free_ids _ _ _ Hw Ef) as (Hpi & Hw' & _). constructor; auto.
    + rewrite app_nil_r. intros q j Hq Hne. rewrite (lookup_free _ _ _ _ Ef); [apply Hh; [apply del_in in Hq; apply Hq|assumption]|]. intros ->. eapply del_no_id; eassumption.
    + apply nodup_del. assumption.
    + rewrite app_nil_r. intros Hx. apply He. apply in_map_iff in Hx as (e & <- & Hx). apply in_map. apply del_in in Hx. apply Hx.
    + apply (Permutation_cons_inv (a := id)). etransitivity; [apply Permutation_sym; exact Hpi|]. etransitivity; [exact Hi|]. cbn [map app]. rewrite app_comm_cons. apply Permutation_app_tail.
      change (id :: map snd (del (s :: p) Ot)) with (map snd ((s :: p, id) :: del (s :: p) Ot)). apply Permutation_map. destruct (split_path _ _ Hn Hin) as (j & Hj & Hpj). rewrite (fst_inj _ _ _ _ Hn Hid Hj). exact Hpj.
  - rewrite del_absent by assumption. destruct b.
    + destruct (climb_absent iter h _ _ true _ _ Ht Hni Eb) as (st & n' & Ec & Eh & Ecu & Hm & _); [congruence|]. rewrite Ec, Ecu, Eh. eexists _, _, _. split; [reflexivity|]. constructor; auto; rewrite app_nil_r; assumption.
    + eexists _, _, _. split; [reflexivity|]. constructor; auto; rewrite app_nil_r; assumption.
Qed.

(** ** Publishing, enumerating, destroying *)
Lemma publish_mem h parts : forall base n Ot, mok (len base) n Ot [] -> hok h base Ot -> Forall (fun e => hash_last (fst e)) Ot -> tt_publish h n parts <> None.
Proof.
  induction parts as [|s parts IH]; intros base n Ot Hm Hh Hv; cbn [tt_publish]; [discriminate|]. inversion Hm as [o d cs Ot' Op' Hd Hn H1 H2 H3]; subst. cbn [tn_children].
  assert (Hk0 : keys_ok h cs = true) by (eapply mok_keys; [exact Hm|rewrite app_nil_r; exact Hh]). rewrite Hk0. cbn [negb].
  assert (Hsub : forall k c, find_key k cs = Some c -> tt_publish h c parts <> None).
  { intros k c Hk. pose proof (H2 _ _ Hk) as Hmc. rewrite <- len_snoc in Hmc. eapply IH; [exact Hmc|apply hok_tails; assumption|apply hash_last_tails; assumption]. }
  assert (Hhash : forall c, find_key hash cs = Some c -> d_cb (tn_data c) <> None).
  { intros c Hk. destruct (H1 _ _ Hk) as (j & q & _ & _ & Hq). rewrite app_nil_r in Hq. pose proof (proj1 (Forall_forall _ _) (hash_last_tails hash _ Hv)) as Hv'.
    rewrite Forall_forall in Hv. pose proof (Hv _ (proj1 (in_tails _ _ _ _) Hq)) as Hl. cbn [fst hash_last] in Hl. destruct Hl as [Hl _]. specialize (Hl eq_refl). subst q.
    pose proof (H2 _ _ Hk) as Hmc. inversion Hmc as [o2 d2 cs2 Ot2 Op2 Hd2 Hn2 H12 H22 H32]; subst. cbn [tn_data]. unfold owner in Hd2. destruct (here (tails hash Ot)) eqn:Eh; [|apply Hd2].
    apply in_here in Hq. rewrite Eh in Hq. destruct Hq. }
  destruct (find_key hash cs) as [ch|]; [destruct (d_cb (tn_data ch)) eqn:Ed; [|exfalso; exact (Hhash _ eq_refl Ed)]|];
  (destruct (find_key plus cs) as [cp|] eqn:Ep; [pose proof (Hsub _ _ Ep); destruct (tt_publish h cp parts); [|congruence]|]);
  (destruct (find_key s cs) as [c|] eqn:Ec; [pose proof (Hsub _ _ Ec); destruct (tt_publish h c parts); [|congruence]|]); discriminate.
Qed.
Fixpoint iterates (h : heap) (cs : list (bytes * tnode)) : option (list (bytes * N)) :=
  match cs with
  | [] => Some []
  | (_, c) :: cs =>
    match (match d_cb (tn_data c) with None => Some [] | Some _ => match d_filter (tn_data c) with None => None | Some id => match lookup h id with None => None | Some b => Some [(b, d_qos (tn_data c))] end end end),
      tt_iterate h c, iterates h cs with
    | Some a, Some b, Some d => Some (a ++ b ++ d)
    | _, _, _ => None
    end
  end.
Lemma tt_iterate_eq h d cs : tt_iterate h (TNode d cs) = iterates h cs.
Proof. cbn [tt_iterate tn_children]. induction cs as [|[k c] cs IH]; [reflexivity|]. cbn [iterates]. rewrite <- IH. reflexivity. Qed.
Definition listed (base : bytes) (e : list bytes * tsub) : list (bytes * N) := match fst e with [] => [] | p => [(base ++ join 47 p, ts_qos (snd e))] end.
Lemma nodup_here_one {A} (F : paths A) : NoDup (map fst F) -> here F = [] \/ exists o, here F = [o].
Proof. exact (nodup_here F). Qed.
Lemma iterate_mem h n : forall base Ot F, mok (len base) n Ot [] -> trep n F (gof F) -> hok h base Ot -> NoDup (map fst F) -> (forall p, In p (map fst F) <-> In p (map fst Ot)) ->
  exists l, tt_iterate h n = Some l /\ Permutation l (flat_map (listed base) F).
Proof.
  induction n as [d cs IH] using tnode_ind'. intros base Ot F Hm Hr Hh Hn Hs. inversion Hm as [o d' cs' Ot' Op' Hd Hnd H1 H2 H3]; subst. inversion Hr as [d' cs' F' G' Hdh Hn' R1 R2 R3]; subst. rewrite tt_iterate_eq.
  assert (Hchild : forall k c, find_key k cs = Some c -> exists a b, 
     (match d_cb (tn_data c) with None => Some [] | Some _ => match d_filter (tn_data c) with None => None | Some id => match lookup h id with None => None | Some b => Some [(b, d_qos (tn_data c))] end end end) = Some a /\
     tt_iterate h c = Some b /\ Permutation (a ++ b) (flat_map (fun e => [((base ++ k ++ (match fst e with [] => [] | p => 47 :: join 47 p end)), ts_qos (snd e))]) (tails k F))).
  { intros k c Hk. pose proof (H2 _ _ Hk) as Hmc. rewrite <- len_snoc in Hmc. pose proof (R2 _ _ Hk) as Hrc. rewrite tails_gof in Hrc.
    rewrite Forall_forall in IH. pose proof (find_key_in _ _ _ Hk) as Hik.
    destruct (IH _ Hik _ _ _ Hmc Hrc (hok_tails _ _ _ _ Hh) (nodup_tails _ _ Hn)) as (b & Eb & Hb).
    { intros p. rewrite !in_tails_fst. apply Hs. }
    cbn [snd] in Eb. inversion Hmc as [o2 d2 cs2 Ot2 Op2 Hd2 Hn2 H12 H22 H32]; subst. inversion Hrc as [d3 cs3 F3 G3 Hdh3 Hn3 R13 R23 R33]; subst. cbn [tn_data].
    assert (Hsame : here (tails k F) = [] <-> here (tails k Ot) = []).
    { rewrite !here_in_fst, !in_tails_fst, Hs. tauto. }
    assert (Hsplit : Permutation (flat_map (fun e => [(base ++ k ++ match fst e with [] => [] | p => 47 :: join 47 p end, ts_qos (snd e))]) (tails k F))
              (flat_map (fun s => [(base ++ k, ts_qos s)]) (here (tails k F)) ++ flat_map (listed (base ++ k ++ [47])) (tails k F))).
    { rewrite <- flat_map_here. etransitivity; [|apply flat_map_split]. apply eq_perm, flat_map_ext. intros [[|x q] o]; cbn [fst snd listed app]; [rewrite app_nil_r; reflexivity|].
      unfold listed. cbn [fst snd]. rewrite <- !app_assoc. reflexivity. }
    destruct (nodup_here _ (nodup_tails k _ Hn)) as [Eh|(sub & Eh)]; rewrite Eh in *.
    - unfold owner in Hd2. rewrite (proj1 Hsame eq_refl) in Hd2. destruct Hd2 as [_ Hcb]. rewrite Hcb. exists [], b. split; [reflexivity|]. split; [assumption|]. cbn [app flat_map] in *.
      etransitivity; [exact Hb|]. apply Permutation_sym. exact Hsplit.
    - destruct (here (tails k Ot)) as [|id l] eqn:Eo; [exfalso; destruct Hsame as [_ Hx]; specialize (Hx eq_refl); discriminate|]. cbn in Hd2. destruct Hd2 as (_ & Hf2 & Hcb).
      assert (Hid : In ([], id) (tails k Ot)) by (apply in_here; rewrite Eo; left; reflexivity). apply in_tails in Hid. pose proof (Hh _ _ Hid ltac:(discriminate)) as Hlk. cbn [join] in Hlk.
      unfold data_here in Hdh3. destruct (d_cb d2); [|congruence]. rewrite Hf2, Hlk. exists [(base ++ k, d_qos d2)], b. split; [reflexivity|]. split; [assumption|].
      etransitivity; [|apply Permutation_sym; exact Hsplit]. cbn [flat_map app]. replace (d_qos d2) with (ts_qos sub) by (symmetry; apply Hdh3). apply perm_skip. exact Hb. }
  assert (Hpart : Permutation (flat_map (listed base) F) (flat_map (fun k => flat_map (fun e => [((base ++ k ++ (match fst e with [] => [] | p => 47 :: join 47 p end)), ts_qos (snd e))]) (tails k F)) (map fst cs))).
  { assert (Hkeys : forall x p o, In (x :: p, o) F -> In x (map fst cs)).
    { intros x p o Hx. destruct (find_key x cs) as [c|] eqn:Ec; [apply find_key_in in Ec; apply (in_map fst) in Ec; exact Ec|]. exfalso. pose proof (R3 _ Ec) as R. rewrite tails_gof in R.
      assert (Hx' : In (p, o) (tails x F)) by (apply in_tails; assumption). destruct (tails x F); [destruct Hx'|discriminate]. }
    clear -Hn' Hkeys. induction F as [|[[|x p] o] F IHF].
    - cbn [flat_map]. apply eq_perm. symmetry. apply flat_map_nil. reflexivity.
    - cbn [flat_map listed fst app]. etransitivity; [apply IHF; intros y q o' Hy; eapply Hkeys; right; exact Hy|]. apply eq_perm. reflexivity.
    - assert (Hx : In x (map fst cs)) by (eapply Hkeys; left; reflexivity).
      etransitivity; [|apply Permutation_sym; etransitivity; [apply eq_perm; apply (flat_map_ext _ (fun k => (if bytes_eqb k x then listed base (x :: p, o) else []) ++ flat_map (fun e => [((base ++ k ++ (match fst e with [] => [] | q => 47 :: join 47 q end)), ts_qos (snd e))]) (tails k F)))|]].
      2:{ intros k. rewrite tails_cons. destruct (bytes_eqb k x) eqn:Ek; [|reflexivity]. apply bytes_eqb_spec in Ek. subst. cbn [flat_map fst snd listed app]. do 2 f_equal.
          destruct p as [|y p]; [cbn [join]; rewrite app_nil_r; reflexivity|]. rewrite (join_cons 47 x (y :: p)) by discriminate. reflexivity. }
      2:{ apply (flat_map_one (fun k => bytes_eqb k x) x); [assumption|assumption|]. intros k. apply bytes_eqb_spec. }
      cbn [flat_map]. apply Permutation_app_head. apply IHF. intros y q o' Hy. eapply Hkeys. right. exact Hy. }
  clear -Hchild Hpart Hn'.
  assert (Hall : forall l, incl l cs -> NoDup (map fst l) -> exists r, iterates h l = Some r /\ Permutation r (flat_map (fun k => flat_map (fun e => [((base ++ k ++ (match fst e with [] => [] | p => 47 :: join 47 p end)), ts_qos (snd e))]) (tails k F)) (map fst l))).
  { induction l as [|[k c] l IHl]; intros Hi Hl; [exists []; split; [reflexivity|constructor]|]. inversion Hl as [|u v Hu Hv]; subst.
    destruct (Hchild k c) as (a & b & Ea & Eb & Hab); [apply in_find_key; [assumption|apply Hi; left; reflexivity]|]. destruct IHl as (r & Er & Hr); [intros z Hz; apply Hi; right; exact Hz|assumption|].
    cbn [iterates]. rewrite Ea, Eb, Er. eexists. split; [reflexivity|]. cbn [map fst flat_map]. rewrite app_assoc. apply Permutation_app; assumption. }
  destruct (Hall cs (incl_refl _) Hn') as (r & Er & Hr). exists r. split; [assumption|]. etransitivity; [exact Hr|]. apply Permutation_sym. exact Hpart.
Qed.
Lemma destroy_mem n : forall off Ot h L, mok off n Ot [] -> NoDup (map fst Ot) -> hwf h -> Permutation (ids h) (map snd Ot ++ L) -> exists h' out, tn_destroy h n = Some (h', out) /\ hwf h' /\ Permutation (ids h') L.
Proof.
  induction n as [d cs IH] using tnode_ind'. intros off Ot h L Hm Hn Hw Hi. inversion Hm as [o d' cs' Ot' Op' Hd Hnd H1 H2 H3]; subst. rewrite tn_destroy_eq.
  assert (Hkeys : forall x p o, In (x :: p, o) Ot -> In x (map fst cs)).
  { intros x p o Hx. destruct (find_key x cs) as [c|] eqn:Ec; [apply find_key_in in Ec; apply (in_map fst) in Ec; exact Ec|]. exfalso. specialize (H3 _ Ec). rewrite app_nil_r in H3.
    assert (Hx' : In (p, o) (tails x Ot)) by (apply in_tails; assumption). rewrite H3 in Hx'. destruct Hx'. }
  assert (Hone : forall l : list N, flat_map (fun x => [x]) l = l) by (induction l as [|x l IHl]; [reflexivity|]; cbn; rewrite IHl; reflexivity).
  pose proof (paths_partition (fun x : N => [x]) (map fst cs) Ot Hnd Hkeys) as Hp. rewrite !Hone in Hp.
  assert (Hdes : forall l h L, incl l cs -> NoDup (map fst l) -> hwf h -> Permutation (ids h) (flat_map (fun s => map snd (tails s Ot)) (map fst l) ++ L) -> exists h' out, destroys h l = Some (h', out) /\ hwf h' /\ Permutation (ids h') L).
  { clear Hi h L Hw. induction l as [|[k c] l IHl]; intros h L Hl Hnl Hw Hi; cbn [destroys]; [exists h, []; split; [reflexivity|]; split; assumption|]. cbn [map fst] in Hnl. inversion Hnl as [|u v Hu Hv]; subst.
    rewrite Forall_forall in IH. assert (Hk : find_key k cs = Some c) by (apply in_find_key; [assumption|apply Hl; left; reflexivity]). cbn [map fst flat_map] in Hi. rewrite <- app_assoc in Hi.
    destruct (IH (k, c) (Hl _ (or_introl eq_refl)) _ _ _ _ (H2 _ _ Hk) (nodup_tails _ _ Hn) Hw Hi) as (h1 & o1 & E1 & Hw1 & Hi1). cbn [snd] in E1. rewrite E1.
    destruct (IHl h1 L) as (h2 & o2 & E2 & Hw2 & Hi2); [intros z Hz; apply Hl; right; exact Hz|assumption|assumption|assumption|]. rewrite E2. eauto. }
  assert (Hi' : Permutation (ids h) (flat_map (fun s => map snd (tails s Ot)) (map fst cs) ++ here Ot ++ L)).
  { etransitivity; [exact Hi|]. rewrite app_assoc. apply Permutation_app_tail. etransitivity; [exact Hp|]. etransitivity; [apply Permutation_app_comm|]. apply Permutation_app_tail. apply eq_perm, flat_map_ext. intros k. rewrite Hone. reflexivity. }
  destruct (Hdes cs h _ (incl_refl _) Hnd Hw Hi') as (h1 & out & E & Hw1 & Hi1). rewrite E. unfold owner in Hd.
  destruct (nodup_here _ Hn) as [Eh|(id & Eh)]; rewrite Eh in *.
  - destruct Hd as [-> _]. eauto.
  - destruct Hd as (-> & -> & _). cbn [free_opt]. destruct (free_ok h1 id) as (h2 & Ef).
    { eapply Permutation_in; [apply Permutation_sym, Hi1|]. left. reflexivity. }
    rewrite Ef. destruct (free_ids _ _ _ Hw1 Ef) as (Hpf & Hw2 & _). eexists _, _. split; [reflexivity|]. split; [assumption|].
    apply (Permutation_cons_inv (a := id)). etransitivity; [apply Permutation_sym; exact Hpf|]. exact Hi1.
Qed.

(** ** Histories *)
Definition msafe (h : heap) (root : tnode) (l : list (bytes * tsub)) (L : list N) : Prop :=
  exists Ot, minv h root Ot [] L /\ forall p, In p (map fst Ot) <-> In p (map fst (map tp l)).
Lemma in_tp_fst p l : In p (map fst (map tp l)) <-> exists f, In f (map fst l) /\ p = split 47 f.
Proof.
  rewrite map_map. cbn. rewrite in_map_iff. split.
  - intros (e & <- & He). exists (fst e). split; [apply in_map; assumption|reflexivity].
  - intros (f & Hf & ->). apply in_map_iff in Hf as (e & <- & He). exists e. auto.
Qed.
Lemma pend_in acts Ot p : Forall (act_ok Ot) acts -> (In p (map fst (pend acts)) \/ In p (map fst Ot)) <-> (In p (map ta_path acts) \/ In p (map fst Ot)).
Proof.
  intros H. induction acts as [|a acts IH]; [reflexivity|]. apply Forall_cons_iff in H as [Ha H]. specialize (IH H). rewrite pend_cons, map_app, in_app_iff. cbn [map In].
  unfold act_ok in Ha. unfold pend at 1. cbn [flat_map]. destruct (ta_str a) as [id|]; cbn [app map fst In].
  - tauto.
  - destruct Ha as [Ha _]. split; [tauto|]. intros [[<-|Hp]|Hp]; tauto.
Qed.
Lemma step_safe iter h root op l L : enumeration iter -> tinv root l -> msafe h root l L -> safe_op l op ->
  exists h' root' c, tt_op iter h root op = Some (h', root', c) /\ exists L', msafe h' root' (t_in_force_step l op) L' /\ (all_committed op -> L' = L).
Proof.
  intros Hit Ht (Ot & Hm & Hp) Hs. destruct op as [subs committed|f]; cbn [tt_op safe_op t_in_force_step] in *.
  - destruct (inserts_mem subs h root Ot [] L Hm Hs) as (h1 & r1 & acts & E & Hpa & Ha & Hm1); [intros f _ []|]. rewrite E. destruct committed.
    + assert (Hnd : NoDup (map ta_path acts)).
      { rewrite Hpa. rewrite <- (map_map fst (split 47)). apply FinFun.Injective_map_NoDup; [|assumption]. intros a b Eab. eapply split_inj. eassumption. }
      destruct (commits_mem acts _ _ _ _ _ Hm1 Ha Hnd) as (r2 & out & E2 & Hm2). rewrite E2. eexists _, _, _. split; [reflexivity|]. exists L. split; [|reflexivity]. eexists. split; [exact Hm2|].
      intros p. rewrite map_app, in_app_iff, map_rev, <- in_rev, (pend_in _ _ _ Ha), Hpa, Hp, !in_tp_fst. split.
      * intros [Hx|(f & Hf & ->)].
        -- apply in_map_iff in Hx as (e & <- & He). exists (fst e). split; [|reflexivity]. apply in_fold. left. apply in_map. assumption.
        -- exists f. split; [|reflexivity]. apply in_fold. auto.
      * intros (f & Hf & ->). apply in_fold in Hf as [Hf|Hf]; [left|right; eauto]. apply in_map_iff in Hf as (e & <- & He). apply in_map_iff. exists e. auto.
    + destruct (roll_backs_mem subs _ _ _ _ _ _ _ _ E Hm Hs (fun _ _ H => H) h1 r1 L (teq_refl _) Hm1) as (h3 & m' & out & L3 & E3 & _ & Hm3). rewrite E3.
      eexists _, _, _. split; [reflexivity|]. exists L3. split; [|intros []]. exists Ot. auto.
  - destruct (remove_mem iter h root Ot L f Hit Hm) as (r' & h' & out & E & Hm').
    { intros Hin q Hq. apply Hp, in_tp in Hin. apply Hp, in_tp_fst in Hq. destruct Hq as (g & Hg & Eg). destruct q as [|x q]; [reflexivity|]. exfalso. apply (Hs Hin g Hg). exists (x :: q). split; [discriminate|]. congruence. }
    rewrite E. eexists _, _, _. split; [reflexivity|]. exists L. split; [|reflexivity]. exists (del (split 47 f) Ot). split; [assumption|]. intros p. rewrite <- del_tp. rewrite !in_map_iff.
    split; intros ([q x] & E' & Hx); cbn in E'; subst q; apply del_in in Hx as [Hx Hne]; cbn [fst] in Hne.
    + apply (in_map fst) in Hx. apply Hp in Hx. apply in_map_iff in Hx as ([q y] & Eq & Hy). cbn in Eq. subst q. exists (p, y). split; [reflexivity|]. apply del_in. auto.
    + apply (in_map fst) in Hx. apply Hp in Hx. apply in_map_iff in Hx as ([q y] & Eq & Hy). cbn in Eq. subst q. exists (p, y). split; [reflexivity|]. apply del_in. auto.
Qed.
Lemma run_safe iter ops : enumeration iter -> forall h root calls l L, tinv root l -> msafe h root l L -> safe_from l ops ->
  exists h' root' c L', fold_left (tt_step iter) ops (Some (h, root, calls)) = Some (h', root', calls ++ c) /\ msafe h' root' (fold_left t_in_force_step ops l) L' /\ (Forall all_committed ops -> L' = L).
Proof.
  intros Hit. induction ops as [|op ops IH]; intros h root calls l L Ht Hm Hs; cbn [fold_left].
  - exists h, root, [], L. rewrite app_nil_r. auto.
  - destruct Hs as [Ho Hs]. destruct (step_safe iter h root op l L Hit Ht Hm Ho) as (h1 & r1 & c1 & E & L1 & Hm1 & HL1). destruct (step_inv _ _ _ _ _ _ _ _ Ht E) as [Ht1 _].
    unfold tt_step at 2. rewrite E. destruct (IH _ _ (calls ++ c1) _ _ Ht1 Hm1 Hs) as (h2 & r2 & c2 & L2 & E2 & Hm2 & HL2). exists h2, r2, (c1 ++ c2), L2. rewrite app_assoc. split; [assumption|]. split; [assumption|].
    intros Hall. apply Forall_cons_iff in Hall as [Hc Hall]. rewrite HL2, HL1; auto.
Qed.
Lemma msafe_init : msafe (mkheap 0 []) tt_init [] [].
Proof.
  exists []. split; [|reflexivity]. constructor.
  - exact mok_init.
  - intros q id [].
  - split; [constructor|intros id []].
  - constructor.
  - intros [].
  - apply Permutation_refl.
Qed.
Lemma safe_run iter ops : enumeration iter -> safe_history ops -> exists h root calls L, tt_run iter ops = Some (h, root, calls) /\ tinv root (t_in_force ops) /\ msafe h root (t_in_force ops) L /\ (Forall all_committed ops -> L = []).
Proof.
  intros Hit Hs. destruct (run_safe iter ops Hit _ _ [] _ _ tinv_init msafe_init Hs) as (h & root & c & L & E & Hm & HL). cbn [app] in E. exists h, root, c, L.
  split; [exact E|]. split; [|auto]. exact (proj1 (run_inv _ _ _ _ _ _ _ _ _ tinv_init E)).
Qed.
Lemma msafe_publish h root l L parts : msafe h root l L -> Forall (fun e => topic_filter (fst e)) l -> tt_publish h root parts <> None.
Proof.
  intros (Ot & [Ht Hh Hw Hn He Hi] & Hp) Hv. rewrite app_nil_r in Hh. apply (publish_mem h parts [] root Ot Ht Hh). apply Forall_forall. intros [q id] Hq. cbn [fst].
  apply (in_map fst) in Hq. apply Hp, in_tp_fst in Hq. destruct Hq as (f & Hf & E). cbn in E. subst q. apply valid_hash_last, valid_filter_spec. apply in_map_iff in Hf as (e & <- & He'). rewrite Forall_forall in Hv. auto.
Qed.
Lemma msafe_iterate h root l L : msafe h root l L -> tinv root l -> exists r, tt_iterate h root = Some r /\ Permutation r (map (fun e => (fst e, ts_qos (snd e))) l).
Proof.
  intros (Ot & [Ht Hh Hw Hn He Hi] & Hp) [Hr Hnl]. rewrite app_nil_r in Hh. destruct (iterate_mem h root [] Ot (map tp l) Ht Hr Hh (nodup_tp _ Hnl)) as (r & E & Hpr).
  { intros p. symmetry. apply Hp. }
  exists r. split; [assumption|]. etransitivity; [exact Hpr|]. apply eq_perm. clear. induction l as [|[f s] l IH]; [reflexivity|]. cbn [map flat_map]. rewrite IH. unfold tp at 1, listed at 1. cbn [fst snd].
  destruct (split 47 f) as [|x q] eqn:E; [exfalso; exact (split_nonempty _ _ E)|]. rewrite <- E, join_split. reflexivity.
Qed.
Lemma msafe_destroy h root l L : msafe h root l L -> tinv root l -> exists h' out, tn_destroy h root = Some (h', out) /\ Permutation (ids h') L /\ Permutation out (flat_map t_cleanup l).
Proof.
  intros (Ot & [Ht Hh Hw Hn He Hi] & Hp) [Hr Hnl]. cbn [map app] in Hi. destruct (destroy_mem root 0 Ot h L Ht Hn Hw Hi) as (h' & out & E & _ & Hi'). exists h', out. split; [assumption|]. split; [assumption|].
  assert (Hincl : incl (map fst (map tp l)) (map fst (gof (map tp l)))) by (rewrite gof_fst; apply incl_refl). pose proof (tn_destroy_spec _ _ _ Hr Hincl (nodup_tp _ Hnl) _ _ _ E) as Hout.
  etransitivity; [exact Hout|]. apply eq_perm. clear. induction l as [|e l IH]; [reflexivity|]. cbn [map flat_map]. rewrite IH. reflexivity.
Qed.

(** ** The properties *)
Lemma tree_alive iter ops : enumeration iter -> safe_history ops -> Forall op_filters_valid ops ->
  exists h root calls, tt_run iter ops = Some (h, root, calls) /\ (forall topic, tt_publish h root (split 47 topic) <> None) /\ tt_iterate h root <> None /\ tn_destroy h root <> None.
Proof.
  intros Hit Hs Hv. destruct (safe_run iter ops Hit Hs) as (h & root & calls & L & E & Ht & Hm & _). exists h, root, calls. split; [assumption|].
  assert (Hvl : Forall (fun e => topic_filter (fst e)) (t_in_force ops)) by (apply filters_valid_run; [assumption|constructor]).
  split; [intros t; eapply msafe_publish; eassumption|]. destruct (msafe_iterate _ _ _ _ Hm Ht) as (r & Er & _). destruct (msafe_destroy _ _ _ _ Hm Ht) as (h' & out & Ed & _). split; congruence.
Qed.
Lemma tree_dispatch iter ops h root calls topic out : Forall op_filters_valid ops -> tt_run iter ops = Some (h, root, calls) -> topic_name topic -> tt_publish h root (split 47 topic) = Some out ->
  exists m, (forall e, In e m <-> In e (t_in_force ops) /\ tree_matches (fst e) topic) /\ NoDup (map fst m) /\ Permutation out (flat_map t_received m).
Proof.
  intros Hv E Ht Ep. eapply publish_matches; [exact (proj1 (run_inv _ _ _ _ _ _ _ _ _ tinv_init E))| |exact Ht|exact Ep]. apply filters_valid_run; [assumption|constructor].
Qed.
Lemma tree_lists iter ops : enumeration iter -> safe_history ops -> exists h root calls r, tt_run iter ops = Some (h, root, calls) /\ tt_iterate h root = Some r /\
  Permutation r (map (fun e => (fst e, ts_qos (snd e))) (t_in_force ops)) /\ tt_count root = len (t_in_force ops).
Proof.
  intros Hit Hs. destruct (safe_run iter ops Hit Hs) as (h & root & calls & L & E & Ht & Hm & _). destruct (msafe_iterate _ _ _ _ Hm Ht) as (r & Er & Hr). exists h, root, calls, r.
  split; [assumption|]. split; [assumption|]. split; [assumption|]. destruct Ht as [Hrep Hnd].
  assert (Hincl : incl (map fst (map tp (t_in_force ops))) (map fst (gof (map tp (t_in_force ops))))) by (rewrite gof_fst; apply incl_refl).
  pose proof (count_spec _ _ _ Hrep Hincl (nodup_tp _ Hnd)) as Hc.
  assert (E0 : here (map tp (t_in_force ops)) = []) by (apply here_in_fst; intros Hx; apply in_tp_fst in Hx as (f & _ & Ef); symmetry in Ef; exact (split_nonempty _ _ Ef)).
  rewrite E0 in Hc. unfold len in *. rewrite map_length in Hc. cbn in Hc. lia.
Qed.
Lemma tree_cleanup iter ops : enumeration iter -> safe_history ops -> exists h root calls h' out, tt_run iter ops = Some (h, root, calls) /\ tn_destroy h root = Some (h', out) /\
  Permutation (calls ++ out) (flat_map t_cleanup (flat_map t_committed ops)) /\ (Forall all_committed ops -> hp_live h' = []).
Proof.
  intros Hit Hs. destruct (safe_run iter ops Hit Hs) as (h & root & calls & L & E & Ht & Hm & HL). destruct (msafe_destroy _ _ _ _ Hm Ht) as (h' & out & Ed & Hl & Ho). exists h, root, calls, h', out.
  split; [assumption|]. split; [assumption|]. split.
  - destruct (run_inv _ _ _ _ _ _ _ _ _ tinv_init E) as (_ & c & Ec & Hc). cbn [app] in Ec. subst c. cbn [flat_map app] in Hc. etransitivity; [apply Permutation_app_head; exact Ho|]. exact Hc.
  - intros Hall. rewrite (HL Hall) in Hl. apply Permutation_sym, Permutation_nil in Hl. unfold ids in Hl. apply map_eq_nil in Hl. assumption.
Qed.
