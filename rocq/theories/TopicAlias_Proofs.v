From Coq Require Import Permutation.
From Verif Require Import Base BaseLemmas TopicAlias_Model TopicAlias_Spec.

Lemma bytes_eqb_spec a : forall b, bytes_eqb a b = true <-> a = b.
Proof.
  induction a as [|x a IH]; intros [|y b]; cbn; try (split; intros; congruence).
  rewrite andb_true_iff, N.eqb_eq, IH. split; [intros [-> ->]; reflexivity|]. intros [= -> ->]. auto.
Qed.
Lemma bytes_eqb_refl a : bytes_eqb a a = true.
Proof. apply bytes_eqb_spec. reflexivity. Qed.
Lemma bytes_eqb_false a b : bytes_eqb a b = false <-> a <> b.
Proof. rewrite <- bytes_eqb_spec. destruct (bytes_eqb a b); split; intros; congruence. Qed.
Lemma set_at_length {A} (l : list A) : forall i x, length (set_at l i x) = length l.
Proof. induction l as [|y l IH]; intros [|i] x; cbn; [reflexivity..|]. rewrite IH. reflexivity. Qed.
Lemma nth_set_at {A} (l : list A) : forall i j x, (i < length l)%nat ->
  nth_error (set_at l i x) j = if Nat.eqb i j then Some x else nth_error l j.
Proof.
  induction l as [|y l IH]; intros [|i] [|j] x H; cbn in *; try lia; try reflexivity. apply IH. lia.
Qed.
Lemma nth_repeat {A} (x : A) n : forall i, nth_error (repeat x n) i = if Nat.ltb i n then Some x else None.
Proof. induction n as [|n IH]; intros [|i]; cbn [repeat nth_error]; [reflexivity..|]. rewrite IH. reflexivity. Qed.
Lemma len_length {A} (l : list A) : len l = N.of_nat (length l).
Proof. reflexivity. Qed.

(** ** Tables of aliases *)
Definition table_is (l : list (option bytes)) (max : N) (m : alias_map) : Prop :=
  len l = max /\ forall a, 1 <= a <= max -> nth_error l (N.to_nat (a - 1)) = Some (m a).
Lemma table_reset max : table_is (repeat None (N.to_nat max)) max no_aliases.
Proof.
  split; [unfold len; rewrite repeat_length; lia|]. intros a Ha. rewrite nth_repeat. destruct (Nat.ltb_spec (N.to_nat (a - 1)) (N.to_nat max)); [reflexivity|lia].
Qed.
Lemma table_set l max m a t : table_is l max m -> 1 <= a <= max ->
  table_is (set_at l (N.to_nat (a - 1)) (Some t)) max (fun b => if b =? a then Some t else m b).
Proof.
  intros [Hl Hm] Ha. rewrite len_length in Hl. split; [unfold len; rewrite set_at_length; lia|].
  intros b Hb. rewrite nth_set_at by lia. destruct (Nat.eqb_spec (N.to_nat (a - 1)) (N.to_nat (b - 1))), (N.eqb_spec b a); try lia; [reflexivity|].
  apply Hm. assumption.
Qed.

(** ** Inbound *)
Definition in_inv (s : in_state) (max : N) (m : alias_map) : Prop := table_is (in_table s) max m /\ in_enabled s = (0 <? max).
Lemma receive_bad max m t a : ~ (1 <= a <= max) -> receive max m t (Some a) = (m, None).
Proof. intros H. unfold receive. destruct (N.leb_spec 1 a), (N.leb_spec a max); cbn [andb]; try lia; reflexivity. Qed.
Lemma receive_full max m t a : 1 <= a <= max -> t <> [] -> receive max m t (Some a) = (fun b => if b =? a then Some t else m b, Some t).
Proof. intros H Ht. unfold receive. destruct (N.leb_spec 1 a), (N.leb_spec a max); try lia. destruct t; [congruence|reflexivity]. Qed.
Lemma receive_alias max m a : 1 <= a <= max -> receive max m [] (Some a) = (m, m a).
Proof. intros H. unfold receive. destruct (N.leb_spec 1 a), (N.leb_spec a max); try lia. reflexivity. Qed.
Lemma receive_plain max m t : t <> [] -> receive max m t None = (m, Some t).
Proof. destruct t; [congruence|reflexivity]. Qed.
Lemma len_pos (t : bytes) : t <> [] -> (len t =? 0) = false.
Proof. destruct t; [congruence|]. intros _. rewrite len_cons. destruct (N.eqb_spec (1 + len t) 0); [lia|reflexivity]. Qed.
Lemma in_publish_spec s max m t a : in_inv s max m -> a <> None \/ t <> [] ->
  in_inv (fst (in_publish s t a)) max (fst (receive max m t a)) /\ snd (in_publish s t a) = snd (receive max m t a).
Proof.
  intros Hinv Hne. pose proof Hinv as [Ht He]. pose proof Ht as [Hl Hm]. unfold in_publish. destruct a as [a|].
  2:{ destruct Hne as [?|Hne]; [congruence|]. rewrite receive_plain by assumption. split; [exact Hinv|reflexivity]. }
  clear Hne. rewrite He. destruct (N.ltb_spec 0 max) as [Hmax|Hmax]; cbn [negb].
  2:{ rewrite receive_bad by lia. split; [exact Hinv|reflexivity]. }
  destruct (N.eqb_spec a 0) as [->|Ha0].
  { rewrite receive_bad by lia. split; [exact Hinv|reflexivity]. }
  unfold in_register, in_resolve. rewrite Hl. destruct (N.eqb_spec a 0); [lia|].
  destruct (N.ltb_spec max a) as [Ham|Ham]; cbn [orb].
  { rewrite receive_bad by lia. destruct (0 <? len t); (split; [exact Hinv|reflexivity]). }
  destruct t as [|x t].
  - rewrite receive_alias by lia. cbn [len length N.of_nat N.ltb N.compare fst snd]. split; [exact Hinv|]. rewrite Hm by lia. destruct (m a); reflexivity.
  - rewrite receive_full by (discriminate || lia). rewrite len_cons. destruct (N.ltb_spec 0 (1 + len t)); [|lia]. cbn [fst snd]. split; [|reflexivity].
    split; [|cbn [in_enabled]; destruct (N.ltb_spec 0 max); [reflexivity|lia]]. cbn [in_table]. apply table_set; [assumption|lia].
Qed.
Lemma in_connect_inv max : in_inv (in_connect max) max no_aliases.
Proof. split; [apply table_reset|reflexivity]. Qed.
Lemma receive_last_registered max m t al a : 1 <= a <= max ->
  fst (receive max m t al) a = match last_registered a [(t, al)] with Some x => Some x | None => m a end.
Proof.
  intros Ha. cbn [last_registered]. unfold receive. destruct al as [b|]; [|destruct t; reflexivity]. destruct t as [|x t].
  - destruct ((1 <=? b) && (b <=? max)); reflexivity.
  - destruct (N.leb_spec 1 b), (N.leb_spec b max); cbn [andb fst]; destruct (N.eqb_spec b a); try lia; subst; rewrite ?N.eqb_refl; try reflexivity.
    destruct (N.eqb_spec a b); [lia|reflexivity].
Qed.
Lemma last_registered_app a h1 h2 : last_registered a (h1 ++ h2) = match last_registered a h2 with Some t => Some t | None => last_registered a h1 end.
Proof.
  induction h1 as [|[t al] h1 IH]; cbn [app last_registered]; [destruct (last_registered a h2); reflexivity|].
  rewrite IH. destruct (last_registered a h2); reflexivity.
Qed.
Definition in_pub (p : bytes * option N) : in_event := IPublish (fst p) (snd p).
Lemma in_fold hist : forall s max m, in_inv s max m -> exists m', in_inv (fold_left in_step (map in_pub hist) s) max m' /\
  forall a, 1 <= a <= max -> m' a = match last_registered a hist with Some t => Some t | None => m a end.
Proof.
  induction hist as [|[t al] hist IH]; intros s max m H; [exists m; split; [assumption|reflexivity]|].
  cbn [map fold_left in_pub in_step fst snd].
  assert (Hx : in_inv (fst (in_publish s t al)) max (fst (receive max m t al))).
  { destruct al as [b|]; [apply in_publish_spec; [assumption|left; discriminate]|]. destruct t; cbn; assumption. }
  destruct (IH _ _ _ Hx) as (m' & H1 & H2). exists m'. split; [assumption|]. intros a Ha. rewrite H2 by assumption. rewrite receive_last_registered by assumption.
  change ((t, al) :: hist) with ([(t, al)] ++ hist). rewrite last_registered_app. destruct (last_registered a hist); reflexivity.
Qed.
Lemma inbound_exact before s0 max hist topic a :
  let s := fold_left in_step (before ++ IConnect max :: map in_pub hist) s0 in
  snd (in_publish s topic (Some a)) =
    if (1 <=? a) && (a <=? max) then match topic with [] => last_registered a hist | _ => Some topic end else None.
Proof.
  cbv zeta. rewrite fold_left_app. cbn [fold_left in_step].
  destruct (in_fold hist _ _ _ (in_connect_inv max)) as (m & Hi & Hm).
  set (s := fold_left in_step (map in_pub hist) _) in *. clearbody s.
  assert (Hne : Some a <> None \/ topic <> []) by (left; discriminate).
  destruct (in_publish_spec s max m topic (Some a) Hi Hne) as [_ E]. rewrite E. clear E.
  unfold receive. destruct (N.leb_spec 1 a), (N.leb_spec a max); cbn [andb]; try reflexivity.
  destruct topic; [|reflexivity]. cbn [snd]. rewrite Hm by lia. unfold no_aliases. destruct (last_registered a hist); reflexivity.
Qed.
Lemma inbound_no_alias s topic : in_publish s topic None = (s, Some topic).
Proof. reflexivity. Qed.

(** ** Outbound: LRU *)
Lemma lru_remove_in t c e : In e (lru_remove t c) <-> In e c /\ fst e <> t.
Proof.
  unfold lru_remove. rewrite filter_In. unfold key_is. rewrite negb_true_iff, bytes_eqb_false. split; intros [H1 H2]; split; auto.
Qed.
Lemma lru_remove_absent t c : ~ In t (map fst c) -> lru_remove t c = c.
Proof.
  induction c as [|e c IH]; intros H; [reflexivity|]. unfold lru_remove in *. cbn [filter map In] in *. unfold key_is at 1.
  destruct (bytes_eqb t (fst e)) eqn:E; [apply bytes_eqb_spec in E; exfalso; apply H; left; symmetry; assumption|]. cbn [negb]. rewrite IH by tauto. reflexivity.
Qed.
Lemma lru_remove_mid c1 t (a : N) c2 : NoDup (map fst (c1 ++ (t, a) :: c2)) -> lru_remove t (c1 ++ (t, a) :: c2) = c1 ++ c2.
Proof.
  intros H. rewrite map_app in H. cbn [map fst] in H. apply NoDup_remove_2 in H.
  unfold lru_remove. rewrite filter_app. cbn [filter]. unfold key_is at 2. cbn [fst]. rewrite bytes_eqb_refl. cbn [negb].
  fold (lru_remove t c1). fold (lru_remove t c2). rewrite !lru_remove_absent; [reflexivity| |]; intros Hi; apply H; apply in_or_app; auto.
Qed.
Definition lru_inv (bound : N) (c : lru) (m : alias_map) : Prop :=
  NoDup (map fst c) /\ NoDup (map snd c) /\ (forall t a, In (t, a) c -> 1 <= a <= bound /\ m a = Some t).
Lemma lru_inv_perm bound c c' m : lru_inv bound c m -> Permutation c c' -> lru_inv bound c' m.
Proof.
  intros (H1 & H2 & H3) Hp. split; [|split].
  - eapply Permutation_NoDup; [|exact H1]. apply Permutation_map. assumption.
  - eapply Permutation_NoDup; [|exact H2]. apply Permutation_map. assumption.
  - intros t a Hi. apply H3. eapply Permutation_in; [|exact Hi]. apply Permutation_sym. assumption.
Qed.
Lemma find_key_some t c e : find (key_is t) c = Some e -> exists c1 c2, c = c1 ++ (t, snd e) :: c2.
Proof.
  intros H. destruct (find_some _ _ H) as [Hi Hk]. apply bytes_eqb_spec in Hk. apply in_split in Hi as (c1 & c2 & ->). exists c1, c2.
  destruct e as [x a]. cbn in *. subst. reflexivity.
Qed.
Lemma find_key_none t c : find (key_is t) c = None -> ~ In t (map fst c).
Proof.
  intros H Hi. apply in_map_iff in Hi as (e & E & Hi). pose proof (find_none _ _ H e Hi) as Hk. unfold key_is in Hk. rewrite E, bytes_eqb_refl in Hk. discriminate.
Qed.
Lemma in_snd {A B} (l : list (A * B)) a : In a (map snd l) <-> exists t, In (t, a) l.
Proof.
  rewrite in_map_iff. split.
  - intros ([t b] & E & H). cbn in E. subst. eauto.
  - intros (t & H). exists (t, a). auto.
Qed.
(** adding a fresh topic with a fresh alias *)
Lemma lru_inv_add bound bound' c m t a : lru_inv bound c m -> ~ In t (map fst c) -> ~ In a (map snd c) -> 1 <= a <= bound' -> bound <= bound' ->
  lru_inv bound' ((t, a) :: c) (fun b => if b =? a then Some t else m b).
Proof.
  intros (H1 & H2 & H3) Ht Ha Ha1 Hb. split; [|split].
  - cbn. constructor; assumption.
  - cbn. constructor; assumption.
  - intros t' a' [[= <- <-]|Hi].
    + rewrite N.eqb_refl. split; [lia|reflexivity].
    + destruct (H3 _ _ Hi) as [H5 H6]. destruct (N.eqb_spec a' a) as [->|]; [exfalso; apply Ha; apply in_snd; eauto|]. split; [lia|assumption].
Qed.
Lemma lru_put_new max t a c : ~ In t (map fst c) -> len c < max -> lru_put max t a c = (t, a) :: c.
Proof. intros Ht Hl. unfold lru_put. rewrite lru_remove_absent by assumption. rewrite len_cons. destruct (N.ltb_spec max (1 + len c)); [lia|reflexivity]. Qed.

Definition w_inv (b : behavior) (w : world) : Prop :=
  w_max w < 65536 /\
  match w_client w with
  | ODisabled => b = BDisabled
  | OManual l => b = BManual /\ table_is l (w_max w) (w_server w)
  | OLru None mx => b = BLru /\ mx = w_max w /\ mx = 0
  | OLru (Some c) mx => b = BLru /\ mx = w_max w /\ 0 < mx /\ len c <= mx /\ lru_inv (len c) c (w_server w)
  end.
Lemma w_step_inv b w e : w_inv b w -> event_ok e -> w_inv b (fst (w_step w e)) /\ Forall (faithful b) (snd (w_step w e)).
Proof.
  intros [Hm Hw] He. destruct w as [c max m]. cbn [w_client w_max w_server] in *. destruct e as [mx|t al]; cbn [event_ok] in He.
  { cbn [w_step fst snd w_client]. split; [|constructor]. split; [exact He|]. cbn [w_client w_max w_server]. destruct c as [|l|oc omx]; cbn [out_reset].
    - assumption.
    - split; [apply Hw|apply table_reset].
    - assert (b = BLru) as -> by (destruct oc; apply Hw). destruct (N.ltb_spec 0 mx).
      + split; [reflexivity|]. split; [reflexivity|]. split; [assumption|]. rewrite len_nil. split; [lia|]. split; [constructor|]. split; [constructor|]. intros ? ? [].
      + split; [reflexivity|]. split; [reflexivity|lia]. }
  pose proof (len_pos t He) as Hlen. cbn [w_step w_client w_max w_server]. unfold out_publish. destruct c as [|l|[c|] omx]; cbn [out_resolve].
  - subst b. rewrite Hlen. cbn [N.eqb negb]. rewrite Hlen. rewrite receive_plain by assumption. cbn [fst snd]. split; [split; [assumption|reflexivity]|].
    constructor; [reflexivity|constructor].
  - destruct Hw as [-> Ht]. pose proof Ht as [Hl Hn]. destruct al as [a|].
    2:{ cbn [N.eqb negb]. rewrite Hlen, receive_plain by assumption. cbn [fst snd]. split; [split; [assumption|split; [reflexivity|assumption]]|].
        constructor; [reflexivity|constructor]. }
    destruct (N.eqb_spec a 0) as [->|Ha].
    { cbn [fst snd]. split; [split; [assumption|split; [reflexivity|assumption]]|]. constructor; [|constructor]. cbn. split; [reflexivity|]. exists 0. split; [reflexivity|lia]. }
    destruct (N.leb_spec (len l) (a - 1)).
    { cbn [fst snd]. split; [split; [assumption|split; [reflexivity|assumption]]|]. constructor; [|constructor]. cbn. split; [reflexivity|]. exists a. split; [reflexivity|lia]. }
    rewrite Hn by lia. destruct (match m a with Some t0 => bytes_eqb t0 t | None => false end) eqn:Ec.
    + destruct (m a) as [t0|] eqn:Ema; [|discriminate]. apply bytes_eqb_spec in Ec. subst t0.
      destruct (N.eqb_spec a 0); [lia|]. cbn [negb]. rewrite receive_alias by lia. cbn [fst snd].
      split; [split; [assumption|split; [reflexivity|assumption]]|]. constructor; [|constructor]. cbn. assumption.
    + destruct (N.eqb_spec a 0); [lia|]. cbn [negb]. rewrite receive_full by (assumption || lia). cbn [fst snd].
      split; [split; [assumption|split; [reflexivity|]]|].
      * cbn [w_client w_max w_server]. apply table_set; [assumption|lia].
      * constructor; [reflexivity|constructor].
  - destruct Hw as (-> & -> & Hmx & Hle & Hinv). destruct (N.eqb_spec max 0); [lia|]. unfold lru_find. destruct (find (key_is t) c) as [[t0 a]|] eqn:Ef.
    + apply find_key_some in Ef as Hs. destruct Hs as (c1 & c2 & Ec). cbn [snd] in *. subst c.
      assert (t0 = t) as -> by (destruct (find_some _ _ Ef) as [_ Hk]; apply bytes_eqb_spec in Hk; symmetry; exact Hk).
      destruct Hinv as (Hk & Hv & Hi). destruct (Hi t a ltac:(apply in_or_app; right; left; reflexivity)) as [Har Ha].
      destruct (N.eqb_spec a 0); [lia|]. cbn [negb]. rewrite receive_alias by lia. cbn [fst snd].
      split; [|constructor; [exact Ha|constructor]]. split; [assumption|]. cbn [w_client w_max w_server].
      rewrite lru_remove_mid by assumption.
      assert (Hp : Permutation (c1 ++ (t, a) :: c2) ((t, a) :: c1 ++ c2)) by (apply Permutation_sym, Permutation_middle).
      assert (El : len ((t, a) :: c1 ++ c2) = len (c1 ++ (t, a) :: c2)) by (rewrite len_cons, !len_app, len_cons; lia).
      split; [reflexivity|]. split; [reflexivity|]. split; [assumption|]. split; [rewrite El; assumption|]. rewrite El.
      eapply lru_inv_perm; [|exact Hp]. split; auto.
    + apply find_key_none in Ef. destruct (N.eqb_spec (len c) max) as [Hfull|Hfull].
      * unfold lru_use_last. destruct (rev c) as [|[t0 a] r] eqn:Er.
        { assert (c = []) as -> by (rewrite <- (rev_involutive c), Er; reflexivity). rewrite len_nil in Hfull. lia. }
        assert (Ec : c = rev r ++ [(t0, a)]) by (rewrite <- (rev_involutive c), Er; reflexivity).
        assert (Hx : lru_remove t0 ((t0, a) :: rev r) = rev r).
        { apply (lru_remove_mid [] t0 a (rev r)). cbn [app]. eapply Permutation_NoDup; [|apply (proj1 Hinv)]. rewrite Ec.
          apply Permutation_map, Permutation_sym, Permutation_cons_append. }
        rewrite Hx. destruct Hinv as (Hk & Hv & Hi). subst c.
        destruct (Hi t0 a ltac:(apply in_or_app; right; left; reflexivity)) as [Har Ha]. rewrite len_app, len_cons, len_nil in *.
        rewrite map_app in *. cbn [map fst snd] in *.
        assert (Hrev : lru_inv max (rev r) m).
        { split; [apply NoDup_remove_1 in Hk; rewrite app_nil_r in Hk; assumption|].
          split; [apply NoDup_remove_1 in Hv; rewrite app_nil_r in Hv; assumption|].
          intros t' a' Hi'. destruct (Hi t' a' ltac:(apply in_or_app; left; assumption)) as [H1 H2]. split; [lia|assumption]. }
        assert (Htr : ~ In t (map fst (rev r))) by (intros Hx'; apply Ef; apply in_or_app; left; assumption).
        rewrite lru_put_new by (assumption || lia).
        destruct (N.eqb_spec a 0); [lia|]. cbn [negb]. rewrite receive_full by (assumption || lia). cbn [fst snd].
        split; [|constructor; [reflexivity|constructor]]. split; [assumption|]. cbn [w_client w_max w_server].
        split; [reflexivity|]. split; [reflexivity|]. split; [assumption|]. rewrite len_cons. split; [lia|].
        apply lru_inv_add with (bound := max); [assumption|assumption| |lia|lia].
        apply NoDup_remove_2 in Hv. rewrite app_nil_r in Hv. assumption.
      * assert (Hid : (len c + 1) mod 65536 = len c + 1) by (apply N.mod_small; lia). rewrite Hid.
        rewrite lru_put_new by (assumption || lia).
        destruct (N.eqb_spec (len c + 1) 0); [lia|]. cbn [negb]. rewrite receive_full by (assumption || lia). cbn [fst snd].
        split; [|constructor; [reflexivity|constructor]]. split; [assumption|]. cbn [w_client w_max w_server].
        split; [reflexivity|]. split; [reflexivity|]. split; [assumption|]. rewrite len_cons. split; [lia|].
        apply lru_inv_add with (bound := len c); [assumption|assumption| |lia|lia].
        intros Hi'. apply in_snd in Hi' as (t' & Hi'). apply (proj2 (proj2 Hinv)) in Hi'. lia.
  - destruct Hw as (-> & -> & ->). cbn [N.eqb negb]. rewrite Hlen, receive_plain by assumption. cbn [fst snd].
    split; [split; [exact Hm|cbn; repeat split; reflexivity]|]. constructor; [reflexivity|constructor].
Qed.
Lemma w_init_inv b : w_inv b (w_init b).
Proof.
  split; [reflexivity|]. destruct b; cbn; auto. split; [reflexivity|]. split; [reflexivity|]. intros a Ha. lia.
Qed.
Lemma w_run_inv es : forall b w, w_inv b w -> Forall event_ok es -> w_inv b (fst (w_run w es)) /\ Forall (faithful b) (snd (w_run w es)).
Proof.
  induction es as [|e es IH]; intros b w Hw He; [split; [assumption|constructor]|]. apply Forall_cons_iff in He as [He Hes].
  cbn [w_run]. pose proof (w_step_inv b w e Hw He) as [H1 H2]. destruct (w_step w e) as [w1 r1]. cbn [fst snd] in *.
  pose proof (IH b w1 H1 Hes) as [H3 H4]. destruct (w_run w1 es) as [w2 r2]. cbn [fst snd] in *. split; [assumption|]. apply Forall_app. auto.
Qed.
Lemma outbound_faithful b es : Forall event_ok es -> Forall (faithful b) (snd (w_run (w_init b) es)).
Proof. intros H. apply (w_run_inv es b (w_init b) (w_init_inv b) H). Qed.
Lemma reports_order es : forall w, map (fun r => (r_topic r, r_alias r)) (snd (w_run w es)) =
  concat (map (fun e => match e with EPublish t a => [(t, a)] | EConnect _ => [] end) es).
Proof.
  induction es as [|e es IH]; intros w; [reflexivity|]. cbn [w_run map concat]. destruct (w_step w e) as [w1 r1] eqn:E1. specialize (IH w1).
  destruct (w_run w1 es) as [w2 r2]. cbn [snd] in *. rewrite map_app, IH. f_equal. destruct e as [mx|t a]; cbn [w_step] in E1.
  - inversion E1. reflexivity.
  - destruct (out_publish (w_client w) t a) as [c s]. destruct (match s with SSent t0 a0 => receive (w_max w) (w_server w) t0 a0 | _ => (w_server w, None) end).
    inversion E1. reflexivity.
Qed.
