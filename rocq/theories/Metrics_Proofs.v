(** The user name with metrics: proofs *)
From Verif Require Import Base BaseLemmas Split Topic_Model TopicAlias_Model TopicAlias_Proofs Metrics_Model Metrics_Spec.

(** ** Reading *)
Lemma cut_param l : is_param l (cut l).
Proof.
  induction l as [|x l IH]; [split; [intros []|right; auto]|]. cbn. destruct (N.eqb_spec x 61) as [->|n].
  - split; [intros []|left; reflexivity].
  - destruct IH as [A B]. cbn. split; [intros [E|E]; [congruence|auto]|]. destruct B as [B|[B C]]; [left|right; split; [|exact C]]; cbn; [rewrite B at 1|rewrite B at 1]; reflexivity.
Qed.
Lemma param_cut l p : is_param l p -> cut l = p.
Proof.
  destruct p as [k v]. intros [A B]. cbn in A, B. revert l B. induction k as [|x k IH]; intros l B.
  - destruct B as [->|[-> ->]]; reflexivity.
  - assert (n : x <> 61) by (intro; apply A; left; auto). apply N.eqb_neq in n. assert (A' : ~ In 61 k) by (intro; apply A; right; auto). destruct B as [->|[-> E]]; cbn; rewrite n; [rewrite (IH A' (k ++ 61 :: v)) by auto|rewrite (IH A' k) by (right; auto)]; reflexivity.
Qed.
Lemma parse_segments segs : flat_map (fun s : bytes => match s with [] => [] | _ => [cut s] end) segs = map cut (filter (fun s => match s with [] => false | _ => true end) segs).
Proof. induction segs as [|[|x s] l IH]; cbn; [reflexivity|exact IH|rewrite IH; reflexivity]. Qed.
Lemma parse_reads c l : reads c l (parse c l).
Proof.
  exists (split c l). split; [apply split_nonempty|]. split; [symmetry; apply join_split|]. split; [apply split_no_sep|]. unfold parse. rewrite parse_segments. induction (filter _ _) as [|s m IH]; cbn; constructor; [apply cut_param|exact IH].
Qed.
Lemma reads_parse c l ps : reads c l ps -> parse c l = ps.
Proof.
  intros (segs & N & -> & F & R). unfold parse. rewrite split_join by assumption. rewrite parse_segments. induction R as [|s p m ps A R IH]; [reflexivity|]. cbn. rewrite IH, (param_cut s p A). reflexivity.
Qed.
(** how parameters are written *)
Definition show (p : bytes * bytes) : bytes := fst p ++ match snd p with [] => [] | _ => 61 :: snd p end.
Definition sound (c : N) (p : bytes * bytes) : Prop := ~ In 61 (fst p) /\ ~ In c (fst p) /\ ~ In c (snd p) /\ p <> ([], []).
Lemma show_param p : ~ In 61 (fst p) -> is_param (show p) p.
Proof. destruct p as [k [|x v]]; unfold is_param, show; cbn; intro A; (split; [exact A|]); [right; split; [apply app_nil_r|reflexivity]|left; reflexivity]. Qed.
Lemma parse_join c ps : c <> 61 -> Forall (sound c) ps -> parse c (join c (map show ps)) = ps.
Proof.
  intros C F. destruct ps as [|p ps]; [reflexivity|]. apply reads_parse. exists (map show (p :: ps)). split; [discriminate|]. split; [reflexivity|]. revert F. generalize (p :: ps) as l. clear p ps. intros l F. split.
  - induction F as [|[k v] l (A & B & D & E) F IH]; cbn; constructor; [|exact IH]. intros I. apply in_app_or in I. destruct I as [I|I]; [auto|]. cbn in I. destruct v as [|x v]; [destruct I|]. destruct I as [I|I]; [congruence|]. exact (D I).
  - induction F as [|[k v] l (A & B & D & E) F IH]; cbn [map filter]; [constructor|]. destruct (show (k, v)) as [|y s] eqn:Es; [exfalso; destruct k; [destruct v; [congruence|discriminate]|discriminate]|]. rewrite <- Es. constructor; [|exact IH]. apply show_param. exact A.
Qed.
Lemma last_mark_spec fuel l : (length l <= fuel)%nat -> forall found q found', last_mark fuel l found = (q, found') -> (found' = found /\ q = l /\ ~ In 63 l) \/ (found' = true /\ ~ In 63 q /\ exists base, l = base ++ 63 :: q).
Proof.
  assert (G : forall l, match after_mark l with None => ~ In 63 l | Some m => exists b, l = b ++ 63 :: m end).
  { clear. induction l as [|x l IH]; cbn; [auto|]. destruct (N.eqb_spec x 63) as [->|n]; [exists []; reflexivity|]. destruct (after_mark l); [destruct IH as (b & ->); exists (x :: b); reflexivity|]. intros [E|E]; auto. }
  revert l. induction fuel as [|n IH]; intros l H found q found' E; cbn in E; specialize (G l); destruct (after_mark l) as [m|].
  - destruct l; [|cbn in H; lia]. destruct G as (b & G). destruct b; discriminate.
  - injection E as <- <-. left. auto.
  - destruct G as (b & ->). right. rewrite app_length in H. cbn in H. destruct (IH m ltac:(lia) true q found' E) as [(-> & -> & K)|(-> & K & b' & ->)]; [eauto|]. split; [reflexivity|]. split; [exact K|]. exists (b ++ 63 :: b'). rewrite <- app_assoc. reflexivity.
  - injection E as <- <-. left. auto.
Qed.
Lemma user_named u : exists q, named u (user_base u) q /\ user_params u = parse 38 q.
Proof.
  unfold user_base, user_params. destruct (last_mark (length u) u false) as [q found] eqn:E. destruct (last_mark_spec _ u (le_n _) _ _ _ E) as [(-> & -> & K)|(-> & K & b & Eb)].
  - exists []. split; [right; auto|reflexivity].
  - exists q. split; [|reflexivity]. left. split; [|exact K]. rewrite Eb at 1 2. f_equal. rewrite Eb, app_length. cbn [length]. replace (length b + S (length q) - length q - 1)%nat with (length b) by lia. rewrite firstn_app, firstn_all, Nat.sub_diag. symmetry. apply app_nil_r.
Qed.
Lemma named_inj u b q b' q' : named u b q -> named u b' q' -> b = b' /\ q = q'.
Proof.
  assert (G : forall b q b' q' : bytes, b ++ 63 :: q = b' ++ 63 :: q' -> ~ In 63 q -> ~ In 63 q' -> b = b' /\ q = q').
  { clear. induction b as [|x b IH]; intros q [|y b'] q' E A B; cbn in E; injection E; intros; subst; auto.
    - exfalso. apply A. apply in_or_app. right. left. reflexivity.
    - exfalso. apply B. apply in_or_app. right. left. reflexivity.
    - destruct (IH q b' q' ltac:(assumption) A B) as [-> ->]. auto. }
  assert (M : forall b q : bytes, In 63 (b ++ 63 :: q)) by (intros; apply in_or_app; right; left; reflexivity).
  intros [(-> & A)|(A & -> & ->)] [(E & B)|(B & -> & ->)]; auto; [exfalso; apply B, M|exfalso; rewrite E in A; apply A, M].
Qed.

(** ** Writing *)
Definition fits (x : bytes) (out : option buf) : Prop := forall b, out = Some b -> len (bdata b) + len x <= bcap b.
Definition more (x : bytes) (out : option buf) : option buf := option_map (fun b => mkbuf (bcap b) (bdata b ++ x)) out.
Lemma put_ok x out : fits x out -> put x out = Ok (more x out).
Proof. destruct out as [b|]; [|reflexivity]. intro H. cbn. rewrite bwrite_ok by (apply H; reflexivity). reflexivity. Qed.
Lemma more_more x y out : more y (more x out) = more (x ++ y) out. Proof. destruct out; cbn; [rewrite app_assoc|]; reflexivity. Qed.
Lemma more_nil out : more [] out = out. Proof. destruct out as [[c d]|]; cbn; [rewrite app_nil_r|]; reflexivity. Qed.
Lemma fits_app x y out : fits (x ++ y) out -> fits x out /\ fits y (more x out).
Proof. intros H. split; intros b E; [specialize (H b E)|destruct out as [a|]; [|discriminate]; cbn in E; injection E as <-; specialize (H a eq_refl); cbn]; unfold len in *; rewrite ?app_length in *; lia. Qed.
Definition tail (c : N) (l : list (bytes * bytes)) : bytes := flat_map (fun p => c :: show p) l.
Lemma join_tail c p l : join c (map show (p :: l)) = show p ++ tail c l.
Proof. revert p. induction l as [|q l IH]; intro p; [cbn; symmetry; apply app_nil_r|]. change (map show (p :: q :: l)) with (show p :: map show (q :: l)). rewrite join_cons by discriminate. rewrite IH. reflexivity. Qed.
Lemma len_app {A} (x y : list A) : len (x ++ y) = len x + len y. Proof. unfold len. rewrite app_length. lia. Qed.
Lemma opt_put x out : fits x out -> match x with [] => Ok out | _ => put x out end = Ok (more x out).
Proof. intro H. destruct x; [rewrite more_nil; reflexivity|]. apply put_ok, H. Qed.
Definition piece (first : bool) (c : N) (l : list (bytes * bytes)) : bytes := match l with [] => [] | p :: m => (if first then [] else [c]) ++ show p ++ tail c m end.
Lemma build_loop_ok first c l out size : fits (piece first c l) out ->
  build_loop first c l out size = Ok (more (piece first c l) out, size + len (piece first c l)).
Proof.
  revert first out size. induction l as [|[k v] l IH]; intros first out size H; [cbn [build_loop]; rewrite more_nil; f_equal; f_equal; unfold len; cbn; lia|].
  cbn [build_loop]. apply fits_app in H. destruct H as [H1 H2].
  assert (E1 : (if first then Ok out else put [c] out) = Ok (more (if first then [] else [c]) out)) by (destruct first; [rewrite more_nil; reflexivity|apply put_ok, H1]). rewrite E1. cbn [bind].
  set (out1 := more (if first then [] else [c]) out) in *. unfold show in H2. cbn [fst snd] in H2. rewrite <- app_assoc in H2. apply fits_app in H2. destruct H2 as [H2 H3]. rewrite (opt_put k out1 H2). cbn [bind]. set (out2 := more k out1) in *. apply fits_app in H3. destruct H3 as [H3 H4].
  assert (E2 : forall s2, match v with [] => Ok (out2, s2) | _ => do out3 <- put [61] out2; do out4 <- put v out3; Ok (out4, s2 + (1 + len v)) end = Ok (more (match v with [] => [] | _ => 61 :: v end) out2, s2 + len (match v with [] => [] | _ => 61 :: v end))).
  { intro s2. destruct v as [|x v]; [rewrite more_nil; f_equal; f_equal; unfold len; cbn; lia|]. change (61 :: x :: v) with ([61] ++ x :: v) in *. apply fits_app in H3. destruct H3 as [H3 H5]. rewrite (put_ok [61] out2 H3). cbn [bind]. rewrite (put_ok (x :: v) _ H5). cbn [bind]. rewrite more_more. f_equal. f_equal. rewrite len_app. unfold len at 2. cbn [length]. lia. }
  rewrite E2. cbn [bind fst snd]. set (w := match v with [] => [] | _ => 61 :: v end) in *.   assert (T : piece false c l = tail c l) by (destruct l; reflexivity). rewrite IH by (rewrite T; exact H4). rewrite T. unfold piece. f_equal. f_equal.
  - unfold out2, out1. rewrite !more_more. f_equal. unfold show. cbn [fst snd]. fold w. rewrite <- !app_assoc. reflexivity.
  - unfold show. cbn [fst snd]. fold w. rewrite !len_app. destruct first; unfold len; cbn; lia.
Qed.
Definition render (prefix suffix : bytes) (c : N) (l : list (bytes * bytes)) : bytes := match l with [] => [] | _ => prefix ++ join c (map show l) ++ suffix end.
Lemma build_ok prefix suffix c l out : fits (render prefix suffix c l) out -> build prefix suffix c l out = Ok (more (render prefix suffix c l) out, len (render prefix suffix c l)).
Proof.
  destruct l as [|p l]; [intros _; cbn; rewrite more_nil; reflexivity|]. unfold render, build. intro H. apply fits_app in H. destruct H as [H1 H]. apply fits_app in H. destruct H as [H2 H3]. rewrite (opt_put prefix out H1). cbn [bind]. rewrite join_tail in *. rewrite (build_loop_ok true c (p :: l)) by exact H2. change (piece true c (p :: l)) with (show p ++ tail c l). cbn [bind fst snd]. rewrite (opt_put suffix _ H3). cbn [bind]. rewrite !more_more. rewrite <- !app_assoc. f_equal. f_equal. rewrite !len_app. lia.
Qed.
Lemma build_none prefix suffix c l : build prefix suffix c l None = Ok (None, len (render prefix suffix c l)).
Proof. apply (build_ok prefix suffix c l None). intros b K. discriminate. Qed.
Lemma build_new prefix suffix c l : build prefix suffix c l (Some (mkbuf (len (render prefix suffix c l)) [])) = Ok (Some (mkbuf (len (render prefix suffix c l)) (render prefix suffix c l)), len (render prefix suffix c l)).
Proof. rewrite build_ok; [reflexivity|]. intros b K. injection K as <-. cbn. unfold len. cbn. lia. Qed.
Definition username (base : bytes) (l : list (bytes * bytes)) : bytes := base ++ render [63] [] 38 l.
Lemma build_username_none base l : build_username base l None = Ok (None, len (username base l)).
Proof. unfold build_username, username. cbn [put bind]. rewrite build_none. cbn [bind fst snd]. rewrite len_app. reflexivity. Qed.
Lemma build_username_new base l : build_username base l (Some (mkbuf (len (username base l)) [])) = Ok (Some (mkbuf (len (username base l)) (username base l)), len (username base l)).
Proof.
  unfold build_username, username. rewrite put_ok by (intros b K; injection K as <-; cbn; rewrite len_app; unfold len; cbn; lia). cbn [bind more option_map bcap bdata app]. rewrite build_ok by (intros b K; injection K as <-; cbn; rewrite len_app; lia). cbn [bind fst snd more option_map bcap bdata]. rewrite len_app. reflexivity.
Qed.
(** ** The whole *)
Definition old_entries (v : option (nat * bytes)) : option (list (bytes * bytes)) :=
  match v with None | Some (_, []) => Some [] | Some (_, v) => match content v with None => None | Some [] => Some [] | Some w => Some (parse 59 w) end end.
Definition metadata_params (entries params : list (bytes * bytes)) : list (bytes * bytes) :=
  match entries with
  | [] => params
  | _ => match old_entries (find_param k_metadata params) with
         | None => params
         | Some old => let p := (k_metadata, render [40] [41] 59 (merge entries old)) in match find_param k_metadata params with Some (i, _) => replace i p params | None => params ++ [p] end
         end
  end.
Lemma with_metadata_ok entries params : with_metadata entries params = Ok (metadata_params entries params).
Proof.
  unfold with_metadata, metadata_params. destruct entries as [|e entries]; [reflexivity|]. unfold old_entries. set (x := find_param k_metadata params). set (o := match x with None | Some (_, []) => _ | _ => _ end). destruct o as [old|]; [|reflexivity].
  unfold build_metadata. rewrite build_none. cbn [bind fst snd]. rewrite build_new. cbn [bind fst snd bdata]. reflexivity.
Qed.
Definition all_params (platform u : bytes) (m : metrics) : list (bytes * bytes) :=
  metadata_params (mt_entries m) (add_param k_platform platform (add_param k_sdk (library m) (user_params u))).
Lemma append_eq platform u m want : append platform u (Some m) want =
  if negb (valid_metrics m) then Failed else if max_username <? len (username (user_base u) (all_params platform u m)) then (if want then Failed else Crash)
  else Done (if want then username (user_base u) (all_params platform u m) else []) (len (username (user_base u) (all_params platform u m))).
Proof.
  unfold append. destruct (negb _); [reflexivity|]. cbv zeta. rewrite with_metadata_ok. fold (all_params platform u m). rewrite build_username_none. destruct (max_username <? _); [reflexivity|]. destruct want; [rewrite build_username_new|rewrite build_username_none]; reflexivity.
Qed.

(** ** Values *)
Definition lookup (key : bytes) (l : list (bytes * bytes)) : option bytes := option_map snd (find_param key l).
Lemma find_cons key k v l : find_param key ((k, v) :: l) = if bytes_eqb k key then Some (O, v) else match find_param key l with Some (i, w) => Some (S i, w) | None => None end.
Proof. reflexivity. Qed.
Lemma lookup_cons key k v l : lookup key ((k, v) :: l) = if bytes_eqb k key then Some v else lookup key l.
Proof. unfold lookup. rewrite find_cons. destruct (bytes_eqb k key); [reflexivity|]. destruct (find_param key l) as [[]|]; reflexivity. Qed.
Lemma lookup_value key l : value_of key l (lookup key l).
Proof.
  induction l as [|[k v] l IH]; [constructor|]. rewrite lookup_cons. destruct (bytes_eqb k key) eqn:E; [apply bytes_eqb_spec in E; subst; constructor|]. apply bytes_eqb_false in E. constructor; assumption.
Qed.
Lemma value_lookup key l o : value_of key l o -> lookup key l = o.
Proof. induction 1 as [|v l|k v l o N V IH]; [reflexivity|rewrite lookup_cons, bytes_eqb_refl; reflexivity|]. rewrite lookup_cons. apply bytes_eqb_false in N. rewrite N. exact IH. Qed.
Lemma lookup_app key l m : lookup key (l ++ m) = match lookup key l with Some v => Some v | None => lookup key m end.
Proof. induction l as [|[k v] l IH]; [reflexivity|]. cbn [app]. rewrite !lookup_cons. destruct (bytes_eqb k key); [reflexivity|exact IH]. Qed.
Lemma lookup_add key k v l : lookup key (add_param k v l) = match lookup key l with Some w => Some w | None => if bytes_eqb k key then Some v else None end.
Proof.
  unfold add_param. destruct (find_param k l) as [[i w]|] eqn:E.
  - destruct (lookup key l) eqn:L; [reflexivity|]. destruct (bytes_eqb k key) eqn:B; [|reflexivity]. apply bytes_eqb_spec in B. subst key. unfold lookup in L. rewrite E in L. discriminate.
  - rewrite lookup_app, lookup_cons. reflexivity.
Qed.
Lemma lookup_merge key es : forall l, lookup key (merge es l) = match lookup key l with Some v => Some v | None => lookup key es end.
Proof.
  unfold merge. induction es as [|[k v] es IH]; intro l; cbn [fold_left fst snd]; [destruct (lookup key l); reflexivity|]. rewrite IH, lookup_add, lookup_cons. destruct (lookup key l); [reflexivity|]. destruct (bytes_eqb k key); reflexivity.
Qed.
Lemma lookup_replace key k v l : forall i w, find_param k l = Some (i, w) -> lookup key (replace i (k, v) l) = if bytes_eqb k key then Some v else lookup key l.
Proof.
  induction l as [|[k1 v1] l IH]; intros i w E; [discriminate|]. rewrite find_cons in E. destruct (bytes_eqb k1 k) eqn:B.
  - injection E as <- <-. apply bytes_eqb_spec in B. subst k1. cbn [replace]. rewrite !lookup_cons. destruct (bytes_eqb k key); reflexivity.
  - destruct (find_param k l) as [[j w']|] eqn:F; [|discriminate]. injection E as <- <-. cbn [replace]. rewrite !lookup_cons, (IH j w' eq_refl). destruct (bytes_eqb k1 key) eqn:B1; [|reflexivity]. destruct (bytes_eqb k key) eqn:B2; [|reflexivity]. apply bytes_eqb_spec in B1, B2. subst. rewrite bytes_eqb_refl in B. discriminate.
Qed.
(** ** Which keys, in which order *)
Lemma add_keys k v l : exists added, map fst (add_param k v l) = map fst l ++ added /\ incl added [k].
Proof. unfold add_param. destruct (find_param k l); [exists []; rewrite app_nil_r; split; [reflexivity|intros x []]|]. exists [k]. rewrite map_app. split; [reflexivity|apply incl_refl]. Qed.
Lemma replace_keys k v l : forall i w, find_param k l = Some (i, w) -> map fst (replace i (k, v) l) = map fst l.
Proof.
  induction l as [|[k1 v1] l IH]; intros i w E; [discriminate|]. rewrite find_cons in E. destruct (bytes_eqb k1 k) eqn:B; [injection E as <- <-; apply bytes_eqb_spec in B; subst; reflexivity|]. destruct (find_param k l) as [[j w']|] eqn:F; [|discriminate]. injection E as <- <-. cbn. rewrite (IH j w' eq_refl). reflexivity.
Qed.
Lemma metadata_keys es l : exists added, map fst (metadata_params es l) = map fst l ++ added /\ incl added [k_metadata].
Proof.
  assert (Z : exists added, map fst l = map fst l ++ added /\ incl added [k_metadata]) by (exists []; rewrite app_nil_r; split; [reflexivity|intros x []]).
  unfold metadata_params. destruct es as [|e es]; [exact Z|]. destruct (old_entries _) as [old|]; [|exact Z]. cbv zeta. destruct (find_param k_metadata l) as [[i w]|] eqn:E; [rewrite (replace_keys _ _ _ _ _ E); exact Z|]. exists [k_metadata]. rewrite map_app. split; [reflexivity|apply incl_refl].
Qed.
Lemma all_keys platform u m : exists added, map fst (all_params platform u m) = map fst (user_params u) ++ added /\ incl added [k_sdk; k_platform; k_metadata].
Proof.
  unfold all_params. destruct (metadata_keys (mt_entries m) (add_param k_platform platform (add_param k_sdk (library m) (user_params u)))) as (a1 & E1 & I1).
  destruct (add_keys k_platform platform (add_param k_sdk (library m) (user_params u))) as (a2 & E2 & I2). destruct (add_keys k_sdk (library m) (user_params u)) as (a3 & E3 & I3).
  exists (a3 ++ a2 ++ a1). rewrite E1, E2, E3, <- !app_assoc. split; [reflexivity|]. intros x K. apply in_app_or in K. destruct K as [K|K]; [apply I3 in K; destruct K as [<-|[]]; cbn; auto|]. apply in_app_or in K. destruct K as [K|K]; [apply I2 in K|apply I1 in K]; destruct K as [<-|[]]; cbn; auto.
Qed.
Lemma metadata_lookup es l k : k <> k_metadata -> lookup k (metadata_params es l) = lookup k l.
Proof.
  intro N. assert (B : bytes_eqb k_metadata k = false) by (apply bytes_eqb_false; congruence). unfold metadata_params. destruct es as [|e es]; [reflexivity|]. destruct (old_entries _) as [old|]; [|reflexivity]. cbv zeta. destruct (find_param k_metadata l) as [[i w]|] eqn:E; [rewrite (lookup_replace _ _ _ _ _ _ E), B; reflexivity|]. rewrite lookup_app, lookup_cons, B. destruct (lookup k l); reflexivity.
Qed.
Lemma all_lookup platform u m k : k <> k_metadata -> lookup k (all_params platform u m) =
  match lookup k (user_params u) with Some v => Some v | None => if bytes_eqb k_sdk k then Some (library m) else if bytes_eqb k_platform k then Some platform else None end.
Proof. intro N. unfold all_params. rewrite metadata_lookup, !lookup_add by exact N. destruct (lookup k _); [reflexivity|]. destruct (bytes_eqb k_sdk k); reflexivity. Qed.
Lemma metadata_value es l : es <> [] -> lookup k_metadata (metadata_params es l) = match old_entries (find_param k_metadata l) with None => lookup k_metadata l | Some old => Some (render [40] [41] 59 (merge es old)) end.
Proof.
  intro N. unfold metadata_params. destruct es as [|e es]; [congruence|]. destruct (old_entries _) as [old|]; [|reflexivity]. cbv zeta. destruct (find_param k_metadata l) as [[i w]|] eqn:E; [rewrite (lookup_replace _ _ _ _ _ _ E), bytes_eqb_refl; reflexivity|]. rewrite lookup_app, lookup_cons, bytes_eqb_refl. unfold lookup. rewrite E. reflexivity.
Qed.

(** ** Reading back *)
(** what may be said of all parameters: it is so for those of the user and of the metrics, so for all *)
Definition avoids (special : bytes) (p : bytes * bytes) : Prop := free_of special (fst p) /\ free_of special (snd p).
Lemma free_nil l : free_of l []. Proof. intros x _ []. Qed.
Lemma free_app s l m : free_of s (l ++ m) <-> free_of s l /\ free_of s m.
Proof. unfold free_of. split; [intro H; split; intros x I K; apply (H x I), in_or_app; auto|intros [A B] x I K; apply in_app_or in K; destruct K as [K|K]; [exact (A x I K)|exact (B x I K)]]. Qed.
Lemma free_cons s c l : free_of s (c :: l) <-> ~ In c s /\ free_of s l.
Proof. unfold free_of. split; [intro H; split; [intro K; apply (H c K); left; reflexivity|intros x I K; apply (H x I); right; exact K]|intros [A B] x I [->|K]; [auto|exact (B x I K)]]. Qed.
Lemma free_cut s l : free_of s l -> avoids s (cut l).
Proof.
  intro F. destruct (cut_param l) as [_ [E|[E E2]]]; destruct (cut l) as [k v]; cbn in *; subst.
  - apply free_app in F. destruct F as [A B]. apply free_cons in B. split; [exact A|apply B].
  - split; [exact F|apply free_nil].
Qed.
Lemma free_join s c l : free_of s (join c l) -> Forall (free_of s) l.
Proof.
  induction l as [|x l IH]; [constructor|]. destruct l as [|y l]; [intro F; constructor; [exact F|constructor]|]. rewrite join_cons by discriminate. intro F. apply free_app in F. destruct F as [A B]. apply free_cons in B. constructor; [exact A|]. apply IH, B.
Qed.
Lemma join_free s c l : ~ In c s -> Forall (free_of s) l -> free_of s (join c l).
Proof.
  intros C F. induction F as [|x l A F IH]; [apply free_nil|]. destruct l as [|y l]; [exact A|]. rewrite join_cons by discriminate. apply free_app. split; [exact A|]. apply free_cons. split; [exact C|exact IH].
Qed.
Lemma free_parse s c l : free_of s l -> Forall (avoids s) (parse c l).
Proof.
  intro F. unfold parse. rewrite parse_segments. rewrite <- (join_split c l) in F. apply free_join in F. induction F as [|x m A F IH]; [constructor|]. cbn [filter]. destruct x as [|y x]; [exact IH|]. cbn [map]. constructor; [apply free_cut, A|exact IH].
Qed.
Lemma free_show s p : ~ In 61 s -> avoids s p -> free_of s (show p).
Proof. intros C [A B]. unfold show. apply free_app. split; [exact A|]. destruct (snd p) as [|x v]; [apply free_nil|]. apply free_cons. auto. Qed.
Lemma free_render s pre suf c l : free_of s pre -> free_of s suf -> ~ In c s -> ~ In 61 s -> Forall (avoids s) l -> free_of s (render pre suf c l).
Proof.
  intros A B C D F. destruct l as [|p l]; [apply free_nil|]. unfold render. apply free_app. split; [exact A|]. apply free_app. split; [|exact B]. apply join_free; [exact C|]. revert F. generalize (p :: l). clear - D. intros l F. induction F as [|q l H F IH]; [constructor|]. cbn. constructor; [apply free_show; assumption|exact IH].
Qed.
Lemma all_add P k v l : Forall P l -> P (k, v) -> Forall P (add_param k v l).
Proof. intros F H. unfold add_param. destruct (find_param k l); [exact F|]. apply Forall_app. auto. Qed.
Lemma all_merge P es : forall l, Forall P l -> Forall P es -> Forall P (merge es l).
Proof. unfold merge. induction es as [|[k v] es IH]; intros l F G; [exact F|]. cbn. apply Forall_cons_iff in G. destruct G as [G1 G2]. apply IH; [|exact G2]. apply all_add; assumption. Qed.
Lemma all_replace (P : bytes * bytes -> Prop) p l : forall i, Forall P l -> P p -> Forall P (replace i p l).
Proof. induction l as [|x l IH]; intros i F H; [destruct i; constructor|]. apply Forall_cons_iff in F. destruct F as [F1 F2]. destruct i; cbn; constructor; auto. Qed.
Lemma find_in key l i v : find_param key l = Some (i, v) -> In (key, v) l.
Proof.
  revert i. induction l as [|[k w] l IH]; intros i E; [discriminate|]. rewrite find_cons in E. destruct (bytes_eqb k key) eqn:B; [apply bytes_eqb_spec in B; injection E as <- <-; subst; left; reflexivity|]. destruct (find_param key l) as [[j x]|]; [|discriminate]. injection E as <- <-. right. eapply IH. reflexivity.
Qed.
Lemma content_spec v c : content v = Some c <-> v = 40 :: c ++ [41].
Proof.
  unfold content. split.
  - destruct ((2 <=? len v) && (hd 0 v =? 40) && (last v 0 =? 41)) eqn:B; [|discriminate]. intro E. injection E as <-. apply andb_prop in B. destruct B as [B B3]. apply andb_prop in B. destruct B as [B1 B2]. apply N.leb_le in B1. apply N.eqb_eq in B2, B3. destruct v as [|x v]; [unfold len in B1; cbn [length] in B1; lia|]. cbn in B2. subst x. cbn [tl]. f_equal.
    destruct v as [|y v]; [unfold len in B1; cbn [length] in B1; lia|]. rewrite <- B3. change (last (40 :: y :: v) 0) with (last (y :: v) 0). apply app_removelast_last. discriminate.
  - intros ->. assert (L : last (40 :: c ++ [41]) 0 = 41). { change (40 :: c ++ [41]) with ((40 :: c) ++ [41]). apply last_last. } rewrite L. cbn [hd tl]. rewrite removelast_last. unfold len. cbn [length]. rewrite app_length. cbn [length]. replace (2 <=? N.of_nat (S (length c + 1))) with true by (symmetry; apply N.leb_le; lia). reflexivity.
Qed.
Lemma old_free s w old : free_of s w -> (forall i, old_entries (Some (i, w)) = Some old -> Forall (avoids s) old).
Proof.
  intros F i. unfold old_entries. destruct w as [|x w]; [intro E; injection E as <-; constructor|]. destruct (content (x :: w)) as [c|] eqn:C; [|discriminate]. apply content_spec in C. rewrite C in F. apply free_cons in F. destruct F as [_ F]. apply free_app in F. destruct F as [F _]. destruct c as [|y c]; intro E; injection E as <-; [constructor|]. apply free_parse, F.
Qed.
Definition plain (special : bytes) (platform : bytes) (m : metrics) : Prop := free_of special platform /\ free_of special (mt_library m) /\ Forall (avoids special) (mt_entries m).
Lemma all_avoid s platform u m : (forall x, In x s -> In x [63; 38]) -> plain s platform m -> Forall (avoids s) (user_params u) -> Forall (avoids s) (all_params platform u m).
Proof.
  intros S (A & B & C) U. assert (K : forall l : bytes, ~ In 63 l -> ~ In 38 l -> free_of s l) by (intros l P Q x I J; destruct (S x I) as [<-|[<-|[]]]; auto).
  unfold all_params. set (l := add_param k_platform platform _). assert (L : Forall (avoids s) l).
  { apply all_add; [apply all_add; [exact U|]|]; split; cbn [fst snd].
    - apply K; cbn; intros H; repeat destruct H as [H|H]; try discriminate; exact H.
    - unfold library. destruct (mt_library m); [apply K; cbn; intros H; repeat destruct H as [H|H]; try discriminate; exact H|exact B].
    - apply K; cbn; intros H; repeat destruct H as [H|H]; try discriminate; exact H.
    - exact A. }
  clearbody l. unfold metadata_params. destruct (mt_entries m) as [|e es]; [exact L|]. destruct (old_entries _) as [old|] eqn:O; [|exact L]. cbv zeta.
  assert (P : avoids s (k_metadata, render [40] [41] 59 (merge (e :: es) old))).
  { split; cbn [fst snd]; [apply K; cbn; intros H; repeat destruct H as [H|H]; try discriminate; exact H|]. apply free_render; try (apply K; cbn; intros [H|[]]; discriminate).
    - intro H. destruct (S _ H) as [X|[X|[]]]; discriminate.
    - intro H. destruct (S _ H) as [X|[X|[]]]; discriminate.
    - apply all_merge; [|exact C]. destruct (find_param k_metadata l) as [[i w]|] eqn:E; [|injection O as <-; constructor]. apply (old_free s w old) with (i := i); [|exact O]. apply find_in in E. rewrite Forall_forall in L. exact (proj2 (L _ E)). }
  destruct (find_param k_metadata l) as [[i w]|]; [apply all_replace; assumption|]. apply Forall_app. auto.
Qed.
Lemma parse_keys c l : Forall (fun p => ~ In 61 (fst p)) (parse c l).
Proof. unfold parse. rewrite parse_segments. induction (filter _ _) as [|s m IH]; cbn; constructor; [apply cut_param|exact IH]. Qed.
Lemma parse_free c l : Forall (avoids [c]) (parse c l).
Proof.
  unfold parse. rewrite parse_segments. assert (F := split_no_sep c l). induction F as [|x m A F IH]; [constructor|]. cbn [filter]. destruct x as [|y x]; [exact IH|]. cbn [map]. constructor; [|exact IH]. apply free_cut. intros z [<-|[]]. exact A.
Qed.
Lemma all_params_forall (P : bytes * bytes -> Prop) platform u m : (forall k v v', P (k, v) -> k <> [] -> P (k, v')) -> Forall P (user_params u) -> (forall v, P (k_sdk, v)) -> (forall v, P (k_platform, v)) -> (forall v, P (k_metadata, v)) -> Forall P (all_params platform u m).
Proof.
  intros _ U A B C. unfold all_params. set (l := add_param k_platform platform _). assert (L : Forall P l) by (apply all_add; [apply all_add; [exact U|]|]; auto). clearbody l. unfold metadata_params. destruct (mt_entries m); [exact L|]. destruct (old_entries _); [|exact L]. cbv zeta. destruct (find_param k_metadata l) as [[i w]|]; [apply all_replace; auto|]. apply Forall_app. auto.
Qed.
Lemma free2 (x y : N) l : ~ In x l -> ~ In y l -> free_of [x; y] l. Proof. intros A B z [<-|[<-|[]]]; assumption. Qed.
Lemma sound_all platform u m : plain [63; 38] platform m -> ~ In ([], []) (user_params u) -> Forall (sound 38) (all_params platform u m) /\ Forall (avoids [63]) (all_params platform u m).
Proof.
  intros P N. destruct (user_named u) as (q & Q & E).
  assert (Fq : Forall (avoids [63; 38]) (user_params u)).
  { rewrite E. assert (F1 := parse_free 38 q). assert (F2 : Forall (avoids [63]) (parse 38 q)). { apply free_parse. intros x [<-|[]]. destruct Q as [(_ & Q)|(_ & _ & ->)]; [exact Q|intros []]. }
    rewrite Forall_forall in *. intros p I. specialize (F1 p I). specialize (F2 p I). destruct F1 as [A B], F2 as [C D]. split; apply free2; [apply C|apply A|apply D|apply B]; left; reflexivity. }
  assert (A := all_avoid [63; 38] platform u m ltac:(auto) P Fq).
  assert (K : Forall (fun p => ~ In 61 (fst p) /\ p <> ([], [])) (all_params platform u m)).
  { apply all_params_forall.
    - intros k v v' [X Y] Z. split; [exact X|]. intro W. injection W. auto.
    - rewrite E. assert (H := parse_keys 38 q). rewrite Forall_forall in *. intros p I. split; [apply H, I|]. intros ->. apply N. rewrite E. exact I.
    - intro v. split; [cbn; intros H; repeat destruct H as [H|H]; try discriminate; exact H|discriminate].
    - intro v. split; [cbn; intros H; repeat destruct H as [H|H]; try discriminate; exact H|discriminate].
    - intro v. split; [cbn; intros H; repeat destruct H as [H|H]; try discriminate; exact H|discriminate]. }
  rewrite Forall_forall in A, K. split; apply Forall_forall; intros p I; destruct (A p I) as [A1 A2], (K p I) as [K1 K2].
  - repeat split; [exact K1|apply A1|apply A2|exact K2]; cbn; auto.
  - split; intros x [<-|[]]; [apply A1|apply A2]; left; reflexivity.
Qed.
Lemma all_nonempty platform u m : all_params platform u m <> [].
Proof.
  intro E. assert (H : lookup k_sdk (all_params platform u m) = None) by (rewrite E; reflexivity). rewrite all_lookup in H by discriminate. destruct (lookup k_sdk (user_params u)); [discriminate|]. rewrite bytes_eqb_refl in H. discriminate.
Qed.
Lemma username_read platform u m : plain [63; 38] platform m -> ~ In ([], []) (user_params u) -> exists q', named (username (user_base u) (all_params platform u m)) (user_base u) q' /\ reads 38 q' (all_params platform u m).
Proof.
  intros P N. destruct (sound_all platform u m P N) as [S A]. exists (join 38 (map show (all_params platform u m))). split.
  - left. unfold username, render. assert (E := all_nonempty platform u m). destruct (all_params platform u m) as [|p l] eqn:F; [congruence|]. rewrite app_nil_r. split; [reflexivity|]. assert (G : free_of [63] (join 38 (map show (p :: l)))).
    { apply join_free; [intros [K|[]]; discriminate|]. clear - A. revert A. generalize (p :: l). clear p l. intros l A. induction A as [|x l H A IH]; [constructor|]. cbn [map]. constructor; [apply free_show; [intros [K|[]]; discriminate|exact H]|exact IH]. }
    apply G. left. reflexivity.
  - rewrite <- (parse_join 38 (all_params platform u m)) at 2; [apply parse_reads|discriminate|exact S].
Qed.
Lemma done_username platform u m out n : append platform u (Some m) true = Done out n -> valid_metrics m = true /\ out = username (user_base u) (all_params platform u m) /\ n = len out /\ len out <= 65535.
Proof. rewrite append_eq. destruct (valid_metrics m); [|discriminate]. cbn [negb]. destruct (N.ltb_spec max_username (len (username (user_base u) (all_params platform u m)))) as [L|L]; [discriminate|]. intro E. injection E as <- <-. auto. Qed.
Lemma user_read u base q ps : named u base q -> reads 38 q ps -> base = user_base u /\ ps = user_params u.
Proof. intros N R. destruct (user_named u) as (q' & N' & E). destruct (named_inj _ _ _ _ _ N N') as [-> ->]. rewrite E. split; [reflexivity|]. symmetry. apply reads_parse, R. Qed.
Lemma output_read platform u m out n base' q' ps' : plain [63; 38] platform m -> ~ In ([], []) (user_params u) -> append platform u (Some m) true = Done out n -> named out base' q' -> reads 38 q' ps' -> ps' = all_params platform u m.
Proof.
  intros P N D A R. destruct (done_username _ _ _ _ _ D) as (_ & -> & _). destruct (username_read platform u m P N) as (q & A' & R'). destruct (named_inj _ _ _ _ _ A A') as [-> ->]. rewrite <- (reads_parse _ _ _ R). apply reads_parse, R'.
Qed.

(** ** Metadata *)
Lemma old_holds x old : holds (option_map snd x) old -> old_entries x = Some old.
Proof.
  unfold holds, old_entries. intros [([E|E] & ->)|(c & E & R)]; destruct x as [[i v]|]; try discriminate; cbn in E; [reflexivity|injection E as ->; reflexivity|]. injection E as ->. rewrite (proj2 (content_spec (40 :: c ++ [41]) c) eq_refl). apply reads_parse in R. destruct c; [cbn in R; subst; reflexivity|rewrite R; reflexivity].
Qed.
Lemma old_malformed x v : option_map snd x = Some v -> v <> [] -> (forall c, v <> 40 :: c ++ [41]) -> old_entries x = None.
Proof.
  destruct x as [[i w]|]; [|discriminate]. intro E. injection E as ->. intros N H. unfold old_entries. destruct v as [|y v]; [congruence|]. destruct (content (y :: v)) as [c|] eqn:C; [|reflexivity]. apply content_spec in C. exfalso. exact (H c C).
Qed.
Lemma before_metadata platform u m : lookup k_metadata (add_param k_platform platform (add_param k_sdk (library m) (user_params u))) = lookup k_metadata (user_params u).
Proof. rewrite !lookup_add. destruct (lookup k_metadata (user_params u)); reflexivity. Qed.
Lemma merge_nonempty es l : es <> [] -> merge es l <> [].
Proof.
  destruct es as [|[k v] es]; [congruence|]. intros _ E. assert (H : lookup k (merge ((k, v) :: es) l) = None) by (rewrite E; reflexivity). rewrite lookup_merge, lookup_cons, bytes_eqb_refl in H. destruct (lookup k l); discriminate.
Qed.
Lemma metadata_read platform u m old : mt_entries m <> [] -> Forall (sound 59) (mt_entries m) -> holds (lookup k_metadata (user_params u)) old -> ~ In ([], []) old ->
  exists c, lookup k_metadata (all_params platform u m) = Some (40 :: c ++ [41]) /\ reads 59 c (merge (mt_entries m) old).
Proof.
  intros N S H O. unfold all_params. rewrite metadata_value by exact N. set (l := add_param k_platform platform _).
  assert (E : old_entries (find_param k_metadata l) = Some old) by (apply old_holds; change (holds (lookup k_metadata l) old); unfold l; rewrite before_metadata; exact H). rewrite E. exists (join 59 (map show (merge (mt_entries m) old))).
  split; [|rewrite <- (parse_join 59 (merge (mt_entries m) old)) at 2; [apply parse_reads|discriminate|]].
  - unfold render. assert (M := merge_nonempty (mt_entries m) old N). destruct (merge (mt_entries m) old); [congruence|reflexivity].
  - apply all_merge; [|exact S]. destruct H as [(_ & ->)|(c & _ & R)]; [constructor|]. rewrite <- (reads_parse _ _ _ R) in *. assert (A := parse_keys 59 c). assert (B := parse_free 59 c). rewrite Forall_forall in *. intros p I. destruct (B p I) as [B1 B2]. repeat split; [apply A, I|apply B1|apply B2|intros ->; auto]; left; reflexivity.
Qed.
Lemma metadata_kept platform u m : (mt_entries m = [] \/ exists v, lookup k_metadata (user_params u) = Some v /\ v <> [] /\ forall c, v <> 40 :: c ++ [41]) -> lookup k_metadata (all_params platform u m) = lookup k_metadata (user_params u).
Proof.
  intros H. unfold all_params. set (l := add_param k_platform platform _). assert (L : lookup k_metadata l = lookup k_metadata (user_params u)) by apply before_metadata. rewrite <- L in *. clearbody l. destruct H as [H|(v & E & N & M)]; [rewrite H; reflexivity|].
  unfold metadata_params. destruct (mt_entries m); [reflexivity|]. rewrite (old_malformed (find_param k_metadata l) v E N M). reflexivity.
Qed.

(** ** Concrete cases *)
Definition linux : bytes := [76; 105; 110; 117; 120].
(** "me?x=1&Metadata=(a=1)", library "lib" and entries a=2, b=3 *)
Definition a_user : bytes := [109; 101; 63; 120; 61; 49; 38; 77; 101; 116; 97; 100; 97; 116; 97; 61; 40; 97; 61; 49; 41].
Definition some_metrics : metrics := mkmetrics [108; 105; 98] [([97], [50]); ([98], [51])].
Lemma plain_case : plain [63; 38] linux some_metrics.
Proof. repeat split; try (intros x [<-|[<-|[]]] K; cbn in K; repeat destruct K as [K|K]; try discriminate; exact K). repeat constructor; intros x [<-|[<-|[]]] K; cbn in K; repeat destruct K as [K|K]; try discriminate; exact K. Qed.
(** a user name for which there is no room left *)
Lemma too_long platform m want n : 65535 < N.of_nat n -> valid_metrics m = true -> append platform (repeat 97 n) (Some m) want = if want then Failed else Crash.
Proof.
  intros B V. rewrite append_eq, V. cbn [negb]. assert (E : user_base (repeat 97 n) = repeat 97 n).
  { destruct (user_named (repeat 97 n)) as (q & [(E & _)|(_ & E & _)] & _); [|exact E]. exfalso. assert (I : In 63 (repeat 97 n)) by (rewrite E; apply in_or_app; right; left; reflexivity). apply repeat_spec in I. discriminate. }
  rewrite E. assert (L : 65535 < len (username (repeat 97 n) (all_params platform (repeat 97 n) m))) by (unfold username; rewrite len_app; unfold len at 1; rewrite repeat_length; lia).
  unfold max_username. apply N.ltb_lt in L. rewrite L. reflexivity.
Qed.
(** the name for a user name without a query and metrics without entries *)
Lemma base_plain u : ~ In 63 u -> user_base u = u /\ user_params u = [].
Proof.
  intro H. destruct (user_named u) as (q & N & P). destruct (named_inj _ _ _ u [] N) as [B Q]; [right; auto|]. rewrite B, P, Q. split; reflexivity.
Qed.
Lemma simple_name platform u l : ~ In 63 u -> l <> [] -> platform <> [] -> username (user_base u) (all_params platform u (mkmetrics l [])) = u ++ [63; 83; 68; 75; 61] ++ l ++ [38; 80; 108; 97; 116; 102; 111; 114; 109; 61] ++ platform.
Proof.
  intros H L P. destruct (base_plain u H) as [B Q]. unfold all_params. rewrite B, Q. destruct l as [|x l]; [congruence|]. destruct platform as [|y platform]; [congruence|]. unfold username, render, library. cbn. rewrite ?app_nil_r, <- ?app_assoc. reflexivity.
Qed.
