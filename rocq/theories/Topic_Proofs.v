From Verif Require Import Base BaseLemmas Split Topic_Model Topic_Spec.
Ltac Zify.zify_post_hook ::= Z.div_mod_to_equations.

(** ** Code points *)
Lemma codepoint_ok_spec cp : cp <= 1114111 -> (codepoint_ok cp = true <-> ~ control_character cp /\ ~ noncharacter cp).
Proof.
  intros Hcp. unfold codepoint_ok. change 65535 with (N.ones 16). rewrite N.land_ones. change (2 ^ 16) with 65536.
  unfold control_character, noncharacter.
  destruct (N.leb_spec cp 31); [split; [discriminate|]; intros [H1 _]; exfalso; apply H1; lia|].
  destruct (N.leb_spec 127 cp), (N.leb_spec cp 159); cbn [andb]; try (split; [discriminate|intros [H1' _]; exfalso; apply H1'; lia]).
  all: destruct (N.leb_spec 65534 (cp mod 65536)); [split; [discriminate|]; intros [_ H4]; exfalso; apply H4; right; exists (cp / 65536); split; lia|].
  all: destruct (N.leb_spec 64976 cp), (N.leb_spec cp 65007); cbn [andb];
    try (split; [discriminate|intros [_ H4']; exfalso; apply H4'; lia]).
  all: (split; [intros _; split; [lia|]; intros [H6|(pl & H6 & [->| ->])]; lia|reflexivity]).
Qed.

Lemma utf8_check_inv mn cp l r : utf8_check mn cp l = Some r -> r = (cp, l) /\ mn <= cp /\ scalar cp.
Proof.
  unfold utf8_check, scalar. destruct (N.ltb_spec cp mn); [discriminate|].
  destruct (N.leb_spec 55296 cp), (N.leb_spec cp 57343); cbn [andb]; try discriminate;
  destruct (N.ltb_spec 1114111 cp); try discriminate; intros E; inversion E; subst; repeat split; lia.
Qed.
Lemma utf8_check_ok mn cp l : mn <= cp -> scalar cp -> utf8_check mn cp l = Some (cp, l).
Proof.
  unfold utf8_check, scalar. intros H1 [H2 H3]. destruct (N.ltb_spec cp mn); [lia|].
  destruct (N.leb_spec 55296 cp), (N.leb_spec cp 57343); cbn [andb]; try lia;
  destruct (N.ltb_spec 1114111 cp); try lia; reflexivity.
Qed.
Lemma cont_spec b : cont b = true <-> 128 <= b < 192.
Proof. unfold cont. destruct (N.leb_spec 128 b), (N.ltb_spec b 192); cbn; split; intros; try discriminate; try lia; reflexivity. Qed.
Lemma enc2 a b : a < 32 -> b < 64 -> 128 <= a * 64 + b -> utf8_encode (a * 64 + b) = [192 + a; 128 + b].
Proof.
  intros. unfold utf8_encode. destruct (N.ltb_spec (a * 64 + b) 128); [lia|]. destruct (N.ltb_spec (a * 64 + b) 2048); [|lia].
  repeat f_equal; lia.
Qed.
Lemma enc3 a b c : a < 16 -> b < 64 -> c < 64 -> 2048 <= (a * 64 + b) * 64 + c -> utf8_encode ((a * 64 + b) * 64 + c) = [224 + a; 128 + b; 128 + c].
Proof.
  intros. unfold utf8_encode. destruct (N.ltb_spec ((a * 64 + b) * 64 + c) 128); [lia|].
  destruct (N.ltb_spec ((a * 64 + b) * 64 + c) 2048); [lia|]. destruct (N.ltb_spec ((a * 64 + b) * 64 + c) 65536); [|lia].
  repeat f_equal; lia.
Qed.
Lemma enc4 a b c d : a < 8 -> b < 64 -> c < 64 -> d < 64 -> 65536 <= ((a * 64 + b) * 64 + c) * 64 + d ->
  utf8_encode (((a * 64 + b) * 64 + c) * 64 + d) = [240 + a; 128 + b; 128 + c; 128 + d].
Proof.
  intros. unfold utf8_encode. set (x := ((a * 64 + b) * 64 + c) * 64 + d) in *.
  destruct (N.ltb_spec x 128); [lia|]. destruct (N.ltb_spec x 2048); [lia|]. destruct (N.ltb_spec x 65536); [lia|].
  unfold x. repeat f_equal; lia.
Qed.
Lemma utf8_next_inv l cp r : utf8_next l = Some (cp, r) -> scalar cp /\ l = utf8_encode cp ++ r.
Proof.
  destruct l as [|b l]; [discriminate|]. cbn [utf8_next].
  destruct (N.ltb_spec b 128) as [Hb|Hb].
  { intros E. inversion E; subst. split; [unfold scalar; lia|]. unfold utf8_encode. destruct (N.ltb_spec cp 128); [reflexivity|lia]. }
  destruct (N.ltb_spec b 192) as [|Hb2]; [discriminate|]. destruct (N.ltb_spec b 224) as [Hb3|Hb3].
  { destruct l as [|c1 l]; [discriminate|]. destruct (cont c1) eqn:E1; [|discriminate]. apply cont_spec in E1.
    intros E. apply utf8_check_inv in E as (E & Hm & Hs). inversion E; subst. split; [assumption|]. rewrite enc2 by lia. cbn [app]. repeat f_equal; lia. }
  destruct (N.ltb_spec b 240) as [Hb4|Hb4].
  { destruct l as [|c1 [|c2 l]]; try discriminate. destruct (cont c1) eqn:E1; [|discriminate]. destruct (cont c2) eqn:E2; [|discriminate].
    apply cont_spec in E1. apply cont_spec in E2. cbn [andb].
    intros E. apply utf8_check_inv in E as (E & Hm & Hs). inversion E; subst. split; [assumption|]. rewrite enc3 by lia. cbn [app]. repeat f_equal; lia. }
  destruct (N.ltb_spec b 248) as [Hb5|Hb5]; [|discriminate].
  destruct l as [|c1 [|c2 [|c3 l]]]; try discriminate. destruct (cont c1) eqn:E1; [|discriminate]. destruct (cont c2) eqn:E2; [|discriminate].
  destruct (cont c3) eqn:E3; [|discriminate].
  apply cont_spec in E1. apply cont_spec in E2. apply cont_spec in E3. cbn [andb].
  intros E. apply utf8_check_inv in E as (E & Hm & Hs). inversion E; subst. split; [assumption|]. rewrite enc4 by lia. cbn [app]. repeat f_equal; lia.
Qed.
Ltac decide_ltb := match goal with |- context[?a <? ?b] => destruct (N.ltb_spec a b); try lia end.
Lemma utf8_next_encode cp r : scalar cp -> utf8_next (utf8_encode cp ++ r) = Some (cp, r).
Proof.
  intros Hs. assert (Hc : forall x, x < 64 -> cont (128 + x) = true) by (intros; apply cont_spec; lia).
  pose proof Hs as [Hm _]. unfold utf8_encode.
  destruct (N.ltb_spec cp 128); [cbn [app utf8_next]; decide_ltb; reflexivity|].
  destruct (N.ltb_spec cp 2048).
  { cbn [app utf8_next]. do 3 decide_ltb. rewrite Hc by lia.
    replace ((192 + cp / 64 - 192) * 64 + (128 + cp mod 64 - 128)) with cp by lia. apply utf8_check_ok; [lia|assumption]. }
  destruct (N.ltb_spec cp 65536).
  { cbn [app utf8_next]. do 4 decide_ltb. rewrite !Hc by lia. cbn [andb].
    replace (((224 + cp / 4096 - 224) * 64 + (128 + cp / 64 mod 64 - 128)) * 64 + (128 + cp mod 64 - 128)) with cp by lia.
    apply utf8_check_ok; [lia|assumption]. }
  cbn [app utf8_next]. do 5 decide_ltb. rewrite !Hc by lia. cbn [andb].
  replace ((((240 + cp / 262144 - 240) * 64 + (128 + cp / 4096 mod 64 - 128)) * 64 + (128 + cp / 64 mod 64 - 128)) * 64 + (128 + cp mod 64 - 128)) with cp by lia.
  apply utf8_check_ok; [lia|assumption].
Qed.
Lemma utf8_encode_nonempty cp : utf8_encode cp <> [].
Proof. unfold utf8_encode. repeat match goal with |- context[if ?b then _ else _] => destruct b end; discriminate. Qed.
Lemma utf8_loop_sound fuel : forall l, utf8_loop fuel l = true -> mqtt_text l.
Proof.
  induction fuel as [|fuel IH]; intros [|b l]; cbn [utf8_loop]; try discriminate; intros E.
  - exists []. split; [constructor|reflexivity].
  - exists []. split; [constructor|reflexivity].
  - destruct (utf8_next (b :: l)) as [[cp r]|] eqn:En; [|discriminate]. destruct (codepoint_ok cp) eqn:Ec; [|discriminate].
    apply utf8_next_inv in En as [Hs ->]. destruct (IH _ E) as (cps & Hf & ->). exists (cp :: cps). split; [|reflexivity].
    constructor; [|assumption]. split; [assumption|]. apply codepoint_ok_spec; [exact (proj1 Hs)|assumption].
Qed.
Lemma utf8_loop_complete cps : forall fuel, Forall text_char cps -> (length (concat (map utf8_encode cps)) <= fuel)%nat ->
  utf8_loop fuel (concat (map utf8_encode cps)) = true.
Proof.
  induction cps as [|cp cps IH]; intros fuel Hf Hl; cbn [map concat] in *; [destruct fuel; reflexivity|].
  apply Forall_cons_iff in Hf as [[Hs Hc] Hf]. pose proof (utf8_next_encode cp (concat (map utf8_encode cps)) Hs) as Hn.
  pose proof (utf8_encode_nonempty cp) as Hne. destruct (utf8_encode cp) as [|b e]; [congruence|]. cbn [app] in *.
  destruct fuel as [|fuel]; [cbn in Hl; lia|]. cbn [utf8_loop]. rewrite Hn.
  rewrite (proj2 (codepoint_ok_spec cp (proj1 Hs)) Hc). apply IH; [assumption|]. cbn [length] in Hl. rewrite app_length in Hl. lia.
Qed.
Lemma validate_utf8_spec s : validate_utf8_text s = true <-> mqtt_text s.
Proof.
  split; [apply utf8_loop_sound|]. intros (cps & Hf & ->). apply utf8_loop_complete; [assumption|]. lia.
Qed.
Lemma text_no_null s : mqtt_text s -> ~ In 0 s.
Proof.
  intros (cps & Hf & ->) Hi. apply in_concat in Hi as (e & He & Hi). apply in_map_iff in He as (cp & <- & Hc).
  rewrite Forall_forall in Hf. destruct (Hf _ Hc) as (_ & Hcc & _). unfold control_character in Hcc. revert Hi. unfold utf8_encode.
  repeat match goal with |- context[?a <? ?b] => destruct (N.ltb_spec a b) end; cbn [In]; intuition lia.
Qed.

(** ** Levels *)
Lemma has_spec c l : has c l = true <-> In c l.
Proof.
  unfold has. rewrite existsb_exists. split.
  - intros (x & Hx & E). apply N.eqb_eq in E. subst. assumption.
  - intros H. exists c. rewrite N.eqb_refl. auto.
Qed.
Lemma has_false c l : has c l = false <-> ~ In c l.
Proof. rewrite <- has_spec. destruct (has c l); split; intros; congruence. Qed.
Lemma singleton_of c (p : bytes) : In c p -> len p <= 1 -> p = [c].
Proof.
  destruct p as [|x [|y p]]; cbn [In]; [tauto| |intros; rewrite !len_cons in *; lia]. intros [->|[]] _. reflexivity.
Qed.
Lemma levels_filter parts : levels_ok true false parts = true <->
  (forall pre p post, parts = pre ++ p :: post -> (In 43 p -> p = [43]) /\ (In 35 p -> p = [35] /\ post = [])).
Proof.
  induction parts as [|p parts IH]; cbn [levels_ok].
  - split; [intros _ pre p post E; destruct pre; discriminate|reflexivity].
  - assert (Hcons : (forall pre q post, p :: parts = pre ++ q :: post -> (In 43 q -> q = [43]) /\ (In 35 q -> q = [35] /\ post = [])) <->
       ((In 43 p -> p = [43]) /\ (In 35 p -> p = [35] /\ parts = [])) /\
       (forall pre q post, parts = pre ++ q :: post -> (In 43 q -> q = [43]) /\ (In 35 q -> q = [35] /\ post = []))).
    { split.
      - intros H. split; [apply (H [] p parts eq_refl)|]. intros pre q post ->. apply (H (p :: pre) q post eq_refl).
      - intros [H1 H2] [|x pre] q post E; cbn [app] in E; inversion E; subst; [assumption|]. eapply H2; reflexivity. }
    rewrite Hcons. clear Hcons. rewrite !andb_false_r.
    destruct (N.eqb_spec (len p) 0) as [E|E].
    { assert (p = []) as -> by (destruct p; [reflexivity|rewrite len_cons in E; lia]). rewrite IH.
      split; [intros H; split; [split; intros []|assumption]|tauto]. }
    destruct (has 43 p) eqn:H43; cbn [andb].
    + destruct (N.ltb_spec 1 (len p)) as [Hl|Hl].
      { split; [discriminate|]. intros [[H1 _] _]. apply has_spec in H43. rewrite (H1 H43) in Hl. cbn in Hl. rewrite len_cons, len_nil in Hl. lia. }
      apply has_spec in H43. assert (p = [43]) as -> by (apply singleton_of; assumption).
      cbn. rewrite IH. split; [intros H; split; [split; [reflexivity|intros [[=]|[]]]|assumption]|tauto].
    + apply has_false in H43. destruct (has 35 p) eqn:H35; cbn [andb].
      * destruct (N.ltb_spec 1 (len p)) as [Hl|Hl].
        { split; [discriminate|]. intros [[_ H1] _]. apply has_spec in H35. rewrite (proj1 (H1 H35)) in Hl. rewrite len_cons, len_nil in Hl. lia. }
        apply has_spec in H35. assert (p = [35]) as -> by (apply singleton_of; assumption).
        destruct parts as [|q parts]; cbn [levels_ok].
        -- split; [intros _; split; [split; [intros [[=]|[]]|auto]|]|reflexivity]. intros pre x post E'. destruct pre; discriminate.
        -- split; [discriminate|]. intros [[_ H1] _]. destruct (H1 ltac:(left; reflexivity)) as [_ [=]].
      * apply has_false in H35. rewrite IH. split; [intros H; split; [tauto|assumption]|tauto].
Qed.
Lemma levels_topic parts : levels_ok false false parts = true <-> (forall p, In p parts -> ~ In 43 p /\ ~ In 35 p).
Proof.
  induction parts as [|p parts IH]; cbn [levels_ok In].
  - split; [intros _ p []|reflexivity].
  - destruct (N.eqb_spec (len p) 0) as [E|E].
    { assert (p = []) as -> by (destruct p; [reflexivity|rewrite len_cons in E; lia]). rewrite IH.
      split; [intros H q [<-|Hq]; [split; intros []|auto]|intros H q Hq; apply H; right; assumption]. }
    rewrite !andb_true_r. destruct (has 43 p) eqn:H43; cbn [andb].
    { split; [discriminate|]. intros H. exfalso. apply has_spec in H43. destruct (H p (or_introl eq_refl)). auto. }
    destruct (has 35 p) eqn:H35; cbn [andb].
    { split; [discriminate|]. intros H. exfalso. apply has_spec in H35. destruct (H p (or_introl eq_refl)). auto. }
    apply has_false in H43. apply has_false in H35. rewrite IH.
    split; [intros H q [<-|Hq]; auto|intros H q Hq; apply H; right; assumption].
Qed.
(** the segment around a given position *)
Lemma split_mid c a x b : x <> c ->
  split c (a ++ x :: b) = removelast (split c a) ++ (last (split c a) [] ++ x :: hd [] (split c b)) :: tl (split c b).
Proof.
  intros Hx. induction a as [|y a IH]; cbn [app].
  - cbn. destruct (N.eqb_spec x c); [congruence|]. destruct (split_cons c b) as (s & ss & ->). reflexivity.
  - cbn [split]. rewrite IH. destruct (split_cons c a) as (s & ss & E). rewrite E in *. destruct (N.eqb_spec y c).
    + reflexivity.
    + destruct ss as [|s2 ss]; reflexivity.
Qed.
Lemma last_split_nil c a : last (split c a) [] = [] <-> a = [] \/ exists a', a = a' ++ [c].
Proof.
  induction a as [|y a IH]; [split; auto|]. cbn [split]. destruct (split_cons c a) as (s & ss & E). rewrite E in *.
  destruct (N.eqb_spec y c) as [->|Hy].
  - change (last ([] :: s :: ss) []) with (last (s :: ss) []). rewrite IH. split.
    + intros [->|(a' & ->)]; right; [exists []; reflexivity|exists (c :: a'); reflexivity].
    + intros [[=]|(a' & Ea)]. destruct a' as [|z a']; cbn [app] in Ea; inversion Ea; subst; eauto.
  - destruct ss as [|s2 ss].
    + cbn [last]. split; [discriminate|]. intros [[=]|(a' & Ea)]. exfalso. destruct a' as [|z a']; cbn [app] in Ea; inversion Ea; subst; [congruence|].
      cbn [last] in IH. assert (s = []) by (apply IH; right; eauto).
      subst s. pose proof (join_split c (a' ++ [c])) as Hj. rewrite E in Hj. cbn in Hj. destruct a'; discriminate.
    + change (last ((y :: s) :: s2 :: ss) []) with (last (s2 :: ss) []). change (last (s :: s2 :: ss) []) with (last (s2 :: ss) []) in IH. rewrite IH. split.
      * intros [->|(a' & ->)]; [discriminate|]. right. exists (y :: a'). reflexivity.
      * intros [[=]|(a' & Ea)]. destruct a' as [|z a']; cbn [app] in Ea; inversion Ea; subst; [congruence|]. eauto.
Qed.
Lemma hd_split_nil c b : hd [] (split c b) = [] <-> b = [] \/ exists b', b = c :: b'.
Proof.
  destruct b as [|y b]; [split; auto|]. cbn [split]. destruct (N.eqb_spec y c) as [->|Hy].
  - cbn. split; eauto.
  - destruct (split_cons c b) as (s & ss & ->). cbn. split; [discriminate|]. intros [[=]|(b' & [= -> _])]; congruence.
Qed.
Lemma join_app c pre p post : join c (pre ++ p :: post) = concat (map (fun s => s ++ [c]) pre) ++ p ++ concat (map (fun s => c :: s) post).
Proof.
  induction pre as [|q pre IH]; cbn [app map concat].
  - revert p. induction post as [|r post IHp]; intros p; [cbn; rewrite app_nil_r; reflexivity|].
    rewrite join_cons by discriminate. rewrite IHp. reflexivity.
  - rewrite join_cons by (destruct pre; discriminate). rewrite IH. rewrite <- !app_assoc. reflexivity.
Qed.
Lemma starts_no_sep x p1 : no_sep 47 p1 -> level_starts_after (x ++ p1) -> p1 = [].
Proof.
  intros Hn Hl. destruct p1 as [|y p1]; [reflexivity|exfalso].
  destruct (@exists_last _ (y :: p1)) as (q & z & E); [discriminate|]. rewrite E in *. rewrite app_assoc in Hl. destruct Hl as [Hl|(a' & Hl)].
  - destruct (x ++ q); discriminate.
  - apply app_inj_tail in Hl as [_ ->]. apply Hn. apply in_or_app. right. left. reflexivity.
Qed.
Lemma ends_no_sep x p2 : no_sep 47 p2 -> level_ends_before (p2 ++ x) -> p2 = [].
Proof.
  intros Hn Hl. destruct p2 as [|y p2]; [reflexivity|exfalso]. destruct Hl as [Hl|(b & Hl)]; [discriminate|].
  cbn in Hl. inversion Hl; subst. apply Hn. left. reflexivity.
Qed.
Lemma levels_filter_spec t : levels_ok true false (split 47 t) = true <->
  (forall a b, t = a ++ 43 :: b -> level_starts_after a /\ level_ends_before b) /\
  (forall a b, t = a ++ 35 :: b -> level_starts_after a /\ b = []).
Proof.
  rewrite levels_filter. split.
  - intros H. split; intros a b ->.
    + pose proof (H _ _ _ (split_mid 47 a 43 b ltac:(discriminate))) as [H1 _].
      specialize (H1 ltac:(apply in_or_app; right; left; reflexivity)).
      destruct (last (split 47 a) []) as [|y l] eqn:El; cbn [app] in H1; inversion H1 as [[Hh]].
      * split; [apply (last_split_nil 47); assumption|apply (hd_split_nil 47); assumption].
      * destruct l; discriminate.
    + pose proof (H _ _ _ (split_mid 47 a 35 b ltac:(discriminate))) as [_ H1].
      destruct (H1 ltac:(apply in_or_app; right; left; reflexivity)) as [H2 H3].
      destruct (last (split 47 a) []) as [|y l] eqn:El; cbn [app] in H2; inversion H2 as [[Hh]].
      * split; [apply (last_split_nil 47); assumption|]. destruct (split_cons 47 b) as (s & ss & E). pose proof (join_split 47 b) as Hj.
        rewrite E in *. cbn in Hh, H3. subst. reflexivity.
      * destruct l; discriminate.
  - intros [H43 H35] pre p post E. pose proof (split_no_sep 47 t) as Hns. pose proof (join_split 47 t) as Hj. rewrite E in *. rewrite join_app in Hj.
    apply Forall_app in Hns as [_ Hns]. apply Forall_cons_iff in Hns as [Hp _].
    assert (Hsub : forall x q, p = x ++ q -> no_sep 47 x /\ no_sep 47 q).
    { intros x q ->. split; intros Hi; apply Hp; apply in_or_app; auto. }
    split; intros Hi.
    + apply in_split in Hi as (p1 & p2 & Ep). destruct (Hsub _ _ Ep) as [Hp1 Hp2].
      assert (no_sep 47 p2) by (intros Hi; apply Hp2; right; assumption).
      specialize (H43 (concat (map (fun s => s ++ [47]) pre) ++ p1) (p2 ++ concat (map (fun s => 47 :: s) post))).
      destruct H43 as [Ha Hb]. { rewrite <- Hj, Ep, <- !app_assoc. reflexivity. }
      apply starts_no_sep in Ha; [|assumption]. apply ends_no_sep in Hb; [|assumption]. subst. reflexivity.
    + apply in_split in Hi as (p1 & p2 & Ep). destruct (Hsub _ _ Ep) as [Hp1 Hp2].
      specialize (H35 (concat (map (fun s => s ++ [47]) pre) ++ p1) (p2 ++ concat (map (fun s => 47 :: s) post))).
      destruct H35 as [Ha Hb]. { rewrite <- Hj, Ep, <- !app_assoc. reflexivity. }
      apply starts_no_sep in Ha; [|assumption]. apply app_eq_nil in Hb as [-> Hb]. subst. split; [reflexivity|].
      destruct post; [reflexivity|discriminate].
Qed.
Lemma levels_topic_spec t : levels_ok false false (split 47 t) = true <-> ~ In 43 t /\ ~ In 35 t.
Proof.
  rewrite levels_topic. rewrite (split_in_iff 47 43 t), (split_in_iff 47 35 t) by discriminate. split.
  - intros H. split; intros (s & Hs & Hi); destruct (H _ Hs); auto.
  - intros [H1 H2] p Hp. split; intros Hi; [apply H1|apply H2]; eauto.
Qed.
Lemma valid_gen f t P : (levels_ok f false (split 47 t) = true <-> P) ->
  (is_valid_topic_gen f t = true <-> t <> [] /\ len t <= 65535 /\ mqtt_text t /\ P).
Proof.
  intros HP. unfold is_valid_topic_gen. destruct (N.eqb_spec (len t) 0) as [E|E].
  { split; [discriminate|]. intros [H _]. destruct t; [congruence|rewrite len_cons in E; lia]. }
  assert (t <> []) by (intros ->; apply E; reflexivity).
  destruct (validate_utf8_text t) eqn:Ev; cbn [negb].
  2:{ split; [discriminate|]. intros (_ & _ & H1 & _). apply validate_utf8_spec in H1. congruence. }
  apply validate_utf8_spec in Ev. destruct (has 0 t) eqn:Eh; [apply has_spec in Eh; exfalso; exact (text_no_null _ Ev Eh)|].
  destruct (N.ltb_spec 65535 (len t)); [split; [discriminate|lia]|]. rewrite HP. tauto.
Qed.
Lemma valid_topic_spec t : is_valid_topic t = true <-> topic_name t.
Proof. unfold is_valid_topic, topic_name. rewrite (valid_gen false t _ (levels_topic_spec t)). tauto. Qed.
Lemma valid_filter_spec t : is_valid_topic_filter t = true <-> topic_filter t.
Proof. unfold is_valid_topic_filter, topic_filter. rewrite (valid_gen true t _ (levels_filter_spec t)). tauto. Qed.

(** ** Shared subscriptions *)
Lemma eq_ic_spec a : forall b, eq_ignore_case a b = true <-> map lower a = map lower b.
Proof.
  induction a as [|x a IH]; intros [|y b]; cbn; try (split; intros; congruence).
  rewrite andb_true_iff, N.eqb_eq, IH. split; [intros [-> ->]; reflexivity|]. intros [= -> ->]. auto.
Qed.
Lemma share_no_slash share : map ascii_lower share = [36; 115; 104; 97; 114; 101] -> no_sep 47 share.
Proof.
  intros E Hi. apply (in_map ascii_lower) in Hi. rewrite E in Hi. change (ascii_lower 47) with 47 in Hi. cbn in Hi. intuition discriminate.
Qed.
Lemma skip_shared_yes t s g r : shared_parts t s g r -> skip_shared_prefix t = r.
Proof.
  intros (-> & Hs & Hg & Hg1 & Hg2 & Hg3). unfold skip_shared_prefix.
  rewrite (split_app_sep 47 s) by (apply share_no_slash; assumption). rewrite (split_app_sep 47 g) by assumption.
  assert (eq_ignore_case share_prefix s = true) as ->. { apply eq_ic_spec. symmetry. exact Hs. } cbn [negb].
  destruct (N.eqb_spec (len g) 0) as [E|E]; [destruct g; [congruence|rewrite len_cons in E; lia]|]. cbn [orb].
  assert (forallb (fun b => negb (b =? 43) && negb (b =? 35)) g = true) as ->.
  { apply forallb_forall. intros x Hx. destruct (N.eqb_spec x 43) as [->|]; [tauto|]. destruct (N.eqb_spec x 35) as [->|]; [tauto|]. reflexivity. }
  cbn [negb].
  assert (Hlen : len (s ++ 47 :: g ++ 47 :: r) = len s + 1 + len g + 1 + len r) by (rewrite len_app, len_cons, len_app, len_cons; lia).
  destruct (N.eqb_spec (len (s ++ 47 :: g ++ 47 :: r) - (len s + 1 + len g)) 0); [lia|].
  replace (len (s ++ 47 :: g ++ 47 :: r) - (len (s ++ 47 :: g ++ 47 :: r) - (len s + 1 + len g)) + 1) with (len (s ++ 47 :: g ++ [47])).
  2:{ rewrite len_app, len_cons, len_app, len_cons, len_nil. lia. }
  replace (s ++ 47 :: g ++ 47 :: r) with ((s ++ 47 :: g ++ [47]) ++ r) by (rewrite <- app_assoc; cbn [app]; rewrite <- app_assoc; reflexivity).
  rewrite advance_app. reflexivity.
Qed.
Lemma skip_shared_inv t : (skip_shared_prefix t = t /\ forall s g r, ~ shared_parts t s g r) \/ exists s g, shared_parts t s g (skip_shared_prefix t).
Proof.
  assert (Hdec : (exists s g r, shared_parts t s g r) \/ (forall s g r, ~ shared_parts t s g r) /\ skip_shared_prefix t = t).
  { unfold skip_shared_prefix. pose proof (join_split 47 t) as Hj. pose proof (split_no_sep 47 t) as Hns.
    destruct (split 47 t) as [|first rest] eqn:E; [exfalso; eapply split_nonempty; eassumption|].
    assert (Hnot : forall s g r, shared_parts t s g r -> s = first /\ exists rest', rest = g :: rest' /\ rest' <> []).
    { intros s g r (Et & Hs & Hg & Hg1 & _). rewrite Et in E. rewrite split_app_sep in E by (apply share_no_slash; assumption).
      rewrite split_app_sep in E by assumption. inversion E; subst. split; [reflexivity|]. exists (split 47 r). split; [reflexivity|apply split_nonempty]. }
    destruct (eq_ignore_case share_prefix first) eqn:E1; cbn [negb].
    2:{ right. split; [|reflexivity]. intros s g r Hp. destruct (Hnot _ _ _ Hp) as [-> _]. destruct Hp as (_ & Hs & _).
        enough (eq_ignore_case share_prefix first = true) by congruence. apply eq_ic_spec. symmetry. exact Hs. }
    destruct rest as [|second rest'].
    { right. split; [|reflexivity]. intros s g r Hp. destruct (Hnot _ _ _ Hp) as [_ (? & [=] & _)]. }
    destruct (N.eqb_spec (len second) 0) as [E2|E2]; cbn [orb].
    { right. split; [|reflexivity]. intros s g r Hp. destruct (Hnot _ _ _ Hp) as [_ (? & [= -> ->] & _)]. destruct Hp as (_ & _ & Hg & _).
      destruct g; [congruence|rewrite len_cons in E2; lia]. }
    destruct (forallb (fun b => negb (b =? 43) && negb (b =? 35)) second) eqn:E3; cbn [negb].
    2:{ right. split; [|reflexivity]. intros s g r Hp. destruct (Hnot _ _ _ Hp) as [_ (? & [= -> ->] & _)]. destruct Hp as (_ & _ & _ & _ & Hg2 & Hg3).
        enough (forallb (fun b => negb (b =? 43) && negb (b =? 35)) g = true) by congruence. apply forallb_forall. intros y Hy.
        destruct (N.eqb_spec y 43) as [->|]; [tauto|]. destruct (N.eqb_spec y 35) as [->|]; [tauto|]. reflexivity. }
    rewrite Forall_cons_iff, Forall_cons_iff in Hns. destruct Hns as (Hn1 & Hn2 & Hn3).
    destruct rest' as [|third rest'].
    { right. cbn in Hj. assert (len t - (len first + 1 + len second) = 0) as -> by (rewrite <- Hj, len_app, len_cons; lia). split; [|reflexivity].
      intros s g r Hp. destruct (Hnot _ _ _ Hp) as [_ (? & [= -> <-] & Hx)]. congruence. }
    left. rewrite join_cons in Hj by discriminate. rewrite join_cons in Hj by discriminate.
    exists first, second, (join 47 (third :: rest')). unfold shared_parts. split; [symmetry; assumption|]. apply eq_ic_spec in E1. split; [symmetry; exact E1|].
    split; [intros ->; apply E2; reflexivity|]. split; [assumption|]. rewrite forallb_forall in E3. split; intros Hi; apply E3 in Hi; discriminate. }
  destruct Hdec as [(s & g & r & Hp)|[H1 H2]]; [|auto]. right. exists s, g. rewrite (skip_shared_yes _ _ _ _ Hp). assumption.
Qed.
Lemma shared_spec t : is_shared_subscription t = true <-> exists s g r, shared_parts t s g r /\ topic_filter r.
Proof.
  unfold is_shared_subscription. destruct (skip_shared_inv t) as [[E Hn]|(s & g & Hp)].
  - rewrite E, N.eqb_refl. split; [discriminate|]. intros (s & g & r & Hp & _). exfalso. eapply Hn; eassumption.
  - destruct (N.eqb_spec (len (skip_shared_prefix t)) (len t)) as [El|_].
    { exfalso. destruct Hp as [Et _]. assert (len t = len s + 1 + len g + 1 + len (skip_shared_prefix t)); [|lia].
      rewrite Et at 1. rewrite len_app, len_cons, len_app, len_cons. lia. }
    rewrite valid_filter_spec. split; [intros Hf; exists s, g, (skip_shared_prefix t); auto|].
    intros (s' & g' & r' & Hp' & Hf). rewrite (skip_shared_yes _ _ _ _ Hp'). assumption.
Qed.

Lemma map_lower_len a b : map ascii_lower a = b -> length a = length b.
Proof. intros <-. rewrite map_length. reflexivity. Qed.
Lemma skip_rules_yes t r : rules_parts t r -> skip_rules_prefix t = r.
Proof.
  intros (p & name & -> & Hp & Hn). pose proof (map_lower_len _ _ Hp) as Hl. unfold skip_rules_prefix.
  assert (Hl2 : len rules_prefix = len p) by (unfold len; rewrite Hl; reflexivity).
  destruct (N.ltb_spec (len (p ++ name ++ 47 :: r)) (len rules_prefix)) as [H|_]; [rewrite len_app in H; lia|].
  change (length rules_prefix) with 11%nat. change (length [36; 97; 119; 115; 47; 114; 117; 108; 101; 115; 47]) with 11%nat in Hl. rewrite <- Hl.
  rewrite firstn_app, Nat.sub_diag, firstn_all. cbn [firstn]. rewrite app_nil_r.
  assert (eq_ignore_case rules_prefix p = true) as -> by (apply eq_ic_spec; symmetry; exact Hp). cbn [negb]. rewrite Hl2, advance_app. cbn [snd].
  destruct (N.eqb_spec (len (name ++ 47 :: r)) 0) as [H|_]; [rewrite len_app, len_cons in H; lia|].
  rewrite split_app_sep by assumption. cbn [hd].
  destruct (N.ltb_spec (len (name ++ 47 :: r)) (len name + 1)) as [H|_]; [rewrite len_app, len_cons in H; lia|].
  replace (len name + 1) with (len (name ++ [47])) by (rewrite len_app, len_cons, len_nil; lia).
  replace (name ++ 47 :: r) with ((name ++ [47]) ++ r) by (rewrite <- app_assoc; reflexivity). rewrite advance_app. reflexivity.
Qed.
Lemma skip_rules_inv t : (skip_rules_prefix t = t /\ forall r, ~ rules_parts t r) \/ rules_parts t (skip_rules_prefix t).
Proof.
  assert (Hdec : (exists r, rules_parts t r) \/ (forall r, ~ rules_parts t r) /\ skip_rules_prefix t = t).
  { unfold skip_rules_prefix.
    destruct (N.ltb_spec (len t) (len rules_prefix)) as [H|Hge].
    { right. split; [|reflexivity]. intros r (p & name & -> & Hp & _). apply map_lower_len in Hp. unfold len in H. rewrite app_length, Hp in H. cbn in H. lia. }
    assert (Hlen : (11 <= length t)%nat) by (unfold len in Hge; cbn in Hge; lia).
    assert (Et : t = firstn (length rules_prefix) t ++ skipn (length rules_prefix) t) by (symmetry; apply firstn_skipn).
    assert (Hl11 : length (firstn (length rules_prefix) t) = 11%nat) by (rewrite firstn_length; cbn [length rules_prefix] in *; lia).
    assert (Hpre : forall r p name, t = p ++ name ++ 47 :: r -> map ascii_lower p = rules_prefix ->
       p = firstn (length rules_prefix) t /\ name ++ 47 :: r = skipn (length rules_prefix) t).
    { intros r p name E Hp. apply map_lower_len in Hp. rewrite E. rewrite <- Hp. rewrite firstn_app, Nat.sub_diag, firstn_all, skipn_app, Nat.sub_diag, skipn_all.
      cbn [firstn skipn app]. rewrite app_nil_r. auto. }
    set (p := firstn (length rules_prefix) t) in *. set (copy := skipn (length rules_prefix) t) in *.
    assert (Ea : snd (advance t (len rules_prefix)) = copy).
    { rewrite Et. replace (len rules_prefix) with (len p) by (unfold len; rewrite Hl11; reflexivity). rewrite advance_app. reflexivity. }
    clearbody p copy. rewrite Ea. destruct (eq_ignore_case rules_prefix p) eqn:E1; cbn [negb].
    2:{ right. split; [|reflexivity]. intros r (q & name & E & Hp & Hn). destruct (Hpre _ _ _ E Hp) as [-> _].
        enough (eq_ignore_case rules_prefix p = true) by congruence. apply eq_ic_spec. symmetry. exact Hp. }
    destruct (N.eqb_spec (len copy) 0) as [E2|E2].
    { right. split; [|reflexivity]. intros r (q & name & E & Hp & Hn). destruct (Hpre _ _ _ E Hp) as [_ Hc]. rewrite <- Hc, len_app, len_cons in E2. lia. }
    pose proof (join_split 47 copy) as Hj. pose proof (split_no_sep 47 copy) as Hns.
    destruct (split 47 copy) as [|seg rest] eqn:Es; [exfalso; eapply split_nonempty; eassumption|]. cbn [hd].
    apply Forall_cons_iff in Hns as [Hns _]. destruct rest as [|s2 rest].
    - cbn in Hj. subst seg. destruct (N.ltb_spec (len copy) (len copy + 1)); [|lia]. right. split; [|reflexivity].
      intros r (q & name & E & Hp & Hn). destruct (Hpre _ _ _ E Hp) as [_ Hc]. rewrite <- Hc, split_app_sep in Es by assumption. inversion Es.
      eapply split_nonempty; eassumption.
    - rewrite join_cons in Hj by discriminate. left. exists (join 47 (s2 :: rest)), p, seg. apply eq_ic_spec in E1.
      rewrite Hj. split; [assumption|]. split; [symmetry; exact E1|assumption]. }
  destruct Hdec as [(r & Hp)|[H1 H2]]; [|auto]. right. rewrite (skip_rules_yes _ _ Hp). assumption.
Qed.
Lemma counted_spec t r : counted t r <-> skip_uncounted_prefix t = r.
Proof.
  unfold skip_uncounted_prefix. split.
  - intros [t0 t' -> H1 H2|t0 s g r0 H1 H2|t0 r0 H1 H2|t0 s g r0 r' H1 H2].
    + destruct (skip_shared_inv t0) as [[-> _]|(s & g & H)]; [|exfalso; eapply H1; eassumption].
      destruct (skip_rules_inv t0) as [[-> _]|H]; [reflexivity|exfalso; eapply H2; eassumption].
    + rewrite (skip_shared_yes _ _ _ _ H1). destruct (skip_rules_inv r0) as [[-> _]|H]; [reflexivity|exfalso; eapply H2; eassumption].
    + destruct (skip_shared_inv t0) as [[-> _]|(s & g & H)]; [|exfalso; eapply H1; eassumption]. apply skip_rules_yes. assumption.
    + rewrite (skip_shared_yes _ _ _ _ H1). apply skip_rules_yes. assumption.
  - intros <-. destruct (skip_shared_inv t) as [[-> H1]|(s & g & H1)].
    + destruct (skip_rules_inv t) as [[E H2]|H2]; [rewrite E; apply counted_none; auto|]. apply counted_rules; assumption.
    + destruct (skip_rules_inv (skip_shared_prefix t)) as [[E H2]|H2].
      * rewrite E. eapply counted_shared; eassumption.
      * eapply counted_both; eassumption.
Qed.
Lemma segment_count_spec t : segment_count t = slashes t + 1.
Proof. unfold segment_count, slashes, len. rewrite split_length. lia. Qed.
Lemma iot_filter_spec t r : counted t r -> (is_valid_topic_filter_for_iot_core t = true <-> slashes r <= 7).
Proof. intros H. apply counted_spec in H. unfold is_valid_topic_filter_for_iot_core. rewrite H, segment_count_spec, N.leb_le. lia. Qed.
Lemma iot_topic_spec t r : counted t r -> (is_valid_topic_for_iot_core t = true <-> slashes r <= 7 /\ len r <= 256).
Proof.
  intros H. apply counted_spec in H. unfold is_valid_topic_for_iot_core. rewrite H, segment_count_spec.
  destruct (N.ltb_spec 8 (slashes r + 1)); rewrite ?N.leb_le; split; intros; try discriminate; lia.
Qed.
Lemma counted_total t : exists r, counted t r.
Proof. exists (skip_uncounted_prefix t). apply counted_spec. reflexivity. Qed.
Lemma counted_unique t : exists r, counted t r /\ forall r', counted t r' -> r' = r.
Proof. exists (skip_uncounted_prefix t). split; [apply counted_spec; reflexivity|]. intros r' H. symmetry. apply counted_spec. assumption. Qed.
Lemma codepoint_rejected_spec cp : cp <= 1114111 -> (codepoint_ok cp = false <-> control_character cp \/ noncharacter cp).
Proof.
  intros H. pose proof (codepoint_ok_spec cp H) as Hs. destruct (codepoint_ok cp).
  - split; [discriminate|]. destruct (proj1 Hs eq_refl). intros [?|?]; tauto.
  - split; [intros _|reflexivity].
    assert (Hd : control_character cp \/ ~ control_character cp) by (unfold control_character; lia).
    destruct Hd as [|Hd]; [auto|]. right.
    assert (Hn : noncharacter cp \/ ~ noncharacter cp).
    { unfold noncharacter. destruct (N.le_gt_cases 64976 cp), (N.le_gt_cases cp 65007); [auto| | |lia];
      (destruct (N.le_gt_cases 65534 (cp mod 65536)); [left; right; exists (cp / 65536); split; lia|
        right; intros [Hx|(pl & Hx & [->| ->])]; lia]). }
    destruct Hn; [assumption|]. exfalso. enough (false = true) by discriminate. apply Hs. auto.
Qed.
Lemma utf8_unique a : forall b, Forall scalar a -> Forall scalar b -> concat (map utf8_encode a) = concat (map utf8_encode b) -> a = b.
Proof.
  induction a as [|x a IH]; intros [|y b] Ha Hb E; cbn [map concat] in E.
  - reflexivity.
  - pose proof (utf8_encode_nonempty y). destruct (utf8_encode y); [congruence|discriminate].
  - pose proof (utf8_encode_nonempty x). destruct (utf8_encode x); [congruence|discriminate].
  - apply Forall_cons_iff in Ha as [Hx Ha]. apply Forall_cons_iff in Hb as [Hy Hb].
    pose proof (utf8_next_encode x (concat (map utf8_encode a)) Hx) as H1. rewrite E, utf8_next_encode in H1 by assumption.
    inversion H1 as [[E1 E2]]. subst. f_equal. apply IH; auto.
Qed.
