From Verif Require Import Base BaseLemmas Vli_Spec Vli_Lemmas Mqtt5_Views Mqtt5_Spec Mqtt5_Lemmas TopicAlias_Model Encoder5_Model Encoder5_Spec.
From Coq Require Import Permutation.
Ltac Zify.zify_post_hook ::= idtac.

(** ** Variable length integers *)
Lemma encode_loop_ok f : forall b n, len (bdata b) + len (vbytes (S f) n) <= bcap b -> n < 128 ^ N.of_nat (S f) ->
  encode_vli_loop (S f) b n = (mkbuf (bcap b) (bdata b ++ vbytes (S f) n), None).
Proof.
  induction f as [|f IH]; intros b n Hc Hn.
  - change (128 ^ N.of_nat 1) with 128 in Hn. cbn [encode_vli_loop vbytes] in *.
    rewrite (N.div_small n 128 Hn) in *. cbn [negb N.eqb] in *. unfold bwrite_u8. rewrite bwrite_ok by exact Hc. reflexivity.
  - remember (S f) as g. cbn [encode_vli_loop vbytes] in *. destruct (N.eqb_spec (n / 128) 0) as [E|E]; cbn [negb].
    + unfold bwrite_u8. rewrite bwrite_ok by exact Hc. reflexivity.
    + rewrite lor128 by (apply N.mod_lt; discriminate). unfold bwrite_u8.
      rewrite len_cons in Hc. rewrite bwrite_ok by (rewrite len_cons, len_nil; lia).
      rewrite IH; cbn [bdata bcap].
      * rewrite <- app_assoc. reflexivity.
      * rewrite len_app, len_cons, len_nil. lia.
      * replace (N.of_nat (S g)) with (1 + N.of_nat g) in Hn by lia. rewrite N.pow_add_r in Hn. change (128 ^ 1) with 128 in Hn.
        apply N.div_lt_upper_bound; [discriminate|exact Hn].
Qed.
Lemma encode_vli_ok b n : n <= max_vli -> len (bdata b) + vsize n <= bcap b ->
  encode_vli b n = (mkbuf (bcap b) (bdata b ++ vb n), None).
Proof.
  intros Hn Hc. unfold encode_vli. destruct (N.ltb_spec max_vli n); [unfold max_vli in *; lia|]. unfold max_vli in *.
  apply encode_loop_ok; [|change (128 ^ N.of_nat 5) with 34359738368; lia]. fold (vb n). rewrite vb_len by exact Hn. exact Hc.
Qed.
Lemma encode_loop_short f : forall b n, len (bdata b) <= bcap b -> bcap b < len (bdata b) + len (vbytes (S f) n) -> n < 128 ^ N.of_nat (S f) ->
  snd (encode_vli_loop (S f) b n) = Some E_SHORT_BUFFER.
Proof.
  induction f as [|f IH]; intros b n Hb Hc Hn.
  - change (128 ^ N.of_nat 1) with 128 in Hn. cbn [encode_vli_loop vbytes] in *.
    rewrite (N.div_small n 128 Hn) in *. cbn [negb N.eqb] in *. rewrite len_cons, len_nil in Hc.
    unfold bwrite_u8, bwrite. rewrite len_cons, len_nil. destruct (N.leb_spec (len (bdata b) + (1 + 0)) (bcap b)); [lia|reflexivity].
  - remember (S f) as g. cbn [encode_vli_loop vbytes] in *. unfold bwrite_u8, bwrite. rewrite len_cons, len_nil.
    destruct (N.leb_spec (len (bdata b) + (1 + 0)) (bcap b)); [|reflexivity].
    destruct (N.eqb_spec (n / 128) 0) as [E|E]; cbn [negb]; rewrite ?len_cons, ?len_nil in Hc; [lia|].
    apply IH; cbn [bdata bcap].
    + rewrite len_app, len_cons, len_nil. lia.
    + rewrite len_app, len_cons, len_nil. lia.
    + replace (N.of_nat (S g)) with (1 + N.of_nat g) in Hn by lia. rewrite N.pow_add_r in Hn. change (128 ^ 1) with 128 in Hn.
      apply N.div_lt_upper_bound; [discriminate|exact Hn].
Qed.
Lemma encode_vli_short b n : n <= max_vli -> len (bdata b) <= bcap b < len (bdata b) + vsize n -> snd (encode_vli b n) = Some E_SHORT_BUFFER.
Proof.
  intros Hn Hc. unfold encode_vli. destruct (N.ltb_spec max_vli n); [unfold max_vli in *; lia|]. unfold max_vli in *.
  apply encode_loop_short; [lia| |change (128 ^ N.of_nat 5) with 34359738368; lia]. fold (vb n). rewrite vb_len by exact Hn. lia.
Qed.
Lemma vli_size_ok n : n <= max_vli -> vli_size n = Ok (vsize n).
Proof.
  unfold vli_size, vsize. intros H. destruct (N.ltb_spec max_vli n); [lia|].
  destruct (n <? 128); [reflexivity|]. destruct (n <? 16384); [reflexivity|]. destruct (n <? 2097152); reflexivity.
Qed.
Lemma vli_size_inv n s : vli_size n = Ok s -> n <= max_vli /\ s = vsize n.
Proof.
  intros H. assert (n <= max_vli) as Hn.
  { unfold vli_size in H. destruct (N.ltb_spec max_vli n); [discriminate|assumption]. }
  rewrite (vli_size_ok n Hn) in H. injection H as <-. auto.
Qed.
Lemma vli_size_err n : max_vli < n -> vli_size n = Err E_INVALID_ARGUMENT.
Proof. intros H. unfold vli_size. destruct (N.ltb_spec max_vli n); [reflexivity|lia]. Qed.

(** ** Steps and their bytes *)
Definition sbytes (s : step) : bytes :=
  match s with SU8 n => [n] | SU16 n => be16 n | SU32 n => be32 n | SVLI n => vb n | SCURSOR c => c end.
Definition flat (l : list step) : bytes := flat_map sbytes l.
Definition step_ok (s : step) : Prop := match s with SVLI n => n <= max_vli | _ => True end.
Definition steps_ok (l : list step) : Prop := Forall step_ok l.
Lemma flat_cons s l : flat (s :: l) = sbytes s ++ flat l. Proof. reflexivity. Qed.
Lemma flat_app a b : flat (a ++ b) = flat a ++ flat b.
Proof. unfold flat. rewrite flat_map_app. reflexivity. Qed.

Lemma write_ok b x : len (bdata b) + len x <= bcap b -> write b x = mkbuf (bcap b) (bdata b ++ x).
Proof. intros H. unfold write. rewrite bwrite_ok by exact H. reflexivity. Qed.
Lemma step_spec s b : step_ok s -> len (bdata b) <= bcap b ->
  match execute_step s b with
  | (None, b') => bcap b' = bcap b /\ bdata b' = bdata b ++ sbytes s /\ len (bdata b') <= bcap b
  | (Some s', b') => bcap b' = bcap b /\ step_ok s' /\ len (bdata b') <= bcap b /\
      (exists x, bdata b' = bdata b ++ x /\ sbytes s = x ++ sbytes s') /\ bcap b < len (bdata b') + 4
  end.
Proof.
  intros Hs Hb. unfold execute_step, room. destruct s as [n|n|n|n|c]; cbn [sbytes step_ok] in *.
  - destruct (N.ltb_spec (bcap b - len (bdata b)) 1).
    + repeat split; auto; [exists []; rewrite app_nil_r; auto|lia].
    + rewrite write_ok by (rewrite len_cons, len_nil; lia). cbn [bcap bdata]. rewrite len_app, len_cons, len_nil. repeat split; lia.
  - destruct (N.ltb_spec (bcap b - len (bdata b)) 2).
    + repeat split; auto; [exists []; rewrite app_nil_r; auto|lia].
    + rewrite write_ok by (rewrite len_be16; lia). cbn [bcap bdata]. rewrite len_app, len_be16. repeat split; lia.
  - destruct (N.ltb_spec (bcap b - len (bdata b)) 4).
    + repeat split; auto; [exists []; rewrite app_nil_r; auto|lia].
    + rewrite write_ok by (rewrite len_be32; lia). cbn [bcap bdata]. rewrite len_app, len_be32. repeat split; lia.
  - destruct (N.ltb_spec (bcap b - len (bdata b)) 4).
    + repeat split; auto; [exists []; rewrite app_nil_r; auto|lia].
    + pose proof (vsize_le n). rewrite encode_vli_ok by (assumption || lia). cbn [fst bcap bdata].
      rewrite len_app, vb_len by exact Hs. repeat split; lia.
  - destruct (N.ltb_spec (bcap b - len (bdata b)) 1).
    + repeat split; auto; [exists []; rewrite app_nil_r; auto|lia].
    + destruct (advance_ok c (N.min (bcap b - len (bdata b)) (len c)) ltac:(lia)) as [Ha Hl].
      destruct (advance c (N.min (bcap b - len (bdata b)) (len c))) as [x rest]. cbn [fst snd] in *.
      rewrite write_ok by lia. cbn [bcap bdata]. assert (Hc : len c = len x + len rest) by (rewrite <- Ha; apply len_app).
      destruct (N.eqb_spec (len rest) 0) as [E|E].
      * apply len_zero_nil in E. subst rest. rewrite app_nil_r in Ha. subst x. cbn [bcap bdata]. rewrite len_app. repeat split; lia.
      * cbn [step_ok sbytes bcap bdata]. rewrite len_app. split; [reflexivity|]. split; [exact I|]. split; [lia|]. split; [exists x; auto|lia].
Qed.
Lemma encode_steps_spec l : forall b, steps_ok l -> len (bdata b) <= bcap b ->
  let '(l', b', r) := encode_steps l b in
  bcap b' = bcap b /\ len (bdata b') <= bcap b /\ steps_ok l' /\
  (exists x, bdata b' = bdata b ++ x /\ flat l = x ++ flat l') /\
  match r with ER_FINISHED => l' = [] | ER_OUT_OF_ROOM => l' <> [] /\ bcap b < len (bdata b') + 4 | ER_ERROR => False end.
Proof.
  induction l as [|s l IH]; intros b Hl Hb.
  - cbn. repeat split; auto. exists []. rewrite app_nil_r. auto.
  - inversion Hl as [|s0 l0 Hs Hl' E]; subst. cbn [encode_steps]. pose proof (step_spec s b Hs Hb) as H.
    destruct (execute_step s b) as [[s'|] b1].
    + destruct H as (H1 & H2 & H3 & (x & H4 & H5) & H6). repeat split; auto; [constructor; auto| |discriminate].
      exists x. split; [exact H4|]. rewrite !flat_cons, H5, <- app_assoc. reflexivity.
    + destruct H as (H1 & H2 & H3). specialize (IH b1 Hl' ltac:(lia)). destruct (encode_steps l b1) as [[l' b2] r].
      destruct IH as (G1 & G2 & G3 & (x & G4 & G5) & G6). rewrite H1 in *. repeat split; auto.
      exists (sbytes s ++ x). rewrite G4, H2, flat_cons, G5, !app_assoc. auto.
Qed.

Lemma buffers_spec caps : forall e, steps_ok (enc_steps e) ->
  let '(e', out, fin) := encode_to_buffers e caps in
  flat (enc_steps e) = concat out ++ flat (enc_steps e') /\ enc_resolver e' = enc_resolver e /\
  (fin = true -> enc_steps e' = []) /\ (fin = false -> len (filter (N.leb 4) caps) <= len (concat out)) /\ steps_ok (enc_steps e') /\
  Forall2 (fun x c => len x <= c) out (firstn (length out) caps).
Proof.
  induction caps as [|c caps IH]; intros e He.
  - cbn. repeat split; auto; try discriminate.
  - cbn [encode_to_buffers]. unfold encode_to_buffer.
    assert (Hl0 : len (bdata (mkbuf c [])) <= bcap (mkbuf c [])) by (cbn [bdata bcap]; rewrite len_nil; lia).
    pose proof (encode_steps_spec (enc_steps e) (mkbuf c []) He Hl0) as H.
    destruct (encode_steps (enc_steps e) (mkbuf c [])) as [[l' b'] r]. cbn [bdata bcap app] in H.
    destruct H as (H1 & H2 & H3 & (x & H5 & H6) & H7). destruct r; [| |contradiction].
    + subst l'. cbn [concat app enc_steps enc_resolver length firstn]. rewrite app_nil_r. rewrite H6, H5. repeat split; auto; [discriminate|].
      constructor; [|constructor]. rewrite <- H5. exact H2.
    + specialize (IH (mkencoder l' (enc_resolver e)) H3). destruct (encode_to_buffers (mkencoder l' (enc_resolver e)) caps) as [[e' out] fin].
      cbn [enc_steps enc_resolver] in IH. destruct IH as (G1 & G2 & G3 & G4 & G5 & G6). cbn [concat]. rewrite <- app_assoc, <- G1, H5.
      repeat split; auto.
      * intros Ef. specialize (G4 Ef). cbn [filter]. rewrite len_app. destruct (N.leb_spec 4 c); rewrite ?len_cons; rewrite <- H5; lia.
      * cbn [length firstn]. constructor; [rewrite <- H5; exact H2|exact G6].
Qed.
(** a buffer that already holds data *)
Lemma step_shift s b : forall d, let '(s1, b1) := execute_step s b in
  execute_step s (mkbuf (len d + bcap b) (d ++ bdata b)) = (s1, mkbuf (len d + bcap b) (d ++ bdata b1)).
Proof.
  intros d. unfold execute_step, room. cbn [bcap bdata]. rewrite len_app.
  replace (len d + bcap b - (len d + len (bdata b))) with (bcap b - len (bdata b)) by lia.
  assert (Hw : forall x, len (bdata b) + len x <= bcap b -> write (mkbuf (len d + bcap b) (d ++ bdata b)) x = mkbuf (len d + bcap b) (d ++ bdata (write b x))).
  { intros x Hx. rewrite (write_ok b x Hx), write_ok by (cbn [bdata bcap]; rewrite len_app; lia). cbn [bdata bcap]. rewrite app_assoc. reflexivity. }
  assert (Hn : forall x, bcap b < len (bdata b) + len x -> write (mkbuf (len d + bcap b) (d ++ bdata b)) x = mkbuf (len d + bcap b) (d ++ bdata (write b x))).
  { intros x Hx. unfold write, bwrite. cbn [bdata bcap]. rewrite len_app. destruct (N.leb_spec (len d + len (bdata b) + len x) (len d + bcap b)); [lia|].
    destruct (N.leb_spec (len (bdata b) + len x) (bcap b)); [lia|]. reflexivity. }
  assert (Ha : forall x, write (mkbuf (len d + bcap b) (d ++ bdata b)) x = mkbuf (len d + bcap b) (d ++ bdata (write b x))).
  { intros x. destruct (N.le_gt_cases (len (bdata b) + len x) (bcap b)); auto. }
  destruct s as [n|n|n|n|c].
  - destruct (bcap b - len (bdata b) <? 1); [|rewrite Ha]; reflexivity.
  - destruct (bcap b - len (bdata b) <? 2); [|rewrite Ha]; reflexivity.
  - destruct (bcap b - len (bdata b) <? 4); [|rewrite Ha]; reflexivity.
  - destruct (bcap b - len (bdata b) <? 4); [reflexivity|]. f_equal. unfold encode_vli. destruct (max_vli <? n); [reflexivity|].
    clear Hw Hn Ha. generalize 5%nat. intros f. revert b n. induction f as [|f IH]; intros b n; [reflexivity|]. cbn [encode_vli_loop].
    set (x := if negb (n / 128 =? 0) then _ else _). unfold bwrite_u8, bwrite. cbn [bdata bcap]. rewrite len_app, len_cons, len_nil.
    destruct (N.leb_spec (len (bdata b) + (1 + 0)) (bcap b)); destruct (N.leb_spec (len d + len (bdata b) + (1 + 0)) (len d + bcap b)); try lia; [|reflexivity].
    destruct (negb (n / 128 =? 0)); cbn [fst]; [|cbn [bdata]; rewrite app_assoc; reflexivity].
    specialize (IH (mkbuf (bcap b) (bdata b ++ [x])) (n / 128)). cbn [bcap bdata] in IH. rewrite <- app_assoc. exact IH.
  - destruct (bcap b - len (bdata b) <? 1); [reflexivity|]. rewrite Ha. reflexivity.
Qed.
Lemma step_cap s b : bcap (snd (execute_step s b)) = bcap b.
Proof.
  assert (Hw : forall x, bcap (write b x) = bcap b) by (intros x; unfold write, bwrite; destruct (_ <=? _); reflexivity).
  assert (Hv : forall f b n, bcap (fst (encode_vli_loop f b n)) = bcap b).
  { induction f as [|f IH]; intros b0 n; [reflexivity|]. cbn [encode_vli_loop]. unfold bwrite_u8, bwrite.
    destruct (_ <=? _); [|reflexivity]. destruct (negb _); [rewrite IH|]; reflexivity. }
  destruct s; cbn [execute_step]; try (destruct (_ <? _); [reflexivity|]; cbn [snd]); auto.
  unfold encode_vli. destruct (max_vli <? n); [reflexivity|apply Hv].
Qed.
Lemma encode_shift l : forall d b, let '(l1, b1, r) := encode_steps l b in
  encode_steps l (mkbuf (len d + bcap b) (d ++ bdata b)) = (l1, mkbuf (len d + bcap b) (d ++ bdata b1), r).
Proof.
  induction l as [|s l IH]; intros d b; [reflexivity|]. cbn [encode_steps]. pose proof (step_shift s b d) as H. pose proof (step_cap s b) as Hc.
  destruct (execute_step s b) as [[s1|] b1]; rewrite H; [reflexivity|]. cbn [snd] in Hc. rewrite <- Hc. apply IH.
Qed.

(** ** Pushing *)
Definition push_ok (p : pushed) (bs : bytes) : Prop := snd p = None /\ flat (fst p) = bs /\ steps_ok (fst p).
Lemma push_ok_seq a b x y : push_ok a x -> push_ok b y -> push_ok (a ;;; b) (x ++ y).
Proof.
  destruct a as [sa ea], b as [sb eb]. intros (H1 & H2 & H3) (G1 & G2 & G3). cbn [fst snd] in *. subst. cbn [seq].
  repeat split; cbn [fst snd]; [apply flat_app|apply Forall_app; auto].
Qed.
Lemma push_ok_nothing : push_ok nothing []. Proof. repeat split. constructor. Qed.
Lemma push_ok_u8 n : n < 256 -> push_ok (push_u8 n) [n].
Proof. intros H. unfold push_u8, u8. rewrite N.mod_small by exact H. repeat split. repeat constructor. Qed.
Lemma push_ok_u16 n : n < 65536 -> push_ok (push_u16 n) (be16 n).
Proof. intros H. unfold push_u16, u16. rewrite N.mod_small by exact H. repeat split. repeat constructor. Qed.
Lemma push_ok_u32 n : n < 4294967296 -> push_ok (push_u32 n) (be32 n).
Proof. intros H. unfold push_u32, u32. rewrite N.mod_small by exact H. repeat split. repeat constructor. Qed.
Lemma push_ok_vli n : n <= max_vli -> push_ok (push_vli (u32 n)) (vb n).
Proof.
  intros H. unfold push_vli, u32. rewrite N.mod_small by (unfold max_vli in H; lia). destruct (N.ltb_spec max_vli n); [lia|].
  repeat split; cbn [fst flat flat_map sbytes]; [apply app_nil_r|repeat constructor; assumption].
Qed.
Lemma push_ok_vli' n : n <= max_vli -> push_ok (push_vli n) (vb n).
Proof.
  intros H. unfold push_vli. destruct (N.ltb_spec max_vli n); [lia|].
  repeat split; cbn [fst flat flat_map sbytes]; [apply app_nil_r|repeat constructor; assumption].
Qed.
Lemma push_ok_cursor c : push_ok (push_cursor c) c.
Proof. repeat split; cbn [fst flat flat_map sbytes push_cursor]; [apply app_nil_r|repeat constructor]. Qed.
Lemma push_ok_prefixed c : len c < 65536 -> push_ok (push_prefixed c) (be16 (len c) ++ c).
Proof. intros H. apply push_ok_seq; [apply push_ok_u16; exact H|apply push_ok_cursor]. Qed.
(** the steps are always well-formed, also when pushing fails *)
Lemma ok_seq a b : steps_ok (fst a) -> steps_ok (fst b) -> steps_ok (fst (a ;;; b)).
Proof. destruct a as [sa [e|]], b as [sb eb]; cbn [seq fst]; intros; auto. apply Forall_app; auto. Qed.
Lemma ok_vli n : steps_ok (fst (push_vli n)).
Proof. unfold push_vli. destruct (N.ltb_spec max_vli n); repeat constructor. assumption. Qed.

(** property sections *)
Definition sect (p : pushed) (ps : list property) (n : N) : Prop := exists b, push_ok p b /\ props_wire ps b /\ len b = n /\ psum ps = n.
Lemma props_app ps qs a b : props_wire ps a -> props_wire qs b -> props_wire (ps ++ qs) (a ++ b).
Proof.
  intros H Hq. induction H as [|id k v ps x bs Hk Hv Hp IH]; [exact Hq|]. cbn [app].
  rewrite <- app_assoc. econstructor; eauto.
Qed.
Lemma sect_seq p q ps qs n m : sect p ps n -> sect q qs m -> sect (p ;;; q) (ps ++ qs) (n + m).
Proof.
  intros (a & Ha & Hp & Hn & Hsn) (b & Hb & Hq & Hm & Hsm). exists (a ++ b). split; [apply push_ok_seq; auto|]. split; [apply props_app; auto|].
  rewrite len_app, psum_app. lia.
Qed.
Lemma sect_nothing : sect nothing [] 0.
Proof. exists []. split; [apply push_ok_nothing|]. split; [constructor|split; reflexivity]. Qed.
Lemma prop_one id k v b : In (id, k) property_table -> pval_wire k v b -> props_wire [(id, v)] (id :: b).
Proof. intros Hk Hv. rewrite <- (app_nil_r b). econstructor; eauto. constructor. Qed.
Definition oprop {A} (id : N) (f : A -> pval) (o : option A) : list property := match o with Some x => [(id, f x)] | None => [] end.
Lemma sect_opt_u8 id o : id < 256 -> In (id, K8) property_table -> (forall x, o = Some x -> x < 256) ->
  sect (push_opt_u8 id o) (oprop id PV8 o) (opt_u8_len o).
Proof.
  intros Hid Ht Ho. destruct o as [x|]; [|apply sect_nothing]. cbn [push_opt_u8 oprop opt_u8_len]. specialize (Ho x eq_refl).
  exists ([id] ++ [x]). split; [apply push_ok_seq; apply push_ok_u8; assumption|]. split; [eapply prop_one; eauto; constructor; auto|split; reflexivity].
Qed.
Lemma sect_opt_u16 id o : id < 256 -> In (id, K16) property_table -> (forall x, o = Some x -> x < 65536) ->
  sect (push_opt_u16 id o) (oprop id PV16 o) (opt_u16_len o).
Proof.
  intros Hid Ht Ho. destruct o as [x|]; [|apply sect_nothing]. cbn [push_opt_u16 oprop opt_u16_len]. specialize (Ho x eq_refl).
  exists ([id] ++ be16 x). split; [apply push_ok_seq; [apply push_ok_u8|apply push_ok_u16]; assumption|].
  split; [eapply prop_one; eauto; constructor; auto|split; reflexivity].
Qed.
Lemma sect_opt_u32 id o : id < 256 -> In (id, K32) property_table -> (forall x, o = Some x -> x < 4294967296) ->
  sect (push_opt_u32 id o) (oprop id PV32 o) (opt_u32_len o).
Proof.
  intros Hid Ht Ho. destruct o as [x|]; [|apply sect_nothing]. cbn [push_opt_u32 oprop opt_u32_len]. specialize (Ho x eq_refl).
  exists ([id] ++ be32 x). split; [apply push_ok_seq; [apply push_ok_u8|apply push_ok_u32]; assumption|].
  split; [eapply prop_one; eauto; constructor; auto|split; reflexivity].
Qed.
Lemma sect_opt_cursor id o : id < 256 -> In (id, Kstr) property_table -> (forall x, o = Some x -> len x < 65536 /\ bytes_ok x) ->
  sect (push_opt_cursor id o) (oprop id PVstr o) (opt_cursor_len o).
Proof.
  intros Hid Ht Ho. destruct o as [x|]; [|apply sect_nothing]. cbn [push_opt_cursor oprop opt_cursor_len]. destruct (Ho x eq_refl) as [Hl Hx].
  exists ([id] ++ be16 (len x) ++ x). split; [apply push_ok_seq; [apply push_ok_u8; assumption|]; apply push_ok_seq; [apply push_ok_u16; assumption|apply push_ok_cursor]|].
  split; [eapply prop_one; eauto; constructor; repeat split; auto|split; [autorewrite with len; lia|cbn; lia]].
Qed.
Lemma sect_opt_vli id o : id < 256 -> In (id, Kvar) property_table -> (forall x, o = Some x -> x <= max_vli) ->
  sect (push_opt_vli id o) (oprop id PVvar o) (match o with Some x => 1 + vsize x | None => 0 end).
Proof.
  intros Hid Ht Ho. destruct o as [x|]; [|apply sect_nothing]. cbn [push_opt_vli oprop]. specialize (Ho x eq_refl).
  exists ([id] ++ vb x). split; [apply push_ok_seq; [apply push_ok_u8|apply push_ok_vli']; assumption|].
  split; [eapply prop_one; eauto; constructor; apply vb_legal; auto|].
  split; [rewrite len_app, len_cons, len_nil, vb_len by assumption; lia|cbn; lia].
Qed.
Definition uprops (l : list user_property) : list property := map (fun p => (38, PVpair p)) l.
Lemma in38 : In (38, Kpair) property_table. Proof. cbn. tauto. Qed.
Lemma user_len_cons p l : user_properties_length (p :: l) = 5 + len (fst p) + len (snd p) + user_properties_length l.
Proof. unfold user_properties_length. rewrite len_cons. cbn [fold_right]. lia. Qed.
Lemma sect_user l : Forall pair_ok l -> sect (push_user_properties l) (uprops l) (user_properties_length l).
Proof.
  induction 1 as [|p l (Hk & Hv & Hbk & Hbv) Hl IH]; [apply sect_nothing|].
  cbn [push_user_properties fold_right uprops map]. fold (push_user_properties l). fold (uprops l). rewrite user_len_cons.
  destruct IH as (b & Hb & Hp & Hn & Hsn).
  exists ([38] ++ be16 (len (fst p)) ++ fst p ++ be16 (len (snd p)) ++ snd p ++ b). split; [|split; [|split]].
  - apply push_ok_seq; [apply push_ok_u8; lia|]. apply push_ok_seq; [apply push_ok_u16; assumption|].
    apply push_ok_seq; [apply push_ok_cursor|]. apply push_ok_seq; [apply push_ok_u16; assumption|]. apply push_ok_seq; [apply push_ok_cursor|assumption].
  - destruct p as [k v]. cbn [fst snd app] in *.
    replace (38 :: _) with (38 :: ((be16 (len k) ++ k) ++ (be16 (len v) ++ v)) ++ b) by (cbn [app]; rewrite <- !app_assoc; reflexivity).
    econstructor; [exact in38| |exact Hp]. constructor; repeat split; assumption.
  - autorewrite with len. lia.
  - rewrite psum_cons, Hsn. cbn [snd pvsize]. lia.
Qed.
Definition ids_size (l : list N) : N := fold_right (fun id n => 1 + vsize id + n) 0 l.
Lemma ids_size_cons x l : ids_size (x :: l) = 1 + vsize x + ids_size l. Proof. reflexivity. Qed.
Lemma sect_ids l : Forall (fun x => x <= max_vli) l ->
  sect (push_subscription_ids l) (map (fun x => (11, PVvar x)) l) (ids_size l) /\ subscription_ids_length l = Ok (ids_size l).
Proof.
  induction 1 as [|x l Hx Hl [IH1 IH2]]; [split; [apply sect_nothing|reflexivity]|].
  cbn [push_subscription_ids fold_right map subscription_ids_length]. fold (push_subscription_ids l). rewrite ids_size_cons. split.
  - change ((11, PVvar x) :: map (fun x => (11, PVvar x)) l) with (oprop 11 PVvar (Some x) ++ map (fun x => (11, PVvar x)) l).
    apply sect_seq; [|exact IH1]. apply (sect_opt_vli 11 (Some x)); [lia|cbn; tauto|]. intros y E; inversion E; subst; assumption.
  - rewrite (vli_size_ok x Hx), IH2. reflexivity.
Qed.

(** ** Values that occur on the wire are in range *)
Lemma val_u8 ps b id o : section_wire ps b -> vals id ps = opt PV8 o -> forall x, o = Some x -> x < 256.
Proof.
  intros Hs Hv x ->. destruct (section_val _ _ id (PV8 x) Hs) as (k & y & _ & H); [rewrite Hv; left; reflexivity|]. inversion H; assumption.
Qed.
Lemma val_u16 ps b id o : section_wire ps b -> vals id ps = opt PV16 o -> forall x, o = Some x -> x < 65536.
Proof.
  intros Hs Hv x ->. destruct (section_val _ _ id (PV16 x) Hs) as (k & y & _ & H); [rewrite Hv; left; reflexivity|]. inversion H; assumption.
Qed.
Lemma val_u32 ps b id o : section_wire ps b -> vals id ps = opt PV32 o -> forall x, o = Some x -> x < 4294967296.
Proof.
  intros Hs Hv x ->. destruct (section_val _ _ id (PV32 x) Hs) as (k & y & _ & H); [rewrite Hv; left; reflexivity|]. inversion H; assumption.
Qed.
Lemma val_str ps b id o : section_wire ps b -> vals id ps = opt PVstr o -> forall x, o = Some x -> len x < 65536 /\ bytes_ok x.
Proof.
  intros Hs Hv x ->. destruct (section_val _ _ id (PVstr x) Hs) as (k & y & _ & H); [rewrite Hv; left; reflexivity|].
  inversion H as [| | | |? ? (G1 & G2 & _)|]. auto.
Qed.
Lemma val_var ps b id o : section_wire ps b -> vals id ps = opt PVvar o -> forall x, o = Some x -> x <= max_vli.
Proof.
  intros Hs Hv x ->. destruct (section_val _ _ id (PVvar x) Hs) as (k & y & _ & H); [rewrite Hv; left; reflexivity|].
  inversion H; subst. eapply vli_legal_le; eauto.
Qed.
Lemma val_vars ps b id l : section_wire ps b -> vals id ps = map PVvar l -> Forall (fun x => x <= max_vli) l.
Proof.
  intros Hs Hv. apply Forall_forall. intros x Hx. destruct (section_val _ _ id (PVvar x) Hs) as (k & y & _ & H).
  { rewrite Hv. apply in_map. exact Hx. }
  inversion H; subst. eapply vli_legal_le; eauto.
Qed.
Lemma val_user ps b l : section_wire ps b -> vals 38 ps = map PVpair l -> Forall pair_ok l.
Proof.
  intros Hs Hv. apply Forall_forall. intros x Hx. destruct (section_val _ _ 38 (PVpair x) Hs) as (k & y & _ & H).
  { rewrite Hv. apply in_map. exact Hx. }
  inversion H as [| | | | |? ? ? ? (G1 & G2 & _) (F1 & F2 & _)]; subst. repeat split; assumption.
Qed.
Lemma section_size ps b : section_wire ps b -> psum ps <= max_vli /\ vsize (psum ps) + psum ps <= len b.
Proof.
  intros (l & x & Hl & Hp & ->). pose proof (props_size _ _ Hp). pose proof (vli_legal_le _ _ Hl). pose proof (vli_legal_size _ _ Hl).
  pose proof (vsize_mono (psum ps) (len x) ltac:(assumption)). rewrite len_app. unfold max_vli. lia.
Qed.
Lemma frame_size t f b bs : frame t f b bs -> len b <= max_vli.
Proof. intros (l & Hl & _). exact (vli_legal_le _ _ Hl). Qed.

Ltac splits := repeat match goal with |- _ /\ _ => split end.

(** ** Canonical property lists *)
Lemma vals_oprop {A} i j (f : A -> pval) o : vals i (oprop j f o) = if j =? i then opt f o else [].
Proof. destruct o; cbn [oprop opt]; [rewrite vals_cons|]; destruct (j =? i); reflexivity. Qed.
Lemma vals_map {A} i j (f : A -> pval) l : vals i (map (fun x => (j, f x)) l) = if j =? i then map f l else [].
Proof.
  induction l as [|x l IH]; cbn [map]; [destruct (j =? i); reflexivity|]. rewrite vals_cons, IH. destruct (j =? i); reflexivity.
Qed.
Lemma vals_uprops i l : vals i (uprops l) = if 38 =? i then map PVpair l else [].
Proof. apply vals_map. Qed.
Lemma only_app ids a b : only ids a -> only ids b -> only ids (a ++ b).
Proof. intros. apply Forall_app; auto. Qed.
Lemma only_oprop {A} ids i (f : A -> pval) o : In i ids -> only ids (oprop i f o).
Proof. intros. destruct o; repeat constructor; assumption. Qed.
Lemma only_map {A} ids i (f : A -> pval) l : In i ids -> only ids (map (fun x => (i, f x)) l).
Proof. intros. induction l; constructor; auto. Qed.
Lemma only_uprops ids l : In 38 ids -> only ids (uprops l). Proof. apply only_map. Qed.
Lemma only_nil ids : only ids []. Proof. constructor. Qed.
Ltac only_tac := repeat apply only_app; first [apply only_oprop|apply only_uprops|apply only_map|apply only_nil]; cbn [In]; tauto.
Ltac vals_tac := rewrite ?vals_app, ?vals_oprop, ?vals_uprops, ?vals_map;
  repeat match goal with |- context [?a =? ?b] => let r := eval vm_compute in (a =? b) in change (a =? b) with r end;
  cbn iota; cbn [app]; rewrite ?app_nil_r; try reflexivity.
Lemma sect_section p ps n : sect p ps n -> n <= max_vli -> exists b, push_ok (push_vli (u32 n) ;;; p) b /\ section_wire ps b /\ len b = vsize n + n.
Proof.
  intros (b & Hb & Hp & Hn & _) Hm. exists (vb n ++ b). split; [apply push_ok_seq; [apply push_ok_vli; assumption|assumption]|]. split.
  - exists (vb n), b. rewrite Hn. split; [apply vb_legal; assumption|auto].
  - rewrite len_app, vb_len by assumption. lia.
Qed.
Lemma frame_push t f body p rl : t < 16 -> f < 16 -> push_ok p body -> len body = rl -> rl <= max_vli ->
  push_ok (push_u8 (fixed_header_byte1 t f) ;;; push_vli (u32 rl) ;;; p) ((t * 16 + f) :: vb rl ++ body) /\
  frame t f body ((t * 16 + f) :: vb rl ++ body) /\ len ((t * 16 + f) :: vb rl ++ body) = 1 + vsize rl + rl.
Proof.
  intros Ht Hf Hp Hl Hm.
  assert (E : fixed_header_byte1 t f = t * 16 + f).
  { unfold fixed_header_byte1, u8.
    pose proof (byte_sweep (fun x => N.lor (x mod 16) (N.shiftl (x / 16) 4 mod 256) mod 256 =? x) eq_refl (t * 16 + f) ltac:(lia)) as H.
    cbv beta in H. apply N.eqb_eq in H. replace ((t * 16 + f) mod 16) with f in H.
    - replace ((t * 16 + f) / 16) with t in H; [exact H|]. rewrite N.add_comm, N.div_add by discriminate. rewrite N.div_small by exact Hf. lia.
    - rewrite N.add_comm, N.mod_add by discriminate. rewrite N.mod_small by exact Hf. reflexivity. }
  rewrite E. split; [|split].
  - apply (push_ok_seq _ _ [t * 16 + f]); [apply push_ok_u8; lia|]. apply push_ok_seq; [apply push_ok_vli; assumption|exact Hp].
  - exists (vb rl). rewrite Hl. split; [apply vb_legal; assumption|reflexivity].
  - rewrite len_cons, len_app, vb_len by assumption. lia.
Qed.
Lemma seq_assoc a b c : ((a ;;; b) ;;; c) = (a ;;; b ;;; c).
Proof. destruct a as [sa [|]], b as [sb [|]], c as [sc ec]; cbn [seq]; rewrite ?app_assoc; reflexivity. Qed.

(** ** Packets *)
Lemma push_ok_fun p a b : push_ok p a -> push_ok p b -> a = b.
Proof. intros (_ & <- & _) (_ & <- & _). reflexivity. Qed.
Lemma push_eq p bs bs' : push_ok p bs -> bs = bs' -> push_ok p bs'. Proof. intros H <-. exact H. Qed.
Lemma sect_eq p ps n p' n' : sect p ps n -> p = p' -> n = n' -> sect p' ps n'. Proof. intros H <- <-. exact H. Qed.
Lemma perm_psum ids ps qs : only ids ps -> only ids qs -> Forall (fun id => vals id ps = vals id qs) ids -> psum ps = psum qs.
Proof. intros. apply psum_perm. eapply only_perm; eauto. Qed.
Lemma lor_publish (d : bool) (q : N) (r : bool) : q <= 2 ->
  u8 (if r then N.lor (N.lor (if d : bool then 8 else 0) (N.shiftl (u8 q) 1)) 1 else N.lor (if d : bool then 8 else 0) (N.shiftl (u8 q) 1)) =
  8 * b2n d + 2 * q + b2n r.
Proof.
  intros H. assert (q = 0 \/ q = 1 \/ q = 2) as [->|[->| ->]] by lia; destruct d, r; reflexivity.
Qed.
(** field ranges and lengths *)
Definition publish_pl (v : publish) : N :=
  user_properties_length (pb_user_properties v) + opt_u8_len (pb_payload_format v) + opt_u32_len (pb_message_expiry v)
            + opt_u16_len (pb_topic_alias v) + opt_cursor_len (pb_response_topic v) + opt_cursor_len (pb_correlation_data v)
            + opt_cursor_len (pb_content_type v) + ids_size (pb_subscription_identifiers v).
Definition publish_rl (v : publish) : N :=
  vsize (publish_pl v) + (2 + len (pb_topic v)) + (if negb (pb_packet_id v =? 0) then 2 else 0) + publish_pl v + len (pb_payload v).
Lemma subscriptions_wire l bl : list_wire subscription_wire l bl -> Forall subscription_ok l.
Proof. induction 1 as [|s l b bs (bt & (H1 & H2 & _) & H3 & H4 & _) _ IH]; constructor; auto. repeat split; auto. Qed.
Lemma filters_wire l bl : list_wire str_wire l bl -> Forall str_ok l.
Proof. induction 1 as [|s l b bs (H1 & H2 & _) _ IH]; constructor; auto. split; auto. Qed.
Ltac fields_tac d := unfold d; splits; first [assumption|lia|split; assumption|refine (val_u8 _ _ _ _ _ _); eassumption|refine (val_u16 _ _ _ _ _ _); eassumption|
  refine (val_u32 _ _ _ _ _ _); eassumption|refine (val_str _ _ _ _ _ _); eassumption|eapply val_vars; eassumption|eapply val_var; eassumption|eapply val_user; eassumption|
  eapply subscriptions_wire; eassumption|eapply filters_wire; eassumption].
Lemma publish_sect v : publish_fields v -> exists cs, only [1; 2; 35; 8; 9; 38; 11; 3] cs /\
  (vals 1 cs = opt PV8 (pb_payload_format v) /\ vals 2 cs = opt PV32 (pb_message_expiry v) /\
    vals 35 cs = opt PV16 (pb_topic_alias v) /\ vals 8 cs = opt PVstr (pb_response_topic v) /\
    vals 9 cs = opt PVstr (pb_correlation_data v) /\ vals 11 cs = map PVvar (pb_subscription_identifiers v) /\
    vals 3 cs = opt PVstr (pb_content_type v) /\ vals 38 cs = map PVpair (pb_user_properties v)) /\
  sect (push_opt_u8 1 (pb_payload_format v) ;;; push_opt_u32 2 (pb_message_expiry v) ;;; push_opt_u16 35 (pb_topic_alias v) ;;;
    push_opt_cursor 8 (pb_response_topic v) ;;; push_opt_cursor 9 (pb_correlation_data v) ;;;
    push_subscription_ids (pb_subscription_identifiers v) ;;; push_opt_cursor 3 (pb_content_type v) ;;;
    push_user_properties (pb_user_properties v)) cs (publish_pl v) /\ subscription_ids_length (pb_subscription_identifiers v) = Ok (ids_size (pb_subscription_identifiers v)).
Proof.
  intros (_ & _ & _ & _ & H1 & H2 & H3 & H4 & H5 & H6 & H7 & H8).
  destruct (sect_ids (pb_subscription_identifiers v) H6) as [Gids Lids].
  pose proof (sect_seq _ _ _ _ _ _ (sect_opt_u8 1 _ ltac:(lia) ltac:(cbn; tauto) H1)
    (sect_seq _ _ _ _ _ _ (sect_opt_u32 2 _ ltac:(lia) ltac:(cbn; tauto) H2)
    (sect_seq _ _ _ _ _ _ (sect_opt_u16 35 _ ltac:(lia) ltac:(cbn; tauto) H3)
    (sect_seq _ _ _ _ _ _ (sect_opt_cursor 8 _ ltac:(lia) ltac:(cbn; tauto) H4)
    (sect_seq _ _ _ _ _ _ (sect_opt_cursor 9 _ ltac:(lia) ltac:(cbn; tauto) H5)
    (sect_seq _ _ _ _ _ _ Gids
    (sect_seq _ _ _ _ _ _ (sect_opt_cursor 3 _ ltac:(lia) ltac:(cbn; tauto) H7)
       (sect_user _ H8)))))))) as G.
  eexists. split; [|split; [|split; [|exact Lids]]]; [| |eapply sect_eq; [exact G|reflexivity|unfold publish_pl; lia]].
  - only_tac.
  - splits; vals_tac.
Qed.
Lemma publish_of_wire v bs : publish_wire v bs -> publish_fields v /\ publish_rl v <= max_vli.
Proof.
  intros (ps & bp & bt & Hf & Hq & Hid & Hok & (Ht1 & Ht2 & ->) & Hs & Ho & H1 & H2 & H3 & H4 & H5 & H6 & H7 & H8).
  assert (F : publish_fields v).
  { fields_tac publish_fields. }
  split; [exact F|]. destruct (publish_sect v F) as (cs & Ocs & Vcs & (b & _ & _ & _ & Ecs) & _).
  assert (Epl : publish_pl v = psum ps).
  { rewrite <- Ecs. symmetry. apply (perm_psum [1; 2; 35; 8; 9; 38; 11; 3]); [assumption ..|].
    decompose [and] Vcs. repeat constructor; congruence. }
  destruct (section_size _ _ Hs) as [Hm Hsz]. rewrite <- Epl in Hm, Hsz.
  pose proof (frame_size _ _ _ _ Hf) as Hlen. autorewrite with len in Hlen. unfold publish_rl.
  assert (Hidl : len (if pb_qos v =? 0 then [] else be16 (pb_packet_id v)) = if negb (pb_packet_id v =? 0) then 2 else 0).
  { destruct (pb_qos v =? 0); [rewrite Hid; reflexivity|]. destruct (N.eqb_spec (pb_packet_id v) 0); [lia|reflexivity]. }
  rewrite Hidl in Hlen. lia.
Qed.
Lemma publish_lengths_eq v : publish_fields v -> publish_pl v <= max_vli -> publish_lengths v = Ok (publish_rl v, publish_pl v).
Proof.
  intros F Hm. destruct (publish_sect v F) as (cs & _ & _ & _ & Lids). unfold publish_lengths. rewrite Lids. cbn [bind].
  fold (publish_pl v). rewrite (vli_size_ok _ Hm). cbn [bind]. unfold u32. rewrite N.mod_small by (unfold max_vli in Hm; lia). reflexivity.
Qed.
Lemma publish_emit v : publish_fields v -> publish_rl v <= max_vli ->
  exists bs', push_ok (begin_publish_resolved v) bs' /\ publish_wire v bs' /\ get_encoded_size (P_PUBLISH v) = Ok (len bs') /\ len bs' = 1 + vsize (publish_rl v) + publish_rl v.
Proof.
  intros F Hrl. destruct (publish_sect v F) as (cs & Ocs & Vcs & G & _).
  assert (Hm : publish_pl v <= max_vli) by (unfold publish_rl in Hrl; lia).
  pose proof (publish_lengths_eq v F Hm) as Elen.
  destruct F as (Hq & Hid & Hok & (Ht1 & Ht2) & _).
  destruct (sect_section _ _ _ G Hm) as (b & Hb & Hsec & Hlb). set (pl := publish_pl v) in *.
  set (idb := if pb_qos v =? 0 then [] else be16 (pb_packet_id v)) in *.
  assert (Hidl : len idb = if negb (pb_packet_id v =? 0) then 2 else 0).
  { unfold idb. destruct (pb_qos v =? 0); [rewrite Hid; reflexivity|].
    destruct (N.eqb_spec (pb_packet_id v) 0); [lia|reflexivity]. }
  assert (Hidp : push_ok (if negb (pb_qos v =? 0) then push_u16 (pb_packet_id v) else nothing) idb).
  { unfold idb. destruct (pb_qos v =? 0); cbn [negb]; [apply push_ok_nothing|apply push_ok_u16; lia]. }
  assert (Hpay : push_ok (if 0 <? len (pb_payload v) then push_cursor (pb_payload v) else nothing) (pb_payload v)).
  { destruct (N.ltb_spec 0 (len (pb_payload v))); [apply push_ok_cursor|]. rewrite (len_zero_nil (pb_payload v)) by lia. apply push_ok_nothing. }
  set (body := (be16 (len (pb_topic v)) ++ pb_topic v) ++ idb ++ b ++ pb_payload v).
  assert (Hbody : len body = publish_rl v).
  { unfold body, publish_rl. fold pl. autorewrite with len. rewrite <- Hidl, Hlb. lia. }
  assert (Hfl : publish_flags v = 8 * b2n (pb_duplicate v) + 2 * pb_qos v + b2n (pb_retain v)) by (apply lor_publish; exact Hq).
  assert (Hfl16 : 8 * b2n (pb_duplicate v) + 2 * pb_qos v + b2n (pb_retain v) < 16)
    by (pose proof (b2n_le (pb_duplicate v)); pose proof (b2n_le (pb_retain v)); lia).
  assert (Hall : push_ok (push_prefixed (pb_topic v) ;;; (if negb (pb_qos v =? 0) then push_u16 (pb_packet_id v) else nothing) ;;;
     (push_vli (u32 pl) ;;; push_opt_u8 1 (pb_payload_format v) ;;; push_opt_u32 2 (pb_message_expiry v) ;;; push_opt_u16 35 (pb_topic_alias v) ;;;
    push_opt_cursor 8 (pb_response_topic v) ;;; push_opt_cursor 9 (pb_correlation_data v) ;;;
    push_subscription_ids (pb_subscription_identifiers v) ;;; push_opt_cursor 3 (pb_content_type v) ;;;
    push_user_properties (pb_user_properties v)) ;;; (if 0 <? len (pb_payload v) then push_cursor (pb_payload v) else nothing)) body).
  { apply push_ok_seq; [apply push_ok_prefixed; exact Ht1|]. apply push_ok_seq; [exact Hidp|]. apply push_ok_seq; [exact Hb|exact Hpay]. }
  destruct (frame_push 3 _ body _ (publish_rl v) ltac:(lia) Hfl16 Hall Hbody Hrl) as (Hpush & Hframe & Hl).
  eexists. split; [|split; [|split; [|exact Hl]]].
  - unfold begin_publish_resolved. rewrite Elen, Hfl. rewrite !seq_assoc in Hpush. exact Hpush.
  - exists cs, b, (be16 (len (pb_topic v)) ++ pb_topic v). split; [exact Hframe|]. split; [exact Hq|]. split; [exact Hid|]. split; [exact Hok|].
    split; [repeat split; assumption|]. split; [exact Hsec|]. split; [exact Ocs|]. exact Vcs.
  - cbn [get_encoded_size]. rewrite Elen. cbn [bind fst]. unfold packet_size. rewrite (vli_size_ok _ Hrl). cbn [bind]. f_equal. symmetry. exact Hl.
Qed.
Lemma vli_bind {B} n (f : N -> res B) : max_vli < n -> (do x <- vli_size n; f x) = Err E_INVALID_ARGUMENT.
Proof. intros H. rewrite vli_size_err by exact H. reflexivity. Qed.
Lemma push_vli_big rl r : max_vli < rl < 4294967296 -> snd (push_vli (u32 rl) ;;; r) = Some E_ENCODE_FAILURE.
Proof.
  intros H. unfold push_vli, u32. rewrite N.mod_small by lia. destruct (N.ltb_spec max_vli rl); [reflexivity|lia].
Qed.
Lemma snd_u8 n r : snd (push_u8 n ;;; r) = snd r. Proof. destruct r. reflexivity. Qed.
Lemma publish_big v : publish_fields v -> max_vli < publish_rl v < 4294967296 ->
  (exists e, snd (begin_publish_resolved v) = Some e) /\ exists e, get_encoded_size (P_PUBLISH v) = Err e.
Proof.
  intros F Hrl. unfold begin_publish_resolved, get_encoded_size. destruct (N.le_gt_cases (publish_pl v) max_vli) as [Hm|Hm].
  - rewrite (publish_lengths_eq v F Hm). rewrite snd_u8, push_vli_big by exact Hrl. cbn [bind fst]. unfold packet_size.
    rewrite vli_bind by lia. eauto.
  - destruct (publish_sect v F) as (cs & _ & _ & _ & Lids). unfold publish_lengths. rewrite Lids. cbn [bind]. fold (publish_pl v).
    rewrite vli_bind by exact Hm. cbn [snd bind]. eauto.
Qed.
Lemma section_empty : section_wire [] [0].
Proof. exists [0], []. split; [split; [apply vli_last; lia|unfold len; cbn; lia]|]. split; [constructor|reflexivity]. Qed.
Lemma tail_section (ps : list property) r tail :
  ((tail = [] /\ r = 0 /\ ps = []) \/ (tail = [r] /\ ps = []) \/ (exists bp, tail = r :: bp /\ section_wire ps bp)) ->
  exists bp, section_wire ps bp /\ (psum ps = 0 \/ 1 + len bp <= len tail).
Proof.
  intros [(_ & _ & ->)|[(_ & ->)|(bp & -> & H)]]; [exists [0]; split; [apply section_empty|left; reflexivity] ..|].
  exists bp. split; [exact H|right; rewrite len_cons; lia].
Qed.
Lemma psum_zero ps : psum ps = 0 -> ps = [].
Proof. destruct ps; [reflexivity|]. rewrite psum_cons. lia. Qed.
Definition puback_pl (v : puback) : N := user_properties_length (pa_user_properties v) + opt_cursor_len (pa_reason_string v).
Definition puback_rl (v : puback) : N :=
  if puback_pl v =? 0 then if pa_reason_code v =? 0 then 2 else 3 else vsize (puback_pl v) + 3 + puback_pl v.
Lemma puback_sect v : puback_fields v -> exists cs, only [31; 38] cs /\
  (vals 31 cs = opt PVstr (pa_reason_string v) /\ vals 38 cs = map PVpair (pa_user_properties v)) /\
  sect (push_opt_cursor 31 (pa_reason_string v) ;;; push_user_properties (pa_user_properties v)) cs (puback_pl v).
Proof.
  intros (_ & _ & H1 & H2).
  pose proof (sect_seq _ _ _ _ _ _ (sect_opt_cursor 31 _ ltac:(lia) ltac:(cbn; tauto) H1) (sect_user _ H2)) as G.
  eexists. split; [|split]; [| |eapply sect_eq; [exact G|reflexivity|unfold puback_pl; lia]]; [only_tac|splits; vals_tac].
Qed.
Lemma puback_of_wire v bs : puback_wire v bs -> puback_fields v /\ puback_rl v <= max_vli.
Proof.
  intros (ps & tail & Hf & Hi & Hr & Ht & Ho & H1 & H2).
  destruct (tail_section _ _ _ Ht) as (bp & Hs & Hbd).
  assert (F : puback_fields v) by fields_tac puback_fields.
  split; [exact F|]. destruct (puback_sect v F) as (cs & Ocs & Vcs & (b & _ & _ & _ & Ecs)).
  assert (Epl : puback_pl v = psum ps).
  { rewrite <- Ecs. symmetry. apply (perm_psum [31; 38]); [assumption ..|]. decompose [and] Vcs. repeat constructor; congruence. }
  destruct (section_size _ _ Hs) as [Hm Hsz]. rewrite <- Epl in Hm, Hsz, Hbd.
  pose proof (frame_size _ _ _ _ Hf) as Hlen. autorewrite with len in Hlen. unfold puback_rl, max_vli in *.
  destruct (N.eqb_spec (puback_pl v) 0); [destruct (pa_reason_code v =? 0); lia|]. lia.
Qed.
Lemma puback_lengths_eq v : puback_pl v <= max_vli -> puback_lengths v = Ok (puback_rl v, puback_pl v).
Proof.
  intros Hm. unfold puback_lengths, puback_rl. fold (puback_pl v). unfold u32. rewrite (N.mod_small (puback_pl v)) by (unfold max_vli in Hm; lia).
  destruct (N.eqb_spec (puback_pl v) 0); [destruct (pa_reason_code v =? 0); reflexivity|]. rewrite (vli_size_ok _ Hm). reflexivity.
Qed.
Lemma puback_emit v : puback_fields v -> puback_rl v <= max_vli ->
  exists bs', push_ok (begin_puback v) bs' /\ puback_wire v bs' /\ get_encoded_size (P_PUBACK v) = Ok (len bs') /\ len bs' = 1 + vsize (puback_rl v) + puback_rl v.
Proof.
  intros F Hrl. destruct (puback_sect v F) as (cs & Ocs & Vcs & G).
  assert (Hm : puback_pl v <= max_vli).
  { unfold puback_rl, max_vli in *. destruct (N.eqb_spec (puback_pl v) 0); lia. }
  pose proof (puback_lengths_eq v Hm) as Elen.
  destruct F as (Hi & Hr & _).
  assert (Hcs : psum cs = puback_pl v) by (destruct G as (b & _ & _ & _ & E); exact E).
  destruct (sect_section _ _ _ G Hm) as (b & Hb & Hsec & Hlb). set (pl := puback_pl v) in *.
  set (bt := if pl =? 0 then if pa_reason_code v =? 0 then [] else [pa_reason_code v] else pa_reason_code v :: b).
  set (body := be16 (pa_packet_id v) ++ bt).
  pose proof (vsize_pos pl) as Hvp.
  assert (Hbl : len body = puback_rl v).
  { unfold body, puback_rl, bt. fold pl. autorewrite with len. destruct (pl =? 0); [destruct (pa_reason_code v =? 0); reflexivity|].
    rewrite len_cons, Hlb. lia. }
  assert (Hall : push_ok (push_u16 (pa_packet_id v) ;;;
    (if puback_rl v =? 2 then nothing else push_u8 (pa_reason_code v) ;;; (if puback_rl v <? 4 then nothing else
      push_vli (u32 pl) ;;; push_opt_cursor 31 (pa_reason_string v) ;;; push_user_properties (pa_user_properties v)))) body).
  { unfold body. apply push_ok_seq; [apply push_ok_u16; lia|]. unfold puback_rl, bt. fold pl. destruct (N.eqb_spec pl 0) as [E|E].
    - destruct (N.eqb_spec (pa_reason_code v) 0); [apply push_ok_nothing|].
      change (3 =? 2) with false. change (3 <? 4) with true. cbv iota. change [pa_reason_code v] with ([pa_reason_code v] ++ []).
      apply push_ok_seq; [apply push_ok_u8; exact Hr|apply push_ok_nothing].
    - destruct (N.eqb_spec (vsize pl + 3 + pl) 2); [lia|]. destruct (N.ltb_spec (vsize pl + 3 + pl) 4); [lia|].
      change (pa_reason_code v :: b) with ([pa_reason_code v] ++ b). apply push_ok_seq; [apply push_ok_u8; exact Hr|exact Hb]. }
  destruct (frame_push 4 0 body _ (puback_rl v) ltac:(lia) ltac:(lia) Hall Hbl Hrl) as (Hpush & Hframe & Hl).
  eexists. split; [|split; [|split; [|exact Hl]]].
  - unfold begin_puback. rewrite Elen. exact Hpush.
  - exists cs, bt. split; [exact Hframe|]. split; [exact Hi|]. split; [exact Hr|]. split; [|tauto].
    unfold bt. destruct (N.eqb_spec pl 0) as [E|E].
    + rewrite E in Hcs. apply psum_zero in Hcs. destruct (N.eqb_spec (pa_reason_code v) 0); [left; auto|right; left; auto].
    + right; right. exists b. auto.
  - cbn [get_encoded_size]. rewrite Elen. cbn [bind fst]. unfold packet_size. rewrite (vli_size_ok _ Hrl). cbn [bind]. f_equal. symmetry. exact Hl.
Qed.
Lemma puback_big v : max_vli < puback_rl v < 4294967296 ->
  (exists e, snd (begin_puback v) = Some e) /\ exists e, get_encoded_size (P_PUBACK v) = Err e.
Proof.
  intros Hrl. unfold begin_puback, get_encoded_size. destruct (N.le_gt_cases (puback_pl v) max_vli) as [Hm|Hm].
  - rewrite (puback_lengths_eq v Hm). rewrite snd_u8, push_vli_big by exact Hrl. cbn [bind fst]. unfold packet_size.
    rewrite vli_bind by lia. eauto.
  - unfold puback_lengths. fold (puback_pl v). destruct (N.eqb_spec (puback_pl v) 0); [unfold max_vli in Hm; lia|].
    rewrite vli_bind by exact Hm. cbn [snd bind]. eauto.
Qed.

Definition disconnect_pl (v : disconnect) : N :=
  user_properties_length (dc_user_properties v) + opt_u32_len (dc_session_expiry v)
            + opt_cursor_len (dc_server_reference v) + opt_cursor_len (dc_reason_string v).
Definition disconnect_rl (v : disconnect) : N := 1 + disconnect_pl v + vsize (disconnect_pl v).
Lemma disconnect_sect v : disconnect_fields v -> exists cs, only [17; 31; 28; 38] cs /\
  (vals 17 cs = opt PV32 (dc_session_expiry v) /\ vals 31 cs = opt PVstr (dc_reason_string v) /\
    vals 28 cs = opt PVstr (dc_server_reference v) /\ vals 38 cs = map PVpair (dc_user_properties v)) /\
  sect (push_opt_u32 17 (dc_session_expiry v) ;;; push_opt_cursor 31 (dc_reason_string v) ;;;
       push_opt_cursor 28 (dc_server_reference v) ;;; push_user_properties (dc_user_properties v)) cs (disconnect_pl v).
Proof.
  intros (_ & H1 & H2 & H3 & H4).
  pose proof (sect_seq _ _ _ _ _ _ (sect_opt_u32 17 _ ltac:(lia) ltac:(cbn; tauto) H1)
    (sect_seq _ _ _ _ _ _ (sect_opt_cursor 31 _ ltac:(lia) ltac:(cbn; tauto) H2)
    (sect_seq _ _ _ _ _ _ (sect_opt_cursor 28 _ ltac:(lia) ltac:(cbn; tauto) H3) (sect_user _ H4)))) as G.
  eexists. split; [|split]; [| |eapply sect_eq; [exact G|reflexivity|unfold disconnect_pl; lia]]; [only_tac|splits; vals_tac].
Qed.
Lemma disconnect_of_wire v bs : disconnect_wire v bs -> disconnect_fields v /\ disconnect_rl v <= max_vli.
Proof.
  intros (ps & tail & Hf & Hr & Ht & Ho & H1 & H2 & H3 & H4).
  destruct (tail_section _ _ _ Ht) as (bp & Hs & Hbd).
  assert (F : disconnect_fields v) by fields_tac disconnect_fields.
  split; [exact F|]. destruct (disconnect_sect v F) as (cs & Ocs & Vcs & (b & _ & _ & _ & Ecs)).
  assert (Epl : disconnect_pl v = psum ps).
  { rewrite <- Ecs. symmetry. apply (perm_psum [17; 31; 28; 38]); [assumption ..|]. decompose [and] Vcs. repeat constructor; congruence. }
  destruct (section_size _ _ Hs) as [Hm Hsz]. rewrite <- Epl in Hm, Hsz, Hbd.
  pose proof (frame_size _ _ _ _ Hf) as Hlen. pose proof (vsize_le (disconnect_pl v)). unfold disconnect_rl, max_vli in *. lia.
Qed.
Lemma disconnect_lengths_eq v : disconnect_pl v <= max_vli -> disconnect_lengths v = Ok (disconnect_rl v, disconnect_pl v).
Proof. intros Hm. unfold disconnect_lengths. fold (disconnect_pl v). rewrite (vli_size_ok _ Hm). reflexivity. Qed.
Lemma disconnect_emit v : disconnect_fields v -> disconnect_rl v <= max_vli ->
  exists bs', push_ok (begin_disconnect v) bs' /\ disconnect_wire v bs' /\ get_encoded_size (P_DISCONNECT v) = Ok (len bs') /\ len bs' = 1 + vsize (disconnect_rl v) + disconnect_rl v.
Proof.
  intros F Hrl. destruct (disconnect_sect v F) as (cs & Ocs & Vcs & G).
  assert (Hm : disconnect_pl v <= max_vli) by (unfold disconnect_rl in Hrl; lia).
  pose proof (disconnect_lengths_eq v Hm) as Elen.
  destruct F as (Hr & _).
  destruct (sect_section _ _ _ G Hm) as (b & Hb & Hsec & Hlb). set (pl := disconnect_pl v) in *.
  set (body := dc_reason_code v :: b).
  assert (Hbl : len body = disconnect_rl v) by (unfold body, disconnect_rl; fold pl; rewrite len_cons, Hlb; lia).
  assert (Hall : push_ok (push_u8 (dc_reason_code v) ;;; push_vli (u32 pl) ;;; (if 0 <? pl then
       push_opt_u32 17 (dc_session_expiry v) ;;; push_opt_cursor 31 (dc_reason_string v) ;;;
       push_opt_cursor 28 (dc_server_reference v) ;;; push_user_properties (dc_user_properties v) else nothing)) body).
  { change body with ([dc_reason_code v] ++ b). apply push_ok_seq; [apply push_ok_u8; exact Hr|]. destruct (N.ltb_spec 0 pl); [exact Hb|].
    assert (E0 : pl = 0) by lia. destruct G as (b0 & Hb0 & _ & Hl0 & _). rewrite E0 in Hl0. apply len_zero_nil in Hl0. subst b0.
    assert (Eb : b = vb pl ++ []) by exact (push_ok_fun _ _ _ Hb (push_ok_seq _ _ _ _ (push_ok_vli _ Hm) Hb0)).
    rewrite Eb. apply push_ok_seq; [apply push_ok_vli; exact Hm|apply push_ok_nothing]. }
  destruct (frame_push 14 0 body _ (disconnect_rl v) ltac:(lia) ltac:(lia) Hall Hbl Hrl) as (Hpush & Hframe & Hl).
  eexists. split; [|split; [|split; [|exact Hl]]].
  - unfold begin_disconnect. rewrite Elen. exact Hpush.
  - exists cs, body. split; [exact Hframe|]. split; [exact Hr|]. split; [|tauto].
    right; right. exists b. auto.
  - cbn [get_encoded_size]. rewrite Elen. cbn [bind fst]. unfold packet_size. rewrite (vli_size_ok _ Hrl). cbn [bind]. f_equal. symmetry. exact Hl.
Qed.
Lemma disconnect_big v : max_vli < disconnect_rl v < 4294967296 ->
  (exists e, snd (begin_disconnect v) = Some e) /\ exists e, get_encoded_size (P_DISCONNECT v) = Err e.
Proof.
  intros Hrl. unfold begin_disconnect, get_encoded_size. destruct (N.le_gt_cases (disconnect_pl v) max_vli) as [Hm|Hm].
  - rewrite (disconnect_lengths_eq v Hm). rewrite snd_u8, push_vli_big by exact Hrl. cbn [bind fst]. unfold packet_size.
    rewrite vli_bind by lia. eauto.
  - unfold disconnect_lengths. fold (disconnect_pl v). rewrite vli_bind by exact Hm. cbn [snd bind]. eauto.
Qed.
Lemma subscription_flags_ok s : sn_qos s <= 2 -> sn_retain_handling s <= 2 ->
  subscription_flags s = sn_qos s + 4 * b2n (sn_no_local s) + 8 * b2n (sn_retain_as_published s) + 16 * sn_retain_handling s.
Proof.
  intros Hq Hh. unfold subscription_flags. destruct s as [t q nl rap rh]. cbn [sn_qos sn_no_local sn_retain_as_published sn_retain_handling] in *.
  assert (q = 0 \/ q = 1 \/ q = 2) as [->|[->| ->]] by lia; assert (rh = 0 \/ rh = 1 \/ rh = 2) as [->|[->| ->]] by lia;
    destruct nl, rap; reflexivity.
Qed.
Lemma subscriptions_ok l bl : list_wire subscription_wire l bl ->
  push_ok (push_subscriptions l) bl /\ len bl = fold_right (fun s n => len (sn_topic_filter s) + n) 0 l + 3 * len l.
Proof.
  induction 1 as [|s l b bs (bt & (Ht1 & Ht2 & ->) & Hq & Hh & ->) Hl [IH1 IH2]]; [split; [apply push_ok_nothing|reflexivity]|].
  cbn [push_subscriptions fold_right]. fold (push_subscriptions l). split.
  - rewrite <- (subscription_flags_ok s Hq Hh). rewrite <- !app_assoc. rewrite app_assoc. apply push_ok_seq; [apply push_ok_prefixed; exact Ht1|].
    apply push_ok_seq; [|exact IH1]. apply push_ok_u8. rewrite subscription_flags_ok by assumption.
    pose proof (b2n_le (sn_no_local s)); pose proof (b2n_le (sn_retain_as_published s)); lia.
  - autorewrite with len. rewrite IH2. lia.
Qed.
Lemma filters_ok l bl : list_wire str_wire l bl ->
  push_ok (push_filters l) bl /\ len bl = fold_right (fun t n => len t + n) 0 l + 2 * len l.
Proof.
  induction 1 as [|s l b bs (Ht1 & Ht2 & ->) Hl [IH1 IH2]]; [split; [apply push_ok_nothing|reflexivity]|].
  cbn [push_filters fold_right]. fold (push_filters l). split.
  - apply push_ok_seq; [apply push_ok_prefixed; exact Ht1|exact IH1].
  - autorewrite with len. rewrite IH2. lia.
Qed.
Lemma subscriptions_exist l : Forall subscription_ok l -> exists bl, list_wire subscription_wire l bl.
Proof.
  induction 1 as [|s l ((H1 & H2) & H3 & H4) Hl [bl IH]]; [exists []; constructor|]. eexists. constructor; [|exact IH].
  eexists. split; [repeat split; eauto|auto].
Qed.
Lemma filters_exist l : Forall str_ok l -> exists bl, list_wire str_wire l bl.
Proof.
  induction 1 as [|s l (H1 & H2) Hl [bl IH]]; [exists []; constructor|]. eexists. constructor; [|exact IH]. repeat split; eauto.
Qed.
Definition subscribe_pl (v : subscribe) : N :=
  user_properties_length (sb_user_properties v) + match sb_subscription_identifier v with Some x => 1 + vsize x | None => 0 end.
Definition subscribe_rl (v : subscribe) : N :=
  vsize (subscribe_pl v) + (2 + subscribe_pl v) +
  (fold_right (fun s n => len (sn_topic_filter s) + n) 0 (sb_subscriptions v) + 3 * len (sb_subscriptions v)).
Lemma subscribe_sect v : subscribe_fields v -> exists cs, only [11; 38] cs /\
  (vals 11 cs = opt PVvar (sb_subscription_identifier v) /\ vals 38 cs = map PVpair (sb_user_properties v)) /\
  sect (push_opt_vli 11 (sb_subscription_identifier v) ;;; push_user_properties (sb_user_properties v)) cs (subscribe_pl v).
Proof.
  intros (_ & _ & H1 & H2).
  pose proof (sect_seq _ _ _ _ _ _ (sect_opt_vli 11 _ ltac:(lia) ltac:(cbn; tauto) H1) (sect_user _ H2)) as G.
  eexists. split; [|split]; [| |eapply sect_eq; [exact G|reflexivity|unfold subscribe_pl; lia]]; [only_tac|splits; vals_tac].
Qed.
Lemma subscribe_of_wire v bs : subscribe_wire v bs -> subscribe_fields v /\ subscribe_rl v <= max_vli.
Proof.
  intros (ps & bp & bl & Hf & Hi & Hs & Hl & Ho & H1 & H2).
  assert (F : subscribe_fields v) by fields_tac subscribe_fields.
  split; [exact F|]. destruct (subscribe_sect v F) as (cs & Ocs & Vcs & (b & _ & _ & _ & Ecs)).
  assert (Epl : subscribe_pl v = psum ps).
  { rewrite <- Ecs. symmetry. apply (perm_psum [11; 38]); [assumption ..|]. decompose [and] Vcs. repeat constructor; congruence. }
  destruct (section_size _ _ Hs) as [Hm Hsz]. rewrite <- Epl in Hm, Hsz.
  destruct (subscriptions_ok _ _ Hl) as [_ Hll].
  pose proof (frame_size _ _ _ _ Hf) as Hlen. autorewrite with len in Hlen. unfold subscribe_rl. lia.
Qed.
Lemma subscribe_lengths_eq v : subscribe_fields v -> subscribe_lengths v = do sz <- vli_size (subscribe_pl v); Ok (sz + (2 + subscribe_pl v) +
  (fold_right (fun s n => len (sn_topic_filter s) + n) 0 (sb_subscriptions v) + 3 * len (sb_subscriptions v)), subscribe_pl v).
Proof.
  intros (_ & _ & Hid & _). unfold subscribe_lengths, subscribe_pl. destruct (sb_subscription_identifier v) as [id|]; [|reflexivity].
  rewrite (vli_size_ok id (Hid id eq_refl)). rewrite (N.add_comm (vsize id) 1). reflexivity.
Qed.
Lemma subscribe_emit v : subscribe_fields v -> subscribe_rl v <= max_vli ->
  exists bs', push_ok (begin_subscribe v) bs' /\ subscribe_wire v bs' /\ get_encoded_size (P_SUBSCRIBE v) = Ok (len bs') /\ len bs' = 1 + vsize (subscribe_rl v) + subscribe_rl v.
Proof.
  intros F Hrl. destruct (subscribe_sect v F) as (cs & Ocs & Vcs & G).
  assert (Hm : subscribe_pl v <= max_vli) by (unfold subscribe_rl in Hrl; lia).
  assert (Elen : subscribe_lengths v = Ok (subscribe_rl v, subscribe_pl v)) by (rewrite (subscribe_lengths_eq v F), (vli_size_ok _ Hm); reflexivity).
  destruct F as (Hi & Hl0 & _). destruct (subscriptions_exist _ Hl0) as [bl Hl].
  destruct (sect_section _ _ _ G Hm) as (b & Hb & Hsec & Hlb).
  destruct (subscriptions_ok _ _ Hl) as [Hpl Hll].
  set (body := be16 (sb_packet_id v) ++ b ++ bl).
  assert (Hbl : len body = subscribe_rl v) by (unfold body, subscribe_rl; autorewrite with len; rewrite Hlb; lia).
  assert (Hall : push_ok (push_u16 (sb_packet_id v) ;;; (push_vli (u32 (subscribe_pl v)) ;;;
    push_opt_vli 11 (sb_subscription_identifier v) ;;; push_user_properties (sb_user_properties v)) ;;; push_subscriptions (sb_subscriptions v)) body).
  { apply push_ok_seq; [apply push_ok_u16; lia|]. apply push_ok_seq; [exact Hb|exact Hpl]. }
  destruct (frame_push 8 2 body _ (subscribe_rl v) ltac:(lia) ltac:(lia) Hall Hbl Hrl) as (Hpush & Hframe & HL).
  eexists. split; [|split; [|split; [|exact HL]]].
  - unfold begin_subscribe. rewrite Elen. rewrite !seq_assoc in Hpush. exact Hpush.
  - exists cs, b, bl. split; [exact Hframe|]. tauto.
  - cbn [get_encoded_size]. rewrite Elen. cbn [bind fst]. unfold packet_size. rewrite (vli_size_ok _ Hrl). cbn [bind]. f_equal. symmetry. exact HL.
Qed.
Lemma subscribe_big v : subscribe_fields v -> max_vli < subscribe_rl v < 4294967296 ->
  (exists e, snd (begin_subscribe v) = Some e) /\ exists e, get_encoded_size (P_SUBSCRIBE v) = Err e.
Proof.
  intros F Hrl. unfold begin_subscribe, get_encoded_size. rewrite (subscribe_lengths_eq v F). destruct (N.le_gt_cases (subscribe_pl v) max_vli) as [Hm|Hm].
  - rewrite (vli_size_ok _ Hm). cbn [bind fst]. fold (subscribe_rl v). rewrite snd_u8, push_vli_big by exact Hrl. unfold packet_size.
    rewrite vli_bind by lia. eauto.
  - rewrite vli_bind by exact Hm. cbn [snd bind]. eauto.
Qed.
Definition unsubscribe_pl (v : unsubscribe) : N := user_properties_length (us_user_properties v).
Definition unsubscribe_rl (v : unsubscribe) : N :=
  vsize (unsubscribe_pl v) + (2 + unsubscribe_pl v) + (fold_right (fun t n => len t + n) 0 (us_topic_filters v) + 2 * len (us_topic_filters v)).
Lemma unsubscribe_sect v : unsubscribe_fields v -> exists cs, only [38] cs /\ vals 38 cs = map PVpair (us_user_properties v) /\
  sect (push_user_properties (us_user_properties v)) cs (unsubscribe_pl v).
Proof.
  intros (_ & _ & H2). pose proof (sect_user _ H2) as G. eexists. split; [|split]; [| |exact G]; [only_tac|vals_tac].
Qed.
Lemma unsubscribe_of_wire v bs : unsubscribe_wire v bs -> unsubscribe_fields v /\ unsubscribe_rl v <= max_vli.
Proof.
  intros (ps & bp & bl & Hf & Hi & Hs & Hl & Ho & H2).
  assert (F : unsubscribe_fields v) by fields_tac unsubscribe_fields.
  split; [exact F|]. destruct (unsubscribe_sect v F) as (cs & Ocs & Vcs & (b & _ & _ & _ & Ecs)).
  assert (Epl : unsubscribe_pl v = psum ps).
  { rewrite <- Ecs. symmetry. apply (perm_psum [38]); [assumption ..|]. repeat constructor; congruence. }
  destruct (section_size _ _ Hs) as [Hm Hsz]. rewrite <- Epl in Hm, Hsz.
  destruct (filters_ok _ _ Hl) as [_ Hll].
  pose proof (frame_size _ _ _ _ Hf) as Hlen. autorewrite with len in Hlen. unfold unsubscribe_rl. lia.
Qed.
Lemma unsubscribe_lengths_eq v : unsubscribe_lengths v = do sz <- vli_size (unsubscribe_pl v); Ok (sz + (2 + unsubscribe_pl v) +
  (fold_right (fun t n => len t + n) 0 (us_topic_filters v) + 2 * len (us_topic_filters v)), unsubscribe_pl v).
Proof. reflexivity. Qed.
Lemma unsubscribe_emit v : unsubscribe_fields v -> unsubscribe_rl v <= max_vli ->
  exists bs', push_ok (begin_unsubscribe v) bs' /\ unsubscribe_wire v bs' /\ get_encoded_size (P_UNSUBSCRIBE v) = Ok (len bs') /\ len bs' = 1 + vsize (unsubscribe_rl v) + unsubscribe_rl v.
Proof.
  intros F Hrl. destruct (unsubscribe_sect v F) as (cs & Ocs & Vcs & G).
  assert (Hm : unsubscribe_pl v <= max_vli) by (unfold unsubscribe_rl in Hrl; lia).
  assert (Elen : unsubscribe_lengths v = Ok (unsubscribe_rl v, unsubscribe_pl v)) by (rewrite unsubscribe_lengths_eq, (vli_size_ok _ Hm); reflexivity).
  destruct F as (Hi & Hl0 & _). destruct (filters_exist _ Hl0) as [bl Hl].
  destruct (sect_section _ _ _ G Hm) as (b & Hb & Hsec & Hlb).
  destruct (filters_ok _ _ Hl) as [Hpl Hll].
  set (body := be16 (us_packet_id v) ++ b ++ bl).
  assert (Hbl : len body = unsubscribe_rl v) by (unfold body, unsubscribe_rl; autorewrite with len; rewrite Hlb; lia).
  assert (Hall : push_ok (push_u16 (us_packet_id v) ;;; (push_vli (u32 (unsubscribe_pl v)) ;;; push_user_properties (us_user_properties v)) ;;;
    push_filters (us_topic_filters v)) body).
  { apply push_ok_seq; [apply push_ok_u16; lia|]. apply push_ok_seq; [exact Hb|exact Hpl]. }
  destruct (frame_push 10 2 body _ (unsubscribe_rl v) ltac:(lia) ltac:(lia) Hall Hbl Hrl) as (Hpush & Hframe & HL).
  eexists. split; [|split; [|split; [|exact HL]]].
  - unfold begin_unsubscribe. rewrite Elen. rewrite !seq_assoc in Hpush. exact Hpush.
  - exists cs, b, bl. split; [exact Hframe|]. tauto.
  - cbn [get_encoded_size]. rewrite Elen. cbn [bind fst]. unfold packet_size. rewrite (vli_size_ok _ Hrl). cbn [bind]. f_equal. symmetry. exact HL.
Qed.
Lemma unsubscribe_big v : max_vli < unsubscribe_rl v < 4294967296 ->
  (exists e, snd (begin_unsubscribe v) = Some e) /\ exists e, get_encoded_size (P_UNSUBSCRIBE v) = Err e.
Proof.
  intros Hrl. unfold begin_unsubscribe, get_encoded_size. rewrite unsubscribe_lengths_eq. destruct (N.le_gt_cases (unsubscribe_pl v) max_vli) as [Hm|Hm].
  - rewrite (vli_size_ok _ Hm). cbn [bind fst]. fold (unsubscribe_rl v). rewrite snd_u8, push_vli_big by exact Hrl. unfold packet_size.
    rewrite vli_bind by lia. eauto.
  - rewrite vli_bind by exact Hm. cbn [snd bind]. eauto.
Qed.

(** CONNECT *)
Lemma flags_ok v : match cn_will v with Some w => wl_qos w <= 2 | None => True end ->
  compute_connect_flags v = connect_flags v /\ connect_flags v < 256.
Proof.
  intros H. unfold compute_connect_flags, connect_flags. destruct (cn_will v) as [w|].
  - destruct w as [pay q rt]. cbn [wl_qos wl_retain] in *.
    assert (q = 0 \/ q = 1 \/ q = 2) as [->|[->| ->]] by lia; destruct (cn_clean_start v), rt, (cn_password v), (cn_username v); split; reflexivity.
  - destruct (cn_clean_start v), (cn_password v), (cn_username v); split; reflexivity.
Qed.
Lemma opt_prefixed_ok o b : opt_str o b -> push_ok (push_opt_prefixed o) b /\ len b = match o with Some c => len c + 2 | None => 0 end.
Proof.
  destruct o as [c|]; cbn [opt_str push_opt_prefixed].
  - intros (H1 & H2 & ->). split; [apply push_ok_prefixed; exact H1|]. autorewrite with len. lia.
  - intros ->. split; [apply push_ok_nothing|reflexivity].
Qed.
Definition will_pushed (delay : option N) (o : option will) (wl : N) : pushed :=
  match o with
  | Some w =>
      push_vli (u32 wl) ;;; push_opt_u32 24 delay ;;; push_opt_u8 1 (wl_payload_format w) ;;;
      push_opt_u32 2 (wl_message_expiry w) ;;; push_opt_cursor 3 (wl_content_type w) ;;; push_opt_cursor 8 (wl_response_topic w) ;;;
      push_opt_cursor 9 (wl_correlation_data w) ;;; push_user_properties (wl_user_properties w) ;;; push_prefixed (wl_topic w) ;;;
      push_u16 (len (wl_payload w)) ;;; push_cursor (wl_payload w)
  | None => nothing
  end.
Definition will_lengths (delay : option N) (o : option will) (payload : N) : res (N * N) :=
  match o with
           | None => Ok (payload, 0)
           | Some w =>
             let wl := user_properties_length (wl_user_properties w) + opt_u32_len delay
                       + opt_u8_len (wl_payload_format w) + opt_u32_len (wl_message_expiry w) + opt_cursor_len (wl_content_type w)
                       + opt_cursor_len (wl_response_topic w) + opt_cursor_len (wl_correlation_data w) in
             do wsz <- vli_size (u32 wl);
             Ok (payload + wl + wsz + (2 + len (wl_topic w)) + (2 + len (wl_payload w)), wl)
           end.
Definition will_pl (delay : option N) (w : will) : N :=
  user_properties_length (wl_user_properties w) + opt_u32_len delay
                       + opt_u8_len (wl_payload_format w) + opt_u32_len (wl_message_expiry w) + opt_cursor_len (wl_content_type w)
                       + opt_cursor_len (wl_response_topic w) + opt_cursor_len (wl_correlation_data w).
Definition will_size (delay : option N) (o : option will) : N :=
  match o with Some w => will_pl delay w + vsize (will_pl delay w) + (2 + len (wl_topic w)) + (2 + len (wl_payload w)) | None => 0 end.
Lemma will_sect delay w : will_fields delay w -> exists cs, only [24; 1; 2; 3; 8; 9; 38] cs /\
  (vals 24 cs = opt PV32 delay /\ vals 1 cs = opt PV8 (wl_payload_format w) /\ vals 2 cs = opt PV32 (wl_message_expiry w) /\
      vals 3 cs = opt PVstr (wl_content_type w) /\ vals 8 cs = opt PVstr (wl_response_topic w) /\
      vals 9 cs = opt PVstr (wl_correlation_data w) /\ vals 38 cs = map PVpair (wl_user_properties w)) /\
  sect (push_opt_u32 24 delay ;;; push_opt_u8 1 (wl_payload_format w) ;;;
      push_opt_u32 2 (wl_message_expiry w) ;;; push_opt_cursor 3 (wl_content_type w) ;;; push_opt_cursor 8 (wl_response_topic w) ;;;
      push_opt_cursor 9 (wl_correlation_data w) ;;; push_user_properties (wl_user_properties w)) cs (will_pl delay w).
Proof.
  intros (_ & _ & _ & H1 & H2 & H3 & H4 & H5 & H6 & H7).
  pose proof (sect_seq _ _ _ _ _ _ (sect_opt_u32 24 _ ltac:(lia) ltac:(cbn; tauto) H1)
    (sect_seq _ _ _ _ _ _ (sect_opt_u8 1 _ ltac:(lia) ltac:(cbn; tauto) H2)
    (sect_seq _ _ _ _ _ _ (sect_opt_u32 2 _ ltac:(lia) ltac:(cbn; tauto) H3)
    (sect_seq _ _ _ _ _ _ (sect_opt_cursor 3 _ ltac:(lia) ltac:(cbn; tauto) H4)
    (sect_seq _ _ _ _ _ _ (sect_opt_cursor 8 _ ltac:(lia) ltac:(cbn; tauto) H5)
    (sect_seq _ _ _ _ _ _ (sect_opt_cursor 9 _ ltac:(lia) ltac:(cbn; tauto) H6)
       (sect_user _ H7))))))) as G.
  eexists. split; [|split]; [| |eapply sect_eq; [exact G|reflexivity|unfold will_pl; lia]]; [only_tac|splits; vals_tac].
Qed.
Lemma will_of_wire delay o bw : will_wire delay o bw -> match o with Some w => wl_qos w <= 2 | None => True end ->
  will_fields_opt delay o /\ will_size delay o <= len bw.
Proof.
  destruct o as [w|]; cbn [will_wire will_fields_opt will_size]; [|split; [exact I|lia]].
  intros (ps & bp & bt & bm & Hs & (Ht1 & Ht2 & ->) & (Hm1 & Hm2 & ->) & -> & Ho & H1 & H2 & H3 & H4 & H5 & H6 & H7) Hq.
  assert (F : will_fields delay w) by fields_tac will_fields.
  split; [exact F|]. destruct (will_sect _ _ F) as (cs & Ocs & Vcs & (b & _ & _ & _ & Ecs)).
  assert (Epl : will_pl delay w = psum ps).
  { rewrite <- Ecs. symmetry. apply (perm_psum [24; 1; 2; 3; 8; 9; 38]); [assumption ..|]. decompose [and] Vcs. repeat constructor; congruence. }
  destruct (section_size _ _ Hs) as [Hm Hsz]. rewrite <- Epl in Hm, Hsz. autorewrite with len. lia.
Qed.
Lemma will_emit delay o : will_fields_opt delay o -> will_size delay o <= max_vli ->
  exists wl bw', push_ok (will_pushed delay o wl) bw' /\ will_wire delay o bw' /\ len bw' = will_size delay o /\
    forall n, will_lengths delay o n = Ok (n + len bw', wl).
Proof.
  destruct o as [w|]; cbn [will_wire will_pushed will_lengths will_fields_opt will_size].
  2: { intros _ _. exists 0, []. split; [apply push_ok_nothing|]. split; [reflexivity|]. split; [reflexivity|]. intros n. do 2 f_equal. unfold len; cbn [length]; lia. }
  intros F Hmax. destruct (will_sect _ _ F) as (cs & Ocs & Vcs & G).
  assert (Hm : will_pl delay w <= max_vli) by lia. destruct F as (Hq & (Ht1 & Ht2) & (Hm1 & Hm2) & _).
  destruct (sect_section _ _ _ G Hm) as (b & Hb & Hsec & Hlb). fold (will_pl delay w). set (wl := will_pl delay w) in *.
  exists wl, (b ++ (be16 (len (wl_topic w)) ++ wl_topic w) ++ be16 (len (wl_payload w)) ++ wl_payload w).
  autorewrite with len in *. split; [|split; [|split]].
  - pose proof (push_ok_seq _ _ _ _ Hb (push_ok_seq _ _ _ _ (push_ok_prefixed (wl_topic w) Ht1)
      (push_ok_seq _ _ _ _ (push_ok_u16 (len (wl_payload w)) Hm1) (push_ok_cursor (wl_payload w))))) as Hp.
    rewrite !seq_assoc in Hp. exact Hp.
  - exists cs, b, (be16 (len (wl_topic w)) ++ wl_topic w), (be16 (len (wl_payload w)) ++ wl_payload w). split; [exact Hsec|].
    split; [repeat split; assumption|]. split; [repeat split; assumption|]. split; [reflexivity|]. split; assumption.
  - rewrite Hlb. lia.
  - intros n. cbv zeta. unfold u32. rewrite N.mod_small by (unfold max_vli in Hm; lia). rewrite (vli_size_ok wl Hm). cbn [bind]. rewrite Hlb. do 2 f_equal. lia.
Qed.
Lemma group10 h r p f k a0 a1 a2 a3 a4 a5 a6 a7 a8 a9 q :
  (h ;;; r ;;; p ;;; f ;;; k ;;; (a0 ;;; a1 ;;; a2 ;;; a3 ;;; a4 ;;; a5 ;;; a6 ;;; a7 ;;; a8 ;;; a9) ;;; q) =
  (h ;;; r ;;; p ;;; f ;;; k ;;; a0 ;;; a1 ;;; a2 ;;; a3 ;;; a4 ;;; a5 ;;; a6 ;;; a7 ;;; a8 ;;; a9 ;;; q).
Proof. rewrite !seq_assoc. reflexivity. Qed.
Definition connect_pl (v : connect) : N :=
  user_properties_length (cn_user_properties v) + opt_u32_len (cn_session_expiry v)
            + opt_u16_len (cn_receive_maximum v) + opt_u32_len (cn_maximum_packet_size v) + opt_u16_len (cn_topic_alias_maximum v)
            + opt_u8_len (cn_request_response_info v) + opt_u8_len (cn_request_problem_info v)
            + opt_cursor_len (cn_auth_method v) + opt_cursor_len (cn_auth_data v).
Definition opt_size (o : option bytes) : N := match o with Some c => len c + 2 | None => 0 end.
Definition connect_rl (v : connect) : N :=
  10 + (vsize (connect_pl v) + connect_pl v) + (2 + len (cn_client_id v)) + will_size (cn_will_delay v) (cn_will v)
  + opt_size (cn_username v) + opt_size (cn_password v).
Lemma connect_sect v : connect_fields v -> exists cs, only [17; 33; 39; 34; 25; 23; 38; 21; 22] cs /\
  (vals 17 cs = opt PV32 (cn_session_expiry v) /\ vals 33 cs = opt PV16 (cn_receive_maximum v) /\
    vals 39 cs = opt PV32 (cn_maximum_packet_size v) /\ vals 34 cs = opt PV16 (cn_topic_alias_maximum v) /\
    vals 25 cs = opt PV8 (cn_request_response_info v) /\ vals 23 cs = opt PV8 (cn_request_problem_info v) /\
    vals 21 cs = opt PVstr (cn_auth_method v) /\ vals 22 cs = opt PVstr (cn_auth_data v) /\
    vals 38 cs = map PVpair (cn_user_properties v)) /\
  sect (push_opt_u32 17 (cn_session_expiry v) ;;; push_opt_u16 33 (cn_receive_maximum v) ;;;
    push_opt_u32 39 (cn_maximum_packet_size v) ;;; push_opt_u16 34 (cn_topic_alias_maximum v) ;;;
    push_opt_u8 25 (cn_request_response_info v) ;;; push_opt_u8 23 (cn_request_problem_info v) ;;;
    push_opt_cursor 21 (cn_auth_method v) ;;; push_opt_cursor 22 (cn_auth_data v) ;;; push_user_properties (cn_user_properties v)) cs (connect_pl v).
Proof.
  intros (_ & _ & _ & _ & _ & H1 & H2 & H3 & H4 & H5 & H6 & H7 & H8 & H9).
  pose proof (sect_seq _ _ _ _ _ _ (sect_opt_u32 17 _ ltac:(lia) ltac:(cbn; tauto) H1)
    (sect_seq _ _ _ _ _ _ (sect_opt_u16 33 _ ltac:(lia) ltac:(cbn; tauto) H2)
    (sect_seq _ _ _ _ _ _ (sect_opt_u32 39 _ ltac:(lia) ltac:(cbn; tauto) H3)
    (sect_seq _ _ _ _ _ _ (sect_opt_u16 34 _ ltac:(lia) ltac:(cbn; tauto) H4)
    (sect_seq _ _ _ _ _ _ (sect_opt_u8 25 _ ltac:(lia) ltac:(cbn; tauto) H5)
    (sect_seq _ _ _ _ _ _ (sect_opt_u8 23 _ ltac:(lia) ltac:(cbn; tauto) H6)
    (sect_seq _ _ _ _ _ _ (sect_opt_cursor 21 _ ltac:(lia) ltac:(cbn; tauto) H7)
    (sect_seq _ _ _ _ _ _ (sect_opt_cursor 22 _ ltac:(lia) ltac:(cbn; tauto) H8)
       (sect_user _ H9))))))))) as G.
  eexists. split; [|split]; [| |eapply sect_eq; [exact G|reflexivity|unfold connect_pl; lia]]; [only_tac|splits; vals_tac].
Qed.
Lemma opt_str_ostr o b : opt_str o b -> ostr o /\ len b = opt_size o.
Proof.
  destruct o as [c|]; cbn [opt_str opt_size].
  - intros (H1 & H2 & ->). split; [intros x E; injection E as <-; split; assumption|]. autorewrite with len. lia.
  - intros ->. split; [intros x E; discriminate|reflexivity].
Qed.
Lemma opt_str_exist o : ostr o -> exists b, opt_str o b.
Proof.
  destruct o as [c|]; intros H; [|exists []; reflexivity]. destruct (H c eq_refl). eexists. repeat split; eauto.
Qed.
Lemma connect_of_wire v bs : connect_wire v bs -> connect_fields v /\ connect_rl v <= max_vli.
Proof.
  intros (ps & bp & bc & bw & bu & bpw & Hf & Hk & Hq & Hs & (Hc1 & Hc2 & ->) & Hw & Hu & Hpw & Ho & H1 & H2 & H3 & H4 & H5 & H6 & H7 & H8 & H9).
  destruct (will_of_wire _ _ _ Hw Hq) as [Fw Lw]. destruct (opt_str_ostr _ _ Hu) as [Fu Lu]. destruct (opt_str_ostr _ _ Hpw) as [Fp Lp].
  assert (F : connect_fields v) by fields_tac connect_fields.
  split; [exact F|]. destruct (connect_sect _ F) as (cs & Ocs & Vcs & (b & _ & _ & _ & Ecs)).
  assert (Epl : connect_pl v = psum ps).
  { rewrite <- Ecs. symmetry. apply (perm_psum [17; 33; 39; 34; 25; 23; 38; 21; 22]); [assumption ..|]. decompose [and] Vcs. repeat constructor; congruence. }
  destruct (section_size _ _ Hs) as [Hm Hsz]. rewrite <- Epl in Hm, Hsz.
  pose proof (frame_size _ _ _ _ Hf) as Hlen. autorewrite with len in Hlen. unfold connect_rl. lia.
Qed.
Lemma connect_emit v : connect_fields v -> connect_rl v <= max_vli -> exists bs', push_ok (begin_connect v) bs' /\ connect_wire v bs' /\ len bs' = 1 + vsize (connect_rl v) + connect_rl v.
Proof.
  intros F Hrl. destruct (connect_sect _ F) as (cs & Ocs & Vcs & G).
  assert (Hm : connect_pl v <= max_vli) by (unfold connect_rl in Hrl; lia).
  destruct F as (Hk & (Hc1 & Hc2) & Fw & Fu & Fp & _).
  assert (Hq : match cn_will v with Some w => wl_qos w <= 2 | None => True end) by (destruct (cn_will v); [apply Fw|exact I]).
  destruct (sect_section _ _ _ G Hm) as (b & Hb & Hsec & Hlb).
  destruct (will_emit _ _ Fw ltac:(unfold connect_rl in Hrl; lia)) as (wl & bw' & Hpw' & Hw' & Hlw & Hwl).
  destruct (opt_str_exist _ Fu) as [bu Hu]. destruct (opt_str_exist _ Fp) as [bpw Hpw].
  destruct (opt_prefixed_ok _ _ Hu) as [Hpu Hlu]. destruct (opt_prefixed_ok _ _ Hpw) as [Hpp Hlp].
  destruct (flags_ok v Hq) as [Hfl Hfl256].
  set (body := be16 4 ++ [77; 81; 84; 84] ++ [5] ++ [connect_flags v] ++ be16 (cn_keep_alive v) ++ b ++ (be16 (len (cn_client_id v)) ++ cn_client_id v) ++ bw' ++ bu ++ bpw).
  assert (Hbl : len body = connect_rl v).
  { unfold body, connect_rl. fold (opt_size (cn_username v)) in Hlu. fold (opt_size (cn_password v)) in Hlp. autorewrite with len. rewrite Hlb. lia. }
  assert (Elen : connect_lengths v = Ok (connect_rl v, connect_pl v, wl)).
  { unfold connect_lengths. fold (will_lengths (cn_will_delay v) (cn_will v) (2 + len (cn_client_id v))). fold (connect_pl v).
    rewrite (vli_size_ok _ Hm), Hwl. cbn [bind]. fold (opt_size (cn_username v)). fold (opt_size (cn_password v)).
    unfold u32. rewrite N.mod_small by (unfold max_vli in Hm; lia). do 3 f_equal. unfold connect_rl. lia. }
  assert (Hall : push_ok (push_cursor protocol_cursor ;;; push_u8 (connect_flags v) ;;; push_u16 (cn_keep_alive v) ;;;
    (push_vli (u32 (connect_pl v)) ;;;
    push_opt_u32 17 (cn_session_expiry v) ;;; push_opt_u16 33 (cn_receive_maximum v) ;;;
    push_opt_u32 39 (cn_maximum_packet_size v) ;;; push_opt_u16 34 (cn_topic_alias_maximum v) ;;;
    push_opt_u8 25 (cn_request_response_info v) ;;; push_opt_u8 23 (cn_request_problem_info v) ;;;
    push_opt_cursor 21 (cn_auth_method v) ;;; push_opt_cursor 22 (cn_auth_data v) ;;; push_user_properties (cn_user_properties v)) ;;;
    push_prefixed (cn_client_id v) ;;; will_pushed (cn_will_delay v) (cn_will v) wl ;;;
    push_opt_prefixed (cn_username v) ;;; push_opt_prefixed (cn_password v)) body).
  { change body with (protocol_cursor ++ [connect_flags v] ++ be16 (cn_keep_alive v) ++ b ++ (be16 (len (cn_client_id v)) ++ cn_client_id v) ++ bw' ++ bu ++ bpw).
    apply push_ok_seq; [apply push_ok_cursor|]. apply push_ok_seq; [apply push_ok_u8; exact Hfl256|]. apply push_ok_seq; [apply push_ok_u16; exact Hk|].
    apply push_ok_seq; [exact Hb|]. apply push_ok_seq; [apply push_ok_prefixed; exact Hc1|]. apply push_ok_seq; [exact Hpw'|]. apply push_ok_seq; assumption. }
  destruct (frame_push 1 0 body _ (connect_rl v) ltac:(lia) ltac:(lia) Hall Hbl Hrl) as (Hpush & Hframe & HL).
  eexists. split; [|split; [|exact HL]].
  - unfold begin_connect. rewrite Elen, Hfl. fold (will_pushed (cn_will_delay v) (cn_will v) wl). rewrite group10 in Hpush. exact Hpush.
  - exists cs, b, (be16 (len (cn_client_id v)) ++ cn_client_id v), bw', bu, bpw. split; [exact Hframe|]. split; [exact Hk|]. split; [exact Hq|].
    split; [exact Hsec|]. split; [repeat split; assumption|]. split; [exact Hw'|]. split; [exact Hu|]. split; [exact Hpw|]. split; assumption.
Qed.
Lemma connect_big v : max_vli < connect_rl v < 4294967296 -> exists e, snd (begin_connect v) = Some e.
Proof.
  intros Hrl. unfold begin_connect, connect_lengths. fold (will_lengths (cn_will_delay v) (cn_will v) (2 + len (cn_client_id v))). fold (connect_pl v).
  destruct (N.le_gt_cases (connect_pl v) max_vli) as [Hm|Hm]; [|rewrite vli_bind by exact Hm; cbn [snd]; eauto].
  rewrite (vli_size_ok _ Hm). cbn [bind].
  assert (Hw : will_lengths (cn_will_delay v) (cn_will v) (2 + len (cn_client_id v)) = Err E_INVALID_ARGUMENT \/
    exists wl, will_lengths (cn_will_delay v) (cn_will v) (2 + len (cn_client_id v)) = Ok (2 + len (cn_client_id v) + will_size (cn_will_delay v) (cn_will v), wl)).
  { unfold will_lengths, will_size, connect_rl, will_size in *. destruct (cn_will v) as [w|]; [|right; exists 0; do 2 f_equal; lia].
    fold (will_pl (cn_will_delay v) w). set (pw := will_pl (cn_will_delay v) w) in *. cbv zeta.
    unfold u32. rewrite N.mod_small by lia. destruct (N.le_gt_cases pw max_vli) as [Hmw|Hmw].
    - right. exists pw. rewrite (vli_size_ok _ Hmw). cbn [bind]. do 2 f_equal. lia.
    - left. rewrite vli_bind by exact Hmw. reflexivity. }
  destruct Hw as [-> | [wl ->]]; cbn [bind]; [cbn [snd]; eauto|].
  fold (opt_size (cn_username v)). fold (opt_size (cn_password v)).
  match goal with |- context [push_u8 (fixed_header_byte1 1 0) ;;; push_vli (u32 ?x) ;;; _] => replace x with (connect_rl v) by (unfold connect_rl; lia) end.
  rewrite snd_u8, push_vli_big by exact Hrl. eauto.
Qed.

(** ** Every append keeps the queued steps well formed *)
Lemma ok_u8 n : steps_ok (fst (push_u8 n)). Proof. repeat constructor. Qed.
Lemma ok_u16 n : steps_ok (fst (push_u16 n)). Proof. repeat constructor. Qed.
Lemma ok_u32 n : steps_ok (fst (push_u32 n)). Proof. repeat constructor. Qed.
Lemma ok_cursor n : steps_ok (fst (push_cursor n)). Proof. repeat constructor. Qed.
Lemma ok_nothing : steps_ok (fst nothing). Proof. constructor. Qed.
Lemma ok_prefixed c : steps_ok (fst (push_prefixed c)). Proof. apply ok_seq; repeat constructor. Qed.
Lemma ok_opt_prefixed o : steps_ok (fst (push_opt_prefixed o)). Proof. destruct o; [apply ok_prefixed|constructor]. Qed.
Lemma ok_opt_u8 i o : steps_ok (fst (push_opt_u8 i o)). Proof. destruct o; repeat constructor. Qed.
Lemma ok_opt_u16 i o : steps_ok (fst (push_opt_u16 i o)). Proof. destruct o; repeat constructor. Qed.
Lemma ok_opt_u32 i o : steps_ok (fst (push_opt_u32 i o)). Proof. destruct o; repeat constructor. Qed.
Lemma ok_opt_vli i o : steps_ok (fst (push_opt_vli i o)). Proof. destruct o; [apply ok_seq; [apply ok_u8|apply ok_vli]|constructor]. Qed.
Lemma ok_opt_cursor i o : steps_ok (fst (push_opt_cursor i o)). Proof. destruct o; repeat constructor. Qed.
Ltac ok_tac := repeat first [apply ok_seq|apply ok_u8|apply ok_u16|apply ok_u32|apply ok_vli|apply ok_cursor|apply ok_nothing|apply ok_prefixed|
  apply ok_opt_prefixed|apply ok_opt_u8|apply ok_opt_u16|apply ok_opt_u32|apply ok_opt_vli|apply ok_opt_cursor].
Lemma ok_user l : steps_ok (fst (push_user_properties l)).
Proof. induction l as [|p l IH]; [constructor|]. cbn [push_user_properties fold_right]. fold (push_user_properties l). ok_tac. exact IH. Qed.
Lemma ok_subscriptions l : steps_ok (fst (push_subscriptions l)).
Proof. induction l as [|p l IH]; [constructor|]. cbn [push_subscriptions fold_right]. fold (push_subscriptions l). ok_tac. exact IH. Qed.
Lemma ok_filters l : steps_ok (fst (push_filters l)).
Proof. induction l as [|p l IH]; [constructor|]. cbn [push_filters fold_right]. fold (push_filters l). ok_tac. exact IH. Qed.
Lemma ok_ids l : steps_ok (fst (push_subscription_ids l)).
Proof. induction l as [|p l IH]; [constructor|]. cbn [push_subscription_ids fold_right]. fold (push_subscription_ids l). ok_tac. exact IH. Qed.
Ltac ok_tac' := repeat first [progress ok_tac|apply ok_user|apply ok_subscriptions|apply ok_filters|apply ok_ids|
  match goal with |- context [if ?b then _ else _] => destruct b end].
Lemma ok_publish v : steps_ok (fst (begin_publish_resolved v)).
Proof. unfold begin_publish_resolved. destruct (publish_lengths v) as [[rl pl]|]; [|constructor]. ok_tac'. Qed.
Lemma ok_puback v : steps_ok (fst (begin_puback v)).
Proof. unfold begin_puback. destruct (puback_lengths v) as [[rl pl]|]; [|constructor]. ok_tac'. Qed.
Lemma ok_disconnect v : steps_ok (fst (begin_disconnect v)).
Proof. unfold begin_disconnect. destruct (disconnect_lengths v) as [[rl pl]|]; [|constructor]. ok_tac'. Qed.
Lemma ok_subscribe v : steps_ok (fst (begin_subscribe v)).
Proof. unfold begin_subscribe. destruct (subscribe_lengths v) as [[rl pl]|]; [|constructor]. destruct (sb_subscription_identifier v); ok_tac'. Qed.
Lemma ok_unsubscribe v : steps_ok (fst (begin_unsubscribe v)).
Proof. unfold begin_unsubscribe. destruct (unsubscribe_lengths v) as [[rl pl]|]; [|constructor]. ok_tac'. Qed.
Lemma ok_connect v : steps_ok (fst (begin_connect v)).
Proof. unfold begin_connect. destruct (connect_lengths v) as [[[rl pl] wl]|]; [|constructor]. destruct (cn_will v); ok_tac'. Qed.
Lemma append_steps e r p : steps_ok (enc_steps e) -> steps_ok (fst p) -> steps_ok (enc_steps (fst (append e r p))).
Proof. intros. cbn [append fst enc_steps]. apply Forall_app; auto. Qed.
Lemma append_packet_steps e p : steps_ok (enc_steps e) -> steps_ok (enc_steps (fst (append_packet e p))).
Proof.
  intros H. destruct p; cbn [append_packet]; try exact H; try (apply append_steps; [exact H|]);
    [apply ok_connect| |apply ok_puback|apply ok_subscribe|apply ok_unsubscribe|unfold begin_pingreq; ok_tac'|apply ok_disconnect].
  destruct (enc_resolver e) as [o|]; [|apply append_steps; [exact H|apply ok_publish]].
  destruct (out_publish o (pb_topic v) (pb_topic_alias v)) as [o' [| |t a]]; [exact H ..|]. apply append_steps; [exact H|apply ok_publish].
Qed.

(** ** Histories *)
Lemma run_steps ops : forall e, steps_ok (enc_steps e) -> steps_ok (enc_steps (fold_left enc_do ops e)).
Proof.
  induction ops as [|o ops IH]; intros e He; [exact He|]. cbn [fold_left]. apply IH. destruct o as [p|cap| |r]; cbn [enc_do].
  - apply append_packet_steps; exact He.
  - unfold encode_to_buffer. pose proof (encode_steps_spec (enc_steps e) (mkbuf cap []) He) as H.
    assert (Hl0 : len (bdata (mkbuf cap [])) <= bcap (mkbuf cap [])) by (cbn [bdata bcap]; rewrite len_nil; lia).
    specialize (H Hl0). destruct (encode_steps (enc_steps e) (mkbuf cap [])) as [[l' b'] r]. apply H.
  - constructor.
  - exact He.
Qed.
Lemma enc_run_steps ops : steps_ok (enc_steps (enc_run ops)). Proof. apply run_steps. constructor. Qed.

(** [e] will write exactly [bs] *)
Lemma emits_flat e : steps_ok (enc_steps e) -> emits e (flat (enc_steps e)).
Proof.
  intros He caps. pose proof (buffers_spec caps e He) as H. destruct (encode_to_buffers e caps) as [[e' out] fin].
  destruct H as (H1 & _ & H2 & H3 & _ & H4). exists e', out, fin, (flat (enc_steps e')). repeat split; auto.
  rewrite (H2 H). reflexivity.
Qed.
Lemma emits_fun e a b : emits e a -> emits e b -> a = b.
Proof.
  intros Ha Hb. pose (caps := repeat 4 (S (length a + length b))).
  destruct (Ha caps) as (e1 & o1 & f1 & r1 & E1 & A1 & A2 & A3 & _), (Hb caps) as (e2 & o2 & f2 & r2 & E2 & B1 & B2 & B3 & _).
  rewrite E1 in E2. injection E2 as <- <- <-. destruct f1.
  - destruct (A2 eq_refl) as [-> _], (B2 eq_refl) as [-> _]. congruence.
  - exfalso. specialize (A3 eq_refl). assert (Hf : filter (N.leb 4) caps = caps).
    { unfold caps. generalize (S (length a + length b)). intros n. induction n as [|n IH]; [reflexivity|]. cbn [repeat filter]. change (4 <=? 4) with true. cbv iota. f_equal. exact IH. }
    rewrite Hf in A3. unfold caps, len in A3. rewrite repeat_length in A3. apply (f_equal (@length N)) in A1. rewrite app_length in A1. lia.
Qed.
Definition begun (q : packet5) : pushed :=
  match q with
  | P_CONNECT v => begin_connect v | P_PUBLISH v => begin_publish_resolved v | P_PUBACK v => begin_puback v | P_SUBSCRIBE v => begin_subscribe v
  | P_UNSUBSCRIBE v => begin_unsubscribe v | P_PINGREQ => begin_pingreq | P_DISCONNECT v => begin_disconnect v
  | _ => ([], Some E_ENCODE_FAILURE)
  end.
Lemma append_begun e p q : resolved e p = Some q -> from_client q ->
  enc_steps (fst (append_packet e p)) = enc_steps e ++ fst (begun q) /\ snd (append_packet e p) = match snd (begun q) with None => A_OK | Some x => A_FAILED x end.
Proof.
  destruct p; cbn [resolved append_packet]; try (intros E _; injection E as <-; cbn [append fst snd enc_steps begun]; auto; fail);
    try (intros E F; injection E as <-; destruct F; fail).
  destruct (enc_resolver e) as [o|].
  - destruct (out_publish o (pb_topic v) (pb_topic_alias v)) as [o' [| |t a]]; cbn [snd]; [discriminate ..|]. intros E _. injection E as <-. cbn [append fst snd enc_steps begun]. auto.
  - intros E _. injection E as <-. cbn [append fst snd enc_steps begun]. auto.
Qed.
Lemma fits_emit q : fields_fit q -> remaining_length q <= 268435455 ->
  exists bs, push_ok (begun q) bs /\ packet_wire q bs /\ (no_size_query q \/ get_encoded_size q = Ok (len bs)) /\ len bs = wire_size q.
Proof.
  destruct q; cbn [fields_fit begun packet_wire no_size_query]; intros F H; try contradiction.
  - destruct (connect_emit v F H) as (bs & H1 & H2 & H3). exists bs. auto.
  - destruct (publish_emit v F H) as (bs & H1 & H2 & H3 & H4). exists bs. auto.
  - destruct (puback_emit v F H) as (bs & H1 & H2 & H3 & H4). exists bs. auto.
  - destruct (subscribe_emit v F H) as (bs & H1 & H2 & H3 & H4). exists bs. auto.
  - destruct (unsubscribe_emit v F H) as (bs & H1 & H2 & H3 & H4). exists bs. auto.
  - exists [192; 0]. repeat split; auto. repeat constructor.
  - destruct (disconnect_emit v F H) as (bs & H1 & H2 & H3 & H4). exists bs. auto.
Qed.
Lemma fits_big q : fields_fit q -> 268435455 < remaining_length q < 4294967296 ->
  (exists e, snd (begun q) = Some e) /\ exists e, get_encoded_size q = Err e.
Proof.
  destruct q; cbn [fields_fit begun]; intros F H; try contradiction.
  - split; [apply (connect_big v H)|cbn [get_encoded_size]; eauto].
  - exact (publish_big v F H).
  - exact (puback_big v H).
  - exact (subscribe_big v F H).
  - exact (unsubscribe_big v H).
  - cbn [remaining_length] in H. lia.
  - exact (disconnect_big v H).
Qed.
Lemma wire_fits q bs : from_client q -> packet_wire q bs -> fields_fit q /\ remaining_length q <= 268435455.
Proof.
  destruct q; cbn [fields_fit packet_wire from_client]; intros F H; try contradiction.
  - exact (connect_of_wire v bs H).
  - exact (publish_of_wire v bs H).
  - exact (puback_of_wire v bs H).
  - exact (subscribe_of_wire v bs H).
  - exact (unsubscribe_of_wire v bs H).
  - split; [exact I|cbn; lia].
  - exact (disconnect_of_wire v bs H).
Qed.
Lemma fits_client q : fields_fit q -> from_client q.
Proof. destruct q; cbn; auto. Qed.
Lemma expressible_iff q : from_client q -> (expressible q <-> fields_fit q /\ remaining_length q <= 268435455).
Proof.
  intros F. split; [intros [bs H]; exact (wire_fits q bs F H)|]. intros [H1 H2]. destruct (fits_emit q H1 H2) as (bs & _ & H & _). exists bs; exact H.
Qed.
Lemma append_emits ops p q b0 : let e := enc_run ops in resolved e p = Some q -> from_client q -> expressible q -> emits e b0 ->
  exists bs, snd (append_packet e p) = A_OK /\ packet_wire q bs /\ emits (fst (append_packet e p)) (b0 ++ bs) /\
    (no_size_query q \/ get_encoded_size q = Ok (len bs)) /\ len bs = wire_size q.
Proof.
  intros e Hr Hc He Hb. pose proof (enc_run_steps ops) as Hs. fold e in Hs. rewrite (emits_fun _ _ _ Hb (emits_flat e Hs)).
  apply (expressible_iff q Hc) in He as [F L]. destruct (fits_emit q F L) as (bs & (P1 & P2 & P3) & W & Z).
  destruct (append_begun e p q Hr Hc) as [A1 A2]. exists bs. rewrite A2, P1. split; [reflexivity|]. split; [exact W|]. split; [|exact Z].
  rewrite <- P2, <- flat_app, <- A1. apply emits_flat. rewrite A1. apply Forall_app; auto.
Qed.
Lemma append_big ops p q : let e := enc_run ops in resolved e p = Some q -> fields_fit q -> 268435455 < remaining_length q < 4294967296 ->
  (exists x, snd (append_packet e p) = A_FAILED x) /\ exists x, get_encoded_size q = Err x.
Proof.
  intros e Hr F L. destruct (fits_big q F L) as [[x Hx] Hz]. destruct (append_begun e p q Hr (fits_client q F)) as [_ A2]. rewrite A2, Hx. eauto.
Qed.
Lemma run_emits ops : exists bs, emits (enc_run ops) bs.
Proof. eexists. apply emits_flat, enc_run_steps. Qed.
