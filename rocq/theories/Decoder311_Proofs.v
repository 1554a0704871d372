From Verif Require Import Base BaseLemmas Vli_Spec Vli_Lemmas Fixed311_Model Fixed311_Proofs Packets311_Spec Packets311_More Decoder311_Model Decoder311_Spec.
Ltac Zify.zify_post_hook ::= Z.div_mod_to_equations.

Lemma vli_not_all_cont n bs x : vli n bs -> Forall (fun b => 128 <= b) (bs ++ x) -> False.
Proof.
  induction 1; cbn [app]; intros Hf; apply Forall_cons_iff in Hf as [Hb Hf]; [lia|auto].
Qed.
Lemma app_inj_len {A} (a b c d : list A) : length a = length c -> a ++ b = c ++ d -> a = c /\ b = d.
Proof.
  revert c; induction a as [|x a IH]; intros [|y c]; cbn; intros Hl E; try discriminate; [auto|].
  inversion E; subst. destruct (IH c) as [-> ->]; auto.
Qed.
Lemma frame_inj p q r s : frame p -> frame q -> p ++ r = q ++ s -> p = q /\ r = s.
Proof.
  intros (b & rl & body & -> & Hv & _) (b' & rl' & body' & -> & Hv' & _) E.
  cbn [app] in E. inversion E as [[E1 E2]]. subst b'. rewrite <- !app_assoc in E2.
  destruct (vli_det _ _ _ _ _ _ Hv Hv' E2) as (Hl & -> & E3).
  assert (length body = length body') by (unfold len in Hl; lia).
  destruct (app_inj_len _ _ _ _ H E3) as [-> ->]. auto.
Qed.
Lemma frame_not_malformed p r : frame p -> malformed (p ++ r) -> False.
Proof.
  intros (b & rl & body & -> & Hv & Hlen) (b' & x & q & E & Hl & Hf).
  cbn [app] in E. inversion E as [[E1 E2]]. rewrite <- app_assoc in E2.
  (* rl is at most 4 long, x exactly 4 *)
  assert (exists y, x = rl ++ y) as [y ->].
  { exists (skipn (length rl) x). assert (length rl <= length x)%nat by (unfold len in *; lia).
    assert (firstn (length rl) (rl ++ body ++ r) = firstn (length rl) (x ++ q)) as E3 by (rewrite E2; reflexivity).
    rewrite !firstn_app, Nat.sub_diag, firstn_all in E3. cbn [firstn] in E3. rewrite app_nil_r in E3.
    replace (length rl - length x)%nat with 0%nat in E3 by lia. cbn [firstn] in E3. rewrite app_nil_r in E3.
    rewrite E3 at 1. rewrite firstn_skipn. reflexivity. }
  eapply vli_not_all_cont; eassumption.
Qed.
Lemma malformed_app s x : malformed s -> malformed (s ++ x).
Proof.
  intros (b & p & q & -> & Hl & Hf). exists b, p, (q ++ x). split; [|auto]. cbn [app]. rewrite <- app_assoc. reflexivity.
Qed.
Lemma frame_nonempty p : frame p -> p <> [].
Proof. intros (b & rl & body & -> & _). discriminate. Qed.

Section S.
Variable H : Type.
Variable handlers : N -> option (bytes -> H -> H * bool).
Notation consume := (consume H handlers).
Notation dispatch := (dispatch H handlers).

Lemma consume_det s h h1 o1 : consume s h h1 o1 -> forall h2 o2, consume s h h2 o2 -> h1 = h2 /\ o1 = o2.
Proof.
  induction 1 as [s h Hp|s h Hm|pkt rest h h1 h2 o Hf Hd Hc IH|pkt rest h h1 Hf Hd]; intros h3 o3 H3.
  - inversion H3; subst; auto.
    + destruct Hp as [Hp _]. contradiction.
    + destruct Hp as [_ Hp]. exfalso. eapply Hp; [reflexivity|assumption].
    + destruct Hp as [_ Hp]. exfalso. eapply Hp; [reflexivity|assumption].
  - inversion H3; subst; auto.
    + destruct H0 as [H0 _]. contradiction.
    + exfalso. eapply frame_not_malformed; eassumption.
    + exfalso. eapply frame_not_malformed; eassumption.
  - inversion H3; subst.
    + destruct H0 as [_ Hp]. exfalso. eapply Hp; [reflexivity|assumption].
    + exfalso. eapply frame_not_malformed; eassumption.
    + destruct (frame_inj _ _ _ _ Hf H1 (eq_sym H0)) as [-> ->]. rewrite Hd in H2. inversion H2; subst. auto.
    + destruct (frame_inj _ _ _ _ Hf H1 (eq_sym H0)) as [-> ->]. rewrite Hd in H2. discriminate.
  - inversion H3; subst.
    + destruct H0 as [_ Hp]. exfalso. eapply Hp; [reflexivity|assumption].
    + exfalso. eapply frame_not_malformed; eassumption.
    + destruct (frame_inj _ _ _ _ Hf H1 (eq_sym H0)) as [-> ->]. rewrite Hd in H2. discriminate.
    + destruct (frame_inj _ _ _ _ Hf H1 (eq_sym H0)) as [-> ->]. rewrite Hd in H2. inversion H2; auto.
Qed.
Lemma consume_app s h h1 o : consume s h h1 o -> forall x,
  match o with
  | Waiting pend => forall h2 o2, consume (pend ++ x) h1 h2 o2 -> consume (s ++ x) h h2 o2
  | Failed => consume (s ++ x) h h1 Failed
  end.
Proof.
  induction 1 as [s h Hp|s h Hm|pkt rest h h1 h2 o Hf Hd Hc IH|pkt rest h h1 Hf Hd]; intros x.
  - auto.
  - apply consume_bad, malformed_app, Hm.
  - specialize (IH x). destruct o; intros; rewrite <- app_assoc; eapply consume_ok; eauto.
  - rewrite <- app_assoc. eapply consume_fail; eauto.
Qed.

Definition dinv (d : decoder311) (pend : bytes) : Prop :=
  match d3_state d with
  | READ_FIRST_BYTE => d3_total d = 0 /\ d3_buf d = [] /\ pend = []
  | READ_REMAINING_LENGTH => d3_total d = 0 /\ d3_buf d = pend /\ exists b ps, pend = b :: ps /\ vli_incomplete ps
  | READ_BODY => d3_buf d = pend /\ exists b rl part n, pend = b :: rl ++ part /\ vli_legal n rl /\ d3_total d = 1 + len rl + n /\ len part <= n
  | PROTOCOL_ERROR => False
  end.
(** between calls a complete packet is never left in the buffer *)
Definition dinv_strict (d : decoder311) (pend : bytes) : Prop :=
  dinv d pend /\ (d3_state d = READ_BODY -> len pend < d3_total d).
Lemma dinv_partial d pend : dinv_strict d pend -> partial_packet pend.
Proof.
  intros [Hd Hs]. unfold dinv in Hd. destruct (d3_state d) eqn:E.
  - destruct Hd as (_ & _ & ->). split.
    + intros (b & p & q & E1 & _). discriminate.
    + intros pkt rest E1 Hf. symmetry in E1. apply app_eq_nil in E1 as [-> _]. exact (frame_nonempty _ Hf eq_refl).
  - destruct Hd as (_ & _ & b & ps & -> & Hl & Hf). split.
    + intros (b' & p & q & E1 & Hlen & _). inversion E1; subst. rewrite len_app in Hl. lia.
    + intros pkt rest E1 (b' & rl & body & -> & Hv & _). cbn [app] in E1. inversion E1; subst.
      rewrite <- app_assoc in Hf. eapply vli_not_all_cont; [exact Hv|]. eapply Forall_impl; [|exact Hf]. cbv beta. lia.
  - destruct Hd as (_ & b & rl & part & n & -> & [Hv Hvl] & Ht & Hpl). specialize (Hs eq_refl). rewrite len_cons, len_app in Hs. split.
    + intros (b' & p & q & E1 & Hlen & Hf). inversion E1 as [[E2 E3]].
      eapply (frame_not_malformed (b :: rl ++ (part ++ repeat 0 (N.to_nat n - length part))) []).
      * exists b, rl, (part ++ repeat 0 (N.to_nat n - length part)). split; [reflexivity|].
        replace (len (part ++ repeat 0 (N.to_nat n - length part))) with n; [split; assumption|].
        unfold len in *. rewrite app_length, repeat_length. lia.
      * rewrite app_nil_r. exists b, p, (q ++ repeat 0 (N.to_nat n - length part)). split; [|auto].
        f_equal. rewrite (app_assoc rl), E3, <- app_assoc. reflexivity.
    + intros pkt rest E1 (b' & rl' & body & -> & Hv' & _). cbn [app] in E1. inversion E1 as [[E2 E3]]. rewrite <- app_assoc in E3.
      destruct (vli_det _ _ _ _ _ _ Hv Hv' E3) as (-> & -> & ->). rewrite len_app in Hs. lia.
  - contradiction.
Qed.

Definition measure (d : decoder311) (data : bytes) : nat :=
  (2 * length data + match d3_state d with READ_BODY => 1 | _ => 0 end)%nat.

Lemma forall_cont l : Forall (fun b => 128 <= b < 256) l -> Forall (fun b => 128 <= b) l.
Proof. intros Hf. eapply Forall_impl; [|exact Hf]. cbv beta. lia. Qed.

Lemma loop_spec fuel : forall d data h pend, dinv d pend -> bytes_ok (pend ++ data) -> (measure d data < fuel)%nat ->
  match d311_loop H handlers fuel d data h with
  | (d', h', R_SUCCESS) => exists pend', dinv_strict d' pend' /\ consume (pend ++ data) h h' (Waiting pend')
  | (d', h', R_ERROR) => d3_state d' = PROTOCOL_ERROR /\ consume (pend ++ data) h h' Failed
  | _ => False
  end.
Proof.
  induction fuel as [|fuel IH]; intros d data h pend Hd Hok Hm; [lia|].
  cbn [d311_loop]. pose proof Hd as Hd0. unfold dinv in Hd. destruct (d3_state d) eqn:Est.
  - (* first byte *)
    destruct Hd as (Ht & Hb & ->). cbn [app] in Hok |- *. unfold handle_read_first_byte. rewrite Hb. rewrite len_nil. cbn [N.eqb negb].
    destruct data as [|byte data'].
    + exists []. assert (dinv_strict d []) by (split; [assumption|rewrite Est; discriminate]).
      split; [assumption|]. apply consume_wait. eapply dinv_partial; eassumption.
    + set (data := byte :: data') in *.
      destruct (fixed_header_decode data) as [[ph temp]|e] eqn:Ef.
      * apply fixed_header_decode_inv in Ef as (p & Edata & (rl & Ep & Hvl) & Hrem & _ & _ & Hokt); [|assumption].
        destruct (N.leb_spec (fh_rem ph) (len temp)) as [Hle|]; [|lia].
        set (n := len data - len temp + fh_rem ph).
        destruct (advance_ok temp (fh_rem ph) Hrem) as [Ha1 Ha2].
        set (body := fst (advance temp (fh_rem ph))) in *. set (rest := snd (advance temp (fh_rem ph))) in *.
        assert (Edata' : data = (p ++ body) ++ rest) by (rewrite <- app_assoc, Ha1; exact Edata).
        assert (Hn : n = len (p ++ body)).
        { unfold n. rewrite Edata. rewrite !len_app, Ha2. lia. }
        assert (Hfr : frame (p ++ body)).
        { rewrite Ep. exists (16 * fh_type ph + fh_flags ph), rl, body. split; [reflexivity|]. rewrite Ha2. assumption. }
        rewrite Hn, to_nat_len. rewrite Edata'. rewrite advance_app. cbn [snd].
        rewrite firstn_app, Nat.sub_diag, firstn_all. cbn [firstn]. rewrite app_nil_r.
        unfold get_packet_type. rewrite shiftr4.
        destruct (safe_packet_handle H handlers (hd 0 (p ++ body) / 16) (p ++ body) h) as [h1 ok] eqn:Eh.
        change (dispatch (p ++ body) h = (h1, ok)) in Eh.
        destruct ok; cbn [result_to_directive].
        -- assert (Hlen : (length rest < length data)%nat).
           { rewrite Edata', app_length. pose proof (frame_nonempty _ Hfr) as Hne. destruct (p ++ body); [congruence|cbn; lia]. }
           assert (Hm' : (measure d rest < fuel)%nat) by (unfold measure in *; rewrite Est in *; lia).
           assert (Hokr : bytes_ok ([] ++ rest)).
           { rewrite Edata' in Hok. apply bytes_ok_app in Hok as [_ Hok]. exact Hok. }
           assert (Hd' : dinv d []) by (unfold dinv; rewrite Est; auto).
           specialize (IH d rest h1 [] Hd' Hokr Hm'). cbn [app] in IH.
           destruct (d311_loop H handlers fuel d rest h1) as [[d' h'] []]; try contradiction.
           ++ destruct IH as (pend' & Hs & Hc). exists pend'. split; [assumption|]. eapply consume_ok; eauto.
           ++ destruct IH as [Hs Hc]. split; [assumption|]. eapply consume_ok; eauto.
        -- split; [reflexivity|]. eapply consume_fail; eauto.
      * (* slow path *)
        set (d1 := mkd311 READ_REMAINING_LENGTH (d3_total d) ([] ++ [byte])).
        assert (Hd' : dinv d1 [byte]).
        { unfold dinv, d1; cbn [d3_state d3_total d3_buf app]. repeat split; auto. exists byte, []. split; [reflexivity|]. split; [reflexivity|constructor]. }
        assert (Hm' : (measure d1 data' < fuel)%nat) by (unfold measure, data in *; rewrite Est in *; cbn in *; lia).
        specialize (IH d1 data' h [byte] Hd' Hok Hm').
        exact IH.
  - (* remaining length *)
    destruct Hd as (Ht & Hb & b & ps & -> & Hinc). unfold handle_read_remaining_length. rewrite Ht. cbn [N.eqb negb].
    destruct data as [|byte data].
    + exists (b :: ps). rewrite app_nil_r in *. assert (dinv_strict d (b :: ps)) by (split; [assumption|rewrite Est; discriminate]).
      split; [assumption|]. apply consume_wait. eapply dinv_partial; eassumption.
    + rewrite Hb. change 1 with (len [b]). change ((b :: ps) ++ [byte]) with ([b] ++ (ps ++ [byte])).
      rewrite advance_app. cbn [snd].
      assert (Hok1 : bytes_ok (ps ++ [byte])).
      { cbn [app] in Hok. apply bytes_ok_cons in Hok as [_ Hok]. change (byte :: data) with ([byte] ++ data) in Hok.
        rewrite app_assoc in Hok. apply bytes_ok_app in Hok; tauto. }
      destruct (decode_remaining_length (ps ++ [byte])) as [[rem r]|e] eqn:Er.
      * apply decode_rl_spec in Er as (bs & Ebs & Hvl); [|assumption].
        (* r must be empty: ps is incomplete *)
        assert (r = [] /\ bs = ps ++ [byte]) as [-> ->].
        { destruct Hvl as [Hv Hl]. destruct Hinc as [Hl' Hf].
          destruct (@exists_last _ bs) as (bs' & z & Ez). { destruct Hv; discriminate. }
          destruct r as [|r0 r]; [rewrite app_nil_r in Ebs; auto|exfalso].
          destruct (@exists_last _ (r0 :: r)) as (r' & y & Er'). { discriminate. }
          rewrite Er' in Ebs. rewrite app_assoc in Ebs. apply app_inj_tail in Ebs as [-> ->].
          apply forall_cont in Hf. exact (vli_not_all_cont _ _ _ Hv Hf). }
        cbn [app]. destruct (N.ltb_spec 0 (rem + len (b :: ps ++ [byte]))) as [|Hbad]; [|rewrite len_cons in Hbad; lia]. cbn [negb].
        set (d1 := mkd311 READ_BODY (rem + len (b :: ps ++ [byte])) (b :: ps ++ [byte])).
        assert (Hd' : dinv d1 (b :: ps ++ [byte])).
        { unfold dinv, d1; cbn [d3_state d3_total d3_buf]. split; [reflexivity|]. exists b, (ps ++ [byte]), [], rem.
          rewrite app_nil_r. split; [reflexivity|]. split; [assumption|]. rewrite len_cons, len_nil. lia. }
        assert (Hm' : (measure d1 data < fuel)%nat) by (unfold measure in *; rewrite Est in *; cbn in *; lia).
        assert (Hok2 : bytes_ok ((b :: ps ++ [byte]) ++ data)) by (cbn [app]; rewrite <- app_assoc; exact Hok).
        specialize (IH d1 data h _ Hd' Hok2 Hm').
        replace (b :: ps ++ byte :: data) with ((b :: ps ++ [byte]) ++ data) by (cbn [app]; rewrite <- app_assoc; reflexivity).
        exact IH.
      * apply decode_rl_err in Er; [|assumption].
        destruct Er as [[-> Hinc']|[-> (p & q & E & Hl & Hf)]].
        -- set (d1 := mkd311 (d3_state d) 0 ([b] ++ ps ++ [byte])).
           assert (Hd' : dinv d1 (b :: ps ++ [byte])).
           { unfold dinv, d1; cbn [d3_state d3_total d3_buf]. rewrite Est. repeat split. exists b, (ps ++ [byte]). auto. }
           assert (Hm' : (measure d1 data < fuel)%nat) by (unfold measure, d1 in *; cbn [d3_state]; rewrite Est in *; cbn in *; lia).
           assert (Hok2 : bytes_ok ((b :: ps ++ [byte]) ++ data)) by (cbn [app]; rewrite <- app_assoc; exact Hok).
           specialize (IH d1 data h _ Hd' Hok2 Hm').
           replace ((b :: ps) ++ byte :: data) with ((b :: ps ++ [byte]) ++ data) by (cbn [app]; rewrite <- app_assoc; reflexivity).
           exact IH.
        -- split; [reflexivity|]. apply consume_bad. exists b, p, (q ++ data). split; [|split; [assumption|apply forall_cont; assumption]].
           cbn [app]. f_equal. rewrite (app_assoc p), <- E, <- app_assoc. reflexivity.
  - (* body *)
    destruct Hd as (Hb & b & rl & part & n & -> & Hvl & Ht & Hpl). unfold handle_read_body.
    destruct (N.ltb_spec 0 (d3_total d)) as [_|Hbad]; [|lia]. cbn [negb]. rewrite Hb, Ht.
    set (amount := N.min (1 + len rl + n - len (b :: rl ++ part)) (len data)).
    assert (Ham : amount <= len data) by (unfold amount; lia).
    destruct (advance_ok data amount Ham) as [Ha1 Ha2].
    destruct (advance data amount) as [copy rest]. cbn [fst snd] in Ha1, Ha2. cbn [d3_total d3_state].
    assert (Hlb : len ((b :: rl ++ part) ++ copy) = 1 + len rl + len part + amount).
    { rewrite len_app, len_cons, len_app. lia. }
    assert (Hamt : amount = N.min (n - len part) (len data)).
    { unfold amount. rewrite len_cons, len_app. f_equal. lia. }
    assert (Eall : (b :: rl ++ part) ++ data = ((b :: rl ++ part) ++ copy) ++ rest) by (rewrite <- app_assoc, Ha1; reflexivity).
    rewrite Hlb. destruct (N.eqb_spec (1 + len rl + len part + amount) (1 + len rl + n)) as [Heq|Hne].
    + assert (Hfr : frame ((b :: rl ++ part) ++ copy)).
      { exists b, rl, (part ++ copy). split; [cbn [app]; rewrite <- app_assoc; reflexivity|]. rewrite len_app.
        replace (len part + len copy) with n by lia. assumption. }
      unfold get_packet_type. rewrite shiftr4.
      destruct (safe_packet_handle H handlers (hd 0 ((b :: rl ++ part) ++ copy) / 16) ((b :: rl ++ part) ++ copy) h) as [h1 ok] eqn:Eh.
      change (dispatch ((b :: rl ++ part) ++ copy) h = (h1, ok)) in Eh. rewrite Eall.
      destruct ok.
      * set (d1 := d311_reset_for_new_packet _).
        assert (Ed1 : d1 = mkd311 READ_FIRST_BYTE 0 []) by (unfold d1, d311_reset_for_new_packet; cbn [d3_state]; rewrite Est; reflexivity).
        rewrite Ed1. assert (Hd' : dinv (mkd311 READ_FIRST_BYTE 0 []) []) by (unfold dinv; cbn; auto).
        assert (Hm' : (measure (mkd311 READ_FIRST_BYTE 0 []) rest < fuel)%nat).
        { unfold measure in *. rewrite Est in Hm. cbn [d3_state]. assert (length rest <= length data)%nat by (rewrite <- Ha1, app_length; lia). lia. }
        assert (Hokr : bytes_ok ([] ++ rest)). { rewrite Eall in Hok. apply bytes_ok_app in Hok as [_ Hok]. exact Hok. }
        specialize (IH _ rest h1 [] Hd' Hokr Hm'). cbn [app] in IH.
        destruct (d311_loop H handlers fuel _ rest h1) as [[d' h'] []]; try contradiction.
        -- destruct IH as (pend' & Hs & Hc). exists pend'. split; [assumption|]. eapply consume_ok; eauto.
        -- destruct IH as [Hs Hc]. split; [assumption|]. eapply consume_ok; eauto.
      * split; [reflexivity|]. eapply consume_fail; eauto.
    + (* out of data: everything was copied *)
      assert (amount = len data) by lia. assert (rest = []) as ->. { apply len_zero_nil. rewrite <- Ha1, len_app in H0. lia. }
      rewrite app_nil_r in Ha1. subst copy. clear Ha2.
      exists ((b :: rl ++ part) ++ data).
      set (d1 := mkd311 _ _ _).
      assert (Hs : dinv_strict d1 ((b :: rl ++ part) ++ data)).
      { split.
        - unfold dinv, d1; cbn [d3_state d3_total d3_buf]. rewrite Est. split; [reflexivity|].
          exists b, rl, (part ++ data), n. split; [cbn [app]; rewrite <- app_assoc; reflexivity|]. split; [assumption|]. split; [reflexivity|].
          rewrite len_app. lia.
        - intros _. unfold d1; cbn [d3_total]. lia. }
      split; [assumption|]. apply consume_wait. eapply dinv_partial; eassumption.
  - contradiction.
Qed.

Lemma on_bytes_spec d data h pend : dinv d pend -> bytes_ok (pend ++ data) ->
  match d311_on_bytes H handlers d data h with
  | (d', h', R_SUCCESS) => exists pend', dinv_strict d' pend' /\ consume (pend ++ data) h h' (Waiting pend')
  | (d', h', R_ERROR) => d3_state d' = PROTOCOL_ERROR /\ consume (pend ++ data) h h' Failed
  | _ => False
  end.
Proof. intros Hd Hok. apply loop_spec; auto. unfold measure. destruct (d3_state d); lia. Qed.
Lemma on_bytes_error d data h : d3_state d = PROTOCOL_ERROR ->
  exists d', d311_on_bytes H handlers d data h = (d', h, R_ERROR) /\ d3_state d' = PROTOCOL_ERROR.
Proof.
  intros E. unfold d311_on_bytes. replace (2 * length data + 4)%nat with (S (2 * length data + 3)) by lia.
  cbn [d311_loop]. rewrite E. eexists. split; [reflexivity|]. reflexivity.
Qed.
Lemma calls_error chunks : forall d h, d3_state d = PROTOCOL_ERROR ->
  exists d', d311_calls H handlers d chunks h = (d', h, repeat R_ERROR (length chunks)) /\ d3_state d' = PROTOCOL_ERROR.
Proof.
  induction chunks as [|c chunks IH]; intros d h E; cbn [d311_calls length repeat]; [eauto|].
  destruct (on_bytes_error d c h E) as (d1 & -> & E1). destruct (IH d1 h E1) as (d2 & -> & E2). eauto.
Qed.
(** outcome of a list of calls, as a function of the return codes *)
Lemma calls_spec chunks : forall d h pend, dinv_strict d pend -> bytes_ok (pend ++ concat chunks) ->
  exists d' h' rs, d311_calls H handlers d chunks h = (d', h', rs) /\
   ((rs = repeat R_SUCCESS (length chunks) /\ exists pend', dinv_strict d' pend' /\ consume (pend ++ concat chunks) h h' (Waiting pend')) \/
    ((exists k, (k < length chunks)%nat /\ rs = repeat R_SUCCESS k ++ repeat R_ERROR (length chunks - k)) /\
      d3_state d' = PROTOCOL_ERROR /\ consume (pend ++ concat chunks) h h' Failed)).
Proof.
  induction chunks as [|c chunks IH]; intros d h pend Hd Hok; cbn [d311_calls concat length repeat].
  - exists d, h, []. split; [reflexivity|]. left. split; [reflexivity|]. exists pend. rewrite app_nil_r.
    split; [assumption|]. apply consume_wait. eapply dinv_partial; eassumption.
  - cbn [concat] in Hok. pose proof (on_bytes_spec d c h pend (proj1 Hd)) as Hs.
    rewrite app_assoc in Hok |- *. pose proof Hok as Hok'. apply bytes_ok_app in Hok' as [Hok1 Hokc]. specialize (Hs Hok1).
    destruct (d311_on_bytes H handlers d c h) as [[d1 h1] []]; try contradiction.
    + destruct Hs as (pend1 & Hs1 & Hc1).
      assert (Hok2 : bytes_ok (pend1 ++ concat chunks)).
      { apply bytes_ok_app. split; [|assumption]. clear -Hc1 Hok1.
        remember (pend ++ c) as s. remember (Waiting pend1) as o. clear Heqs. induction Hc1; inversion Heqo; subst; auto.
        apply IHHc1; auto. apply bytes_ok_app in Hok1. tauto. }
      destruct (IH d1 h1 pend1 Hs1 Hok2) as (d2 & h2 & rs & -> & [(-> & pend' & Hs2 & Hc2)|((k & Hk & ->) & He & Hc2)]).
      * exists d2, h2, (R_SUCCESS :: repeat R_SUCCESS (length chunks)). split; [reflexivity|]. left. split; [reflexivity|].
        exists pend'. split; [assumption|]. exact (consume_app _ _ _ _ Hc1 _ _ _ Hc2).
      * eexists d2, h2, _. split; [reflexivity|]. right. split.
        -- exists (S k). split; [lia|]. cbn [repeat app]. replace (S (length chunks) - S k)%nat with (length chunks - k)%nat by lia. reflexivity.
        -- split; [assumption|]. exact (consume_app _ _ _ _ Hc1 _ _ _ Hc2).
    + destruct Hs as [He Hc1]. destruct (calls_error chunks d1 h1 He) as (d2 & -> & He2).
      eexists d2, h1, _. split; [reflexivity|]. right. split.
      * exists 0%nat. split; [lia|]. reflexivity.
      * split; [assumption|]. exact (consume_app _ _ _ _ Hc1 (concat chunks)).
Qed.

Lemma init_strict : dinv_strict d311_init [].
Proof. split; [unfold dinv; cbn; auto|discriminate]. Qed.

Lemma stream chunks h d' h' rs : bytes_ok (concat chunks) -> d311_calls H handlers d311_init chunks h = (d', h', rs) ->
  (rs = repeat R_SUCCESS (length chunks) /\ exists pend, consume (concat chunks) h h' (Waiting pend)) \/
  ((exists k, (k < length chunks)%nat /\ rs = repeat R_SUCCESS k ++ repeat R_ERROR (length chunks - k)) /\ consume (concat chunks) h h' Failed).
Proof.
  intros Hok E. destruct (calls_spec chunks d311_init h [] init_strict Hok) as (d2 & h2 & rs2 & E2 & Hc).
  rewrite E in E2. inversion E2; subst. cbn [app] in Hc. destruct Hc as [(-> & p & _ & Hc)|(Hk & _ & Hc)]; eauto.
Qed.
Lemma fragmentation c1 c2 h d1 h1 rs1 d2 h2 rs2 : bytes_ok (concat c1) -> concat c1 = concat c2 ->
  d311_calls H handlers d311_init c1 h = (d1, h1, rs1) -> d311_calls H handlers d311_init c2 h = (d2, h2, rs2) ->
  h1 = h2 /\ (In R_ERROR rs1 <-> In R_ERROR rs2).
Proof.
  intros Hok E E1 E2. pose proof Hok as Hok2. rewrite E in Hok2.
  assert (Hin : forall k m, (k < m)%nat -> In R_ERROR (repeat R_SUCCESS k ++ repeat R_ERROR (m - k))).
  { intros k m Hk. apply in_or_app. right. replace (m - k)%nat with (S (m - k - 1)) by lia. left. reflexivity. }
  assert (Hnin : forall k, ~ In R_ERROR (repeat R_SUCCESS k)).
  { intros k Hi. apply repeat_spec in Hi. discriminate. }
  destruct (stream _ _ _ _ _ Hok E1) as [(-> & p & Hc1)|((k & Hk & ->) & Hc1)];
  destruct (stream _ _ _ _ _ Hok2 E2) as [(-> & p2 & Hc2)|((k2 & Hk2 & ->) & Hc2)];
  rewrite <- E in Hc2; destruct (consume_det _ _ _ _ Hc1 _ _ Hc2) as [-> Ho]; try discriminate; split; auto.
  - split; intros Hi; exfalso; eapply Hnin; eassumption.
  - split; intros _; apply Hin; assumption.
Qed.

Definition op_ok (o : d311_op) := match o with Feed c => bytes_ok c | NewConnection => True end.
Definition hist_inv (d : decoder311) := d3_state d = PROTOCOL_ERROR \/ exists pend, dinv_strict d pend /\ bytes_ok pend.
Lemma consume_pend_ok s h h' p : consume s h h' (Waiting p) -> bytes_ok s -> bytes_ok p.
Proof.
  intros Hc. remember (Waiting p) as o. induction Hc; inversion Heqo; subst; auto. intros Hok. apply IHHc; auto.
  apply bytes_ok_app in Hok. tauto.
Qed.
Lemma on_bytes_inv d c h : hist_inv d -> bytes_ok c ->
  exists d' h' r, d311_on_bytes H handlers d c h = (d', h', r) /\ hist_inv d' /\
    (r = R_SUCCESS \/ (r = R_ERROR /\ d3_state d' = PROTOCOL_ERROR)).
Proof.
  intros [He|(p & Hd & Hp)] Hc.
  - destruct (on_bytes_error d c h He) as (d' & -> & He'). exists d', h, R_ERROR. unfold hist_inv. auto.
  - assert (Hok : bytes_ok (p ++ c)) by (apply bytes_ok_app; auto).
    pose proof (on_bytes_spec d c h p (proj1 Hd) Hok) as Hs.
    destruct (d311_on_bytes H handlers d c h) as [[d' h'] []]; try contradiction; exists d', h'; eexists; (split; [reflexivity|]).
    + destruct Hs as (p' & Hs & Hcs). split; [|auto]. right. exists p'. split; [assumption|]. eapply consume_pend_ok; eassumption.
    + destruct Hs as [Hs _]. unfold hist_inv. auto.
Qed.
Lemma history_safe ops : forall d h d' h' rs, hist_inv d -> Forall op_ok ops -> d311_history H handlers d ops h = (d', h', rs) ->
  hist_inv d' /\ Forall (fun r => r = R_SUCCESS \/ r = R_ERROR) rs.
Proof.
  induction ops as [|[c|] ops IH]; intros d h d' h' rs Hd Hok E; cbn [d311_history] in E.
  - inversion E; subst. split; [assumption|constructor].
  - apply Forall_cons_iff in Hok as [Hc Hok]. destruct (on_bytes_inv d c h Hd Hc) as (d1 & h1 & r & E1 & Hd1 & Hr). rewrite E1 in E.
    destruct (d311_history H handlers d1 ops h1) as [[d2 h2] rs2] eqn:E2. inversion E; subst.
    destruct (IH _ _ _ _ _ Hd1 Hok E2) as [Hd2 Hrs]. split; [assumption|]. constructor; [tauto|assumption].
  - apply Forall_cons_iff in Hok as [_ Hok]. eapply IH; [|eassumption|eassumption]. right. exists []. split; [exact init_strict|constructor].
Qed.
Lemma init_hist : hist_inv d311_init.
Proof. right. exists []. split; [exact init_strict|constructor]. Qed.
Lemma history_app ops1 : forall ops2 d h,
  d311_history H handlers d (ops1 ++ ops2) h =
  let '(d1, h1, rs1) := d311_history H handlers d ops1 h in
  let '(d2, h2, rs2) := d311_history H handlers d1 ops2 h1 in (d2, h2, rs1 ++ rs2).
Proof.
  induction ops1 as [|[c|] ops IH]; intros ops2 d h; cbn [d311_history app].
  - destruct (d311_history H handlers d ops2 h) as [[? ?] ?]. reflexivity.
  - destruct (d311_on_bytes H handlers d c h) as [[d1 h1] r]. rewrite IH.
    destruct (d311_history H handlers d1 ops h1) as [[d2 h2] rs2]. destruct (d311_history H handlers d2 ops2 h2) as [[? ?] ?]. reflexivity.
  - apply IH.
Qed.
Lemma history_feeds chunks : forall d h, d311_history H handlers d (map Feed chunks) h = d311_calls H handlers d chunks h.
Proof. induction chunks as [|c l IH]; intros d h; cbn [map d311_history d311_calls]; [reflexivity|]. destruct (d311_on_bytes H handlers d c h) as [[? ?] ?]. rewrite IH. reflexivity. Qed.
Lemma errors_final ops c chunks h d1 h1 rs1 : Forall op_ok ops -> bytes_ok c ->
  d311_history H handlers d311_init (ops ++ [Feed c]) h = (d1, h1, rs1 ++ [R_ERROR]) ->
  exists d2, d311_history H handlers d311_init (ops ++ Feed c :: map Feed chunks) h = (d2, h1, rs1 ++ R_ERROR :: repeat R_ERROR (length chunks)).
Proof.
  intros Ho Hc E. change (Feed c :: map Feed chunks) with ([Feed c] ++ map Feed chunks). rewrite app_assoc, history_app, E.
  assert (d3_state d1 = PROTOCOL_ERROR) as He.
  { rewrite history_app in E. destruct (d311_history H handlers d311_init ops h) as [[d0 h0] rs0] eqn:E0.
    destruct (history_safe _ _ _ _ _ _ init_hist Ho E0) as [Hd0 _].
    cbn [d311_history] in E. destruct (on_bytes_inv d0 c h0 Hd0 Hc) as (d' & h' & r & E1 & Hd1 & Hr). rewrite E1 in E. inversion E; subst.
    apply app_inj_tail in H3 as [_ ->]. destruct Hr as [Hr|[_ Hr]]; [discriminate|assumption]. }
  rewrite history_feeds. destruct (calls_error chunks d1 h1 He) as (d2 & -> & _). exists d2. rewrite <- app_assoc. reflexivity.
Qed.
Lemma reset_fresh pre post d h : d311_history H handlers d (pre ++ NewConnection :: post) h =
  let '(_, h1, rs1) := d311_history H handlers d pre h in
  let '(d2, h2, rs2) := d311_history H handlers d311_init post h1 in (d2, h2, rs1 ++ rs2).
Proof. rewrite history_app. destruct (d311_history H handlers d pre h) as [[? ?] ?]. reflexivity. Qed.
End S.
