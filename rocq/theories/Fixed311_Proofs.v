From Verif Require Import Base BaseLemmas Vli_Spec Vli_Lemmas Fixed311_Model.
Ltac Zify.zify_post_hook ::= Z.div_mod_to_equations.

(** Encoder loop: writes the canonical encoding, if it fits. *)
Fixpoint rl_bytes (fuel : nat) (n : N) : bytes :=
  match fuel with
  | O => []
  | S f => if n / 128 =? 0 then [n mod 128] else (n mod 128 + 128) :: rl_bytes f (n / 128)
  end.
Lemma rl_bytes_vli fuel : forall n, n < 128 ^ N.of_nat (S fuel) -> vli n (rl_bytes (S fuel) n) /\
   (len (rl_bytes (S fuel) n) = 1 \/ 128 ^ (len (rl_bytes (S fuel) n) - 1) <= n).
Proof.
  induction fuel as [|f IH]; intros n Hn.
  - change (128 ^ N.of_nat 1) with 128 in Hn. cbn [rl_bytes].
    destruct (N.eqb_spec (n / 128) 0); [|lia]. split; [|left; reflexivity].
    replace n with (n mod 128) at 1 by lia. constructor. lia.
  - assert (Hd : n / 128 < 128 ^ N.of_nat (S f)).
    { replace (N.of_nat (S (S f))) with (1 + N.of_nat (S f)) in Hn by lia.
      rewrite N.pow_add_r in Hn. change (128 ^ 1) with 128 in Hn. apply N.div_lt_upper_bound; lia. }
    specialize (IH _ Hd). change (rl_bytes (S (S f)) n) with
      (if n / 128 =? 0 then [n mod 128] else (n mod 128 + 128) :: rl_bytes (S f) (n / 128)).
    destruct (N.eqb_spec (n / 128) 0) as [E|E].
    + split; [|left; reflexivity]. replace n with (n mod 128) at 1 by lia. constructor. lia.
    + destruct IH as [IHv IHm]. split.
      * replace n with (n mod 128 + 128 * (n / 128)) at 1 by lia. constructor; [lia|exact IHv].
      * right. autorewrite with len. pose proof (vli_len_pos _ _ IHv).
        destruct IHm as [Hm|Hm].
        -- rewrite Hm. change (128 ^ (1 + 1 - 1)) with 128. lia.
        -- replace (1 + len (rl_bytes (S f) (n / 128)) - 1) with (1 + (len (rl_bytes (S f) (n / 128)) - 1)) by lia.
           rewrite N.pow_add_r. change (128 ^ 1) with 128.
           assert (128 * 128 ^ (len (rl_bytes (S f) (n / 128)) - 1) <= 128 * (n / 128)) by (apply N.mul_le_mono_l; exact Hm). lia.
Qed.
Lemma encode_rl_loop_ok fuel : forall b n, n < 128 ^ N.of_nat (S fuel) ->
  encode_remaining_length_loop (S fuel) b n =
    if len (bdata b) + len (rl_bytes (S fuel) n) <=? bcap b
    then Ok (mkbuf (bcap b) (bdata b ++ rl_bytes (S fuel) n)) else Err E_SHORT_BUFFER.
Proof.
  induction fuel as [|f IH]; intros b n Hn.
  - cbn [encode_remaining_length_loop rl_bytes]. change (128 ^ N.of_nat 1) with 128 in Hn.
    destruct (N.eqb_spec (n / 128) 0); [|lia]. unfold bwrite_u8, bwrite, bind.
    destruct (N.leb_spec (len (bdata b) + len [n mod 128]) (bcap b)); reflexivity.
  - assert (Hd : n / 128 < 128 ^ N.of_nat (S f)).
    { replace (N.of_nat (S (S f))) with (1 + N.of_nat (S f)) in Hn by lia.
      rewrite N.pow_add_r in Hn. change (128 ^ 1) with 128 in Hn. apply N.div_lt_upper_bound; lia. }
    change (rl_bytes (S (S f)) n) with
      (if n / 128 =? 0 then [n mod 128] else (n mod 128 + 128) :: rl_bytes (S f) (n / 128)).
    change (encode_remaining_length_loop (S (S f)) b n) with
      (do b' <- bwrite_u8 b (if n / 128 =? 0 then n mod 128 else N.lor (n mod 128) 128);
       if n / 128 =? 0 then Ok b' else encode_remaining_length_loop (S f) b' (n / 128)).
    destruct (N.eqb_spec (n / 128) 0) as [E|E]; unfold bwrite_u8, bwrite, bind.
    + destruct (N.leb_spec (len (bdata b) + len [n mod 128]) (bcap b)); reflexivity.
    + rewrite lor128 by lia. autorewrite with len.
      pose proof (vli_len_pos _ _ (proj1 (rl_bytes_vli _ _ Hd))).
      destruct (N.leb_spec (len (bdata b) + (1 + 0)) (bcap b)).
      * rewrite (IH _ _ Hd). cbn [bcap bdata]. autorewrite with len.
        rewrite <- app_assoc. cbn [app].
        replace (len (bdata b) + (1 + 0) + len (rl_bytes (S f) (n / 128))) with
                (len (bdata b) + (1 + len (rl_bytes (S f) (n / 128)))) by lia. reflexivity.
      * destruct (N.leb_spec (len (bdata b) + (1 + len (rl_bytes (S f) (n / 128)))) (bcap b)); [lia|reflexivity].
Qed.

Definition rlb (n : N) : bytes := rl_bytes 10 n.
Lemma rlb_minimal n : n < 2 ^ 64 -> vli_minimal n (rlb n).
Proof.
  intros H. destruct (rl_bytes_vli 9 n) as [A B].
  { eapply N.lt_le_trans; [exact H|]. vm_compute. discriminate. }
  apply vli_minimal_intro; assumption.
Qed.
Lemma encode_rl_ok b n : n < 2 ^ 64 ->
  encode_remaining_length b n = if len (bdata b) + len (rlb n) <=? bcap b
    then Ok (mkbuf (bcap b) (bdata b ++ rlb n)) else Err E_SHORT_BUFFER.
Proof.
  intros H. apply encode_rl_loop_ok. eapply N.lt_le_trans; [exact H|]. vm_compute. discriminate.
Qed.
Lemma rlb_len n : n < 2 ^ 28 -> 1 <= len (rlb n) <= 4.
Proof.
  intros H. destruct (rlb_minimal n) as [Hv Hm]; [eapply N.lt_trans; [exact H|reflexivity]|].
  split; [exact (vli_len_pos _ _ Hv)|].
  destruct (vli_exists_len 3 n) as (bs & Hb & Hl & _). { exact H. }
  specialize (Hm _ Hb). lia.
Qed.

(** Decoder loop characterisation: [k] more bytes allowed (k <= 3 continuation bytes). *)
Lemma pow128_lt a b : a < b -> 128 ^ a < 128 ^ b.
Proof. intros; apply N.pow_lt_mono_r; lia. Qed.

Lemma decode_rl_loop_vli n bs : vli n bs -> forall r k acc, len bs + k <= 4 ->
  decode_remaining_length_loop (bs ++ r) (128 ^ k) acc = Ok (acc + n * 128 ^ k, r).
Proof.
  induction 1 as [b Hb|x q bs Hx Hq IH]; intros r k acc Hl; autorewrite with len in Hl;
    cbn [app decode_remaining_length_loop].
  - rewrite land128_zero by lia. destruct (N.ltb_spec b 128); [|lia]. rewrite land127.
    f_equal. f_equal. f_equal. f_equal. lia.
  - rewrite land128_zero by lia. destruct (N.ltb_spec (x + 128) 128); [lia|]. rewrite land127.
    pose proof (vli_len_pos _ _ Hq).
    assert (Hk : 128 ^ k * 128 = 128 ^ (k + 1)) by (rewrite N.pow_add_r; reflexivity).
    rewrite Hk. destruct (N.ltb_spec (128 * 128 * 128) (128 ^ (k + 1))) as [Hb|Hb].
    + assert (128 ^ (k + 1) <= 128 ^ 3) by (apply N.pow_le_mono_r; lia).
      change (128 ^ 3) with (128 * 128 * 128) in *. lia.
    + rewrite IH by lia. f_equal. f_equal. rewrite <- Hk.
      replace ((x + 128) mod 128) with x by lia. lia.
Qed.
Lemma decode_rl_loop_inv cur : forall k acc n r, bytes_ok cur -> k <= 3 ->
  decode_remaining_length_loop cur (128 ^ k) acc = Ok (n, r) ->
  exists m bs, cur = bs ++ r /\ vli m bs /\ len bs + k <= 4 /\ n = acc + m * 128 ^ k.
Proof.
  induction cur as [|b cur IH]; intros k acc n r Hok Hk; cbn [decode_remaining_length_loop]; [discriminate|].
  apply bytes_ok_cons in Hok as [Hb Hok]. rewrite land128_zero by lia. rewrite land127.
  destruct (N.ltb_spec b 128) as [Hs|Hs].
  - intros H; inversion H; subst. exists b, [b]. repeat split; try (constructor; lia).
    + autorewrite with len; lia.
    + f_equal. f_equal. lia.
  - assert (Hk' : 128 ^ k * 128 = 128 ^ (k + 1)) by (rewrite N.pow_add_r; reflexivity). rewrite Hk'.
    destruct (N.ltb_spec (128 * 128 * 128) (128 ^ (k + 1))) as [Hl|Hl]; [discriminate|].
    assert (k + 1 <= 3).
    { destruct (N.le_gt_cases (k + 1) 3); [assumption|]. exfalso.
      assert (128 ^ 3 < 128 ^ (k + 1)) by (apply pow128_lt; lia). change (128 ^ 3) with (128 * 128 * 128) in *. lia. }
    intros H1. apply IH in H1 as (m & bs & -> & Hv & Hlen & ->); [|assumption|lia].
    exists (b mod 128 + 128 * m), (b :: bs). repeat split.
    + replace b with (b mod 128 + 128) at 2 by lia. constructor; [lia|assumption].
    + autorewrite with len. lia.
    + rewrite <- Hk'. lia.
Qed.
Theorem decode_rl_spec cur n r : bytes_ok cur ->
  (decode_remaining_length cur = Ok (n, r) <-> exists bs, cur = bs ++ r /\ vli_legal n bs).
Proof.
  intros Hok. unfold decode_remaining_length. change 1 with (128 ^ 0). split.
  - intros H. apply decode_rl_loop_inv in H as (m & bs & -> & Hv & Hl & ->); [|assumption|lia].
    exists bs. split; [reflexivity|]. rewrite N.add_0_l. change (128 ^ 0) with 1. rewrite N.mul_1_r. split; [assumption|lia].
  - intros (bs & -> & Hv & Hl). rewrite (decode_rl_loop_vli _ _ Hv) by lia. f_equal. f_equal. change (128 ^ 0) with 1. lia.
Qed.
Lemma decode_rl_vli n bs r : vli_legal n bs -> decode_remaining_length (bs ++ r) = Ok (n, r).
Proof.
  intros [Hv Hl]. unfold decode_remaining_length. change 1 with (128 ^ 0).
  rewrite (decode_rl_loop_vli _ _ Hv) by lia. f_equal. f_equal. change (128 ^ 0) with 1. lia.
Qed.
(** errors of the decoder: short exactly on incomplete strings *)
Lemma decode_rl_loop_err cur : forall k acc e, bytes_ok cur -> k <= 3 ->
  decode_remaining_length_loop cur (128 ^ k) acc = Err e ->
  (e = E_SHORT_BUFFER /\ len cur + k < 4 /\ Forall (fun b => 128 <= b < 256) cur) \/
  (e = E_INVALID_REMAINING_LENGTH /\ exists p q, cur = p ++ q /\ len p + k = 4 /\ Forall (fun b => 128 <= b < 256) p).
Proof.
  induction cur as [|b cur IH]; intros k acc e Hok Hk; cbn [decode_remaining_length_loop].
  - intros H; inversion H; subst. left. rewrite len_nil. repeat split; [lia|constructor].
  - apply bytes_ok_cons in Hok as [Hb Hok]. rewrite land128_zero by lia.
    destruct (N.ltb_spec b 128) as [Hs|Hs]; [discriminate|].
    assert (Hk' : 128 ^ k * 128 = 128 ^ (k + 1)) by (rewrite N.pow_add_r; reflexivity). rewrite Hk'.
    destruct (N.ltb_spec (128 * 128 * 128) (128 ^ (k + 1))) as [Hl|Hl].
    + intros H; inversion H; subst. right. split; [reflexivity|]. exists [b], cur. repeat split.
      * autorewrite with len. destruct (N.eq_dec k 3); [lia|exfalso].
        assert (128 ^ (k + 1) <= 128 ^ 3) by (apply N.pow_le_mono_r; lia).
        change (128 ^ 3) with (128 * 128 * 128) in *. lia.
      * constructor; [lia|constructor].
    + assert (k + 1 <= 3).
      { destruct (N.le_gt_cases (k + 1) 3); [assumption|]. exfalso.
        assert (128 ^ 3 < 128 ^ (k + 1)) by (apply pow128_lt; lia). change (128 ^ 3) with (128 * 128 * 128) in *. lia. }
      intros H1. apply IH in H1; [|assumption|lia].
      destruct H1 as [(-> & H1 & H2)|(-> & p & q & -> & H1 & H2)].
      * left. repeat split; [autorewrite with len; lia|]. constructor; [lia|assumption].
      * right. split; [reflexivity|]. exists (b :: p), q. repeat split; [autorewrite with len; lia|]. constructor; [lia|assumption].
Qed.
Lemma decode_rl_err cur e : bytes_ok cur -> decode_remaining_length cur = Err e ->
  (e = E_SHORT_BUFFER /\ vli_incomplete cur) \/
  (e = E_INVALID_REMAINING_LENGTH /\ exists p q, cur = p ++ q /\ len p = 4 /\ Forall (fun b => 128 <= b < 256) p).
Proof.
  intros Hok H. unfold decode_remaining_length in H. change 1 with (128 ^ 0) in H.
  apply decode_rl_loop_err in H; [|assumption|lia].
  destruct H as [(-> & H1 & H2)|(-> & p & q & -> & H1 & H2)].
  - left. split; [reflexivity|]. split; [lia|assumption].
  - right. split; [reflexivity|]. exists p, q. repeat split; [lia|assumption].
Qed.

(** Fixed header. *)
Definition flags_legal (t f : N) : Prop := f < 16 /\ (packet_has_flags t = false -> f = 0).
Lemma first_byte t f : t < 16 -> f < 16 -> N.lor (N.shiftl t 4) (N.land f 15) mod 256 = 16 * t + f.
Proof.
  intros Ht Hf.
  pose proof (byte_sweep (fun b => N.lor (N.shiftl (b / 16) 4) (N.land (b mod 16) 15) mod 256 =? b) eq_refl (16 * t + f) ltac:(lia)) as E.
  cbv beta in E. apply N.eqb_eq in E.
  replace ((16 * t + f) / 16) with t in E by lia. replace ((16 * t + f) mod 16) with f in E by lia. exact E.
Qed.
Definition fh_bytes (h : fixed_header) : bytes := (16 * fh_type h + fh_flags h) :: rlb (fh_rem h).
Lemma fixed_header_encode_eq b h : fh_type h < 16 -> flags_legal (fh_type h) (fh_flags h) -> fh_rem h < 2 ^ 64 ->
  fixed_header_encode b h = bwrite b (fh_bytes h).
Proof.
  intros Ht [Hf Hl] Hr. unfold fixed_header_encode.
  assert (negb (packet_has_flags (fh_type h)) && negb (fh_flags h =? 0) = false) as ->.
  { destruct (packet_has_flags (fh_type h)); [reflexivity|]. rewrite Hl by reflexivity. reflexivity. }
  rewrite first_byte by assumption. unfold bwrite_u8, fh_bytes.
  unfold bwrite at 1. cbn [bind]. autorewrite with len. unfold bwrite. autorewrite with len.
  destruct (N.leb_spec (len (bdata b) + (1 + 0)) (bcap b)) as [H|H]; cbn [bind].
  - rewrite encode_rl_ok by assumption. cbn [bcap bdata]. autorewrite with len.
    replace (len (bdata b) + (1 + 0) + len (rlb (fh_rem h))) with (len (bdata b) + (1 + len (rlb (fh_rem h)))) by lia.
    rewrite <- app_assoc. reflexivity.
  - destruct (N.leb_spec (len (bdata b) + (1 + len (rlb (fh_rem h)))) (bcap b)); [lia|reflexivity].
Qed.
Lemma fixed_header_decode_bytes h r : fh_type h < 16 -> flags_legal (fh_type h) (fh_flags h) -> fh_rem h < 2 ^ 28 ->
  fh_rem h <= len r -> fixed_header_decode (fh_bytes h ++ r) = Ok (h, r).
Proof.
  intros Ht [Hf Hl] Hr Hlen. unfold fixed_header_decode, fh_bytes. cbn [app read_u8].
  rewrite (decode_rl_vli (fh_rem h)).
  2:{ split; [apply rlb_minimal; eapply N.lt_trans; [exact Hr|reflexivity]|]. apply rlb_len; assumption. }
  cbn [bind]. destruct (N.ltb_spec (len r) (fh_rem h)); [lia|].
  unfold get_packet_type. rewrite shiftr4, land15.
  replace ((16 * fh_type h + fh_flags h) / 16) with (fh_type h) by lia.
  replace ((16 * fh_type h + fh_flags h) mod 16) with (fh_flags h) by lia.
  assert (negb (packet_has_flags (fh_type h)) && negb (fh_flags h =? 0) = false) as ->.
  { destruct (packet_has_flags (fh_type h)); [reflexivity|]. rewrite Hl by reflexivity. reflexivity. }
  destruct h; reflexivity.
Qed.
Lemma fh_bytes_len h : fh_rem h < 2 ^ 28 -> 2 <= len (fh_bytes h) <= 5.
Proof. intros H. unfold fh_bytes. autorewrite with len. pose proof (rlb_len _ H). lia. Qed.
