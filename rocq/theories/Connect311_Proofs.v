From Verif Require Import Base BaseLemmas Vli_Spec Vli_Lemmas Fixed311_Model Fixed311_Proofs Packets311_Model Packets311_Spec Packets311_Proofs Connect311_Build.
Ltac Zify.zify_post_hook ::= Z.div_mod_to_equations.
Lemma flag_bits_arith c w q r p u : q < 4 ->
  let f := 2 * b2n c + 4 * b2n w + (8 * q + 32 * b2n r) + 64 * b2n p + 128 * b2n u in
  flag_bit f 1 = c /\ flag_bit f 2 = w /\ N.land (N.shiftr f 3) 3 = q /\ flag_bit f 5 = r /\ flag_bit f 6 = p /\ flag_bit f 7 = u.
Proof.
  intros Hq. assert (q = 0 \/ q = 1 \/ q = 2 \/ q = 3) as [->|[->|[->| ->]]] by lia;
  destruct c, w, r, p, u; repeat split; reflexivity.
Qed.

Definition connect_flag_byte (c : connect_info) : N :=
  2 * b2n (ci_clean c) + 4 * b2n (is_some (ci_will c)) +
   match ci_will c with Some (_, q, r, _) => 8 * q + 32 * b2n r | None => 0 end +
   64 * b2n (is_some (ci_password c)) + 128 * b2n (is_some (ci_username c)).
Lemma connect_encode_info c b : info_ok c ->
  connect_encode b (packet_of_info c) = bwrite b (fh_bytes (mkfh PT_CONNECT (len (connect_body c)) 0) ++ connect_body c).
Proof.
  intros Hc. pose proof (info_ok_len _ Hc) as Hl. destruct Hc as (H1 & H2 & H3 & H4 & H5).
  assert (Hfl : flags_legal PT_CONNECT 0) by (split; reflexivity).
  unfold connect_encode.
  assert (HF : connect_flags (packet_of_info c) = connect_flag_byte c).
  { unfold connect_flags, packet_of_info, connect_flag_byte.
    destruct (ci_will c) as [[[[t q] r] m]|];
      cbn [cn_clean cn_has_will cn_will_qos cn_will_retain cn_has_password cn_has_username is_some].
    - rewrite connect_flags_arith by lia. reflexivity.
    - rewrite connect_flags_arith by lia. cbn [b2n]. lia. }
  rewrite HF. unfold connect_body. fold (connect_flag_byte c). set (F := connect_flag_byte c). clearbody F. clear HF.
  assert (Hfb : forall b0, fixed_header_encode b0 (cn_fh (packet_of_info c)) = bwrite b0 (fh_bytes (mkfh PT_CONNECT (len (connect_body c)) 0))).
  { intros b0. unfold packet_of_info. destruct (ci_will c) as [[[[t q] r] m]|]; cbn [cn_fh];
    apply hdr_encode; auto; try reflexivity; n28; lia. }
  rewrite Hfb. set (HB := fh_bytes _). unfold packet_of_info.
  assert (Hpn : forall b0, match encode_buffer b0 s_protocol_name with Ok b => Ok b | Err _ => Err E_SHORT_BUFFER end = bwrite b0 (str [77; 81; 84; 84])).
  { intros b0. rewrite encode_buffer_eq by (unfold str_ok; vm_compute; discriminate). unfold s_protocol_name.
    destruct (bwrite b0 _) eqn:E; [reflexivity|]. apply bwrite_err in E as [_ ->]. reflexivity. }
  destruct (ci_will c) as [[[[t q] r] m]|]; destruct (ci_username c) as [u|]; destruct (ci_password c) as [w|]; try discriminate;
    cbn [cn_has_password cn_has_username cn_keep_alive cn_client_id cn_has_will cn_will_topic cn_will_message cn_username cn_password is_some negb andb opt_bytes opt_str];
    unfold bwrite_u8, bwrite_be16; cbn [bind];
    repeat match goal with H : _ /\ _ |- _ => destruct H end.
  all: repeat first [rewrite bwrite_bwrite_k | rewrite bind_ok | rewrite bwrite_bwrite | rewrite bind_assoc | rewrite enc_bind by assumption
     | etransitivity; [apply bind_ext; intro; first [rewrite Hpn; reflexivity | rewrite bind_Ok; reflexivity | rewrite bind_assoc; reflexivity | rewrite enc_bind by assumption; reflexivity
                                                        | rewrite encode_buffer_eq by assumption; reflexivity]|] ].
  all: f_equal; rewrite <- !app_assoc; cbn [app]; rewrite ?app_nil_r; try reflexivity.

Qed.

Lemma beqb_refl a : beqb a a = true.
Proof. induction a; cbn; [reflexivity|]. rewrite N.eqb_refl. assumption. Qed.
Lemma connect_decode_info c rest : info_ok c ->
  connect_decode ((fh_bytes (mkfh PT_CONNECT (len (connect_body c)) 0) ++ connect_body c) ++ rest) = Ok (packet_of_info c, rest).
Proof.
  intros Hc. pose proof (info_ok_len _ Hc) as Hl. destruct Hc as (H1 & H2 & H3 & H4 & H5).
  assert (Hfl : flags_legal PT_CONNECT 0) by (split; reflexivity).
  unfold connect_decode. rewrite <- app_assoc. rewrite hdr_decode; [|reflexivity|assumption|n28; lia]. cbn [bind].
  unfold connect_body at 1. fold (connect_flag_byte c). rewrite <- !app_assoc.
  rewrite decode_buffer_str by (unfold str_ok; vm_compute; discriminate). cbn [bind].
  change (negb (len [77; 81; 84; 84] =? len s_protocol_name)) with false.
  change (negb (beqb [77; 81; 84; 84] s_protocol_name)) with false. cbv iota.
  cbn [app read_u8 of_opt bind]. change (negb (4 =? S_PROTOCOL_LEVEL)) with false. cbv iota.
  rewrite read_be16_be16 by assumption. cbn [of_opt bind]. rewrite decode_buffer_str by assumption. cbn [bind].
  assert (HF : exists q r, q < 4 /\ connect_flag_byte c = 2 * b2n (ci_clean c) + 4 * b2n (is_some (ci_will c)) +
     (8 * q + 32 * b2n r) + 64 * b2n (is_some (ci_password c)) + 128 * b2n (is_some (ci_username c)) /\
     match ci_will c with Some (_, q', r', _) => q' = q /\ r' = r | None => q = 0 /\ r = false end).
  { unfold connect_flag_byte. destruct (ci_will c) as [[[[t q] r] m]|].
    - exists q, r. split; [lia|]. auto.
    - exists 0, false. split; [lia|]. split; [reflexivity|auto]. }
  destruct HF as (q & r & Hq & -> & Hw). destruct (flag_bits_arith (ci_clean c) (is_some (ci_will c)) q r (is_some (ci_password c)) (is_some (ci_username c)) Hq)
    as (-> & -> & -> & -> & -> & ->).
  unfold packet_of_info. destruct (ci_will c) as [[[[t q'] r'] m]|]; destruct (ci_username c) as [u|]; destruct (ci_password c) as [w|]; try discriminate;
    repeat match goal with H : _ /\ _ |- _ => destruct H end; subst; cbn [is_some opt_str opt_bytes app negb andb bind]; rewrite <- ?app_assoc;
    repeat (rewrite decode_buffer_str by assumption; cbn [bind]); reflexivity.
Qed.
Lemma connect_roundtrip cid clean ka ops b rest :
  str_ok cid -> ka < 65536 -> Forall op_ok ops -> (length (filter is_will ops) <= 1)%nat ->
  exists w, wire PT_CONNECT 0 (connect_body (connect_info_of cid clean ka ops)) w /\ connect_encode b (build_connect cid clean ka ops) = bwrite b w /\ connect_decode (w ++ rest) = Ok (build_connect cid clean ka ops, rest).
Proof.
  intros Hcid Hka Hops Hw. destruct (build_connect_ok cid clean ka ops) as [E Hok]; auto. rewrite E.
  eexists. split; [|split].
  - apply fh_wire. pose proof (info_ok_len _ Hok). n28. lia.
  - apply connect_encode_info; assumption.
  - apply connect_decode_info; assumption.
Qed.
