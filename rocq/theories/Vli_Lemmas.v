From Verif Require Import Base BaseLemmas Vli_Spec.
Ltac Zify.zify_post_hook ::= Z.div_mod_to_equations.

(** Sweep over all bytes. *)
Definition all_bytes : list N := map N.of_nat (seq 0 256).
Lemma all_bytes_spec b : b < 256 -> In b all_bytes.
Proof.
  intros H. unfold all_bytes. replace b with (N.of_nat (N.to_nat b)) by lia.
  apply in_map. apply in_seq. lia.
Qed.
Lemma byte_sweep (P : N -> bool) : forallb P all_bytes = true -> forall b, b < 256 -> P b = true.
Proof. intros H b Hb. rewrite forallb_forall in H. apply H, all_bytes_spec, Hb. Qed.

Lemma land127 b : N.land b 127 = b mod 128.
Proof. change 127 with (N.ones 7). rewrite N.land_ones. reflexivity. Qed.
Lemma land15 b : N.land b 15 = b mod 16.
Proof. change 15 with (N.ones 4). rewrite N.land_ones. reflexivity. Qed.
Lemma land128_zero b : b < 256 -> (N.land b 128 =? 0) = (b <? 128).
Proof.
  intros H. pose proof (byte_sweep (fun b => Bool.eqb (N.land b 128 =? 0) (b <? 128)) eq_refl b H) as E.
  cbv beta in E. apply Bool.eqb_prop in E. exact E.
Qed.
Lemma lor128 b : b < 128 -> N.lor b 128 = b + 128.
Proof.
  intros H. pose proof (byte_sweep (fun b => if b <? 128 then N.lor b 128 =? b + 128 else true) eq_refl b ltac:(lia)) as E.
  cbv beta in E. destruct (N.ltb_spec b 128); [|lia]. apply N.eqb_eq in E. exact E.
Qed.
Lemma shiftr4 b : N.shiftr b 4 = b / 16.
Proof. rewrite N.shiftr_div_pow2. reflexivity. Qed.

Lemma vli_len_pos n bs : vli n bs -> 1 <= len bs.
Proof. destruct 1; autorewrite with len; lia. Qed.
Lemma vli_bytes_ok n bs : vli n bs -> bytes_ok bs.
Proof. induction 1; apply bytes_ok_cons; split; try lia; auto using bytes_ok_nil. Qed.
Lemma vli_det n m bs cs r s : vli n bs -> vli m cs -> bs ++ r = cs ++ s -> n = m /\ bs = cs /\ r = s.
Proof.
  intros H; revert m cs r s; induction H as [b Hb|x q bs Hx Hq IH]; intros m cs r s Hm E;
    destruct Hm as [c Hc|y p cs Hy Hp]; cbn [app] in E; inversion E; subst; try lia; auto.
  - assert (x = y) by lia. subst. destruct (IH _ _ _ _ Hp H1) as (-> & -> & ->). auto.
Qed.
Lemma vli_bound n bs : vli n bs -> n < 128 ^ len bs.
Proof.
  induction 1 as [b Hb|x q bs Hx Hq IH]; autorewrite with len.
  - change (128 ^ (1 + 0)) with 128. lia.
  - rewrite N.pow_add_r. change (128 ^ 1) with 128. lia.
Qed.
(** the canonical encoding *)
Lemma vli_exists_len k : forall n, n < 128 ^ (N.of_nat (S k)) -> exists bs, vli n bs /\ len bs <= N.of_nat (S k) /\
  (len bs = 1 \/ 128 ^ (len bs - 1) <= n).
Proof.
  induction k as [|k IH]; intros n Hn.
  - exists [n]. change (128 ^ N.of_nat 1) with 128 in Hn. split; [constructor; lia|]. autorewrite with len. lia.
  - destruct (N.ltb_spec n 128) as [Hs|Hs].
    + exists [n]. split; [constructor; lia|]. autorewrite with len. lia.
    + destruct (IH (n / 128)) as (bs & Hv & Hl & Hm).
      { replace (N.of_nat (S (S k))) with (1 + N.of_nat (S k)) in Hn by lia.
        rewrite N.pow_add_r in Hn. change (128 ^ 1) with 128 in Hn. apply N.div_lt_upper_bound; lia. }
      exists ((n mod 128 + 128) :: bs). split; [|split].
      * replace n with (n mod 128 + 128 * (n / 128)) at 1 by lia. constructor; [lia|auto].
      * autorewrite with len. lia.
      * right. autorewrite with len. pose proof (vli_len_pos _ _ Hv).
        destruct Hm as [Hm|Hm].
        -- rewrite Hm. change (128 ^ (1 + 1 - 1)) with 128. lia.
        -- replace (1 + len bs - 1) with (1 + (len bs - 1)) by lia. rewrite N.pow_add_r. change (128 ^ 1) with 128.
           assert (128 * 128 ^ (len bs - 1) <= 128 * (n / 128)) by (apply N.mul_le_mono_l; exact Hm). lia.
Qed.
Lemma vli_minimal_intro n bs : vli n bs -> (len bs = 1 \/ 128 ^ (len bs - 1) <= n) -> vli_minimal n bs.
Proof.
  intros Hv Hm. split; [exact Hv|]. intros bs' Hv'. pose proof (vli_bound _ _ Hv'). pose proof (vli_len_pos _ _ Hv').
  destruct Hm as [Hm|Hm]; [lia|].
  destruct (N.le_gt_cases (len bs) (len bs')) as [|Hgt]; [assumption|exfalso].
  assert (128 ^ len bs' <= 128 ^ (len bs - 1)) by (apply N.pow_le_mono_r; lia). lia.
Qed.
