From Verif Require Import Base BaseLemmas RateLimiter_Model RateLimiter_Spec.

Lemma two64_val : two64 = 18446744073709551616. Proof. reflexivity. Qed.
Lemma mul_sat_le a b : mul_sat a b <= a * b.
Proof. unfold mul_sat. destruct (N.ltb_spec (a * b) two64); lia. Qed.
Lemma mul_sat_lt a b : mul_sat a b < two64.
Proof. unfold mul_sat, two64 in *. destruct (N.ltb_spec (a * b) 18446744073709551616); lia. Qed.
Lemma mul_sat_eq a b : a * b < two64 -> mul_sat a b = a * b.
Proof. unfold mul_sat. destruct (N.ltb_spec (a * b) two64); lia. Qed.
Lemma u64_small n : n < two64 -> u64 n = n.
Proof. intros. unfold u64. apply N.mod_small. assumption. Qed.
Lemma u64_le n : u64 n <= n.
Proof. unfold u64. apply N.mod_le. discriminate. Qed.
Lemma u64_sub a b : b <= a -> a < two64 -> u64 (a + two64 - b) = a - b.
Proof.
  intros H1 H2. unfold u64. replace (a + two64 - b) with ((a - b) + 1 * two64) by lia. rewrite N.mod_add by discriminate.
  apply N.mod_small. lia.
Qed.

(** whole seconds and remainder *)
Lemma gen_split rate k f : rate * (nanos * k + f) / nanos = rate * k + rate * f / nanos.
Proof.
  replace (rate * (nanos * k + f)) with ((rate * k) * nanos + rate * f) by lia. apply N.div_add_l. discriminate.
Qed.
Lemma frac_le rate f : f <= nanos -> rate * f / nanos <= rate.
Proof. intros. apply N.div_le_upper_bound; [discriminate|]. nia. Qed.
Lemma frac_mono rate f g : f <= g -> rate * f / nanos <= rate * g / nanos.
Proof. intros. apply N.div_le_mono; [discriminate|]. nia. Qed.
Lemma generated_mono rate t0 a b : a <= b -> generated rate t0 a <= generated rate t0 b.
Proof. intros. unfold generated. apply N.div_le_mono; [discriminate|]. nia. Qed.
(** generated tokens over a gap, in terms of the gap only *)
Ltac Zify.zify_post_hook ::= Z.div_mod_to_equations.
Lemma generated_gap rate t0 a b : t0 <= a -> a <= b -> generated rate t0 b - generated rate t0 a <= generated rate a b + 1.
Proof.
  intros. unfold generated. assert (b - t0 = (a - t0) + (b - a)) as -> by lia. rewrite N.mul_add_distr_l.
  set (x := rate * (a - t0)). set (y := rate * (b - a)). lia.
Qed.
Lemma generated_gap_lower rate t0 a b : t0 <= a -> a <= b -> generated rate a b <= generated rate t0 b - generated rate t0 a.
Proof.
  intros. unfold generated. assert (b - t0 = (a - t0) + (b - a)) as -> by lia. rewrite N.mul_add_distr_l.
  set (x := rate * (a - t0)). set (y := rate * (b - a)). lia.
Qed.

Ltac Zify.zify_post_hook ::= idtac.
(** Simulation relation *)
Definition rsim (c : rl_config) (s : rl_state) (i : ideal) : Prop :=
  rl_tokens s <= i_tokens i /\ i_tokens i <= rl_max c /\ rl_tokens s <= rl_max c /\ rl_last s = i_now i /\ i_start i <= i_now i /\
  rl_fnanos s = (i_now i - i_start i) mod nanos /\ rl_ftokens s = rl_rate c * rl_fnanos s / nanos.

Lemma regen_core rate tok mx sec rem fn ft k E0 :
  rate * nanos < two64 -> rem < nanos -> fn < nanos -> ft = rate * fn / nanos -> E0 = nanos * k + fn -> tok <= mx ->
  let E1 := E0 + (nanos * sec + rem) in
  let f0 := u64 (fn + rem) in
  let '(regen, f, nft) :=
    if f0 <? nanos then
      let nft := mul_sat f0 rate / nanos in (u64 (mul_sat sec rate + u64 (nft + two64 - ft)), f0, nft)
    else
      let regen := u64 (mul_sat sec rate + u64 (rate + two64 - ft)) in
      let f := f0 - nanos in
      let nft := mul_sat f rate / nanos in
      (u64 (regen + nft), f, nft) in
  f = E1 mod nanos /\ nft = rate * f / nanos /\ regen <= rate * E1 / nanos - rate * E0 / nanos /\
  (rate * (sec + 2) < two64 -> regen = rate * E1 / nanos - rate * E0 / nanos).
Proof.
  intros Hr Hrem Hfn Hft HE Hm. cbv zeta.
  assert (Hn64 : nanos + nanos < two64) by reflexivity.
  assert (Hf0 : u64 (fn + rem) = fn + rem) by (apply u64_small; clear -Hrem Hfn Hn64; lia).
  rewrite Hf0. clear Hf0.
  assert (Hold : rate * E0 / nanos = rate * k + ft) by (rewrite HE, gen_split, Hft; reflexivity).
  assert (Hold_le : ft <= rate) by (rewrite Hft; apply frac_le; clear -Hfn; lia).
  assert (Hrate64 : rate < two64). { clear -Hr. unfold nanos in Hr. lia. }
  assert (Hmodk : forall q f, f < nanos -> (nanos * q + f) mod nanos = f).
  { intros q f Hf. rewrite N.add_comm, N.mul_comm, N.mod_add by discriminate. apply N.mod_small. assumption. }
  assert (Hmsf : forall f, f < nanos -> mul_sat f rate = rate * f).
  { intros f Hf. rewrite mul_sat_eq; [apply N.mul_comm|]. clear -Hr Hf. nia. }
  rewrite Hold. pose proof (mul_sat_le sec rate) as Hs1.
  destruct (N.ltb_spec (fn + rem) nanos) as [Hlt|Hge].
  - rewrite (Hmsf _ Hlt).
    assert (HE1 : E0 + (nanos * sec + rem) = nanos * (k + sec) + (fn + rem)) by (rewrite HE; clear; lia).
    rewrite HE1, gen_split, (Hmodk _ _ Hlt).
    assert (Hge' : ft <= rate * (fn + rem) / nanos) by (rewrite Hft; apply frac_mono; clear; lia).
    assert (Hnft : rate * (fn + rem) / nanos <= rate) by (apply frac_le; clear -Hlt; lia).
    generalize dependent (rate * (fn + rem) / nanos). intros nft Hge' Hnft. clear Hmodk Hmsf HE1 Hold HE Hft.
    rewrite (u64_sub nft ft) by (clear -Hge' Hnft Hrate64; lia).
    split; [reflexivity|]. split; [reflexivity|]. pose proof (u64_le (mul_sat sec rate + (nft - ft))) as Hu. split.
    + clear -Hu Hs1 Hge'. nia.
    + intros Hov. rewrite (mul_sat_eq sec rate) by (clear -Hov; nia). rewrite u64_small by (clear -Hov Hnft; nia). clear -Hge'. nia.
  - assert (exists f, fn + rem = nanos + f) as [f Ef] by (exists (fn + rem - nanos); clear -Hge; lia).
    assert (Hfl : f < nanos) by (clear -Ef Hrem Hfn; lia).
    replace (fn + rem - nanos) with f by (clear -Ef; lia). rewrite (Hmsf _ Hfl).
    assert (HE1 : E0 + (nanos * sec + rem) = nanos * (k + sec + 1) + f) by (rewrite HE; clear -Ef; lia).
    rewrite HE1, gen_split, (Hmodk _ _ Hfl).
    assert (Hnft : rate * f / nanos <= rate) by (apply frac_le; clear -Hfl; lia).
    generalize dependent (rate * f / nanos). intros nft Hnft. clear Hmodk Hmsf HE1 Hold HE Hft.
    rewrite (u64_sub rate ft) by (clear -Hold_le Hrate64; lia).
    split; [reflexivity|]. split; [reflexivity|].
    pose proof (u64_le (mul_sat sec rate + (rate - ft))) as Hu.
    pose proof (u64_le (u64 (mul_sat sec rate + (rate - ft)) + nft)) as Hu2. split.
    + clear -Hu Hu2 Hs1 Hold_le. nia.
    + intros Hov. rewrite (mul_sat_eq sec rate) by (clear -Hov; nia). rewrite (u64_small (sec * rate + (rate - ft))) by (clear -Hov; nia).
      rewrite u64_small by (clear -Hov Hnft; nia). clear -Hold_le. nia.
Qed.

Lemma regen_fields c now s i : rl_rate c * nanos < two64 -> rsim c s i -> rl_last s < now ->
  let s' := rl_regenerate c now s in
  rl_last s' = now /\ rl_fnanos s' = (now - i_start i) mod nanos /\ rl_ftokens s' = rl_rate c * rl_fnanos s' / nanos /\
  rl_tokens s' <= N.min (rl_max c) (rl_tokens s + (generated (rl_rate c) (i_start i) now - generated (rl_rate c) (i_start i) (i_now i))) /\
  (rl_rate c * ((now - rl_last s) / nanos + 2) < two64 -> rl_max c < two64 ->
    rl_tokens s' = N.min (rl_max c) (rl_tokens s + (generated (rl_rate c) (i_start i) now - generated (rl_rate c) (i_start i) (i_now i)))).
Proof.
  intros Hr (Ht & _ & Hm & Hl & Hs & Hf & Hft) Hnow. cbv zeta. unfold rl_regenerate.
  destruct (N.leb_spec now (rl_last s)) as [|_]; [lia|]. rewrite Hl in *.
  assert (Hgap : now - i_now i = nanos * ((now - i_now i) / nanos) + (now - i_now i) mod nanos) by (apply N.div_mod; discriminate).
  assert (Hrem : (now - i_now i) mod nanos < nanos) by (apply N.mod_lt; discriminate).
  assert (HE : i_now i - i_start i = nanos * ((i_now i - i_start i) / nanos) + rl_fnanos s) by (rewrite Hf; apply N.div_mod; discriminate).
  assert (Hfn : rl_fnanos s < nanos) by (rewrite Hf; apply N.mod_lt; discriminate).
  pose proof (regen_core (rl_rate c) (rl_tokens s) (rl_max c) ((now - i_now i) / nanos) ((now - i_now i) mod nanos)
     (rl_fnanos s) (rl_ftokens s) ((i_now i - i_start i) / nanos) (i_now i - i_start i) Hr Hrem Hfn Hft HE Hm) as Hc.
  cbv zeta in Hc. rewrite <- Hgap in Hc.
  replace (i_now i - i_start i + (now - i_now i)) with (now - i_start i) in Hc by (clear -Hnow Hs; lia).
  match type of Hc with let '(_, _) := ?e in _ => destruct e as [[regen f] nft] end.
  destruct Hc as (-> & -> & Hc1 & Hc2). cbn [rl_last rl_fnanos rl_ftokens rl_tokens].
  split; [reflexivity|]. split; [reflexivity|]. split; [reflexivity|]. unfold generated. change 1000000000 with nanos.
  generalize dependent (rl_rate c * (now - i_start i) / nanos - rl_rate c * (i_now i - i_start i) / nanos). intros g Hc1 Hc2.
  clear -Hc1 Hc2 Hm. unfold add_sat. split.
  - destruct (N.ltb_spec (regen + rl_tokens s) two64); match goal with |- context[?a <? ?b] => destruct (N.ltb_spec a b) end; lia.
  - intros Hov Hmx. rewrite (Hc2 Hov). destruct (N.ltb_spec (g + rl_tokens s) two64); match goal with |- context[?a <? ?b] => destruct (N.ltb_spec a b) end; lia.
Qed.

Lemma i_advance_id c now i : now <= i_now i -> i_tokens i <= rl_max c -> i_advance c now i = i.
Proof.
  intros. unfold i_advance. rewrite N.max_r by assumption. rewrite N.sub_diag, N.add_0_r, N.min_r by assumption. destruct i; reflexivity.
Qed.
Lemma regen_sim c now s i : rl_rate c * nanos < two64 -> rsim c s i -> rsim c (rl_regenerate c now s) (i_advance c now i).
Proof.
  intros Hr Hs. destruct (N.leb_spec now (rl_last s)) as [Hle|Hlt].
  - pose proof Hs as (Ht & Hm & _ & Hl & _). rewrite i_advance_id by lia. unfold rl_regenerate.
    destruct (N.leb_spec now (rl_last s)); [assumption|lia].
  - destruct (regen_fields c now s i Hr Hs Hlt) as (H1 & H2 & H3 & H4 & _). destruct Hs as (Ht & Hm & Hm2 & Hl & Hst & _).
    unfold rsim, i_advance. cbn [i_tokens i_now i_start]. rewrite N.max_l by lia. repeat split; try assumption; lia.
Qed.
Definition rexact (c : rl_config) (s : rl_state) (i : ideal) : Prop := rsim c s i /\ rl_tokens s = i_tokens i.
Lemma regen_exact c now s i : rl_rate c * nanos < two64 -> rl_max c < two64 -> rexact c s i ->
  rl_rate c * ((now - rl_last s) / nanos + 2) < two64 -> rexact c (rl_regenerate c now s) (i_advance c now i).
Proof.
  intros Hr Hmx [Hs He] Hov. split; [apply regen_sim; assumption|]. destruct (N.leb_spec now (rl_last s)) as [Hle|Hlt].
  - pose proof Hs as (Ht & Hm & _ & Hl & _). rewrite i_advance_id by lia. unfold rl_regenerate.
    destruct (N.leb_spec now (rl_last s)); [assumption|lia].
  - destruct (regen_fields c now s i Hr Hs Hlt) as (_ & _ & _ & _ & H5). rewrite H5 by assumption.
    destruct Hs as (_ & _ & _ & Hl & _). unfold i_advance. cbn [i_tokens]. rewrite N.max_l by lia. rewrite He. reflexivity.
Qed.

(** ** compute_wait *)
(** ceiling division characterises the least time *)
Lemma ceil_spec a b : 0 < b -> let q := if a mod b =? 0 then a / b else a / b + 1 in forall x, q <= x <-> a <= x * b.
Proof.
  intros Hb q x. pose proof (N.div_mod a b ltac:(lia)) as Hd. pose proof (N.mod_lt a b ltac:(lia)) as Hm.
  unfold q. destruct (N.eqb_spec (a mod b) 0) as [E|E]; split; intros; nia.
Qed.
(** floor (x*rate/nanos) >= n iff x >= ceil (n*nanos/rate) *)
Lemma gen_ge rate n x : 0 < rate -> (n <= rate * x / nanos <-> n * nanos <= x * rate).
Proof.
  intros Hr. split; intros.
  - assert (nanos * (rate * x / nanos) <= rate * x) by (apply N.mul_div_le; discriminate). nia.
  - apply N.div_le_lower_bound; [discriminate|]. lia.
Qed.
Lemma wait_core rate fn ft deficit : 0 < rate -> rate * nanos < two64 -> (deficit / rate + 3) * nanos < two64 -> fn < nanos ->
  ft * nanos <= fn * rate -> fn * rate < (ft + 1) * nanos -> 0 < deficit -> ft <= rate ->
  let W := if deficit <? rate - ft then
      let target := add_sat deficit ft in
      let un := mul_sat target nanos in
      let w := u64 (un / rate + two64 - fn) in
      if un mod rate =? 0 then w else u64 (w + 1)
    else
      let w := nanos - fn in
      let deficit := deficit - (rate - ft) in
      let ws := deficit / rate in
      let dr := deficit mod rate in
      let w := u64 (w + mul_sat ws nanos) in
      let un := mul_sat dr nanos in
      let w := u64 (w + un / rate) in
      if un mod rate =? 0 then w else u64 (w + 1) in
  forall x, W <= x <-> (deficit + ft) * nanos <= (fn + x) * rate.
Proof.
  intros Hr0 Hr Hwt Hfn Hft' Hft2 Hdpos Hfl. cbv zeta.
  assert (Hbig : nanos < two64) by reflexivity. assert (Hn0 : 0 < nanos) by reflexivity.
  assert (Hrate64 : rate < two64). { clear -Hr. unfold nanos in Hr. lia. }
  destruct (N.ltb_spec deficit (rate - ft)) as [Hcase|Hcase].
  - unfold add_sat. destruct (N.ltb_spec (deficit + ft) two64) as [_|Hbad]; [|exfalso; clear -Hbad Hcase Hrate64; lia].
    assert (Hun : mul_sat (deficit + ft) nanos = (deficit + ft) * nanos). { apply mul_sat_eq. clear -Hr Hcase. nia. }
    rewrite Hun.
    assert (Hq1 : fn <= (deficit + ft) * nanos / rate). { apply N.div_le_lower_bound; [clear -Hr0; lia|]. clear -Hft2 Hdpos. nia. }
    assert (Hq2 : (deficit + ft) * nanos / rate < nanos). { apply N.div_lt_upper_bound; [clear -Hr0; lia|]. clear -Hcase Hn0. nia. }
    rewrite (u64_sub ((deficit + ft) * nanos / rate) fn) by (clear -Hq1 Hq2 Hbig; lia).
    pose proof (ceil_spec ((deficit + ft) * nanos) rate Hr0) as Hc. cbv zeta in Hc. intros x.
    specialize (Hc (fn + x)). rewrite <- Hc. clear Hc.
    generalize dependent ((deficit + ft) * nanos / rate). intros q Hq1 Hq2.
    destruct (N.eqb_spec ((deficit + ft) * nanos mod rate) 0); [clear -Hq1; lia|]. rewrite u64_small by (clear -Hq1 Hq2 Hbig; lia). clear -Hq1. lia.
  - assert (exists d2, deficit = rate - ft + d2) as [d2 Ed] by (exists (deficit - (rate - ft)); clear -Hcase; lia).
    replace (deficit - (rate - ft)) with d2 by (clear -Ed; lia).
    assert (Hd2 : d2 = rate * (d2 / rate) + d2 mod rate) by (apply N.div_mod; clear -Hr0; lia).
    assert (Hdr : d2 mod rate < rate) by (apply N.mod_lt; clear -Hr0; lia).
    assert (Hws : d2 / rate <= deficit / rate). { apply N.div_le_mono; [clear -Hr0; lia|]. clear -Ed. lia. }
    generalize dependent (d2 / rate). intros ws Hd2 Hws. generalize dependent (d2 mod rate). intros dr Hdr Hd2.
    assert (Hwsn : ws * nanos + 3 * nanos < two64) by (clear -Hws Hwt; nia).
    rewrite (mul_sat_eq ws nanos) by (clear -Hwsn; lia). rewrite (u64_small (nanos - fn + ws * nanos)) by (clear -Hwsn; lia).
    assert (Hun : mul_sat dr nanos = dr * nanos). { apply mul_sat_eq. apply N.le_lt_trans with (rate * nanos); [apply N.mul_le_mono_r; clear -Hdr; lia|exact Hr]. }
    rewrite Hun.
    assert (Hq2 : dr * nanos / rate < nanos). { apply N.div_lt_upper_bound; [clear -Hr0; lia|]. clear -Hdr Hn0. nia. }
    rewrite (u64_small (nanos - fn + ws * nanos + dr * nanos / rate)) by (clear -Hwsn Hq2; lia).
    pose proof (ceil_spec (dr * nanos) rate Hr0) as Hc. cbv zeta in Hc. intros x.
    assert (Hk : (deficit + ft) * nanos <= (fn + x) * rate <-> nanos - fn + ws * nanos <= x /\ dr * nanos <= (x - (nanos - fn + ws * nanos)) * rate).
    { assert (Hdd : (deficit + ft) * nanos = (nanos + ws * nanos) * rate + dr * nanos).
      { replace (deficit + ft) with (rate + (rate * ws + dr)) by (clear -Ed Hfl Hd2; lia). clear; lia. }
      rewrite Hdd. assert (exists y, y = nanos + ws * nanos) as [y Ey] by eauto.
      replace (nanos - fn + ws * nanos) with (y - fn) by (clear -Ey Hfn; lia). rewrite <- Ey.
      assert (Hfy : fn <= y) by (clear -Ey Hfn; lia). generalize (dr * nanos). intros un. clear -Hr0 Hfy. split.
      - intros Hle. assert (y <= fn + x) by nia. split; [lia|]. replace (x - (y - fn)) with (fn + x - y) by lia. nia.
      - intros [Ha Hb]. replace (x - (y - fn)) with (fn + x - y) in Hb by lia. nia. }
    rewrite Hk. clear Hk. specialize (Hc (x - (nanos - fn + ws * nanos))).
    generalize dependent (dr * nanos / rate). intros q Hq2 Hc. rewrite <- Hc. clear Hc.
    destruct (N.eqb_spec (dr * nanos mod rate) 0) as [E|E].
    + clear. lia.
    + rewrite u64_small by (clear -Hwsn Hq2; lia). clear. lia.
Qed.
Lemma avail_core rate k fn ft E0 mx tok n x : 0 < rate -> ft = rate * fn / nanos -> E0 = nanos * k + fn -> n <= mx -> tok < n ->
  (n <= N.min mx (tok + (rate * (E0 + x) / nanos - rate * E0 / nanos)) <-> (n - tok + ft) * nanos <= (fn + x) * rate).
Proof.
  intros Hr0 Hft HE Hn Ht. rewrite <- gen_ge by assumption.
  assert (rate * (E0 + x) / nanos = rate * k + rate * (fn + x) / nanos) as ->.
  { replace (E0 + x) with (nanos * k + (fn + x)) by (clear -HE; lia). apply gen_split. }
  assert (rate * E0 / nanos = rate * k + ft) as -> by (rewrite HE, gen_split, Hft; reflexivity).
  pose proof (frac_mono rate fn (fn + x) ltac:(clear; lia)) as Hmono. rewrite <- Hft in Hmono. clear -Hmono Hn Ht. lia.
Qed.
Lemma wait_correct c now n s i : sane c -> rexact c s i -> n <= rl_max c ->
  rl_rate c * ((now - rl_last s) / nanos + 2) < two64 ->
  exists s' w, rl_wait c now n s = (s', Some w) /\ s' = rl_regenerate c now s /\ least_wait c (i_advance c now i) n w.
Proof.
  intros (Hr0 & Hm0 & Hr & Hmx & Hwt) He Hn Hov. change 1000000000 with nanos in *.
  assert (He' : rexact c (rl_regenerate c now s) (i_advance c now i)) by (apply regen_exact; auto; clear -Hmx; lia).
  clear He Hov. unfold rl_wait. generalize dependent (rl_regenerate c now s). intros s1. generalize dependent (i_advance c now i). intros j He'.
  destruct He' as [(Ht & Hm & Hm2 & Hl & Hst & Hf & Hft) Heq]. rewrite Heq.
  assert (HE : i_now j - i_start j = nanos * ((i_now j - i_start j) / nanos) + rl_fnanos s1) by (rewrite Hf; apply N.div_mod; discriminate).
  assert (Hfn : rl_fnanos s1 < nanos) by (rewrite Hf; apply N.mod_lt; discriminate).
  generalize dependent ((i_now j - i_start j) / nanos). intros k HE. clear Hf.
  assert (Hadv : forall x, i_available c (i_now j + x) j = N.min (rl_max c) (i_tokens j +
      (rl_rate c * (i_now j - i_start j + x) / nanos - rl_rate c * (i_now j - i_start j) / nanos))).
  { intros x. unfold i_available, i_advance. cbn [i_tokens]. rewrite N.max_l by (clear; lia). unfold generated. change 1000000000 with nanos.
    replace (i_now j + x - i_start j) with (i_now j - i_start j + x) by (clear -Hst; lia). reflexivity. }
  unfold least_wait. destruct (N.leb_spec n (i_tokens j)) as [Hle|Hgt].
  - exists s1, 0. split; [reflexivity|]. split; [reflexivity|]. split.
    + rewrite Hadv. clear -Hle Hn. lia.
    + intros w' Hw'. clear -Hw'. lia.
  - assert (Hfl : rl_ftokens s1 <= rl_rate c) by (rewrite Hft; apply frac_le; clear -Hfn; lia).
    destruct (N.ltb_spec (rl_fnanos s1) nanos) as [_|Hbad]; [|clear -Hbad Hfn; lia].
    destruct (N.leb_spec (rl_ftokens s1) (rl_rate c)) as [_|Hbad]; [|clear -Hbad Hfl; lia]. cbn [negb].
    eexists s1, _. split; [reflexivity|]. split; [reflexivity|].
    assert (Hd : (n - i_tokens j) / rl_rate c <= rl_max c / rl_rate c) by (apply N.div_le_mono; clear -Hr0 Hn; lia).
    pose proof (wait_core (rl_rate c) (rl_fnanos s1) (rl_ftokens s1) (n - i_tokens j)) as HW.
    assert (Hx : forall x, n <= i_available c (i_now j + x) j <-> (n - i_tokens j + rl_ftokens s1) * nanos <= (rl_fnanos s1 + x) * rl_rate c).
    { intros x. rewrite Hadv. eapply avail_core; eassumption. }
    cbv zeta in HW. match type of HW with _ -> _ -> _ -> _ -> _ -> _ -> _ -> _ -> forall x, ?w <= x <-> _ => set (W := w) in * end. clearbody W.
    assert (HW' : forall x, W <= x <-> n <= i_available c (i_now j + x) j).
    { intros x. rewrite Hx. apply HW; try assumption.
      - clear -Hd Hwt. nia.
      - rewrite Hft. pose proof (N.mul_div_le (rl_rate c * rl_fnanos s1) nanos ltac:(discriminate)) as H0. clear -H0. lia.
      - rewrite Hft. pose proof (N.mul_succ_div_gt (rl_rate c * rl_fnanos s1) nanos ltac:(discriminate)) as H0. clear -H0. lia.
      - clear -Hgt. lia. }
    clear -HW'. split; [apply HW'; lia|]. intros w' Hw'.
    destruct (N.lt_ge_cases (i_available c (i_now j + w') j) n) as [|Hc]; [assumption|]. apply HW' in Hc. lia.
Qed.

Lemma take_rsim c s j n : rsim c s j -> rsim c (mkrl (rl_tokens s - n) (rl_last s) (rl_fnanos s) (rl_ftokens s)) (mki (i_tokens j - n) (i_start j) (i_now j)).
Proof.
  intros (Ht & Hm & Hm2 & Hl & Hst & Hf & Hft). unfold rsim. cbn [rl_tokens rl_last rl_fnanos rl_ftokens i_tokens i_start i_now].
  split; [clear -Ht; lia|]. split; [clear -Hm; lia|]. split; [clear -Hm2; lia|]. auto.
Qed.
(** ** Histories *)
Lemma reset_exact c now : rexact c (rl_reset c now) (i_reset c now).
Proof.
  unfold rexact, rsim, rl_reset, i_reset. cbn. rewrite N.sub_diag. split; [|reflexivity].
  repeat split; try lia. rewrite N.mul_0_r. reflexivity.
Qed.
Lemma run_refines c ops : forall s i, sane c -> rexact c s i -> reasonable c (rl_last s) ops ->
  exists i', i_run c i ops i' (snd (rl_run c s ops)) /\ rexact c (fst (rl_run c s ops)) i'.
Proof.
  induction ops as [|[now o] ops IH]; intros s i Hc He Hrs; cbn [rl_run].
  - exists i. split; [constructor|assumption].
  - cbn [reasonable] in Hrs. destruct Hrs as (Hov & _ & Ho & Hrs). change 1000000000 with nanos in *.
    pose proof Hc as (Hr0 & Hm0 & Hr & Hmx & Hwt). change 1000000000 with nanos in *.
    assert (He1 : rexact c (rl_regenerate c now s) (i_advance c now i)) by (apply regen_exact; auto; lia).
    assert (Hlast : rl_last (rl_regenerate c now s) = N.max now (rl_last s)).
    { destruct He1 as [(_ & _ & _ & -> & _) _]. destruct He as [(_ & _ & _ & -> & _) _]. reflexivity. }
    destruct o as [|n|n|n]; cbn [rl_step].
    + destruct (IH (rl_reset c now) (i_reset c now) Hc (reset_exact c now) Hrs) as (i' & Hi & He').
      exists i'. destruct (rl_run c (rl_reset c now) ops) as [s2 l]. split; [|assumption]. econstructor; [constructor|assumption].
    + unfold rl_can_take. rewrite <- Hlast in Hrs. destruct (IH _ _ Hc He1 Hrs) as (i' & Hi & He').
      exists i'. destruct (rl_run c (rl_regenerate c now s) ops) as [s2 l]. split; [|assumption]. econstructor; [|eassumption].
      destruct He1 as [_ ->]. constructor.
    + unfold rl_take. destruct (N.ltb_spec (rl_tokens (rl_regenerate c now s)) n) as [Hlt|Hge].
      * rewrite <- Hlast in Hrs. destruct (IH _ _ Hc He1 Hrs) as (i' & Hi & He').
        exists i'. destruct (rl_run c (rl_regenerate c now s) ops) as [s2 l]. split; [|assumption]. econstructor; [|eassumption].
        destruct He1 as [_ He1]. constructor. unfold i_available. rewrite <- He1. assumption.
      * match goal with |- context[rl_run c ?x ops] => set (s1 := x) end.
        set (j := i_advance c now i) in *. set (i1 := mki (i_tokens j - n) (i_start j) (i_now j)).
        assert (He2 : rexact c s1 i1).
        { destruct He1 as [He1 Heq]. split; [apply take_rsim; assumption|]. unfold s1, i1. cbn [rl_tokens i_tokens]. rewrite Heq. reflexivity. }
        rewrite <- Hlast in Hrs. destruct (IH s1 i1 Hc He2 Hrs) as (i' & Hi & He').
        exists i'. destruct (rl_run c s1 ops) as [s2 l]. split; [|assumption]. econstructor; [|eassumption].
        apply i_step_take. unfold i_available. fold j. destruct He1 as [_ <-]. assumption.
    + destruct (wait_correct c now n s i Hc He Ho Hov) as (s' & w & E & -> & Hw). rewrite E.
      rewrite <- Hlast in Hrs. destruct (IH _ _ Hc He1 Hrs) as (i' & Hi & He').
      exists i'. destruct (rl_run c (rl_regenerate c now s) ops) as [s2 l]. split; [|assumption]. econstructor; [|eassumption].
      constructor. assumption.
Qed.

(** The upper bound needs no assumption on the times. *)
Definition no_reset (o : N * rl_op) : Prop := snd o <> OReset.
Lemma take_last c s now o : no_reset (now, o) -> rl_last (fst (rl_step c s now o)) = rl_last (rl_regenerate c now s).
Proof.
  intros Ho. destruct o as [|n|n|n]; cbn [rl_step].
  - exfalso. apply Ho. reflexivity.
  - reflexivity.
  - unfold rl_take. destruct (rl_tokens (rl_regenerate c now s) <? n); reflexivity.
  - unfold rl_wait. repeat match goal with |- context[if ?b then _ else _] => destruct b end; reflexivity.
Qed.
Lemma step_bound c s now o t0 : rl_rate c * nanos < two64 -> no_reset (now, o) ->
  (exists i, rsim c s i /\ i_start i = t0) ->
  let '(s', a) := rl_step c s now o in
  (exists i, rsim c s' i /\ i_start i = t0) /\ rl_last s <= rl_last s' /\
  granted [(now, o)] [a] + rl_tokens s' <= rl_tokens s + (generated (rl_rate c) t0 (rl_last s') - generated (rl_rate c) t0 (rl_last s)).
Proof.
  intros Hr Ho (i & Hs & Hst).
  pose proof (regen_sim c now s i Hr Hs) as Hs1.
  assert (Hb : rl_last s <= rl_last (rl_regenerate c now s) /\
     rl_tokens (rl_regenerate c now s) <= rl_tokens s + (generated (rl_rate c) t0 (rl_last (rl_regenerate c now s)) - generated (rl_rate c) t0 (rl_last s))).
  { destruct (N.leb_spec now (rl_last s)) as [Hle|Hlt].
    - unfold rl_regenerate. destruct (N.leb_spec now (rl_last s)); [|lia]. lia.
    - destruct (regen_fields c now s i Hr Hs Hlt) as (H1 & _ & _ & H4 & _). rewrite H1. rewrite Hst in H4.
      destruct Hs as (_ & _ & _ & Hl & _). rewrite <- Hl in H4. clear -H4 Hlt. lia. }
  assert (Hst1 : i_start (i_advance c now i) = t0) by (unfold i_advance; cbn; assumption).
  destruct o as [|n|n|n]; cbn [rl_step].
  - exfalso. apply Ho. reflexivity.
  - unfold rl_can_take. cbn [granted]. split; [eauto|]. rewrite N.add_0_l. assumption.
  - unfold rl_take. destruct (N.ltb_spec (rl_tokens (rl_regenerate c now s)) n).
    + cbn [granted]. split; [eauto|]. rewrite N.add_0_l. assumption.
    + cbn [granted rl_tokens rl_last]. split; [|lia].
      set (j := i_advance c now i) in *. exists (mki (i_tokens j - n) (i_start j) (i_now j)).
      split; [apply take_rsim; assumption|exact Hst1].
  - unfold rl_wait. repeat match goal with |- context[if ?b then _ else _] => destruct b end; cbn [granted]; (split; [eauto|]; rewrite ?N.add_0_l; assumption).
Qed.
Lemma run_bound c ops : forall s t0, rl_rate c * nanos < two64 -> Forall no_reset ops ->
  (exists i, rsim c s i /\ i_start i = t0) ->
  let '(s', l) := rl_run c s ops in
  (exists i, rsim c s' i /\ i_start i = t0) /\ rl_last s <= rl_last s' /\
  granted ops l + rl_tokens s' <= rl_tokens s + (generated (rl_rate c) t0 (rl_last s') - generated (rl_rate c) t0 (rl_last s)).
Proof.
  induction ops as [|[now o] ops IH]; intros s t0 Hr Ho Hs; cbn [rl_run].
  - cbn [granted]. split; [assumption|]. lia.
  - apply Forall_cons_iff in Ho as [Ho1 Ho]. pose proof (step_bound c s now o t0 Hr Ho1 Hs) as H1.
    destruct (rl_step c s now o) as [s1 a]. destruct H1 as (Hs1 & Hl1 & Hb1).
    specialize (IH s1 t0 Hr Ho Hs1). destruct (rl_run c s1 ops) as [s2 l]. destruct IH as (Hs2 & Hl2 & Hb2).
    split; [assumption|]. split; [lia|].
    assert (granted ((now, o) :: ops) (a :: l) = granted [(now, o)] [a] + granted ops l) as ->.
    { destruct o, a as [| |[]|]; cbn [granted]; lia. }
    pose proof (generated_mono (rl_rate c) t0 _ _ Hl1). pose proof (generated_mono (rl_rate c) t0 _ _ Hl2). lia.
Qed.
(** any state reachable from an initialised limiter, resets included *)
Lemma reach_sim c ops : forall s, rl_rate c * nanos < two64 -> (exists i, rsim c s i) -> exists i, rsim c (fst (rl_run c s ops)) i.
Proof.
  induction ops as [|[now o] ops IH]; intros s Hr Hs; cbn [rl_run]; [assumption|].
  assert (H1 : exists i, rsim c (fst (rl_step c s now o)) i).
  { destruct o as [|n|n|n]; [exists (i_reset c now); apply reset_exact|..];
    destruct Hs as (i & Hs); pose proof (step_bound c s now) as Hb.
    - specialize (Hb (OCanTake n) (i_start i) Hr ltac:(discriminate) ltac:(eauto)). destruct (rl_step c s now (OCanTake n)). destruct Hb as ((j & Hj & _) & _). eauto.
    - specialize (Hb (OTake n) (i_start i) Hr ltac:(discriminate) ltac:(eauto)). destruct (rl_step c s now (OTake n)). destruct Hb as ((j & Hj & _) & _). eauto.
    - specialize (Hb (OWait n) (i_start i) Hr ltac:(discriminate) ltac:(eauto)). destruct (rl_step c s now (OWait n)). destruct Hb as ((j & Hj & _) & _). eauto. }
  specialize (IH (fst (rl_step c s now o)) Hr H1).
  destruct (rl_step c s now o) as [s1 a]. cbn [fst] in *. destruct (rl_run c s1 ops) as [s2 l]. assumption.
Qed.
Lemma never_exceeds_max c t0 s0 pre : rl_rate c * nanos < two64 -> rl_init c t0 = Some s0 ->
  rl_tokens (fst (rl_run c s0 pre)) <= rl_max c.
Proof.
  intros Hr E. unfold rl_init in E. destruct (_ || _); [discriminate|]. inversion E; subst.
  destruct (reach_sim c pre (rl_reset c t0) Hr) as (i & _ & _ & H & _); [exists (i_reset c t0); apply reset_exact|]. assumption.
Qed.
Lemma window_bound c t0 s0 pre ops : rl_rate c * nanos < two64 -> rl_init c t0 = Some s0 -> Forall no_reset ops ->
  let s1 := fst (rl_run c s0 pre) in
  let '(s2, l) := rl_run c s1 ops in
  rl_last s1 <= rl_last s2 /\ granted ops l + rl_tokens s2 <= rl_tokens s1 + generated (rl_rate c) (rl_last s1) (rl_last s2) + 1.
Proof.
  intros Hr E Ho. unfold rl_init in E. destruct (_ || _); [discriminate|]. inversion E; subst. cbv zeta.
  destruct (reach_sim c pre (rl_reset c t0) Hr) as (i & Hi); [exists (i_reset c t0); apply reset_exact|].
  pose proof (run_bound c ops (fst (rl_run c (rl_reset c t0) pre)) (i_start i) Hr Ho ltac:(eauto)) as Hb.
  destruct (rl_run c (fst (rl_run c (rl_reset c t0) pre)) ops) as [s2 l]. destruct Hb as (_ & Hl & Hb). split; [assumption|].
  destruct Hi as (_ & _ & _ & Hl1 & Hst & _).
  pose proof (generated_gap (rl_rate c) (i_start i) (rl_last (fst (rl_run c (rl_reset c t0) pre))) (rl_last s2) ltac:(lia) Hl). lia.
Qed.
Lemma init_refines c t0 s0 ops : sane c -> rl_init c t0 = Some s0 -> reasonable c t0 ops ->
  exists i', i_run c (i_reset c t0) ops i' (snd (rl_run c s0 ops)).
Proof.
  intros Hc E Hrs. unfold rl_init in E. destruct (_ || _); [discriminate|]. inversion E; subst.
  destruct (run_refines c ops _ _ Hc (reset_exact c t0)) as (i' & Hi & _); [assumption|]. eauto.
Qed.

Lemma avail_ge c j x : i_start j <= i_now j -> N.min (rl_max c) (rl_rate c * x / nanos) <= i_available c (i_now j + x) j.
Proof.
  intros Hst. unfold i_available, i_advance. cbn [i_tokens]. rewrite N.max_l by (clear; lia).
  pose proof (generated_gap_lower (rl_rate c) (i_start j) (i_now j) (i_now j + x) Hst ltac:(clear; lia)) as Hg.
  unfold generated at 1 in Hg. change 1000000000 with nanos in Hg. replace (i_now j + x - i_now j) with x in Hg by (clear; lia). clear -Hg. lia.
Qed.
Lemma least_wait_bound c j n w : 0 < rl_rate c -> n <= rl_max c -> i_start j <= i_now j -> least_wait c j n w ->
  w <= (n / rl_rate c + 1) * nanos.
Proof.
  intros Hr Hn Hst [_ Hw]. destruct (N.le_gt_cases w ((n / rl_rate c + 1) * nanos)) as [|Hgt]; [assumption|].
  specialize (Hw _ Hgt). pose proof (avail_ge c j ((n / rl_rate c + 1) * nanos) Hst) as Ha.
  assert (E : rl_rate c * ((n / rl_rate c + 1) * nanos) / nanos = rl_rate c * (n / rl_rate c + 1)).
  { rewrite N.mul_assoc. apply N.div_mul. discriminate. }
  rewrite E in Ha. pose proof (N.mul_succ_div_gt n (rl_rate c) ltac:(clear -Hr; lia)) as Hs. clear -Ha Hw Hs Hn. lia.
Qed.
Lemma wait_exact c t0 s0 pre now n : sane c -> rl_init c t0 = Some s0 -> reasonable c t0 pre ->
  let s := fst (rl_run c s0 pre) in
  rl_rate c * ((now - rl_last s) / 1000000000 + 2) < two64 -> n <= rl_max c ->
  exists s' w, rl_wait c now n s = (s', Some w) /\ rl_last s' = N.max now (rl_last s) /\
    rl_rate c * (w / 1000000000 + 2) < two64 /\
    forall x, rl_rate c * (x / 1000000000 + 2) < two64 -> (snd (rl_can_take c (rl_last s' + x) n s') = true <-> w <= x).
Proof.
  intros Hc E Hrs s Hov Hn. change 1000000000 with nanos in *. unfold rl_init in E. destruct (_ || _); [discriminate|]. inversion E; subst s0.
  destruct (run_refines c pre _ _ Hc (reset_exact c t0) Hrs) as (i & _ & He). fold s in He. clearbody s. clear E Hrs.
  destruct (wait_correct c now n s i Hc He Hn Hov) as (s' & w & Ew & Es & Hw). exists s', w. split; [assumption|].
  pose proof Hc as (Hr0 & Hm0 & Hr & Hmx & Hwt). change 1000000000 with nanos in *.
  assert (He1 : rexact c s' (i_advance c now i)) by (rewrite Es; apply regen_exact; auto; clear -Hmx; lia).
  assert (Hl1 : rl_last s' = i_now (i_advance c now i)) by (destruct He1 as [(_ & _ & _ & Hx & _) _]; exact Hx).
  assert (Hst : i_start (i_advance c now i) <= i_now (i_advance c now i)) by (destruct He1 as [(_ & _ & _ & _ & Hx & _) _]; exact Hx).
  split. { rewrite Hl1. destruct He as [(_ & _ & _ & -> & _) _]. reflexivity. }
  split.
  { pose proof (least_wait_bound _ _ _ _ Hr0 Hn Hst Hw) as Hb.
    assert (w / nanos <= n / rl_rate c + 1). { apply N.div_le_upper_bound; [discriminate|]. rewrite N.mul_comm. assumption. }
    pose proof (N.mul_div_le n (rl_rate c) ltac:(clear -Hr0; lia)) as Hx. clear -H Hx Hmx Hn. nia. }
  intros x Hx. unfold rl_can_take. cbn [snd].
  assert (He2 : rexact c (rl_regenerate c (rl_last s' + x) s') (i_advance c (rl_last s' + x) (i_advance c now i))).
  { apply regen_exact; auto; [clear -Hmx; lia|]. replace (rl_last s' + x - rl_last s') with x by (clear; lia). assumption. }
  destruct He2 as [_ ->]. rewrite N.leb_le. rewrite Hl1. fold (i_available c (i_now (i_advance c now i) + x) (i_advance c now i)).
  destruct Hw as [Hw1 Hw2]. split.
  - intros Hle. destruct (N.le_gt_cases w x) as [|Hlt]; [assumption|]. specialize (Hw2 _ Hlt). clear -Hw2 Hle. lia.
  - intros Hle. eapply N.le_trans; [exact Hw1|]. unfold i_available, i_advance. cbn [i_tokens].
    apply N.min_le_compat_l. apply N.add_le_mono_l. apply N.sub_le_mono_r. apply generated_mono. clear -Hle. cbn [i_now]. lia.
Qed.
