From Verif Require Import Base BaseLemmas Vli_Spec Vli_Lemmas Mqtt5_Views Mqtt5_Spec TopicAlias_Model Decoder5_Model Decoder5_Spec.
Ltac Zify.zify_post_hook ::= idtac.

(** ** Variable length integers *)
Lemma lor_shift v x s : v < 2 ^ s -> N.lor v (N.shiftl x s) = v + x * 2 ^ s.
Proof.
  intros Hv. assert (Hd : N.land v (N.shiftl x s) = 0).
  { apply N.bits_inj. intros i. rewrite N.land_spec, N.bits_0. destruct (N.lt_ge_cases i s) as [Hi|Hi].
    - rewrite N.shiftl_spec_low by exact Hi. apply andb_false_r.
    - rewrite <- (N.mod_small v (2 ^ s) Hv). rewrite N.mod_pow2_bits_high by exact Hi. reflexivity. }
  rewrite <- N.lxor_lor by exact Hd. rewrite <- N.add_nocarry_lxor by exact Hd. rewrite N.shiftl_mul_pow2. reflexivity.
Qed.
Definition conts (p : bytes) : Prop := Forall (fun b => 128 <= b < 256) p.
Lemma vli_loop_spec n : forall cur value shift, bytes_ok cur -> value < 2 ^ shift ->
  match decode_vli_loop n cur value shift with
  | V_SUCCESS m r => exists bs k, cur = bs ++ r /\ vli k bs /\ len bs <= N.of_nat n /\ m = value + k * 2 ^ shift
  | V_MORE_DATA => conts cur /\ len cur < N.of_nat n
  | V_ERROR => exists p q, cur = p ++ q /\ len p = N.of_nat n /\ conts p
  end.
Proof.
  induction n as [|n IH]; intros cur value shift Hok Hv; cbn [decode_vli_loop].
  { exists [], cur. repeat split; constructor. }
  destruct cur as [|b cur]; cbn [read_u8]; [split; [constructor|rewrite len_nil; lia]|].
  apply Forall_cons_iff in Hok as [Hb Hok]. unfold byte_ok in Hb. rewrite (land128_zero b Hb).
  rewrite lor_shift, land127 by exact Hv. destruct (N.ltb_spec b 128) as [Hl|Hl]; cbn [negb].
  - exists [b], b. split; [reflexivity|]. split; [constructor; exact Hl|]. rewrite len_cons, len_nil. split; [lia|]. rewrite N.mod_small by exact Hl. reflexivity.
  - assert (E : b mod 128 = b - 128).
    { replace b with ((b - 128) + 1 * 128) at 1 by lia. rewrite N.mod_add by discriminate. apply N.mod_small. lia. }
    rewrite E. set (v' := value + (b - 128) * 2 ^ shift).
    assert (Hv' : v' < 2 ^ (shift + 7)).
    { unfold v'. rewrite N.pow_add_r. change (2 ^ 7) with 128. assert (b - 128 < 128) by lia. nia. }
    specialize (IH cur v' (shift + 7) Hok Hv'). destruct (decode_vli_loop n cur v' (shift + 7)) as [|m r|].
    + destruct IH as [H1 H2]. split; [constructor; [lia|exact H1]|]. rewrite len_cons. lia.
    + destruct IH as (bs & k & -> & H1 & H2 & H3). exists (b :: bs), ((b - 128) + 128 * k). split; [reflexivity|]. split.
      { replace b with ((b - 128) + 128) at 2 by lia. constructor; [lia|exact H1]. }
      rewrite len_cons. split; [lia|]. rewrite H3. unfold v'. rewrite N.pow_add_r. change (2 ^ 7) with 128. lia.
    + destruct IH as (p & q & -> & H1 & H2). exists (b :: p), q. split; [reflexivity|]. rewrite len_cons. split; [lia|]. constructor; [lia|exact H2].
Qed.
Lemma decode_vli_spec cur : bytes_ok cur ->
  match decode_vli cur with
  | V_SUCCESS m r => exists bs, cur = bs ++ r /\ vli_legal m bs
  | V_MORE_DATA => vli_incomplete cur
  | V_ERROR => exists p q, cur = p ++ q /\ len p = 4 /\ conts p
  end.
Proof.
  intros Hok. pose proof (vli_loop_spec 4 cur 0 0 Hok ltac:(reflexivity)) as H. unfold decode_vli. destruct (decode_vli_loop 4 cur 0 0) as [|m r|].
  - destruct H as [H1 H2]. split; [exact H2|exact H1].
  - destruct H as (bs & k & -> & H1 & H2 & ->). exists bs. split; [reflexivity|]. rewrite N.pow_0_r, N.mul_1_r, N.add_0_l. split; [exact H1|exact H2].
  - exact H.
Qed.
Lemma vli_not_conts n bs x y : vli n bs -> conts (x ++ y) -> bs = x -> False.
Proof. intros Hv. revert x. induction Hv; intros x Hc <-; cbn in Hc; apply Forall_cons_iff in Hc as [H1 H2]; [lia|eapply IHHv; [exact H2|reflexivity]]. Qed.
Lemma vli_prefix_conts n bs r p : vli n bs -> conts p -> (exists q, bs ++ r = p ++ q) -> len p < len bs.
Proof.
  intros Hv. revert p. induction Hv; intros p Hc [s E].
  - destruct p as [|x p]; [rewrite len_nil, len_cons; lia|]. cbn in E. injection E as -> _. apply Forall_cons_iff in Hc as [H1 _]. lia.
  - destruct p as [|x p]; [rewrite len_nil, len_cons; lia|]. cbn in E. injection E as -> E. apply Forall_cons_iff in Hc as [_ Hc]. rewrite !len_cons. specialize (IHHv p Hc (ex_intro _ s E)). lia.
Qed.
Lemma decode_vli_ok n bs r : vli_legal n bs -> bytes_ok r -> decode_vli (bs ++ r) = V_SUCCESS n r.
Proof.
  intros [Hv Hl] Hr. assert (Hok : bytes_ok (bs ++ r)) by (apply Forall_app; split; [exact (vli_bytes_ok n bs Hv)|exact Hr]).
  pose proof (decode_vli_spec (bs ++ r) Hok) as H. destruct (decode_vli (bs ++ r)) as [|m s|].
  - destruct H as [H1 H2]. exfalso. pose proof (vli_prefix_conts n bs r (bs ++ r) Hv H2 (ex_intro _ [] (eq_sym (app_nil_r _)))) as H3. rewrite len_app in H3. lia.
  - destruct H as (bs' & E & Hv' & _). destruct (vli_det _ _ _ _ _ _ Hv Hv' E) as (-> & _ & ->). reflexivity.
  - destruct H as (p & q & E & H1 & H2). exfalso. pose proof (vli_prefix_conts n bs r p Hv H2 (ex_intro _ q E)). lia.
Qed.
Lemma read_vli_ok n bs r : vli_legal n bs -> bytes_ok r -> read_vli (bs ++ r) = Some (n, r).
Proof. intros H Hr. unfold read_vli. rewrite (decode_vli_ok n bs r H Hr). reflexivity. Qed.
Lemma read_vli_inv c n r : bytes_ok c -> read_vli c = Some (n, r) -> exists bs, c = bs ++ r /\ vli_legal n bs.
Proof.
  intros Hok. unfold read_vli. pose proof (decode_vli_spec c Hok) as H. destruct (decode_vli c); try discriminate. intros E; injection E as <- <-. exact H.
Qed.
Lemma decode_vli_iff cur n r : bytes_ok cur -> decode_vli cur = V_SUCCESS n r <-> exists bs, cur = bs ++ r /\ vli_legal n bs.
Proof.
  intros Hok. split.
  - intros E. pose proof (decode_vli_spec cur Hok) as H. rewrite E in H. exact H.
  - intros (bs & -> & H). apply Forall_app in Hok as [_ Hr]. exact (decode_vli_ok n bs r H Hr).
Qed.
Lemma decode_vli_more cur : bytes_ok cur -> decode_vli cur = V_MORE_DATA <-> vli_incomplete cur.
Proof.
  intros Hok. pose proof (decode_vli_spec cur Hok) as H. split; [intros E; rewrite E in H; exact H|]. intros [H1 H2].
  destruct (decode_vli cur) as [|m r|]; [reflexivity| |].
  - destruct H as (bs & -> & Hv & _). exfalso. pose proof (vli_prefix_conts m bs r (bs ++ r) Hv H2 (ex_intro _ [] (eq_sym (app_nil_r _)))) as H3. rewrite len_app in H3. lia.
  - destruct H as (p & q & -> & H3 & _). rewrite len_app in H1. lia.
Qed.
Lemma decode_vli_bad cur : bytes_ok cur -> decode_vli cur = V_ERROR <-> exists p q, cur = p ++ q /\ len p = 4 /\ Forall (fun b => 128 <= b) p.
Proof.
  intros Hok. pose proof (decode_vli_spec cur Hok) as H. split.
  - intros E; rewrite E in H. destruct H as (p & q & E' & H1 & H2). exists p, q. split; [exact E'|]. split; [exact H1|]. eapply Forall_impl; [|exact H2]. cbv beta. lia.
  - intros (p & q & E & H1 & H2). assert (Hc : conts p).
    { rewrite E in Hok. apply Forall_app in Hok as [Hp _]. apply Forall_forall. intros x Hx. rewrite Forall_forall in H2, Hp. split; [apply H2|apply Hp]; exact Hx. }
    destruct (decode_vli cur) as [|m r|]; [| |reflexivity].
    + destruct H as [H3 _]. rewrite E, len_app in H3. lia.
    + destruct H as (bs & E' & Hv & Hl). exfalso. rewrite E' in E. pose proof (vli_prefix_conts m bs r p Hv Hc (ex_intro _ q E)). lia.
Qed.

(** ** Values *)
Lemma be16_read n r : n < 65536 -> read_be16 (be16 n ++ r) = Some (n, r).
Proof. intros H. cbn. f_equal. f_equal. rewrite (N.mod_small (n / 256)) by (apply N.div_lt_upper_bound; [discriminate|exact H]). rewrite N.mul_comm. symmetry. apply N.div_mod. discriminate. Qed.
Lemma be16_inv c n r : bytes_ok c -> read_be16 c = Some (n, r) -> c = be16 n ++ r /\ n < 65536.
Proof.
  intros Hok. destruct c as [|a [|b c]]; try discriminate. cbn [read_be16]. intros E; injection E as <- <-.
  apply Forall_cons_iff in Hok as [Ha Hok]. apply Forall_cons_iff in Hok as [Hb _]. unfold byte_ok in *. unfold be16. cbn [app].
  assert (E1 : (a * 256 + b) / 256 = a) by (rewrite N.add_comm, N.div_add by discriminate; rewrite N.div_small by exact Hb; lia).
  assert (E2 : (a * 256 + b) mod 256 = b) by (rewrite N.add_comm, N.mod_add by discriminate; apply N.mod_small; exact Hb).
  rewrite E1, E2, (N.mod_small a) by exact Ha. split; [reflexivity|lia].
Qed.
Lemma be32_split n : n < 4294967296 -> exists a b c d, be32 n = [a; b; c; d] /\ a < 256 /\ b < 256 /\ c < 256 /\ d < 256 /\ n = ((a * 256 + b) * 256 + c) * 256 + d.
Proof.
  intros H. unfold be32. exists (n / 16777216 mod 256), (n / 65536 mod 256), (n / 256 mod 256), (n mod 256). split; [reflexivity|].
  repeat (split; [apply N.mod_lt; discriminate|]). rewrite (N.mod_small (n / 16777216)) by (apply N.div_lt_upper_bound; [discriminate|exact H]).
  replace (n / 16777216) with (n / 65536 / 256) by (rewrite N.div_div by discriminate; reflexivity).
  pose proof (N.div_mod (n / 65536) 256 ltac:(discriminate)) as H1. pose proof (N.div_mod (n / 256) 256 ltac:(discriminate)) as H2. pose proof (N.div_mod n 256 ltac:(discriminate)) as H3.
  rewrite N.div_div in H2 by discriminate. change (256 * 256) with 65536 in H2. lia.
Qed.
Lemma be32_read n r : n < 4294967296 -> read_be32 (be32 n ++ r) = Some (n, r).
Proof. intros H. destruct (be32_split n H) as (a & b & c & d & E & _ & _ & _ & _ & En). rewrite E. cbn [app read_be32]. rewrite <- En. reflexivity. Qed.
Lemma be32_inv c n r : bytes_ok c -> read_be32 c = Some (n, r) -> c = be32 n ++ r /\ n < 4294967296.
Proof.
  intros Hok. destruct c as [|a [|b [|x [|y c]]]]; try discriminate. cbn [read_be32]. intros E; injection E as <- <-.
  repeat (apply Forall_cons_iff in Hok as [? Hok]). unfold byte_ok in *. set (n := ((a * 256 + b) * 256 + x) * 256 + y).
  assert (Hn : n < 4294967296) by (unfold n; lia). destruct (be32_split n Hn) as (a' & b' & x' & y' & E & ? & ? & ? & ? & En). rewrite E. split; [|exact Hn]. unfold n in En.
  assert (a' = a) by lia. subst a'. assert (b' = b) by lia. subst b'. assert (x' = x) by lia. subst x'. assert (y' = y) by lia. subst y'. reflexivity.
Qed.
Lemma advance_exact (x r : bytes) : advance (x ++ r) (len x) = (x, r).
Proof. unfold advance. rewrite len_app. destruct (N.leb_spec (len x) (len x + len r)); [|lia]. unfold len. rewrite Nat2N.id, firstn_app, Nat.sub_diag, firstn_all, skipn_app, Nat.sub_diag, skipn_all. cbn. rewrite app_nil_r. reflexivity. Qed.
Lemma prefixed_read s b r : str_wire s b -> read_prefixed (b ++ r) = Some (s, r).
Proof.
  intros (H1 & _ & ->). unfold read_prefixed. rewrite <- app_assoc, (be16_read (len s) (s ++ r) H1), len_app. destruct (N.ltb_spec (len s + len r) (len s)); [lia|]. rewrite advance_exact. reflexivity.
Qed.
Lemma prefixed_inv c s r : bytes_ok c -> read_prefixed c = Some (s, r) -> exists b, c = b ++ r /\ str_wire s b.
Proof.
  intros Hok. unfold read_prefixed. destruct (read_be16 c) as [[n c']|] eqn:E; [|discriminate]. apply be16_inv in E as [-> Hn]; [|exact Hok].
  destruct (N.ltb_spec (len c') n) as [|Hl]; [discriminate|]. intros F. assert (F' : advance c' n = (s, r)) by congruence. clear F. unfold advance in F'. destruct (N.leb_spec n (len c')); [|lia]. injection F' as <- <-.
  exists (be16 n ++ firstn (N.to_nat n) c'). split; [rewrite <- app_assoc, firstn_skipn; reflexivity|].
  assert (El : len (firstn (N.to_nat n) c') = n) by (unfold len in *; rewrite firstn_length; lia).
  apply Forall_app in Hok as [_ Hok]. split; [rewrite El; exact Hn|]. rewrite El. split; [|reflexivity].
  rewrite <- (firstn_skipn (N.to_nat n) c') in Hok. apply Forall_app in Hok as [Hok _]. exact Hok.
Qed.
Definition read_value (k : pkind) (c : bytes) : option (pval * bytes) :=
  match k with
  | K8 => try (x, c) <- read_u8 c; Some (PV8 x, c)
  | K16 => try (x, c) <- read_be16 c; Some (PV16 x, c)
  | K32 => try (x, c) <- read_be32 c; Some (PV32 x, c)
  | Kvar => try (x, c) <- read_vli c; Some (PVvar x, c)
  | Kstr => try (x, c) <- read_prefixed c; Some (PVstr x, c)
  | Kpair => try (x, c) <- read_user_property c; Some (PVpair x, c)
  end.
Lemma str_bytes s b : str_wire s b -> bytes_ok b.
Proof. intros (H1 & H2 & ->). apply Forall_app. split; [|exact H2]. constructor; [apply N.mod_lt; discriminate|constructor; [apply N.mod_lt; discriminate|constructor]]. Qed.
Lemma read_value_ok k v b r : pval_wire k v b -> bytes_ok r -> read_value k (b ++ r) = Some (v, r).
Proof.
  intros Hw Hr. destruct Hw; cbn [read_value].
  - reflexivity.
  - rewrite be16_read by assumption. reflexivity.
  - rewrite be32_read by assumption. reflexivity.
  - rewrite (read_vli_ok n bs r) by assumption. reflexivity.
  - rewrite (prefixed_read s bs r) by assumption. reflexivity.
  - unfold read_user_property. rewrite <- app_assoc, (prefixed_read k bk) by assumption. rewrite (prefixed_read v bv) by assumption. reflexivity.
Qed.
Lemma read_value_inv k v c r : bytes_ok c -> read_value k c = Some (v, r) -> exists b, c = b ++ r /\ pval_wire k v b.
Proof.
  intros Hok. destruct k; cbn [read_value].
  - destruct c as [|x c]; [discriminate|]. cbn [read_u8]. intros E; injection E as <- <-. exists [x]. apply Forall_cons_iff in Hok as [Hx _]. split; [reflexivity|constructor; exact Hx].
  - destruct (read_be16 c) as [[x c']|] eqn:E; [|discriminate]. apply be16_inv in E as [-> Hx]; [|exact Hok]. intros E; injection E as <- <-. exists (be16 x). split; [reflexivity|constructor; exact Hx].
  - destruct (read_be32 c) as [[x c']|] eqn:E; [|discriminate]. apply be32_inv in E as [-> Hx]; [|exact Hok]. intros E; injection E as <- <-. exists (be32 x). split; [reflexivity|constructor; exact Hx].
  - destruct (read_vli c) as [[x c']|] eqn:E; [|discriminate]. apply read_vli_inv in E as (bs & -> & Hx); [|exact Hok]. intros E; injection E as <- <-. exists bs. split; [reflexivity|constructor; exact Hx].
  - destruct (read_prefixed c) as [[x c']|] eqn:E; [|discriminate]. apply prefixed_inv in E as (b & -> & Hx); [|exact Hok]. intros E; injection E as <- <-. exists b. split; [reflexivity|constructor; exact Hx].
  - unfold read_user_property. destruct (read_prefixed c) as [[n c1]|] eqn:E; [|discriminate]. apply prefixed_inv in E as (b & -> & Hn); [|exact Hok]. apply Forall_app in Hok as [_ Hok].
    destruct (read_prefixed c1) as [[y c2]|] eqn:E; [|discriminate]. apply prefixed_inv in E as (b' & -> & Hy); [|exact Hok]. intros E; injection E as <- <-.
    exists (b ++ b'). split; [apply app_assoc|constructor; assumption].
Qed.

(** ** Property sections *)
Section Props.
Context {A : Type}.
Variable read : A -> bytes -> option (A * bytes).
Variable kind : N -> option pkind.
Variable apply : A -> N -> pval -> A.
Variable ids : list N.
Hypothesis read_eq : forall v c, read v c =
  match c with
  | [] => None
  | id :: c => match kind id with Some k => match read_value k c with Some (x, r) => Some (apply v id x, r) | None => None end | None => None end
  end.
Hypothesis kind_in : forall id k, kind id = Some k <-> In id ids /\ In (id, k) property_table.
Definition applied (ps : list property) (v : A) : A := fold_left (fun v p => apply v (fst p) (snd p)) ps v.
Lemma props_bytes ps bs : props_wire ps bs -> bytes_ok bs.
Proof.
  induction 1 as [|id k v ps b bs Hi Hv Hp IH]; [constructor|]. constructor.
  - assert (Ht : Forall (fun p : N * pkind => fst p < 256) property_table) by (repeat constructor). rewrite Forall_forall in Ht. exact (Ht _ Hi).
  - apply Forall_app. split; [|exact IH]. destruct Hv.
    + repeat constructor; assumption.
    + repeat constructor; apply N.mod_lt; discriminate.
    + repeat constructor; apply N.mod_lt; discriminate.
    + destruct H as [H _]. exact (vli_bytes_ok _ _ H).
    + exact (str_bytes _ _ H).
    + apply Forall_app. split; eapply str_bytes; eassumption.
Qed.
Lemma read_properties_ok ps bs : props_wire ps bs -> only ids ps -> forall fuel v, (length bs <= fuel)%nat -> read_properties read fuel v bs = Some (applied ps v).
Proof.
  induction 1 as [|id k x ps b bs Hi Hv Hp IH]; intros Ho fuel v Hf; [destruct fuel; reflexivity|].
  apply Forall_cons_iff in Ho as [Ho1 Ho]. cbn [fst] in Ho1. destruct fuel as [|fuel]; [cbn in Hf; lia|]. cbn [read_properties]. rewrite read_eq, (proj2 (kind_in id k) (conj Ho1 Hi)).
  rewrite (read_value_ok k x b bs Hv (props_bytes ps bs Hp)). rewrite IH; [reflexivity|exact Ho|]. cbn in Hf. rewrite app_length in Hf. lia.
Qed.
Lemma read_properties_inv fuel : forall v c v', bytes_ok c -> read_properties read fuel v c = Some v' -> exists ps, props_wire ps c /\ only ids ps /\ v' = applied ps v.
Proof.
  induction fuel as [|fuel IH]; intros v c v' Hok; cbn [read_properties]; (destruct c as [|id c]; [intros E; injection E as <-; exists []; repeat split; constructor|]); [discriminate|].
  rewrite read_eq. apply Forall_cons_iff in Hok as [_ Hok]. destruct (kind id) as [k|] eqn:Ek; [|discriminate]. destruct (read_value k c) as [[x r]|] eqn:Ev; [|discriminate].
  apply read_value_inv in Ev as (b & -> & Hv); [|exact Hok]. apply Forall_app in Hok as [_ Hok]. intros E. destruct (IH _ _ _ Hok E) as (ps & H1 & H2 & H3).
  apply kind_in in Ek as [K1 K2]. exists ((id, x) :: ps). split; [econstructor; eassumption|]. split; [constructor; [exact K1|exact H2]|exact H3].
Qed.
Lemma read_all_iff v c v' : bytes_ok c -> read_all read v c = Some v' <-> exists ps, props_wire ps c /\ only ids ps /\ v' = applied ps v.
Proof.
  intros Hok. split; [apply read_properties_inv; exact Hok|]. intros (ps & H1 & H2 & ->). apply read_properties_ok; auto.
Qed.
(** a relation that holds at the start and is kept by each property holds at the end *)
Lemma applied_ind (P : list property -> A -> Prop) v : P [] v ->
  (forall ps w id k x b, P ps w -> kind id = Some k -> pval_wire k x b -> P (ps ++ [(id, x)]) (apply w id x)) ->
  forall ps bs, props_wire ps bs -> only ids ps -> P ps (applied ps v).
Proof.
  intros H0 Hs ps bs Hp Ho.
  assert (Hg : forall pre w, P pre w -> P (pre ++ ps) (applied ps w)); [|exact (Hg [] v H0)].
  induction Hp as [|id k x ps b bs Hi Hv Hp IH]; intros pre w Hw; [rewrite app_nil_r; exact Hw|]. apply Forall_cons_iff in Ho as [Ho1 Ho].
  change (pre ++ (id, x) :: ps) with (pre ++ [(id, x)] ++ ps). rewrite app_assoc. apply (IH Ho). apply (Hs pre w id k x b Hw); [|exact Hv]. apply kind_in. auto.
Qed.
End Props.
Lemma vals_snoc i ps id x : vals i (ps ++ [(id, x)]) = vals i ps ++ (if id =? i then [x] else []).
Proof. unfold vals. rewrite filter_app, map_app. cbn [filter fst]. destruct (id =? i); reflexivity. Qed.
Lemma latest_snoc {A} (f : A -> pval) l x : latest f (Some x) (l ++ [f x]).
Proof. exists l. reflexivity. Qed.
Lemma latest_fun {A} (f : A -> pval) o o' l : (forall x y, f x = f y -> x = y) -> latest f o l -> latest f o' l -> o = o'.
Proof.
  intros Hf. destruct o as [x|], o' as [y|]; cbn; auto.
  - intros [a ->] [b E]. apply app_inj_tail in E as [_ E]. f_equal. apply Hf; exact E.
  - intros [a ->] E. destruct a; discriminate.
  - intros E [a E']. rewrite E in E'. destruct a; discriminate.
Qed.
