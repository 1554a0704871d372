From Verif Require Import Base.
Ltac Zify.zify_post_hook ::= Z.div_mod_to_equations.

Lemma len_nil {A} : @len A [] = 0. Proof. reflexivity. Qed.
Lemma len_cons {A} (x : A) l : len (x :: l) = 1 + len l.
Proof. unfold len; cbn [length]; lia. Qed.
Lemma len_app {A} (a b : list A) : len (a ++ b) = len a + len b.
Proof. unfold len; rewrite app_length; lia. Qed.
Lemma len_be16 n : len (be16 n) = 2. Proof. reflexivity. Qed.
Lemma len_be32 n : len (be32 n) = 4. Proof. reflexivity. Qed.
#[global] Hint Rewrite @len_nil @len_cons @len_app len_be16 len_be32 : len.
Lemma len_zero_nil {A} (l : list A) : len l = 0 -> l = [].
Proof. destruct l; [reflexivity|]. rewrite len_cons. lia. Qed.
Lemma to_nat_len {A} (l : list A) : N.to_nat (len l) = length l.
Proof. unfold len; lia. Qed.

Lemma bytes_ok_app a b : bytes_ok (a ++ b) <-> bytes_ok a /\ bytes_ok b.
Proof. unfold bytes_ok; rewrite Forall_app; tauto. Qed.
Lemma bytes_ok_cons a b : bytes_ok (a :: b) <-> a < 256 /\ bytes_ok b.
Proof. unfold bytes_ok; rewrite Forall_cons_iff; tauto. Qed.
Lemma bytes_ok_nil : bytes_ok []. Proof. constructor. Qed.
Lemma bytes_ok_be16 n : bytes_ok (be16 n).
Proof. unfold be16; repeat constructor; unfold byte_ok; lia. Qed.
Lemma bytes_ok_be32 n : bytes_ok (be32 n).
Proof. unfold be32; repeat constructor; unfold byte_ok; lia. Qed.

Lemma bwrite_ok b x : len (bdata b) + len x <= bcap b -> bwrite b x = Ok (mkbuf (bcap b) (bdata b ++ x)).
Proof. intros H. unfold bwrite. destruct (N.leb_spec (len (bdata b) + len x) (bcap b)); [reflexivity|lia]. Qed.
Lemma bwrite_inv b x b' : bwrite b x = Ok b' ->
  len (bdata b) + len x <= bcap b /\ b' = mkbuf (bcap b) (bdata b ++ x).
Proof. unfold bwrite. destruct (N.leb_spec (len (bdata b) + len x) (bcap b)); intros H1; inversion H1; auto. Qed.
Lemma bwrite_err b x e : bwrite b x = Err e -> bcap b < len (bdata b) + len x /\ e = E_SHORT_BUFFER.
Proof. unfold bwrite. destruct (N.leb_spec (len (bdata b) + len x) (bcap b)); intros H1; inversion H1; auto. Qed.

Lemma read_be16_be16 n r : n < 65536 -> read_be16 (be16 n ++ r) = Some (n, r).
Proof. intros H. unfold be16, read_be16. cbn [app]. f_equal. f_equal. lia. Qed.
Lemma read_be32_be32 n r : n < 4294967296 -> read_be32 (be32 n ++ r) = Some (n, r).
Proof. intros H. unfold be32, read_be32. cbn [app]. f_equal. f_equal. lia. Qed.
Lemma read_be16_inv c n r : bytes_ok c -> read_be16 c = Some (n, r) -> c = be16 n ++ r /\ n < 65536 /\ bytes_ok r.
Proof.
  intros Hok. destruct c as [|a [|b c]]; cbn; try discriminate.
  intros H; inversion H; subst. apply bytes_ok_cons in Hok as [Ha Hok]. apply bytes_ok_cons in Hok as [Hb Hok].
  unfold be16; repeat split; [|lia|assumption]. cbn [app]. f_equal; [lia|f_equal; lia].
Qed.
Lemma read_be16_len c n r : read_be16 c = Some (n, r) -> len c = 2 + len r.
Proof. destruct c as [|a [|b c]]; cbn; try discriminate. intros H; inversion H; subst. autorewrite with len. lia. Qed.
Lemma read_be32_len c n r : read_be32 c = Some (n, r) -> len c = 4 + len r.
Proof. destruct c as [|a [|b [|d [|e c]]]]; cbn; try discriminate. intros H; inversion H; subst. autorewrite with len. lia. Qed.
Lemma read_u8_len c n r : read_u8 c = Some (n, r) -> len c = 1 + len r.
Proof. destruct c; cbn; try discriminate. intros H; inversion H; subst. autorewrite with len. lia. Qed.

Lemma advance_app s r : advance (s ++ r) (len s) = (s, r).
Proof.
  unfold advance. rewrite len_app. destruct (N.leb_spec (len s) (len s + len r)); [|lia].
  rewrite to_nat_len. f_equal.
  - rewrite firstn_app, Nat.sub_diag, firstn_all. cbn. apply app_nil_r.
  - rewrite skipn_app, Nat.sub_diag, skipn_all. reflexivity.
Qed.
Lemma advance_ok c n : n <= len c -> fst (advance c n) ++ snd (advance c n) = c /\ len (fst (advance c n)) = n.
Proof.
  intros H. unfold advance. destruct (N.leb_spec n (len c)); [|lia]. cbn [fst snd]. split.
  - apply firstn_skipn.
  - unfold len in *. rewrite firstn_length. lia.
Qed.
Lemma advance_all s : advance s (len s) = (s, []).
Proof. rewrite <- (app_nil_r s) at 1. apply advance_app. Qed.
