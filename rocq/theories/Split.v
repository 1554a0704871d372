(** aws_byte_cursor_next_split (aws-c-common): iterating it over a string visits the segments between occurrences of the
    separator; an empty string has one empty segment, a trailing separator gives a trailing empty segment. Trusted semantics. *)
From Verif Require Import Base.

Fixpoint split (c : N) (l : bytes) : list bytes :=
  match l with
  | [] => [[]]
  | x :: l => if x =? c then [] :: split c l else match split c l with [] => [[x]] | s :: ss => (x :: s) :: ss end
  end.
(** glue segments with the separator *)
Fixpoint join (c : N) (l : list bytes) : bytes :=
  match l with [] => [] | [s] => s | s :: ss => s ++ c :: join c ss end.

Lemma split_cons c l : exists s ss, split c l = s :: ss.
Proof. induction l as [|x l (s & ss & IH)]; cbn; [eauto|]. destruct (x =? c); [eauto|]. rewrite IH. eauto. Qed.
Lemma split_nonempty c l : split c l <> [].
Proof. destruct (split_cons c l) as (? & ? & ->). discriminate. Qed.
Lemma join_cons c s ss : ss <> [] -> join c (s :: ss) = s ++ c :: join c ss.
Proof. destruct ss; [congruence|reflexivity]. Qed.
Lemma join_split c l : join c (split c l) = l.
Proof.
  induction l as [|x l IH]; cbn; [reflexivity|]. destruct (N.eqb_spec x c) as [->|].
  - rewrite join_cons by apply split_nonempty. cbn. rewrite IH. reflexivity.
  - destruct (split_cons c l) as (s & ss & E). rewrite E in *. destruct ss; cbn in *; rewrite IH; reflexivity.
Qed.
Definition no_sep (c : N) (s : bytes) : Prop := ~ In c s.
Lemma split_no_sep c l : Forall (no_sep c) (split c l).
Proof.
  induction l as [|x l IH]; cbn; [constructor; [intros []|constructor]|]. destruct (N.eqb_spec x c).
  - constructor; [intros []|assumption].
  - destruct (split_cons c l) as (s & ss & E). rewrite E in *. apply Forall_cons_iff in IH as [H1 H2]. constructor; [|assumption].
    intros [->|Hi]; [congruence|]. exact (H1 Hi).
Qed.
Lemma split_app_sep c s l : no_sep c s -> split c (s ++ c :: l) = s :: split c l.
Proof.
  induction s as [|x s IH]; intros H; cbn; [rewrite N.eqb_refl; reflexivity|].
  destruct (N.eqb_spec x c) as [->|]; [exfalso; apply H; left; reflexivity|].
  rewrite IH; [reflexivity|]. intros Hi. apply H. right. assumption.
Qed.
Lemma split_single c s : no_sep c s -> split c s = [s].
Proof.
  induction s as [|x s IH]; intros H; cbn; [reflexivity|].
  destruct (N.eqb_spec x c) as [->|]; [exfalso; apply H; left; reflexivity|].
  rewrite IH; [reflexivity|]. intros Hi. apply H. right. assumption.
Qed.
Lemma split_join c l : l <> [] -> Forall (no_sep c) l -> split c (join c l) = l.
Proof.
  intros Hne H. induction H as [|s ss Hs Hss IH]; [congruence|]. destruct ss as [|s2 ss].
  - cbn. apply split_single. assumption.
  - rewrite join_cons by discriminate. rewrite split_app_sep by assumption. rewrite IH by discriminate. reflexivity.
Qed.
Lemma split_inj c l1 l2 : split c l1 = split c l2 -> l1 = l2.
Proof. intros H. rewrite <- (join_split c l1), <- (join_split c l2), H. reflexivity. Qed.
Lemma split_in_iff c x l : x <> c -> (In x l <-> exists s, In s (split c l) /\ In x s).
Proof.
  intros Hx. induction l as [|y l IH]; cbn; [split; [intros []|intros (s & [<-|[]] & [])]|].
  destruct (N.eqb_spec y c) as [->|Hy].
  - rewrite IH. split.
    + intros [E|(s & Hs & Hi)]; [congruence|]. exists s. split; [right; assumption|assumption].
    + intros (s & [<-|Hs] & Hi); [destruct Hi|]. right. eauto.
  - destruct (split_cons c l) as (s0 & ss & E). rewrite E in *. rewrite IH. split.
    + intros [->|(s & [<-|Hs] & Hi)].
      * exists (x :: s0). split; [left; reflexivity|left; reflexivity].
      * exists (y :: s0). split; [left; reflexivity|right; assumption].
      * exists s. split; [right; assumption|assumption].
    + intros (s & [<-|Hs] & Hi).
      * destruct Hi as [->|Hi]; [left; reflexivity|]. right. exists s0. split; [left; reflexivity|assumption].
      * right. exists s. split; [right; assumption|assumption].
Qed.
(** a segment boundary is a separator or an end *)
Lemma split_length c l : length (split c l) = S (count_occ N.eq_dec l c).
Proof.
  induction l as [|x l IH]; cbn; [reflexivity|]. destruct (N.eqb_spec x c) as [->|Hx].
  - destruct (N.eq_dec c c); [|congruence]. cbn. rewrite IH. reflexivity.
  - destruct (N.eq_dec x c); [congruence|]. destruct (split_cons c l) as (s & ss & E). rewrite E in *. cbn in *. assumption.
Qed.
