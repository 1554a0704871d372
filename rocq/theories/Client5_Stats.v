(** The statistics the client keeps: they are the number and the total size of the operations it still has to deal with. *)
From Verif Require Import Base BaseLemmas Mqtt5_Views TopicAlias_Model Encoder5_Model Decoder5_Model RateLimiter_Model RateLimiter_Spec
  RateLimiter_Proofs Validate5_Model Negotiated_Model Client5_State Client5_Model Client5_Steps Client5_Decomp Client5_Decomp2 Client5_Forms Client5_Decomp3
  Client5_Inv0 Client5_Spec Client5_Flow Client5_Safety Client5_Ops Client5_Crash Client5_Conn Client5_Events Client5_Ids.
From Coq Require Import Permutation.
Ltac Zify.zify_post_hook ::= idtac.

(** ** Sizes *)
(** what a request is counted with: its encoded size before it has a packet id *)
Notation bsize p := (get_encoded_size (bare p)).
Lemma bsize_id id p : bsize (set_packet_id id p) = bsize p.
Proof. rewrite bare_id. reflexivity. Qed.
Lemma bsize_dup p : bsize (set_duplicate p) = bsize p.
Proof. rewrite bare_dup. reflexivity. Qed.
Definition same (a b : res N) : Prop := match a, b with Ok x, Ok y => x = y | Err _, Err _ => True | _, _ => False end.
Lemma same_refl a : same a a. Proof. destruct a; constructor. Qed.
Lemma gsize_zero p : is_request p = true -> same (get_encoded_size (set_packet_id 0 p)) (bsize p).
Proof. destruct p; try discriminate; intros _; apply same_refl. Qed.
Lemma packet_size_err x y e : packet_size x = Err e -> x <= y -> exists e', packet_size y = Err e'.
Proof.
  unfold packet_size, vli_size. destruct (N.ltb_spec max_vli x) as [Hx|Hx]; cbn [bind].
  - intros _ L. destruct (N.ltb_spec max_vli y); [eexists; reflexivity|lia].
  - destruct (x <? 128); [discriminate|]. destruct (x <? 16384); [discriminate|]. destruct (x <? 2097152); discriminate.
Qed.
Lemma bsize_err p e : is_request p = true -> bsize p = Err e -> exists e', get_encoded_size p = Err e'.
Proof.
  destruct p; try discriminate; intros _; cbn [bare get_encoded_size].
  - unfold publish_lengths. cbn [pb_user_properties pb_payload_format pb_message_expiry pb_topic_alias pb_response_topic pb_correlation_data pb_content_type
      pb_subscription_identifiers pb_topic pb_packet_id pb_payload]. destruct (subscription_ids_length _) as [ids|e1]; cbn [bind]; [|eauto].
    destruct (vli_size _) as [sz|e1]; cbn [bind]; [|eauto]. cbn [fst]. intros E. eapply packet_size_err; [exact E|].
    change (negb (0 =? 0)) with false. cbv iota. destruct (negb (pb_packet_id v =? 0)); lia.
  - intros E. exists e. exact E.
  - intros E. exists e. exact E.
Qed.
Lemma request_id id p : is_request (set_packet_id id p) = is_request p.
Proof. destruct p; reflexivity. Qed.
Lemma request_dup p : is_request (set_duplicate p) = is_request p.
Proof. destruct p; reflexivity. Qed.
Lemma request_bare p : is_request (bare p) = is_request p.
Proof. destruct p; reflexivity. Qed.
Lemma gsize_small p n : get_encoded_size p = Ok n -> n < 4294967296.
Proof.
  assert (forall x m, packet_size x = Ok m -> m < 4294967296) as H.
  { intros x m. unfold packet_size, vli_size. destruct (N.ltb_spec max_vli x) as [|Hx]; cbn [bind]; [discriminate|].
    assert (x <= 268435455) as Hy by exact Hx.
    destruct (x <? 128); [|destruct (x <? 16384); [|destruct (x <? 2097152)]]; intros E; injection E as <-; lia. }
  assert (forall A (r : res (N * A)) m, (do x <- r; packet_size (fst x)) = Ok m -> m < 4294967296) as H2.
  { intros A r m. destruct r; cbn [bind]; [apply H|discriminate]. }
  destruct p; cbn [get_encoded_size]; try discriminate; try apply H2. intros E. injection E as <-. reflexivity.
Qed.

(** ** Sums *)
Definition tot (f : op -> N) (l : list op) : N := fold_right (fun o a => f o + a) 0 l.
Lemma tot_cons f o l : tot f (o :: l) = f o + tot f l. Proof. reflexivity. Qed.
Lemma tot_app f l l' : tot f (l ++ l') = tot f l + tot f l'.
Proof. induction l as [|o l IH]; cbn [app tot fold_right]; [reflexivity|]. fold (tot f (l ++ l')). rewrite IH. unfold tot. lia. Qed.
Lemma tot_perm f l l' : Permutation l l' -> tot f l = tot f l'.
Proof. induction 1; rewrite ?tot_cons; lia. Qed.
Lemma tot_ext f g l : Forall (fun o => f o = g o) l -> tot f l = tot g l.
Proof. induction 1 as [|o l H _ IH]; [reflexivity|]. rewrite !tot_cons, H, IH. reflexivity. Qed.
Lemma tot_zero f l : Forall (fun o => f o = 0) l -> tot f l = 0.
Proof. induction 1 as [|o l H _ IH]; [reflexivity|]. rewrite tot_cons, H, IH. reflexivity. Qed.
Lemma tot_map f g l : (forall o, f (g o) = f o) -> tot f (map g l) = tot f l.
Proof. intros H. induction l as [|o l IH]; cbn [map]; [reflexivity|]. rewrite !tot_cons, H, IH. reflexivity. Qed.

(** ** The four counters *)
Inductive meter := INC_N | INC_B | UNA_N | UNA_B.
Definition reading (m : meter) (x : sta) : N :=
  match m with INC_N => st_inc_n x | INC_B => st_inc_b x | UNA_N => st_una_n x | UNA_B => st_una_b x end.
Definition weight (m : meter) (o : op) : N :=
  match m with
  | INC_N => if op_inc o then 1 else 0
  | INC_B => if op_inc o then op_size o else 0
  | UNA_N => if op_una o then 1 else 0
  | UNA_B => if op_una o then op_size o else 0
  end.
(** [r] is [t] up to multiples of 2^64 *)
Definition bal (r t : N) : Prop := exists k : Z, Z.of_N r = (Z.of_N t + k * 18446744073709551616)%Z.
Lemma bal_mod r t : r < two64 -> bal r t -> r = t mod two64.
Proof.
  intros Hr (k & E). change two64 with 18446744073709551616 in *. apply N2Z.inj. rewrite N2Z.inj_mod by lia.
  apply (Z.mod_unique_pos _ _ (- k)%Z); [split; [apply N2Z.is_nonneg|lia]|]. change (Z.of_N 18446744073709551616) with 18446744073709551616%Z. lia.
Qed.
(** how an operation is accounted for: counted as incomplete or not, as unacknowledged or not; one too large to be encoded never is *)
Definition flags (i u : bool) (o : op) : Prop :=
  if is_request (op_packet o) then
    match bsize (op_packet o) with
    | Ok n => op_size o = n /\ op_inc o = i /\ op_una o = u
    | Err _ => op_size o = 0 /\ op_inc o = false /\ op_una o = false
    end
  else op_inc o = false /\ op_una o = false.
Definition sane (o : op) : Prop :=
  if is_request (op_packet o) then
    (op_size o = 0 /\ (op_inc o = false /\ op_una o = false) /\ same (get_encoded_size (op_packet o)) (bsize (op_packet o))) \/
    bsize (op_packet o) = Ok (op_size o)
  else op_inc o = false /\ op_una o = false.
Definition off (o : op) : Prop := op_inc o = false /\ op_una o = false.
Lemma flags_sane i u o : flags i u o -> sane o.
Proof.
  unfold flags, sane. destruct (is_request (op_packet o)) eqn:R; [|auto]. destruct (bsize (op_packet o)) as [n|e] eqn:E; [intros (-> & _); auto|].
  intros (H1 & H2 & H3). left. split; [exact H1|]. split; [auto|]. destruct (bsize_err _ _ R E) as [e' ->]. exact I.
Qed.
Lemma bsize_pos p n : bsize p = Ok n -> n <> 0.
Proof. apply encoded_size_pos. Qed.
Lemma sane_settled o : sane o -> settled o -> off o.
Proof.
  unfold sane, settled, off. destruct (is_request (op_packet o)); [|tauto]. intros [(_ & H & _)|H]; [tauto|].
  intros [E|[E|(E & e & Er)]]; [discriminate|assumption|]. apply bsize_pos in H. contradiction.
Qed.
Lemma flags_waiting u o : flags true u o -> waiting o -> flags true false o.
Proof.
  unfold flags, waiting. destruct (is_request (op_packet o)); [|auto]. destruct (bsize (op_packet o)) eqn:B; [|auto].
  intros (H1 & H2 & H3) [E|[[_ E]|(E & _)]]; try discriminate; [auto|]. apply bsize_pos in B. congruence.
Qed.
Lemma new_off u w p x : off (op_new u w p x). Proof. split; reflexivity. Qed.
Lemma nonrequest_flags i u o : is_request (op_packet o) = false -> off o -> flags i u o.
Proof. unfold flags. intros ->. auto. Qed.
Lemma off_weight m o : off o -> weight m o = 0.
Proof. intros [H1 H2]. destruct m; cbn [weight]; rewrite ?H1, ?H2; reflexivity. Qed.
Lemma flags_ufd i u o : flags i u o -> flags i u (unacked_for_disconnect o).
Proof.
  unfold unacked_for_disconnect. destruct (is_acked_publish (op_packet o)); unfold flags; cbn [op_packet set_packet op_size op_inc op_una].
  - rewrite request_dup, bsize_dup. auto.
  - rewrite request_id, bsize_id. auto.
Qed.
Lemma flags_id i u id o : flags i u o -> flags i u (set_packet (set_packet_id id (op_packet o)) o).
Proof. unfold flags; cbn [op_packet set_packet op_size op_inc op_una]. rewrite request_id, bsize_id. auto. Qed.
Lemma weight_ufd m o : weight m (unacked_for_disconnect o) = weight m o.
Proof. unfold unacked_for_disconnect. destruct (is_acked_publish (op_packet o)), m; reflexivity. Qed.
Lemma weight_packet m p o : weight m (set_packet p o) = weight m o.
Proof. destruct m; reflexivity. Qed.

Lemma u64_bal x : exists k : Z, Z.of_N (u64 x) = (Z.of_N x + k * 18446744073709551616)%Z /\ u64 x < two64.
Proof.
  exists (- Z.of_N (x / two64))%Z. unfold u64. pose proof (N.div_mod x two64 ltac:(discriminate)) as E. pose proof (N.mod_lt x two64 ltac:(discriminate)) as L.
  split; [|exact L]. change two64 with 18446744073709551616 in *. lia.
Qed.
Lemma size_of_bsize o : is_request (op_packet o) = true -> sane o -> same (size_of o) (bsize (op_packet o)).
Proof.
  intros R H. unfold sane in H. rewrite R in H. unfold size_of. destruct H as [(-> & _ & H)|H]; [exact H|]. rewrite H.
  apply bsize_pos in H. destruct (N.eqb_spec (op_size o) 0); [contradiction|reflexivity].
Qed.
Lemma cs_flags inc una o s : sane o -> flags inc una (fst (change_statistics inc una o s)).
Proof.
  intros H. rewrite change_statistics_eq. unfold flags. destruct (is_request (op_packet o)) eqn:R; cbn [negb fst].
  2: { rewrite R. unfold sane in H. rewrite R in H. exact H. }
  pose proof (size_of_bsize o R H) as Sz. destruct (size_of o) as [n|e]; cbn [fst set_stat op_packet op_size op_inc op_una]; rewrite R.
  - destruct (bsize (op_packet o)) eqn:B; [|contradiction]. unfold same in Sz. auto.
  - destruct (bsize (op_packet o)) eqn:B; [contradiction|]. unfold sane in H. rewrite R in H. destruct H as [(H & H1 & _)|H]; [tauto|congruence].
Qed.
Lemma cs_bal m inc una o s : sane o -> let '(o', s') := change_statistics inc una o s in
  (reading m (c_sta s) < two64 -> reading m (c_sta s') < two64) /\
  exists k : Z, (Z.of_N (reading m (c_sta s')) + Z.of_N (weight m o) = Z.of_N (reading m (c_sta s)) + Z.of_N (weight m o') + k * 18446744073709551616)%Z.
Proof.
  intros H. rewrite change_statistics_eq. destruct (is_request (op_packet o)) eqn:R; cbn [negb].
  2: { split; [auto|]. exists 0%Z. lia. }
  pose proof (size_of_bsize o R H) as Sz. destruct (size_of o) as [n|e].
  2: { split; [auto|]. exists 0%Z. lia. }
  destruct (bsize (op_packet o)) as [n'|] eqn:Hn; [|contradiction]. unfold same in Sz. subst n'.
  pose proof (gsize_small _ _ Hn) as Hb.
  assert ((op_inc o = true -> op_size o = n) /\ (op_una o = true -> op_size o = n)) as [Hi Hu].
  { unfold sane in H. rewrite R in H. split; intros F; (destruct H as [(_ & (H1 & H2) & _)|H]; congruence). }
  change (c_sta (set_c_sta ?a s)) with a. generalize (c_sta s). intros x. clear - Hb Hi Hu.
  assert (two64 = 18446744073709551616) as E64 by reflexivity.
  destruct m; cbn [reading new_sta st_inc_n st_inc_b st_una_n st_una_b weight set_stat op_inc op_una op_size]; unfold Client5_Decomp.move.
  all: match goal with |- context [Bool.eqb ?a ?b] => destruct a eqn:?, b end; cbn [Bool.eqb fst snd].
  all: try match goal with |- context [add64 ?a ?b] => unfold add64; destruct (u64_bal (a + b)) as (k & Ek & Lk); (split; [auto|]); exists k; lia end.
  all: try match goal with |- context [sub64 ?a ?b] => unfold sub64; destruct (u64_bal (a + two64 - b)) as (k & Ek & Lk); (split; [auto|]); exists (k + 1)%Z;
    rewrite ?Hi by reflexivity; rewrite ?Hu by reflexivity; lia end.
  all: (split; [auto|]); exists 0%Z; rewrite ?Hi by reflexivity; rewrite ?Hu by reflexivity; lia.
Qed.
Lemma list_bal m l : forall s, Forall sane l -> let '(l', s') := set_list_incomplete l s in
  Forall (flags true false) l' /\ (reading m (c_sta s) < two64 -> reading m (c_sta s') < two64) /\
  exists k : Z, (Z.of_N (reading m (c_sta s')) + Z.of_N (tot (weight m) l) = Z.of_N (reading m (c_sta s)) + Z.of_N (tot (weight m) l') + k * 18446744073709551616)%Z.
Proof.
  induction l as [|o l IH]; intros s H; cbn [set_list_incomplete].
  - split; [constructor|]. split; [auto|]. exists 0%Z. lia.
  - inversion H as [|? ? Ho Hl]; subst. pose proof (cs_flags true false o s Ho) as F. pose proof (cs_bal m true false o s Ho) as B.
    destruct (change_statistics true false o s) as [o' s1]. cbn [fst] in F. destruct B as (B1 & k1 & B2). specialize (IH s1 Hl).
    destruct (set_list_incomplete l s1) as [l' s2]. destruct IH as (I1 & I2 & k2 & I3). split; [constructor; assumption|]. split; [auto|].
    exists (k1 + k2)%Z. rewrite !tot_cons. lia.
Qed.

Section Stats.
Variable cf : config.
Variable now0 : N.
Notation prim := (prim cf).
Notation reach := (reach cf now0).

Definition J13 (x : ghost * client) : Prop := let '(g, s) := x in
  (forall m, reading m (c_sta s) < two64 /\ bal (reading m (c_sta s)) (tot (weight m) (held g s) + tot (weight m) (finished (c_out s)))) /\
  Forall sane (g_hand g) /\
  (Forall (flags true false) (queued s) \/
   current s = CONNECTED /\ (exists v, g_link g = ACKED v) /\ Forall (fun o => exists u, flags true u o) (queued s)) /\
  (forall o, curop s = Some o -> flags true false o) /\ Forall (flags true false) (wc s) /\ Forall (flags true true) (unacked s) /\
  Forall (flags true false) (lost (c_out s)) /\ Forall off (completed (c_out s)).

Lemma bal_same a b t : bal a t -> t = b -> bal a b. Proof. congruence. Qed.
Ltac tots := repeat match goal with
    | |- context [tot ?f (?k ++ ?l)] => rewrite (tot_app f k l)
    | |- context [tot ?f (?k :: ?l)] => rewrite (tot_cons f k l)
    | |- context [tot ?f []] => change (tot f []) with 0
    | H : context [tot ?f (?k ++ ?l)] |- _ => rewrite (tot_app f k l) in H
    | H : context [tot ?f (?k :: ?l)] |- _ => rewrite (tot_cons f k l) in H
    | H : context [tot ?f []] |- _ => change (tot f []) with 0 in H
    end.
Ltac mtr := let m := fresh "m" in intros m; let M1 := fresh in let M2 := fresh in match goal with Jm : forall m : meter, _ /\ _ |- _ => destruct (Jm m) as [M1 M2] end; split; [exact M1|eapply bal_same; [exact M2|]]; unfold held.
Ltac fineq := match goal with Jq : Forall (flags true false) (queued ?s) \/ _ |- _ =>
  let Hx := fresh "Hx" in let Hv := fresh "Hv" in let v := fresh "v" in
  destruct Jq as [Jq|(Hx & [v Hv] & _)]; [exact Jq|exfalso;
    repeat match goal with H : _ /\ _ |- _ => destruct H | H : down _ _ |- _ => destruct H | H : _ \/ _ |- _ => destruct H
      | H : calm _ _ |- _ => exact (H Hx _ Hv) | H : sending (current s) = _ |- _ => rewrite Hx in H; discriminate H end; congruence] end.
Lemma queue_cons g s s' o : current s' = current s -> queued s' = o :: queued s -> (forall u, flags true u o) ->
  (Forall (flags true false) (queued s) \/ current s = CONNECTED /\ (exists v, g_link g = ACKED v) /\ Forall (fun o => exists u, flags true u o) (queued s)) ->
  Forall (flags true false) (queued s') \/ current s' = CONNECTED /\ (exists v, g_link g = ACKED v) /\ Forall (fun o => exists u, flags true u o) (queued s').
Proof.
  intros E1 E2 Hn Jq. rewrite E1, E2. destruct Jq as [Jq|(H1 & H2 & Jq)]; [left|right; split; [exact H1|split; [exact H2|]]]; (constructor; [|exact Jq]); [apply Hn|exists false; apply Hn].
Qed.
Lemma puback_J13 g w id s : J13 (g, s) -> J13 (g, puback_core w id s).
Proof.
  intros (Jm & Jh & Jq & Jc & Jw & Ju & Jl & Jd). unfold puback_core. set (o := op_new (uid s) w (P_PUBACK (mkpuback id 0 None [])) 0).
  assert (off o) as Ho by apply new_off. assert (forall u, flags true u o) as Hn by (intros u; apply nonrequest_flags; [reflexivity|exact Ho]).
  pose proof (insert_puback_perm o (queued s)) as Hp. split; [|split; [exact Jh|split; [|repeat split; assumption]]].
  - mtr. nrm. rewrite !(tot_app (weight m)), (tot_perm _ _ _ Hp). tots. rewrite (off_weight m o Ho). lia.
  - assert (forall P : op -> Prop, P o -> Forall P (queued s) -> Forall P (insert_puback o (queued s))) as Hf.
    { intros P H1 H2. eapply Permutation_Forall; [symmetry; exact Hp|]. constructor; assumption. }
    destruct Jq as [Jq|(H1 & H2 & Jq)]; [left|right; split; [exact H1|split; [exact H2|]]]; apply Hf; try exact Jq; [apply Hn|exists false; apply Hn].
Qed.
Lemma reach_J13 g s : reach (g, s) -> ok s -> J13 (g, s).
Proof.
  intros R Ok. refine (reach_inv cf now0 J13 _ (fun s now _ _ J => J) _ (g, s) R Ok).
  - split; [intros m; split; [destruct m; reflexivity|exists 0%Z; destruct m; reflexivity]|].
    split; [constructor|]. split; [left; constructor|]. split; [discriminate|]. repeat split; constructor.
  - clear R Ok g s. intros g s g' s' R Ok Ok' J P. pose proof (reach_J1 cf now0 _ _ R Ok) as (ND & _).
    pose proof J as (Jm & Jh & Jq & Jc & Jw & Ju & Jl & Jd).
    inversion P; subst; clear P; repeat match goal with H : ok _ -> _ |- _ => specialize (H Ok) end; try exact J.
    + match goal with H : hush _ _ |- _ => destruct H as [H _]; apply core_inv in H as (E1 & E0 & E2 & E3 & E4 & E5 & E6 & E7 & E8 & E9 & E10 & E11 & E12 & E13 & E14 & E15) end.
      unfold J13, held. rewrite E1, E2, E3, E4, E5, E12, E15. exact J.
    + exfalso. exact (not_ok_crash _ _ Ok').
    + destruct x; try discriminate; exact J.
    + (* attempt *) split; [exact Jm|]. split; [exact Jh|]. split; [|repeat split; assumption]. left. fineq.
    + (* success *) split; [exact Jm|]. split; [exact Jh|]. split; [|repeat split; assumption]. left. destruct Jq as [Jq|(_ & _ & Jq)]; [exact Jq|].
      match goal with H : _ /\ _ |- _ => destruct H as (_ & _ & _ & _ & _ & Hw) end. change (Forall (flags true false) (queued s)). rewrite Forall_forall in *. intros o Ho.
      destruct (Jq _ Ho) as [u Hu]. exact (flags_waiting u o Hu (Hw _ Ho)).
    + (* state *) assert (g_hand match c with MQTT_CONNECT => with_link NEW g | _ => g end = g_hand g) as Eh by (destruct c; reflexivity).
      unfold J13, held. rewrite Eh. split; [exact Jm|]. split; [exact Jh|]. split; [|repeat split; assumption]. left. fineq.
    + (* open *) split; [exact Jm|]. split; [exact Jh|]. split; [|repeat split; assumption]. left. fineq.
    + (* apply *) split; [exact Jm|]. split; [exact Jh|]. split; [|repeat split; assumption]. left. fineq.
    + (* die *) split; [exact Jm|]. split; [exact Jh|]. split; [|repeat split; assumption]. left. fineq.
    + (* closed *) split; [exact Jm|]. split; [exact Jh|]. split; [|repeat split; assumption]. left. fineq.
    + (* enqueue *) match goal with H : is_request p = true /\ _ |- _ => destruct H as [Hp _] end. unfold enqueue.
      set (s1 := emit (I_SUBMIT (op_new (uid s) BY_USER p override)) (set_uid (uid s + 1) s)).
      set (o0 := set_packet (set_packet_id 0 p) (op_new (uid s) BY_USER p override)).
      assert (sane o0) as Hs0.
      { unfold sane, o0. cbn [op_packet set_packet op_size op_inc op_una op_new]. rewrite request_id, Hp, bsize_id. left. split; [reflexivity|].
        split; [split; reflexivity|]. apply gsize_zero. exact Hp. }
      pose proof (cs_flags true false o0 s1 Hs0) as Hf. pose proof (fun m => cs_bal m true false o0 s1 Hs0) as Hb.
      destruct (cs_shape true false o0 s1) as [x Hx]. destruct (change_statistics true false o0 s1) as [o2 s2]. cbn [fst snd] in *. subst s2.
      split; [|split; [exact Jh|split; [|repeat split; assumption]]].
      * intros m. destruct (Jm m) as [M1 (k & M2)]. destruct (Hb m) as [B1 (k2 & B2)]. split; [exact (B1 M1)|]. exists (k + k2)%Z.
        unfold held in *. change (c_sta (set_c_sta x s1)) with x in B2. change (c_sta s1) with (c_sta s) in B2.
        change (c_sta (set_queued ?a (set_c_sta x s1))) with x. rewrite (off_weight m o0) in B2 by (split; reflexivity).
        nrm. unfold s1. nrm. unfold finished in *. cbn [flat_map app] in *. tots. lia.
      * change (Forall (flags true false) (queued s ++ [o2]) \/ current s = CONNECTED /\ (exists v, g_link g' = ACKED v) /\ Forall (fun o => exists u, flags true u o) (queued s ++ [o2])).
        destruct Jq as [Jq|(J1' & J2' & Jq)]; [left|right; split; [exact J1'|split; [exact J2'|]]]; (apply Forall_app; split; [exact Jq|repeat constructor]); [exact Hf|exists false; exact Hf].
    + (* refuse *) split; [|split; [exact Jh|split; [exact Jq|repeat split; try assumption]]].
      * mtr. unfold refuse, finished. nrm. cbn [flat_map app]. tots. rewrite (off_weight m) by apply new_off. reflexivity.
      * unfold refuse, completed. nrmg. cbn [flat_map app]. constructor; [apply new_off|exact Jd].
    + (* push_front *) assert (forall u, flags true u (op_new (uid s) BY_CLIENT p 0)) as Hn.
      { intros u. apply nonrequest_flags; [|apply new_off]. match goal with H : match p with _ => _ end |- _ => destruct p; first [reflexivity|destruct H] end. }
      split; [|split; [exact Jh|split; [|repeat split; assumption]]].
      * mtr. unfold push_front. nrm. tots. rewrite (off_weight m (op_new _ _ _ _)) by apply new_off. lia.
      * refine (queue_cons _ s _ _ _ _ Hn Jq); reflexivity.
    + (* drop_new *) split; [|split; [exact Jh|split; [exact Jq|repeat split; try assumption]]].
      * mtr. unfold drop_new, finished. nrm. cbn [flat_map app]. tots. rewrite (off_weight m (op_new _ _ _ _)) by apply new_off. lia.
      * unfold drop_new, lost. nrmg. cbn [flat_map app]. constructor; [apply nonrequest_flags; [reflexivity|apply new_off]|exact Jl].
    + (* push_disconnect *) split; [|split; [exact Jh|split; [|repeat split; assumption]]].
      * mtr. unfold push_disconnect, finished. nrm. cbn [flat_map app]. tots. rewrite (off_weight m (op_new _ _ _ _)) by apply new_off. lia.
      * refine (queue_cons _ s _ _ _ _ (fun u => nonrequest_flags true u _ _ (new_off _ _ _ _)) Jq); reflexivity.
    + (* drop_disconnect *) split; [|split; [exact Jh|split; [exact Jq|repeat split; try assumption]]].
      * mtr. unfold drop_disconnect, finished. nrm. cbn [flat_map app]. tots. rewrite (off_weight m (op_new _ _ _ _)) by apply new_off. lia.
      * unfold drop_disconnect, lost. nrmg. cbn [flat_map app]. constructor; [apply nonrequest_flags; [reflexivity|apply new_off]|exact Jl].
    + (* publish *) destruct (publish_received_eq acquire v s) as (m & c & [(_ & -> & _)|[(_ & _ & ->)|(_ & _ & _ & ->)]] & _); try exact J. apply puback_J13. exact J.
    + (* manual *) destruct (manual_core_eq control s) as (m & x & -> & [(id & _ & _ & ->)|(_ & r & -> & _)]); [|exact J]. apply puback_J13. exact J.
    + (* cancel *) unfold reset_manual. destruct (mc s); exact J.
    + (* take *) match goal with H : queued s = _ |- _ => rename H into Eq end. rewrite Eq in Jq. split; [|split; [|split; [|repeat split; assumption]]].
      * mtr. rewrite Eq. nrm. cbn [g_hand with_hand]. tots. lia.
      * cbn [g_hand with_hand]. constructor; [|exact Jh]. destruct Jq as [Jq|(_ & _ & Jq)]; inversion Jq as [|? ? Hq]; subst; [|destruct Hq as [u Hq]]; eapply flags_sane; exact Hq.
      * destruct Jq as [Jq|(J1' & J2' & Jq)]; [left|right; split; [exact J1'|split; [exact J2'|]]]; inversion Jq; assumption.
    + (* take_queued *) match goal with H : Permutation _ _ /\ _ |- _ => destruct H as [Hp Hd] end.
      assert (Forall (flags true false) (queued s)) as Jq' by fineq. rewrite Hp in Jq'. apply Forall_app in Jq' as [Jq1 Jq2].
      split; [|split; [|split; [left; exact Jq2|repeat split; assumption]]].
      * mtr. rewrite (tot_app _ (g_hand g)), (tot_app _ (queued s)), (tot_perm _ _ _ Hp). nrm. cbn [g_hand with_hand]. tots. lia.
      * cbn [g_hand with_hand]. apply Forall_app; split; [|exact Jh]. eapply Forall_impl; [|exact Jq1]. intros a. apply flags_sane.
    + (* take_wc *) split; [|split; [|split; [exact Jq|repeat split; try assumption; constructor]]].
      * mtr. nrm. cbn [g_hand with_hand]. tots. lia.
      * cbn [g_hand with_hand]. apply Forall_app; split; [|exact Jh]. eapply Forall_impl; [|exact Jw]. intros a. apply flags_sane.
    + (* unacked *) match goal with H : Permutation (map _ _) _ |- _ => rename H into Hp end.
      assert (Forall (flags true true) (map unacked_for_disconnect (unacked s))) as Ju'.
      { apply Forall_map. eapply Forall_impl; [|exact Ju]. intros a. apply flags_ufd. }
      rewrite Hp in Ju'. apply Forall_app in Ju' as [Ju1 Ju2]. split; [|split; [|split; [exact Jq|repeat split; assumption]]].
      * mtr. rewrite !(tot_app (weight m)), <- (tot_map (weight m) unacked_for_disconnect (unacked s)) by apply weight_ufd. rewrite (tot_perm _ _ _ Hp). nrm. cbn [g_hand with_hand]. tots. lia.
      * cbn [g_hand with_hand]. apply Forall_app; split; [|exact Jh]. eapply Forall_impl; [|exact Ju1]. intros a. apply flags_sane.
    + (* reset_unacked *) split; [|split; [|split; [exact Jq|repeat split; try assumption; constructor]]].
      * mtr. nrm. cbn [g_hand with_hand]. tots. lia.
      * cbn [g_hand with_hand]. apply Forall_app; split; [|exact Jh]. eapply Forall_impl; [|exact Ju]. intros a. apply flags_sane.
    + (* acked *) match goal with H : find_op _ _ = _ |- _ => pose proof (remove_op_perm _ _ _ (nodup_unacked _ _ ND) H) as Hp end. rewrite Hp in Ju. inversion Ju as [|? ? Ju1 Ju2]; subst.
      split; [|split; [|split; [exact Jq|repeat split; assumption]]].
      * mtr. rewrite !(tot_app (weight m)), (tot_perm _ _ _ Hp). nrm. cbn [g_hand with_hand]. tots. lia.
      * cbn [g_hand with_hand]. constructor; [|exact Jh]. eapply flags_sane; exact Ju1.
    + (* expired *) match goal with H : find_op _ _ = _ |- _ => pose proof (remove_op_perm _ _ _ (nodup_unacked _ _ ND) H) as Hp end. rewrite Hp in Ju. inversion Ju as [|? ? Ju1 Ju2]; subst.
      split; [|split; [|split; [exact Jq|repeat split; assumption]]].
      * mtr. rewrite !(tot_app (weight m)), (tot_perm _ _ _ Hp). nrm. cbn [g_hand with_hand]. tots. lia.
      * cbn [g_hand with_hand]. constructor; [|exact Jh]. eapply flags_sane; exact Ju1.
    + (* statistics *) match goal with H : g_hand g = _ |- _ => rename H into Eh end. rewrite Eh in Jh. inversion Jh as [|? ? Jh1 Jh2]; subst.
      pose proof (cs_flags inc una o s Jh1) as Hf. pose proof (fun m => cs_bal m inc una o s Jh1) as Hb.
      destruct (cs_shape inc una o s) as [x Hx]. destruct (change_statistics inc una o s) as [o2 s2]. cbn [fst snd] in *. subst s2.
      split; [|split; [|split; [exact Jq|repeat split; assumption]]].
      * intros m. destruct (Jm m) as [M1 (k & M2)]. destruct (Hb m) as [B1 (k2 & B2)]. split; [exact (B1 M1)|]. exists (k + k2)%Z.
        unfold held in *. rewrite Eh in M2. nrm. cbn [g_hand with_hand]. tots. lia.
      * cbn [g_hand with_hand]. constructor; [eapply flags_sane; exact Hf|exact Jh2].
    + (* done *) match goal with H : g_hand g = _ |- _ => rename H into Eh end. rewrite Eh in Jh. inversion Jh as [|? ? Jh1 Jh2]; subst.
      match goal with H : _ /\ _ |- _ => destruct H as (_ & Hse & _) end. split; [|split; [|split; [exact Jq|repeat split; try assumption]]].
      * mtr. rewrite Eh. nrm. unfold finished. cbn [g_hand with_hand flat_map app]. tots. lia.
      * cbn [g_hand with_hand]. exact Jh2.
      * unfold completed. nrmg. cbn [flat_map app]. constructor; [apply sane_settled; assumption|exact Jd].
    + (* unsend *) match goal with H : curop s = _ |- _ => rename H into Hc end. assert (Forall (flags true false) (queued s)) as Jq' by fineq.
      split; [|split; [exact Jh|split; [left; constructor; [exact (Jc _ Hc)|exact Jq']|split; [discriminate|repeat split; assumption]]]].
      mtr. rewrite Hc. nrm. tots. lia.
    + (* requeue *) match goal with H : _ /\ _ |- _ => destruct H as (Hcu & _ & _ & Hv) end.
      split; [|split; [exact Jh|split; [right; split; [exact Hcu|split; [exact Hv|]]|split; [exact Jc|repeat split; try assumption; constructor]]]].
      * mtr. rewrite !(tot_app (weight m)), (tot_perm _ _ _ (perm_filter (fun o => is_acked_publish (op_packet o)) (unacked s))). nrm. tots. lia.
      * change (Forall (fun o => exists u, flags true u o) (filter (fun o => is_acked_publish (op_packet o)) (unacked s) ++ filter (fun o => negb (is_acked_publish (op_packet o))) (unacked s) ++ queued s)).
        assert (Forall (fun o => exists u, flags true u o) (unacked s)) as Ju' by (eapply Forall_impl; [|exact Ju]; intros a Ha; exists true; exact Ha).
        repeat (apply Forall_app; split); try (apply Forall_filter; exact Ju'). destruct Jq as [Jq|(_ & _ & Jq)]; [|exact Jq]. eapply Forall_impl; [|exact Jq]. intros a Ha. exists false. exact Ha.
    + (* refile *) match goal with H : _ /\ _ |- _ => destruct H as (Hcu & _ & Hh & Hv) end.
      split; [|split; [|split; [right; split; [exact Hcu|split; [exact Hv|]]|split; [exact Jc|repeat split; try assumption; constructor]]]].
      * mtr. rewrite Hh, !(tot_app (weight m)), (tot_perm _ _ _ (perm_filter (fails_policy cf) (unacked s))). nrm. cbn [g_hand with_hand]. tots. lia.
      * cbn [g_hand with_hand]. apply Forall_filter. eapply Forall_impl; [|exact Ju]. intros a. apply flags_sane.
      * change (Forall (fun o => exists u, flags true u o) (filter (fun o => negb (fails_policy cf o)) (unacked s) ++ queued s)).
        assert (Forall (fun o => exists u, flags true u o) (unacked s)) as Ju' by (eapply Forall_impl; [|exact Ju]; intros a Ha; exists true; exact Ha).
        apply Forall_app; split; [apply Forall_filter; exact Ju'|]. destruct Jq as [Jq|(_ & _ & Jq)]; [|exact Jq]. eapply Forall_impl; [|exact Jq]. intros a Ha. exists false. exact Ha.
    + (* incomplete *) assert (Forall sane (queued s)) as Jq'.
      { destruct Jq as [Jq|(_ & _ & Jq)]; (eapply Forall_impl; [|exact Jq]); intros a Ha; [|destruct Ha as [u Ha]]; eapply flags_sane; exact Ha. }
      pose proof (fun m => list_bal m (queued s) s Jq') as Hb. destruct (set_list_incomplete_shape (queued s) s) as [x Hx].
      destruct (set_list_incomplete (queued s) s) as [l2 s2]. cbn [fst snd] in *. subst s2.
      split; [|split; [exact Jh|split; [left; exact (proj1 (Hb INC_N))|repeat split; assumption]]].
      intros m. destruct (Jm m) as [M1 (k & M2)]. destruct (Hb m) as (_ & B1 & k2 & B2). split; [exact (B1 M1)|]. exists (k + k2)%Z.
      unfold held in *. nrm. tots. lia.
    + (* start *) match goal with H : curop s = None /\ _ |- _ => destruct H as (Hc & Hf & _) end. match goal with H : queued s = _ |- _ => rename H into Eq end.
      match goal with H : bind_packet_id _ _ = _ |- _ => apply bind_eq in H as Hb; clear H end.
      assert (Forall (flags true false) (queued s)) as Jq' by fineq. rewrite Eq in Jq'. inversion Jq' as [|? ? Jq1 Jq2]; subst.
      assert ((forall m, weight m o' = weight m o) /\ flags true false o' /\ queued s1 = q /\ wc s1 = wc s /\ unacked s1 = unacked s /\ c_out s1 = c_out s /\ c_sta s1 = c_sta s) as (E1 & E2 & E3 & E4 & E5 & E6 & E7).
      { destruct Hb as [(-> & -> & _)|(id & _ & _ & -> & ->)]; repeat split; try exact Jq1; first [intros m; apply weight_packet|apply flags_id; exact Jq1]. }
      unfold J13, held. change (c_sta (set_curop (Some o') (set_c_enc e s1))) with (c_sta s1).
      change (queued (set_curop (Some o') (set_c_enc e s1))) with (queued s1). change (wc (set_curop (Some o') (set_c_enc e s1))) with (wc s1).
      change (unacked (set_curop (Some o') (set_c_enc e s1))) with (unacked s1). change (c_out (set_curop (Some o') (set_c_enc e s1))) with (c_out s1).
      change (curop (set_curop (Some o') (set_c_enc e s1))) with (Some o'). rewrite E3, E4, E5, E6, E7.
      split; [|split; [exact Jh|split; [left; exact Jq2|split; [intros ? X; injection X as <-; exact E2|repeat split; assumption]]]].
      mtr. rewrite Hc, Eq. tots. rewrite E1. lia.
    + (* start_fails *) match goal with H : queued s = _ |- _ => rename H into Eq end. assert (Forall (flags true false) (queued s)) as Jq' by fineq. rewrite Eq in Jq'. inversion Jq' as [|? ? Jq1 Jq2]; subst.
      split; [|split; [exact Jh|split; [left; exact Jq2|repeat split; try assumption; constructor; assumption]]].
      mtr. rewrite Eq. nrm. unfold finished. cbn [g_hand with_buf with_link flat_map app]. tots. lia.
    + (* append_fails *) match goal with H : queued s = _ |- _ => rename H into Eq end. assert (Forall (flags true false) (queued s)) as Jq' by fineq. rewrite Eq in Jq'. inversion Jq' as [|? ? Jq1 Jq2]; subst.
      match goal with H : bind_packet_id _ _ = _ |- _ => apply bind_eq in H as Hb; clear H end.
      assert ((forall m, weight m o' = weight m o) /\ flags true false o' /\ queued s1 = q /\ wc s1 = wc s /\ unacked s1 = unacked s /\ c_out s1 = c_out s /\ c_sta s1 = c_sta s /\ curop s1 = curop s) as (E1 & E2 & E3 & E4 & E5 & E6 & E7 & E8).
      { destruct Hb as [(-> & -> & _)|(id & _ & _ & -> & ->)]; repeat split; try exact Jq1; first [intros m; apply weight_packet|apply flags_id; exact Jq1]. }
      unfold J13, held. change (c_sta (emit ?a (set_c_enc e s1))) with (c_sta s1). change (queued (emit ?a (set_c_enc e s1))) with (queued s1). change (wc (emit ?a (set_c_enc e s1))) with (wc s1).
      change (unacked (emit ?a (set_c_enc e s1))) with (unacked s1). change (c_out (emit ?a (set_c_enc e s1))) with (a :: c_out s1). change (curop (emit ?a (set_c_enc e s1))) with (curop s1).
      rewrite E3, E4, E5, E6, E7, E8. split; [|split; [exact Jh|split; [left; exact Jq2|repeat split; try assumption; constructor; assumption]]].
      mtr. rewrite Eq. unfold finished. cbn [g_hand with_buf with_link flat_map app]. tots. rewrite E1. lia.
    + (* sent *) match goal with H : _ /\ _ |- _ => destruct H as (Hk & Hcl & He & Hs & Hck & Ht & Hi) end. match goal with H : curop s = _ |- _ => rename H into Hc end.
      pose proof (finish_eq cf now o s Ht Hi) as F. cbv zeta in F. specialize (Jc _ Hc). destruct (requires_ack (op_packet o)).
      * destruct F as (o' & x & -> & _ & Ex). set (o0 := set_deadline (deadline_of cf now o) o) in *. assert (sane o0) as Hs0 by exact (flags_sane _ _ _ Jc).
        pose proof (cs_flags true true o0 s Hs0) as Hf. pose proof (fun m => cs_bal m true true o0 s Hs0) as Hb.
        destruct (change_statistics true true o0 s) as [o2 s2]. cbn [fst snd] in *. injection Ex as -> ->.
        set (s1 := if is_acked_publish (op_packet o) then set_tokens (tokens s - 1) s else s).
        assert (queued s1 = queued s /\ wc s1 = wc s /\ c_out s1 = c_out s /\ current s1 = current s) as (E2 & E3 & E5 & E6) by (unfold s1; destruct (is_acked_publish (op_packet o)); repeat split).
        unfold J13, held. match goal with |- context [emit ?a (set_curop None (set_unacked ?u (set_c_sta ?z ?y)))] => 
          change (current (emit a (set_curop None (set_unacked u (set_c_sta z y))))) with (current s1); change (queued (emit a (set_curop None (set_unacked u (set_c_sta z y))))) with (queued s1);
          change (wc (emit a (set_curop None (set_unacked u (set_c_sta z y))))) with (wc s1); change (c_out (emit a (set_curop None (set_unacked u (set_c_sta z y))))) with (a :: c_out s1);
          change (curop (emit a (set_curop None (set_unacked u (set_c_sta z y))))) with (@None op); change (unacked (emit a (set_curop None (set_unacked u (set_c_sta z y))))) with u;
          change (c_sta (emit a (set_curop None (set_unacked u (set_c_sta z y))))) with z end.
        rewrite E2, E3, E5, E6. split; [|split; [exact Jh|split; [exact Jq|split; [discriminate|split; [exact Jw|split; [apply Forall_app; split; [exact Ju|constructor; [exact Hf|constructor]]|split; assumption]]]]]].
        intros m. destruct (Jm m) as [M1 (k & M2)]. destruct (Hb m) as [B1 (k2 & B2)]. split; [exact (B1 M1)|]. exists (k + k2)%Z.
        assert (weight m o0 = weight m o) as Ew by (destruct m; reflexivity). rewrite Ew in B2.
        unfold held in M2. rewrite Hc in M2. unfold finished in *. cbn [flat_map app]. tots. lia.
      * destruct F as (x & ->). split; [|split; [exact Jh|split; [exact Jq|split; [discriminate|repeat split; try assumption; apply Forall_app; split; [exact Jw|constructor; [exact Jc|constructor]]]]]].
        mtr. rewrite Hc. nrm. unfold finished. cbn [flat_map app]. tots. lia.
Qed.
End Stats.

(** ** What was sent on the latest connection is unacknowledged, being completed, or completed *)
Section Sent2.
Variable cf : config.
Variable now0 : N.
Notation prim := (prim cf).
Notation reach := (reach cf now0).
Definition place (g : ghost) (s : client) (u : N) : Prop :=
  In u (map op_uid (unacked s)) \/ In u (map op_uid (g_hand g)) \/ In u (map op_uid (completed (c_out s))) \/
  (current s = CONNECTED /\ (exists v, g_link g = ACKED v) /\ In u (map op_uid (queued s))).
Lemma completed_app a b : completed (a ++ b) = completed a ++ completed b.
Proof. unfold completed. apply flat_map_app. Qed.
Lemma place_mono g s g' s' u : place g s u -> (forall u, In u (map op_uid (unacked s)) -> In u (map op_uid (unacked s'))) ->
  (forall u, In u (map op_uid (g_hand g)) -> In u (map op_uid (g_hand g')) \/ In u (map op_uid (completed (c_out s')))) ->
  (forall u, In u (map op_uid (completed (c_out s))) -> In u (map op_uid (completed (c_out s')))) ->
  (current s = CONNECTED -> forall v, g_link g = ACKED v -> current s' = CONNECTED /\ g_link g' = ACKED v /\
    forall u, In u (map op_uid (queued s)) -> In u (map op_uid (queued s')) \/ In u (map op_uid (g_hand g'))) -> place g' s' u.
Proof.
  intros [H|[H|[H|(H1 & (v & H2) & H)]]] K1 K2 K3 K4; unfold place; auto.
  - destruct (K2 _ H); auto.
  - destruct (K4 H1 v H2) as (E1 & E2 & K). destruct (K _ H); [|auto]. right. right. right. split; [exact E1|]. split; [exists v; exact E2|assumption].
Qed.
Lemma ufd_uid o : op_uid (unacked_for_disconnect o) = op_uid o.
Proof. unfold unacked_for_disconnect. destruct (is_acked_publish (op_packet o)); reflexivity. Qed.
Lemma place_removed g s s' u u' o : find_op u (unacked s) = Some o -> unacked s' = remove_op u (unacked s) -> c_out s' = c_out s -> current s' = current s -> queued s' = queued s ->
  place g s u' -> place (with_hand (o :: g_hand g) g) s' u'.
Proof.
  intros Hf E1 E2 E3 E4 H. apply find_op_some in Hf as [Fi Fu]. unfold place. rewrite E1, E2, E3, E4. cbn [g_hand g_link with_hand map In].
  destruct H as [H|H]; [|tauto]. apply in_map_iff in H as (x & <- & H). destruct (N.eq_dec (op_uid x) u) as [E|E]; [right; left; left; congruence|].
  left. apply in_map, in_remove_op. auto.
Qed.
Lemma prim_place g s g' s' u : ok s -> ok s' -> prim (g, s) (g', s') -> place g s u ->
  place g' s' u \/ exists n v, c_out s' = O_LIFE (CONNECTION_SUCCESS n v) :: c_out s.
Proof.
  intros Ok Ok' P. assert (forall u, In u (map op_uid (completed (c_out s))) -> In u (map op_uid (completed (c_out s')))) as Hc.
  { intros x. destruct (prim_trace cf _ _ _ _ P) as (d & -> & _). rewrite completed_app, map_app, in_app_iff. auto. }
  inversion P; subst; clear P; repeat match goal with H : ok _ -> _ |- _ => specialize (H Ok) end; try (intros H; left; exact H); intros H.
  - match goal with H : hush _ _ |- _ => destruct H as [H _]; apply core_inv in H as (E1 & E0 & E2 & E3 & E4 & E5 & E6 & E7 & E8 & E9 & E10 & E11 & E12 & E13 & E14 & E15) end.
    left. unfold place. rewrite E1, E2, E5, E15. exact H.
  - exfalso. exact (not_ok_crash _ _ Ok').
  - left. apply (place_mono g' s _ _ _ H); auto.
  - left. apply (place_mono g' s _ _ _ H); auto. intros E. exfalso. intuition congruence.
  - right. eexists _, _. reflexivity.
  - left. apply (place_mono g s _ _ _ H); auto; [intros x Hx; left; destruct c; exact Hx|]. intros E v Hv. exfalso. match goal with H : calm _ _ |- _ => exact (H E v Hv) end.
  - left. apply (place_mono g s _ _ _ H); auto. intros E. exfalso. intuition congruence.
  - left. apply (place_mono g s _ _ _ H); auto. intros E. exfalso. intuition congruence.
  - left. apply (place_mono g s' _ _ _ H); auto. intros E v Hv. exfalso. congruence.
  - left. apply (place_mono g s' _ _ _ H); auto. intros E. exfalso. match goal with H : sending _ = _ |- _ => rewrite E in H; discriminate H end.
  - left. destruct (enqueue_eq p override s) as (o & x & -> & _). apply (place_mono g' s _ _ _ H); auto. intros E v Hv. split; [exact E|]. split; [exact Hv|].
    intros y Hy. left. change (In y (map op_uid (queued s ++ [o]))). rewrite map_app, in_app_iff. auto.
  - left. apply (place_mono g' s _ _ _ H); auto.
  - left. apply (place_mono g' s _ _ _ H); auto. intros E v Hv. split; [exact E|]. split; [exact Hv|]. intros y Hy. left. right. exact Hy.
  - left. apply (place_mono g' s _ _ _ H); auto. intros E v0 Hv. split; [exact E|]. split; [exact Hv|]. intros y Hy. left. right. exact Hy.
  - left. destruct (publish_received_eq acquire v s) as (m & c & [(_ & -> & _)|[(_ & _ & ->)|(_ & _ & _ & ->)]] & _); try exact H; apply (place_mono g' s _ _ _ H); auto.
    intros E v0 Hv. split; [exact E|]. split; [exact Hv|]. intros y Hy. left. unfold puback_core. nrmg.
    rewrite (Permutation_map op_uid (insert_puback_perm _ _)). right. exact Hy.
  - left. destruct (manual_core_eq control s) as (m & x & -> & [(id & _ & _ & ->)|(_ & r & -> & _)]); try exact H; apply (place_mono g' s _ _ _ H); auto.
    intros E v0 Hv. split; [exact E|]. split; [exact Hv|]. intros y Hy. left. unfold puback_core. nrmg.
    rewrite (Permutation_map op_uid (insert_puback_perm _ _)). right. exact Hy.
  - left. unfold reset_manual. destruct (mc s); exact H.
  - left. apply (place_mono g s _ _ _ H); auto; [intros x Hx; left; right; exact Hx|]. intros E v Hv. split; [exact E|]. split; [exact Hv|].
    match goal with H : queued s = _ |- _ => rewrite H end. intros y [Hy|Hy]; [right; left; exact Hy|left; exact Hy].
  - left. match goal with H : Permutation _ _ /\ _ |- _ => destruct H as [Hp _] end. apply (place_mono g s _ _ _ H); auto.
    + intros x Hx. left. cbn [g_hand with_hand]. rewrite map_app, in_app_iff. auto.
    + intros E v Hv. split; [exact E|]. split; [exact Hv|]. intros y Hy. rewrite (Permutation_map op_uid Hp), map_app, in_app_iff in Hy. cbn [g_hand with_hand]. rewrite map_app, in_app_iff.
      change (In y (map op_uid q) \/ In y (map op_uid l) \/ In y (map op_uid (g_hand g))). tauto.
  - left. apply (place_mono g s _ _ _ H); auto. intros x Hx. left. cbn [g_hand with_hand]. rewrite map_app, in_app_iff. auto.
  - left. match goal with H : Permutation (map _ _) _ |- _ => apply (Permutation_map op_uid) in H; rewrite map_map, (map_ext _ _ ufd_uid), map_app in H; rename H into Hp end.
    destruct H as [H|[H|[H|(H1 & (v & H2) & H)]]]; unfold place; cbn [g_hand with_hand]; rewrite map_app, in_app_iff; change (unacked (set_unacked kept s)) with kept; auto.
    + rewrite Hp, in_app_iff in H. tauto.
    + exfalso. match goal with H : _ /\ down _ _ |- _ => destruct H as [_ [Hd|Hd]] end; [congruence|rewrite H1 in Hd; discriminate].
  - left. destruct H as [H|[H|[H|(H1 & (v & H2) & H)]]]; unfold place; cbn [g_hand with_hand]; rewrite map_app, in_app_iff; auto.
    exfalso. match goal with H : _ /\ down _ _ |- _ => destruct H as [_ [Hd|Hd]] end; [congruence|rewrite H1 in Hd; discriminate].
  - left. eapply place_removed; [eassumption| | | | |exact H]; reflexivity.
  - left. eapply place_removed; [eassumption| | | | |exact H]; reflexivity.
  - left. destruct (cs_shape inc una o s) as [x ->]. apply (place_mono g s _ _ _ H); auto. cbn [g_hand with_hand map]. rewrite cs_uid. match goal with H : g_hand g = _ |- _ => rewrite H end. auto.
  - left. match goal with H : g_hand g = _ |- _ => rename H into Eh end. apply (place_mono g s _ _ _ H); auto. rewrite Eh. intros x [<-|Hx]; [right; left; reflexivity|left; exact Hx].
  - left. apply (place_mono g' s _ _ _ H); auto. intros E v Hv. split; [exact E|]. split; [exact Hv|]. intros y Hy. left. right. exact Hy.
  - left. match goal with H : _ /\ _ |- _ => destruct H as (Hcu & _ & _ & Hv) end. pose proof (perm_filter (fun o => is_acked_publish (op_packet o)) (unacked s)) as Hp. apply (Permutation_map op_uid) in Hp.
    assert (forall l, In u (map op_uid (filter (fun o => is_acked_publish (op_packet o)) (unacked s) ++ filter (fun o => negb (is_acked_publish (op_packet o))) (unacked s) ++ l)) <-> In u (map op_uid (unacked s)) \/ In u (map op_uid l)) as Hq.
    { intros l. rewrite app_assoc, map_app, in_app_iff, Hp. reflexivity. }
    destruct H as [H|[H|[H|(H1 & H2 & H)]]]; [right; right; right|right; left; exact H|right; right; left; exact H|right; right; right]; (split; [exact Hcu|]; split; [exact Hv|]).
    + apply Hq. left. exact H.
    + apply Hq. right. exact H.
  - left. match goal with H : _ /\ _ |- _ => destruct H as (Hcu & _ & Hh & Hv) end. pose proof (perm_filter (fails_policy cf) (unacked s)) as Hp. apply (Permutation_map op_uid) in Hp. rewrite map_app in Hp.
    destruct H as [H|[H|[H|(H1 & H2 & H)]]]; [|rewrite Hh in H; destruct H|right; right; left; exact H|right; right; right; split; [exact Hcu|]; split; [exact Hv|]].
    + rewrite Hp, in_app_iff in H. destruct H as [H|H]; [right; left; exact H|]. right. right. right. split; [exact Hcu|]. split; [exact Hv|].
      change (In u (map op_uid (filter (fun o => negb (fails_policy cf o)) (unacked s) ++ queued s))). rewrite map_app, in_app_iff. auto.
    + change (In u (map op_uid (filter (fun o => negb (fails_policy cf o)) (unacked s) ++ queued s))). rewrite map_app, in_app_iff. auto.
  - left. destruct (incomplete_eq s) as (l & x & -> & _ & E & _). apply (place_mono g' s _ _ _ H); auto. intros Ec v Hv. split; [exact Ec|]. split; [exact Hv|]. intros y Hy. left.
    change (In y (map op_uid l)). rewrite E. exact Hy.
  - left. match goal with H : bind_packet_id _ _ = _ |- _ => apply bind_eq in H as [(-> & -> & _)|(id & _ & _ & -> & ->)] end; (apply (place_mono g' s _ _ _ H); auto; intros Ec v Hv; exfalso; intuition congruence).
  - left. apply (place_mono g s _ _ _ H); auto. intros Ec v Hv; exfalso; congruence.
  - left. match goal with H : bind_packet_id _ _ = _ |- _ => apply bind_eq in H as [(-> & -> & _)|(id & _ & _ & -> & ->)] end; (apply (place_mono g s _ _ _ H); auto; intros Ec v Hv; exfalso; congruence).
  - left. match goal with H : g_link _ = FINE /\ _ |- _ => destruct H as (Hg & _ & _ & Hs & _ & Ht & Hi) end. pose proof (finish_eq cf now o s Ht Hi) as F. cbv zeta in F.
    assert (forall u, In u (map op_uid (unacked s)) -> In u (map op_uid (unacked (finish_operation cf now o s)))) as Hu.
    { intros y Hy. destruct (requires_ack (op_packet o)); [destruct F as (o' & x & -> & _)|destruct F as (x & ->)]; [|exact Hy].
      change (In y (map op_uid (unacked s ++ [o']))). rewrite map_app, in_app_iff. auto. }
    apply (place_mono g' s _ _ _ H); auto. intros Ec v Hv; exfalso; congruence.
Qed.
Lemma prim_unacked g s g' s' u : ok s -> ok s' -> prim (g, s) (g', s') -> In u (map op_uid (unacked s')) ->
  In u (map op_uid (unacked s)) \/ exists o now, s' = finish_operation cf now o s.
Proof.
  intros Ok Ok' P. inversion P; subst; clear P; repeat match goal with H : ok _ -> _ |- _ => specialize (H Ok) end; try (intros H; left; exact H); intros H.
  - match goal with H : hush _ _ |- _ => destruct H as [H _]; apply core_inv in H as (_ & _ & _ & _ & _ & E & _) end. left. rewrite <- E. exact H.
  - exfalso. exact (not_ok_crash _ _ Ok').
  - destruct (enqueue_eq p override s) as (o & x & E & _). rewrite E in H. left. exact H.
  - destruct (publish_received_eq acquire v s) as (m & c & [(_ & E & _)|[(_ & _ & E)|(_ & _ & _ & E)]] & _); rewrite E in H; left; exact H.
  - destruct (manual_core_eq control s) as (m & x & E & [(id & _ & _ & Em)|(_ & r & Em & _)]); rewrite E, ?Em in H; left; exact H.
  - unfold reset_manual in H. destruct (mc s); left; exact H.
  - left. match goal with H : Permutation (map _ _) _ |- _ => apply (Permutation_map op_uid) in H; rewrite map_map, (map_ext _ _ ufd_uid), map_app in H; rename H into Hp end.
    rewrite Hp, in_app_iff. right. exact H.
  - destruct H.
  - left. apply in_map_iff in H as (x & <- & H). apply in_map. apply in_remove_op in H. apply H.
  - left. apply in_map_iff in H as (x & <- & H). apply in_map. apply in_remove_op in H. apply H.
  - destruct (cs_shape inc una o s) as [x E]. rewrite E in H. left. exact H.
  - destruct H.
  - destruct H.
  - destruct (incomplete_eq s) as (l & x & E & _). rewrite E in H. left. exact H.
  - match goal with H : bind_packet_id _ _ = _ |- _ => apply bind_eq in H as [(-> & -> & _)|(id & _ & _ & -> & ->)] end; left; exact H.
  - match goal with H : bind_packet_id _ _ = _ |- _ => apply bind_eq in H as [(-> & -> & _)|(id & _ & _ & -> & ->)] end; left; exact H.
  - right. eauto.
Qed.
Definition ans (o : op) : bool := answered (op_packet o).
Definition S_ (s : client) : list op := filter ans (sent_since_success (c_out s)).
Lemma minor_since d l : Forall (fun x => minor x = true) d -> sent_since_success (d ++ l) = sent_since_success l.
Proof. induction 1 as [|x d Hx _ IH]; [reflexivity|]. cbn [app]. destruct x as [e| | | | | | | | | | | | |]; try discriminate Hx; try destruct e; try discriminate Hx; exact IH. Qed.
Lemma ans_requires o : ans o = requires_ack (op_packet o).
Proof. unfold ans. destruct (op_packet o); reflexivity. Qed.
Definition J14 (x : ghost * client) : Prop := let '(g, s) := x in
  NoDup (map op_uid (S_ s)) /\ (forall u, In u (map op_uid (unacked s)) -> In u (map op_uid (S_ s))) /\ (forall u, In u (map op_uid (S_ s)) -> place g s u).
Lemma reach_J14 g s : reach (g, s) -> ok s -> J14 (g, s).
Proof.
  intros R Ok. refine (reach_inv cf now0 J14 _ (fun s now _ _ J => J) _ (g, s) R Ok).
  - split; [constructor|]. split; intros u [].
  - clear R Ok g s. intros g s g' s' R Ok Ok' (JN & JU & JP) P. pose proof (fun u => prim_place _ _ _ _ u Ok Ok' P) as Hp. pose proof (fun u => prim_unacked _ _ _ _ u Ok Ok' P) as Hu.
    pose proof (reach_J1 cf now0 _ _ R Ok) as (ND & _).
    destruct (prim_minor _ _ _ _ _ Ok Ok' P) as [(d & E & Hd)|[[-> ->]|[(v & -> & -> & Hf & Hg & Hc)|(o & now & -> & -> & Hcu & Hg & Hcl & Hs & Hck & Ht & Hi & Hh)]]].
    + assert (S_ s' = S_ s) as ES by (unfold S_; rewrite E, minor_since by exact Hd; reflexivity). unfold J14. rewrite ES. split; [exact JN|]. split.
      * intros u H. destruct (Hu u H) as [K|(o & now & ->)]; [auto|]. exfalso. rewrite finish_out in E. destruct d as [|x d]; [apply (f_equal (@length _)) in E; cbn [app length] in E; lia|].
        injection E as <- _. inversion Hd; subst. discriminate.
      * intros u H. destruct (Hp u (JP u H)) as [K|(n & v & K)]; [exact K|]. exfalso. rewrite K in E. destruct d as [|x d]; [apply (f_equal (@length _)) in E; cbn [app length] in E; lia|].
        injection E as <- _. inversion Hd; subst. discriminate.
    + split; [exact JN|]. split; [exact JU|]. intros u H. destruct (Hp u (JP u H)) as [K|(n & v & K)]; [exact K|discriminate K].
    + split; [constructor|]. split; [|intros u []]. change (unacked (emit ?a (set_life ?b s))) with (unacked s). destruct Hf as [-> _]. intros u [].
    + assert (S_ (finish_operation cf now o s) = (if ans o then [o] else []) ++ S_ s) as ES.
      { unfold S_. rewrite finish_out. cbn [sent_since_success filter]. destruct (ans o); reflexivity. }
      unfold J14. rewrite ES. pose proof (finish_eq cf now o s Ht Hi) as F. cbv zeta in F. rewrite <- ans_requires in F.
      assert (forall u, In u (map op_uid (S_ s)) -> place g (finish_operation cf now o s) u) as HS.
      { intros u H. destruct (Hp u (JP u H)) as [K|(n & v & K)]; [exact K|]. rewrite finish_out in K. discriminate K. }
      destruct (ans o) eqn:A; cbn [app].
      2: { split; [exact JN|]. split; [|exact HS]. destruct F as (x & ->). exact JU. }
      destruct F as (o' & x & EF & Hid & _). assert (op_uid o' = op_uid o) as Eu by apply Hid. split; [|split].
      * cbn [map]. constructor; [|exact JN]. intros H. destruct (JP _ H) as [K|[K|[K|(_ & (v & K) & _)]]].
        -- unfold Client5_Flow.K, held in ND. rewrite Hcu in ND. rewrite map_app, map_map in ND. apply nodup_app_l in ND. change (fun x => kuid (identity_of x)) with op_uid in ND.
           rewrite !map_app in ND. do 2 apply nodup_app_r in ND. cbn [map app] in ND. inversion ND as [|? ? N1 _]; subst. apply N1. apply in_or_app. right. exact K.
        -- rewrite Hh in K. destruct K.
        -- apply (held_not_finished _ _ _ ND (curop_held g s o Hcu)). apply in_map_iff in K as (y & <- & K). apply in_map, completed_finished, K.
        -- congruence.
      * intros u. rewrite EF. change (unacked (emit ?a (set_curop None (set_unacked ?b ?c)))) with b. rewrite map_app, in_app_iff. intros [H|[H|[]]]; [right; auto|left].
        congruence.
      * intros u [<-|H]; [|auto]. left. rewrite EF. change (unacked (emit ?a (set_curop None (set_unacked ?b ?c)))) with b. rewrite map_app, in_app_iff. right. left. exact Eu.
Qed.
End Sent2.

(** ** Counting identities *)
Definition ktot (f : identity -> N) (l : list identity) : N := fold_right (fun k a => f k + a) 0 l.
Lemma ktot_cons f k l : ktot f (k :: l) = f k + ktot f l. Proof. reflexivity. Qed.
Lemma ktot_app f l l' : ktot f (l ++ l') = ktot f l + ktot f l'.
Proof. induction l as [|o l IH]; cbn [app]; [reflexivity|]. rewrite !ktot_cons, IH. lia. Qed.
Lemma ktot_perm f l l' : Permutation l l' -> ktot f l = ktot f l'.
Proof. induction 1; rewrite ?ktot_cons; lia. Qed.
Definition ksize (k : identity) : option N :=
  if is_request (snd k) then match get_encoded_size (snd k) with Ok n => Some n | Err _ => None end else None.
Definition kn (k : identity) : N := match ksize k with Some _ => 1 | None => 0 end.
Definition kb (k : identity) : N := match ksize k with Some n => n | None => 0 end.
Lemma counted_ksize o : counted_size o = ksize (identity_of o).
Proof. unfold counted_size, ksize, identity_of. cbn [snd]. rewrite request_bare. reflexivity. Qed.
Lemma sizes_count l : N.of_nat (length (flat_map (fun o => match counted_size o with Some n => [n] | None => [] end) l)) = ktot kn (map identity_of l).
Proof. induction l as [|o l IH]; [reflexivity|]. cbn [flat_map map]. rewrite ktot_cons, app_length, Nat2N.inj_add, IH. unfold kn at 2. rewrite <- counted_ksize. destruct (counted_size o); reflexivity. Qed.
Lemma sizes_sum l : sum (flat_map (fun o => match counted_size o with Some n => [n] | None => [] end) l) = ktot kb (map identity_of l).
Proof.
  assert (forall a b, sum (a ++ b) = sum a + sum b) as Hs by (induction a as [|x a IHa]; intros b; cbn [app sum fold_right]; [reflexivity|]; fold (sum (a ++ b)); fold (sum a); rewrite IHa; lia).
  induction l as [|o l IH]; [reflexivity|]. cbn [flat_map map]. rewrite ktot_cons, Hs, IH. unfold kb at 2. rewrite <- counted_ksize. destruct (counted_size o); cbn [sum fold_right]; lia.
Qed.
Definition cost (m : meter) : identity -> N := match m with INC_N | UNA_N => kn | INC_B | UNA_B => kb end.
Definition una (m : meter) : bool := match m with INC_N | INC_B => false | _ => true end.
Lemma flags_cost i u m o : flags i u o -> (if una m then u else i) = true -> weight m o = cost m (identity_of o).
Proof.
  unfold flags. intros H E. assert (cost m (identity_of o) = match counted_size o with Some n => match m with INC_N | UNA_N => 1 | _ => n end | None => 0 end) as ->.
  { rewrite counted_ksize. destruct m; reflexivity. }
  unfold counted_size. destruct (is_request (op_packet o)).
  - destruct (bsize (op_packet o)); destruct H as (H1 & H2 & H3); destruct m; cbn [weight una] in *; subst; rewrite ?H2, ?H3, ?E; reflexivity.
  - apply off_weight. exact H.
Qed.
Lemma flags_free i u m o : flags i u o -> (if una m then u else i) = false -> weight m o = 0.
Proof.
  unfold flags. intros H E. destruct (is_request (op_packet o)); [|apply off_weight; exact H].
  destruct (bsize (op_packet o)); destruct H as (H1 & H2 & H3); destruct m; cbn [weight una] in *; subst; rewrite ?H2, ?H3, ?E; reflexivity.
Qed.
Lemma tot_cost i u m l : Forall (flags i u) l -> (if una m then u else i) = true -> tot (weight m) l = ktot (cost m) (map identity_of l).
Proof. induction 1 as [|o l H _ IH]; intros E; [reflexivity|]. cbn [map]. rewrite tot_cons, ktot_cons, IH by exact E. rewrite (flags_cost _ _ _ _ H E). reflexivity. Qed.
Lemma tot_free i u m l : Forall (flags i u) l -> (if una m then u else i) = false -> tot (weight m) l = 0.
Proof. intros H E. apply tot_zero. eapply Forall_impl; [|exact H]. intros o Ho. exact (flags_free _ _ _ _ Ho E). Qed.
Lemma tot_off m l : Forall off l -> tot (weight m) l = 0.
Proof. intros H. apply tot_zero. eapply Forall_impl; [|exact H]. intros o. apply off_weight. Qed.
Lemma finished_perm l : Permutation (finished l) (completed l ++ lost l).
Proof.
  induction l as [|x l IH]; [constructor|].
  change (finished (x :: l)) with ((match x with O_DONE o _ _ => [o] | O_LOST o => [o] | _ => [] end) ++ finished l).
  change (completed (x :: l)) with ((match x with O_DONE o _ _ => [o] | _ => [] end) ++ completed l).
  change (lost (x :: l)) with ((match x with O_LOST o => [o] | _ => [] end) ++ lost l). destruct x; cbn [app]; try exact IH.
  - constructor. exact IH.
  - rewrite IH. apply Permutation_middle.
Qed.

Section Count.
Variable cf : config.
Variable now0 : N.
Notation prim := (prim cf).
Notation reach := (reach cf now0).
Definition J15 (x : ghost * client) : Prop := let '(g, s) := x in Forall (fun k => user_made k = false -> is_request (snd k) = false) (K g s).
Lemma reach_J15 g s : reach (g, s) -> ok s -> J15 (g, s).
Proof.
  intros R Ok. refine (reach_inv cf now0 J15 _ (fun s now _ _ J => J) _ (g, s) R Ok); [constructor|].
  clear. intros g s g' s' R Ok Ok' J P. pose proof (reach_J1 cf now0 _ _ R Ok) as (ND & _).
  destruct (prim_flow cf _ _ _ _ Ok Ok' ND P) as [(Hp & _)|(o & Hp & _ & _ & Hs)]; unfold J15; (eapply Permutation_Forall; [symmetry; exact Hp|]); [exact J|].
  constructor; [|exact J]. intros H. unfold user_made, kowner in H. cbn [identity_of fst snd] in *. rewrite request_bare.
  destruct Hs as [[E _]|(_ & E & _)]; [rewrite E in H; discriminate H|exact E].
Qed.

Definition still (l : list out) (k : identity) : bool := negb (existsb (fun d => op_uid d =? kuid k) (completed l)).
Lemma still_spec l k : still l k = true <-> ~ In (kuid k) (map op_uid (completed l)).
Proof.
  unfold still. rewrite negb_true_iff, <- not_true_iff_false, existsb_exists. split; intros H K; apply H.
  - apply in_map_iff in K as (d & E & K). exists d. split; [exact K|apply N.eqb_eq, E].
  - destruct K as (d & K & E). apply N.eqb_eq in E. rewrite <- E. apply in_map, K.
Qed.
Lemma filter_all {A} (f : A -> bool) l : Forall (fun x => f x = true) l -> filter f l = l.
Proof. induction 1 as [|x l H _ IH]; [reflexivity|]. cbn [filter]. rewrite H, IH. reflexivity. Qed.
Lemma filter_none {A} (f : A -> bool) l : Forall (fun x => f x = false) l -> filter f l = [].
Proof. induction 1 as [|x l H _ IH]; [reflexivity|]. cbn [filter]. rewrite H. exact IH. Qed.
Lemma filter_map_id f l : map identity_of (filter (fun o => f (identity_of o)) l) = filter f (map identity_of l).
Proof. induction l as [|o l IH]; [reflexivity|]. cbn [filter map]. destruct (f (identity_of o)); cbn [map]; rewrite IH; reflexivity. Qed.
Lemma ktot_users f (g : identity -> bool) l : Forall (fun k => g k = false -> f k = 0) l -> ktot f (filter g l) = ktot f l.
Proof.
  induction 1 as [|k l H _ IH]; [reflexivity|]. cbn [filter]. destruct (g k); rewrite ?ktot_cons, IH; [reflexivity|]. rewrite (H eq_refl). reflexivity.
Qed.
Lemma filter_comm {A} (f g : A -> bool) l : filter f (filter g l) = filter g (filter f l).
Proof. induction l as [|x l IH]; [reflexivity|]. cbn [filter]. destruct (g x) eqn:G, (f x) eqn:F; cbn [filter]; rewrite ?G, ?F, IH; reflexivity. Qed.

Lemma still_K g s : reach (g, s) -> ok s -> Permutation (filter (still (c_out s)) (K g s)) (map identity_of (held g s ++ lost (c_out s))).
Proof.
  intros R Ok. pose proof (reach_J1 cf now0 _ _ R Ok) as (ND & _).
  assert (Permutation (K g s) (map identity_of (completed (c_out s)) ++ map identity_of (held g s ++ lost (c_out s)))) as Hp.
  { unfold K. rewrite (Permutation_map identity_of (finished_perm (c_out s))), !map_app. rewrite Permutation_app_swap_app. reflexivity. }
  rewrite (perm_filter_map (still (c_out s)) _ _ Hp). rewrite (Permutation_map kuid Hp) in ND. rewrite filter_app. rewrite map_app in ND.
  rewrite (filter_none _ (map identity_of (completed _))), filter_all; [reflexivity| |].
  - rewrite Forall_forall. intros k Hk. apply still_spec. intros Hc. rewrite map_map in ND. change (fun x => kuid (identity_of x)) with op_uid in ND.
    apply in_split in Hc as (a & b & Hc). rewrite Hc in ND. rewrite <- app_assoc in ND. apply nodup_app_r in ND. cbn [app] in ND. inversion ND as [|? ? N1 _]; subst.
    apply N1. apply in_or_app. right. apply in_map, Hk.
  - rewrite Forall_forall. intros k Hk. apply not_true_iff_false. rewrite still_spec. intros H. apply H. apply in_map_iff in Hk as (o & <- & Hk). exact (in_map op_uid _ _ Hk).
Qed.
Lemma cost_nonrequest m k : is_request (snd k) = false -> cost m k = 0.
Proof. intros H. destruct m; cbn [cost]; unfold kn, kb, ksize; rewrite H; reflexivity. Qed.
Lemma pending_cost g s m : reach (g, s) -> ok s ->
  ktot (cost m) (map identity_of (filter (fun o => negb (is_completed (c_out s) o)) (submitted (c_out s)))) = ktot (cost m) (map identity_of (held g s ++ lost (c_out s))).
Proof.
  intros R Ok. rewrite <- (ktot_perm _ _ _ (still_K _ _ R Ok)). pose proof (reach_J1 cf now0 _ _ R Ok) as (_ & _ & Hp).
  change (fun o => negb (is_completed (c_out s) o)) with (fun o => still (c_out s) (identity_of o)). rewrite filter_map_id.
  rewrite <- (ktot_perm _ _ _ (perm_filter_map (still (c_out s)) _ _ Hp)). rewrite filter_comm. apply ktot_users.
  pose proof (reach_J15 _ _ R Ok) as J. unfold J15 in J. rewrite Forall_forall in J |- *. intros k Hk Hu. apply filter_In in Hk as [Hk _]. apply cost_nonrequest, (J _ Hk Hu).
Qed.
(** the incomplete counters *)
Lemma incomplete_counts m s : una m = false -> reach (g_idle, s) -> ok s ->
  reading m (c_sta s) = ktot (cost m) (map identity_of (filter (fun o => negb (is_completed (c_out s) o)) (submitted (c_out s)))) mod two64.
Proof.
  intros Hm R Ok. rewrite (pending_cost g_idle s m R Ok). destruct (reach_J13 cf now0 _ _ R Ok) as (Jm & _ & Jq & Jc & Jw & Ju & Jl & Jd). destruct (Jm m) as [M1 M2].
  apply bal_mod; [exact M1|]. assert (Forall (flags true false) (queued s)) as Jq' by (destruct Jq as [Jq|(_ & [v Hv] & _)]; [exact Jq|discriminate Hv]). clear Jq Jm.
  replace (ktot _ _) with (tot (weight m) (held g_idle s) + tot (weight m) (finished (c_out s))); [exact M2|].
  rewrite (tot_perm _ _ _ (finished_perm (c_out s))). unfold held. cbn [g_hand g_idle app]. rewrite !map_app, !tot_app, !ktot_app.
  rewrite (tot_off m _ Jd), (tot_cost true false m _ Jq'), (tot_cost true false m _ Jw), (tot_cost true true m _ Ju), (tot_cost true false m _ Jl) by (rewrite Hm; reflexivity).
  assert (tot (weight m) match curop s with Some o => [o] | None => [] end = ktot (cost m) (map identity_of match curop s with Some o => [o] | None => [] end)) as ->; [|lia].
  destruct (curop s) as [o|]; [|reflexivity]. apply (tot_cost true false); [repeat constructor; apply Jc; reflexivity|rewrite Hm; reflexivity].
Qed.
Lemma inc_counts s : reach (g_idle, s) -> ok s -> inc_n s = N.of_nat (length (pending_sizes (c_out s))) mod two64 /\ inc_b s = sum (pending_sizes (c_out s)) mod two64.
Proof.
  intros R Ok. split; unfold pending_sizes.
  - rewrite sizes_count. exact (incomplete_counts INC_N s eq_refl R Ok).
  - rewrite sizes_sum. exact (incomplete_counts INC_B s eq_refl R Ok).
Qed.
(** the unacknowledged counters *)
Lemma unanswered_perm s : reach (g_idle, s) -> ok s ->
  Permutation (map identity_of (unacked s)) (map identity_of (filter (fun o => answered (op_packet o) && negb (is_completed (c_out s) o)) (sent_since_success (c_out s)))).
Proof.
  intros R Ok. destruct (reach_J14 cf now0 _ _ R Ok) as (JN & JU & JP). pose proof (reach_J1 cf now0 _ _ R Ok) as (ND & _). set (T := filter _ _).
  assert (T = filter (fun o => negb (is_completed (c_out s) o)) (S_ s)) as ET.
  { unfold T, S_, ans. generalize (sent_since_success (c_out s)). induction l as [|o l IH]; [reflexivity|]. cbn [filter]. destruct (answered (op_packet o)); cbn [andb filter]; rewrite IH; reflexivity. }
  assert (forall o, In o (S_ s) -> In (identity_of o) (K g_idle s)) as HK.
  { intros o H. apply filter_In in H as [H _]. apply (reach_J4 cf now0 _ _ R Ok). clear - H. induction (c_out s) as [|x l IH]; [destruct H|].
    destruct x as [e| | | | | | | | | | | | |]; try destruct e; cbn [sent_since_success] in H; try (right; exact (IH H)); [destruct H|]. destruct H as [->|H]; [left; reflexivity|right; exact (IH H)]. }
  assert (NoDup (map op_uid (unacked s))) as NU by exact (nodup_unacked _ _ ND).
  assert (NoDup (map op_uid T)) as NT.
  { rewrite ET. clear - JN. induction (S_ s) as [|o l IH]; [constructor|]. cbn [map] in JN. inversion JN; subst. cbn [filter]. destruct (negb _); [|auto]. cbn [map]. constructor; [|auto].
    intros Hi. apply in_map_iff in Hi as (o' & E & Hi). apply filter_In in Hi as [Hi _]. match goal with H : ~ In _ _ |- _ => apply H end. rewrite <- E. apply in_map, Hi. }
  assert (forall l, NoDup (map op_uid l) -> NoDup (map identity_of l)) as ND2.
  { intros l H. apply (NoDup_map_inv kuid). rewrite map_map. exact H. }
  apply NoDup_Permutation; [apply ND2, NU|apply ND2, NT|]. intros k. rewrite !in_map_iff. split; intros (o & <- & H).
  - pose proof (JU _ (in_map op_uid _ _ H)) as Hs. apply in_map_iff in Hs as (o' & E & Hs). exists o'. split.
    + apply (K_uid g_idle s); [exact ND|exact (HK _ Hs)|apply held_K, unacked_held, H|exact E].
    + rewrite ET. apply filter_In. split; [exact Hs|]. change (still (c_out s) (identity_of o') = true). apply still_spec. change (~ In (op_uid o') (map op_uid (completed (c_out s)))). rewrite E. intros Hc.
      apply (held_not_finished g_idle s o ND (unacked_held _ _ _ H)). apply in_map_iff in Hc as (y & <- & Hc). apply in_map, completed_finished, Hc.
  - rewrite ET in H. apply filter_In in H as [H Hc]. change (still (c_out s) (identity_of o) = true) in Hc. apply still_spec in Hc. change (~ In (op_uid o) (map op_uid (completed (c_out s)))) in Hc.
    destruct (JP _ (in_map op_uid _ _ H)) as [Hp|[[]|[Hp|(_ & [v Hv] & _)]]]; [|contradiction|discriminate Hv].
    apply in_map_iff in Hp as (o' & E & Hp). exists o'. split; [|exact Hp]. apply (K_uid g_idle s); [exact ND|apply held_K, unacked_held, Hp|exact (HK _ H)|exact E].
Qed.
Lemma unacked_counts m s : una m = true -> reach (g_idle, s) -> ok s ->
  reading m (c_sta s) = ktot (cost m) (map identity_of (filter (fun o => answered (op_packet o) && negb (is_completed (c_out s) o)) (sent_since_success (c_out s)))) mod two64.
Proof.
  intros Hm R Ok. rewrite <- (ktot_perm _ _ _ (unanswered_perm s R Ok)). destruct (reach_J13 cf now0 _ _ R Ok) as (Jm & _ & Jq & Jc & Jw & Ju & Jl & Jd). destruct (Jm m) as [M1 M2].
  apply bal_mod; [exact M1|]. assert (Forall (flags true false) (queued s)) as Jq' by (destruct Jq as [Jq|(_ & [v Hv] & _)]; [exact Jq|discriminate Hv]). clear Jq Jm.
  replace (ktot _ _) with (tot (weight m) (held g_idle s) + tot (weight m) (finished (c_out s))); [exact M2|].
  rewrite (tot_perm _ _ _ (finished_perm (c_out s))). unfold held. cbn [g_hand g_idle app]. rewrite !tot_app.
  rewrite (tot_off m _ Jd), (tot_free true false m _ Jq'), (tot_free true false m _ Jw), (tot_cost true true m _ Ju), (tot_free true false m _ Jl) by (rewrite Hm; reflexivity).
  assert (tot (weight m) match curop s with Some o => [o] | None => [] end = 0) as ->; [|lia].
  destruct (curop s) as [o|]; [|reflexivity]. apply (tot_free true false); [repeat constructor; apply Jc; reflexivity|rewrite Hm; reflexivity].
Qed.
Lemma una_counts s : reach (g_idle, s) -> ok s -> una_n s = N.of_nat (length (unanswered_sizes (c_out s))) mod two64 /\ una_b s = sum (unanswered_sizes (c_out s)) mod two64.
Proof.
  intros R Ok. split; unfold unanswered_sizes.
  - rewrite sizes_count. exact (unacked_counts UNA_N s eq_refl R Ok).
  - rewrite sizes_sum. exact (unacked_counts UNA_B s eq_refl R Ok).
Qed.
End Count.
