From Verif Require Import Base BaseLemmas Vli_Spec Vli_Lemmas Fixed311_Model Fixed311_Proofs Packets311_Model Packets311_Spec Packets311_Proofs.
Ltac Zify.zify_post_hook ::= Z.div_mod_to_equations.
(** *** connect *)
Inductive connect_op := AddCredentials (username password : bytes) | AddWill (topic : bytes) (qos : N) (retain : bool) (payload : bytes).
Definition apply_connect_op (p : packet_connect) (o : connect_op) : packet_connect :=
  match o with
  | AddCredentials u w => connect_add_credentials p u w
  | AddWill t q r m => connect_add_will p t q r m
  end.
Definition build_connect (cid : bytes) (clean : bool) (ka : N) (ops : list connect_op) : packet_connect :=
  fold_left apply_connect_op ops (connect_init cid clean ka).
(** what the calls ask for *)
Definition apply_info_op (c : connect_info) (o : connect_op) : connect_info :=
  match o with
  | AddCredentials u w => mkci (ci_client_id c) (ci_clean c) (ci_keep_alive c) (ci_will c) (Some u)
                            (match w with [] => ci_password c | _ => Some w end)
  | AddWill t q r m => mkci (ci_client_id c) (ci_clean c) (ci_keep_alive c) (Some (t, q, r, m)) (ci_username c) (ci_password c)
  end.
Definition connect_info_of (cid : bytes) (clean : bool) (ka : N) (ops : list connect_op) : connect_info :=
  fold_left apply_info_op ops (mkci cid clean ka None None None).
Definition is_will (o : connect_op) : bool := match o with AddWill _ _ _ _ => true | _ => false end.
Definition op_ok (o : connect_op) : Prop :=
  match o with
  | AddCredentials u w => str_ok u /\ str_ok w
  | AddWill t q r m => str_ok t /\ q <= 2 /\ str_ok m
  end.
(** relation between the packet and the request *)
Definition opt_bytes (o : option bytes) : bytes := match o with Some s => s | None => [] end.
Definition packet_of_info (c : connect_info) : packet_connect :=
  let '(wt, wq, wr, wm) := match ci_will c with Some x => x | None => ([], 0, false, []) end in
  mkconnect (mkfh PT_CONNECT (len (connect_body c)) 0) (ci_clean c) (is_some (ci_will c)) wr (is_some (ci_password c))
    (is_some (ci_username c)) (ci_keep_alive c) wq (ci_client_id c) wt wm (opt_bytes (ci_username c)) (opt_bytes (ci_password c)).
Definition info_ok (c : connect_info) : Prop :=
  str_ok (ci_client_id c) /\ ci_keep_alive c < 65536 /\
  match ci_will c with Some (t, q, _, m) => str_ok t /\ q <= 2 /\ str_ok m | None => True end /\
  match ci_username c with Some u => str_ok u | None => ci_password c = None end /\
  match ci_password c with Some u => str_ok u | None => True end.
Definition will_len (c : connect_info) : N := match ci_will c with Some (t, _, _, m) => 4 + len t + len m | None => 0 end.
Definition olen (o : option bytes) : N := match o with Some s => 2 + len s | None => 0 end.
Lemma connect_body_len c : len (connect_body c) = 12 + len (ci_client_id c) + will_len c + olen (ci_username c) + olen (ci_password c).
Proof.
  unfold connect_body, will_len, olen, opt_str. destruct (ci_will c) as [[[[t q] r] m]|], (ci_username c), (ci_password c);
  autorewrite with len; lia.
Qed.
Lemma info_ok_len c : info_ok c -> len (connect_body c) < 1000000.
Proof.
  intros (H1 & H2 & H3 & H4 & H5). rewrite connect_body_len. unfold will_len, olen, str_ok in *.
  destruct (ci_will c) as [[[[t q] r] m]|], (ci_username c), (ci_password c); lia.
Qed.
Lemma mod64_id x : x < two64 -> x mod 2 ^ 64 = x.
Proof. intros; apply N.mod_small; assumption. Qed.
Lemma build_connect_gen ops : forall c, info_ok c -> Forall op_ok ops ->
  (length (filter is_will ops) + (if is_some (ci_will c) then 1 else 0) <= 1)%nat ->
  fold_left apply_connect_op ops (packet_of_info c) = packet_of_info (fold_left apply_info_op ops c) /\
  info_ok (fold_left apply_info_op ops c).
Proof.
  induction ops as [|o ops IH]; intros c Hc Hops Hw; [split; [reflexivity|assumption]|].
  apply Forall_cons_iff in Hops as [Ho Hops]. cbn [fold_left].
  assert (Hok : info_ok (apply_info_op c o)).
  { destruct Hc as (H1 & H2 & H3 & H4 & H5). destruct o as [u w|t q r m]; cbn in Ho |- *; unfold info_ok; cbn.
    - destruct Ho as [Hu Hww]. repeat split; auto. destruct w; auto.
    - destruct Ho as (? & ? & ?). repeat split; auto. }
  pose proof (info_ok_len _ Hc) as Hl. pose proof (info_ok_len _ Hok) as Hl'.
  assert (E : apply_connect_op (packet_of_info c) o = packet_of_info (apply_info_op c o)).
  { rewrite connect_body_len in Hl, Hl'. destruct Hc as (H1 & H2 & H3 & H4 & H5).
    destruct o as [u w|t q r m]; cbn [apply_connect_op apply_info_op] in *.
    - unfold connect_add_credentials, packet_of_info, set_rem.
      cbn [ci_will ci_client_id ci_clean ci_keep_alive ci_username ci_password] in *.
      unfold will_len in *. cbn [ci_will] in *.
      destruct (ci_will c) as [[[[wt wq] wr] wm]|] eqn:Ew;
      destruct w as [|w0 w]; rewrite ?len_cons, ?len_nil;
        cbn [cn_fh fh_rem fh_type fh_flags cn_has_username cn_has_password cn_username cn_password cn_clean cn_has_will cn_will_retain cn_keep_alive
             cn_will_qos cn_client_id cn_will_topic cn_will_message is_some opt_bytes];
        (match goal with |- context [0 <? ?x] => destruct (N.ltb_spec 0 x); try lia end);
        rewrite !connect_body_len; unfold will_len; rewrite ?Ew;
        cbn [ci_will ci_client_id ci_clean ci_keep_alive ci_username ci_password];
        destruct (ci_username c) as [u0|], (ci_password c) as [w1|]; try discriminate;
        cbn [is_some olen opt_bytes] in *; rewrite ?len_nil, ?len_cons in *; f_equal; f_equal;
        unfold add64, sub64; change (2 ^ 64) with two64; unfold two64, str_ok in *; cbn in Ho; unfold str_ok in Ho; rewrite ?len_cons in Ho; change (len (@nil N)) with 0 in *; rewrite ?(@len_cons N) in *; lia.
    - cbn [filter is_will length] in Hw. destruct (ci_will c) as [x|] eqn:Ew; [cbn in Hw; lia|].
      unfold connect_add_will, packet_of_info, set_rem. rewrite Ew.
      cbn [ci_will ci_client_id ci_clean ci_keep_alive ci_username ci_password cn_fh fh_rem fh_type fh_flags cn_has_username cn_has_password cn_username
           cn_password cn_clean cn_has_will cn_will_retain cn_keep_alive cn_will_qos cn_client_id is_some].
      f_equal. f_equal. unfold will_len in *. rewrite Ew in *. cbn [ci_will] in *.
      rewrite !connect_body_len; unfold will_len; rewrite ?Ew;
        cbn [ci_will ci_client_id ci_clean ci_keep_alive ci_username ci_password] in *.
      unfold sizeof_encoded_buffer. rewrite add64_small by (unfold two64; lia). lia. }
  rewrite E. apply IH; auto.
  destruct o as [u w|t q r m]; cbn [filter is_will length apply_info_op ci_will is_some] in *; lia.
Qed.
Lemma build_connect_ok cid clean ka ops : str_ok cid -> ka < 65536 -> Forall op_ok ops ->
  (length (filter is_will ops) <= 1)%nat ->
  build_connect cid clean ka ops = packet_of_info (connect_info_of cid clean ka ops) /\ info_ok (connect_info_of cid clean ka ops).
Proof.
  intros Hcid Hka Hops Hw. unfold build_connect, connect_info_of.
  assert (E : connect_init cid clean ka = packet_of_info (mkci cid clean ka None None None)).
  { unfold connect_init, packet_of_info. cbn [ci_will ci_clean ci_keep_alive ci_username ci_password ci_client_id is_some opt_bytes].
    rewrite connect_body_len. unfold will_len. cbn [ci_will ci_client_id ci_username ci_password olen]. unfold sizeof_encoded_buffer.
    unfold str_ok in Hcid. rewrite add64_small by (unfold two64; lia). f_equal. f_equal. lia. }
  rewrite E. apply build_connect_gen; auto.
  - repeat split; auto.
  - cbn. lia.
Qed.

