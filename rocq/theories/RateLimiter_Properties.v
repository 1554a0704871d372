(** Properties C21 and C22: the token bucket rate limiter. *)
From Verif Require Import Base RateLimiter_Model RateLimiter_Spec RateLimiter_Proofs.

(** ** C21 *)
(** The bucket never holds more than its maximum, in any history whatsoever (clock jumps and resets included). *)
Theorem C21_never_exceeds_maximum : forall c t0 s0 pre, rl_rate c * 1000000000 < two64 -> rl_init c t0 = Some s0 ->
  rl_tokens (fst (rl_run c s0 pre)) <= rl_max c.
Proof. exact never_exceeds_max. Qed.
Print Assumptions C21_never_exceeds_maximum.
(** Between any two moments of any history with no reset in between: tokens granted <= content at the first moment
    + rate * elapsed (+1 for rounding). [pre] is an arbitrary earlier history. No assumption on the times: the clock may jump. *)
Theorem C21_granted_bounded_by_rate : forall c t0 s0 pre ops, rl_rate c * 1000000000 < two64 -> rl_init c t0 = Some s0 -> Forall no_reset ops ->
  let s1 := fst (rl_run c s0 pre) in
  let '(s2, l) := rl_run c s1 ops in
  rl_last s1 <= rl_last s2 /\
  granted ops l + rl_tokens s2 <= rl_tokens s1 + rl_rate c * (rl_last s2 - rl_last s1) / 1000000000 + 1.
Proof. exact window_bound. Qed.
Print Assumptions C21_granted_bounded_by_rate.
(** Exactness: the limiter answers every call like the ideal bucket, whose regeneration is the exact integer part of rate * time since
    the last reset - so there is no drift, however the calls are spread. *)
Theorem C21_no_drift : forall c t0 s0 ops, sane c -> rl_init c t0 = Some s0 -> reasonable c t0 ops ->
  exists i', i_run c (i_reset c t0) ops i' (snd (rl_run c s0 ops)).
Proof. exact init_refines. Qed.
Print Assumptions C21_no_drift.
Definition ex_cfg := mkrlc 3 0 10.
Example C21_ex_sane : sane ex_cfg /\ rl_init ex_cfg 5 = Some (rl_reset ex_cfg 5) /\
  reasonable ex_cfg 5 [(333333339, OTake 1); (333333338, OCanTake 1); (666666672, OTake 2); (1000000005, OTake 1); (9000000000, OWait 10)].
Proof. unfold sane, reasonable, two64. cbn. repeat split; vm_compute; try reflexivity; discriminate. Qed.
Example C21_ex_run : snd (rl_run ex_cfg (rl_reset ex_cfg 5)
    [(333333338, OTake 1); (333333339, OTake 1); (666666672, OTake 2); (1000000005, OTake 1); (1000000005, OTake 2); (1000000006, OWait 2)]) =
  [ATook false; ATook true; ATook false; ATook true; ATook false; AWait (Some 333333333)].
Proof. vm_compute. reflexivity. Qed.
(** The bound on pauses in [reasonable] is needed: with 10^10 tokens per second, a pause of 58.5 years makes the 64-bit token count
    wrap and the bucket is left (almost) empty instead of full. *)
Theorem C21_long_pause_refuted : exists c s0 now, rl_rate c * 1000000000 < two64 /\ rl_init c 0 = Some s0 /\ now < two64 /\
  rl_tokens (rl_regenerate c now s0) < rl_max c /\ rl_max c < rl_rate c * now / 1000000000.
Proof. exists (mkrlc 10000000000 0 10000000000), (mkrl 0 0 0 0), 1844674407500000001. vm_compute. repeat split; reflexivity. Qed.
Print Assumptions C21_long_pause_refuted.

(** ** C22 *)
(** After any (reasonable) history, the waiting time [w] returned for [n] tokens is exact: a request [x] ns later succeeds iff x >= w. *)
Theorem C22_wait_exact : forall c t0 s0 pre now n, sane c -> rl_init c t0 = Some s0 -> reasonable c t0 pre ->
  let s := fst (rl_run c s0 pre) in
  rl_rate c * ((now - rl_last s) / 1000000000 + 2) < two64 -> n <= rl_max c ->
  exists s' w, rl_wait c now n s = (s', Some w) /\ rl_last s' = N.max now (rl_last s) /\
    rl_rate c * (w / 1000000000 + 2) < two64 /\
    forall x, rl_rate c * (x / 1000000000 + 2) < two64 -> (snd (rl_can_take c (rl_last s' + x) n s') = true <-> w <= x).
Proof. exact wait_exact. Qed.
Print Assumptions C22_wait_exact.
Example C22_ex : exists s', rl_wait ex_cfg 1000000006 7 (fst (rl_run ex_cfg (rl_reset ex_cfg 5) [(1000000005, OTake 2)])) = (s', Some 1999999999) /\
  snd (rl_can_take ex_cfg (1000000006 + 1999999999) 7 s') = true /\ snd (rl_can_take ex_cfg (1000000006 + 1999999998) 7 s') = false.
Proof. eexists. split; [vm_compute; reflexivity|]. split; vm_compute; reflexivity. Qed.
