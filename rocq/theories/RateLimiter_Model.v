(** Model of source/v5/rate_limiters.c. *)
From Verif Require Import Base.

Definition u64 (n : N) : N := n mod two64.
(** aws_mul_u64_saturating, aws_add_u64_saturating (aws-c-common) *)
Definition mul_sat (a b : N) : N := if a * b <? two64 then a * b else two64 - 1.
Definition add_sat (a b : N) : N := if a + b <? two64 then a + b else two64 - 1.
(** AWS_TIMESTAMP_NANOS *)
Definition nanos : N := 1000000000.

(** struct aws_rate_limiter_token_bucket_options and struct aws_rate_limiter_token_bucket,
    include/aws/mqtt/private/v5/rate_limiters.h; the clock function is replaced by an explicit [now] argument to each call. *)
Record rl_config := mkrlc { rl_rate : N; rl_initial : N; rl_max : N }.
Record rl_state := mkrl { rl_tokens : N; rl_last : N; rl_fnanos : N; rl_ftokens : N }.

(** aws_rate_limiter_token_bucket_reset, rate_limiters.c:34-45 *)
Definition rl_reset (c : rl_config) (now : N) : rl_state := mkrl (N.min (rl_initial c) (rl_max c)) now 0 0.
(** aws_rate_limiter_token_bucket_init, 18-32 *)
Definition rl_init (c : rl_config) (now : N) : option rl_state :=
  if (rl_rate c =? 0) || (rl_max c =? 0) then None else Some (rl_reset c now).

(** s_regenerate_tokens, 47-124. C unsigned subtraction is written modulo 2^64. *)
Definition rl_regenerate (c : rl_config) (now : N) (s : rl_state) : rl_state :=
  if now <=? rl_last s then s else
  let elapsed := now - rl_last s in
  let remainder := elapsed mod nanos in
  let seconds := elapsed / nanos in
  let regen := mul_sat seconds (rl_rate c) in
  let fnanos := u64 (rl_fnanos s + remainder) in
  let '(regen, fnanos, ftokens) :=
    if fnanos <? nanos then
      let nft := mul_sat fnanos (rl_rate c) / nanos in
      (u64 (regen + u64 (nft + two64 - rl_ftokens s)), fnanos, nft)
    else
      let regen := u64 (regen + u64 (rl_rate c + two64 - rl_ftokens s)) in
      let fnanos := fnanos - nanos in
      let ft := mul_sat fnanos (rl_rate c) / nanos in
      (u64 (regen + ft), fnanos, ft) in
  let tokens := add_sat regen (rl_tokens s) in
  let tokens := if rl_max c <? tokens then rl_max c else tokens in
  mkrl tokens now fnanos ftokens.

(** aws_rate_limiter_token_bucket_can_take_tokens, 126-132 *)
Definition rl_can_take (c : rl_config) (now n : N) (s : rl_state) : rl_state * bool :=
  let s := rl_regenerate c now s in (s, n <=? rl_tokens s).
(** aws_rate_limiter_token_bucket_take_tokens, 134-144 *)
Definition rl_take (c : rl_config) (now n : N) (s : rl_state) : rl_state * bool :=
  let s := rl_regenerate c now s in
  if rl_tokens s <? n then (s, false) else (mkrl (rl_tokens s - n) (rl_last s) (rl_fnanos s) (rl_ftokens s), true).
(** aws_rate_limiter_token_bucket_compute_wait_for_tokens, 146-217; [None] is a failed AWS_FATAL_ASSERT *)
Definition rl_wait (c : rl_config) (now n : N) (s : rl_state) : rl_state * option N :=
  let s := rl_regenerate c now s in
  if n <=? rl_tokens s then (s, Some 0) else
  let rate := rl_rate c in
  if negb (rl_fnanos s <? nanos) then (s, None) else
  if negb (rl_ftokens s <=? rate) then (s, None) else
  let deficit := n - rl_tokens s in
  let remaining := rate - rl_ftokens s in
  let w :=
    if deficit <? remaining then
      let target := add_sat deficit (rl_ftokens s) in
      let un := mul_sat target nanos in
      let w := u64 (un / rate + two64 - rl_fnanos s) in
      if un mod rate =? 0 then w else u64 (w + 1)
    else
      let w := nanos - rl_fnanos s in
      let deficit := deficit - remaining in
      let ws := deficit / rate in
      let dr := deficit mod rate in
      let w := u64 (w + mul_sat ws nanos) in
      let un := mul_sat dr nanos in
      let w := u64 (w + un / rate) in
      if un mod rate =? 0 then w else u64 (w + 1) in
  (s, Some w).

(** A history of calls, each at the time the clock function returned. *)
Inductive rl_op := OReset | OCanTake (n : N) | OTake (n : N) | OWait (n : N).
Inductive rl_answer := AReset | ACan (b : bool) | ATook (b : bool) | AWait (w : option N).
Definition rl_step (c : rl_config) (s : rl_state) (now : N) (o : rl_op) : rl_state * rl_answer :=
  match o with
  | OReset => (rl_reset c now, AReset)
  | OCanTake n => let (s, b) := rl_can_take c now n s in (s, ACan b)
  | OTake n => let (s, b) := rl_take c now n s in (s, ATook b)
  | OWait n => let (s, w) := rl_wait c now n s in (s, AWait w)
  end.
Fixpoint rl_run (c : rl_config) (s : rl_state) (ops : list (N * rl_op)) : rl_state * list rl_answer :=
  match ops with
  | [] => (s, [])
  | (now, o) :: ops => let (s, a) := rl_step c s now o in let (s, r) := rl_run c s ops in (s, a :: r)
  end.
