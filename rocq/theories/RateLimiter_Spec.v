(** Specification: an ideal token bucket whose regeneration since it was (re)started at time [t0] is exactly the integer part of
    rate * elapsed, with no error accumulation whatever the times of the calls. *)
From Verif Require Import Base RateLimiter_Model.

(** tokens generated from time [t0] to time [t] (in nanoseconds) at [rate] tokens per second *)
Definition generated (rate t0 t : N) : N := rate * (t - t0) / 1000000000.

Record ideal := mki { i_tokens : N; i_start : N; i_now : N }.
Definition i_reset (c : rl_config) (now : N) : ideal := mki (N.min (rl_initial c) (rl_max c)) now now.
(** time never goes backwards for the ideal bucket *)
Definition i_advance (c : rl_config) (now : N) (i : ideal) : ideal :=
  let t := N.max now (i_now i) in
  mki (N.min (rl_max c) (i_tokens i + (generated (rl_rate c) (i_start i) t - generated (rl_rate c) (i_start i) (i_now i)))) (i_start i) t.
Definition i_available (c : rl_config) (t : N) (i : ideal) : N := i_tokens (i_advance c t i).
(** the only correct answer to "how long until n tokens are available": the least waiting time *)
Definition least_wait (c : rl_config) (i : ideal) (n w : N) : Prop :=
  n <= i_available c (i_now i + w) i /\ forall w', w' < w -> i_available c (i_now i + w') i < n.
Inductive i_step (c : rl_config) : ideal -> N -> rl_op -> ideal -> rl_answer -> Prop :=
| i_step_reset i now : i_step c i now OReset (i_reset c now) AReset
| i_step_can i now n : i_step c i now (OCanTake n) (i_advance c now i) (ACan (n <=? i_available c now i))
| i_step_take i now n : n <= i_available c now i ->
    i_step c i now (OTake n) (let j := i_advance c now i in mki (i_tokens j - n) (i_start j) (i_now j)) (ATook true)
| i_step_refuse i now n : i_available c now i < n -> i_step c i now (OTake n) (i_advance c now i) (ATook false)
| i_step_wait i now n w : least_wait c (i_advance c now i) n w -> i_step c i now (OWait n) (i_advance c now i) (AWait (Some w)).
Inductive i_run (c : rl_config) : ideal -> list (N * rl_op) -> ideal -> list rl_answer -> Prop :=
| i_run_nil i : i_run c i [] i []
| i_run_cons i now o ops i1 a i2 l : i_step c i now o i1 a -> i_run c i1 ops i2 l -> i_run c i ((now, o) :: ops) i2 (a :: l).

(** Configurations for which 64-bit arithmetic is adequate: rate below 18.4 * 10^9 tokens per second, bucket size not within
    four seconds' worth of tokens of 2^64, and a full bucket takes less than 2^64 ns to regenerate. *)
Definition sane (c : rl_config) : Prop :=
  0 < rl_rate c /\ 0 < rl_max c /\ rl_rate c * 1000000000 < two64 /\ rl_max c + 4 * rl_rate c < two64 /\
  (rl_max c / rl_rate c + 3) * 1000000000 < two64.
(** No pause between two calls generates more than 2^64 tokens, and waits are asked for amounts the bucket can hold. *)
Fixpoint reasonable (c : rl_config) (last : N) (ops : list (N * rl_op)) : Prop :=
  match ops with
  | [] => True
  | (now, o) :: ops =>
    rl_rate c * ((now - last) / 1000000000 + 2) < two64 /\ now < two64 /\
    match o with OWait n => n <= rl_max c | _ => True end /\
    reasonable c (match o with OReset => now | _ => N.max now last end) ops
  end.
(** tokens granted by a history *)
Fixpoint granted (ops : list (N * rl_op)) (l : list rl_answer) : N :=
  match ops, l with
  | (_, OTake n) :: ops, ATook true :: l => n + granted ops l
  | _ :: ops, _ :: l => granted ops l
  | _, _ => 0
  end.
