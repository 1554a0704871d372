(** A history in which two operations in flight have the same packet id: an operation that is being written when the connection is lost keeps
    its id while it is queued, but the id is not reserved meanwhile. *)
From Verif Require Import Base Mqtt5_Views TopicAlias_Model Encoder5_Model Decoder5_Model RateLimiter_Model Validate5_Model Negotiated_Model
  Client5_State Client5_Model Client5_Spec Client5_Examples.
Definition cf7 : config := mkconfig ex_connect FAIL_QOS0_PUBLISH REJOIN_POST_SUCCESS false 30000 20000 0 0 0 JITTER_NONE 0 BDisabled None.
Definition pub_long : packet5 :=
  P_PUBLISH (mkpublish (repeat 7 60) 0 1 false false [97] None None None None None [] None []).
Definition short_at (now : N) : env := mkenv now (Some 7) None None (Some 40) true (fun _ => false) (fun _ => false).
Definition prefix7 : list (env * event) := connected connack_bytes ++ [submit_at 1010 sub_a; submit_at 1010 pub_long; (short_at 1010, EService); (at_ 1010, EShutdown None)].
Definition open7 : list (env * event) := [(at_ 1010, EService); (at_ 1010, ESetup None); (at_ 1010, EService); (at_ 1010, EWritten None); (at_ 1010, ERead connack_session)].
Definition cycle7 : list (env * event) := open7 ++ [(short_at 1010, EService); (at_ 1010, EShutdown None)].
Definition base7 := Eval vm_compute in client_history cf7 1 (prefix7 ++ cycle7).
Definition F7 (n u : N) (T : list out) : client := set_next_id n (set_uid u (set_c_out T base7)).
Definition D7 (n u : N) : list out := c_out (client_run cf7 (F7 n u []) cycle7).
Lemma split7 a b : set_c_out [] (set_next_id 0 a) = set_c_out [] (set_next_id 0 b) -> next_id a = next_id b -> c_out a = c_out b -> a = b.
Proof.
  intros E E1 E2. transitivity (set_c_out (c_out a) (set_next_id (next_id a) (set_c_out [] (set_next_id 0 a)))); [destruct a as [? [] ? ? ? ? ? ? ? ? ? ?]; reflexivity|].
  rewrite E, E1, E2. destruct b as [? [] ? ? ? ? ? ? ? ? ? ?]; reflexivity.
Qed.
Lemma cycle_eq p u T : client_run cf7 (F7 (Npos p) u T) cycle7 = F7 (next_packet_id (Npos p)) (u + 1) (D7 (Npos p) u ++ T).
Proof. apply split7; vm_compute; reflexivity. Qed.
Lemma cycle_done p u : map op_uid (finished (D7 (Npos p) u)) = [u].
Proof. vm_compute. reflexivity. Qed.
Lemma next_pos n : exists p, next_packet_id n = Npos p.
Proof. unfold next_packet_id. destruct (_ =? 0) eqn:E; [eauto|]. destruct ((n + 1) mod 65536); [discriminate|eauto]. Qed.
Lemma run_app cf s a b : client_run cf s (a ++ b) = client_run cf (client_run cf s a) b.
Proof. apply fold_left_app. Qed.
(** a cycle of events that uses up one packet id, repeated *)
Section Cycle.
Variable cf : config.
Variable F : N -> N -> list out -> client.
Variable D : N -> N -> list out.
Variable cycle : list (env * event).
Hypothesis cycle_runs : forall p u T, client_run cf (F (Npos p) u T) cycle = F (next_packet_id (Npos p)) (u + 1) (D (Npos p) u ++ T).
Hypothesis cycle_finishes : forall p u, map op_uid (finished (D (Npos p) u)) = [u].
Lemma cycles k : forall p u T, exists n T', client_run cf (F (Npos p) u T) (concat (repeat cycle k)) = F n (u + N.of_nat k) T' /\
  (Npos p + N.of_nat k < 65536 -> n = Npos p + N.of_nat k) /\ (forall x, In x (map op_uid (finished T')) -> In x (map op_uid (finished T)) \/ u <= x).
Proof.
  induction k as [|k IH]; intros p u T; [exists (Npos p), T; rewrite !N.add_0_r; auto|]. cbn [repeat concat]. rewrite run_app, cycle_runs.
  destruct (next_pos (Npos p)) as [q E]. rewrite E.
  destruct (IH q (u + 1) (D (Npos p) u ++ T)) as (n & T' & E1 & E2 & E3). exists n, T'. replace (u + N.of_nat (S k)) with (u + 1 + N.of_nat k) by lia. split; [exact E1|]. split.
  - intros H. rewrite <- E in E2. unfold next_packet_id in E2. rewrite N.mod_small in E2 by lia. destruct (N.pos p + 1 =? 0) eqn:E4; [lia|]. rewrite E2 by lia. lia.
  - intros x Hx. destruct (E3 x Hx) as [H|H]; [|right; lia]. unfold finished in H. rewrite flat_map_app, map_app, in_app_iff in H. destruct H as [H|H]; [|auto]. fold (finished (D (Npos p) u)) in H. rewrite cycle_finishes in H. destruct H as [<-|[]]. right. lia.
Qed.
Lemma wrapped k T0 : N.of_nat k = 65531 -> (forall x, In x (map op_uid (finished T0)) -> x <> 1) -> exists u T, 4 <= u /\
  (forall x, In x (map op_uid (finished T)) -> x <> 1) /\ client_run cf (F 4 4 T0) (concat (repeat cycle k) ++ cycle ++ cycle) = F 2 u T.
Proof.
  intros Hk H0. destruct (cycles k 4 4 T0) as (n & T & E1 & E2 & E3). rewrite Hk in *. specialize (E2 eq_refl). change (4 + 65531) with 65535 in *. subst n.
  exists (65535 + 1 + 1), (D 1 (65535 + 1) ++ D 65535 65535 ++ T). split; [clear; lia|]. split.
  - intros x Hx. unfold finished in Hx. rewrite !flat_map_app, !map_app, !in_app_iff in Hx. fold (finished (D 1 (65535 + 1))) (finished (D 65535 65535)) (finished T) in Hx.
    rewrite !cycle_finishes in Hx. destruct Hx as [[<-|[]]|[[<-|[]]|Hx]]; [discriminate|discriminate|]. destruct (E3 _ Hx) as [H|H]; [exact (H0 _ H)|clear -H; lia].
  - rewrite run_app, E1, run_app, cycle_runs. change (next_packet_id 65535) with 1. rewrite cycle_runs. reflexivity.
Qed.
Lemma wrapped_history now0 pre last k T0 : client_history cf now0 pre = F 4 4 T0 -> N.of_nat k = 65531 -> (forall x, In x (map op_uid (finished T0)) -> x <> 1) ->
  exists u T, 4 <= u /\ (forall x, In x (map op_uid (finished T)) -> x <> 1) /\
    client_history cf now0 (pre ++ (concat (repeat cycle k) ++ cycle ++ cycle) ++ last) = client_run cf (F 2 u T) last.
Proof.
  intros Hp Hk H0. destruct (wrapped k T0 Hk H0) as (u & T & H1 & H2 & H3). exists u, T. split; [exact H1|]. split; [exact H2|].
  unfold client_history in *. rewrite run_app, Hp, run_app, H3. reflexivity.
Qed.
End Cycle.
Definition last7 : list (env * event) := open7 ++ [(at_ 1010, EService)].
Definition colliding (k : nat) : list (env * event) := (prefix7 ++ cycle7) ++ (concat (repeat cycle7 k) ++ cycle7 ++ cycle7) ++ last7.
Lemma base_eq : client_history cf7 1 (prefix7 ++ cycle7) = F7 4 4 (c_out base7).
Proof. vm_compute. reflexivity. Qed.
Lemma base_fin : map op_uid (finished (c_out base7)) = [3; 0].
Proof. vm_compute. reflexivity. Qed.
Lemma colliding_eq k : N.of_nat k = 65531 -> exists u T, 4 <= u /\ (forall x, In x (map op_uid (finished T)) -> x <> 1) /\
  client_history cf7 1 (colliding k) = client_run cf7 (F7 2 u T) last7.
Proof.
  intros Hk. refine (wrapped_history cf7 F7 D7 cycle7 cycle_eq cycle_done 1 (prefix7 ++ cycle7) last7 k (c_out base7) base_eq Hk _).
  rewrite base_fin. intros x [<-|[<-|[]]]; discriminate.
Qed.
Definition L7 u := c_out (client_run cf7 (F7 2 u []) last7).
Lemma last_eq u T : c_out (client_run cf7 (F7 2 u T) last7) = L7 u ++ T.
Proof. vm_compute. reflexivity. Qed.
Lemma last_ok u T : c_crash (client_run cf7 (F7 2 u T) last7) = None.
Proof. vm_compute. reflexivity. Qed.
Lemma L7_eq u : exists a b c, L7 u = a :: O_SENT b :: O_SENT c :: skipn 3 (L7 u) /\ op_uid c = 1 /\ answered (op_packet b) = true /\ answered (op_packet c) = true /\ id_of (op_packet b) = 2 /\ id_of (op_packet c) = 2 /\
  clock (skipn 3 (L7 u)) = Some 1010 /\ map op_uid (finished (skipn 3 (L7 u))) = [u].
Proof. vm_compute. do 3 eexists. split; [reflexivity|]. repeat split. Qed.
Lemma ids_collide : exists cf now0 l later o earlier o' t', c_crash (client_history cf now0 l) = None /\ c_out (client_history cf now0 l) = later ++ O_SENT o :: earlier /\
  answered (op_packet o) = true /\ sent_here o' t' earlier /\ answered (op_packet o') = true /\ ~ In (op_uid o') (map op_uid (finished earlier)) /\ id_of (op_packet o') = id_of (op_packet o).
Proof.
  assert (exists k, N.of_nat k = 65531) as [k Hk] by (exists (N.to_nat 65531); apply N2Nat.id).
  destruct (colliding_eq k Hk) as (u & T & Hu & Hf & E). exists cf7, 1, (colliding k). rewrite E. destruct (L7_eq u) as (a & b & c & E1 & Ec & Ab & Ac & Ib & Ic & Ck & Fi). generalize dependent (skipn 3 (L7 u)). intros R E1 Ck Fi.
  exists [a], b, (O_SENT c :: R ++ T), c, 1010. split; [apply last_ok|]. split; [rewrite last_eq, E1; reflexivity|]. split; [exact Ab|].
  split; [exists [], (R ++ T); repeat split; [constructor|]|].
  - clear -Ck. induction R as [|x R IH]; [discriminate|]. cbn [app clock] in *. destruct (is_tick x); auto.
  - split; [exact Ac|]. split; [|congruence]. rewrite Ec. unfold finished. cbn [flat_map app]. rewrite flat_map_app, map_app, in_app_iff. fold (finished R) (finished T). rewrite Fi. intros [[H|[]]|H]; [lia|]. exact (Hf _ H eq_refl).
Qed.
