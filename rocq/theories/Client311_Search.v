(** The search for a free packet id finds one if there is one *)
From Verif Require Import Base Client311_Model.

Definition nx (id : N) : N := if id =? 65535 then 1 else id + 1.
Definition seen (start j : N) : N := if j =? 0 then start else (start + j - 1) mod 65535 + 1.
Lemma seen_next start j : start <= 65535 -> nx (seen start j) = seen start (j + 1).
Proof.
  intro L. unfold nx, seen. replace (j + 1 =? 0) with false by (symmetry; apply N.eqb_neq; lia). replace (start + (j + 1) - 1) with (start + j) by lia. destruct (j =? 0) eqn:E.
  - apply N.eqb_eq in E. subst j. rewrite N.add_0_r. destruct (start =? 65535) eqn:F; [apply N.eqb_eq in F; subst start; reflexivity|]. apply N.eqb_neq in F. rewrite N.mod_small by lia. reflexivity.
  - apply N.eqb_neq in E. pose proof (N.div_mod' (start + j - 1) 65535). pose proof (N.mod_upper_bound (start + j - 1) 65535 ltac:(discriminate)). set (q := (start + j - 1) / 65535) in *. set (r := (start + j - 1) mod 65535) in *.
    destruct (r + 1 =? 65535) eqn:F; [apply N.eqb_eq in F|apply N.eqb_neq in F].
    + f_equal. rewrite <- (N.mod_unique (start + j) 65535 (q + 1) 0); lia.
    + f_equal. apply (N.mod_unique (start + j) 65535 q (r + 1)); lia.
Qed.
Lemma seen_range start j : 0 < j -> 1 <= seen start j <= 65535.
Proof. intro L. unfold seen. replace (j =? 0) with false by (symmetry; apply N.eqb_neq; lia). pose proof (N.mod_upper_bound (start + j - 1) 65535 ltac:(discriminate)). lia. Qed.
Lemma seen_inj start i j : 0 < i -> i < j -> j <= 65535 -> seen start i <> seen start j.
Proof.
  intros A B C E. unfold seen in E. replace (i =? 0) with false in E by (symmetry; apply N.eqb_neq; lia). replace (j =? 0) with false in E by (symmetry; apply N.eqb_neq; lia).
  pose proof (N.div_mod' (start + i - 1) 65535). pose proof (N.div_mod' (start + j - 1) 65535). assert (E' : (start + i - 1) mod 65535 = (start + j - 1) mod 65535) by lia. rewrite E' in *.
  set (a := (start + i - 1) / 65535) in *. set (b := (start + j - 1) / 65535) in *. set (r := (start + j - 1) mod 65535) in *. assert (j - i = 65535 * (b - a)) by lia. assert (b - a = 0 \/ 1 <= b - a) as [|] by lia; lia.
Qed.
(** 65535 steps see every id *)
Lemma seen_all start k id : start <= 65535 -> 65535 <= k -> 1 <= id <= 65535 -> exists j, 0 < j <= k /\ seen start j = id.
Proof.
  intros L K I. exists (if start <? id then id - start else id + 65535 - start). destruct (start <? id) eqn:E; [apply N.ltb_lt in E|apply N.ltb_ge in E].
  - split; [lia|]. unfold seen. replace (id - start =? 0) with false by (symmetry; apply N.eqb_neq; lia). rewrite N.mod_small by lia. lia.
  - split; [lia|]. unfold seen. replace (id + 65535 - start =? 0) with false by (symmetry; apply N.eqb_neq; lia). rewrite <- (N.mod_unique (start + (id + 65535 - start) - 1) 65535 1 (id - 1)); lia.
Qed.
Lemma existsb_id id (t : list (N * N)) : existsb (fun e => fst e =? id) t = true <-> In id (map fst t).
Proof. rewrite existsb_exists, in_map_iff. split; intros (x & A & B); exists x; [rewrite N.eqb_eq in B|rewrite N.eqb_eq]; auto. Qed.
Lemma search_some fuel t start : forall id id', start <= 65535 -> id <= 65535 -> search fuel t start id = Some id' -> ~ In id' (map fst t) /\ 1 <= id' <= 65535.
Proof.
  induction fuel as [|n IH]; intros id id' L L' H; cbn [search] in H; change (if id =? 65535 then 1 else id + 1) with (nx id) in H.
  all: assert (R : 1 <= nx id <= 65535) by (unfold nx; destruct (id =? 65535) eqn:E; [lia|apply N.eqb_neq in E; lia]).
  all: destruct (existsb (fun e => fst e =? nx id) t) eqn:E; cbn [negb] in H; [|injection H as <-; split; [rewrite <- existsb_id; congruence|exact R]].
  all: destruct (nx id =? start); try discriminate. apply (IH (nx id)); [exact L|lia|exact H].
Qed.
Lemma search_none fuel t start : forall j, start <= 65535 -> (forall i, 0 < i <= j -> In (seen start i) (map fst t)) -> search fuel t start (seen start j) = None ->
  exists k, j < k /\ (forall i, 0 < i <= k -> In (seen start i) (map fst t)) /\ (k = j + N.of_nat fuel + 1 \/ seen start k = start).
Proof.
  induction fuel as [|n IH]; intros j L A H; cbn [search] in H; change (if seen start j =? 65535 then 1 else seen start j + 1) with (nx (seen start j)) in H; rewrite seen_next in H by exact L.
  all: destruct (existsb (fun e => fst e =? seen start (j + 1)) t) eqn:E; cbn [negb] in H; [|discriminate]; apply existsb_id in E.
  all: assert (A' : forall i, 0 < i <= j + 1 -> In (seen start i) (map fst t)) by (intros i K; destruct (N.eq_dec i (j + 1)) as [->|]; [exact E|apply A; lia]).
  all: destruct (seen start (j + 1) =? start) eqn:F; [apply N.eqb_eq in F; exists (j + 1); split; [lia|]; split; [exact A'|auto]|].
  - exists (j + 1). split; [lia|]. split; [exact A'|]. left. lia.
  - destruct (IH (j + 1) L A' H) as (k & K1 & K2 & K3). exists k. split; [lia|]. split; [exact K2|]. destruct K3; [left; lia|auto].
Qed.
Lemma seen_many (t : list (N * N)) start k : k <= 65535 -> (forall i, 0 < i <= k -> In (seen start i) (map fst t)) -> k <= N.of_nat (length t).
Proof.
  intros L A. set (l := map (fun i => seen start (N.of_nat i)) (seq 1 (N.to_nat k))).
  assert (D : NoDup l).
  { unfold l. assert (G : forall n a, (0 < a)%nat -> N.of_nat (a + n) <= 65536 -> NoDup (map (fun i => seen start (N.of_nat i)) (seq a n))).
    { induction n as [|n IH]; intros a P Q; cbn [seq map]; [constructor|]. constructor; [|apply IH; lia]. intro K. apply in_map_iff in K as (b & K & J). apply in_seq in J. revert K. apply not_eq_sym. apply seen_inj; lia. }
    apply G; lia. }
  assert (I : incl l (map fst t)) by (intros x K; apply in_map_iff in K as (b & <- & K); apply in_seq in K; apply A; lia).
  pose proof (NoDup_incl_length D I) as P. unfold l in P. rewrite !map_length, seq_length in P. lia.
Qed.
Lemma search_full t start : start <= 65535 -> search (length t) t start start = None -> forall id, 1 <= id <= 65535 -> In id (map fst t).
Proof.
  intros L H id I. destruct (search_none (length t) t start 0 L) as (k & K1 & K2 & K3); [intros; lia|exact H|]. destruct (N.le_gt_cases 65535 k) as [G|G].
  - destruct (seen_all start k id L G I) as (j & J1 & <-). apply K2, J1.
  - exfalso. assert (M := seen_many t start k ltac:(lia) K2). destruct K3 as [K3|K3]; [lia|].
    unfold seen in K3. replace (k =? 0) with false in K3 by (symmetry; apply N.eqb_neq; lia). pose proof (N.div_mod' (start + k - 1) 65535) as P. set (q := (start + k - 1) / 65535) in *. assert (start + k - 1 = 65535 * q + (start - 1)) by lia. assert (q = 0 \/ 1 <= q) as [|] by lia; lia.
Qed.
