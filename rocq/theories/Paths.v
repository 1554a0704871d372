(** Association lists keyed by byte strings, and finite maps keyed by paths (lists of topic levels). *)
From Coq Require Import Permutation.
From Verif Require Import Base BaseLemmas Split TopicAlias_Model TopicAlias_Proofs SubSet_Model.

(** ** Association lists *)
Lemma find_key_cons {A} k k' (v : A) l : find_key k ((k', v) :: l) = if bytes_eqb k k' then Some v else find_key k l.
Proof. unfold find_key. cbn [find fst]. destruct (bytes_eqb k k'); reflexivity. Qed.
Lemma remove_key_cons {A} k k' (v : A) l : remove_key k ((k', v) :: l) = if bytes_eqb k k' then remove_key k l else (k', v) :: remove_key k l.
Proof. unfold remove_key. cbn [filter fst]. destruct (bytes_eqb k k'); reflexivity. Qed.
Lemma find_remove_same {A} k (l : list (bytes * A)) : find_key k (remove_key k l) = None.
Proof.
  induction l as [|[k' v] l IH]; [reflexivity|]. rewrite remove_key_cons. destruct (bytes_eqb k k') eqn:E; [assumption|].
  rewrite find_key_cons, E. assumption.
Qed.
Lemma find_remove_other {A} k k' (l : list (bytes * A)) : k <> k' -> find_key k (remove_key k' l) = find_key k l.
Proof.
  intros Hk. induction l as [|[k2 v] l IH]; [reflexivity|]. rewrite remove_key_cons, find_key_cons. destruct (bytes_eqb k' k2) eqn:E.
  - apply bytes_eqb_spec in E. subst k2. rewrite (proj2 (bytes_eqb_false k k') Hk). assumption.
  - rewrite find_key_cons, IH. reflexivity.
Qed.
Lemma find_put {A} k k' (v : A) l : find_key k (put_key k' v l) = if bytes_eqb k k' then Some v else find_key k l.
Proof.
  unfold put_key. rewrite find_key_cons. destruct (bytes_eqb k k') eqn:E; [reflexivity|]. apply find_remove_other, bytes_eqb_false. assumption.
Qed.
Lemma remove_key_in {A} k (l : list (bytes * A)) e : In e (remove_key k l) <-> In e l /\ fst e <> k.
Proof. unfold remove_key. rewrite filter_In, negb_true_iff, bytes_eqb_false. split; intros [? ?]; split; auto. Qed.
Lemma nodup_remove {A} k (l : list (bytes * A)) : NoDup (map fst l) -> NoDup (map fst (remove_key k l)).
Proof.
  induction l as [|[k' v] l IH]; intros H; [constructor|]. rewrite remove_key_cons. inversion H as [|x y Hn Hd]; subst.
  destruct (bytes_eqb k k'); [auto|]. cbn [map fst]. constructor; [|auto]. intros Hi. apply Hn. apply in_map_iff in Hi as (e & <- & Hi).
  apply remove_key_in in Hi. apply in_map, Hi.
Qed.
Lemma nodup_put {A} k (v : A) l : NoDup (map fst l) -> NoDup (map fst (put_key k v l)).
Proof.
  intros H. unfold put_key. cbn [map fst]. constructor; [|apply nodup_remove; assumption]. intros Hi. apply in_map_iff in Hi as (e & E & Hi).
  apply remove_key_in in Hi. tauto.
Qed.
Lemma find_key_in {A} k (v : A) l : find_key k l = Some v -> In (k, v) l.
Proof.
  induction l as [|[k' v'] l IH]; [discriminate|]. rewrite find_key_cons. destruct (bytes_eqb k k') eqn:E.
  - apply bytes_eqb_spec in E. intros [= ->]. subst. left. reflexivity.
  - intros H. right. auto.
Qed.
Lemma find_key_none_in {A} k (l : list (bytes * A)) : find_key k l = None <-> ~ In k (map fst l).
Proof.
  induction l as [|[k' v'] l IH]; [split; [intros _ []|reflexivity]|]. rewrite find_key_cons. cbn [map fst In]. destruct (bytes_eqb k k') eqn:E.
  - apply bytes_eqb_spec in E. subst. split; [discriminate|]. intros H. exfalso. apply H. left. reflexivity.
  - apply bytes_eqb_false in E. rewrite IH. split; intros H; [intros [H'|H']; [congruence|auto]|auto].
Qed.
Lemma in_find_key {A} k (v : A) l : NoDup (map fst l) -> In (k, v) l -> find_key k l = Some v.
Proof.
  induction l as [|[k' v'] l IH]; intros Hn Hi; [destruct Hi|]. rewrite find_key_cons. inversion Hn as [|x y Hx Hy]; subst. destruct Hi as [[= -> ->]|Hi].
  - rewrite bytes_eqb_refl. reflexivity.
  - destruct (bytes_eqb k k') eqn:E; [|auto]. apply bytes_eqb_spec in E. subst. exfalso. apply Hx. apply (in_map fst) in Hi. exact Hi.
Qed.

(** ** Sets of paths *)
Definition paths (A : Type) := list (list bytes * A).
Fixpoint path_eqb (a b : list bytes) : bool := match a, b with [], [] => true | x :: a, y :: b => bytes_eqb x y && path_eqb a b | _, _ => false end.
Lemma path_eqb_spec a : forall b, path_eqb a b = true <-> a = b.
Proof.
  induction a as [|x a IH]; intros [|y b]; cbn; try (split; intros; congruence). rewrite andb_true_iff, bytes_eqb_spec, IH.
  split; [intros [-> ->]; reflexivity|]. intros [= -> ->]. auto.
Qed.
Lemma path_eqb_false a b : path_eqb a b = false <-> a <> b.
Proof. rewrite <- path_eqb_spec. destruct (path_eqb a b); split; intros; congruence. Qed.
Definition tail_of {A} (s : bytes) (e : list bytes * A) : paths A :=
  match fst e with x :: p => if bytes_eqb s x then [(p, snd e)] else [] | [] => [] end.
Definition here_of {A} (e : list bytes * A) : list A := match fst e with [] => [snd e] | _ => [] end.
Definition tails {A} (s : bytes) (F : paths A) : paths A := flat_map (tail_of s) F.
Definition here {A} (F : paths A) : list A := flat_map here_of F.
Definition del {A} (p : list bytes) (F : paths A) : paths A := filter (fun e => negb (path_eqb p (fst e))) F.

Lemma in_tails {A} s (F : paths A) p o : In (p, o) (tails s F) <-> In (s :: p, o) F.
Proof.
  unfold tails. rewrite in_flat_map. split.
  - intros ([[|x q] o'] & Hi & Ht); unfold tail_of in Ht; cbn [fst snd] in Ht; [destruct Ht|]. destruct (bytes_eqb s x) eqn:E; [|destruct Ht].
    apply bytes_eqb_spec in E. destruct Ht as [[= -> ->]|[]]. subst. assumption.
  - intros H. exists (s :: p, o). split; [assumption|]. unfold tail_of. cbn. rewrite bytes_eqb_refl. left. reflexivity.
Qed.
Lemma in_tails_fst {A} s (F : paths A) p : In p (map fst (tails s F)) <-> In (s :: p) (map fst F).
Proof.
  rewrite !in_map_iff. split.
  - intros ([q o] & E & Hi). cbn in E. subst. apply in_tails in Hi. exists (s :: p, o). auto.
  - intros ([q o] & E & Hi). cbn in E. subst. exists (p, o). split; [reflexivity|]. apply in_tails. assumption.
Qed.
Lemma in_here {A} (F : paths A) o : In o (here F) <-> In ([], o) F.
Proof.
  unfold here. rewrite in_flat_map. split.
  - intros ([[|x q] o'] & Hi & Ht); unfold here_of in Ht; cbn [fst snd] in Ht; [|destruct Ht]. destruct Ht as [->|[]]. assumption.
  - intros H. exists ([], o). split; [assumption|]. left. reflexivity.
Qed.
Lemma nodup_tails {A} s (F : paths A) : NoDup (map fst F) -> NoDup (map fst (tails s F)).
Proof.
  induction F as [|[p o] F IH]; intros H; [constructor|]. inversion H as [|x y Hn Hd]; subst. unfold tails. cbn [flat_map]. fold (tails s F).
  unfold tail_of. cbn [fst snd]. destruct p as [|x p]; [auto|]. destruct (bytes_eqb s x) eqn:E; [|auto]. apply bytes_eqb_spec in E. subst x. cbn [app map fst].
  constructor; [|auto]. intros Hi. apply in_tails_fst in Hi. exact (Hn Hi).
Qed.
Lemma nodup_here {A} (F : paths A) : NoDup (map fst F) -> here F = [] \/ exists o, here F = [o].
Proof.
  induction F as [|[p o] F IH]; intros H; [left; reflexivity|]. inversion H as [|x y Hn Hd]; subst. unfold here. cbn [flat_map]. fold (here F).
  unfold here_of. cbn [fst snd]. destruct p as [|x p]; [|auto]. right. exists o. destruct (here F) as [|o' l] eqn:E; [reflexivity|]. exfalso. apply Hn.
  apply in_map_iff. exists ([], o'). split; [reflexivity|]. apply in_here. rewrite E. left. reflexivity.
Qed.
Lemma perm_tails {A} s (F : paths A) (F' : paths A) : Permutation F F' -> Permutation (tails s F) (tails s F').
Proof. intros H. unfold tails. apply Permutation_flat_map. assumption. Qed.
Lemma perm_here {A} (F : paths A) (F' : paths A) : NoDup (map fst F) -> Permutation F F' -> here F = here F'.
Proof.
  intros Hn Hp. assert (Permutation (here F) (here F')) as H by (apply Permutation_flat_map; assumption).
  destruct (nodup_here F Hn) as [E|(o & E)]; rewrite E in *.
  - apply Permutation_nil in H. auto.
  - apply Permutation_length_1_inv in H. auto.
Qed.
Lemma tails_cons {A} s p o (F : paths A) : tails s ((p, o) :: F) = match p with x :: q => if bytes_eqb s x then (q, o) :: tails s F else tails s F | [] => tails s F end.
Proof. unfold tails. cbn [flat_map]. unfold tail_of at 1. cbn [fst snd]. destruct p as [|x q]; [reflexivity|]. destruct (bytes_eqb s x); reflexivity. Qed.
Lemma here_cons {A} p o (F : paths A) : here ((p, o) :: F) = match p with [] => o :: here F | _ => here F end.
Proof. unfold here. cbn [flat_map]. unfold here_of at 1. cbn [fst snd]. destruct p; reflexivity. Qed.
Lemma del_cons {A} p q o (F : paths A) : del p ((q, o) :: F) = if path_eqb p q then del p F else (q, o) :: del p F.
Proof. unfold del. cbn [filter fst]. destruct (path_eqb p q); reflexivity. Qed.
Lemma tails_del {A} s x p (F : paths A) : tails s (del (x :: p) F) = if bytes_eqb s x then del p (tails s F) else tails s F.
Proof.
  induction F as [|[q o] F IH]; [destruct (bytes_eqb s x); reflexivity|]. rewrite del_cons, tails_cons. destruct q as [|y q]; cbn [path_eqb].
  - rewrite tails_cons. assumption.
  - destruct (bytes_eqb x y) eqn:Exy; cbn [andb].
    + apply bytes_eqb_spec in Exy. subst y. destruct (bytes_eqb s x) eqn:E.
      * rewrite del_cons. destruct (path_eqb p q); [assumption|]. rewrite tails_cons, E, IH. reflexivity.
      * destruct (path_eqb p q); [assumption|]. rewrite tails_cons, E. assumption.
    + rewrite tails_cons. destruct (bytes_eqb s x) eqn:E.
      * apply bytes_eqb_spec in E. subst s. rewrite Exy. assumption.
      * rewrite IH. reflexivity.
Qed.
Lemma tails_del_nil {A} s (F : paths A) : tails s (del [] F) = tails s F.
Proof.
  induction F as [|[[|y q] o] F IH]; [reflexivity| |]; rewrite del_cons; cbn [path_eqb]; rewrite ?tails_cons, IH; reflexivity.
Qed.
Lemma here_del_nil {A} (F : paths A) : here (del [] F) = [].
Proof. induction F as [|[[|y q] o] F IH]; [reflexivity| |]; rewrite del_cons; cbn [path_eqb]; rewrite ?here_cons, IH; reflexivity. Qed.
Lemma here_del_cons {A} x p (F : paths A) : here (del (x :: p) F) = here F.
Proof.
  induction F as [|[[|y q] o] F IH]; [reflexivity| |]; rewrite del_cons; cbn [path_eqb]; rewrite ?here_cons.
  - rewrite IH. reflexivity.
  - destruct (bytes_eqb x y && path_eqb p q); rewrite ?here_cons; assumption.
Qed.
Lemma del_absent {A} p (F : paths A) : ~ In p (map fst F) -> del p F = F.
Proof.
  induction F as [|[q o] F IH]; intros H; [reflexivity|]. cbn [map fst In] in H. unfold del in *. cbn [filter fst].
  destruct (path_eqb p q) eqn:E; [apply path_eqb_spec in E; exfalso; apply H; left; congruence|]. cbn [negb]. rewrite IH by tauto. reflexivity.
Qed.
Lemma del_in {A} p (F : paths A) e : In e (del p F) <-> In e F /\ fst e <> p.
Proof. unfold del. rewrite filter_In, negb_true_iff, path_eqb_false. split; intros [? ?]; split; auto. Qed.
Lemma nodup_del {A} p (F : paths A) : NoDup (map fst F) -> NoDup (map fst (del p F)).
Proof.
  induction F as [|[q o] F IH]; intros H; [constructor|]. inversion H as [|x y Hn Hd]; subst. unfold del in *. cbn [filter fst].
  destruct (path_eqb p q); cbn [negb]; [auto|]. cbn [map fst]. constructor; [|auto]. intros Hi. apply Hn. apply in_map_iff in Hi as (e & <- & Hi).
  apply (del_in p F) in Hi. apply in_map, Hi.
Qed.
Lemma split_path {A} p (F : paths A) : NoDup (map fst F) -> In p (map fst F) -> exists o, In (p, o) F /\ Permutation F ((p, o) :: del p F).
Proof.
  intros Hn Hi. apply in_map_iff in Hi as ([q o] & E & Hi). cbn in E. subst q. exists o. split; [assumption|].
  apply in_split in Hi as (F1 & F2 & ->). rewrite map_app in Hn. cbn [map fst] in Hn. apply NoDup_remove_2 in Hn.
  unfold del. rewrite filter_app. cbn [filter fst]. rewrite (proj2 (path_eqb_spec p p) eq_refl). cbn [negb].
  fold (del p F1). fold (del p F2). rewrite !del_absent by (intros Hi; apply Hn; apply in_or_app; auto).
  apply Permutation_sym, Permutation_middle.
Qed.
Lemma path_nil_in {A} (F : paths A) : In [] (map fst F) <-> here F <> [].
Proof.
  rewrite in_map_iff. split.
  - intros ([q o] & E & Hi). cbn in E. subst. apply in_here in Hi. intros E. rewrite E in Hi. destruct Hi.
  - intros H. destruct (here F) as [|o l] eqn:E; [congruence|]. exists ([], o). split; [reflexivity|]. apply in_here. rewrite E. left. reflexivity.
Qed.
Lemma flat_map_one {A B} (eq : A -> bool) (x : A) (v : list B) (g : A -> list B) keys : NoDup keys -> In x keys -> (forall s, eq s = true <-> s = x) ->
  Permutation (flat_map (fun s => (if eq s then v else []) ++ g s) keys) (v ++ flat_map g keys).
Proof.
  intros Hn Hi He. induction keys as [|k keys IH]; [destruct Hi|]. inversion Hn as [|a b Hk Hd]; subst. cbn [flat_map].
  destruct (eq k) eqn:E.
  - apply He in E. subst k. assert (Hrest : flat_map (fun s => (if eq s then v else []) ++ g s) keys = flat_map g keys).
    { clear -Hk He. induction keys as [|y keys IH]; [reflexivity|]. cbn [flat_map In] in *. destruct (eq y) eqn:Ey; [apply He in Ey; exfalso; apply Hk; auto|].
      rewrite IH by tauto. reflexivity. }
    rewrite Hrest, <- app_assoc. apply Permutation_refl.
  - destruct Hi as [->|Hi]; [exfalso; assert (eq x = true) by (apply He; reflexivity); congruence|]. cbn [app].
    etransitivity; [apply Permutation_app_head, IH; assumption|]. rewrite !app_assoc. apply Permutation_app_tail, Permutation_app_comm.
Qed.
Lemma flat_map_nil {A B} (f : A -> list B) l : (forall x, In x l -> f x = []) -> flat_map f l = [].
Proof. induction l as [|x l IH]; intros H; [reflexivity|]. cbn. rewrite H by (left; reflexivity). apply IH. intros y Hy. apply H. right. assumption. Qed.
Lemma paths_partition {A B} (g : A -> list B) keys (F : paths A) : NoDup keys -> (forall x p o, In (x :: p, o) F -> In x keys) ->
  Permutation (flat_map g (map snd F)) (flat_map g (here F) ++ flat_map (fun s => flat_map g (map snd (tails s F))) keys).
Proof.
  intros Hn. induction F as [|[p o] F IH]; intros H.
  - cbn. rewrite flat_map_nil by reflexivity. constructor.
  - cbn [map snd flat_map]. rewrite here_cons. specialize (IH (fun x q o' Hi => H x q o' (or_intror Hi))). destruct p as [|x p].
    + cbn [flat_map]. rewrite <- app_assoc. apply Permutation_app_head.
      etransitivity; [exact IH|]. apply Permutation_app_head.  apply Permutation_refl.
    + etransitivity; [apply Permutation_app_head; exact IH|].
      rewrite (flat_map_ext (fun s => flat_map g (map snd (tails s ((x :: p, o) :: F)))) (fun s => (if bytes_eqb s x then g o else []) ++ flat_map g (map snd (tails s F)))).
      2:{ intros s. rewrite tails_cons. destruct (bytes_eqb s x); reflexivity. }
      etransitivity; [|apply Permutation_app_head; apply Permutation_sym; apply (flat_map_one (fun s => bytes_eqb s x) x)].
      * rewrite !app_assoc. apply Permutation_app_tail, Permutation_app_comm.
      * assumption.
      * apply (H x p o). left. reflexivity.
      * intros s. apply bytes_eqb_spec.
Qed.
Lemma eq_perm {A} (a b : list A) : a = b -> Permutation a b.
Proof. intros ->. apply Permutation_refl. Qed.
Lemma flat_map_tails {A B} (g : list bytes * A -> list B) s (F : paths A) :
  flat_map (fun e => match fst e with x :: q => if bytes_eqb s x then g (q, snd e) else [] | [] => [] end) F = flat_map g (tails s F).
Proof.
  induction F as [|[[|x q] o] F IH]; [reflexivity| |]; rewrite tails_cons; cbn [flat_map fst snd]; rewrite IH; [reflexivity|].
  destruct (bytes_eqb s x); reflexivity.
Qed.
Lemma flat_map_here {A B} (g : A -> list B) (F : paths A) : flat_map (fun e => match fst e with [] => g (snd e) | _ => [] end) F = flat_map g (here F).
Proof. induction F as [|[[|x q] o] F IH]; [reflexivity| |]; rewrite here_cons; cbn [flat_map fst snd]; rewrite IH; reflexivity. Qed.
Lemma flat_map_split {A B} (a b : A -> list B) l : Permutation (flat_map (fun e => a e ++ b e) l) (flat_map a l ++ flat_map b l).
Proof.
  induction l as [|x l IH]; [constructor|]. cbn [flat_map]. etransitivity; [apply Permutation_app_head; exact IH|].
  rewrite <- !app_assoc. apply Permutation_app_head. rewrite !app_assoc. apply Permutation_app_tail, Permutation_app_comm.
Qed.
Lemma flat_map_ext_in' {A B} (f g : A -> list B) l : (forall x, In x l -> f x = g x) -> flat_map f l = flat_map g l.
Proof. induction l as [|x l IH]; intros H; [reflexivity|]. cbn. rewrite H by (left; reflexivity). rewrite IH; [reflexivity|]. intros y Hy. apply H. right. assumption. Qed.
Lemma bytes_eqb_sym a b : bytes_eqb a b = bytes_eqb b a.
Proof. destruct (bytes_eqb a b) eqn:E, (bytes_eqb b a) eqn:E'; try reflexivity; [apply bytes_eqb_spec in E; apply bytes_eqb_false in E'|apply bytes_eqb_spec in E'; apply bytes_eqb_false in E]; congruence. Qed.
Lemma len_del {A} p (F : paths A) : NoDup (map fst F) -> In p (map fst F) -> len F = len (del p F) + 1.
Proof.
  intros Hn Hi. destruct (split_path p F Hn Hi) as (o & _ & Hp). unfold len. rewrite (Permutation_length Hp). cbn [length]. lia.
Qed.
