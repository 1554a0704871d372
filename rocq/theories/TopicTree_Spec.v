(** Specification for C16, C17 and C39: the client's subscriptions as a plain list, and what may be asked of the tree. *)
From Coq Require Import Permutation.
From Verif Require Import Base Split Topic_Spec SubSet_Model SubSet_Spec TopicTree_Model.

(** A subscribe request for one or more filters, which is carried out or rolled back; an unsubscribe request. *)
Inductive top := TSubscribe (subs : list (bytes * tsub)) (committed : bool) | TUnsubscribe (f : bytes).

(** The subscriptions in force: the last one committed for each filter and not removed since *)
Definition not_filter (f : bytes) (e : bytes * tsub) : bool := if list_eq_dec N.eq_dec (fst e) f then false else true.
Definition subscribed (l : list (bytes * tsub)) (e : bytes * tsub) : list (bytes * tsub) := e :: filter (not_filter (fst e)) l.
Definition t_in_force_step (l : list (bytes * tsub)) (op : top) : list (bytes * tsub) :=
  match op with
  | TSubscribe subs true => fold_left subscribed subs l
  | TSubscribe _ false => l
  | TUnsubscribe f => filter (not_filter f) l
  end.
Definition t_in_force (ops : list top) : list (bytes * tsub) := fold_left t_in_force_step ops [].

(** ** Running the model. None: a fault. The calls are the invocations of clean-up handlers so far. *)
Definition tstate := (heap * tnode * list call)%type.
Fixpoint tt_inserts (h : heap) (root : tnode) (subs : list (bytes * tsub)) : option (heap * tnode * list taction) :=
  match subs with
  | [] => Some (h, root, [])
  | (f, s) :: subs =>
    match tt_insert h root f s with
    | None => None
    | Some (h, root, a) => match tt_inserts h root subs with None => None | Some (h, root, acts) => Some (h, root, a :: acts) end
    end
  end.
(** aws_mqtt_topic_tree_transaction_commit, 757-768; aws_mqtt_topic_tree_transaction_roll_back, 774-785 (last action first) *)
Fixpoint tt_each (f : heap -> tnode -> taction -> option (tnode * heap * list call)) (h : heap) (root : tnode) (acts : list taction) : option tstate :=
  match acts with
  | [] => Some (h, root, [])
  | a :: acts =>
    match f h root a with
    | None => None
    | Some (root, h, c) => match tt_each f h root acts with None => None | Some (h, root, c') => Some (h, root, c ++ c') end
    end
  end.
Definition tt_op (iter : list bytes -> list bytes) (h : heap) (root : tnode) (op : top) : option tstate :=
  match op with
  | TSubscribe subs committed =>
    match tt_inserts h root subs with
    | None => None
    | Some (h, root, acts) => if committed then tt_each tt_commit_insert h root acts else tt_each tt_roll_back_insert h root (rev acts)
    end
  | TUnsubscribe f => match tt_remove iter h root f with None => None | Some (root, h, c) => Some (h, root, c) end
  end.
Definition tt_step (iter : list bytes -> list bytes) (st : option tstate) (op : top) : option tstate :=
  match st with
  | None => None
  | Some (h, root, calls) => match tt_op iter h root op with None => None | Some (h, root, c) => Some (h, root, calls ++ c) end
  end.
Definition tt_run (iter : list bytes -> list bytes) (ops : list top) : option tstate := fold_left (tt_step iter) ops (Some (mkheap 0 [], tt_init, [])).

(** ** Matching: the MQTT rules, except that 'a/#' does not match 'a' here (see C16_parent_level_refuted) *)
Definition parent_level_only (f t : bytes) : Prop := exists g, split 47 f = g ++ [[35]] /\ levels_match g (split 47 t).
Definition tree_matches (f t : bytes) : Prop := topic_matches f t /\ ~ parent_level_only f t.

Definition op_filters_valid (op : top) : Prop := match op with TSubscribe subs _ => Forall (fun e => topic_filter (fst e)) subs | _ => True end.
Definition t_received (e : bytes * tsub) : list call := [(ts_cb (snd e), ts_user (snd e))].
(** clean-up handlers are invoked only with non-NULL user data *)
Definition t_cleanup (e : bytes * tsub) : list call := match ts_cl (snd e) with Some f => if ts_user (snd e) =? 0 then [] else [(f, ts_user (snd e))] | None => [] end.
Definition t_committed (op : top) : list (bytes * tsub) := match op with TSubscribe subs true => subs | _ => [] end.

(** ** Histories that never unsubscribe a filter above another one in force, nor subscribe twice to one filter in one request *)
Definition strictly_below (f g : bytes) : Prop := exists q, q <> [] /\ split 47 g = split 47 f ++ q.
Definition safe_op (l : list (bytes * tsub)) (op : top) : Prop :=
  match op with
  | TSubscribe subs _ => NoDup (map fst subs)
  | TUnsubscribe f => In f (map fst l) -> forall g, In g (map fst l) -> ~ strictly_below f g
  end.
Fixpoint safe_from (l : list (bytes * tsub)) (ops : list top) : Prop :=
  match ops with [] => True | op :: ops => safe_op l op /\ safe_from (t_in_force_step l op) ops end.
Definition safe_history (ops : list top) : Prop := safe_from [] ops.
Definition all_committed (op : top) : Prop := match op with TSubscribe _ false => False | _ => True end.
(** Any order of enumeration of the hash tables *)
Definition enumeration (iter : list bytes -> list bytes) : Prop := forall l, Permutation (iter l) l.
