(** Specification for C18: MQTT topic matching (4.7.1) and a subscription set as a plain list. *)
From Verif Require Import Base Split Topic_Spec SubSet_Model.

(** Level-wise matching: '+' matches any one level; a final '#' matches any number of levels, including the parent level itself.
    (The server-side rule of 4.7.2 about topics starting with '$' is not part of this.) *)
Inductive levels_match : list bytes -> list bytes -> Prop :=
| lm_nil : levels_match [] []
| lm_hash ts : levels_match [[35]] ts
| lm_plus f t ts : levels_match f ts -> levels_match ([43] :: f) (t :: ts)
| lm_same f t ts : levels_match f ts -> levels_match (t :: f) (t :: ts).
Definition topic_matches (filter topic : bytes) : Prop := levels_match (split 47 filter) (split 47 topic).

(** The subscriptions in force: the last one added for each filter and not removed since. *)
Inductive sop := SAdd (o : sopts) | SRemove (f : bytes).
Definition other (f : bytes) (o : sopts) : bool := if list_eq_dec N.eq_dec (so_filter o) f then false else true.
Definition in_force_step (l : list sopts) (op : sop) : list sopts :=
  match op with
  | SAdd o => o :: filter (other (so_filter o)) l
  | SRemove f => filter (other f) l
  end.
Definition in_force (ops : list sop) : list sopts := fold_left in_force_step ops [].

(** Running the model; None is an abort *)
Definition ss_step (st : option (sset * list call)) (op : sop) : option (sset * list call) :=
  match st with
  | None => None
  | Some (s, calls) =>
    match (match op with SAdd o => ss_add s o | SRemove f => ss_remove s f end) with
    | None => None
    | Some (s', c) => Some (s', calls ++ c)
    end
  end.
Definition ss_run (ops : list sop) : option (sset * list call) := fold_left ss_step ops (Some (ss_new, [])).

(** What delivering a message to a subscription invokes, what cleaning it up invokes; subscriptions whose cleanup handler has user data *)
Definition received (o : sopts) : list call := match so_publish o with Some h => [(h, so_user o)] | None => [] end.
Definition cleanup_call (o : sopts) : list call := match so_cleanup o with Some h => [(h, so_user o)] | None => [] end.
Definition added (op : sop) : list call := match op with SAdd o => cleanup_call o | _ => [] end.
Definition good (o : sopts) : Prop := so_cleanup o = None \/ so_user o <> 0.
Definition op_good (op : sop) : Prop := match op with SAdd o => good o | _ => True end.
(** adding aborts unless the filter is valid *)
Definition op_valid (op : sop) : Prop := match op with SAdd o => topic_filter (so_filter o) | _ => True end.
