(** Model of source/mqtt_subscription_set.c: the subscription set used by the 3.1.1-on-5 adapter.
    A topic segment is a byte string; hash tables are association lists (with at most one entry per key); node pointers are the
    tree itself. The order in which a hash table is enumerated is the list order here and is not relied upon by any theorem. *)
From Verif Require Import Base Split Topic_Model TopicAlias_Model.

(** aws_mqtt_subscription_set_subscription_options: on_publish_received and on_cleanup are handler identities (None = NULL);
    user data 0 is NULL. The qos and the weak reference fields play no role in the set. *)
Record sopts := mkso { so_filter : bytes; so_publish : option N; so_cleanup : option N; so_user : N }.

Definition find_key {A} (k : bytes) (l : list (bytes * A)) : option A := option_map snd (find (fun e => bytes_eqb k (fst e)) l).
Definition remove_key {A} (k : bytes) (l : list (bytes * A)) : list (bytes * A) := filter (fun e => negb (bytes_eqb k (fst e))) l.
Definition put_key {A} (k : bytes) (v : A) (l : list (bytes * A)) : list (bytes * A) := (k, v) :: remove_key k l.

(** struct aws_mqtt_subscription_set_topic_tree_node *)
Inductive snode := SNode (ref_count : N) (is_subscription : bool) (on_publish on_cleanup : option N) (user_data : N) (children : list (bytes * snode)).
Definition sn_ref (n : snode) := let '(SNode r _ _ _ _ _) := n in r.
Definition sn_sub (n : snode) := let '(SNode _ s _ _ _ _) := n in s.
Definition sn_publish (n : snode) := let '(SNode _ _ p _ _ _) := n in p.
Definition sn_cleanup (n : snode) := let '(SNode _ _ _ c _ _) := n in c.
Definition sn_user (n : snode) := let '(SNode _ _ _ _ u _) := n in u.
Definition sn_children (n : snode) := let '(SNode _ _ _ _ _ cs) := n in cs.
(** s_aws_mqtt_subscription_set_node_new, 42-62 *)
Definition snode_new : snode := SNode 1 false None None 0 [].
Record sset := mkss { ss_subs : list (bytes * sopts); ss_root : snode }.
(** aws_mqtt_subscription_set_new, 64-82 *)
Definition ss_new : sset := mkss [] snode_new.

(** A handler invocation: identity and user data *)
Definition call := (N * N)%type.
(** s_aws_mqtt_subscription_set_node_destroy_node, 86-97: children first, then on_cleanup - only if the user data is not NULL *)
Fixpoint destroy_node (n : snode) : list call :=
  match n with
  | SNode _ _ _ cl u cs =>
    (fix go (cs : list (bytes * snode)) : list call := match cs with [] => [] | (_, c) :: cs => destroy_node c ++ go cs end) cs ++
    match cl with Some h => if u =? 0 then [] else [(h, u)] | None => [] end
  end.
(** aws_mqtt_subscription_set_destroy, 119-129 *)
Definition ss_destroy (s : sset) : list call := destroy_node (ss_root s).

(** s_aws_mqtt_subscription_set_get_existing_subscription_node, 131-156 *)
Fixpoint get_existing (n : snode) (segs : list bytes) : option snode :=
  match segs with
  | [] => if sn_sub n then Some n else None
  | s :: segs => match find_key s (sn_children n) with None => None | Some c => get_existing c segs end
  end.
(** aws_mqtt_subscription_set_is_subscribed, 158-166 *)
Definition ss_is_subscribed (s : sset) (f : bytes) : bool := match find_key f (ss_subs s) with Some _ => true | None => false end.
(** aws_mqtt_subscription_set_is_in_topic_tree, 168-175 *)
Definition ss_in_tree (s : sset) (f : bytes) : bool := match get_existing (ss_root s) (split 47 f) with Some _ => true | None => false end.

(** Update of the subscription node, 243-252, with the cleanup calls made *)
Definition set_subscription (o : sopts) (n : snode) : snode * list call :=
  let '(SNode r _ _ cl u cs) := n in
  (SNode r true (so_publish o) (so_cleanup o) (so_user o) cs, match cl with Some h => [(h, u)] | None => [] end).
(** apply an update to the existing node at the end of a path (245-252 reached through 235-237) *)
Fixpoint update_path (f : snode -> snode * list call) (n : snode) (segs : list bytes) : snode * list call :=
  match segs with
  | [] => f n
  | s :: segs =>
    let '(SNode r b p cl u cs) := n in
    match find_key s cs with
    | None => (n, [])    (* not reached: the path exists *)
    | Some c => let '(c', out) := update_path f c segs in (SNode r b p cl u (put_key s c' cs), out)
    end
  end.
(** s_aws_mqtt_subscription_set_create_or_reference_topic_filter_path, 186-224: a reference is added to every existing node on the path
    (the caller has done it for [n] itself; new nodes start at 1); then the update of 243-252 at the last node *)
Fixpoint create_path (f : snode -> snode * list call) (n : snode) (segs : list bytes) : snode * list call :=
  match segs with
  | [] => f n
  | s :: segs =>
    let '(SNode r b p cl u cs) := n in
    let child := match find_key s cs with
      | None => snode_new
      | Some (SNode r' b' p' cl' u' cs') => SNode (r' + 1) b' p' cl' u' cs'
      end in
    let '(c', out) := create_path f child segs in (SNode r b p cl u (put_key s c' cs), out)
  end.
(** aws_mqtt_subscription_set_add_subscription, 226-253; None: the FATAL_ASSERT at 230 *)
Definition ss_add (s : sset) (o : sopts) : option (sset * list call) :=
  if negb (is_valid_topic_filter (so_filter o)) then None else
  let subs := put_key (so_filter o) o (remove_key (so_filter o) (ss_subs s)) in
  let segs := split 47 (so_filter o) in
  let '(root, out) :=
    match get_existing (ss_root s) segs with
    | Some _ => update_path (set_subscription o) (ss_root s) segs
    | None => let '(SNode r b p cl u cs) := ss_root s in create_path (set_subscription o) (SNode (r + 1) b p cl u cs) segs
    end in
  Some (mkss subs root, out).

(** the walk of aws_mqtt_subscription_set_remove_subscription, 266-297. The node is dropped by its parent when its count reaches 0. *)
Inductive removed := RNode (n : snode) | RGone | RCrash.
Fixpoint remove_path (n : snode) (segs : list bytes) : removed * list call :=
  let '(SNode r b p cl u cs) := n in
  let r := r - 1 in
  if r =? 0 then (RGone, destroy_node n) else
  match segs with
  | [] => (RNode (SNode r false None None u cs), match cl with Some h => [(h, u)] | None => [] end)
  | s :: segs =>
    match find_key s cs with
    | None => (RCrash, [])      (* NULL dereference at 279 *)
    | Some c =>
      match remove_path c segs with
      | (RNode c', out) => (RNode (SNode r b p cl u (put_key s c' cs)), out)
      | (RGone, out) => (RNode (SNode r b p cl u (remove_key s cs)), out)
      | (RCrash, out) => (RCrash, out)
      end
    end
  end.
(** aws_mqtt_subscription_set_remove_subscription, 255-298; None: a crash (also the destruction of the root) *)
Definition ss_remove (s : sset) (f : bytes) : option (sset * list call) :=
  let subs := remove_key f (ss_subs s) in
  if negb (ss_in_tree s f) then Some (mkss subs (ss_root s), []) else
  match remove_path (ss_root s) (split 47 f) with
  | (RNode root, out) => Some (mkss subs root, out)
  | _ => None
  end.

(** s_invoke_on_publish_received, 336-352 *)
Definition invoke (n : option snode) : list call :=
  match n with
  | Some (SNode _ true (Some h) _ u _) => [(h, u)]
  | _ => []
  end.
(** aws_mqtt_subscription_set_on_publish_received, 354-403. The explicit last-in-first-out stack of continuations is the recursion: the
    continuation pushed last (the literal segment) is handled, with everything it pushes, before the single-level wildcard one. *)
Definition plus : bytes := [43].
Definition hash : bytes := [35].
Fixpoint dispatch (n : snode) (segs : list bytes) : list call :=
  invoke (find_key hash (sn_children n)) ++
  match segs with
  | [] => invoke (Some n)
  | s :: segs =>
    match find_key s (sn_children n) with Some c => dispatch c segs | None => [] end ++
    match find_key plus (sn_children n) with Some c => dispatch c segs | None => [] end
  end.
Definition ss_publish (s : sset) (topic : bytes) : list call := dispatch (ss_root s) (split 47 topic).
(** aws_mqtt_subscription_set_get_subscriptions, 405-429 *)
Definition ss_get (s : sset) : list sopts := map snd (ss_subs s).
