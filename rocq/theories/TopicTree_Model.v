(** Model of source/topic_tree.c: the subscription tree of the MQTT 3.1.1 client, with the strings its cursors point into.
    - Strings live in an explicit heap; freeing a dead string, or reading through a cursor into a dead string, is a fault (None).
    - A hash table of children is an association list keyed by the bytes that were hashed when the entry was made (aws_hash_table caches the hash code).
      Every look-up, insertion or removal reads the stored keys of the table: it faults if one of them is dangling or no longer spells the bytes
      it was filed under (conservative: the C code reads only the keys whose hash code matches, plus the key it is given).
    - The order in which a table is enumerated is given by [iter], any permutation of its keys.
    - A node pointer is the path to the node. Allocation never fails (aws_mem_acquire aborts).
    - Transactions are those client.c makes: several insertions, or one removal; then commit or roll back. *)
From Verif Require Import Base Split TopicAlias_Model SubSet_Model.

(** ** Strings *)
Record heap := mkheap { hp_next : N; hp_live : list (N * bytes) }.
Definition lookup (h : heap) (id : N) : option bytes := option_map snd (find (fun e => fst e =? id) (hp_live h)).
(** aws_string_new_from_string *)
Definition alloc (h : heap) (b : bytes) : heap * N := (mkheap (hp_next h + 1) ((hp_next h, b) :: hp_live h), hp_next h).
(** aws_string_destroy *)
Definition free (h : heap) (id : N) : option heap :=
  match lookup h id with
  | None => None
  | Some _ => Some (mkheap (hp_next h) (filter (fun e => negb (fst e =? id)) (hp_live h)))
  end.
(** struct aws_byte_cursor into a string: string, offset, length *)
Record cursor := mkcur { c_str : N; c_off : N; c_len : N }.
Definition deref (h : heap) (c : cursor) : option bytes :=
  match lookup h (c_str c) with
  | None => None
  | Some b => if c_off c + c_len c <=? len b then Some (firstn (N.to_nat (c_len c)) (skipn (N.to_nat (c_off c)) b)) else None
  end.

(** ** Nodes *)
(** struct aws_mqtt_topic_node (topic_tree.h 32-54), without the table *)
Record tdata := mktd { d_topic : option cursor; d_filter : option N; d_owns : bool; d_cb : option N; d_cl : option N; d_user : N; d_qos : N }.
Inductive tnode := TNode (d : tdata) (cs : list (bytes * tnode)).
Definition tn_data (n : tnode) := let '(TNode d _) := n in d.
Definition tn_children (n : tnode) := let '(TNode _ cs) := n in cs.
(** s_topic_node_new, 119-153 *)
Definition tnode_new (topic : option cursor) (filter : option N) : tnode := TNode (mktd topic filter false None None 0 0) [].
(** aws_mqtt_topic_tree_init, 184-198 *)
Definition tt_init : tnode := tnode_new None None.

(** cleanup is called only if there is user data (166-168, 348-351, 387-392) *)
Definition cleanup_of (d : tdata) : list call := match d_cl d with Some f => if d_user d =? 0 then [] else [(f, d_user d)] | None => [] end.
Definition free_opt (h : heap) (id : option N) : option heap := match id with Some id => free h id | None => Some h end.
(** s_topic_node_destroy, 157-176: children first *)
Fixpoint tn_destroy (h : heap) (n : tnode) : option (heap * list call) :=
  let '(TNode d cs) := n in
  match (fix go (h : heap) (cs : list (bytes * tnode)) : option (heap * list call) :=
           match cs with
           | [] => Some (h, [])
           | (_, c) :: cs =>
             match tn_destroy h c with
             | None => None
             | Some (h, l1) => match go h cs with None => None | Some (h, l2) => Some (h, l1 ++ l2) end
             end
           end) h cs with
  | None => None
  | Some (h, l) =>
    match (if d_owns d then free_opt h (d_filter d) else Some h) with
    | None => None
    | Some h => Some (h, l ++ cleanup_of d)
    end
  end.

(** ** Hash table accesses *)
Definition key_ok (h : heap) (e : bytes * tnode) : bool :=
  match d_topic (tn_data (snd e)) with
  | None => false
  | Some c => match deref h c with Some b => bytes_eqb b (fst e) | None => false end
  end.
Definition keys_ok (h : heap) (cs : list (bytes * tnode)) : bool := forallb (key_ok h) cs.

(** ** Insertion *)
(** What the caller gives: qos, callback, cleanup, userdata (0 is NULL) *)
Record tsub := mkts { ts_qos : N; ts_cb : N; ts_cl : option N; ts_user : N }.
(** struct topic_tree_action for an insertion; [ta_created]: depth of last_found when nodes were created (mode ADD), None for UPDATE.
    The node to update is the one at [ta_path]. *)
Record taction := mkta { ta_path : list bytes; ta_sub : tsub; ta_topic : option cursor; ta_str : option N; ta_created : option nat }.
(** the walk of aws_mqtt_topic_tree_transaction_insert, 560-606; [off]: where the next part starts in the string. The result tells where creation began and
    whether the last node owns its string *)
Fixpoint tt_walk (h : heap) (id off : N) (parts : list bytes) (n : tnode) : option (tnode * option nat * bool) :=
  let '(TNode d cs) := n in
  match parts with
  | [] => Some (n, None, d_owns d)
  | s :: parts =>
    if negb (keys_ok h cs) then None else
    match find_key s cs with
    | Some c =>
      match tt_walk h id (off + len s + 1) parts c with
      | None => None
      | Some (c', cr, ow) => Some (TNode d (put_key s c' cs), option_map S cr, ow)
      end
    | None =>
      match tt_walk h id (off + len s + 1) parts (tnode_new (Some (mkcur id off (len s))) (Some id)) with
      | None => None
      | Some (c', _, ow) => Some (TNode d (put_key s c' cs), Some O, ow)
      end
    end
  end.
(** aws_mqtt_topic_tree_transaction_insert, 518-627 *)
Definition tt_insert (h : heap) (root : tnode) (filter : bytes) (sub : tsub) : option (heap * tnode * taction) :=
  let '(h, id) := alloc h filter in
  let parts := split 47 filter in
  let last_part := last parts [] in
  match tt_walk h id 0 parts root with
  | None => None
  | Some (root, cr, ow) =>
    if ow then match free h id with None => None | Some h => Some (h, root, mkta parts sub None None cr) end
    else Some (h, root, mkta parts sub (Some (mkcur id (len filter - len last_part) (len last_part))) (Some id) cr)
  end.

(** an update through a node pointer *)
Fixpoint at_path (f : tnode -> option (tnode * heap * list call)) (path : list bytes) (n : tnode) : option (tnode * heap * list call) :=
  match path with
  | [] => f n
  | s :: path =>
    let '(TNode d cs) := n in
    match find_key s cs with
    | None => None
    | Some c => match at_path f path c with None => None | Some (c', h, l) => Some (TNode d (put_key s c' cs), h, l) end
    end
  end.
(** s_topic_tree_action_commit, ADD and UPDATE, 336-375 *)
Definition commit_node (h : heap) (a : taction) (n : tnode) : option (tnode * heap * list call) :=
  let '(TNode d cs) := n in
  let out := cleanup_of d in
  let topic := match ta_topic a with Some c => Some c | None => d_topic d end in
  let s := ta_sub a in
  match ta_str a with
  | None => Some (TNode (mktd topic (d_filter d) (d_owns d) (Some (ts_cb s)) (ts_cl s) (ts_user s) (ts_qos s)) cs, h, out)
  | Some id =>
    if d_owns d && (match d_filter d with Some _ => true | None => false end) then
      match free h id with
      | None => None
      | Some h => Some (TNode (mktd topic (d_filter d) (d_owns d) (Some (ts_cb s)) (ts_cl s) (ts_user s) (ts_qos s)) cs, h, out)
      end
    else Some (TNode (mktd topic (Some id) true (Some (ts_cb s)) (ts_cl s) (ts_user s) (ts_qos s)) cs, h, out)
  end.
Definition tt_commit_insert (h : heap) (root : tnode) (a : taction) : option (tnode * heap * list call) := at_path (commit_node h a) (ta_path a) root.

(** s_topic_tree_action_roll_back, 474-512: for ADD the first created node is removed from the table of the last found one and destroyed *)
Definition roll_back_node (h : heap) (s : bytes) (n : tnode) : option (tnode * heap * list call) :=
  let '(TNode d cs) := n in
  if negb (keys_ok h cs) then None else
  match find_key s cs with
  | None => None
  | Some c => match tn_destroy h c with None => None | Some (h, out) => Some (TNode d (remove_key s cs), h, out) end
  end.
Definition tt_roll_back_insert (h : heap) (root : tnode) (a : taction) : option (tnode * heap * list call) :=
  match ta_created a with
  | None => Some (root, h, [])
  | Some k =>
    match at_path (roll_back_node h (nth k (ta_path a) [])) (firstn k (ta_path a)) root with
    | None => None
    | Some (root, h, out) => match free_opt h (ta_str a) with None => None | Some h => Some (root, h, out) end
    end
  end.

(** ** Removal *)
(** the look-ups of aws_mqtt_topic_tree_transaction_remove, 685-709: Some false if a part is not found *)
Fixpoint tt_find (h : heap) (n : tnode) (path : list bytes) : option bool :=
  match path with
  | [] => Some true
  | s :: path =>
    if negb (keys_ok h (tn_children n)) then None else
    match find_key s (tn_children n) with None => Some false | Some c => tt_find h c path end
  end.
(** s_topic_node_string_finder, 303-328: a string other than [old] used in the subtree; enumeration in the order [iter] *)
Fixpoint first_some {A} (l : list (option A)) : option A := match l with [] => None | Some x :: _ => Some x | None :: l => first_some l end.
Fixpoint find_filter (iter : list bytes -> list bytes) (old : option N) (n : tnode) : option N :=
  let '(TNode d cs) := n in
  if match d_filter d, old with Some a, Some b => a =? b | None, None => true | _, _ => false end then
    let found := map (fun e => (fst e, find_filter iter old (snd e))) cs in
    first_some (map (fun k => match find_key k found with Some r => r | None => None end) (iter (map fst cs)))
  else d_filter d.
Definition find_filter_below (iter : list bytes -> list bytes) (old : option N) (cs : list (bytes * tnode)) : option N :=
  first_some (map (fun k => match find_key k cs with Some c => find_filter iter old c | None => None end) (iter (map fst cs))).

(** The state of the upward passes of s_topic_tree_action_commit (REMOVE, 401-466) when they reach a node: nothing left to do; the node goes away;
    or strings are being replaced ([off] topic_offset, [nf] new_topic_filter). [cur]: the removed subscription's node, detached, destroyed last. *)
Inductive climb := CDone (n : tnode) | CGone (n : tnode) | CFix (n : tnode) (off : N) (nf : option N).
Record cstate := mkcst { cs_heap : heap; cs_calls : list call; cs_cur : option tnode }.
Definition same_str (a b : option N) : bool := match a, b with Some a, Some b => a =? b | None, None => true | _, _ => false end.
(** the body of the loop 431-463 *)
Definition fix_node (iter : list bytes -> list bytes) (st : cstate) (n : tnode) (off : N) (nf : option N) : option (cstate * climb) :=
  let '(TNode d cs) := n in
  match cs_cur st, d_topic d with
  | Some (TNode cd ccs), Some topic =>
    let off := off - (c_len topic + 1) in
    if same_str (d_filter d) (d_filter cd) then
      match (match nf with
             | Some f => Some (st, f)
             | None =>
               match find_filter_below iter (d_filter cd) cs with
               | None => None        (* the assertion at 449; without it the freed string would be used *)
               | Some f =>
                 match free_opt (cs_heap st) (d_filter cd) with
                 | None => None
                 | Some h => Some (mkcst h (cs_calls st) (Some (TNode (mktd (d_topic cd) (d_filter cd) false (d_cb cd) (d_cl cd) (d_user cd) (d_qos cd)) ccs)), f)
                 end
               end
             end) with
      | None => None
      | Some (st, f) =>
        Some (st, CFix (TNode (mktd (Some (mkcur f off (c_len topic))) (Some f) (d_owns d) (d_cb d) (d_cl d) (d_user d) (d_qos d)) cs) off (Some f))
      end
    else Some (st, CFix n off nf)
  | _, _ => None
  end.
(** where the offset starts, 427-429: parent->topic.ptr - bytes(parent->topic_filter) + len + 1 *)
Definition start_offset (d : tdata) : option N :=
  match d_topic d, d_filter d with
  | Some c, Some f => if c_str c =? f then Some (c_off c + c_len c + 1) else None   (* otherwise: a difference of pointers into different objects *)
  | _, _ => None
  end.
Definition is_nil {A} (l : list A) : bool := match l with [] => true | _ => false end.
(** the upward passes; [top]: this node is the root, which is neither removed (i > 0) nor fixed *)
Fixpoint tt_climb (iter : list bytes -> list bytes) (h : heap) (top : bool) (n : tnode) (path : list bytes) : option (cstate * climb) :=
  let '(TNode d cs) := n in
  match path with
  | [] =>
    let n' := TNode (mktd (d_topic d) (d_filter d) (d_owns d) None None 0 (d_qos d)) cs in
    if is_nil cs then Some (mkcst h (cleanup_of d) (Some n'), CGone n') else Some (mkcst h (cleanup_of d) None, CDone n')
  | s :: path =>
    match find_key s cs with
    | None => None
    | Some c =>
      match tt_climb iter h false c path with
      | None => None
      | Some (st, CDone c') => Some (st, CDone (TNode d (put_key s c' cs)))
      | Some (st, CFix c' off nf) =>
        let n' := TNode d (put_key s c' cs) in
        if top then Some (st, CDone n') else fix_node iter st n' off nf
      | Some (st, CGone c') =>
        if negb (keys_ok (cs_heap st) (put_key s c' cs)) then None else
        let cs' := remove_key s cs in
        match (if is_nil path then Some st else
               match tn_destroy (cs_heap st) c' with None => None | Some (h, out) => Some (mkcst h (cs_calls st ++ out) (cs_cur st)) end) with
        | None => None
        | Some st =>
          let n' := TNode d cs' in
          if top then Some (st, CDone n')
          else if is_nil cs' && (match d_cb d with None => true | Some _ => false end) then Some (st, CGone n')
          else match start_offset d with None => None | Some off => fix_node iter st n' off None end
        end
      end
    end
  end.
(** aws_mqtt_topic_tree_transaction_remove then commit (644-731, 377-468) *)
Definition tt_remove (iter : list bytes -> list bytes) (h : heap) (root : tnode) (filter : bytes) : option (tnode * heap * list call) :=
  match tt_find h root (split 47 filter) with
  | None => None
  | Some false => Some (root, h, [])
  | Some true =>
    match tt_climb iter h true root (split 47 filter) with
    | Some (st, CDone root) =>
      match cs_cur st with
      | None => Some (root, cs_heap st, cs_calls st)
      | Some c => match tn_destroy (cs_heap st) c with None => None | Some (h, out) => Some (root, h, cs_calls st ++ out) end
      end
    | _ => None
    end
  end.

(** ** Publish: s_topic_tree_publish_do_recurse, 835-891 *)
Definition tn_call (n : tnode) : list call := match d_cb (tn_data n) with Some f => [(f, d_user (tn_data n))] | None => [] end.
Fixpoint tt_publish (h : heap) (n : tnode) (parts : list bytes) : option (list call) :=
  match parts with
  | [] => Some (tn_call n)
  | s :: parts =>
    let cs := tn_children n in
    if negb (keys_ok h cs) then None else
    match (match find_key hash cs with
           | None => Some []
           | Some c => match d_cb (tn_data c) with None => None | Some f => Some [(f, d_user (tn_data c))] end  (* None: call through NULL *)
           end),
          (match find_key plus cs with Some c => tt_publish h c parts | None => Some [] end),
          (match find_key s cs with Some c => tt_publish h c parts | None => Some [] end) with
    | Some a, Some b, Some c => Some (a ++ b ++ c)
    | _, _, _ => None
    end
  end.

(** ** Iteration: aws_mqtt_topic_tree_iterate, 236-278, with an iterator that always continues; reads every subscription's string *)
Fixpoint tt_iterate (h : heap) (n : tnode) : option (list (bytes * N)) :=
  (fix go (cs : list (bytes * tnode)) : option (list (bytes * N)) :=
     match cs with
     | [] => Some []
     | (_, c) :: cs =>
       match (match d_cb (tn_data c) with
              | None => Some []
              | Some _ => match d_filter (tn_data c) with
                          | None => None
                          | Some id => match lookup h id with None => None | Some b => Some [(b, d_qos (tn_data c))] end
                          end
              end), tt_iterate h c, go cs with
       | Some a, Some b, Some d => Some (a ++ b ++ d)
       | _, _, _ => None
       end
     end) (tn_children n).
(** aws_mqtt_topic_tree_get_sub_count, 289-298 (does read no string contents) *)
Fixpoint tt_count (n : tnode) : N :=
  (fix go (cs : list (bytes * tnode)) : N :=
     match cs with
     | [] => 0
     | (_, c) :: cs => (match d_cb (tn_data c) with None => 0 | Some _ => 1 end) + tt_count c + go cs
     end) (tn_children n).
