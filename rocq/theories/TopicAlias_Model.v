(** Model of source/v5/mqtt5_topic_alias.c (inbound and outbound topic alias resolvers), with the places where the decoder and the
    encoder call them (source/v5/mqtt5_decoder.c:506-541, source/v5/mqtt5_encoder.c:777-823) and the resets on every successful
    connection (source/v5/mqtt5_client.c:3088-3113). *)
From Verif Require Import Base.

(** aws_array_list_set_at *)
Fixpoint set_at {A} (l : list A) (i : nat) (x : A) : list A :=
  match l, i with [], _ => [] | _ :: l, O => x :: l | y :: l, S i => y :: set_at l i x end.

(** ** Inbound *)
(** topic_aliases: an array of (possibly NULL) strings *)
Definition inbound := list (option bytes).
(** aws_mqtt5_inbound_topic_alias_resolver_reset, mqtt5_topic_alias.c:45-63 *)
Definition in_reset (cache_size : N) : inbound := repeat None (N.to_nat cache_size).
(** ..._resolve_alias, 65-85: None = AWS_ERROR_MQTT5_INVALID_INBOUND_TOPIC_ALIAS *)
Definition in_resolve (r : inbound) (alias : N) : option bytes :=
  if (len r <? alias) || (alias =? 0) then None else
  match nth_error r (N.to_nat (alias - 1)) with Some (Some t) => Some t | _ => None end.
(** ..._register_alias, 87-110 *)
Definition in_register (r : inbound) (alias : N) (topic : bytes) : option inbound :=
  if (len r <? alias) || (alias =? 0) then None else Some (set_at r (N.to_nat (alias - 1)) (Some topic)).
(** the decoder's side. The resolver pointer is NULL when the client announced no maximum (mqtt5_client.c:3098-3102). *)
Record in_state := mkin { in_table : inbound; in_enabled : bool }.
Definition in_connect (max : N) : in_state := mkin (in_reset max) (0 <? max).
(** mqtt5_decoder.c:506-541: the topic handed to the client, or a protocol error *)
Definition in_publish (s : in_state) (topic : bytes) (alias : option N) : in_state * option bytes :=
  match alias with
  | None => (s, Some topic)
  | Some a =>
    if negb (in_enabled s) then (s, None) else
    if a =? 0 then (s, None) else
    if 0 <? len topic then
      match in_register (in_table s) a topic with Some r => (mkin r (in_enabled s), Some topic) | None => (s, None) end
    else (s, in_resolve (in_table s) a)
  end.

(** ** Outbound *)
Inductive behavior := BManual | BLru | BDisabled.
(** An aws_lru_cache from topics to aliases is a list in order of use, the most recently used entry first (aws-c-common, trusted). *)
Definition lru := list (bytes * N).
Fixpoint bytes_eqb (a b : bytes) : bool :=
  match a, b with [], [] => true | x :: a, y :: b => (x =? y) && bytes_eqb a b | _, _ => false end.
Definition key_is (t : bytes) (e : bytes * N) : bool := bytes_eqb t (fst e).
Definition lru_remove (t : bytes) (c : lru) : lru := filter (fun e => negb (key_is t e)) c.
(** aws_cache_find: the value and the cache with the entry promoted *)
Definition lru_find (t : bytes) (c : lru) : option N * lru :=
  match find (key_is t) c with Some e => (Some (snd e), e :: lru_remove t c) | None => (None, c) end.
(** aws_lru_cache_use_lru_element: the least recently used entry, promoted *)
Definition lru_use_last (c : lru) : option (bytes * N) * lru :=
  match rev c with [] => (None, []) | e :: r => (Some e, e :: rev r) end.
(** aws_cache_put: insert as most recently used; drop the least recently used entry when over capacity *)
Definition lru_put (max : N) (t : bytes) (a : N) (c : lru) : lru :=
  let c' := (t, a) :: lru_remove t c in if max <? len c' then removelast c' else c'.

Inductive outbound :=
| ODisabled
| OManual (aliases : list (option bytes))
| OLru (cache : option lru) (max_aliases : N).
(** aws_mqtt5_outbound_topic_alias_resolver_new, 134-150, and the three constructors 235-246, 350-362, 537-548 *)
Definition out_new (b : behavior) : outbound :=
  match b with BManual => OManual [] | BLru => OLru None 0 | BDisabled => ODisabled end.
(** ..._reset: 199-206 (disabled), 283-299 (manual), 427-451 (LRU) *)
Definition out_reset (o : outbound) (max : N) : outbound :=
  match o with
  | ODisabled => ODisabled
  | OManual _ => OManual (repeat None (N.to_nat max))
  | OLru _ _ => OLru (if 0 <? max then Some [] else None) max
  end.
(** outcome of a resolution: alias (0: none) and topic to send; None = AWS_OP_ERR *)
Definition out_resolve (o : outbound) (topic : bytes) (alias : option N) : option (outbound * N * bytes) :=
  match o with
  | ODisabled => (* 208-224 *)
    if len topic =? 0 then None else Some (o, 0, topic)
  | OManual l => (* 301-348 *)
    match alias with
    | None => Some (o, 0, topic)
    | Some a =>
      if a =? 0 then None else
      if len l <=? a - 1 then None else
      let current := match nth_error l (N.to_nat (a - 1)) with Some x => x | None => None end in
      let can_use := match current with Some t => bytes_eqb t topic | None => false end in
      if can_use then Some (o, a, []) else Some (OManual (set_at l (N.to_nat (a - 1)) (Some topic)), a, topic)
    end
  | OLru cache max => (* 453-528 *)
    match cache with
    | None => Some (o, 0, topic)
    | Some c =>
      if max =? 0 then Some (o, 0, topic) else
      let '(found, c) := lru_find topic c in
      match found with
      | Some a => Some (OLru (Some c) max, a, [])
      | None =>
        let '(id, c) :=
          if len c =? max then
            match lru_use_last c with
            | (Some (old, a), c) => (a, lru_remove old c)
            | (None, c) => (0, c)      (* not reachable: the cache holds max > 0 entries *)
            end
          else ((len c + 1) mod 65536, c) in
        Some (OLru (Some (lru_put max topic id c)) max, id, topic)
      end
    end
  end.
(** what begin_publish puts on the wire (mqtt5_encoder.c:785-823): topic and alias property, or a failed resolution, or the
    FATAL_ASSERT at 816 *)
Inductive sent := SAbort | SFailed | SSent (topic : bytes) (alias : option N).
Definition out_publish (o : outbound) (topic : bytes) (alias : option N) : outbound * sent :=
  match out_resolve o topic alias with
  | None => (o, SFailed)
  | Some (o', a, t) =>
    if negb (a =? 0) then (o', SSent t (Some a)) else if len t =? 0 then (o', SAbort) else (o', SSent t None)
  end.
