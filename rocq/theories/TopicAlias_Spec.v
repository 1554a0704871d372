(** Specification of topic aliases (MQTT 5, 3.3.2.3.4) for C19 and C20, from the receiver's point of view. *)
From Verif Require Import Base.

(** A receiver remembers, per alias, the last topic it was given. *)
Definition alias_map := N -> option bytes.
Definition no_aliases : alias_map := fun _ => None.
(** Receive one PUBLISH: the new map and the topic the message is about; None is a protocol error (map unchanged). *)
Definition receive (max : N) (m : alias_map) (topic : bytes) (alias : option N) : alias_map * option bytes :=
  match alias, topic with
  | None, [] => (m, None)
  | None, t => (m, Some t)
  | Some a, t =>
    if (1 <=? a) && (a <=? max) then
      match t with
      | [] => (m, m a)
      | t => (fun b => if b =? a then Some t else m b, Some t)
      end
    else (m, None)
  end.
(** The last topic registered for alias [a] in a sequence of received PUBLISHes (topic, alias) *)
Fixpoint last_registered (a : N) (hist : list (bytes * option N)) : option bytes :=
  match hist with
  | [] => None
  | (t, al) :: hist =>
    match last_registered a hist with
    | Some t' => Some t'
    | None => match al, t with Some b, _ :: _ => if b =? a then Some t else None | _, _ => None end
    end
  end.

(** ** The client and its server together (C20) *)
From Verif Require Import TopicAlias_Model.
Inductive event :=
| EConnect (max : N)                               (* new connection; the server announces its topic alias maximum *)
| EPublish (topic : bytes) (alias : option N).     (* the user's publish is encoded *)
Record world := mkworld { w_client : outbound; w_max : N; w_server : alias_map }.
Definition w_init (b : behavior) : world := mkworld (out_new b) 0 no_aliases.
(** For each publish: what the user asked for, the server's alias maximum, what was put on the wire, and what topic the server understands *)
Record report := mkreport { r_topic : bytes; r_alias : option N; r_max : N; r_sent : sent; r_understood : option bytes }.
Definition w_step (w : world) (e : event) : world * list report :=
  match e with
  | EConnect max => (mkworld (out_reset (w_client w) max) max no_aliases, [])
  | EPublish topic alias =>
    let '(c, s) := out_publish (w_client w) topic alias in
    let '(m, u) := match s with SSent t a => receive (w_max w) (w_server w) t a | _ => (w_server w, None) end in
    (mkworld c (w_max w) m, [mkreport topic alias (w_max w) s u])
  end.
Fixpoint w_run (w : world) (es : list event) : world * list report :=
  match es with [] => (w, []) | e :: es => let '(w, r) := w_step w e in let '(w, rs) := w_run w es in (w, r ++ rs) end.
Definition event_ok (e : event) : Prop := match e with EConnect max => max < 65536 | EPublish t _ => t <> [] end.
(** The message reaches the server and is understood as the topic the user asked for; only with user-chosen aliases can a
    publish be refused, exactly when the alias is not in 1..maximum. *)
Definition faithful (b : behavior) (r : report) : Prop :=
  match r_sent r with
  | SAbort => False
  | SFailed => b = BManual /\ exists a, r_alias r = Some a /\ ~ (1 <= a <= r_max r)
  | SSent _ _ => r_understood r = Some (r_topic r)
  end.

(** ** The client as receiver (C19) *)
Inductive in_event :=
| IConnect (max : N)                               (* connected; the client announced [max] *)
| IPublish (topic : bytes) (alias : option N).     (* a PUBLISH arrives *)
Definition in_step (s : in_state) (e : in_event) : in_state :=
  match e with IConnect max => in_connect max | IPublish t a => fst (in_publish s t a) end.
