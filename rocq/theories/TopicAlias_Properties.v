(** Properties C19 and C20: topic aliases. *)
From Verif Require Import Base TopicAlias_Model TopicAlias_Spec TopicAlias_Proofs.

(** ** C19 *)
(** Whatever happened before this connection, and whatever PUBLISHes [hist] arrived on it (well-formed or not), a PUBLISH with alias [a] is
    refused unless 1 <= a <= max, delivered with its own topic if it has one, and otherwise with the topic last registered for [a] on this
    connection (refused if there is none). *)
Theorem C19_inbound_alias_exact : forall before s0 max hist topic a,
  let s := fold_left in_step (before ++ IConnect max :: map in_pub hist) s0 in
  snd (in_publish s topic (Some a)) =
    if (1 <=? a) && (a <=? max) then match topic with [] => last_registered a hist | _ => Some topic end else None.
Proof. exact inbound_exact. Qed.
Print Assumptions C19_inbound_alias_exact.
Theorem C19_no_alias_untouched : forall s topic, in_publish s topic None = (s, Some topic).
Proof. exact inbound_no_alias. Qed.
Print Assumptions C19_no_alias_untouched.
Example C19_ex : 
  let s := fold_left in_step [IConnect 3; IPublish [1] (Some 2); IConnect 2; IPublish [5] (Some 1); IPublish [6] (Some 1); IPublish [7] None; IPublish [9] (Some 3)] (in_connect 0) in
  snd (in_publish s [] (Some 1)) = Some [6] /\ snd (in_publish s [] (Some 2)) = None /\ snd (in_publish s [8] (Some 3)) = None /\ snd (in_publish s [8] (Some 2)) = Some [8].
Proof. vm_compute. repeat split; reflexivity. Qed.

(** ** C20 *)
(** In every history of connections and publishes (topics are not empty: options validation, C10), each publish that is put on the wire is
    understood by the server as the topic the user asked for; the resolver never aborts, and refuses a publish only for a
    user-chosen alias outside 1..maximum. *)
Theorem C20_outbound_alias_faithful : forall b es, Forall event_ok es -> Forall (faithful b) (snd (w_run (w_init b) es)).
Proof. exact outbound_faithful. Qed.
Print Assumptions C20_outbound_alias_faithful.
(** one report per publish, in order *)
Theorem C20_reports_cover_publishes : forall es w, map (fun r => (r_topic r, r_alias r)) (snd (w_run w es)) =
  concat (map (fun e => match e with EPublish t a => [(t, a)] | EConnect _ => [] end) es).
Proof. exact reports_order. Qed.
Print Assumptions C20_reports_cover_publishes.
Definition ex_events : list event := [EConnect 2; EPublish [1] None; EPublish [2] None; EPublish [1] None; EPublish [3] None; EPublish [2] None; EPublish [1] (Some 9); EConnect 1; EPublish [2] None].
Example C20_ex_ok : Forall event_ok ex_events.
Proof. repeat constructor; discriminate. Qed.
Example C20_ex_lru : map r_sent (snd (w_run (w_init BLru) ex_events)) =
  [SSent [1] (Some 1); SSent [2] (Some 2); SSent [] (Some 1); SSent [3] (Some 2); SSent [2] (Some 1); SSent [1] (Some 2); SSent [2] (Some 1)].
Proof. vm_compute. reflexivity. Qed.
Example C20_ex_manual : map r_sent (snd (w_run (w_init BManual) [EConnect 2; EPublish [1] (Some 2); EPublish [1] (Some 2); EPublish [3] (Some 2); EPublish [1] (Some 3); EPublish [1] None])) =
  [SSent [1] (Some 2); SSent [] (Some 2); SSent [3] (Some 2); SFailed; SSent [1] None].
Proof. vm_compute. reflexivity. Qed.
