(** What listeners of a client should get, in terms of the trace (newest first) *)
From Verif Require Import Base Listeners_Model.

(** the references to a listener the user holds *)
Fixpoint held (u : N) (tr : list event) : N :=
  match tr with
  | [] => 0
  | I_NEW v _ :: l => if v =? u then held u l + 1 else held u l
  | I_ACQUIRE v :: l => if v =? u then held u l + 1 else held u l
  | I_RELEASE v :: l => if v =? u then held u l - 1 else held u l
  | _ :: l => held u l
  end.
(** the user acquires and releases only what it holds *)
Definition polite (tr : list event) : Prop := forall later earlier u, tr = later ++ I_ACQUIRE u :: earlier \/ tr = later ++ I_RELEASE u :: earlier -> 0 < held u earlier.
(** the listeners that are in place: initialized, and not terminated since; the newest first *)
Fixpoint attached (tr : list event) : list N :=
  match tr with
  | [] => []
  | T_INIT u :: l => u :: attached l
  | O_TERMINATED u :: l => filter (fun v => negb (v =? u)) (attached l)
  | _ :: l => attached l
  end.
(** a listener was made with handlers for messages, for an event *)
Definition for_publish (tr : list event) (u : N) : Prop := exists h, In (I_NEW u h) tr /\ h_publish h = true.
Definition for_event (tr : list event) (e u : N) : Prop := exists h, In (I_NEW u h) tr /\ h_event h e = true.
(** a message is offered to listeners, one after the other, until one handles it *)
Inductive offered (tr : list event) (m : N) (handles : N -> bool) : list N -> list event -> bool -> Prop :=
| F_end : offered tr m handles [] [] false
| F_skip u l o b : ~ for_publish tr u -> offered tr m handles l o b -> offered tr m handles (u :: l) o b
| F_handled u l : for_publish tr u -> handles u = true -> offered tr m handles (u :: l) [O_PUBLISH u m] true
| F_passed u l o b : for_publish tr u -> handles u = false -> offered tr m handles l o b -> offered tr m handles (u :: l) (O_PUBLISH u m :: o) b.
(** an event is told to all of them *)
Inductive told (tr : list event) (e : N) : list N -> list event -> Prop :=
| D_end : told tr e [] []
| D_skip u l o : ~ for_event tr e u -> told tr e l o -> told tr e (u :: l) o
| D_told u l o : for_event tr e u -> told tr e l o -> told tr e (u :: l) (O_EVENT u e :: o).
