(** What the user name with SDK metrics should be, by how a server reads it *)
From Verif Require Import Base Split.

(** a user name is what is before the last question mark, and a query, which is after it *)
Definition named (u base query : bytes) : Prop := (u = base ++ 63 :: query /\ ~ In 63 query) \/ (~ In 63 u /\ base = u /\ query = []).
(** key=value, or key, which has no value *)
Definition is_param (s : bytes) (p : bytes * bytes) : Prop := ~ In 61 (fst p) /\ (s = fst p ++ 61 :: snd p \/ (s = fst p /\ snd p = [])).
(** [l] has the parameters [ps], with the byte [c] between them *)
Definition reads (c : N) (l : bytes) (ps : list (bytes * bytes)) : Prop :=
  exists segments, segments <> [] /\ l = join c segments /\ Forall (fun s => ~ In c s) segments /\ Forall2 is_param (filter (fun s => match s with [] => false | _ => true end) segments) ps.
(** the value of the first parameter with a key *)
Inductive value_of (key : bytes) : list (bytes * bytes) -> option bytes -> Prop :=
| V_none : value_of key [] None
| V_here v l : value_of key ((key, v) :: l) (Some v)
| V_there k v l o : k <> key -> value_of key l o -> value_of key ((k, v) :: l) o.
(** text without the given bytes *)
Definition free_of (special l : bytes) : Prop := forall x, In x special -> ~ In x l.
(** the entries a value of Metadata has: (entry;entry;...) *)
Definition holds (v : option bytes) (entries : list (bytes * bytes)) : Prop :=
  ((v = None \/ v = Some []) /\ entries = []) \/ exists c, v = Some (40 :: c ++ [41]) /\ reads 59 c entries.
