(** Specification of MQTT variable byte integers, from the MQTT specifications (3.1.1 section 2.2.3, 5.0 section 1.5.5);
    independent of the code. *)
From Verif Require Import Base.

(** [vli n bs]: the byte string [bs] denotes [n]: little endian groups of 7 bits, the top bit set on all but the last. *)
Inductive vli : N -> bytes -> Prop :=
| vli_last b : b < 128 -> vli b [b]
| vli_more r q bs : r < 128 -> vli q bs -> vli (r + 128 * q) ((r + 128) :: bs).

(** At most four bytes, the limit of both protocol versions. *)
Definition vli_legal (n : N) (bs : bytes) : Prop := vli n bs /\ len bs <= 4.

(** The shortest encoding of [n]. *)
Definition vli_minimal (n : N) (bs : bytes) : Prop :=
  vli n bs /\ forall bs', vli n bs' -> len bs <= len bs'.

(** A string that is the beginning of some legal variable byte integer, but not a complete one *)
Definition vli_incomplete (bs : bytes) : Prop :=
  len bs < 4 /\ Forall (fun b => 128 <= b < 256) bs.
