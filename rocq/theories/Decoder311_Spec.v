(** Specification of MQTT stream framing: a stream is a sequence of packets, each a first byte, a legal remaining length and a body.
    Independent of how the stream is cut and of the decoder. *)
From Verif Require Import Base Vli_Spec.

Definition frame (pkt : bytes) : Prop := exists b rl body, pkt = b :: rl ++ body /\ vli_legal (len body) rl.
(** four continuation bytes: no legal remaining length *)
Definition malformed (s : bytes) : Prop := exists b p q, s = b :: p ++ q /\ len p = 4 /\ Forall (fun x => 128 <= x) p.
(** the beginning of a packet, not yet complete *)
Definition partial_packet (s : bytes) : Prop := ~ malformed s /\ forall pkt rest, s = pkt ++ rest -> ~ frame pkt.

Section Spec.
Variable H : Type.
Variable handlers : N -> option (bytes -> H -> H * bool).
(** dispatch on the packet type in the top four bits *)
Definition dispatch (pkt : bytes) (h : H) : H * bool :=
  match handlers (hd 0 pkt / 16) with Some f => f pkt h | None => (h, false) end.

Inductive outcome := Waiting (pending : bytes) | Failed.
(** [consume s h h' o]: processing the stream [s] hands the complete packets of [s] to the handlers, in order, until one fails or
    the stream is malformed ([Failed]) or only a partial packet is left ([Waiting]). *)
Inductive consume : bytes -> H -> H -> outcome -> Prop :=
| consume_wait s h : partial_packet s -> consume s h h (Waiting s)
| consume_bad s h : malformed s -> consume s h h Failed
| consume_ok pkt rest h h1 h2 o : frame pkt -> dispatch pkt h = (h1, true) -> consume rest h1 h2 o -> consume (pkt ++ rest) h h2 o
| consume_fail pkt rest h h1 : frame pkt -> dispatch pkt h = (h1, false) -> consume (pkt ++ rest) h h1 Failed.
End Spec.
