(** Common definitions: bytes, cursors, bounded output buffers, results.

    Everything here models aws-c-common primitives used by aws-c-mqtt (not part of /repo, trusted
    semantics, see DESIGN.md): aws_byte_cursor_*, aws_byte_buf_*. *)
From Coq Require Export List NArith ZArith Lia Bool.
From Coq Require Export ZifyBool ZifyNat ZifyN.
Export ListNotations.
Open Scope N_scope.
Global Arguments N.add : simpl never.
Global Arguments N.sub : simpl never.
Global Arguments N.mul : simpl never.
Global Arguments N.div : simpl never.
Global Arguments N.modulo : simpl never.
Global Arguments N.pow : simpl never.
Global Arguments N.ltb : simpl never.
Global Arguments N.leb : simpl never.
Global Arguments N.land : simpl never.
Global Arguments N.lor : simpl never.
Global Arguments N.shiftl : simpl never.
Global Arguments N.shiftr : simpl never.
Global Arguments N.of_nat : simpl never.
Global Arguments N.to_nat : simpl never.

(** 2^64: size_t and uint64_t arithmetic wraps here *)
Definition two64 : N := 18446744073709551616.
Notation bytes := (list N).
Definition byte_ok (b : N) : Prop := b < 256.
Definition bytes_ok (l : bytes) : Prop := Forall byte_ok l.

(** Length of a list as an [N] (size_t). *)
Definition len {A} (l : list A) : N := N.of_nat (length l).

(** Error codes that the modelled code distinguishes or returns (include/aws/mqtt/mqtt.h and aws-c-common). *)
Inductive err :=
| E_SHORT_BUFFER
| E_INVALID_REMAINING_LENGTH
| E_INVALID_RESERVED_BITS
| E_BUFFER_TOO_BIG
| E_INVALID_CREDENTIALS
| E_UNSUPPORTED_PROTOCOL_NAME
| E_UNSUPPORTED_PROTOCOL_LEVEL
| E_PROTOCOL_ERROR
| E_INVALID_QOS
| E_INVALID_ARGUMENT
| E_INVALID_STATE
| E_ENCODE_FAILURE
| E_INVALID_TOPIC_ALIAS
| E_NO_TOPIC_ALIAS_RESOLVER
| E_FUEL.      (* not an error of the code: a loop bound of the model was exhausted; proved unreachable *)

Inductive res (A : Type) := Ok (a : A) | Err (e : err).
Arguments Ok {A}. Arguments Err {A}.

Definition bind {A B} (x : res A) (f : A -> res B) : res B :=
  match x with Ok a => f a | Err e => Err e end.
Notation "'do' p <- e1 ; e2" := (bind e1 (fun p => e2)) (at level 200, p pattern, e1 at level 100, e2 at level 200).

(** aws_byte_buf with fixed capacity: bytes written so far and capacity. *)
Record buf := mkbuf { bcap : N; bdata : bytes }.

(** aws_byte_buf_write: all or nothing. *)
Definition bwrite (b : buf) (x : bytes) : res buf :=
  if len (bdata b) + len x <=? bcap b then Ok (mkbuf (bcap b) (bdata b ++ x)) else Err E_SHORT_BUFFER.
(** aws_byte_buf_write_u8 *)
Definition bwrite_u8 (b : buf) (x : N) : res buf := bwrite b [x].
(** big endian 16 bit *)
Definition be16 (n : N) : bytes := [n / 256 mod 256; n mod 256].
Definition be32 (n : N) : bytes := [n / 16777216 mod 256; n / 65536 mod 256; n / 256 mod 256; n mod 256].
(** aws_byte_buf_write_be16 / be32 *)
Definition bwrite_be16 (b : buf) (n : N) : res buf := bwrite b (be16 n).
Definition bwrite_be32 (b : buf) (n : N) : res buf := bwrite b (be32 n).

(** aws_byte_cursor_read_u8 / read_be16 / read_be32: on success returns value and the advanced cursor *)
Definition read_u8 (c : bytes) : option (N * bytes) :=
  match c with b :: r => Some (b, r) | [] => None end.
Definition read_be16 (c : bytes) : option (N * bytes) :=
  match c with a :: b :: r => Some (a * 256 + b, r) | _ => None end.
Definition read_be32 (c : bytes) : option (N * bytes) :=
  match c with a :: b :: d :: e :: r => Some (((a * 256 + b) * 256 + d) * 256 + e, r) | _ => None end.

(** aws_byte_cursor_advance (cur, n): past the end it returns an empty cursor and does not advance. *)
Definition advance (c : bytes) (n : N) : bytes * bytes :=
  if n <=? len c then (firstn (N.to_nat n) c, skipn (N.to_nat n) c) else ([], c).

Definition of_opt {A} (e : err) (o : option A) : res A :=
  match o with Some a => Ok a | None => Err e end.
