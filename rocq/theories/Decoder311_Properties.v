(** Properties C04 and C05: MQTT 3.1.1 stream decoding. See Decoder311_Spec.v for [consume]. *)
From Verif Require Import Base Vli_Spec Decoder311_Model Decoder311_Spec Decoder311_Proofs.

(** A toy handler table used in the examples: record every PUBLISH-type packet, refuse type 0xF, no handler for type 1. *)
Definition ex_handlers (t : N) : option (bytes -> list bytes -> list bytes * bool) :=
  if t =? 1 then None else Some (fun p h => (h ++ [p], negb (t =? 15))).

(** ** C04 *)
(** Whatever the chunks, the calls do to the handlers' state exactly what reading the whole stream packet by packet does
    ([consume], which does not mention chunks): all calls succeed if the stream is fine so far, otherwise they succeed up to some
    call and fail from there on. *)
Theorem C04_stream_semantics : forall (H : Type) (handlers : N -> option (bytes -> H -> H * bool)) chunks h d' h' rs,
  bytes_ok (concat chunks) -> d311_calls H handlers d311_init chunks h = (d', h', rs) ->
  (rs = repeat R_SUCCESS (length chunks) /\ exists pend, consume H handlers (concat chunks) h h' (Waiting pend)) \/
  ((exists k, (k < length chunks)%nat /\ rs = repeat R_SUCCESS k ++ repeat R_ERROR (length chunks - k)) /\
    consume H handlers (concat chunks) h h' Failed).
Proof. exact stream. Qed.
Print Assumptions C04_stream_semantics.
(** Reading a stream packet by packet is deterministic. *)
Theorem C04_consume_deterministic : forall (H : Type) (handlers : N -> option (bytes -> H -> H * bool)) s h h1 o1,
  consume H handlers s h h1 o1 -> forall h2 o2, consume H handlers s h h2 o2 -> h1 = h2 /\ o1 = o2.
Proof. exact consume_det. Qed.
Print Assumptions C04_consume_deterministic.
(** Two ways to cut the same stream have the same effect on the handlers and the same success/failure outcome. *)
Theorem C04_fragmentation_independent : forall (H : Type) (handlers : N -> option (bytes -> H -> H * bool)) c1 c2 h d1 h1 rs1 d2 h2 rs2,
  bytes_ok (concat c1) -> concat c1 = concat c2 ->
  d311_calls H handlers d311_init c1 h = (d1, h1, rs1) -> d311_calls H handlers d311_init c2 h = (d2, h2, rs2) ->
  h1 = h2 /\ (In R_ERROR rs1 <-> In R_ERROR rs2).
Proof. exact fragmentation. Qed.
Print Assumptions C04_fragmentation_independent.
Example C04_ex : exists d d', d311_calls _ ex_handlers d311_init [[48]; [3; 1]; []; [2; 3; 208; 0; 64]; [2; 0]] [] =
    (d, [[48; 3; 1; 2; 3]; [208; 0]], repeat R_SUCCESS 5) /\
  d311_calls _ ex_handlers d311_init [[48; 3; 1; 2; 3; 208; 0; 64; 2; 0]] [] = (d', [[48; 3; 1; 2; 3]; [208; 0]], [R_SUCCESS]).
Proof. do 2 eexists. split; vm_compute; reflexivity. Qed.
(** the fixed header flags 0x65 (PUBREL with flags 5) are refused on the fast path, yet the packet reaches the handler on both paths *)
Example C04_ex_badflags : exists d d', d311_calls _ ex_handlers d311_init [[101; 0; 240; 0; 48; 0]] [] = (d, [[101; 0]; [240; 0]], [R_ERROR]) /\
  d311_calls _ ex_handlers d311_init [[101]; [0; 240]; [0; 48; 0]] [] = (d', [[101; 0]; [240; 0]], [R_SUCCESS; R_SUCCESS; R_ERROR]).
Proof. do 2 eexists. split; vm_compute; reflexivity. Qed.

(** ** C05 *)
(** No history of data and reconnections trips an assertion ([R_ABORT]) or loops ([R_FUEL]). *)
Theorem C05_never_aborts : forall (H : Type) (handlers : N -> option (bytes -> H -> H * bool)) ops h d' h' rs,
  Forall op_ok ops -> d311_history H handlers d311_init ops h = (d', h', rs) -> Forall (fun r => r = R_SUCCESS \/ r = R_ERROR) rs.
Proof. intros H handlers ops h d' h' rs Ho E. exact (proj2 (history_safe H handlers _ _ _ _ _ _ (init_hist) Ho E)). Qed.
Print Assumptions C05_never_aborts.
(** After a failure, all later calls on this connection fail and the handlers' state stays what it was: nothing is delivered. *)
Theorem C05_errors_final : forall (H : Type) (handlers : N -> option (bytes -> H -> H * bool)) ops c chunks h d1 h1 rs1,
  Forall op_ok ops -> bytes_ok c ->
  d311_history H handlers d311_init (ops ++ [Feed c]) h = (d1, h1, rs1 ++ [R_ERROR]) ->
  exists d2, d311_history H handlers d311_init (ops ++ Feed c :: map Feed chunks) h =
    (d2, h1, rs1 ++ R_ERROR :: repeat R_ERROR (length chunks)).
Proof. exact errors_final. Qed.
Print Assumptions C05_errors_final.
(** A reset makes the decoder behave as a fresh one, whatever it went through. *)
Theorem C05_reset_fresh : forall (H : Type) (handlers : N -> option (bytes -> H -> H * bool)) pre post d h,
  d311_history H handlers d (pre ++ NewConnection :: post) h =
  let '(_, h1, rs1) := d311_history H handlers d pre h in
  let '(d2, h2, rs2) := d311_history H handlers d311_init post h1 in (d2, h2, rs1 ++ rs2).
Proof. exact reset_fresh. Qed.
Print Assumptions C05_reset_fresh.
Example C05_ex : exists d, d311_history _ ex_handlers d311_init [Feed [48; 0; 16]; Feed [0; 48; 0]; Feed [48; 0]; NewConnection; Feed [208; 0]] [] =
  (d, [[48; 0]; [208; 0]], [R_SUCCESS; R_ERROR; R_ERROR; R_SUCCESS]).
Proof. eexists. vm_compute. reflexivity. Qed.
Example C05_ex_malformed : exists d, d311_history _ ex_handlers d311_init [Feed [48; 255]; Feed [255; 255]; Feed [128]; Feed [48; 0]] [] =
  (d, [], [R_SUCCESS; R_SUCCESS; R_ERROR; R_ERROR]).
Proof. eexists. vm_compute. reflexivity. Qed.
