(** Histories of the request-response client used in the examples beside its properties. *)
From Verif Require Import Base TopicAlias_Model SubSet_Model RR_Model RR_Spec.

(** the protocol client accepts everything *)
Definition at_ (now : N) : env := mkenv now (fun _ => true) (fun _ => true) (fun _ => true).
Definition limits : config := mkconfig 2 1 10.
(** a request on topic "q", whose answer is expected on topic "r", with the correlation token "5" under the key "t" of a JSON object *)
Definition ask_q : request := mkrequest [[114]] [([114], [116])] [53] [113] [1].
(** ... and one which listens to two topics *)
Definition ask_two : request := mkrequest [[114]; [119]] [([114], [116]); ([119], [116])] [54] [113] [1].
Definition answer (t : bytes) : option json := Some (J_OBJECT (fun k => if bytes_eqb k [116] then Some (J_STRING t) else None)).
(** a request and a stream (on "s/+"), both subscribed *)
Definition both : list (env * event) :=
  [(at_ 1, ERequest ask_q); (at_ 2, ESubmit 1); (at_ 3, EStream [115; 47; 43]); (at_ 4, EActivate 2); (at_ 5, ESubmit 2); (at_ 5, EService); (at_ 6, ESuback [114] true true); (at_ 7, ESuback [115; 47; 43] true true)].
(** the stream is established, a message for it and the answer to the request arrive *)
Definition answered : list (env * event) := both ++
  [(at_ 8, EStatus); (at_ 9, EStatus); (at_ 10, EPuback 1 true); (at_ 11, EMessage [115; 47; 120] [7] None); (at_ 12, EMessage [114] [8] (answer [53])); (at_ 13, EDestroy 1)].
(** a request whose time is up before it is taken from the queue, and then the client is shut down *)
Definition too_late : list (env * event) := [(at_ 1, ERequest ask_q); (at_ 2, ESubmit 1); (at_ (1 + 10 * 1000000000), EService)].
(** ... on a topic which the client is subscribed to already *)
Definition too_late_subscribed : list (env * event) := both ++
  [(at_ 8, ERequest (mkrequest [[114]] [([114], [116])] [57] [113] [1])); (at_ 9, ESubmit 3); (at_ (8 + 10 * 1000000000), EService)].
(** another request on topic "q": its answer is expected on topic "w" with the token "6" *)
Definition ask_w : request := mkrequest [[119]] [([119], [116])] [54] [113] [1].
(** a message arrives on the topic of the second request with the token of the first *)
Definition crossed : list (env * event) :=
  [(at_ 1, ERequest ask_q); (at_ 2, ESubmit 1); (at_ 3, ERequest ask_w); (at_ 4, ESubmit 2); (at_ 5, EService); (at_ 6, ESuback [114] true true); (at_ 7, ESuback [119] true true); (at_ 8, EStatus); (at_ 9, EStatus); (at_ 10, EMessage [119] [8] (answer [53]))].
(** a request on "r" is subscribed; another is submitted, which listens to "r" and to "w", and is subscribed to "w"; nothing is left to be done *)
Definition half_subscribed : list (env * event) :=
  [(at_ 1, ERequest ask_q); (at_ 2, ESubmit 1); (at_ 3, EService); (at_ 4, ESuback [114] true true); (at_ 5, EStatus); (at_ 6, ERequest ask_two); (at_ 7, ESubmit 2); (at_ 8, EService); (at_ 9, ESuback [119] true true); (at_ 10, EStatus)].
(** a request whose time is up *)
Definition unanswered : list (env * event) := [(at_ 1, ERequest ask_q); (at_ 2, ESubmit 1); (at_ 3, EService); (at_ 4, ESuback [114] true true); (at_ 5, EStatus); (at_ 10000000001, EService)].
(** streams on "p/#" and "p/+" *)
Definition two_streams : config := mkconfig 1 2 10.
Definition parent : list (env * event) :=
  [(at_ 1, EStream [112; 47; 35]); (at_ 1, EActivate 1); (at_ 2, ESubmit 1); (at_ 3, EStream [112; 47; 43]); (at_ 3, EActivate 2); (at_ 4, ESubmit 2); (at_ 5, EService); (at_ 6, ESuback [112; 47; 35] true true); (at_ 7, ESuback [112; 47; 43] true true); (at_ 8, EStatus); (at_ 9, EStatus)].
(** a request which listens to two topics is subscribed to one and then to the other *)
Definition two_acks : list (env * event) :=
  [(at_ 1, ERequest ask_two); (at_ 2, ESubmit 1); (at_ 3, EService); (at_ 4, ESuback [114] true true); (at_ 5, EStatus); (at_ 6, ESuback [119] true true); (at_ 7, EStatus)].
(** a second request on "r" when the client is subscribed to it *)
Definition ask_again : request := mkrequest [[114]] [([114], [116])] [57] [113] [1].
Definition already : list (env * event) :=
  [(at_ 1, ERequest ask_q); (at_ 2, ESubmit 1); (at_ 3, EService); (at_ 4, ESuback [114] true true); (at_ 5, EStatus); (at_ 6, ERequest ask_again); (at_ 7, ESubmit 2); (at_ 8, EService)].
(** three requests on "r", the first and the third with the same token: the third waits in the queue *)
Definition same_token : list (env * event) :=
  [(at_ 1, ERequest ask_q); (at_ 2, ESubmit 1); (at_ 3, ERequest ask_again); (at_ 4, ESubmit 2); (at_ 5, ERequest ask_q); (at_ 6, ESubmit 3); (at_ 7, EService); (at_ 8, ESuback [114] true true); (at_ 9, EStatus); (at_ 10, EStatus)].
(** the first has been answered *)
Definition token_free : list (env * event) := same_token ++ [(at_ 11, EPuback 1 true); (at_ 12, EPuback 2 true); (at_ 13, EMessage [114] [8] (answer [53])); (at_ 14, EDestroy 1)].
(** a fourth request is submitted, and so the third one is taken from the queue *)
Definition token_again : list (env * event) := token_free ++ [(at_ 15, ERequest ask_w); (at_ 16, ESubmit 4); (at_ 17, EService)].
