(** Property C40: option validation accepts exactly what MQTT 5 and the documented limits of this client allow. *)
From Verif Require Import Base Mqtt5_Views Topic_Spec Validate5_Model Validate5_Spec Validate5_Proofs.

Theorem C40_publish : forall v, validate_publish v = true <-> legal_publish v.
Proof. exact publish_spec. Qed.
Print Assumptions C40_publish.
Theorem C40_connect : forall v, validate_connect v = true <-> legal_connect v.
Proof. exact connect_spec. Qed.
Print Assumptions C40_connect.
Theorem C40_subscribe : forall v, validate_subscribe v = true <-> legal_subscribe v.
Proof. exact subscribe_spec. Qed.
Print Assumptions C40_subscribe.
Theorem C40_unsubscribe : forall v, validate_unsubscribe v = true <-> legal_unsubscribe v.
Proof. exact unsubscribe_spec. Qed.
Print Assumptions C40_unsubscribe.
Theorem C40_disconnect : forall v, validate_disconnect v = true <-> legal_disconnect v.
Proof. exact disconnect_spec. Qed.
Print Assumptions C40_disconnect.

Definition ex_pub (qos : N) (topic : bytes) (up : list user_property) : publish := mkpublish [104; 105] 0 qos false true topic (Some 1) None (Some 3) (Some [114]) None [] None up.
Example C40_ex_publish : validate_publish (ex_pub 1 [97; 47; 98] [([107], [118])]) = true /\ validate_publish (ex_pub 3 [97; 47; 98] []) = false /\
  validate_publish (ex_pub 1 [97; 47; 35] []) = false /\ validate_publish (ex_pub 1 [97] [([192; 128], [])]) = false.
Proof. vm_compute. repeat split; reflexivity. Qed.
(** "$share/g/a" with no local is refused, "a/+" with no local is not *)
Definition ex_share : bytes := [36; 115; 104; 97; 114; 101; 47; 103; 47; 97].
Example C40_ex_subscribe : validate_subscribe (mksubscribe 0 [mksubscription ex_share 1 false false 2; mksubscription [97; 47; 43] 0 true true 0] (Some 5) []) = true /\
  validate_subscribe (mksubscribe 0 [mksubscription ex_share 1 true false 2] None []) = false /\ validate_subscribe (mksubscribe 0 [] None []) = false /\
  validate_subscribe (mksubscribe 0 [mksubscription [97] 2 false false 0] None []) = false.
Proof. vm_compute. repeat split; reflexivity. Qed.
Example C40_ex_connect :
  let c rm w := mkconnect 30 [99] (Some [117]) (Some [255]) true (Some 10) None (Some 1) rm None None (Some 5) w [] None None in
  let w t := Some (mkwill [1; 2] 1 true t None None None None None []) in
  validate_connect (c (Some 100) (w [97])) = true /\ validate_connect (c (Some 0) None) = false /\ validate_connect (c None (w [43])) = false.
Proof. vm_compute. repeat split; reflexivity. Qed.
Example C40_ex_disconnect : validate_disconnect (mkdisconnect 4 (Some 3) (Some [98]) [] None) = true /\ validate_disconnect (mkdisconnect 1 None None [] None) = false.
Proof. vm_compute. repeat split; reflexivity. Qed.
Example C40_ex_unsubscribe : validate_unsubscribe (mkunsubscribe 0 [[97; 47; 35]] []) = true /\ validate_unsubscribe (mkunsubscribe 0 [[97; 35]] []) = false.
Proof. vm_compute. repeat split; reflexivity. Qed.
