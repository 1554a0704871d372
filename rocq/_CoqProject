-Q theories Verif
theories/Base.v
theories/BaseLemmas.v
theories/Vli_Spec.v
theories/Vli_Lemmas.v
theories/Fixed311_Model.v
theories/Fixed311_Proofs.v
theories/Packets311_Model.v
theories/Packets311_Spec.v
theories/Packets311_Proofs.v
theories/Connect311_Build.v
theories/Connect311_Proofs.v
theories/Packets311_More.v
theories/Packets311_Properties.v
theories/Decoder311_Model.v
theories/Decoder311_Spec.v
theories/Decoder311_Proofs.v
theories/Decoder311_Properties.v
theories/RateLimiter_Model.v
theories/RateLimiter_Spec.v
theories/RateLimiter_Proofs.v
theories/RateLimiter_Properties.v
theories/Split.v
theories/Topic_Model.v
theories/Topic_Spec.v
theories/Topic_Proofs.v
theories/Topic_Properties.v
theories/TopicAlias_Model.v
theories/TopicAlias_Spec.v
theories/TopicAlias_Proofs.v
theories/TopicAlias_Properties.v
theories/SubSet_Model.v
theories/SubSet_Spec.v
theories/Paths.v
theories/SubSet_Proofs.v
theories/SubSet_Properties.v
theories/TopicTree_Model.v
theories/TopicTree_Spec.v
theories/TopicTree_Func.v
theories/TopicTree_Mem.v
theories/TopicTree_Properties.v
theories/Mqtt5_Views.v
theories/Mqtt5_Spec.v
theories/Mqtt5_Lemmas.v
theories/Encoder5_Model.v
theories/Encoder5_Spec.v
theories/Encoder5_Proofs.v
theories/Validate5_Model.v
theories/Validate5_Spec.v
theories/Validate5_Proofs.v
theories/Encoder5_Properties.v
theories/Validate5_Properties.v
theories/Decoder5_Model.v
theories/Decoder5_Spec.v
theories/Decoder5_Lemmas.v
theories/Decoder5_Packets.v
theories/Decoder5_Proofs.v
theories/Decoder5_Properties.v
theories/Negotiated_Model.v
theories/Client5_State.v
theories/Client5_Model.v
theories/Client5_Spec.v
theories/Client5_Timing_Spec.v
theories/Client5_Steps.v
theories/Client5_Decomp.v
theories/Client5_Forms.v
theories/Client5_Decomp2.v
theories/Client5_Decomp3.v
theories/Client5_Inv0.v
theories/Client5_Flow.v
theories/Client5_Safety.v
theories/Client5_Decomp4.v
theories/Client5_Ops.v
theories/Client5_Crash.v
theories/Client5_Conn.v
theories/Client5_Events.v
theories/Client5_Ids.v
theories/Client5_Timeouts.v
theories/Client5_Stats.v
theories/Client5_Order.v
theories/Client5_Acks.v
theories/Client5_Backoff.v
theories/Client5_Pings.v
theories/Client5_Wakeup.v
theories/Client5_Session_Spec.v
theories/Client5_Session.v
theories/Client5_Examples.v
theories/Client5_Collision.v
theories/Client5_Properties.v
theories/Client5_Stop.v
theories/Client5_Timing_Properties.v
theories/Client5_Session_Properties.v
theories/RR_Model.v
theories/RR_Steps.v
theories/RR_Decomp.v
theories/RR_Subs.v
theories/RR_Flights.v
theories/RR_Kinds.v
theories/RR_Spec.v
theories/RR_Trace.v
theories/RR_OpsTrace.v
theories/RR_Filters.v
theories/RR_All.v
theories/RR_Lives.v
theories/RR_Requests.v
theories/RR_Why.v
theories/RR_Streams.v
theories/RR_Publish.v
theories/RR_Tokens.v
theories/RR_Timeouts.v
theories/RR_Examples.v
theories/RR_Properties.v
theories/RR_Tokens_Properties.v
theories/RR_Order.v
theories/RR_Order_Properties.v
theories/Client311_Model.v
theories/Client311_States.v
theories/Client311_Spec.v
theories/Client311_Requests.v
theories/Client311_Search.v
theories/Client311_Steps.v
theories/Client311_Tree.v
theories/Client311_Phases.v
theories/Client311_Claims.v
theories/Client311_Examples.v
theories/Client311_Properties.v
theories/Client311_Messages.v
theories/Client311_Messages_Properties.v
theories/Metrics_Model.v
theories/Metrics_Spec.v
theories/Metrics_Proofs.v
theories/Metrics_Properties.v
theories/Listeners_Model.v
theories/Listeners_Spec.v
theories/Listeners_Proofs.v
theories/Listeners_Properties.v
theories/Adapter_Model.v
theories/Adapter_Spec.v
theories/Adapter_Proofs.v
theories/Adapter_Properties.v
theories/Bridge_Model.v
theories/Bridge_Spec.v
theories/Bridge_Proofs.v
theories/Bridge_Properties.v
theories/BridgeOps_Model.v
theories/BridgeOps_Spec.v
theories/BridgeOps_Proofs.v
theories/BridgeOps_Properties.v
