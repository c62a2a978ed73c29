(** GENERATED by tools/replay.py from tests/models/bindings (do not edit): the project's own tests as programs of Replay.v. *)
From Verif Require Import PyStr Regex Value Types Classes State Unified Replay.
Local Open Scope string_scope.
Local Notation t := (@pair string (list stmt)).
Definition part0 : list (string * list stmt) := [
t "models/bindings/test_amqp.py::TestAMQPServerBindings.test_amqp_server_bindings_serialization" [SLet 0 (XNew "AMQPServerBindings" (XVal (VDict [])));
  SLet 1 (XDump (XVar 0));
  SAssert (CEq (XVar 1) (XUnurl (XVal (VDict []))))];
t "models/bindings/test_amqp.py::TestAMQPServerBindings.test_amqp_server_bindings_python_validation_error" [SRaises [SDo (XNew "AMQPServerBindings" (XVal (VDict [((u "some_field"), (VStr (u "value")))])))] []];
t "models/bindings/test_amqp.py::TestAMQPServerBindings.test_amqp_server_bindings_yaml_validation_error" [SRaises [SDo (XNew "AMQPServerBindings" (XVal (VDict [((u "some_field"), (VStr (u "value")))])))] []];
t "models/bindings/test_amqp.py::TestAMQPServerBindings.test_amqp_server_bindings_yaml_empty_validation" [SLet 0 (XNew "AMQPServerBindings" (XVal (VDict [])));
  SAssert (CNot (CEq (XVar 0) (XVal VNone)))];
t "models/bindings/test_amqp.py::TestAMQPChannelBindings.test_amqp_channel_bindings_validation/case_channel_binding_routing_key" [SLet 0 (XNew "AMQPChannelBindings" (XVal (VDict [((u "is"), (VStr (u "routingKey"))); ((u "exchange"), (VDict [((u "name"), (VStr (u "myExchange"))); ((u "type"), (VStr (u "topic"))); ((u "durable"), (VBool true)); ((u "autoDelete"), (VBool false)); ((u "vhost"), (VStr (u "/")))])); ((u "bindingVersion"), (VStr (u "0.3.0")))])));
  SAssert (CNot (CEq (XVar 0) (XVal VNone)));
  SAssert (CEq (XAttr (XVar 0) (u "binding_version")) (XVal (VStr (u "0.3.0"))))];
t "models/bindings/test_amqp.py::TestAMQPChannelBindings.test_amqp_channel_bindings_validation/case_channel_binding_queue" [SLet 0 (XNew "AMQPChannelBindings" (XVal (VDict [((u "is"), (VStr (u "queue"))); ((u "queue"), (VDict [((u "name"), (VStr (u "my-queue-name"))); ((u "durable"), (VBool true)); ((u "exclusive"), (VBool true)); ((u "autoDelete"), (VBool false)); ((u "vhost"), (VStr (u "/")))])); ((u "bindingVersion"), (VStr (u "0.3.0")))])));
  SAssert (CNot (CEq (XVar 0) (XVal VNone)));
  SAssert (CEq (XAttr (XVar 0) (u "binding_version")) (XVal (VStr (u "0.3.0"))))];
t "models/bindings/test_amqp.py::TestAMQPChannelBindings.test_amqp_channel_bindings_serialization/case_amqp_channel_binding_serialization_routing_key" [SLet 0 (XNew "AMQPChannelBindings" (XDict [((u "is_"), (XVal (VStr (u "routingKey")))); ((u "exchange"), (XNew "AMQPExchange" (XVal (VDict [((u "name"), (VStr (u "myExchange"))); ((u "type"), (VStr (u "topic"))); ((u "durable"), (VBool true)); ((u "auto_delete"), (VBool false)); ((u "vhost"), (VStr (u "/")))]))))]));
  SLet 1 (XDump (XVar 0));
  SAssert (CEq (XVar 1) (XUnurl (XVal (VDict [((u "is"), (VStr (u "routingKey"))); ((u "exchange"), (VDict [((u "name"), (VStr (u "myExchange"))); ((u "type"), (VStr (u "topic"))); ((u "durable"), (VBool true)); ((u "autoDelete"), (VBool false)); ((u "vhost"), (VStr (u "/")))])); ((u "bindingVersion"), (VStr (u "0.3.0")))]))))];
t "models/bindings/test_amqp.py::TestAMQPChannelBindings.test_amqp_channel_bindings_serialization/case_amqp_channel_binding_serialization_queue" [SLet 0 (XNew "AMQPChannelBindings" (XDict [((u "is_"), (XVal (VStr (u "queue")))); ((u "queue"), (XNew "AMQPQueue" (XVal (VDict [((u "name"), (VStr (u "my-queue-name"))); ((u "durable"), (VBool true)); ((u "exclusive"), (VBool true)); ((u "auto_delete"), (VBool false)); ((u "vhost"), (VStr (u "/")))]))))]));
  SLet 1 (XDump (XVar 0));
  SAssert (CEq (XVar 1) (XUnurl (XVal (VDict [((u "is"), (VStr (u "queue"))); ((u "queue"), (VDict [((u "name"), (VStr (u "my-queue-name"))); ((u "durable"), (VBool true)); ((u "exclusive"), (VBool true)); ((u "autoDelete"), (VBool false)); ((u "vhost"), (VStr (u "/")))])); ((u "bindingVersion"), (VStr (u "0.3.0")))]))))];
t "models/bindings/test_amqp.py::TestAMQPChannelBindings.test_amqp_channel_binding_exchange_validation" [SLet 0 (XNew "AMQPChannelBindings" (XVal (VDict [((u "is"), (VStr (u "routingKey"))); ((u "exchange"), (VDict [((u "name"), (VStr (u "myExchange"))); ((u "type"), (VStr (u "topic"))); ((u "durable"), (VBool true)); ((u "autoDelete"), (VBool false)); ((u "vhost"), (VStr (u "/")))])); ((u "bindingVersion"), (VStr (u "0.3.0")))])));
  SAssert (CNot (CEq (XAttr (XVar 0) (u "exchange")) (XVal VNone)));
  SAssert (CIs (XAttr (XVar 0) (u "exchange")) ["AMQPExchange"]);
  SAssert (CEq (XAttr (XAttr (XVar 0) (u "exchange")) (u "name")) (XVal (VStr (u "myExchange"))));
  SAssert (CEq (XAttr (XAttr (XVar 0) (u "exchange")) (u "type")) (XVal (VStr (u "topic"))));
  SAssert (CEq (XAttr (XAttr (XVar 0) (u "exchange")) (u "durable")) (XVal (VBool true)));
  SAssert (CEq (XAttr (XAttr (XVar 0) (u "exchange")) (u "auto_delete")) (XVal (VBool false)));
  SAssert (CEq (XAttr (XAttr (XVar 0) (u "exchange")) (u "vhost")) (XVal (VStr (u "/"))));
  SAssert (CEq (XAttr (XVar 0) (u "binding_version")) (XVal (VStr (u "0.3.0"))))];
t "models/bindings/test_amqp.py::TestAMQPChannelBindings.test_amqp_channel_binding_queue_validation" [SLet 0 (XNew "AMQPChannelBindings" (XVal (VDict [((u "is"), (VStr (u "queue"))); ((u "queue"), (VDict [((u "name"), (VStr (u "my-queue-name"))); ((u "durable"), (VBool true)); ((u "exclusive"), (VBool true)); ((u "autoDelete"), (VBool false)); ((u "vhost"), (VStr (u "/")))])); ((u "bindingVersion"), (VStr (u "0.3.0")))])));
  SAssert (CNot (CEq (XAttr (XVar 0) (u "queue")) (XVal VNone)));
  SAssert (CIs (XAttr (XVar 0) (u "queue")) ["AMQPQueue"]);
  SAssert (CEq (XAttr (XAttr (XVar 0) (u "queue")) (u "name")) (XVal (VStr (u "my-queue-name"))));
  SAssert (CEq (XAttr (XAttr (XVar 0) (u "queue")) (u "durable")) (XVal (VBool true)));
  SAssert (CEq (XAttr (XAttr (XVar 0) (u "queue")) (u "exclusive")) (XVal (VBool true)));
  SAssert (CEq (XAttr (XAttr (XVar 0) (u "queue")) (u "auto_delete")) (XVal (VBool false)));
  SAssert (CEq (XAttr (XAttr (XVar 0) (u "queue")) (u "vhost")) (XVal (VStr (u "/"))));
  SAssert (CEq (XAttr (XVar 0) (u "binding_version")) (XVal (VStr (u "0.3.0"))))];
t "models/bindings/test_amqp.py::TestAMQPChannelBindings.test_amqp_channel_bindings_python_validation_error" [SRaises [SDo (XNew "AMQPChannelBindings" (XVal (VDict [((u "invalid_field"), (VStr (u "value")))])))] []];
t "models/bindings/test_amqp.py::TestAMQPChannelBindings.test_amqp_channel_bindings_yaml_validation_error" [SRaises [SDo (XNew "AMQPChannelBindings" (XVal (VDict [((u "is"), (VStr (u "routingKey"))); ((u "exchange"), (VDict [((u "name"), (VStr (u "myExchange"))); ((u "type"), (VStr (u "topic")))])); ((u "invalid_field"), (VStr (u "value"))); ((u "bindingVersion"), (VStr (u "0.3.0")))])))] []];
t "models/bindings/test_amqp.py::TestAMQPChannelBindingsValidator.test_amqp_channel_bindings_validator_errors/case_amqp_channel_binding_validator_routing_key_without_exchange" [SRaises [SDo (XNew "AMQPChannelBindings" (XVal (VDict [((u "is"), (VStr (u "routingKey"))); ((u "bindingVersion"), (VStr (u "0.3.0")))])))] [(u "exchange must be provided when is='routingKey'")]];
t "models/bindings/test_amqp.py::TestAMQPChannelBindingsValidator.test_amqp_channel_bindings_validator_errors/case_amqp_channel_binding_validator_routing_key_with_queue" [SRaises [SDo (XNew "AMQPChannelBindings" (XVal (VDict [((u "is"), (VStr (u "routingKey"))); ((u "exchange"), (VDict [((u "name"), (VStr (u "myExchange"))); ((u "type"), (VStr (u "topic")))])); ((u "queue"), (VDict [((u "name"), (VStr (u "myQueue")))])); ((u "bindingVersion"), (VStr (u "0.3.0")))])))] [(u "queue must not be provided when is='routingKey'")]];
t "models/bindings/test_amqp.py::TestAMQPChannelBindingsValidator.test_amqp_channel_bindings_validator_errors/case_amqp_channel_binding_validator_queue_without_queue" [SRaises [SDo (XNew "AMQPChannelBindings" (XVal (VDict [((u "is"), (VStr (u "queue"))); ((u "bindingVersion"), (VStr (u "0.3.0")))])))] [(u "queue must be provided when is='queue'")]];
t "models/bindings/test_amqp.py::TestAMQPChannelBindingsValidator.test_amqp_channel_bindings_validator_errors/case_amqp_channel_binding_validator_queue_with_exchange" [SRaises [SDo (XNew "AMQPChannelBindings" (XVal (VDict [((u "is"), (VStr (u "queue"))); ((u "queue"), (VDict [((u "name"), (VStr (u "myQueue")))])); ((u "exchange"), (VDict [((u "name"), (VStr (u "myExchange"))); ((u "type"), (VStr (u "topic")))])); ((u "bindingVersion"), (VStr (u "0.3.0")))])))] [(u "exchange must not be provided when is='queue'")]];
t "models/bindings/test_amqp.py::TestAMQPOperationBindings.test_amqp_operation_bindings_validation/case_operation_binding_full" [SLet 0 (XNew "AMQPOperationBindings" (XVal (VDict [((u "expiration"), (VInt (100000)%Z)); ((u "userId"), (VStr (u "guest"))); ((u "cc"), (VList [(VStr (u "user.logs"))])); ((u "priority"), (VInt (10)%Z)); ((u "deliveryMode"), (VInt (2)%Z)); ((u "mandatory"), (VBool false)); ((u "bcc"), (VList [(VStr (u "external.audit"))])); ((u "timestamp"), (VBool true)); ((u "ack"), (VBool false)); ((u "bindingVersion"), (VStr (u "0.3.0")))])));
  SAssert (CNot (CEq (XVar 0) (XVal VNone)));
  SAssert (CEq (XAttr (XVar 0) (u "binding_version")) (XVal (VStr (u "0.3.0"))))];
t "models/bindings/test_amqp.py::TestAMQPOperationBindings.test_amqp_operation_binding_expiration_negative_validation_error" [SRaises [SDo (XNew "AMQPOperationBindings" (XVal (VDict [((u "expiration"), (VInt (-100)%Z)); ((u "bindingVersion"), (VStr (u "0.3.0")))])))] [(u "expiration must be greater than or equal to zero")]];
t "models/bindings/test_amqp.py::TestAMQPOperationBindings.test_amqp_operation_bindings_serialization/case_amqp_operation_binding_serialization_empty" [SLet 0 (XNew "AMQPOperationBindings" (XVal (VDict [])));
  SLet 1 (XDump (XVar 0));
  SAssert (CEq (XVar 1) (XUnurl (XVal (VDict [((u "bindingVersion"), (VStr (u "0.3.0")))]))))];
t "models/bindings/test_amqp.py::TestAMQPOperationBindings.test_amqp_operation_bindings_serialization/case_amqp_operation_binding_serialization_full" [SLet 0 (XNew "AMQPOperationBindings" (XVal (VDict [((u "expiration"), (VInt (100000)%Z)); ((u "user_id"), (VStr (u "guest"))); ((u "cc"), (VList [(VStr (u "user.logs"))])); ((u "priority"), (VInt (10)%Z)); ((u "delivery_mode"), (VInt (2)%Z)); ((u "mandatory"), (VBool false)); ((u "bcc"), (VList [(VStr (u "external.audit"))])); ((u "timestamp"), (VBool true)); ((u "ack"), (VBool false))])));
  SLet 1 (XDump (XVar 0));
  SAssert (CEq (XVar 1) (XUnurl (XVal (VDict [((u "expiration"), (VInt (100000)%Z)); ((u "userId"), (VStr (u "guest"))); ((u "cc"), (VList [(VStr (u "user.logs"))])); ((u "priority"), (VInt (10)%Z)); ((u "deliveryMode"), (VInt (2)%Z)); ((u "mandatory"), (VBool false)); ((u "bcc"), (VList [(VStr (u "external.audit"))])); ((u "timestamp"), (VBool true)); ((u "ack"), (VBool false)); ((u "bindingVersion"), (VStr (u "0.3.0")))]))))];
t "models/bindings/test_amqp.py::TestAMQPOperationBindings.test_amqp_operation_binding_all_fields_validation" [SLet 0 (XNew "AMQPOperationBindings" (XVal (VDict [((u "expiration"), (VInt (100000)%Z)); ((u "userId"), (VStr (u "guest"))); ((u "cc"), (VList [(VStr (u "user.logs"))])); ((u "priority"), (VInt (10)%Z)); ((u "deliveryMode"), (VInt (2)%Z)); ((u "mandatory"), (VBool false)); ((u "bcc"), (VList [(VStr (u "external.audit"))])); ((u "timestamp"), (VBool true)); ((u "ack"), (VBool false)); ((u "bindingVersion"), (VStr (u "0.3.0")))])));
  SAssert (CEq (XAttr (XVar 0) (u "expiration")) (XVal (VInt (100000)%Z)));
  SAssert (CEq (XAttr (XVar 0) (u "user_id")) (XVal (VStr (u "guest"))));
  SAssert (CEq (XAttr (XVar 0) (u "cc")) (XVal (VList [(VStr (u "user.logs"))])));
  SAssert (CEq (XAttr (XVar 0) (u "priority")) (XVal (VInt (10)%Z)));
  SAssert (CEq (XAttr (XVar 0) (u "delivery_mode")) (XVal (VInt (2)%Z)));
  SAssert (CEq (XAttr (XVar 0) (u "mandatory")) (XVal (VBool false)));
  SAssert (CEq (XAttr (XVar 0) (u "bcc")) (XVal (VList [(VStr (u "external.audit"))])));
  SAssert (CEq (XAttr (XVar 0) (u "timestamp")) (XVal (VBool true)));
  SAssert (CEq (XAttr (XVar 0) (u "ack")) (XVal (VBool false)));
  SAssert (CEq (XAttr (XVar 0) (u "binding_version")) (XVal (VStr (u "0.3.0"))))];
t "models/bindings/test_amqp.py::TestAMQPOperationBindings.test_amqp_operation_bindings_python_validation_error" [SRaises [SDo (XNew "AMQPOperationBindings" (XVal (VDict [((u "invalid_field"), (VStr (u "value")))])))] []];
t "models/bindings/test_amqp.py::TestAMQPOperationBindings.test_amqp_operation_bindings_yaml_validation_error" [SRaises [SDo (XNew "AMQPOperationBindings" (XVal (VDict [((u "expiration"), (VInt (100000)%Z)); ((u "invalid_field"), (VStr (u "value"))); ((u "bindingVersion"), (VStr (u "0.3.0")))])))] []];
t "models/bindings/test_amqp.py::TestAMQPMessageBindings.test_amqp_message_bindings_validation/case_message_binding_full" [SLet 0 (XNew "AMQPMessageBindings" (XVal (VDict [((u "contentEncoding"), (VStr (u "gzip"))); ((u "messageType"), (VStr (u "user.signup"))); ((u "bindingVersion"), (VStr (u "0.3.0")))])));
  SAssert (CNot (CEq (XVar 0) (XVal VNone)));
  SAssert (CEq (XAttr (XVar 0) (u "binding_version")) (XVal (VStr (u "0.3.0"))))];
t "models/bindings/test_amqp.py::TestAMQPMessageBindings.test_amqp_message_bindings_serialization/case_amqp_message_binding_serialization_empty" [SLet 0 (XNew "AMQPMessageBindings" (XVal (VDict [])));
  SLet 1 (XDump (XVar 0));
  SAssert (CEq (XVar 1) (XUnurl (XVal (VDict [((u "bindingVersion"), (VStr (u "0.3.0")))]))))];
t "models/bindings/test_amqp.py::TestAMQPMessageBindings.test_amqp_message_bindings_serialization/case_amqp_message_binding_serialization_full" [SLet 0 (XNew "AMQPMessageBindings" (XVal (VDict [((u "content_encoding"), (VStr (u "gzip"))); ((u "message_type"), (VStr (u "user.signup")))])));
  SLet 1 (XDump (XVar 0));
  SAssert (CEq (XVar 1) (XUnurl (XVal (VDict [((u "contentEncoding"), (VStr (u "gzip"))); ((u "messageType"), (VStr (u "user.signup"))); ((u "bindingVersion"), (VStr (u "0.3.0")))]))))];
t "models/bindings/test_amqp.py::TestAMQPMessageBindings.test_amqp_message_binding_all_fields_validation" [SLet 0 (XNew "AMQPMessageBindings" (XVal (VDict [((u "contentEncoding"), (VStr (u "gzip"))); ((u "messageType"), (VStr (u "user.signup"))); ((u "bindingVersion"), (VStr (u "0.3.0")))])));
  SAssert (CEq (XAttr (XVar 0) (u "content_encoding")) (XVal (VStr (u "gzip"))));
  SAssert (CEq (XAttr (XVar 0) (u "message_type")) (XVal (VStr (u "user.signup"))));
  SAssert (CEq (XAttr (XVar 0) (u "binding_version")) (XVal (VStr (u "0.3.0"))))];
t "models/bindings/test_amqp.py::TestAMQPMessageBindings.test_amqp_message_bindings_python_validation_error" [SRaises [SDo (XNew "AMQPMessageBindings" (XVal (VDict [((u "invalid_field"), (VStr (u "value")))])))] []];
t "models/bindings/test_amqp.py::TestAMQPMessageBindings.test_amqp_message_bindings_yaml_validation_error" [SRaises [SDo (XNew "AMQPMessageBindings" (XVal (VDict [((u "contentEncoding"), (VStr (u "gzip"))); ((u "invalid_field"), (VStr (u "value"))); ((u "bindingVersion"), (VStr (u "0.3.0")))])))] []];
t "models/bindings/test_amqp1.py::TestAMQP1ServerBindings.test_amqp1_server_bindings_serialization" [SLet 0 (XNew "AMQP1ServerBindings" (XVal (VDict [])));
  SLet 1 (XDump (XVar 0));
  SAssert (CEq (XVar 1) (XUnurl (XVal (VDict []))))];
t "models/bindings/test_amqp1.py::TestAMQP1ServerBindings.test_amqp1_server_bindings_python_validation_error" [SRaises [SDo (XNew "AMQP1ServerBindings" (XVal (VDict [((u "some_field"), (VStr (u "value")))])))] []];
t "models/bindings/test_amqp1.py::TestAMQP1ServerBindings.test_amqp1_server_bindings_yaml_validation_error" [SRaises [SDo (XNew "AMQP1ServerBindings" (XVal (VDict [((u "some_field"), (VStr (u "value")))])))] []];
t "models/bindings/test_amqp1.py::TestAMQP1ServerBindings.test_amqp1_server_bindings_yaml_empty_validation" [SLet 0 (XNew "AMQP1ServerBindings" (XVal (VDict [])));
  SAssert (CNot (CEq (XVar 0) (XVal VNone)))];
t "models/bindings/test_amqp1.py::TestAMQP1ChannelBindings.test_amqp1_channel_bindings_serialization" [SLet 0 (XNew "AMQP1ChannelBindings" (XVal (VDict [])));
  SLet 1 (XDump (XVar 0));
  SAssert (CEq (XVar 1) (XUnurl (XVal (VDict []))))];
t "models/bindings/test_amqp1.py::TestAMQP1ChannelBindings.test_amqp1_channel_bindings_python_validation_error" [SRaises [SDo (XNew "AMQP1ChannelBindings" (XVal (VDict [((u "some_field"), (VStr (u "value")))])))] []];
t "models/bindings/test_amqp1.py::TestAMQP1ChannelBindings.test_amqp1_channel_bindings_yaml_validation_error" [SRaises [SDo (XNew "AMQP1ChannelBindings" (XVal (VDict [((u "some_field"), (VStr (u "value")))])))] []];
t "models/bindings/test_amqp1.py::TestAMQP1ChannelBindings.test_amqp1_channel_bindings_yaml_empty_validation" [SLet 0 (XNew "AMQP1ChannelBindings" (XVal (VDict [])));
  SAssert (CNot (CEq (XVar 0) (XVal VNone)))];
t "models/bindings/test_amqp1.py::TestAMQP1OperationBindings.test_amqp1_operation_bindings_serialization" [SLet 0 (XNew "AMQP1OperationBindings" (XVal (VDict [])));
  SLet 1 (XDump (XVar 0));
  SAssert (CEq (XVar 1) (XUnurl (XVal (VDict []))))];
t "models/bindings/test_amqp1.py::TestAMQP1OperationBindings.test_amqp1_operation_bindings_python_validation_error" [SRaises [SDo (XNew "AMQP1OperationBindings" (XVal (VDict [((u "some_field"), (VStr (u "value")))])))] []];
t "models/bindings/test_amqp1.py::TestAMQP1OperationBindings.test_amqp1_operation_bindings_yaml_validation_error" [SRaises [SDo (XNew "AMQP1OperationBindings" (XVal (VDict [((u "some_field"), (VStr (u "value")))])))] []]].
Definition part1 : list (string * list stmt) := [
t "models/bindings/test_amqp1.py::TestAMQP1OperationBindings.test_amqp1_operation_bindings_yaml_empty_validation" [SLet 0 (XNew "AMQP1OperationBindings" (XVal (VDict [])));
  SAssert (CNot (CEq (XVar 0) (XVal VNone)))];
t "models/bindings/test_amqp1.py::TestAMQP1MessageBindings.test_amqp1_message_bindings_serialization" [SLet 0 (XNew "AMQP1MessageBindings" (XVal (VDict [])));
  SLet 1 (XDump (XVar 0));
  SAssert (CEq (XVar 1) (XUnurl (XVal (VDict []))))];
t "models/bindings/test_amqp1.py::TestAMQP1MessageBindings.test_amqp1_message_bindings_python_validation_error" [SRaises [SDo (XNew "AMQP1MessageBindings" (XVal (VDict [((u "some_field"), (VStr (u "value")))])))] []];
t "models/bindings/test_amqp1.py::TestAMQP1MessageBindings.test_amqp1_message_bindings_yaml_validation_error" [SRaises [SDo (XNew "AMQP1MessageBindings" (XVal (VDict [((u "some_field"), (VStr (u "value")))])))] []];
t "models/bindings/test_amqp1.py::TestAMQP1MessageBindings.test_amqp1_message_bindings_yaml_empty_validation" [SLet 0 (XNew "AMQP1MessageBindings" (XVal (VDict [])));
  SAssert (CNot (CEq (XVar 0) (XVal VNone)))];
t "models/bindings/test_anypointmq.py::TestAnypointMQServerBindings.test_anypointmq_server_bindings_serialization" [SLet 0 (XNew "AnypointMQServerBindings" (XVal (VDict [])));
  SLet 1 (XDump (XVar 0));
  SAssert (CEq (XVar 1) (XUnurl (XVal (VDict []))))];
t "models/bindings/test_anypointmq.py::TestAnypointMQServerBindings.test_anypointmq_server_bindings_python_validation_error" [SRaises [SDo (XNew "AnypointMQServerBindings" (XVal (VDict [((u "some_field"), (VStr (u "value")))])))] []];
t "models/bindings/test_anypointmq.py::TestAnypointMQServerBindings.test_anypointmq_server_bindings_yaml_validation_error" [SRaises [SDo (XNew "AnypointMQServerBindings" (XVal (VDict [((u "some_field"), (VStr (u "value")))])))] []];
t "models/bindings/test_anypointmq.py::TestAnypointMQServerBindings.test_anypointmq_server_bindings_yaml_empty_validation" [SLet 0 (XNew "AnypointMQServerBindings" (XVal (VDict [])));
  SAssert (CNot (CEq (XVar 0) (XVal VNone)))];
t "models/bindings/test_anypointmq.py::TestAnypointMQChannelBindings.test_anypointmq_channel_bindings_validation/case_channel_binding_exchange" [SLet 0 (XNew "AnypointMQChannelBindings" (XVal (VDict [((u "destination"), (VStr (u "user-signup-exchg"))); ((u "destinationType"), (VStr (u "exchange"))); ((u "bindingVersion"), (VStr (u "0.1.0")))])));
  SAssert (CNot (CEq (XVar 0) (XVal VNone)));
  SAssert (CEq (XAttr (XVar 0) (u "binding_version")) (XVal (VStr (u "0.1.0"))))];
t "models/bindings/test_anypointmq.py::TestAnypointMQChannelBindings.test_anypointmq_channel_bindings_validation/case_channel_binding_fifo_queue" [SLet 0 (XNew "AnypointMQChannelBindings" (XVal (VDict [((u "destination"), (VStr (u "user-signup-queue"))); ((u "destinationType"), (VStr (u "fifo-queue"))); ((u "bindingVersion"), (VStr (u "0.1.0")))])));
  SAssert (CNot (CEq (XVar 0) (XVal VNone)));
  SAssert (CEq (XAttr (XVar 0) (u "binding_version")) (XVal (VStr (u "0.1.0"))))];
t "models/bindings/test_anypointmq.py::TestAnypointMQChannelBindings.test_anypointmq_channel_bindings_serialization/case_anypointmq_channel_binding_serialization_empty" [SLet 0 (XNew "AnypointMQChannelBindings" (XVal (VDict [])));
  SLet 1 (XDump (XVar 0));
  SAssert (CEq (XVar 1) (XUnurl (XVal (VDict [((u "destinationType"), (VStr (u "queue"))); ((u "bindingVersion"), (VStr (u "0.1.0")))]))))];
t "models/bindings/test_anypointmq.py::TestAnypointMQChannelBindings.test_anypointmq_channel_bindings_serialization/case_anypointmq_channel_binding_serialization_exchange" [SLet 0 (XNew "AnypointMQChannelBindings" (XVal (VDict [((u "destination"), (VStr (u "user-signup-exchg"))); ((u "destination_type"), (VStr (u "exchange")))])));
  SLet 1 (XDump (XVar 0));
  SAssert (CEq (XVar 1) (XUnurl (XVal (VDict [((u "destination"), (VStr (u "user-signup-exchg"))); ((u "destinationType"), (VStr (u "exchange"))); ((u "bindingVersion"), (VStr (u "0.1.0")))]))))];
t "models/bindings/test_anypointmq.py::TestAnypointMQChannelBindings.test_anypointmq_channel_bindings_serialization/case_anypointmq_channel_binding_serialization_fifo_queue" [SLet 0 (XNew "AnypointMQChannelBindings" (XVal (VDict [((u "destination"), (VStr (u "user-signup-queue"))); ((u "destination_type"), (VStr (u "fifo-queue")))])));
  SLet 1 (XDump (XVar 0));
  SAssert (CEq (XVar 1) (XUnurl (XVal (VDict [((u "destination"), (VStr (u "user-signup-queue"))); ((u "destinationType"), (VStr (u "fifo-queue"))); ((u "bindingVersion"), (VStr (u "0.1.0")))]))))];
t "models/bindings/test_anypointmq.py::TestAnypointMQChannelBindings.test_anypointmq_channel_binding_all_fields_validation" [SLet 0 (XNew "AnypointMQChannelBindings" (XVal (VDict [((u "destination"), (VStr (u "user-signup-queue"))); ((u "destinationType"), (VStr (u "fifo-queue"))); ((u "bindingVersion"), (VStr (u "0.1.0")))])));
  SAssert (CEq (XAttr (XVar 0) (u "destination")) (XVal (VStr (u "user-signup-queue"))));
  SAssert (CEq (XAttr (XVar 0) (u "destination_type")) (XVal (VStr (u "fifo-queue"))));
  SAssert (CEq (XAttr (XVar 0) (u "binding_version")) (XVal (VStr (u "0.1.0"))))];
t "models/bindings/test_anypointmq.py::TestAnypointMQChannelBindings.test_anypointmq_channel_bindings_python_validation_error" [SRaises [SDo (XNew "AnypointMQChannelBindings" (XVal (VDict [((u "some_field"), (VStr (u "value")))])))] []];
t "models/bindings/test_anypointmq.py::TestAnypointMQChannelBindings.test_anypointmq_channel_bindings_yaml_validation_error" [SRaises [SDo (XNew "AnypointMQChannelBindings" (XVal (VDict [((u "some_field"), (VStr (u "value"))); ((u "bindingVersion"), (VStr (u "0.1.0")))])))] []];
t "models/bindings/test_anypointmq.py::TestAnypointMQOperationBindings.test_anypointmq_operation_bindings_serialization" [SLet 0 (XNew "AnypointMQOperationBindings" (XVal (VDict [])));
  SLet 1 (XDump (XVar 0));
  SAssert (CEq (XVar 1) (XUnurl (XVal (VDict []))))];
t "models/bindings/test_anypointmq.py::TestAnypointMQOperationBindings.test_anypointmq_operation_bindings_python_validation_error" [SRaises [SDo (XNew "AnypointMQOperationBindings" (XVal (VDict [((u "some_field"), (VStr (u "value")))])))] []];
t "models/bindings/test_anypointmq.py::TestAnypointMQOperationBindings.test_anypointmq_operation_bindings_yaml_validation_error" [SRaises [SDo (XNew "AnypointMQOperationBindings" (XVal (VDict [((u "some_field"), (VStr (u "value")))])))] []];
t "models/bindings/test_anypointmq.py::TestAnypointMQOperationBindings.test_anypointmq_operation_bindings_yaml_empty_validation" [SLet 0 (XNew "AnypointMQOperationBindings" (XVal (VDict [])));
  SAssert (CNot (CEq (XVar 0) (XVal VNone)))];
t "models/bindings/test_anypointmq.py::TestAnypointMQMessageBindings.test_anypointmq_message_bindings_validation/case_message_binding_with_headers" [SLet 0 (XNew "AnypointMQMessageBindings" (XVal (VDict [((u "headers"), (VDict [((u "type"), (VStr (u "object"))); ((u "properties"), (VDict [((u "messageId"), (VDict [((u "type"), (VStr (u "string")))]))]))])); ((u "bindingVersion"), (VStr (u "0.1.0")))])));
  SAssert (CNot (CEq (XVar 0) (XVal VNone)));
  SAssert (CEq (XAttr (XVar 0) (u "binding_version")) (XVal (VStr (u "0.1.0"))))];
t "models/bindings/test_anypointmq.py::TestAnypointMQMessageBindings.test_anypointmq_message_bindings_serialization/case_anypointmq_message_binding_serialization_empty" [SLet 0 (XNew "AnypointMQMessageBindings" (XVal (VDict [])));
  SLet 1 (XDump (XVar 0));
  SAssert (CEq (XVar 1) (XUnurl (XVal (VDict [((u "bindingVersion"), (VStr (u "0.1.0")))]))))];
t "models/bindings/test_anypointmq.py::TestAnypointMQMessageBindings.test_anypointmq_message_bindings_serialization/case_anypointmq_message_binding_serialization_with_headers" [SLet 0 (XNew "AnypointMQMessageBindings" (XDict [((u "headers"), (XNew "Schema" (XDict [((u "type"), (XVal (VStr (u "object")))); ((u "properties"), (XDict [((u "messageId"), (XNew "Schema" (XVal (VDict [((u "type"), (VStr (u "string")))]))))]))])))]));
  SLet 1 (XDump (XVar 0));
  SAssert (CEq (XVar 1) (XUnurl (XVal (VDict [((u "headers"), (VDict [((u "type"), (VStr (u "object"))); ((u "properties"), (VDict [((u "messageId"), (VDict [((u "type"), (VStr (u "string")))]))]))])); ((u "bindingVersion"), (VStr (u "0.1.0")))]))))];
t "models/bindings/test_anypointmq.py::TestAnypointMQMessageBindings.test_anypointmq_message_binding_headers_schema_validation" [SLet 0 (XNew "AnypointMQMessageBindings" (XVal (VDict [((u "headers"), (VDict [((u "type"), (VStr (u "object"))); ((u "properties"), (VDict [((u "messageId"), (VDict [((u "type"), (VStr (u "string")))]))]))])); ((u "bindingVersion"), (VStr (u "0.1.0")))])));
  SAssert (CNot (CEq (XAttr (XVar 0) (u "headers")) (XVal VNone)));
  SAssert (CIs (XAttr (XVar 0) (u "headers")) ["Schema"]);
  SAssert (CEq (XAttr (XAttr (XVar 0) (u "headers")) (u "type")) (XVal (VStr (u "object"))));
  SAssert (CEq (XAttr (XVar 0) (u "binding_version")) (XVal (VStr (u "0.1.0"))))];
t "models/bindings/test_anypointmq.py::TestAnypointMQMessageBindings.test_anypointmq_message_bindings_python_validation_error" [SRaises [SDo (XNew "AnypointMQMessageBindings" (XVal (VDict [((u "some_field"), (VStr (u "value")))])))] []];
t "models/bindings/test_anypointmq.py::TestAnypointMQMessageBindings.test_anypointmq_message_bindings_yaml_validation_error" [SRaises [SDo (XNew "AnypointMQMessageBindings" (XVal (VDict [((u "some_field"), (VStr (u "value"))); ((u "bindingVersion"), (VStr (u "0.1.0")))])))] []];
t "models/bindings/test_core.py::TestServerBindingsObject.test_server_bindings_validation_multiple_protocols" [SLet 0 (XNew "ServerBindingsObject" (XVal (VDict [((u "mqtt"), (VDict [((u "clientId"), (VStr (u "guest"))); ((u "cleanSession"), (VBool true)); ((u "bindingVersion"), (VStr (u "0.2.0")))])); ((u "kafka"), (VDict [((u "schemaRegistryUrl"), (VStr (u "https://my-schema-registry.com"))); ((u "schemaRegistryVendor"), (VStr (u "confluent"))); ((u "bindingVersion"), (VStr (u "0.5.0")))]))])));
  SAssert (CNot (CEq (XAttr (XVar 0) (u "mqtt")) (XVal VNone)));
  SAssert (CNot (CEq (XAttr (XVar 0) (u "kafka")) (XVal VNone)));
  SAssert (CEq (XAttr (XVar 0) (u "http")) (XVal VNone));
  SAssert (CEq (XAttr (XVar 0) (u "ws")) (XVal VNone));
  SAssert (CIs (XAttr (XVar 0) (u "mqtt")) ["MQTTServerBindings"]);
  SAssert (CEq (XAttr (XAttr (XVar 0) (u "mqtt")) (u "client_id")) (XVal (VStr (u "guest"))));
  SAssert (CEq (XAttr (XAttr (XVar 0) (u "mqtt")) (u "clean_session")) (XVal (VBool true)));
  SAssert (CEq (XAttr (XAttr (XVar 0) (u "mqtt")) (u "binding_version")) (XVal (VStr (u "0.2.0"))));
  SAssert (CIs (XAttr (XVar 0) (u "kafka")) ["KafkaServerBindings"]);
  SAssert (CEq (XAttr (XAttr (XVar 0) (u "kafka")) (u "schema_registry_url")) (XVal (VStr (u "https://my-schema-registry.com"))));
  SAssert (CEq (XAttr (XAttr (XVar 0) (u "kafka")) (u "schema_registry_vendor")) (XVal (VStr (u "confluent"))));
  SAssert (CEq (XAttr (XAttr (XVar 0) (u "kafka")) (u "binding_version")) (XVal (VStr (u "0.5.0"))))];
t "models/bindings/test_core.py::TestServerBindingsObject.test_server_bindings_validation_single_protocol" [SLet 0 (XNew "ServerBindingsObject" (XVal (VDict [((u "mqtt"), (VDict [((u "clientId"), (VStr (u "my-client"))); ((u "cleanSession"), (VBool false)); ((u "bindingVersion"), (VStr (u "0.2.0")))]))])));
  SAssert (CNot (CEq (XAttr (XVar 0) (u "mqtt")) (XVal VNone)));
  SAssert (CEq (XAttr (XVar 0) (u "kafka")) (XVal VNone));
  SAssert (CEq (XAttr (XVar 0) (u "http")) (XVal VNone));
  SAssert (CEq (XAttr (XVar 0) (u "ws")) (XVal VNone));
  SAssert (CIs (XAttr (XVar 0) (u "mqtt")) ["MQTTServerBindings"]);
  SAssert (CEq (XAttr (XAttr (XVar 0) (u "mqtt")) (u "client_id")) (XVal (VStr (u "my-client"))));
  SAssert (CEq (XAttr (XAttr (XVar 0) (u "mqtt")) (u "clean_session")) (XVal (VBool false)));
  SAssert (CEq (XAttr (XAttr (XVar 0) (u "mqtt")) (u "binding_version")) (XVal (VStr (u "0.2.0"))))];
t "models/bindings/test_core.py::TestServerBindingsObject.test_server_bindings_validation_empty" [SLet 0 (XNew "ServerBindingsObject" (XVal (VDict [])));
  SAssert (CEq (XAttr (XVar 0) (u "mqtt")) (XVal VNone));
  SAssert (CEq (XAttr (XVar 0) (u "kafka")) (XVal VNone));
  SAssert (CEq (XAttr (XVar 0) (u "http")) (XVal VNone));
  SAssert (CEq (XAttr (XVar 0) (u "ws")) (XVal VNone));
  SAssert (CEq (XAttr (XVar 0) (u "amqp")) (XVal VNone));
  SAssert (CEq (XAttr (XVar 0) (u "amqp1")) (XVal VNone))];
t "models/bindings/test_core.py::TestServerBindingsObject.test_server_bindings_serialization_multiple_protocols" [SLet 0 (XNew "ServerBindingsObject" (XDict [((u "mqtt"), (XNew "MQTTServerBindings" (XVal (VDict [((u "client_id"), (VStr (u "guest"))); ((u "clean_session"), (VBool true))])))); ((u "kafka"), (XNew "KafkaServerBindings" (XVal (VDict [((u "schema_registry_url"), (VStr (u "https://my-schema-registry.com"))); ((u "schema_registry_vendor"), (VStr (u "confluent")))]))))]));
  SAssert (CEq (XDump (XVar 0)) (XUnurl (XVal (VDict [((u "mqtt"), (VDict [((u "clientId"), (VStr (u "guest"))); ((u "cleanSession"), (VBool true)); ((u "bindingVersion"), (VStr (u "0.2.0")))])); ((u "kafka"), (VDict [((u "schemaRegistryUrl"), (VStr (u "https://my-schema-registry.com"))); ((u "schemaRegistryVendor"), (VStr (u "confluent"))); ((u "bindingVersion"), (VStr (u "0.5.0")))]))]))))];
t "models/bindings/test_core.py::TestServerBindingsObject.test_server_bindings_serialization_empty" [SLet 0 (XNew "ServerBindingsObject" (XVal (VDict [])));
  SAssert (CEq (XDump (XVar 0)) (XUnurl (XVal (VDict []))))];
t "models/bindings/test_core.py::TestChannelBindingsObject.test_channel_bindings_validation_multiple_protocols" [SLet 0 (XNew "ChannelBindingsObject" (XVal (VDict [((u "kafka"), (VDict [((u "topicConfiguration"), (VDict [((u "cleanup.policy"), (VList [(VStr (u "delete")); (VStr (u "compact"))])); ((u "retention.ms"), (VInt (604800000)%Z)); ((u "retention.bytes"), (VInt (1000000000)%Z)); ((u "delete.retention.ms"), (VInt (86400000)%Z)); ((u "max.message.bytes"), (VInt (1048588)%Z))])); ((u "bindingVersion"), (VStr (u "0.5.0")))]))])));
  SAssert (CNot (CEq (XAttr (XVar 0) (u "kafka")) (XVal VNone)));
  SAssert (CEq (XAttr (XVar 0) (u "mqtt")) (XVal VNone));
  SAssert (CEq (XAttr (XVar 0) (u "http")) (XVal VNone));
  SAssert (CEq (XAttr (XVar 0) (u "ws")) (XVal VNone));
  SAssert (CIs (XAttr (XVar 0) (u "kafka")) ["KafkaChannelBindings"]);
  SAssert (CEq (XAttr (XAttr (XAttr (XVar 0) (u "kafka")) (u "topic_configuration")) (u "cleanup_policy")) (XVal (VList [(VStr (u "delete")); (VStr (u "compact"))])));
  SAssert (CEq (XAttr (XAttr (XAttr (XVar 0) (u "kafka")) (u "topic_configuration")) (u "retention_ms")) (XVal (VInt (604800000)%Z)));
  SAssert (CEq (XAttr (XAttr (XAttr (XVar 0) (u "kafka")) (u "topic_configuration")) (u "retention_bytes")) (XVal (VInt (1000000000)%Z)));
  SAssert (CEq (XAttr (XAttr (XAttr (XVar 0) (u "kafka")) (u "topic_configuration")) (u "delete_retention_ms")) (XVal (VInt (86400000)%Z)));
  SAssert (CEq (XAttr (XAttr (XAttr (XVar 0) (u "kafka")) (u "topic_configuration")) (u "max_message_bytes")) (XVal (VInt (1048588)%Z)));
  SAssert (CEq (XAttr (XAttr (XVar 0) (u "kafka")) (u "binding_version")) (XVal (VStr (u "0.5.0"))))];
t "models/bindings/test_core.py::TestChannelBindingsObject.test_channel_bindings_validation_single_protocol" [SLet 0 (XNew "ChannelBindingsObject" (XVal (VDict [((u "kafka"), (VDict [((u "topic"), (VStr (u "my-topic"))); ((u "partitions"), (VInt (3)%Z)); ((u "replicas"), (VInt (2)%Z)); ((u "bindingVersion"), (VStr (u "0.5.0")))]))])));
  SAssert (CNot (CEq (XAttr (XVar 0) (u "kafka")) (XVal VNone)));
  SAssert (CEq (XAttr (XVar 0) (u "mqtt")) (XVal VNone));
  SAssert (CEq (XAttr (XVar 0) (u "http")) (XVal VNone));
  SAssert (CEq (XAttr (XVar 0) (u "ws")) (XVal VNone));
  SAssert (CIs (XAttr (XVar 0) (u "kafka")) ["KafkaChannelBindings"]);
  SAssert (CEq (XAttr (XAttr (XVar 0) (u "kafka")) (u "topic")) (XVal (VStr (u "my-topic"))));
  SAssert (CEq (XAttr (XAttr (XVar 0) (u "kafka")) (u "partitions")) (XVal (VInt (3)%Z)));
  SAssert (CEq (XAttr (XAttr (XVar 0) (u "kafka")) (u "replicas")) (XVal (VInt (2)%Z)));
  SAssert (CEq (XAttr (XAttr (XVar 0) (u "kafka")) (u "binding_version")) (XVal (VStr (u "0.5.0"))))];
t "models/bindings/test_core.py::TestChannelBindingsObject.test_channel_bindings_validation_empty" [SLet 0 (XNew "ChannelBindingsObject" (XVal (VDict [])));
  SAssert (CEq (XAttr (XVar 0) (u "kafka")) (XVal VNone));
  SAssert (CEq (XAttr (XVar 0) (u "mqtt")) (XVal VNone));
  SAssert (CEq (XAttr (XVar 0) (u "http")) (XVal VNone));
  SAssert (CEq (XAttr (XVar 0) (u "ws")) (XVal VNone));
  SAssert (CEq (XAttr (XVar 0) (u "amqp")) (XVal VNone));
  SAssert (CEq (XAttr (XVar 0) (u "amqp1")) (XVal VNone))];
t "models/bindings/test_core.py::TestChannelBindingsObject.test_channel_bindings_serialization_multiple_protocols" [SLet 0 (XNew "ChannelBindingsObject" (XDict [((u "kafka"), (XNew "KafkaChannelBindings" (XVal (VDict [((u "topic_configuration"), (VDict [((u "cleanup.policy"), (VList [(VStr (u "delete")); (VStr (u "compact"))])); ((u "retention.ms"), (VInt (604800000)%Z)); ((u "retention.bytes"), (VInt (1000000000)%Z)); ((u "delete.retention.ms"), (VInt (86400000)%Z)); ((u "max.message.bytes"), (VInt (1048588)%Z))]))])))); ((u "sqs"), (XNew "SQSChannelBindings" (XDict [((u "queue"), (XNew "SQSQueue" (XVal (VDict [((u "name"), (VStr (u "my-queue"))); ((u "fifo_queue"), (VBool true))]))))])))]));
  SAssert (CEq (XDump (XVar 0)) (XUnurl (XVal (VDict [((u "kafka"), (VDict [((u "topicConfiguration"), (VDict [((u "cleanup.policy"), (VList [(VStr (u "delete")); (VStr (u "compact"))])); ((u "retention.ms"), (VInt (604800000)%Z)); ((u "retention.bytes"), (VInt (1000000000)%Z)); ((u "delete.retention.ms"), (VInt (86400000)%Z)); ((u "max.message.bytes"), (VInt (1048588)%Z))])); ((u "bindingVersion"), (VStr (u "0.5.0")))])); ((u "sqs"), (VDict [((u "queue"), (VDict [((u "name"), (VStr (u "my-queue"))); ((u "fifoQueue"), (VBool true))])); ((u "bindingVersion"), (VStr (u "0.3.0")))]))]))))];
t "models/bindings/test_core.py::TestChannelBindingsObject.test_channel_bindings_serialization_empty" [SLet 0 (XNew "ChannelBindingsObject" (XVal (VDict [])));
  SAssert (CEq (XDump (XVar 0)) (XUnurl (XVal (VDict []))))];
t "models/bindings/test_core.py::TestOperationBindingsObject.test_operation_bindings_validation_multiple_protocols" [SLet 0 (XNew "OperationBindingsObject" (XVal (VDict [((u "kafka"), (VDict [((u "groupId"), (VDict [((u "type"), (VStr (u "string"))); ((u "enum"), (VList [(VStr (u "my-app-id"))]))])); ((u "clientId"), (VDict [((u "type"), (VStr (u "string"))); ((u "enum"), (VList [(VStr (u "my-client-id"))]))])); ((u "bindingVersion"), (VStr (u "0.5.0")))])); ((u "mqtt"), (VDict [((u "qos"), (VInt (1)%Z)); ((u "retain"), (VBool false)); ((u "bindingVersion"), (VStr (u "0.2.0")))])); ((u "http"), (VDict [((u "method"), (VStr (u "POST"))); ((u "query"), (VDict [((u "type"), (VStr (u "object"))); ((u "properties"), (VDict [((u "streetlightId"), (VDict [((u "type"), (VStr (u "string")))]))]))])); ((u "bindingVersion"), (VStr (u "0.3.0")))]))])));
  SAssert (CNot (CEq (XAttr (XVar 0) (u "kafka")) (XVal VNone)));
  SAssert (CNot (CEq (XAttr (XVar 0) (u "mqtt")) (XVal VNone)));
  SAssert (CNot (CEq (XAttr (XVar 0) (u "http")) (XVal VNone)));
  SAssert (CEq (XAttr (XVar 0) (u "ws")) (XVal VNone));
  SAssert (CIs (XAttr (XVar 0) (u "kafka")) ["KafkaOperationBindings"]);
  SAssert (CEq (XAttr (XAttr (XVar 0) (u "kafka")) (u "group_id")) (XNew "Schema" (XVal (VDict [((u "type"), (VStr (u "string"))); ((u "enum"), (VList [(VStr (u "my-app-id"))]))]))));
  SAssert (CEq (XAttr (XAttr (XVar 0) (u "kafka")) (u "client_id")) (XNew "Schema" (XVal (VDict [((u "type"), (VStr (u "string"))); ((u "enum"), (VList [(VStr (u "my-client-id"))]))]))));
  SAssert (CEq (XAttr (XAttr (XVar 0) (u "kafka")) (u "binding_version")) (XVal (VStr (u "0.5.0"))));
  SAssert (CIs (XAttr (XVar 0) (u "mqtt")) ["MQTTOperationBindings"]);
  SAssert (CEq (XAttr (XAttr (XVar 0) (u "mqtt")) (u "qos")) (XVal (VInt (1)%Z)));
  SAssert (CEq (XAttr (XAttr (XVar 0) (u "mqtt")) (u "retain")) (XVal (VBool false)));
  SAssert (CEq (XAttr (XAttr (XVar 0) (u "mqtt")) (u "binding_version")) (XVal (VStr (u "0.2.0"))));
  SAssert (CIs (XAttr (XVar 0) (u "http")) ["HTTPOperationBindings"]);
  SAssert (CEq (XAttr (XAttr (XVar 0) (u "http")) (u "method")) (XVal (VStr (u "POST"))));
  SAssert (CEq (XAttr (XAttr (XAttr (XVar 0) (u "http")) (u "query")) (u "type")) (XVal (VStr (u "object"))));
  SAssert (CIn (u "streetlightId") (XAttr (XAttr (XAttr (XVar 0) (u "http")) (u "query")) (u "properties")));
  SAssert (CEq (XItem (XItem (XAttr (XAttr (XAttr (XVar 0) (u "http")) (u "query")) (u "properties")) (u "streetlightId")) (u "type")) (XVal (VStr (u "string"))));
  SAssert (CEq (XAttr (XAttr (XVar 0) (u "http")) (u "binding_version")) (XVal (VStr (u "0.3.0"))))];
t "models/bindings/test_core.py::TestOperationBindingsObject.test_operation_bindings_validation_single_protocol" [SLet 0 (XNew "OperationBindingsObject" (XVal (VDict [((u "mqtt"), (VDict [((u "qos"), (VInt (2)%Z)); ((u "retain"), (VBool true)); ((u "bindingVersion"), (VStr (u "0.2.0")))]))])));
  SAssert (CNot (CEq (XAttr (XVar 0) (u "mqtt")) (XVal VNone)));
  SAssert (CEq (XAttr (XVar 0) (u "kafka")) (XVal VNone));
  SAssert (CEq (XAttr (XVar 0) (u "http")) (XVal VNone));
  SAssert (CEq (XAttr (XVar 0) (u "ws")) (XVal VNone));
  SAssert (CIs (XAttr (XVar 0) (u "mqtt")) ["MQTTOperationBindings"]);
  SAssert (CEq (XAttr (XAttr (XVar 0) (u "mqtt")) (u "qos")) (XVal (VInt (2)%Z)));
  SAssert (CEq (XAttr (XAttr (XVar 0) (u "mqtt")) (u "retain")) (XVal (VBool true)));
  SAssert (CEq (XAttr (XAttr (XVar 0) (u "mqtt")) (u "binding_version")) (XVal (VStr (u "0.2.0"))))];
t "models/bindings/test_core.py::TestOperationBindingsObject.test_operation_bindings_validation_empty" [SLet 0 (XNew "OperationBindingsObject" (XVal (VDict [])));
  SAssert (CEq (XAttr (XVar 0) (u "kafka")) (XVal VNone));
  SAssert (CEq (XAttr (XVar 0) (u "mqtt")) (XVal VNone));
  SAssert (CEq (XAttr (XVar 0) (u "http")) (XVal VNone));
  SAssert (CEq (XAttr (XVar 0) (u "ws")) (XVal VNone));
  SAssert (CEq (XAttr (XVar 0) (u "amqp")) (XVal VNone));
  SAssert (CEq (XAttr (XVar 0) (u "amqp1")) (XVal VNone))]].
Definition part2 : list (string * list stmt) := [
t "models/bindings/test_core.py::TestOperationBindingsObject.test_operation_bindings_serialization_multiple_protocols" [SLet 0 (XNew "OperationBindingsObject" (XDict [((u "kafka"), (XNew "KafkaOperationBindings" (XDict [((u "group_id"), (XNew "Schema" (XVal (VDict [((u "type"), (VStr (u "string"))); ((u "enum"), (VList [(VStr (u "my-app-id"))]))])))); ((u "client_id"), (XNew "Schema" (XVal (VDict [((u "type"), (VStr (u "string"))); ((u "enum"), (VList [(VStr (u "my-client-id"))]))]))))]))); ((u "mqtt"), (XNew "MQTTOperationBindings" (XVal (VDict [((u "qos"), (VInt (1)%Z)); ((u "retain"), (VBool false))])))); ((u "http"), (XNew "HTTPOperationBindings" (XDict [((u "method"), (XVal (VStr (u "POST")))); ((u "query"), (XNew "Schema" (XDict [((u "type"), (XVal (VStr (u "object")))); ((u "properties"), (XDict [((u "streetlightId"), (XNew "Schema" (XVal (VDict [((u "type"), (VStr (u "string")))]))))]))])))])))]));
  SAssert (CEq (XDump (XVar 0)) (XUnurl (XVal (VDict [((u "kafka"), (VDict [((u "groupId"), (VDict [((u "type"), (VStr (u "string"))); ((u "enum"), (VList [(VStr (u "my-app-id"))]))])); ((u "clientId"), (VDict [((u "type"), (VStr (u "string"))); ((u "enum"), (VList [(VStr (u "my-client-id"))]))])); ((u "bindingVersion"), (VStr (u "0.5.0")))])); ((u "mqtt"), (VDict [((u "qos"), (VInt (1)%Z)); ((u "retain"), (VBool false)); ((u "bindingVersion"), (VStr (u "0.2.0")))])); ((u "http"), (VDict [((u "method"), (VStr (u "POST"))); ((u "query"), (VDict [((u "type"), (VStr (u "object"))); ((u "properties"), (VDict [((u "streetlightId"), (VDict [((u "type"), (VStr (u "string")))]))]))])); ((u "bindingVersion"), (VStr (u "0.3.0")))]))]))))];
t "models/bindings/test_core.py::TestOperationBindingsObject.test_operation_bindings_serialization_empty" [SLet 0 (XNew "OperationBindingsObject" (XVal (VDict [])));
  SAssert (CEq (XDump (XVar 0)) (XUnurl (XVal (VDict []))))];
t "models/bindings/test_core.py::TestMessageBindingsObject.test_message_bindings_validation_multiple_protocols" [SLet 0 (XNew "MessageBindingsObject" (XVal (VDict [((u "kafka"), (VDict [((u "key"), (VDict [((u "type"), (VStr (u "string"))); ((u "enum"), (VList [(VStr (u "my-key"))]))])); ((u "bindingVersion"), (VStr (u "0.5.0")))])); ((u "mqtt"), (VDict [((u "payloadFormatIndicator"), (VInt (1)%Z)); ((u "contentType"), (VStr (u "application/json"))); ((u "bindingVersion"), (VStr (u "0.2.0")))]))])));
  SAssert (CNot (CEq (XAttr (XVar 0) (u "kafka")) (XVal VNone)));
  SAssert (CNot (CEq (XAttr (XVar 0) (u "mqtt")) (XVal VNone)));
  SAssert (CEq (XAttr (XVar 0) (u "http")) (XVal VNone));
  SAssert (CEq (XAttr (XVar 0) (u "ws")) (XVal VNone));
  SAssert (CIs (XAttr (XVar 0) (u "kafka")) ["KafkaMessageBindings"]);
  SAssert (CEq (XAttr (XAttr (XVar 0) (u "kafka")) (u "key")) (XNew "Schema" (XVal (VDict [((u "type"), (VStr (u "string"))); ((u "enum"), (VList [(VStr (u "my-key"))]))]))));
  SAssert (CEq (XAttr (XAttr (XVar 0) (u "kafka")) (u "binding_version")) (XVal (VStr (u "0.5.0"))));
  SAssert (CIs (XAttr (XVar 0) (u "mqtt")) ["MQTTMessageBindings"]);
  SAssert (CEq (XAttr (XAttr (XVar 0) (u "mqtt")) (u "payload_format_indicator")) (XVal (VInt (1)%Z)));
  SAssert (CEq (XAttr (XAttr (XVar 0) (u "mqtt")) (u "content_type")) (XVal (VStr (u "application/json"))));
  SAssert (CEq (XAttr (XAttr (XVar 0) (u "mqtt")) (u "binding_version")) (XVal (VStr (u "0.2.0"))))];
t "models/bindings/test_core.py::TestMessageBindingsObject.test_message_bindings_validation_single_protocol" [SLet 0 (XNew "MessageBindingsObject" (XVal (VDict [((u "http"), (VDict [((u "headers"), (VDict [((u "type"), (VStr (u "object"))); ((u "properties"), (VDict [((u "Content-Type"), (VDict [((u "type"), (VStr (u "string"))); ((u "enum"), (VList [(VStr (u "application/json"))]))]))]))])); ((u "bindingVersion"), (VStr (u "0.3.0")))]))])));
  SAssert (CNot (CEq (XAttr (XVar 0) (u "http")) (XVal VNone)));
  SAssert (CEq (XAttr (XVar 0) (u "kafka")) (XVal VNone));
  SAssert (CEq (XAttr (XVar 0) (u "mqtt")) (XVal VNone));
  SAssert (CEq (XAttr (XVar 0) (u "ws")) (XVal VNone));
  SAssert (CIs (XAttr (XVar 0) (u "http")) ["HTTPMessageBindings"]);
  SAssert (CEq (XAttr (XAttr (XAttr (XVar 0) (u "http")) (u "headers")) (u "type")) (XVal (VStr (u "object"))));
  SAssert (CIn (u "Content-Type") (XAttr (XAttr (XAttr (XVar 0) (u "http")) (u "headers")) (u "properties")));
  SAssert (CEq (XItem (XItem (XAttr (XAttr (XAttr (XVar 0) (u "http")) (u "headers")) (u "properties")) (u "Content-Type")) (u "type")) (XVal (VStr (u "string"))));
  SAssert (CEq (XItem (XItem (XAttr (XAttr (XAttr (XVar 0) (u "http")) (u "headers")) (u "properties")) (u "Content-Type")) (u "enum")) (XVal (VList [(VStr (u "application/json"))])));
  SAssert (CEq (XAttr (XAttr (XVar 0) (u "http")) (u "binding_version")) (XVal (VStr (u "0.3.0"))))];
t "models/bindings/test_core.py::TestMessageBindingsObject.test_message_bindings_validation_empty" [SLet 0 (XNew "MessageBindingsObject" (XVal (VDict [])));
  SAssert (CEq (XAttr (XVar 0) (u "kafka")) (XVal VNone));
  SAssert (CEq (XAttr (XVar 0) (u "mqtt")) (XVal VNone));
  SAssert (CEq (XAttr (XVar 0) (u "http")) (XVal VNone));
  SAssert (CEq (XAttr (XVar 0) (u "ws")) (XVal VNone));
  SAssert (CEq (XAttr (XVar 0) (u "amqp")) (XVal VNone));
  SAssert (CEq (XAttr (XVar 0) (u "amqp1")) (XVal VNone))];
t "models/bindings/test_core.py::TestMessageBindingsObject.test_message_bindings_serialization_multiple_protocols" [SLet 0 (XNew "MessageBindingsObject" (XDict [((u "kafka"), (XNew "KafkaMessageBindings" (XDict [((u "key"), (XNew "Schema" (XVal (VDict [((u "type"), (VStr (u "string"))); ((u "enum"), (VList [(VStr (u "my-key"))]))]))))]))); ((u "mqtt"), (XNew "MQTTMessageBindings" (XVal (VDict [((u "payload_format_indicator"), (VInt (1)%Z)); ((u "content_type"), (VStr (u "application/json")))])))); ((u "http"), (XNew "HTTPMessageBindings" (XDict [((u "headers"), (XNew "Schema" (XDict [((u "type"), (XVal (VStr (u "object")))); ((u "properties"), (XDict [((u "Content-Type"), (XNew "Schema" (XVal (VDict [((u "type"), (VStr (u "string"))); ((u "enum"), (VList [(VStr (u "application/json"))]))]))))]))])))])))]));
  SAssert (CEq (XDump (XVar 0)) (XUnurl (XVal (VDict [((u "kafka"), (VDict [((u "key"), (VDict [((u "type"), (VStr (u "string"))); ((u "enum"), (VList [(VStr (u "my-key"))]))])); ((u "bindingVersion"), (VStr (u "0.5.0")))])); ((u "mqtt"), (VDict [((u "payloadFormatIndicator"), (VInt (1)%Z)); ((u "contentType"), (VStr (u "application/json"))); ((u "bindingVersion"), (VStr (u "0.2.0")))])); ((u "http"), (VDict [((u "headers"), (VDict [((u "type"), (VStr (u "object"))); ((u "properties"), (VDict [((u "Content-Type"), (VDict [((u "type"), (VStr (u "string"))); ((u "enum"), (VList [(VStr (u "application/json"))]))]))]))])); ((u "bindingVersion"), (VStr (u "0.3.0")))]))]))))];
t "models/bindings/test_core.py::TestMessageBindingsObject.test_message_bindings_serialization_empty" [SLet 0 (XNew "MessageBindingsObject" (XVal (VDict [])));
  SAssert (CEq (XDump (XVar 0)) (XUnurl (XVal (VDict []))))];
t "models/bindings/test_core.py::TestBindingsExtensions.test_server_bindings_inherit_from_extendable_base_model" [SAssert (CIs (XNew "ServerBindingsObject" (XVal (VDict []))) ["MessageExample"; "MessageTrait"; "Message"; "ExternalDocumentation"; "Tag"; "AsyncAPI3"; "Parameter"; "Channel"; "Components"; "OperationReplyAddress"; "OperationReply"; "OperationTrait"; "Operation"; "CorrelationID"; "OAuthFlow"; "OAuthFlows"; "SecurityScheme"; "ServerVariable"; "Server"; "Contact"; "License"; "Info"; "ServerBindingsObject"; "ChannelBindingsObject"; "OperationBindingsObject"; "MessageBindingsObject"])];
t "models/bindings/test_core.py::TestBindingsExtensions.test_channel_bindings_inherit_from_extendable_base_model" [SAssert (CIs (XNew "ChannelBindingsObject" (XVal (VDict []))) ["MessageExample"; "MessageTrait"; "Message"; "ExternalDocumentation"; "Tag"; "AsyncAPI3"; "Parameter"; "Channel"; "Components"; "OperationReplyAddress"; "OperationReply"; "OperationTrait"; "Operation"; "CorrelationID"; "OAuthFlow"; "OAuthFlows"; "SecurityScheme"; "ServerVariable"; "Server"; "Contact"; "License"; "Info"; "ServerBindingsObject"; "ChannelBindingsObject"; "OperationBindingsObject"; "MessageBindingsObject"])];
t "models/bindings/test_core.py::TestBindingsExtensions.test_operation_bindings_inherit_from_extendable_base_model" [SAssert (CIs (XNew "OperationBindingsObject" (XVal (VDict []))) ["MessageExample"; "MessageTrait"; "Message"; "ExternalDocumentation"; "Tag"; "AsyncAPI3"; "Parameter"; "Channel"; "Components"; "OperationReplyAddress"; "OperationReply"; "OperationTrait"; "Operation"; "CorrelationID"; "OAuthFlow"; "OAuthFlows"; "SecurityScheme"; "ServerVariable"; "Server"; "Contact"; "License"; "Info"; "ServerBindingsObject"; "ChannelBindingsObject"; "OperationBindingsObject"; "MessageBindingsObject"])];
t "models/bindings/test_core.py::TestBindingsExtensions.test_message_bindings_inherit_from_extendable_base_model" [SAssert (CIs (XNew "MessageBindingsObject" (XVal (VDict []))) ["MessageExample"; "MessageTrait"; "Message"; "ExternalDocumentation"; "Tag"; "AsyncAPI3"; "Parameter"; "Channel"; "Components"; "OperationReplyAddress"; "OperationReply"; "OperationTrait"; "Operation"; "CorrelationID"; "OAuthFlow"; "OAuthFlows"; "SecurityScheme"; "ServerVariable"; "Server"; "Contact"; "License"; "Info"; "ServerBindingsObject"; "ChannelBindingsObject"; "OperationBindingsObject"; "MessageBindingsObject"])];
t "models/bindings/test_core.py::TestBindingsExtensions.test_server_bindings_valid_extensions" [SLet 0 (XNew "ServerBindingsObject" (XVal (VDict [((u "mqtt"), (VDict [((u "clientId"), (VStr (u "test"))); ((u "bindingVersion"), (VStr (u "0.2.0")))])); ((u "x-custom-extension"), (VStr (u "custom value"))); ((u "x-vendor-specific"), (VInt (123)%Z)); ((u "x-detailed.info"), (VBool true))])));
  SAssert (CNot (CEq (XExtra (XVar 0)) (XVal VNone)));
  SAssert (CEq (XItem (XExtra (XVar 0)) (u "x-custom-extension")) (XVal (VStr (u "custom value"))));
  SAssert (CEq (XItem (XExtra (XVar 0)) (u "x-vendor-specific")) (XVal (VInt (123)%Z)));
  SAssert (CEq (XItem (XExtra (XVar 0)) (u "x-detailed.info")) (XVal (VBool true)));
  SLet 1 (XDump (XVar 0));
  SAssert (CIn (u "x-custom-extension") (XVar 1));
  SAssert (CIn (u "x-vendor-specific") (XVar 1));
  SAssert (CIn (u "x-detailed.info") (XVar 1))];
t "models/bindings/test_core.py::TestBindingsExtensions.test_channel_bindings_valid_extensions" [SLet 0 (XNew "ChannelBindingsObject" (XVal (VDict [((u "kafka"), (VDict [((u "topic"), (VStr (u "my-topic"))); ((u "bindingVersion"), (VStr (u "0.5.0")))])); ((u "x-workflow-id"), (VStr (u "wf-123"))); ((u "x-metadata"), (VDict [((u "key"), (VStr (u "value")))]))])));
  SAssert (CNot (CEq (XExtra (XVar 0)) (XVal VNone)));
  SAssert (CEq (XItem (XExtra (XVar 0)) (u "x-workflow-id")) (XVal (VStr (u "wf-123"))));
  SAssert (CEq (XItem (XExtra (XVar 0)) (u "x-metadata")) (XVal (VDict [((u "key"), (VStr (u "value")))])))];
t "models/bindings/test_core.py::TestBindingsExtensions.test_operation_bindings_valid_extensions" [SLet 0 (XNew "OperationBindingsObject" (XVal (VDict [((u "http"), (VDict [((u "method"), (VStr (u "GET"))); ((u "bindingVersion"), (VStr (u "0.3.0")))])); ((u "x-rate-limit"), (VInt (100)%Z)); ((u "x-cache-ttl"), (VInt (3600)%Z))])));
  SAssert (CNot (CEq (XExtra (XVar 0)) (XVal VNone)));
  SAssert (CEq (XItem (XExtra (XVar 0)) (u "x-rate-limit")) (XVal (VInt (100)%Z)));
  SAssert (CEq (XItem (XExtra (XVar 0)) (u "x-cache-ttl")) (XVal (VInt (3600)%Z)))];
t "models/bindings/test_core.py::TestBindingsExtensions.test_message_bindings_valid_extensions" [SLet 0 (XNew "MessageBindingsObject" (XVal (VDict [((u "http"), (VDict [((u "headers"), (VDict [((u "type"), (VStr (u "object"))); ((u "properties"), (VDict [((u "Content-Type"), (VDict [((u "type"), (VStr (u "string")))]))]))])); ((u "bindingVersion"), (VStr (u "0.3.0")))])); ((u "x-message-type"), (VStr (u "event"))); ((u "x-schema-version"), (VStr (u "1.2.3")))])));
  SAssert (CNot (CEq (XExtra (XVar 0)) (XVal VNone)));
  SAssert (CEq (XItem (XExtra (XVar 0)) (u "x-message-type")) (XVal (VStr (u "event"))));
  SAssert (CEq (XItem (XExtra (XVar 0)) (u "x-schema-version")) (XVal (VStr (u "1.2.3"))))];
t "models/bindings/test_core.py::TestBindingsExtensions.test_server_bindings_invalid_extensions" [SRaises [SDo (XNew "ServerBindingsObject" (XVal (VDict [((u "mqtt"), (VDict [((u "clientId"), (VStr (u "test"))); ((u "bindingVersion"), (VStr (u "0.2.0")))])); ((u "invalid-extension"), (VStr (u "should fail"))); ((u "x-invalid_extension"), (VStr (u "underscore not allowed")))])))] [(u "does not match specification extension pattern")]];
t "models/bindings/test_core.py::TestBindingsExtensions.test_channel_bindings_invalid_extensions" [SRaises [SDo (XNew "ChannelBindingsObject" (XVal (VDict [((u "kafka"), (VDict [((u "topic"), (VStr (u "test"))); ((u "bindingVersion"), (VStr (u "0.5.0")))])); ((u "not-x-prefix"), (VStr (u "invalid")))])))] [(u "does not match specification extension pattern")]];
t "models/bindings/test_core.py::TestBindingsExtensions.test_operation_bindings_invalid_extensions" [SRaises [SDo (XNew "OperationBindingsObject" (XVal (VDict [((u "http"), (VDict [((u "method"), (VStr (u "POST"))); ((u "bindingVersion"), (VStr (u "0.3.0")))])); ((u "x-invalid@symbol"), (VStr (u "invalid char")))])))] [(u "does not match specification extension pattern")]];
t "models/bindings/test_core.py::TestBindingsExtensions.test_message_bindings_invalid_extensions" [SRaises [SDo (XNew "MessageBindingsObject" (XVal (VDict [((u "http"), (VDict [((u "headers"), (VDict [((u "type"), (VStr (u "object"))); ((u "properties"), (VDict [((u "Content-Type"), (VDict [((u "type"), (VStr (u "string")))]))]))])); ((u "bindingVersion"), (VStr (u "0.3.0")))])); ((u "x-invalid extension"), (VStr (u "space not allowed")))])))] [(u "does not match specification extension pattern")]];
t "models/bindings/test_core.py::TestBindingsExtensions.test_server_bindings_extensions_serialization" [SLet 0 (XNew "ServerBindingsObject" (XVal (VDict [((u "kafka"), (VDict [((u "schemaRegistryUrl"), (VStr (u "https://test.com"))); ((u "bindingVersion"), (VStr (u "0.5.0")))])); ((u "x-test-extension"), (VStr (u "test value"))); ((u "x-numeric-ext"), (VInt (42)%Z)); ((u "x-bool-ext"), (VBool true))])));
  SLet 1 (XDump (XVar 0));
  SLet 2 (XNew "ServerBindingsObject" (XVar 1));
  SAssert (CNot (CEq (XExtra (XVar 2)) (XVal VNone)));
  SAssert (CEq (XItem (XExtra (XVar 2)) (u "x-test-extension")) (XVal (VStr (u "test value"))));
  SAssert (CEq (XItem (XExtra (XVar 2)) (u "x-numeric-ext")) (XVal (VInt (42)%Z)));
  SAssert (CEq (XItem (XExtra (XVar 2)) (u "x-bool-ext")) (XVal (VBool true)))];
t "models/bindings/test_core.py::TestBindingsExtensions.test_channel_bindings_extensions_with_bindings" [SLet 0 (XNew "ChannelBindingsObject" (XVal (VDict [((u "kafka"), (VDict [((u "topicConfiguration"), (VDict [((u "cleanup.policy"), (VList [(VStr (u "delete"))]))])); ((u "bindingVersion"), (VStr (u "0.5.0")))])); ((u "sqs"), (VDict [((u "queue"), (VDict [((u "name"), (VStr (u "test-queue"))); ((u "fifoQueue"), (VBool false))])); ((u "bindingVersion"), (VStr (u "0.3.0")))])); ((u "x-environment"), (VStr (u "production"))); ((u "x-owner"), (VStr (u "team-platform")))])));
  SAssert (CNot (CEq (XAttr (XVar 0) (u "kafka")) (XVal VNone)));
  SAssert (CNot (CEq (XAttr (XVar 0) (u "sqs")) (XVal VNone)));
  SAssert (CEq (XAttr (XAttr (XAttr (XVar 0) (u "kafka")) (u "topic_configuration")) (u "cleanup_policy")) (XVal (VList [(VStr (u "delete"))])));
  SAssert (CNot (CEq (XExtra (XVar 0)) (XVal VNone)));
  SAssert (CEq (XItem (XExtra (XVar 0)) (u "x-environment")) (XVal (VStr (u "production"))));
  SAssert (CEq (XItem (XExtra (XVar 0)) (u "x-owner")) (XVal (VStr (u "team-platform"))))];
t "models/bindings/test_googlepubsub.py::TestGooglePubSubServerBindings.test_googlepubsub_server_bindings_serialization" [SLet 0 (XNew "GooglePubSubServerBindings" (XVal (VDict [])));
  SLet 1 (XDump (XVar 0));
  SAssert (CEq (XVar 1) (XUnurl (XVal (VDict []))))];
t "models/bindings/test_googlepubsub.py::TestGooglePubSubServerBindings.test_googlepubsub_server_bindings_python_validation_error" [SRaises [SDo (XNew "GooglePubSubServerBindings" (XVal (VDict [((u "some_field"), (VStr (u "value")))])))] []];
t "models/bindings/test_googlepubsub.py::TestGooglePubSubServerBindings.test_googlepubsub_server_bindings_yaml_validation_error" [SRaises [SDo (XNew "GooglePubSubServerBindings" (XVal (VDict [((u "some_field"), (VStr (u "value")))])))] []];
t "models/bindings/test_googlepubsub.py::TestGooglePubSubServerBindings.test_googlepubsub_server_bindings_yaml_empty_validation" [SLet 0 (XNew "GooglePubSubServerBindings" (XVal (VDict [])));
  SAssert (CNot (CEq (XVar 0) (XVal VNone)))];
t "models/bindings/test_googlepubsub.py::TestGooglePubSubChannelBindings.test_googlepubsub_channel_binding_minimal_validation" [SLet 0 (XNew "GooglePubSubChannelBindings" (XVal (VDict [((u "schemaSettings"), (VDict [((u "encoding"), (VStr (u "JSON"))); ((u "name"), (VStr (u "projects/your-project/schemas/message-avro")))])); ((u "bindingVersion"), (VStr (u "0.2.0")))])));
  SAssert (CNot (CEq (XAttr (XVar 0) (u "schema_settings")) (XVal VNone)));
  SAssert (CIs (XAttr (XVar 0) (u "schema_settings")) ["GooglePubSubSchemaSettings"]);
  SAssert (CEq (XAttr (XAttr (XVar 0) (u "schema_settings")) (u "encoding")) (XVal (VStr (u "JSON"))));
  SAssert (CEq (XAttr (XAttr (XVar 0) (u "schema_settings")) (u "name")) (XVal (VStr (u "projects/your-project/schemas/message-avro"))));
  SAssert (CEq (XAttr (XVar 0) (u "binding_version")) (XVal (VStr (u "0.2.0"))))];
t "models/bindings/test_googlepubsub.py::TestGooglePubSubChannelBindings.test_googlepubsub_channel_binding_full_validation" [SLet 0 (XNew "GooglePubSubChannelBindings" (XVal (VDict [((u "messageRetentionDuration"), (VStr (u "86400s"))); ((u "messageStoragePolicy"), (VDict [((u "allowedPersistenceRegions"), (VList [(VStr (u "us-central1")); (VStr (u "us-central2"))]))])); ((u "schemaSettings"), (VDict [((u "encoding"), (VStr (u "BINARY"))); ((u "name"), (VStr (u "projects/your-project/schemas/message-proto")))])); ((u "bindingVersion"), (VStr (u "0.2.0")))])));
  SAssert (CEq (XAttr (XVar 0) (u "message_retention_duration")) (XVal (VStr (u "86400s"))));
  SAssert (CNot (CEq (XAttr (XVar 0) (u "message_storage_policy")) (XVal VNone)));
  SAssert (CIs (XAttr (XVar 0) (u "message_storage_policy")) ["GooglePubSubMessageStoragePolicy"]);
  SAssert (CEq (XAttr (XAttr (XVar 0) (u "message_storage_policy")) (u "allowed_persistence_regions")) (XVal (VList [(VStr (u "us-central1")); (VStr (u "us-central2"))])));
  SAssert (CNot (CEq (XAttr (XVar 0) (u "schema_settings")) (XVal VNone)));
  SAssert (CIs (XAttr (XVar 0) (u "schema_settings")) ["GooglePubSubSchemaSettings"]);
  SAssert (CEq (XAttr (XAttr (XVar 0) (u "schema_settings")) (u "encoding")) (XVal (VStr (u "BINARY"))));
  SAssert (CEq (XAttr (XAttr (XVar 0) (u "schema_settings")) (u "name")) (XVal (VStr (u "projects/your-project/schemas/message-proto"))));
  SAssert (CEq (XAttr (XVar 0) (u "binding_version")) (XVal (VStr (u "0.2.0"))))];
t "models/bindings/test_googlepubsub.py::TestGooglePubSubChannelBindings.test_googlepubsub_channel_bindings_validation_error_extra_fields" [SRaises [SDo (XNew "GooglePubSubChannelBindings" (XVal (VDict [((u "bindingVersion"), (VStr (u "0.2.0"))); ((u "extra_field"), (VStr (u "invalid")))])))] []];
t "models/bindings/test_googlepubsub.py::TestGooglePubSubChannelBindings.test_googlepubsub_channel_bindings_validation_error_invalid_encoding" [SRaises [SDo (XNew "GooglePubSubChannelBindings" (XVal (VDict [((u "schemaSettings"), (VDict [((u "encoding"), (VStr (u "INVALID_ENCODING"))); ((u "name"), (VStr (u "projects/your-project/schemas/message-avro")))])); ((u "bindingVersion"), (VStr (u "0.2.0")))])))] []];
t "models/bindings/test_googlepubsub.py::TestGooglePubSubChannelBindings.test_googlepubsub_channel_bindings_serialization/case_googlepubsub_channel_binding_serialization_empty" [SLet 0 (XNew "GooglePubSubChannelBindings" (XVal (VDict [])));
  SLet 1 (XDump (XVar 0));
  SAssert (CEq (XVar 1) (XUnurl (XVal (VDict [((u "bindingVersion"), (VStr (u "0.2.0")))]))))];
t "models/bindings/test_googlepubsub.py::TestGooglePubSubChannelBindings.test_googlepubsub_channel_bindings_serialization/case_googlepubsub_channel_binding_serialization_with_schema_settings" [SLet 0 (XNew "GooglePubSubChannelBindings" (XDict [((u "schema_settings"), (XNew "GooglePubSubSchemaSettings" (XVal (VDict [((u "encoding"), (VStr (u "JSON"))); ((u "name"), (VStr (u "projects/your-project/schemas/message-avro")))]))))]));
  SLet 1 (XDump (XVar 0));
  SAssert (CEq (XVar 1) (XUnurl (XVal (VDict [((u "schemaSettings"), (VDict [((u "encoding"), (VStr (u "JSON"))); ((u "name"), (VStr (u "projects/your-project/schemas/message-avro")))])); ((u "bindingVersion"), (VStr (u "0.2.0")))]))))];
t "models/bindings/test_googlepubsub.py::TestGooglePubSubChannelBindings.test_googlepubsub_channel_bindings_serialization/case_googlepubsub_channel_binding_serialization_full" [SLet 0 (XNew "GooglePubSubChannelBindings" (XDict [((u "message_retention_duration"), (XVal (VStr (u "86400s")))); ((u "message_storage_policy"), (XNew "GooglePubSubMessageStoragePolicy" (XVal (VDict [((u "allowed_persistence_regions"), (VList [(VStr (u "us-central1")); (VStr (u "us-central2"))]))])))); ((u "schema_settings"), (XNew "GooglePubSubSchemaSettings" (XVal (VDict [((u "encoding"), (VStr (u "BINARY"))); ((u "name"), (VStr (u "projects/your-project/schemas/message-proto")))]))))]));
  SLet 1 (XDump (XVar 0));
  SAssert (CEq (XVar 1) (XUnurl (XVal (VDict [((u "messageRetentionDuration"), (VStr (u "86400s"))); ((u "messageStoragePolicy"), (VDict [((u "allowedPersistenceRegions"), (VList [(VStr (u "us-central1")); (VStr (u "us-central2"))]))])); ((u "schemaSettings"), (VDict [((u "encoding"), (VStr (u "BINARY"))); ((u "name"), (VStr (u "projects/your-project/schemas/message-proto")))])); ((u "bindingVersion"), (VStr (u "0.2.0")))]))))];
t "models/bindings/test_googlepubsub.py::TestGooglePubSubOperationBindings.test_googlepubsub_operation_bindings_serialization" [SLet 0 (XNew "GooglePubSubOperationBindings" (XVal (VDict [])));
  SLet 1 (XDump (XVar 0));
  SAssert (CEq (XVar 1) (XUnurl (XVal (VDict []))))];
t "models/bindings/test_googlepubsub.py::TestGooglePubSubOperationBindings.test_googlepubsub_operation_bindings_python_validation_error" [SRaises [SDo (XNew "GooglePubSubOperationBindings" (XVal (VDict [((u "some_field"), (VStr (u "value")))])))] []];
t "models/bindings/test_googlepubsub.py::TestGooglePubSubOperationBindings.test_googlepubsub_operation_bindings_yaml_validation_error" [SRaises [SDo (XNew "GooglePubSubOperationBindings" (XVal (VDict [((u "some_field"), (VStr (u "value")))])))] []];
t "models/bindings/test_googlepubsub.py::TestGooglePubSubOperationBindings.test_googlepubsub_operation_bindings_yaml_empty_validation" [SLet 0 (XNew "GooglePubSubOperationBindings" (XVal (VDict [])));
  SAssert (CNot (CEq (XVar 0) (XVal VNone)))];
t "models/bindings/test_googlepubsub.py::TestGooglePubSubMessageBindings.test_googlepubsub_message_binding_with_schema_validation" [SLet 0 (XNew "GooglePubSubMessageBindings" (XVal (VDict [((u "schema"), (VDict [((u "name"), (VStr (u "projects/your-project/schemas/message-avro")))])); ((u "bindingVersion"), (VStr (u "0.2.0")))])));
  SAssert (CNot (CEq (XAttr (XVar 0) (u "schema")) (XVal VNone)));
  SAssert (CIs (XAttr (XVar 0) (u "schema")) ["GooglePubSubSchemaDefinition"]);
  SAssert (CEq (XAttr (XAttr (XVar 0) (u "schema")) (u "name")) (XVal (VStr (u "projects/your-project/schemas/message-avro"))));
  SAssert (CEq (XAttr (XVar 0) (u "binding_version")) (XVal (VStr (u "0.2.0"))))];
t "models/bindings/test_googlepubsub.py::TestGooglePubSubMessageBindings.test_googlepubsub_message_bindings_validation_error_extra_fields" [SRaises [SDo (XNew "GooglePubSubMessageBindings" (XVal (VDict [((u "bindingVersion"), (VStr (u "0.2.0"))); ((u "extra_field"), (VStr (u "invalid")))])))] []];
t "models/bindings/test_googlepubsub.py::TestGooglePubSubMessageBindings.test_googlepubsub_message_bindings_serialization/case_googlepubsub_message_binding_serialization_empty" [SLet 0 (XNew "GooglePubSubMessageBindings" (XVal (VDict [])));
  SLet 1 (XDump (XVar 0));
  SAssert (CEq (XVar 1) (XUnurl (XVal (VDict [((u "bindingVersion"), (VStr (u "0.2.0")))]))))];
t "models/bindings/test_googlepubsub.py::TestGooglePubSubMessageBindings.test_googlepubsub_message_bindings_serialization/case_googlepubsub_message_binding_serialization_with_schema" [SLet 0 (XNew "GooglePubSubMessageBindings" (XDict [((u "schema"), (XNew "GooglePubSubSchemaDefinition" (XVal (VDict [((u "name"), (VStr (u "projects/your-project/schemas/message-avro")))]))))]));
  SLet 1 (XDump (XVar 0));
  SAssert (CEq (XVar 1) (XUnurl (XVal (VDict [((u "schema"), (VDict [((u "name"), (VStr (u "projects/your-project/schemas/message-avro")))])); ((u "bindingVersion"), (VStr (u "0.2.0")))]))))]].
Definition part3 : list (string * list stmt) := [
t "models/bindings/test_http.py::TestHTTPServerBindings.test_http_server_bindings_serialization" [SLet 0 (XNew "HTTPServerBindings" (XVal (VDict [])));
  SLet 1 (XDump (XVar 0));
  SAssert (CEq (XVar 1) (XUnurl (XVal (VDict []))))];
t "models/bindings/test_http.py::TestHTTPServerBindings.test_http_server_bindings_python_validation_error" [SRaises [SDo (XNew "HTTPServerBindings" (XVal (VDict [((u "some_field"), (VStr (u "value")))])))] []];
t "models/bindings/test_http.py::TestHTTPServerBindings.test_http_server_bindings_yaml_validation_error" [SRaises [SDo (XNew "HTTPServerBindings" (XVal (VDict [((u "some_field"), (VStr (u "value")))])))] []];
t "models/bindings/test_http.py::TestHTTPServerBindings.test_http_server_bindings_yaml_empty_validation" [SLet 0 (XNew "HTTPServerBindings" (XVal (VDict [])));
  SAssert (CNot (CEq (XVar 0) (XVal VNone)))];
t "models/bindings/test_http.py::TestHTTPChannelBindings.test_http_channel_bindings_serialization" [SLet 0 (XNew "HTTPChannelBindings" (XVal (VDict [])));
  SLet 1 (XDump (XVar 0));
  SAssert (CEq (XVar 1) (XUnurl (XVal (VDict []))))];
t "models/bindings/test_http.py::TestHTTPChannelBindings.test_http_channel_bindings_python_validation_error" [SRaises [SDo (XNew "HTTPChannelBindings" (XVal (VDict [((u "some_field"), (VStr (u "value")))])))] []];
t "models/bindings/test_http.py::TestHTTPChannelBindings.test_http_channel_bindings_yaml_validation_error" [SRaises [SDo (XNew "HTTPChannelBindings" (XVal (VDict [((u "some_field"), (VStr (u "value")))])))] []];
t "models/bindings/test_http.py::TestHTTPChannelBindings.test_http_channel_bindings_yaml_empty_validation" [SLet 0 (XNew "HTTPChannelBindings" (XVal (VDict [])));
  SAssert (CNot (CEq (XVar 0) (XVal VNone)))];
t "models/bindings/test_http.py::TestHTTPOperationBindings.test_http_operation_bindings_validation/case_operation_binding_get" [SLet 0 (XNew "HTTPOperationBindings" (XVal (VDict [((u "method"), (VStr (u "GET"))); ((u "query"), (VDict [((u "type"), (VStr (u "object"))); ((u "required"), (VList [(VStr (u "companyId"))])); ((u "properties"), (VDict [((u "companyId"), (VDict [((u "type"), (VStr (u "number"))); ((u "minimum"), (VInt (1)%Z)); ((u "description"), (VStr (u "The Id of the company.")))]))])); ((u "additionalProperties"), (VBool false))])); ((u "bindingVersion"), (VStr (u "0.3.0")))])));
  SAssert (CNot (CEq (XVar 0) (XVal VNone)));
  SAssert (CEq (XAttr (XVar 0) (u "binding_version")) (XVal (VStr (u "0.3.0"))))];
t "models/bindings/test_http.py::TestHTTPOperationBindings.test_http_operation_bindings_validation/case_operation_binding_post" [SLet 0 (XNew "HTTPOperationBindings" (XVal (VDict [((u "method"), (VStr (u "POST"))); ((u "bindingVersion"), (VStr (u "0.3.0")))])));
  SAssert (CNot (CEq (XVar 0) (XVal VNone)));
  SAssert (CEq (XAttr (XVar 0) (u "binding_version")) (XVal (VStr (u "0.3.0"))))];
t "models/bindings/test_http.py::TestHTTPOperationBindings.test_http_operation_bindings_serialization/case_operation_binding_serialization_post" [SLet 0 (XNew "HTTPOperationBindings" (XVal (VDict [((u "method"), (VStr (u "POST")))])));
  SLet 1 (XDump (XVar 0));
  SAssert (CEq (XVar 1) (XUnurl (XVal (VDict [((u "method"), (VStr (u "POST"))); ((u "bindingVersion"), (VStr (u "0.3.0")))]))))];
t "models/bindings/test_http.py::TestHTTPOperationBindings.test_http_operation_bindings_serialization/case_operation_binding_serialization_get" [SLet 0 (XNew "HTTPOperationBindings" (XDict [((u "method"), (XVal (VStr (u "GET")))); ((u "query"), (XNew "Schema" (XDict [((u "type"), (XVal (VStr (u "object")))); ((u "required"), (XVal (VList [(VStr (u "companyId"))]))); ((u "properties"), (XDict [((u "companyId"), (XNew "Schema" (XVal (VDict [((u "type"), (VStr (u "number"))); ((u "minimum"), (VInt (1)%Z)); ((u "description"), (VStr (u "The Id of the company.")))]))))])); ((u "additional_properties"), (XVal (VBool false)))])))]));
  SLet 1 (XDump (XVar 0));
  SAssert (CEq (XVar 1) (XUnurl (XVal (VDict [((u "method"), (VStr (u "GET"))); ((u "query"), (VDict [((u "type"), (VStr (u "object"))); ((u "required"), (VList [(VStr (u "companyId"))])); ((u "properties"), (VDict [((u "companyId"), (VDict [((u "type"), (VStr (u "number"))); ((u "minimum"), (VInt (1)%Z)); ((u "description"), (VStr (u "The Id of the company.")))]))])); ((u "additional_properties"), (VBool false))])); ((u "bindingVersion"), (VStr (u "0.3.0")))]))))];
t "models/bindings/test_http.py::TestHTTPOperationBindings.test_http_operation_binding_query_schema_validation" [SLet 0 (XNew "HTTPOperationBindings" (XVal (VDict [((u "method"), (VStr (u "GET"))); ((u "query"), (VDict [((u "type"), (VStr (u "object"))); ((u "required"), (VList [(VStr (u "companyId"))])); ((u "properties"), (VDict [((u "companyId"), (VDict [((u "type"), (VStr (u "number"))); ((u "minimum"), (VInt (1)%Z))]))]))])); ((u "bindingVersion"), (VStr (u "0.3.0")))])));
  SAssert (CEq (XAttr (XVar 0) (u "method")) (XVal (VStr (u "GET"))));
  SAssert (CNot (CEq (XAttr (XVar 0) (u "query")) (XVal VNone)));
  SAssert (CIs (XAttr (XVar 0) (u "query")) ["Schema"]);
  SAssert (CEq (XAttr (XAttr (XVar 0) (u "query")) (u "type")) (XVal (VStr (u "object"))));
  SAssert (CEq (XAttr (XVar 0) (u "binding_version")) (XVal (VStr (u "0.3.0"))))];
t "models/bindings/test_http.py::TestHTTPOperationBindings.test_http_operation_bindings_python_validation_error" [SRaises [SDo (XNew "HTTPOperationBindings" (XVal (VDict [((u "method"), (VStr (u "GET"))); ((u "some_field"), (VStr (u "value")))])))] []];
t "models/bindings/test_http.py::TestHTTPOperationBindings.test_http_operation_bindings_yaml_validation_error" [SRaises [SDo (XNew "HTTPOperationBindings" (XVal (VDict [((u "method"), (VStr (u "GET"))); ((u "some_field"), (VStr (u "value"))); ((u "bindingVersion"), (VStr (u "0.3.0")))])))] []];
t "models/bindings/test_http.py::TestHTTPMessageBindings.test_http_message_bindings_validation/case_message_binding_with_headers" [SLet 0 (XNew "HTTPMessageBindings" (XVal (VDict [((u "statusCode"), (VInt (200)%Z)); ((u "headers"), (VDict [((u "type"), (VStr (u "object"))); ((u "properties"), (VDict [((u "Content-Type"), (VDict [((u "type"), (VStr (u "string"))); ((u "enum"), (VList [(VStr (u "application/json"))]))]))]))])); ((u "bindingVersion"), (VStr (u "0.3.0")))])));
  SAssert (CNot (CEq (XVar 0) (XVal VNone)));
  SAssert (CEq (XAttr (XVar 0) (u "binding_version")) (XVal (VStr (u "0.3.0"))))];
t "models/bindings/test_http.py::TestHTTPMessageBindings.test_http_message_bindings_serialization/case_message_binding_serialization_empty" [SLet 0 (XNew "HTTPMessageBindings" (XVal (VDict [])));
  SLet 1 (XDump (XVar 0));
  SAssert (CEq (XVar 1) (XUnurl (XVal (VDict [((u "bindingVersion"), (VStr (u "0.3.0")))]))))];
t "models/bindings/test_http.py::TestHTTPMessageBindings.test_http_message_bindings_serialization/case_message_binding_serialization_with_headers" [SLet 0 (XNew "HTTPMessageBindings" (XDict [((u "status_code"), (XVal (VInt (200)%Z))); ((u "headers"), (XNew "Schema" (XDict [((u "type"), (XVal (VStr (u "object")))); ((u "properties"), (XDict [((u "Content-Type"), (XNew "Schema" (XVal (VDict [((u "type"), (VStr (u "string"))); ((u "enum"), (VList [(VStr (u "application/json"))]))]))))]))])))]));
  SLet 1 (XDump (XVar 0));
  SAssert (CEq (XVar 1) (XUnurl (XVal (VDict [((u "statusCode"), (VInt (200)%Z)); ((u "headers"), (VDict [((u "type"), (VStr (u "object"))); ((u "properties"), (VDict [((u "Content-Type"), (VDict [((u "type"), (VStr (u "string"))); ((u "enum"), (VList [(VStr (u "application/json"))]))]))]))])); ((u "bindingVersion"), (VStr (u "0.3.0")))]))))];
t "models/bindings/test_http.py::TestHTTPMessageBindings.test_http_message_binding_all_fields_validation" [SLet 0 (XNew "HTTPMessageBindings" (XVal (VDict [((u "statusCode"), (VInt (200)%Z)); ((u "headers"), (VDict [((u "type"), (VStr (u "object"))); ((u "properties"), (VDict [((u "Content-Type"), (VDict [((u "type"), (VStr (u "string"))); ((u "enum"), (VList [(VStr (u "application/json"))]))]))]))])); ((u "bindingVersion"), (VStr (u "0.3.0")))])));
  SAssert (CEq (XAttr (XVar 0) (u "status_code")) (XVal (VInt (200)%Z)));
  SAssert (CNot (CEq (XAttr (XVar 0) (u "headers")) (XVal VNone)));
  SAssert (CIs (XAttr (XVar 0) (u "headers")) ["Schema"]);
  SAssert (CEq (XAttr (XAttr (XVar 0) (u "headers")) (u "type")) (XVal (VStr (u "object"))));
  SAssert (CEq (XAttr (XVar 0) (u "binding_version")) (XVal (VStr (u "0.3.0"))))];
t "models/bindings/test_http.py::TestHTTPMessageBindings.test_http_message_bindings_python_validation_error" [SRaises [SDo (XNew "HTTPMessageBindings" (XVal (VDict [((u "some_field"), (VStr (u "value")))])))] []];
t "models/bindings/test_http.py::TestHTTPMessageBindings.test_http_message_bindings_yaml_validation_error" [SRaises [SDo (XNew "HTTPMessageBindings" (XVal (VDict [((u "some_field"), (VStr (u "value"))); ((u "bindingVersion"), (VStr (u "0.3.0")))])))] []];
t "models/bindings/test_ibmmq.py::TestIBMMQServerBindings.test_ibmmq_server_bindings_validation/case_server_binding_with_group_id" [SLet 0 (XNew "IBMMQServerBindings" (XVal (VDict [((u "groupId"), (VStr (u "PRODCLSTR1"))); ((u "cipherSpec"), (VStr (u "ANY_TLS12_OR_HIGHER"))); ((u "bindingVersion"), (VStr (u "0.1.0")))])));
  SAssert (CNot (CEq (XVar 0) (XVal VNone)));
  SAssert (CEq (XAttr (XVar 0) (u "binding_version")) (XVal (VStr (u "0.1.0"))))];
t "models/bindings/test_ibmmq.py::TestIBMMQServerBindings.test_ibmmq_server_bindings_serialization/case_ibmmq_server_binding_serialization_empty" [SLet 0 (XNew "IBMMQServerBindings" (XVal (VDict [])));
  SLet 1 (XDump (XVar 0));
  SAssert (CEq (XVar 1) (XUnurl (XVal (VDict [((u "bindingVersion"), (VStr (u "0.1.0")))]))))];
t "models/bindings/test_ibmmq.py::TestIBMMQServerBindings.test_ibmmq_server_bindings_serialization/case_ibmmq_server_binding_serialization_with_group_id" [SLet 0 (XNew "IBMMQServerBindings" (XVal (VDict [((u "group_id"), (VStr (u "PRODCLSTR1"))); ((u "cipher_spec"), (VStr (u "ANY_TLS12_OR_HIGHER")))])));
  SLet 1 (XDump (XVar 0));
  SAssert (CEq (XVar 1) (XUnurl (XVal (VDict [((u "groupId"), (VStr (u "PRODCLSTR1"))); ((u "cipherSpec"), (VStr (u "ANY_TLS12_OR_HIGHER"))); ((u "bindingVersion"), (VStr (u "0.1.0")))]))))];
t "models/bindings/test_ibmmq.py::TestIBMMQServerBindings.test_ibmmq_server_bindings_python_validation_error" [SRaises [SDo (XNew "IBMMQServerBindings" (XVal (VDict [((u "group_id"), (VStr (u "test"))); ((u "invalid_field"), (VStr (u "value")))])))] []];
t "models/bindings/test_ibmmq.py::TestIBMMQServerBindings.test_ibmmq_server_bindings_yaml_validation_error" [SRaises [SDo (XNew "IBMMQServerBindings" (XVal (VDict [((u "groupId"), (VStr (u "PRODCLSTR1"))); ((u "invalid_field"), (VStr (u "value"))); ((u "bindingVersion"), (VStr (u "0.1.0")))])))] []];
t "models/bindings/test_ibmmq.py::TestIBMMQChannelBindings.test_ibmmq_channel_bindings_validation/case_channel_binding_topic" [SLet 0 (XNew "IBMMQChannelBindings" (XVal (VDict [((u "destinationType"), (VStr (u "topic"))); ((u "topic"), (VDict [((u "objectName"), (VStr (u "myTopicName")))])); ((u "bindingVersion"), (VStr (u "0.1.0")))])));
  SAssert (CNot (CEq (XVar 0) (XVal VNone)));
  SAssert (CEq (XAttr (XVar 0) (u "binding_version")) (XVal (VStr (u "0.1.0"))))];
t "models/bindings/test_ibmmq.py::TestIBMMQChannelBindings.test_ibmmq_channel_bindings_validation/case_channel_binding_queue" [SLet 0 (XNew "IBMMQChannelBindings" (XVal (VDict [((u "destinationType"), (VStr (u "queue"))); ((u "queue"), (VDict [((u "objectName"), (VStr (u "myQueueName"))); ((u "isPartitioned"), (VBool false)); ((u "exclusive"), (VBool false))])); ((u "bindingVersion"), (VStr (u "0.1.0")))])));
  SAssert (CNot (CEq (XVar 0) (XVal VNone)));
  SAssert (CEq (XAttr (XVar 0) (u "binding_version")) (XVal (VStr (u "0.1.0"))))];
t "models/bindings/test_ibmmq.py::TestIBMMQChannelBindings.test_ibmmq_channel_bindings_serialization/case_ibmmq_channel_binding_serialization_topic" [SLet 0 (XNew "IBMMQChannelBindings" (XDict [((u "destination_type"), (XVal (VStr (u "topic")))); ((u "topic"), (XNew "IBMMQTopic" (XVal (VDict [((u "object_name"), (VStr (u "myTopicName")))]))))]));
  SLet 1 (XDump (XVar 0));
  SAssert (CEq (XVar 1) (XUnurl (XVal (VDict [((u "destinationType"), (VStr (u "topic"))); ((u "topic"), (VDict [((u "objectName"), (VStr (u "myTopicName"))); ((u "durablePermitted"), (VBool true)); ((u "lastMsgRetained"), (VBool false))])); ((u "bindingVersion"), (VStr (u "0.1.0")))]))))];
t "models/bindings/test_ibmmq.py::TestIBMMQChannelBindings.test_ibmmq_channel_bindings_serialization/case_ibmmq_channel_binding_serialization_queue" [SLet 0 (XNew "IBMMQChannelBindings" (XDict [((u "destination_type"), (XVal (VStr (u "queue")))); ((u "queue"), (XNew "IBMMQQueue" (XVal (VDict [((u "object_name"), (VStr (u "myQueueName"))); ((u "is_partitioned"), (VBool false)); ((u "exclusive"), (VBool false))]))))]));
  SLet 1 (XDump (XVar 0));
  SAssert (CEq (XVar 1) (XUnurl (XVal (VDict [((u "destinationType"), (VStr (u "queue"))); ((u "queue"), (VDict [((u "objectName"), (VStr (u "myQueueName"))); ((u "isPartitioned"), (VBool false)); ((u "exclusive"), (VBool false))])); ((u "bindingVersion"), (VStr (u "0.1.0")))]))))];
t "models/bindings/test_ibmmq.py::TestIBMMQChannelBindings.test_ibmmq_channel_binding_queue_validation" [SLet 0 (XNew "IBMMQChannelBindings" (XVal (VDict [((u "destinationType"), (VStr (u "queue"))); ((u "queue"), (VDict [((u "objectName"), (VStr (u "myQueueName"))); ((u "isPartitioned"), (VBool false)); ((u "exclusive"), (VBool false))])); ((u "bindingVersion"), (VStr (u "0.1.0")))])));
  SAssert (CNot (CEq (XAttr (XVar 0) (u "queue")) (XVal VNone)));
  SAssert (CIs (XAttr (XVar 0) (u "queue")) ["IBMMQQueue"]);
  SAssert (CEq (XAttr (XAttr (XVar 0) (u "queue")) (u "object_name")) (XVal (VStr (u "myQueueName"))));
  SAssert (CEq (XAttr (XAttr (XVar 0) (u "queue")) (u "is_partitioned")) (XVal (VBool false)));
  SAssert (CEq (XAttr (XAttr (XVar 0) (u "queue")) (u "exclusive")) (XVal (VBool false)));
  SAssert (CEq (XAttr (XVar 0) (u "binding_version")) (XVal (VStr (u "0.1.0"))))];
t "models/bindings/test_ibmmq.py::TestIBMMQChannelBindings.test_ibmmq_channel_binding_topic_validation" [SLet 0 (XNew "IBMMQChannelBindings" (XVal (VDict [((u "destinationType"), (VStr (u "topic"))); ((u "topic"), (VDict [((u "objectName"), (VStr (u "myTopicName")))])); ((u "bindingVersion"), (VStr (u "0.1.0")))])));
  SAssert (CNot (CEq (XAttr (XVar 0) (u "topic")) (XVal VNone)));
  SAssert (CIs (XAttr (XVar 0) (u "topic")) ["IBMMQTopic"]);
  SAssert (CEq (XAttr (XAttr (XVar 0) (u "topic")) (u "object_name")) (XVal (VStr (u "myTopicName"))));
  SAssert (CEq (XAttr (XVar 0) (u "binding_version")) (XVal (VStr (u "0.1.0"))))];
t "models/bindings/test_ibmmq.py::TestIBMMQChannelBindings.test_ibmmq_channel_bindings_python_validation_error" [SRaises [SDo (XNew "IBMMQChannelBindings" (XDict [((u "destination_type"), (XVal (VStr (u "queue")))); ((u "queue"), (XNew "IBMMQQueue" (XVal (VDict [((u "object_name"), (VStr (u "test")))])))); ((u "invalid_field"), (XVal (VStr (u "value"))))]))] []];
t "models/bindings/test_ibmmq.py::TestIBMMQChannelBindings.test_ibmmq_channel_bindings_yaml_validation_error" [SRaises [SDo (XNew "IBMMQChannelBindings" (XVal (VDict [((u "destinationType"), (VStr (u "topic"))); ((u "topic"), (VDict [((u "objectName"), (VStr (u "myTopicName")))])); ((u "invalid_field"), (VStr (u "value"))); ((u "bindingVersion"), (VStr (u "0.1.0")))])))] []];
t "models/bindings/test_ibmmq.py::TestIBMMQOperationBindings.test_ibmmq_operation_bindings_serialization" [SLet 0 (XNew "IBMMQOperationBindings" (XVal (VDict [])));
  SLet 1 (XDump (XVar 0));
  SAssert (CEq (XVar 1) (XUnurl (XVal (VDict []))))];
t "models/bindings/test_ibmmq.py::TestIBMMQOperationBindings.test_ibmmq_operation_bindings_python_validation_error" [SRaises [SDo (XNew "IBMMQOperationBindings" (XVal (VDict [((u "some_field"), (VStr (u "value")))])))] []];
t "models/bindings/test_ibmmq.py::TestIBMMQOperationBindings.test_ibmmq_operation_bindings_yaml_validation_error" [SRaises [SDo (XNew "IBMMQOperationBindings" (XVal (VDict [((u "some_field"), (VStr (u "value")))])))] []];
t "models/bindings/test_ibmmq.py::TestIBMMQOperationBindings.test_ibmmq_operation_bindings_yaml_empty_validation" [SLet 0 (XNew "IBMMQOperationBindings" (XVal (VDict [])));
  SAssert (CNot (CEq (XVar 0) (XVal VNone)))];
t "models/bindings/test_ibmmq.py::TestIBMMQMessageBindings.test_ibmmq_message_bindings_validation/case_message_binding_string" [SLet 0 (XNew "IBMMQMessageBindings" (XVal (VDict [((u "type"), (VStr (u "string"))); ((u "bindingVersion"), (VStr (u "0.1.0")))])));
  SAssert (CNot (CEq (XVar 0) (XVal VNone)));
  SAssert (CEq (XAttr (XVar 0) (u "binding_version")) (XVal (VStr (u "0.1.0"))))];
t "models/bindings/test_ibmmq.py::TestIBMMQMessageBindings.test_ibmmq_message_bindings_serialization/case_ibmmq_message_binding_serialization_empty" [SLet 0 (XNew "IBMMQMessageBindings" (XVal (VDict [])));
  SLet 1 (XDump (XVar 0));
  SAssert (CEq (XVar 1) (XUnurl (XVal (VDict [((u "bindingVersion"), (VStr (u "0.1.0"))); ((u "type"), (VStr (u "string")))]))))]].
Definition part4 : list (string * list stmt) := [
t "models/bindings/test_ibmmq.py::TestIBMMQMessageBindings.test_ibmmq_message_bindings_serialization/case_ibmmq_message_binding_serialization_string" [SLet 0 (XNew "IBMMQMessageBindings" (XVal (VDict [((u "type"), (VStr (u "string")))])));
  SLet 1 (XDump (XVar 0));
  SAssert (CEq (XVar 1) (XUnurl (XVal (VDict [((u "type"), (VStr (u "string"))); ((u "bindingVersion"), (VStr (u "0.1.0")))]))))];
t "models/bindings/test_ibmmq.py::TestIBMMQMessageBindings.test_ibmmq_message_bindings_python_validation_error" [SRaises [SDo (XNew "IBMMQMessageBindings" (XVal (VDict [((u "type"), (VStr (u "string"))); ((u "invalid_field"), (VStr (u "value")))])))] []];
t "models/bindings/test_ibmmq.py::TestIBMMQMessageBindings.test_ibmmq_message_bindings_yaml_validation_error" [SRaises [SDo (XNew "IBMMQMessageBindings" (XVal (VDict [((u "type"), (VStr (u "string"))); ((u "invalid_field"), (VStr (u "value"))); ((u "bindingVersion"), (VStr (u "0.1.0")))])))] []];
t "models/bindings/test_ibmmq.py::TestIBMMQServerBindingsValidator.test_ibmmq_server_bindings_validator_errors/case_server_binding_heart_beat_interval_too_low" [SRaises [SDo (XNew "IBMMQServerBindings" (XVal (VDict [((u "heartBeatInterval"), (VInt (-1)%Z)); ((u "bindingVersion"), (VStr (u "0.1.0")))])))] [(u "heartBeatInterval MUST be 0-999999")]];
t "models/bindings/test_ibmmq.py::TestIBMMQServerBindingsValidator.test_ibmmq_server_bindings_validator_errors/case_server_binding_heart_beat_interval_too_high" [SRaises [SDo (XNew "IBMMQServerBindings" (XVal (VDict [((u "heartBeatInterval"), (VInt (1000000)%Z)); ((u "bindingVersion"), (VStr (u "0.1.0")))])))] [(u "heartBeatInterval MUST be 0-999999")]];
t "models/bindings/test_ibmmq.py::TestIBMMQChannelBindingsValidator.test_ibmmq_channel_bindings_field_validator_errors/case_channel_binding_max_msg_length_too_low" [SRaises [SDo (XNew "IBMMQChannelBindings" (XVal (VDict [((u "destinationType"), (VStr (u "topic"))); ((u "maxMsgLength"), (VInt (-1)%Z)); ((u "bindingVersion"), (VStr (u "0.1.0")))])))] [(u "maxMsgLength MUST be 0-104,857,600 bytes (100 MB)")]];
t "models/bindings/test_ibmmq.py::TestIBMMQChannelBindingsValidator.test_ibmmq_channel_bindings_field_validator_errors/case_channel_binding_max_msg_length_too_high" [SRaises [SDo (XNew "IBMMQChannelBindings" (XVal (VDict [((u "destinationType"), (VStr (u "topic"))); ((u "maxMsgLength"), (VInt (104857601)%Z)); ((u "bindingVersion"), (VStr (u "0.1.0")))])))] [(u "maxMsgLength MUST be 0-104,857,600 bytes (100 MB)")]];
t "models/bindings/test_ibmmq.py::TestIBMMQChannelBindingsValidator.test_ibmmq_channel_bindings_model_validator_errors/case_channel_binding_queue_and_topic_coexist" [SRaises [SDo (XNew "IBMMQChannelBindings" (XVal (VDict [((u "destinationType"), (VStr (u "topic"))); ((u "queue"), (VDict [((u "objectName"), (VStr (u "myQueue")))])); ((u "topic"), (VDict [((u "objectName"), (VStr (u "myTopic")))])); ((u "bindingVersion"), (VStr (u "0.1.0")))])))] [(u "queue and topic fields MUST NOT coexist within a channel binding")]];
t "models/bindings/test_ibmmq.py::TestIBMMQChannelBindingsValidator.test_ibmmq_channel_bindings_model_validator_errors/case_channel_binding_queue_destination_type_without_queue" [SRaises [SDo (XNew "IBMMQChannelBindings" (XVal (VDict [((u "destinationType"), (VStr (u "queue"))); ((u "bindingVersion"), (VStr (u "0.1.0")))])))] [(u "queue must be provided when destinationType='queue'")]];
t "models/bindings/test_ibmmq.py::TestIBMMQMessageBindingsValidator.test_ibmmq_message_bindings_field_validator_errors/case_message_binding_expiry_negative" [SRaises [SDo (XNew "IBMMQMessageBindings" (XVal (VDict [((u "type"), (VStr (u "binary"))); ((u "expiry"), (VInt (-1)%Z)); ((u "bindingVersion"), (VStr (u "0.1.0")))])))] [(u "expiry value MUST be either zero (unlimited) or greater than zero")]];
t "models/bindings/test_ibmmq.py::TestIBMMQMessageBindingsValidator.test_ibmmq_message_bindings_model_validator_errors/case_message_binding_headers_with_string_type" [SRaises [SDo (XNew "IBMMQMessageBindings" (XVal (VDict [((u "type"), (VStr (u "string"))); ((u "headers"), (VStr (u "some_headers"))); ((u "bindingVersion"), (VStr (u "0.1.0")))])))] [(u "headers MUST NOT be specified if type = 'string' or 'jms'")]];
t "models/bindings/test_ibmmq.py::TestIBMMQMessageBindingsValidator.test_ibmmq_message_bindings_model_validator_errors/case_message_binding_headers_with_jms_type" [SRaises [SDo (XNew "IBMMQMessageBindings" (XVal (VDict [((u "type"), (VStr (u "jms"))); ((u "headers"), (VStr (u "some_headers"))); ((u "bindingVersion"), (VStr (u "0.1.0")))])))] [(u "headers MUST NOT be specified if type = 'string' or 'jms'")]];
t "models/bindings/test_jms.py::TestJMSServerBindings.test_jms_server_bindings_validation/case_server_binding_full" [SLet 0 (XNew "JMSServerBindings" (XVal (VDict [((u "jmsConnectionFactory"), (VStr (u "org.apache.activemq.ActiveMQConnectionFactory"))); ((u "properties"), (VList [(VDict [((u "name"), (VStr (u "disableTimeStampsByDefault"))); ((u "value"), (VBool false))])])); ((u "clientID"), (VStr (u "my-application-1"))); ((u "bindingVersion"), (VStr (u "0.0.1")))])));
  SAssert (CNot (CEq (XVar 0) (XVal VNone)));
  SAssert (CEq (XAttr (XVar 0) (u "binding_version")) (XVal (VStr (u "0.0.1"))))];
t "models/bindings/test_jms.py::TestJMSServerBindings.test_jms_server_bindings_serialization/case_jms_server_binding_serialization_full" [SLet 0 (XNew "JMSServerBindings" (XDict [((u "jms_connection_factory"), (XVal (VStr (u "org.apache.activemq.ActiveMQConnectionFactory")))); ((u "properties"), (XList [(XNew "Schema" (XDict [((u "type"), (XVal (VStr (u "object")))); ((u "properties"), (XDict [((u "name"), (XNew "Schema" (XVal (VDict [((u "type"), (VStr (u "string"))); ((u "const"), (VStr (u "disableTimeStampsByDefault")))])))); ((u "value"), (XNew "Schema" (XVal (VDict [((u "type"), (VStr (u "boolean"))); ((u "const"), (VBool false))]))))]))]))])); ((u "client_id"), (XVal (VStr (u "my-application-1"))))]));
  SLet 1 (XDump (XVar 0));
  SAssert (CEq (XVar 1) (XUnurl (XVal (VDict [((u "jmsConnectionFactory"), (VStr (u "org.apache.activemq.ActiveMQConnectionFactory"))); ((u "properties"), (VList [(VDict [((u "type"), (VStr (u "object"))); ((u "properties"), (VDict [((u "name"), (VDict [((u "type"), (VStr (u "string"))); ((u "const"), (VStr (u "disableTimeStampsByDefault")))])); ((u "value"), (VDict [((u "type"), (VStr (u "boolean"))); ((u "const"), (VBool false))]))]))])])); ((u "clientID"), (VStr (u "my-application-1"))); ((u "bindingVersion"), (VStr (u "0.0.1")))]))))];
t "models/bindings/test_jms.py::TestJMSServerBindings.test_jms_server_binding_all_fields_validation" [SLet 0 (XNew "JMSServerBindings" (XVal (VDict [((u "jmsConnectionFactory"), (VStr (u "org.apache.activemq.ActiveMQConnectionFactory"))); ((u "properties"), (VList [(VDict [((u "name"), (VStr (u "disableTimeStampsByDefault"))); ((u "value"), (VBool false))])])); ((u "clientID"), (VStr (u "my-application-1"))); ((u "bindingVersion"), (VStr (u "0.0.1")))])));
  SAssert (CEq (XAttr (XVar 0) (u "jms_connection_factory")) (XVal (VStr (u "org.apache.activemq.ActiveMQConnectionFactory"))));
  SAssert (CNot (CEq (XAttr (XVar 0) (u "properties")) (XVal VNone)));
  SAssert (CEq (XLen (XAttr (XVar 0) (u "properties"))) (XVal (VInt (1)%Z)));
  SAssert (CEq (XAttr (XVar 0) (u "client_id")) (XVal (VStr (u "my-application-1"))));
  SAssert (CEq (XAttr (XVar 0) (u "binding_version")) (XVal (VStr (u "0.0.1"))))];
t "models/bindings/test_jms.py::TestJMSServerBindings.test_jms_server_bindings_python_validation_error" [SRaises [SDo (XNew "JMSServerBindings" (XVal (VDict [((u "jms_connection_factory"), (VStr (u "test.factory"))); ((u "some_field"), (VStr (u "value")))])))] []];
t "models/bindings/test_jms.py::TestJMSServerBindings.test_jms_server_bindings_yaml_validation_error" [SRaises [SDo (XNew "JMSServerBindings" (XVal (VDict [((u "jmsConnectionFactory"), (VStr (u "test.factory"))); ((u "some_field"), (VStr (u "value"))); ((u "bindingVersion"), (VStr (u "0.0.1")))])))] []];
t "models/bindings/test_jms.py::TestJMSChannelBindings.test_jms_channel_bindings_validation/case_channel_binding_fifo_queue" [SLet 0 (XNew "JMSChannelBindings" (XVal (VDict [((u "destination"), (VStr (u "user-sign-up"))); ((u "destinationType"), (VStr (u "fifo-queue"))); ((u "bindingVersion"), (VStr (u "0.0.1")))])));
  SAssert (CNot (CEq (XVar 0) (XVal VNone)));
  SAssert (CEq (XAttr (XVar 0) (u "binding_version")) (XVal (VStr (u "0.0.1"))))];
t "models/bindings/test_jms.py::TestJMSChannelBindings.test_jms_channel_bindings_serialization/case_jms_channel_binding_serialization_empty" [SLet 0 (XNew "JMSChannelBindings" (XVal (VDict [])));
  SLet 1 (XDump (XVar 0));
  SAssert (CEq (XVar 1) (XUnurl (XVal (VDict [((u "bindingVersion"), (VStr (u "0.0.1")))]))))];
t "models/bindings/test_jms.py::TestJMSChannelBindings.test_jms_channel_bindings_serialization/case_jms_channel_binding_serialization_fifo_queue" [SLet 0 (XNew "JMSChannelBindings" (XVal (VDict [((u "destination"), (VStr (u "user-sign-up"))); ((u "destination_type"), (VStr (u "fifo-queue")))])));
  SLet 1 (XDump (XVar 0));
  SAssert (CEq (XVar 1) (XUnurl (XVal (VDict [((u "destination"), (VStr (u "user-sign-up"))); ((u "destinationType"), (VStr (u "fifo-queue"))); ((u "bindingVersion"), (VStr (u "0.0.1")))]))))];
t "models/bindings/test_jms.py::TestJMSChannelBindings.test_jms_channel_binding_all_fields_validation" [SLet 0 (XNew "JMSChannelBindings" (XVal (VDict [((u "destination"), (VStr (u "user-sign-up"))); ((u "destinationType"), (VStr (u "fifo-queue"))); ((u "bindingVersion"), (VStr (u "0.0.1")))])));
  SAssert (CEq (XAttr (XVar 0) (u "destination")) (XVal (VStr (u "user-sign-up"))));
  SAssert (CEq (XAttr (XVar 0) (u "destination_type")) (XVal (VStr (u "fifo-queue"))));
  SAssert (CEq (XAttr (XVar 0) (u "binding_version")) (XVal (VStr (u "0.0.1"))))];
t "models/bindings/test_jms.py::TestJMSChannelBindings.test_jms_channel_bindings_python_validation_error" [SRaises [SDo (XNew "JMSChannelBindings" (XVal (VDict [((u "some_field"), (VStr (u "value")))])))] []];
t "models/bindings/test_jms.py::TestJMSChannelBindings.test_jms_channel_bindings_yaml_validation_error" [SRaises [SDo (XNew "JMSChannelBindings" (XVal (VDict [((u "some_field"), (VStr (u "value"))); ((u "bindingVersion"), (VStr (u "0.0.1")))])))] []];
t "models/bindings/test_jms.py::TestJMSOperationBindings.test_jms_operation_bindings_serialization" [SLet 0 (XNew "JMSOperationBindings" (XVal (VDict [])));
  SLet 1 (XDump (XVar 0));
  SAssert (CEq (XVar 1) (XUnurl (XVal (VDict []))))];
t "models/bindings/test_jms.py::TestJMSOperationBindings.test_jms_operation_bindings_python_validation_error" [SRaises [SDo (XNew "JMSOperationBindings" (XVal (VDict [((u "some_field"), (VStr (u "value")))])))] []];
t "models/bindings/test_jms.py::TestJMSOperationBindings.test_jms_operation_bindings_yaml_validation_error" [SRaises [SDo (XNew "JMSOperationBindings" (XVal (VDict [((u "some_field"), (VStr (u "value")))])))] []];
t "models/bindings/test_jms.py::TestJMSOperationBindings.test_jms_operation_bindings_yaml_empty_validation" [SLet 0 (XNew "JMSOperationBindings" (XVal (VDict [])));
  SAssert (CNot (CEq (XVar 0) (XVal VNone)))];
t "models/bindings/test_jms.py::TestJMSMessageBindings.test_jms_message_bindings_validation/case_message_binding_with_headers" [SLet 0 (XNew "JMSMessageBindings" (XVal (VDict [((u "headers"), (VDict [((u "required"), (VList [(VStr (u "JMSMessageID"))])); ((u "properties"), (VDict [((u "JMSMessageID"), (VDict [((u "name"), (VStr (u "JMSMessageID"))); ((u "description"), (VStr (u "A unique message identifier."))); ((u "type"), (VStr (u "string")))])); ((u "JMSReplyTo"), (VDict [((u "name"), (VStr (u "JMSReplyTo"))); ((u "description"), (VStr (u "The queue or topic that the message sender expects replies to."))); ((u "type"), (VStr (u "string")))]))]))])); ((u "bindingVersion"), (VStr (u "0.0.1")))])));
  SAssert (CNot (CEq (XVar 0) (XVal VNone)));
  SAssert (CEq (XAttr (XVar 0) (u "binding_version")) (XVal (VStr (u "0.0.1"))))];
t "models/bindings/test_jms.py::TestJMSMessageBindings.test_jms_message_bindings_serialization/case_jms_message_binding_serialization_empty" [SLet 0 (XNew "JMSMessageBindings" (XVal (VDict [])));
  SLet 1 (XDump (XVar 0));
  SAssert (CEq (XVar 1) (XUnurl (XVal (VDict [((u "bindingVersion"), (VStr (u "0.0.1")))]))))];
t "models/bindings/test_jms.py::TestJMSMessageBindings.test_jms_message_bindings_serialization/case_jms_message_binding_serialization_with_headers" [SLet 0 (XNew "JMSMessageBindings" (XDict [((u "headers"), (XNew "Schema" (XDict [((u "type"), (XVal (VStr (u "object")))); ((u "required"), (XVal (VList [(VStr (u "JMSMessageID"))]))); ((u "properties"), (XDict [((u "JMSMessageID"), (XNew "Schema" (XVal (VDict [((u "name"), (VStr (u "JMSMessageID"))); ((u "description"), (VStr (u "A unique message identifier."))); ((u "type"), (VStr (u "string")))])))); ((u "JMSReplyTo"), (XNew "Schema" (XVal (VDict [((u "name"), (VStr (u "JMSReplyTo"))); ((u "description"), (VStr (u "The queue or topic that the message sender expects replies to."))); ((u "type"), (VStr (u "string")))]))))]))])))]));
  SLet 1 (XDump (XVar 0));
  SAssert (CEq (XVar 1) (XUnurl (XVal (VDict [((u "headers"), (VDict [((u "type"), (VStr (u "object"))); ((u "required"), (VList [(VStr (u "JMSMessageID"))])); ((u "properties"), (VDict [((u "JMSMessageID"), (VDict [((u "name"), (VStr (u "JMSMessageID"))); ((u "description"), (VStr (u "A unique message identifier."))); ((u "type"), (VStr (u "string")))])); ((u "JMSReplyTo"), (VDict [((u "name"), (VStr (u "JMSReplyTo"))); ((u "description"), (VStr (u "The queue or topic that the message sender expects replies to."))); ((u "type"), (VStr (u "string")))]))]))])); ((u "bindingVersion"), (VStr (u "0.0.1")))]))))];
t "models/bindings/test_jms.py::TestJMSMessageBindings.test_jms_message_binding_headers_schema_validation" [SLet 0 (XNew "JMSMessageBindings" (XVal (VDict [((u "headers"), (VDict [((u "type"), (VStr (u "object"))); ((u "required"), (VList [(VStr (u "JMSMessageID"))])); ((u "properties"), (VDict [((u "JMSMessageID"), (VDict [((u "name"), (VStr (u "JMSMessageID"))); ((u "description"), (VStr (u "A unique message identifier."))); ((u "type"), (VStr (u "string")))]))]))])); ((u "bindingVersion"), (VStr (u "0.0.1")))])));
  SAssert (CNot (CEq (XAttr (XVar 0) (u "headers")) (XVal VNone)));
  SAssert (CIs (XAttr (XVar 0) (u "headers")) ["Schema"]);
  SAssert (CEq (XAttr (XVar 0) (u "binding_version")) (XVal (VStr (u "0.0.1"))))];
t "models/bindings/test_jms.py::TestJMSMessageBindings.test_jms_message_bindings_python_validation_error" [SRaises [SDo (XNew "JMSMessageBindings" (XVal (VDict [((u "some_field"), (VStr (u "value")))])))] []];
t "models/bindings/test_jms.py::TestJMSMessageBindings.test_jms_message_bindings_yaml_validation_error" [SRaises [SDo (XNew "JMSMessageBindings" (XVal (VDict [((u "some_field"), (VStr (u "value"))); ((u "bindingVersion"), (VStr (u "0.0.1")))])))] []];
t "models/bindings/test_kafka.py::TestKafkaServerBindingsValidator.test_kafka_server_bindings_validator_errors/case_kafka_server_binding_validator_vendor_without_url" [SRaises [SDo (XNew "KafkaServerBindings" (XVal (VDict [((u "schemaRegistryVendor"), (VStr (u "confluent"))); ((u "bindingVersion"), (VStr (u "0.5.0")))])))] [(u "schemaRegistryVendor requires schemaRegistryUrl")]];
t "models/bindings/test_kafka.py::TestKafkaServerBindings.test_kafka_server_bindings_validation_empty" [SLet 0 (XNew "KafkaServerBindings" (XVal (VDict [((u "bindingVersion"), (VStr (u "0.5.0")))])));
  SAssert (CEq (XAttr (XVar 0) (u "binding_version")) (XVal (VStr (u "0.5.0"))));
  SAssert (CEq (XAttr (XVar 0) (u "schema_registry_url")) (XVal VNone));
  SAssert (CEq (XAttr (XVar 0) (u "schema_registry_vendor")) (XVal VNone))];
t "models/bindings/test_kafka.py::TestKafkaServerBindings.test_kafka_server_bindings_validation_full" [SLet 0 (XNew "KafkaServerBindings" (XVal (VDict [((u "schemaRegistryUrl"), (VStr (u "https://my-schema-registry.com"))); ((u "schemaRegistryVendor"), (VStr (u "confluent"))); ((u "bindingVersion"), (VStr (u "0.5.0")))])));
  SAssert (CEq (XAttr (XVar 0) (u "binding_version")) (XVal (VStr (u "0.5.0"))));
  SAssert (CEq (XAttr (XVar 0) (u "schema_registry_url")) (XVal (VStr (u "https://my-schema-registry.com"))));
  SAssert (CEq (XAttr (XVar 0) (u "schema_registry_vendor")) (XVal (VStr (u "confluent"))))];
t "models/bindings/test_kafka.py::TestKafkaServerBindings.test_kafka_server_bindings_serialization/case_kafka_server_binding_serialization_empty" [SLet 0 (XNew "KafkaServerBindings" (XVal (VDict [])));
  SLet 1 (XDump (XVar 0));
  SAssert (CEq (XVar 1) (XUnurl (XVal (VDict [((u "bindingVersion"), (VStr (u "0.5.0")))]))))];
t "models/bindings/test_kafka.py::TestKafkaServerBindings.test_kafka_server_bindings_serialization/case_kafka_server_binding_serialization_full" [SLet 0 (XNew "KafkaServerBindings" (XVal (VDict [((u "schema_registry_url"), (VStr (u "https://my-schema-registry.com"))); ((u "schema_registry_vendor"), (VStr (u "confluent")))])));
  SLet 1 (XDump (XVar 0));
  SAssert (CEq (XVar 1) (XUnurl (XVal (VDict [((u "schemaRegistryUrl"), (VStr (u "https://my-schema-registry.com"))); ((u "schemaRegistryVendor"), (VStr (u "confluent"))); ((u "bindingVersion"), (VStr (u "0.5.0")))]))))];
t "models/bindings/test_kafka.py::TestKafkaChannelBindings.test_kafka_channel_bindings_validation_empty" [SLet 0 (XNew "KafkaChannelBindings" (XVal (VDict [((u "bindingVersion"), (VStr (u "0.5.0")))])));
  SAssert (CEq (XAttr (XVar 0) (u "binding_version")) (XVal (VStr (u "0.5.0"))));
  SAssert (CEq (XAttr (XVar 0) (u "topic")) (XVal VNone));
  SAssert (CEq (XAttr (XVar 0) (u "partitions")) (XVal VNone));
  SAssert (CEq (XAttr (XVar 0) (u "replicas")) (XVal VNone));
  SAssert (CEq (XAttr (XVar 0) (u "topic_configuration")) (XVal VNone))];
t "models/bindings/test_kafka.py::TestKafkaChannelBindings.test_kafka_channel_bindings_validation_minimal" [SLet 0 (XNew "KafkaChannelBindings" (XVal (VDict [((u "topic"), (VStr (u "my-topic"))); ((u "bindingVersion"), (VStr (u "0.5.0")))])));
  SAssert (CEq (XAttr (XVar 0) (u "binding_version")) (XVal (VStr (u "0.5.0"))));
  SAssert (CEq (XAttr (XVar 0) (u "topic")) (XVal (VStr (u "my-topic"))));
  SAssert (CEq (XAttr (XVar 0) (u "partitions")) (XVal VNone));
  SAssert (CEq (XAttr (XVar 0) (u "replicas")) (XVal VNone));
  SAssert (CEq (XAttr (XVar 0) (u "topic_configuration")) (XVal VNone))]].
Definition part5 : list (string * list stmt) := [
t "models/bindings/test_kafka.py::TestKafkaChannelBindings.test_kafka_channel_bindings_validation_full" [SLet 0 (XNew "KafkaChannelBindings" (XVal (VDict [((u "topic"), (VStr (u "my-specific-topic-name"))); ((u "partitions"), (VInt (20)%Z)); ((u "replicas"), (VInt (3)%Z)); ((u "topicConfiguration"), (VDict [((u "cleanup.policy"), (VList [(VStr (u "delete")); (VStr (u "compact"))])); ((u "retention.ms"), (VInt (604800000)%Z)); ((u "retention.bytes"), (VInt (1000000000)%Z)); ((u "delete.retention.ms"), (VInt (86400000)%Z)); ((u "max.message.bytes"), (VInt (1048588)%Z))])); ((u "bindingVersion"), (VStr (u "0.5.0")))])));
  SAssert (CEq (XAttr (XVar 0) (u "binding_version")) (XVal (VStr (u "0.5.0"))));
  SAssert (CEq (XAttr (XVar 0) (u "topic")) (XVal (VStr (u "my-specific-topic-name"))));
  SAssert (CEq (XAttr (XVar 0) (u "partitions")) (XVal (VInt (20)%Z)));
  SAssert (CEq (XAttr (XVar 0) (u "replicas")) (XVal (VInt (3)%Z)));
  SAssert (CNot (CEq (XAttr (XVar 0) (u "topic_configuration")) (XVal VNone)));
  SAssert (CIs (XAttr (XVar 0) (u "topic_configuration")) ["KafkaTopicConfiguration"]);
  SAssert (CEq (XAttr (XAttr (XVar 0) (u "topic_configuration")) (u "cleanup_policy")) (XVal (VList [(VStr (u "delete")); (VStr (u "compact"))])));
  SAssert (CEq (XAttr (XAttr (XVar 0) (u "topic_configuration")) (u "retention_ms")) (XVal (VInt (604800000)%Z)));
  SAssert (CEq (XAttr (XAttr (XVar 0) (u "topic_configuration")) (u "retention_bytes")) (XVal (VInt (1000000000)%Z)));
  SAssert (CEq (XAttr (XAttr (XVar 0) (u "topic_configuration")) (u "delete_retention_ms")) (XVal (VInt (86400000)%Z)));
  SAssert (CEq (XAttr (XAttr (XVar 0) (u "topic_configuration")) (u "max_message_bytes")) (XVal (VInt (1048588)%Z)))];
t "models/bindings/test_kafka.py::TestKafkaChannelBindings.test_kafka_channel_bindings_serialization/case_kafka_channel_binding_serialization_empty" [SLet 0 (XNew "KafkaChannelBindings" (XVal (VDict [])));
  SLet 1 (XDump (XVar 0));
  SAssert (CEq (XVar 1) (XUnurl (XVal (VDict [((u "bindingVersion"), (VStr (u "0.5.0")))]))))];
t "models/bindings/test_kafka.py::TestKafkaChannelBindings.test_kafka_channel_bindings_serialization/case_kafka_channel_binding_serialization_minimal" [SLet 0 (XNew "KafkaChannelBindings" (XVal (VDict [((u "topic"), (VStr (u "my-topic")))])));
  SLet 1 (XDump (XVar 0));
  SAssert (CEq (XVar 1) (XUnurl (XVal (VDict [((u "topic"), (VStr (u "my-topic"))); ((u "bindingVersion"), (VStr (u "0.5.0")))]))))];
t "models/bindings/test_kafka.py::TestKafkaChannelBindings.test_kafka_channel_bindings_serialization/case_kafka_channel_binding_serialization_full" [SLet 0 (XNew "KafkaChannelBindings" (XDict [((u "topic"), (XVal (VStr (u "my-specific-topic-name")))); ((u "partitions"), (XVal (VInt (20)%Z))); ((u "replicas"), (XVal (VInt (3)%Z))); ((u "topic_configuration"), (XNew "KafkaTopicConfiguration" (XVal (VDict [((u "cleanup_policy"), (VList [(VStr (u "delete")); (VStr (u "compact"))])); ((u "retention_ms"), (VInt (604800000)%Z)); ((u "retention_bytes"), (VInt (1000000000)%Z)); ((u "delete_retention_ms"), (VInt (86400000)%Z)); ((u "max_message_bytes"), (VInt (1048588)%Z))]))))]));
  SLet 1 (XDump (XVar 0));
  SAssert (CEq (XVar 1) (XUnurl (XVal (VDict [((u "topic"), (VStr (u "my-specific-topic-name"))); ((u "partitions"), (VInt (20)%Z)); ((u "replicas"), (VInt (3)%Z)); ((u "topicConfiguration"), (VDict [((u "cleanup.policy"), (VList [(VStr (u "delete")); (VStr (u "compact"))])); ((u "retention.ms"), (VInt (604800000)%Z)); ((u "retention.bytes"), (VInt (1000000000)%Z)); ((u "delete.retention.ms"), (VInt (86400000)%Z)); ((u "max.message.bytes"), (VInt (1048588)%Z))])); ((u "bindingVersion"), (VStr (u "0.5.0")))]))))];
t "models/bindings/test_kafka.py::TestKafkaChannelBindingsValidator.test_kafka_channel_bindings_validator_errors/case_kafka_channel_binding_validator_partitions_zero" [SRaises [SDo (XNew "KafkaChannelBindings" (XVal (VDict [((u "partitions"), (VInt (0)%Z)); ((u "bindingVersion"), (VStr (u "0.5.0")))])))] [(u "partitions must be positive")]];
t "models/bindings/test_kafka.py::TestKafkaChannelBindingsValidator.test_kafka_channel_bindings_validator_errors/case_kafka_channel_binding_validator_partitions_negative" [SRaises [SDo (XNew "KafkaChannelBindings" (XVal (VDict [((u "partitions"), (VInt (-1)%Z)); ((u "bindingVersion"), (VStr (u "0.5.0")))])))] [(u "partitions must be positive")]];
t "models/bindings/test_kafka.py::TestKafkaChannelBindingsValidator.test_kafka_channel_bindings_validator_errors/case_kafka_channel_binding_validator_replicas_zero" [SRaises [SDo (XNew "KafkaChannelBindings" (XVal (VDict [((u "replicas"), (VInt (0)%Z)); ((u "bindingVersion"), (VStr (u "0.5.0")))])))] [(u "replicas must be positive")]];
t "models/bindings/test_kafka.py::TestKafkaChannelBindingsValidator.test_kafka_channel_bindings_validator_errors/case_kafka_channel_binding_validator_replicas_negative" [SRaises [SDo (XNew "KafkaChannelBindings" (XVal (VDict [((u "replicas"), (VInt (-2)%Z)); ((u "bindingVersion"), (VStr (u "0.5.0")))])))] [(u "replicas must be positive")]];
t "models/bindings/test_kafka.py::TestKafkaTopicConfiguration.test_kafka_topic_configuration_serialization/case_kafka_topic_configuration_serialization_empty" [SLet 0 (XNew "KafkaTopicConfiguration" (XVal (VDict [])));
  SLet 1 (XDump (XVar 0));
  SAssert (CEq (XVar 1) (XUnurl (XVal (VDict []))))];
t "models/bindings/test_kafka.py::TestKafkaTopicConfiguration.test_kafka_topic_configuration_serialization/case_kafka_topic_configuration_serialization_full" [SLet 0 (XNew "KafkaTopicConfiguration" (XVal (VDict [((u "cleanup_policy"), (VList [(VStr (u "delete")); (VStr (u "compact"))])); ((u "retention_ms"), (VInt (604800000)%Z)); ((u "retention_bytes"), (VInt (1000000000)%Z)); ((u "delete_retention_ms"), (VInt (86400000)%Z)); ((u "max_message_bytes"), (VInt (1048588)%Z)); ((u "confluent_key_schema_validation"), (VBool true)); ((u "confluent_key_subject_name_strategy"), (VStr (u "TopicNameStrategy"))); ((u "confluent_value_schema_validation"), (VBool true)); ((u "confluent_value_subject_name_strategy"), (VStr (u "TopicNameStrategy")))])));
  SLet 1 (XDump (XVar 0));
  SAssert (CEq (XVar 1) (XUnurl (XVal (VDict [((u "cleanup.policy"), (VList [(VStr (u "delete")); (VStr (u "compact"))])); ((u "retention.ms"), (VInt (604800000)%Z)); ((u "retention.bytes"), (VInt (1000000000)%Z)); ((u "delete.retention.ms"), (VInt (86400000)%Z)); ((u "max.message.bytes"), (VInt (1048588)%Z)); ((u "confluent.key.schema.validation"), (VBool true)); ((u "confluent.key.subject.name.strategy"), (VStr (u "TopicNameStrategy"))); ((u "confluent.value.schema.validation"), (VBool true)); ((u "confluent.value.subject.name.strategy"), (VStr (u "TopicNameStrategy")))]))))];
t "models/bindings/test_kafka.py::TestKafkaOperationBindings.test_kafka_operation_bindings_validation_empty" [SLet 0 (XNew "KafkaOperationBindings" (XVal (VDict [((u "bindingVersion"), (VStr (u "0.5.0")))])));
  SAssert (CEq (XAttr (XVar 0) (u "binding_version")) (XVal (VStr (u "0.5.0"))));
  SAssert (CEq (XAttr (XVar 0) (u "group_id")) (XVal VNone));
  SAssert (CEq (XAttr (XVar 0) (u "client_id")) (XVal VNone))];
t "models/bindings/test_kafka.py::TestKafkaOperationBindings.test_kafka_operation_bindings_validation_with_schemas" [SLet 0 (XNew "KafkaOperationBindings" (XVal (VDict [((u "groupId"), (VDict [((u "type"), (VStr (u "string"))); ((u "enum"), (VList [(VStr (u "myGroupId"))]))])); ((u "clientId"), (VDict [((u "type"), (VStr (u "string"))); ((u "enum"), (VList [(VStr (u "myClientId"))]))])); ((u "bindingVersion"), (VStr (u "0.5.0")))])));
  SAssert (CEq (XAttr (XVar 0) (u "binding_version")) (XVal (VStr (u "0.5.0"))));
  SAssert (CNot (CEq (XAttr (XVar 0) (u "group_id")) (XVal VNone)));
  SAssert (CIs (XAttr (XVar 0) (u "group_id")) ["Schema"]);
  SAssert (CEq (XAttr (XAttr (XVar 0) (u "group_id")) (u "type")) (XVal (VStr (u "string"))));
  SAssert (CEq (XAttr (XAttr (XVar 0) (u "group_id")) (u "enum")) (XVal (VList [(VStr (u "myGroupId"))])));
  SAssert (CNot (CEq (XAttr (XVar 0) (u "client_id")) (XVal VNone)));
  SAssert (CIs (XAttr (XVar 0) (u "client_id")) ["Schema"]);
  SAssert (CEq (XAttr (XAttr (XVar 0) (u "client_id")) (u "type")) (XVal (VStr (u "string"))));
  SAssert (CEq (XAttr (XAttr (XVar 0) (u "client_id")) (u "enum")) (XVal (VList [(VStr (u "myClientId"))])))];
t "models/bindings/test_kafka.py::TestKafkaOperationBindings.test_kafka_operation_bindings_serialization/case_kafka_operation_binding_serialization_empty" [SLet 0 (XNew "KafkaOperationBindings" (XVal (VDict [])));
  SLet 1 (XDump (XVar 0));
  SAssert (CEq (XVar 1) (XUnurl (XVal (VDict [((u "bindingVersion"), (VStr (u "0.5.0")))]))))];
t "models/bindings/test_kafka.py::TestKafkaOperationBindings.test_kafka_operation_bindings_serialization/case_kafka_operation_binding_serialization_with_schemas" [SLet 0 (XNew "KafkaOperationBindings" (XDict [((u "group_id"), (XNew "Schema" (XVal (VDict [((u "type"), (VStr (u "string"))); ((u "enum"), (VList [(VStr (u "myGroupId"))]))])))); ((u "client_id"), (XNew "Schema" (XVal (VDict [((u "type"), (VStr (u "string"))); ((u "enum"), (VList [(VStr (u "myClientId"))]))]))))]));
  SLet 1 (XDump (XVar 0));
  SAssert (CEq (XVar 1) (XUnurl (XVal (VDict [((u "groupId"), (VDict [((u "type"), (VStr (u "string"))); ((u "enum"), (VList [(VStr (u "myGroupId"))]))])); ((u "clientId"), (VDict [((u "type"), (VStr (u "string"))); ((u "enum"), (VList [(VStr (u "myClientId"))]))])); ((u "bindingVersion"), (VStr (u "0.5.0")))]))))];
t "models/bindings/test_kafka.py::TestKafkaMessageBindings.test_kafka_message_bindings_validation_empty" [SLet 0 (XNew "KafkaMessageBindings" (XVal (VDict [((u "bindingVersion"), (VStr (u "0.5.0")))])));
  SAssert (CEq (XAttr (XVar 0) (u "binding_version")) (XVal (VStr (u "0.5.0"))));
  SAssert (CEq (XAttr (XVar 0) (u "key")) (XVal VNone));
  SAssert (CEq (XAttr (XVar 0) (u "schema_id_location")) (XVal VNone));
  SAssert (CEq (XAttr (XVar 0) (u "schema_id_payload_encoding")) (XVal VNone));
  SAssert (CEq (XAttr (XVar 0) (u "schema_lookup_strategy")) (XVal VNone))];
t "models/bindings/test_kafka.py::TestKafkaMessageBindings.test_kafka_message_bindings_validation_confluent" [SLet 0 (XNew "KafkaMessageBindings" (XVal (VDict [((u "key"), (VDict [((u "type"), (VStr (u "string"))); ((u "enum"), (VList [(VStr (u "myKey"))]))])); ((u "schemaIdLocation"), (VStr (u "payload"))); ((u "schemaIdPayloadEncoding"), (VStr (u "4"))); ((u "bindingVersion"), (VStr (u "0.5.0")))])));
  SAssert (CEq (XAttr (XVar 0) (u "binding_version")) (XVal (VStr (u "0.5.0"))));
  SAssert (CNot (CEq (XAttr (XVar 0) (u "key")) (XVal VNone)));
  SAssert (CIs (XAttr (XVar 0) (u "key")) ["Schema"]);
  SAssert (CEq (XAttr (XAttr (XVar 0) (u "key")) (u "type")) (XVal (VStr (u "string"))));
  SAssert (CEq (XAttr (XAttr (XVar 0) (u "key")) (u "enum")) (XVal (VList [(VStr (u "myKey"))])));
  SAssert (CEq (XAttr (XVar 0) (u "schema_id_location")) (XVal (VStr (u "payload"))));
  SAssert (CEq (XAttr (XVar 0) (u "schema_id_payload_encoding")) (XVal (VStr (u "4"))));
  SAssert (CEq (XAttr (XVar 0) (u "schema_lookup_strategy")) (XVal VNone))];
t "models/bindings/test_kafka.py::TestKafkaMessageBindings.test_kafka_message_bindings_validation_apicurio" [SLet 0 (XNew "KafkaMessageBindings" (XVal (VDict [((u "key"), (VDict [((u "type"), (VStr (u "string"))); ((u "enum"), (VList [(VStr (u "myKey"))]))])); ((u "schemaIdLocation"), (VStr (u "payload"))); ((u "schemaIdPayloadEncoding"), (VStr (u "apicurio-new"))); ((u "schemaLookupStrategy"), (VStr (u "TopicIdStrategy"))); ((u "bindingVersion"), (VStr (u "0.5.0")))])));
  SAssert (CEq (XAttr (XVar 0) (u "binding_version")) (XVal (VStr (u "0.5.0"))));
  SAssert (CNot (CEq (XAttr (XVar 0) (u "key")) (XVal VNone)));
  SAssert (CIs (XAttr (XVar 0) (u "key")) ["Schema"]);
  SAssert (CEq (XAttr (XAttr (XVar 0) (u "key")) (u "type")) (XVal (VStr (u "string"))));
  SAssert (CEq (XAttr (XAttr (XVar 0) (u "key")) (u "enum")) (XVal (VList [(VStr (u "myKey"))])));
  SAssert (CEq (XAttr (XVar 0) (u "schema_id_location")) (XVal (VStr (u "payload"))));
  SAssert (CEq (XAttr (XVar 0) (u "schema_id_payload_encoding")) (XVal (VStr (u "apicurio-new"))));
  SAssert (CEq (XAttr (XVar 0) (u "schema_lookup_strategy")) (XVal (VStr (u "TopicIdStrategy"))))];
t "models/bindings/test_kafka.py::TestKafkaMessageBindings.test_kafka_message_bindings_serialization/case_kafka_message_binding_serialization_empty" [SLet 0 (XNew "KafkaMessageBindings" (XVal (VDict [])));
  SLet 1 (XDump (XVar 0));
  SAssert (CEq (XVar 1) (XUnurl (XVal (VDict [((u "bindingVersion"), (VStr (u "0.5.0")))]))))];
t "models/bindings/test_kafka.py::TestKafkaMessageBindings.test_kafka_message_bindings_serialization/case_kafka_message_binding_serialization_confluent" [SLet 0 (XNew "KafkaMessageBindings" (XDict [((u "key"), (XNew "Schema" (XVal (VDict [((u "type"), (VStr (u "string"))); ((u "enum"), (VList [(VStr (u "myKey"))]))])))); ((u "schema_id_location"), (XVal (VStr (u "payload")))); ((u "schema_id_payload_encoding"), (XVal (VStr (u "4"))))]));
  SLet 1 (XDump (XVar 0));
  SAssert (CEq (XVar 1) (XUnurl (XVal (VDict [((u "key"), (VDict [((u "type"), (VStr (u "string"))); ((u "enum"), (VList [(VStr (u "myKey"))]))])); ((u "schemaIdLocation"), (VStr (u "payload"))); ((u "schemaIdPayloadEncoding"), (VStr (u "4"))); ((u "bindingVersion"), (VStr (u "0.5.0")))]))))];
t "models/bindings/test_kafka.py::TestKafkaMessageBindings.test_kafka_message_bindings_serialization/case_kafka_message_binding_serialization_apicurio" [SLet 0 (XNew "KafkaMessageBindings" (XDict [((u "key"), (XNew "Schema" (XVal (VDict [((u "type"), (VStr (u "string"))); ((u "enum"), (VList [(VStr (u "myKey"))]))])))); ((u "schema_id_location"), (XVal (VStr (u "payload")))); ((u "schema_id_payload_encoding"), (XVal (VStr (u "apicurio-new")))); ((u "schema_lookup_strategy"), (XVal (VStr (u "TopicIdStrategy"))))]));
  SLet 1 (XDump (XVar 0));
  SAssert (CEq (XVar 1) (XUnurl (XVal (VDict [((u "key"), (VDict [((u "type"), (VStr (u "string"))); ((u "enum"), (VList [(VStr (u "myKey"))]))])); ((u "schemaIdLocation"), (VStr (u "payload"))); ((u "schemaIdPayloadEncoding"), (VStr (u "apicurio-new"))); ((u "schemaLookupStrategy"), (VStr (u "TopicIdStrategy"))); ((u "bindingVersion"), (VStr (u "0.5.0")))]))))];
t "models/bindings/test_mercure.py::TestMercureServerBindings.test_mercure_server_bindings_serialization" [SLet 0 (XNew "MercureServerBindings" (XVal (VDict [])));
  SLet 1 (XDump (XVar 0));
  SAssert (CEq (XVar 1) (XUnurl (XVal (VDict []))))];
t "models/bindings/test_mercure.py::TestMercureServerBindings.test_mercure_server_bindings_python_validation_error" [SRaises [SDo (XNew "MercureServerBindings" (XVal (VDict [((u "some_field"), (VStr (u "value")))])))] []];
t "models/bindings/test_mercure.py::TestMercureServerBindings.test_mercure_server_bindings_yaml_validation_error" [SRaises [SDo (XNew "MercureServerBindings" (XVal (VDict [((u "some_field"), (VStr (u "value")))])))] []];
t "models/bindings/test_mercure.py::TestMercureServerBindings.test_mercure_server_bindings_yaml_empty_validation" [SLet 0 (XNew "MercureServerBindings" (XVal (VDict [])));
  SAssert (CNot (CEq (XVar 0) (XVal VNone)))];
t "models/bindings/test_mercure.py::TestMercureChannelBindings.test_mercure_channel_bindings_serialization" [SLet 0 (XNew "MercureChannelBindings" (XVal (VDict [])));
  SLet 1 (XDump (XVar 0));
  SAssert (CEq (XVar 1) (XUnurl (XVal (VDict []))))];
t "models/bindings/test_mercure.py::TestMercureChannelBindings.test_mercure_channel_bindings_python_validation_error" [SRaises [SDo (XNew "MercureChannelBindings" (XVal (VDict [((u "some_field"), (VStr (u "value")))])))] []];
t "models/bindings/test_mercure.py::TestMercureChannelBindings.test_mercure_channel_bindings_yaml_validation_error" [SRaises [SDo (XNew "MercureChannelBindings" (XVal (VDict [((u "some_field"), (VStr (u "value")))])))] []];
t "models/bindings/test_mercure.py::TestMercureChannelBindings.test_mercure_channel_bindings_yaml_empty_validation" [SLet 0 (XNew "MercureChannelBindings" (XVal (VDict [])));
  SAssert (CNot (CEq (XVar 0) (XVal VNone)))];
t "models/bindings/test_mercure.py::TestMercureOperationBindings.test_mercure_operation_bindings_serialization" [SLet 0 (XNew "MercureOperationBindings" (XVal (VDict [])));
  SLet 1 (XDump (XVar 0));
  SAssert (CEq (XVar 1) (XUnurl (XVal (VDict []))))];
t "models/bindings/test_mercure.py::TestMercureOperationBindings.test_mercure_operation_bindings_python_validation_error" [SRaises [SDo (XNew "MercureOperationBindings" (XVal (VDict [((u "some_field"), (VStr (u "value")))])))] []];
t "models/bindings/test_mercure.py::TestMercureOperationBindings.test_mercure_operation_bindings_yaml_validation_error" [SRaises [SDo (XNew "MercureOperationBindings" (XVal (VDict [((u "some_field"), (VStr (u "value")))])))] []];
t "models/bindings/test_mercure.py::TestMercureOperationBindings.test_mercure_operation_bindings_yaml_empty_validation" [SLet 0 (XNew "MercureOperationBindings" (XVal (VDict [])));
  SAssert (CNot (CEq (XVar 0) (XVal VNone)))];
t "models/bindings/test_mercure.py::TestMercureMessageBindings.test_mercure_message_bindings_serialization" [SLet 0 (XNew "MercureMessageBindings" (XVal (VDict [])));
  SLet 1 (XDump (XVar 0));
  SAssert (CEq (XVar 1) (XUnurl (XVal (VDict []))))];
t "models/bindings/test_mercure.py::TestMercureMessageBindings.test_mercure_message_bindings_python_validation_error" [SRaises [SDo (XNew "MercureMessageBindings" (XVal (VDict [((u "some_field"), (VStr (u "value")))])))] []];
t "models/bindings/test_mercure.py::TestMercureMessageBindings.test_mercure_message_bindings_yaml_validation_error" [SRaises [SDo (XNew "MercureMessageBindings" (XVal (VDict [((u "some_field"), (VStr (u "value")))])))] []];
t "models/bindings/test_mercure.py::TestMercureMessageBindings.test_mercure_message_bindings_yaml_empty_validation" [SLet 0 (XNew "MercureMessageBindings" (XVal (VDict [])));
  SAssert (CNot (CEq (XVar 0) (XVal VNone)))];
t "models/bindings/test_mqtt.py::TestMQTTServerBindings.test_mqtt_server_bindings_validation/case_server_binding_full" [SLet 0 (XNew "MQTTServerBindings" (XVal (VDict [((u "clientId"), (VStr (u "guest"))); ((u "cleanSession"), (VBool true)); ((u "lastWill"), (VDict [((u "topic"), (VStr (u "/last-wills"))); ((u "qos"), (VInt (2)%Z)); ((u "message"), (VStr (u "Guest gone offline."))); ((u "retain"), (VBool false))])); ((u "keepAlive"), (VInt (60)%Z)); ((u "sessionExpiryInterval"), (VInt (600)%Z)); ((u "maximumPacketSize"), (VInt (1200)%Z)); ((u "bindingVersion"), (VStr (u "0.2.0")))])));
  SAssert (CNot (CEq (XVar 0) (XVal VNone)));
  SAssert (CEq (XAttr (XVar 0) (u "binding_version")) (XVal (VStr (u "0.2.0"))))];
t "models/bindings/test_mqtt.py::TestMQTTServerBindings.test_mqtt_server_bindings_validation/case_server_binding_with_schema" [SLet 0 (XNew "MQTTServerBindings" (XVal (VDict [((u "sessionExpiryInterval"), (VDict [((u "type"), (VStr (u "integer"))); ((u "minimum"), (VInt (30)%Z)); ((u "maximum"), (VInt (1200)%Z))])); ((u "maximumPacketSize"), (VDict [((u "type"), (VStr (u "integer"))); ((u "minimum"), (VInt (256)%Z))])); ((u "bindingVersion"), (VStr (u "0.2.0")))])));
  SAssert (CNot (CEq (XVar 0) (XVal VNone)));
  SAssert (CEq (XAttr (XVar 0) (u "binding_version")) (XVal (VStr (u "0.2.0"))))];
t "models/bindings/test_mqtt.py::TestMQTTServerBindings.test_mqtt_server_bindings_serialization/case_mqtt_server_binding_serialization_empty" [SLet 0 (XNew "MQTTServerBindings" (XVal (VDict [])));
  SLet 1 (XDump (XVar 0));
  SAssert (CEq (XVar 1) (XUnurl (XVal (VDict [((u "bindingVersion"), (VStr (u "0.2.0")))]))))];
t "models/bindings/test_mqtt.py::TestMQTTServerBindings.test_mqtt_server_bindings_serialization/case_mqtt_server_binding_serialization_full" [SLet 0 (XNew "MQTTServerBindings" (XDict [((u "client_id"), (XVal (VStr (u "guest")))); ((u "clean_session"), (XVal (VBool true))); ((u "last_will"), (XNew "MQTTLastWill" (XVal (VDict [((u "topic"), (VStr (u "/last-wills"))); ((u "qos"), (VInt (2)%Z)); ((u "message"), (VStr (u "Guest gone offline."))); ((u "retain"), (VBool false))])))); ((u "keep_alive"), (XVal (VInt (60)%Z))); ((u "session_expiry_interval"), (XVal (VInt (600)%Z))); ((u "maximum_packet_size"), (XVal (VInt (1200)%Z)))]));
  SLet 1 (XDump (XVar 0));
  SAssert (CEq (XVar 1) (XUnurl (XVal (VDict [((u "clientId"), (VStr (u "guest"))); ((u "cleanSession"), (VBool true)); ((u "lastWill"), (VDict [((u "topic"), (VStr (u "/last-wills"))); ((u "qos"), (VInt (2)%Z)); ((u "message"), (VStr (u "Guest gone offline."))); ((u "retain"), (VBool false))])); ((u "keepAlive"), (VInt (60)%Z)); ((u "sessionExpiryInterval"), (VInt (600)%Z)); ((u "maximumPacketSize"), (VInt (1200)%Z)); ((u "bindingVersion"), (VStr (u "0.2.0")))]))))]].
Definition part6 : list (string * list stmt) := [
t "models/bindings/test_mqtt.py::TestMQTTServerBindings.test_mqtt_server_bindings_serialization/case_mqtt_server_binding_serialization_with_schema" [SLet 0 (XNew "MQTTServerBindings" (XDict [((u "session_expiry_interval"), (XNew "Schema" (XVal (VDict [((u "type"), (VStr (u "integer"))); ((u "minimum"), (VInt (30)%Z)); ((u "maximum"), (VInt (1200)%Z))])))); ((u "maximum_packet_size"), (XNew "Schema" (XVal (VDict [((u "type"), (VStr (u "integer"))); ((u "minimum"), (VInt (256)%Z))]))))]));
  SLet 1 (XDump (XVar 0));
  SAssert (CEq (XVar 1) (XUnurl (XVal (VDict [((u "sessionExpiryInterval"), (VDict [((u "type"), (VStr (u "integer"))); ((u "minimum"), (VInt (30)%Z)); ((u "maximum"), (VInt (1200)%Z))])); ((u "maximumPacketSize"), (VDict [((u "type"), (VStr (u "integer"))); ((u "minimum"), (VInt (256)%Z))])); ((u "bindingVersion"), (VStr (u "0.2.0")))]))))];
t "models/bindings/test_mqtt.py::TestMQTTServerBindings.test_mqtt_server_binding_last_will_validation" [SLet 0 (XNew "MQTTServerBindings" (XVal (VDict [((u "lastWill"), (VDict [((u "topic"), (VStr (u "/last-wills"))); ((u "qos"), (VInt (2)%Z)); ((u "message"), (VStr (u "Guest gone offline."))); ((u "retain"), (VBool false))])); ((u "bindingVersion"), (VStr (u "0.2.0")))])));
  SAssert (CNot (CEq (XAttr (XVar 0) (u "last_will")) (XVal VNone)));
  SAssert (CIs (XAttr (XVar 0) (u "last_will")) ["MQTTLastWill"]);
  SAssert (CEq (XAttr (XAttr (XVar 0) (u "last_will")) (u "topic")) (XVal (VStr (u "/last-wills"))));
  SAssert (CEq (XAttr (XAttr (XVar 0) (u "last_will")) (u "qos")) (XVal (VInt (2)%Z)));
  SAssert (CEq (XAttr (XAttr (XVar 0) (u "last_will")) (u "message")) (XVal (VStr (u "Guest gone offline."))));
  SAssert (CEq (XAttr (XAttr (XVar 0) (u "last_will")) (u "retain")) (XVal (VBool false)));
  SAssert (CEq (XAttr (XVar 0) (u "binding_version")) (XVal (VStr (u "0.2.0"))))];
t "models/bindings/test_mqtt.py::TestMQTTServerBindings.test_mqtt_server_binding_session_expiry_interval_schema_validation" [SLet 0 (XNew "MQTTServerBindings" (XVal (VDict [((u "sessionExpiryInterval"), (VDict [((u "type"), (VStr (u "integer"))); ((u "minimum"), (VInt (30)%Z)); ((u "maximum"), (VInt (1200)%Z))])); ((u "bindingVersion"), (VStr (u "0.2.0")))])));
  SAssert (CNot (CEq (XAttr (XVar 0) (u "session_expiry_interval")) (XVal VNone)));
  SAssert (CIs (XAttr (XVar 0) (u "session_expiry_interval")) ["Schema"]);
  SAssert (CEq (XAttr (XAttr (XVar 0) (u "session_expiry_interval")) (u "type")) (XVal (VStr (u "integer"))));
  SAssert (CEq (XAttr (XVar 0) (u "binding_version")) (XVal (VStr (u "0.2.0"))))];
t "models/bindings/test_mqtt.py::TestMQTTServerBindings.test_mqtt_server_bindings_python_validation_error" [SRaises [SDo (XNew "MQTTServerBindings" (XVal (VDict [((u "some_field"), (VStr (u "value")))])))] []];
t "models/bindings/test_mqtt.py::TestMQTTServerBindings.test_mqtt_server_bindings_yaml_validation_error" [SRaises [SDo (XNew "MQTTServerBindings" (XVal (VDict [((u "some_field"), (VStr (u "value"))); ((u "bindingVersion"), (VStr (u "0.2.0")))])))] []];
t "models/bindings/test_mqtt.py::TestMQTTChannelBindings.test_mqtt_channel_bindings_serialization" [SLet 0 (XNew "MQTTChannelBindings" (XVal (VDict [])));
  SLet 1 (XDump (XVar 0));
  SAssert (CEq (XVar 1) (XUnurl (XVal (VDict []))))];
t "models/bindings/test_mqtt.py::TestMQTTChannelBindings.test_mqtt_channel_bindings_python_validation_error" [SRaises [SDo (XNew "MQTTChannelBindings" (XVal (VDict [((u "some_field"), (VStr (u "value")))])))] []];
t "models/bindings/test_mqtt.py::TestMQTTChannelBindings.test_mqtt_channel_bindings_yaml_validation_error" [SRaises [SDo (XNew "MQTTChannelBindings" (XVal (VDict [((u "some_field"), (VStr (u "value")))])))] []];
t "models/bindings/test_mqtt.py::TestMQTTChannelBindings.test_mqtt_channel_bindings_yaml_empty_validation" [SLet 0 (XNew "MQTTChannelBindings" (XVal (VDict [])));
  SAssert (CNot (CEq (XVar 0) (XVal VNone)))];
t "models/bindings/test_mqtt.py::TestMQTTOperationBindings.test_mqtt_operation_bindings_validation/case_operation_binding_publish_full" [SLet 0 (XNew "MQTTOperationBindings" (XVal (VDict [((u "qos"), (VInt (2)%Z)); ((u "retain"), (VBool true)); ((u "messageExpiryInterval"), (VInt (60)%Z)); ((u "bindingVersion"), (VStr (u "0.2.0")))])));
  SAssert (CNot (CEq (XVar 0) (XVal VNone)));
  SAssert (CEq (XAttr (XVar 0) (u "binding_version")) (XVal (VStr (u "0.2.0"))))];
t "models/bindings/test_mqtt.py::TestMQTTOperationBindings.test_mqtt_operation_bindings_validation/case_operation_binding_publish_with_schema" [SLet 0 (XNew "MQTTOperationBindings" (XVal (VDict [((u "messageExpiryInterval"), (VDict [((u "type"), (VStr (u "integer"))); ((u "minimum"), (VInt (30)%Z)); ((u "maximum"), (VInt (300)%Z))])); ((u "bindingVersion"), (VStr (u "0.2.0")))])));
  SAssert (CNot (CEq (XVar 0) (XVal VNone)));
  SAssert (CEq (XAttr (XVar 0) (u "binding_version")) (XVal (VStr (u "0.2.0"))))];
t "models/bindings/test_mqtt.py::TestMQTTOperationBindings.test_mqtt_operation_bindings_validation/case_operation_binding_subscribe" [SLet 0 (XNew "MQTTOperationBindings" (XVal (VDict [((u "qos"), (VInt (2)%Z)); ((u "bindingVersion"), (VStr (u "0.2.0")))])));
  SAssert (CNot (CEq (XVar 0) (XVal VNone)));
  SAssert (CEq (XAttr (XVar 0) (u "binding_version")) (XVal (VStr (u "0.2.0"))))];
t "models/bindings/test_mqtt.py::TestMQTTOperationBindings.test_mqtt_operation_bindings_serialization/case_mqtt_operation_binding_serialization_empty" [SLet 0 (XNew "MQTTOperationBindings" (XVal (VDict [])));
  SLet 1 (XDump (XVar 0));
  SAssert (CEq (XVar 1) (XUnurl (XVal (VDict [((u "bindingVersion"), (VStr (u "0.2.0")))]))))];
t "models/bindings/test_mqtt.py::TestMQTTOperationBindings.test_mqtt_operation_bindings_serialization/case_mqtt_operation_binding_serialization_publish_full" [SLet 0 (XNew "MQTTOperationBindings" (XVal (VDict [((u "qos"), (VInt (2)%Z)); ((u "retain"), (VBool true)); ((u "message_expiry_interval"), (VInt (60)%Z))])));
  SLet 1 (XDump (XVar 0));
  SAssert (CEq (XVar 1) (XUnurl (XVal (VDict [((u "qos"), (VInt (2)%Z)); ((u "retain"), (VBool true)); ((u "messageExpiryInterval"), (VInt (60)%Z)); ((u "bindingVersion"), (VStr (u "0.2.0")))]))))];
t "models/bindings/test_mqtt.py::TestMQTTOperationBindings.test_mqtt_operation_bindings_serialization/case_mqtt_operation_binding_serialization_publish_with_schema" [SLet 0 (XNew "MQTTOperationBindings" (XDict [((u "message_expiry_interval"), (XNew "Schema" (XVal (VDict [((u "type"), (VStr (u "integer"))); ((u "minimum"), (VInt (30)%Z)); ((u "maximum"), (VInt (300)%Z))]))))]));
  SLet 1 (XDump (XVar 0));
  SAssert (CEq (XVar 1) (XUnurl (XVal (VDict [((u "messageExpiryInterval"), (VDict [((u "type"), (VStr (u "integer"))); ((u "minimum"), (VInt (30)%Z)); ((u "maximum"), (VInt (300)%Z))])); ((u "bindingVersion"), (VStr (u "0.2.0")))]))))];
t "models/bindings/test_mqtt.py::TestMQTTOperationBindings.test_mqtt_operation_bindings_serialization/case_mqtt_operation_binding_serialization_subscribe" [SLet 0 (XNew "MQTTOperationBindings" (XVal (VDict [((u "qos"), (VInt (2)%Z))])));
  SLet 1 (XDump (XVar 0));
  SAssert (CEq (XVar 1) (XUnurl (XVal (VDict [((u "qos"), (VInt (2)%Z)); ((u "bindingVersion"), (VStr (u "0.2.0")))]))))];
t "models/bindings/test_mqtt.py::TestMQTTOperationBindings.test_mqtt_operation_binding_message_expiry_interval_schema_validation" [SLet 0 (XNew "MQTTOperationBindings" (XVal (VDict [((u "messageExpiryInterval"), (VDict [((u "type"), (VStr (u "integer"))); ((u "minimum"), (VInt (30)%Z)); ((u "maximum"), (VInt (300)%Z))])); ((u "bindingVersion"), (VStr (u "0.2.0")))])));
  SAssert (CNot (CEq (XAttr (XVar 0) (u "message_expiry_interval")) (XVal VNone)));
  SAssert (CIs (XAttr (XVar 0) (u "message_expiry_interval")) ["Schema"]);
  SAssert (CEq (XAttr (XAttr (XVar 0) (u "message_expiry_interval")) (u "type")) (XVal (VStr (u "integer"))));
  SAssert (CEq (XAttr (XVar 0) (u "binding_version")) (XVal (VStr (u "0.2.0"))))];
t "models/bindings/test_mqtt.py::TestMQTTOperationBindings.test_mqtt_operation_bindings_python_validation_error" [SRaises [SDo (XNew "MQTTOperationBindings" (XVal (VDict [((u "some_field"), (VStr (u "value")))])))] []];
t "models/bindings/test_mqtt.py::TestMQTTOperationBindings.test_mqtt_operation_bindings_yaml_validation_error" [SRaises [SDo (XNew "MQTTOperationBindings" (XVal (VDict [((u "some_field"), (VStr (u "value"))); ((u "bindingVersion"), (VStr (u "0.2.0")))])))] []];
t "models/bindings/test_mqtt.py::TestMQTTMessageBindings.test_mqtt_message_bindings_validation/case_message_binding_basic" [SLet 0 (XNew "MQTTMessageBindings" (XVal (VDict [((u "contentType"), (VStr (u "application/json"))); ((u "correlationData"), (VDict [((u "type"), (VStr (u "string"))); ((u "format"), (VStr (u "uuid")))])); ((u "bindingVersion"), (VStr (u "0.2.0")))])));
  SAssert (CNot (CEq (XVar 0) (XVal VNone)));
  SAssert (CEq (XAttr (XVar 0) (u "binding_version")) (XVal (VStr (u "0.2.0"))))];
t "models/bindings/test_mqtt.py::TestMQTTMessageBindings.test_mqtt_message_bindings_validation/case_message_binding_full" [SLet 0 (XNew "MQTTMessageBindings" (XVal (VDict [((u "payloadFormatIndicator"), (VInt (1)%Z)); ((u "contentType"), (VStr (u "application/json"))); ((u "correlationData"), (VDict [((u "type"), (VStr (u "string"))); ((u "format"), (VStr (u "uuid")))])); ((u "responseTopic"), (VDict [((u "type"), (VStr (u "string"))); ((u "pattern"), (VStr (u "response/client/([a-z1-9]+)")))])); ((u "bindingVersion"), (VStr (u "0.2.0")))])));
  SAssert (CNot (CEq (XVar 0) (XVal VNone)));
  SAssert (CEq (XAttr (XVar 0) (u "binding_version")) (XVal (VStr (u "0.2.0"))))];
t "models/bindings/test_mqtt.py::TestMQTTMessageBindings.test_mqtt_message_bindings_serialization/case_mqtt_message_binding_serialization_empty" [SLet 0 (XNew "MQTTMessageBindings" (XVal (VDict [])));
  SLet 1 (XDump (XVar 0));
  SAssert (CEq (XVar 1) (XUnurl (XVal (VDict [((u "bindingVersion"), (VStr (u "0.2.0")))]))))];
t "models/bindings/test_mqtt.py::TestMQTTMessageBindings.test_mqtt_message_bindings_serialization/case_mqtt_message_binding_serialization_basic" [SLet 0 (XNew "MQTTMessageBindings" (XDict [((u "content_type"), (XVal (VStr (u "application/json")))); ((u "correlation_data"), (XNew "Schema" (XVal (VDict [((u "type"), (VStr (u "string"))); ((u "format"), (VStr (u "uuid")))]))))]));
  SLet 1 (XDump (XVar 0));
  SAssert (CEq (XVar 1) (XUnurl (XVal (VDict [((u "contentType"), (VStr (u "application/json"))); ((u "correlationData"), (VDict [((u "type"), (VStr (u "string"))); ((u "format"), (VStr (u "uuid")))])); ((u "bindingVersion"), (VStr (u "0.2.0")))]))))];
t "models/bindings/test_mqtt.py::TestMQTTMessageBindings.test_mqtt_message_bindings_serialization/case_mqtt_message_binding_serialization_full" [SLet 0 (XNew "MQTTMessageBindings" (XDict [((u "payload_format_indicator"), (XVal (VInt (1)%Z))); ((u "content_type"), (XVal (VStr (u "application/json")))); ((u "correlation_data"), (XNew "Schema" (XVal (VDict [((u "type"), (VStr (u "string"))); ((u "format"), (VStr (u "uuid")))])))); ((u "response_topic"), (XNew "Schema" (XVal (VDict [((u "type"), (VStr (u "string"))); ((u "pattern"), (VStr (u "response/client/([a-z1-9]+)")))]))))]));
  SLet 1 (XDump (XVar 0));
  SAssert (CEq (XVar 1) (XUnurl (XVal (VDict [((u "payloadFormatIndicator"), (VInt (1)%Z)); ((u "contentType"), (VStr (u "application/json"))); ((u "correlationData"), (VDict [((u "type"), (VStr (u "string"))); ((u "format"), (VStr (u "uuid")))])); ((u "responseTopic"), (VDict [((u "type"), (VStr (u "string"))); ((u "pattern"), (VStr (u "response/client/([a-z1-9]+)")))])); ((u "bindingVersion"), (VStr (u "0.2.0")))]))))];
t "models/bindings/test_mqtt.py::TestMQTTMessageBindings.test_mqtt_message_binding_correlation_data_schema_validation" [SLet 0 (XNew "MQTTMessageBindings" (XVal (VDict [((u "correlationData"), (VDict [((u "type"), (VStr (u "string"))); ((u "format"), (VStr (u "uuid")))])); ((u "bindingVersion"), (VStr (u "0.2.0")))])));
  SAssert (CNot (CEq (XAttr (XVar 0) (u "correlation_data")) (XVal VNone)));
  SAssert (CIs (XAttr (XVar 0) (u "correlation_data")) ["Schema"]);
  SAssert (CEq (XAttr (XAttr (XVar 0) (u "correlation_data")) (u "type")) (XVal (VStr (u "string"))));
  SAssert (CEq (XAttr (XAttr (XVar 0) (u "correlation_data")) (u "format")) (XVal (VStr (u "uuid"))));
  SAssert (CEq (XAttr (XVar 0) (u "binding_version")) (XVal (VStr (u "0.2.0"))))];
t "models/bindings/test_mqtt.py::TestMQTTMessageBindings.test_mqtt_message_binding_response_topic_schema_validation" [SLet 0 (XNew "MQTTMessageBindings" (XVal (VDict [((u "responseTopic"), (VDict [((u "type"), (VStr (u "string"))); ((u "pattern"), (VStr (u "response/client/([a-z1-9]+)")))])); ((u "bindingVersion"), (VStr (u "0.2.0")))])));
  SAssert (CNot (CEq (XAttr (XVar 0) (u "response_topic")) (XVal VNone)));
  SAssert (CIs (XAttr (XVar 0) (u "response_topic")) ["Schema"]);
  SAssert (CEq (XAttr (XAttr (XVar 0) (u "response_topic")) (u "type")) (XVal (VStr (u "string"))));
  SAssert (CEq (XAttr (XAttr (XVar 0) (u "response_topic")) (u "pattern")) (XVal (VStr (u "response/client/([a-z1-9]+)"))));
  SAssert (CEq (XAttr (XVar 0) (u "binding_version")) (XVal (VStr (u "0.2.0"))))];
t "models/bindings/test_mqtt.py::TestMQTTMessageBindings.test_mqtt_message_bindings_python_validation_error" [SRaises [SDo (XNew "MQTTMessageBindings" (XVal (VDict [((u "some_field"), (VStr (u "value")))])))] []];
t "models/bindings/test_mqtt.py::TestMQTTMessageBindings.test_mqtt_message_bindings_yaml_validation_error" [SRaises [SDo (XNew "MQTTMessageBindings" (XVal (VDict [((u "some_field"), (VStr (u "value"))); ((u "bindingVersion"), (VStr (u "0.2.0")))])))] []];
t "models/bindings/test_mqtt5.py::TestMQTT5ServerBindings.test_mqtt5_server_bindings_validation/case_server_binding_integer" [SLet 0 (XNew "MQTT5ServerBindings" (XVal (VDict [((u "sessionExpiryInterval"), (VInt (60)%Z)); ((u "bindingVersion"), (VStr (u "0.2.0")))])));
  SAssert (CNot (CEq (XVar 0) (XVal VNone)));
  SAssert (CEq (XAttr (XVar 0) (u "binding_version")) (XVal (VStr (u "0.2.0"))))];
t "models/bindings/test_mqtt5.py::TestMQTT5ServerBindings.test_mqtt5_server_bindings_validation/case_server_binding_schema" [SLet 0 (XNew "MQTT5ServerBindings" (XVal (VDict [((u "sessionExpiryInterval"), (VDict [((u "type"), (VStr (u "integer"))); ((u "minimum"), (VInt (100)%Z))])); ((u "bindingVersion"), (VStr (u "0.2.0")))])));
  SAssert (CNot (CEq (XVar 0) (XVal VNone)));
  SAssert (CEq (XAttr (XVar 0) (u "binding_version")) (XVal (VStr (u "0.2.0"))))];
t "models/bindings/test_mqtt5.py::TestMQTT5ServerBindings.test_mqtt5_server_bindings_serialization/case_mqtt5_server_binding_serialization_empty" [SLet 0 (XNew "MQTT5ServerBindings" (XVal (VDict [])));
  SLet 1 (XDump (XVar 0));
  SAssert (CEq (XVar 1) (XUnurl (XVal (VDict [((u "bindingVersion"), (VStr (u "0.2.0")))]))))];
t "models/bindings/test_mqtt5.py::TestMQTT5ServerBindings.test_mqtt5_server_bindings_serialization/case_mqtt5_server_binding_serialization_integer" [SLet 0 (XNew "MQTT5ServerBindings" (XVal (VDict [((u "session_expiry_interval"), (VInt (60)%Z))])));
  SLet 1 (XDump (XVar 0));
  SAssert (CEq (XVar 1) (XUnurl (XVal (VDict [((u "sessionExpiryInterval"), (VInt (60)%Z)); ((u "bindingVersion"), (VStr (u "0.2.0")))]))))];
t "models/bindings/test_mqtt5.py::TestMQTT5ServerBindings.test_mqtt5_server_bindings_serialization/case_mqtt5_server_binding_serialization_schema" [SLet 0 (XNew "MQTT5ServerBindings" (XDict [((u "session_expiry_interval"), (XNew "Schema" (XVal (VDict [((u "type"), (VStr (u "integer"))); ((u "minimum"), (VInt (100)%Z))]))))]));
  SLet 1 (XDump (XVar 0));
  SAssert (CEq (XVar 1) (XUnurl (XVal (VDict [((u "sessionExpiryInterval"), (VDict [((u "type"), (VStr (u "integer"))); ((u "minimum"), (VInt (100)%Z))])); ((u "bindingVersion"), (VStr (u "0.2.0")))]))))];
t "models/bindings/test_mqtt5.py::TestMQTT5ServerBindings.test_mqtt5_server_binding_session_expiry_interval_schema_validation" [SLet 0 (XNew "MQTT5ServerBindings" (XVal (VDict [((u "sessionExpiryInterval"), (VDict [((u "type"), (VStr (u "integer"))); ((u "minimum"), (VInt (100)%Z))])); ((u "bindingVersion"), (VStr (u "0.2.0")))])));
  SAssert (CNot (CEq (XAttr (XVar 0) (u "session_expiry_interval")) (XVal VNone)));
  SAssert (CIs (XAttr (XVar 0) (u "session_expiry_interval")) ["Schema"]);
  SAssert (CEq (XAttr (XAttr (XVar 0) (u "session_expiry_interval")) (u "type")) (XVal (VStr (u "integer"))));
  SAssert (CEq (XAttr (XVar 0) (u "binding_version")) (XVal (VStr (u "0.2.0"))))];
t "models/bindings/test_mqtt5.py::TestMQTT5ServerBindings.test_mqtt5_server_bindings_python_validation_error" [SRaises [SDo (XNew "MQTT5ServerBindings" (XVal (VDict [((u "some_field"), (VStr (u "value")))])))] []];
t "models/bindings/test_mqtt5.py::TestMQTT5ServerBindings.test_mqtt5_server_bindings_yaml_validation_error" [SRaises [SDo (XNew "MQTT5ServerBindings" (XVal (VDict [((u "some_field"), (VStr (u "value"))); ((u "bindingVersion"), (VStr (u "0.2.0")))])))] []];
t "models/bindings/test_mqtt5.py::TestMQTT5ChannelBindings.test_mqtt5_channel_bindings_serialization" [SLet 0 (XNew "MQTT5ChannelBindings" (XVal (VDict [])));
  SLet 1 (XDump (XVar 0));
  SAssert (CEq (XVar 1) (XUnurl (XVal (VDict []))))];
t "models/bindings/test_mqtt5.py::TestMQTT5ChannelBindings.test_mqtt5_channel_bindings_python_validation_error" [SRaises [SDo (XNew "MQTT5ChannelBindings" (XVal (VDict [((u "some_field"), (VStr (u "value")))])))] []];
t "models/bindings/test_mqtt5.py::TestMQTT5ChannelBindings.test_mqtt5_channel_bindings_yaml_validation_error" [SRaises [SDo (XNew "MQTT5ChannelBindings" (XVal (VDict [((u "some_field"), (VStr (u "value")))])))] []];
t "models/bindings/test_mqtt5.py::TestMQTT5ChannelBindings.test_mqtt5_channel_bindings_yaml_empty_validation" [SLet 0 (XNew "MQTT5ChannelBindings" (XVal (VDict [])));
  SAssert (CNot (CEq (XVar 0) (XVal VNone)))]].
Definition part7 : list (string * list stmt) := [
t "models/bindings/test_mqtt5.py::TestMQTT5OperationBindings.test_mqtt5_operation_bindings_serialization" [SLet 0 (XNew "MQTT5OperationBindings" (XVal (VDict [])));
  SLet 1 (XDump (XVar 0));
  SAssert (CEq (XVar 1) (XUnurl (XVal (VDict []))))];
t "models/bindings/test_mqtt5.py::TestMQTT5OperationBindings.test_mqtt5_operation_bindings_python_validation_error" [SRaises [SDo (XNew "MQTT5OperationBindings" (XVal (VDict [((u "some_field"), (VStr (u "value")))])))] []];
t "models/bindings/test_mqtt5.py::TestMQTT5OperationBindings.test_mqtt5_operation_bindings_yaml_validation_error" [SRaises [SDo (XNew "MQTT5OperationBindings" (XVal (VDict [((u "some_field"), (VStr (u "value")))])))] []];
t "models/bindings/test_mqtt5.py::TestMQTT5OperationBindings.test_mqtt5_operation_bindings_yaml_empty_validation" [SLet 0 (XNew "MQTT5OperationBindings" (XVal (VDict [])));
  SAssert (CNot (CEq (XVar 0) (XVal VNone)))];
t "models/bindings/test_mqtt5.py::TestMQTT5MessageBindings.test_mqtt5_message_bindings_serialization" [SLet 0 (XNew "MQTT5MessageBindings" (XVal (VDict [])));
  SLet 1 (XDump (XVar 0));
  SAssert (CEq (XVar 1) (XUnurl (XVal (VDict []))))];
t "models/bindings/test_mqtt5.py::TestMQTT5MessageBindings.test_mqtt5_message_bindings_python_validation_error" [SRaises [SDo (XNew "MQTT5MessageBindings" (XVal (VDict [((u "some_field"), (VStr (u "value")))])))] []];
t "models/bindings/test_mqtt5.py::TestMQTT5MessageBindings.test_mqtt5_message_bindings_yaml_validation_error" [SRaises [SDo (XNew "MQTT5MessageBindings" (XVal (VDict [((u "some_field"), (VStr (u "value")))])))] []];
t "models/bindings/test_mqtt5.py::TestMQTT5MessageBindings.test_mqtt5_message_bindings_yaml_empty_validation" [SLet 0 (XNew "MQTT5MessageBindings" (XVal (VDict [])));
  SAssert (CNot (CEq (XVar 0) (XVal VNone)))];
t "models/bindings/test_nats.py::TestNATSServerBindings.test_nats_server_bindings_serialization" [SLet 0 (XNew "NATSServerBindings" (XVal (VDict [])));
  SLet 1 (XDump (XVar 0));
  SAssert (CEq (XVar 1) (XUnurl (XVal (VDict []))))];
t "models/bindings/test_nats.py::TestNATSServerBindings.test_nats_server_bindings_python_validation_error" [SRaises [SDo (XNew "NATSServerBindings" (XVal (VDict [((u "some_field"), (VStr (u "value")))])))] []];
t "models/bindings/test_nats.py::TestNATSServerBindings.test_nats_server_bindings_yaml_validation_error" [SRaises [SDo (XNew "NATSServerBindings" (XVal (VDict [((u "some_field"), (VStr (u "value")))])))] []];
t "models/bindings/test_nats.py::TestNATSServerBindings.test_nats_server_bindings_yaml_empty_validation" [SLet 0 (XNew "NATSServerBindings" (XVal (VDict [])));
  SAssert (CNot (CEq (XVar 0) (XVal VNone)))];
t "models/bindings/test_nats.py::TestNATSChannelBindings.test_nats_channel_bindings_serialization" [SLet 0 (XNew "NATSChannelBindings" (XVal (VDict [])));
  SLet 1 (XDump (XVar 0));
  SAssert (CEq (XVar 1) (XUnurl (XVal (VDict []))))];
t "models/bindings/test_nats.py::TestNATSChannelBindings.test_nats_channel_bindings_python_validation_error" [SRaises [SDo (XNew "NATSChannelBindings" (XVal (VDict [((u "some_field"), (VStr (u "value")))])))] []];
t "models/bindings/test_nats.py::TestNATSChannelBindings.test_nats_channel_bindings_yaml_validation_error" [SRaises [SDo (XNew "NATSChannelBindings" (XVal (VDict [((u "some_field"), (VStr (u "value")))])))] []];
t "models/bindings/test_nats.py::TestNATSChannelBindings.test_nats_channel_bindings_yaml_empty_validation" [SLet 0 (XNew "NATSChannelBindings" (XVal (VDict [])));
  SAssert (CNot (CEq (XVar 0) (XVal VNone)))];
t "models/bindings/test_nats.py::TestNATSOperationBindings.test_nats_operation_bindings_validation/case_operation_binding_with_queue" [SLet 0 (XNew "NATSOperationBindings" (XVal (VDict [((u "queue"), (VStr (u "my-queue"))); ((u "bindingVersion"), (VStr (u "0.1.0")))])));
  SAssert (CNot (CEq (XVar 0) (XVal VNone)));
  SAssert (CEq (XAttr (XVar 0) (u "binding_version")) (XVal (VStr (u "0.1.0"))))];
t "models/bindings/test_nats.py::TestNATSOperationBindings.test_nats_operation_bindings_serialization/case_nats_operation_binding_serialization_empty" [SLet 0 (XNew "NATSOperationBindings" (XVal (VDict [])));
  SLet 1 (XDump (XVar 0));
  SAssert (CEq (XVar 1) (XUnurl (XVal (VDict [((u "bindingVersion"), (VStr (u "0.1.0")))]))))];
t "models/bindings/test_nats.py::TestNATSOperationBindings.test_nats_operation_bindings_serialization/case_nats_operation_binding_serialization_with_queue" [SLet 0 (XNew "NATSOperationBindings" (XVal (VDict [((u "queue"), (VStr (u "my-queue")))])));
  SLet 1 (XDump (XVar 0));
  SAssert (CEq (XVar 1) (XUnurl (XVal (VDict [((u "queue"), (VStr (u "my-queue"))); ((u "bindingVersion"), (VStr (u "0.1.0")))]))))];
t "models/bindings/test_nats.py::TestNATSOperationBindings.test_nats_operation_binding_queue_validation" [SLet 0 (XNew "NATSOperationBindings" (XVal (VDict [((u "queue"), (VStr (u "my-queue"))); ((u "bindingVersion"), (VStr (u "0.1.0")))])));
  SAssert (CEq (XAttr (XVar 0) (u "queue")) (XVal (VStr (u "my-queue"))));
  SAssert (CEq (XAttr (XVar 0) (u "binding_version")) (XVal (VStr (u "0.1.0"))))];
t "models/bindings/test_nats.py::TestNATSOperationBindings.test_nats_operation_bindings_python_validation_error" [SRaises [SDo (XNew "NATSOperationBindings" (XVal (VDict [((u "invalid_field"), (VStr (u "value")))])))] []];
t "models/bindings/test_nats.py::TestNATSOperationBindings.test_nats_operation_bindings_yaml_validation_error" [SRaises [SDo (XNew "NATSOperationBindings" (XVal (VDict [((u "queue"), (VStr (u "my-queue"))); ((u "invalid_field"), (VStr (u "value"))); ((u "bindingVersion"), (VStr (u "0.1.0")))])))] []];
t "models/bindings/test_nats.py::TestNATSMessageBindings.test_nats_message_bindings_serialization" [SLet 0 (XNew "NATSMessageBindings" (XVal (VDict [])));
  SLet 1 (XDump (XVar 0));
  SAssert (CEq (XVar 1) (XUnurl (XVal (VDict []))))];
t "models/bindings/test_nats.py::TestNATSMessageBindings.test_nats_message_bindings_python_validation_error" [SRaises [SDo (XNew "NATSMessageBindings" (XVal (VDict [((u "some_field"), (VStr (u "value")))])))] []];
t "models/bindings/test_nats.py::TestNATSMessageBindings.test_nats_message_bindings_yaml_validation_error" [SRaises [SDo (XNew "NATSMessageBindings" (XVal (VDict [((u "some_field"), (VStr (u "value")))])))] []];
t "models/bindings/test_nats.py::TestNATSMessageBindings.test_nats_message_bindings_yaml_empty_validation" [SLet 0 (XNew "NATSMessageBindings" (XVal (VDict [])));
  SAssert (CNot (CEq (XVar 0) (XVal VNone)))];
t "models/bindings/test_pulsar.py::TestPulsarServerBindings.test_pulsar_server_bindings_validation/case_server_binding_with_tenant" [SLet 0 (XNew "PulsarServerBindings" (XVal (VDict [((u "tenant"), (VStr (u "contoso"))); ((u "bindingVersion"), (VStr (u "0.1.0")))])));
  SAssert (CEq (XAttr (XVar 0) (u "tenant")) (XVal (VStr (u "contoso"))));
  SAssert (CEq (XAttr (XVar 0) (u "binding_version")) (XVal (VStr (u "0.1.0"))))];
t "models/bindings/test_pulsar.py::TestPulsarServerBindings.test_pulsar_server_bindings_validation_error_extra_fields" [SRaises [SDo (XNew "PulsarServerBindings" (XVal (VDict [((u "tenant"), (VStr (u "contoso"))); ((u "bindingVersion"), (VStr (u "0.1.0"))); ((u "extra_field"), (VStr (u "invalid")))])))] []];
t "models/bindings/test_pulsar.py::TestPulsarServerBindings.test_pulsar_server_bindings_serialization/case_pulsar_server_binding_serialization_default" [SLet 0 (XNew "PulsarServerBindings" (XVal (VDict [])));
  SLet 1 (XDump (XVar 0));
  SAssert (CEq (XVar 1) (XUnurl (XVal (VDict [((u "tenant"), (VStr (u "public"))); ((u "bindingVersion"), (VStr (u "0.1.0")))]))))];
t "models/bindings/test_pulsar.py::TestPulsarServerBindings.test_pulsar_server_bindings_serialization/case_pulsar_server_binding_serialization_with_tenant" [SLet 0 (XNew "PulsarServerBindings" (XVal (VDict [((u "tenant"), (VStr (u "contoso")))])));
  SLet 1 (XDump (XVar 0));
  SAssert (CEq (XVar 1) (XUnurl (XVal (VDict [((u "tenant"), (VStr (u "contoso"))); ((u "bindingVersion"), (VStr (u "0.1.0")))]))))];
t "models/bindings/test_pulsar.py::TestPulsarRetention.test_pulsar_retention_serialization/case_pulsar_retention_serialization_empty" [SLet 0 (XNew "PulsarRetention" (XVal (VDict [])));
  SLet 1 (XDump (XVar 0));
  SAssert (CEq (XVar 1) (XUnurl (XVal (VDict [((u "time"), (VInt (0)%Z)); ((u "size"), (VInt (0)%Z))]))))];
t "models/bindings/test_pulsar.py::TestPulsarRetention.test_pulsar_retention_serialization/case_pulsar_retention_serialization_full" [SLet 0 (XNew "PulsarRetention" (XVal (VDict [((u "time"), (VInt (7)%Z)); ((u "size"), (VInt (1000)%Z))])));
  SLet 1 (XDump (XVar 0));
  SAssert (CEq (XVar 1) (XUnurl (XVal (VDict [((u "time"), (VInt (7)%Z)); ((u "size"), (VInt (1000)%Z))]))))];
t "models/bindings/test_pulsar.py::TestPulsarRetention.test_pulsar_retention_full_validation" [SLet 0 (XNew "PulsarRetention" (XVal (VDict [((u "time"), (VInt (7)%Z)); ((u "size"), (VInt (1000)%Z))])));
  SAssert (CEq (XAttr (XVar 0) (u "time")) (XVal (VInt (7)%Z)));
  SAssert (CEq (XAttr (XVar 0) (u "size")) (XVal (VInt (1000)%Z)))];
t "models/bindings/test_pulsar.py::TestPulsarRetention.test_pulsar_retention_validation_error_extra_fields" [SRaises [SDo (XNew "PulsarRetention" (XVal (VDict [((u "time"), (VInt (7)%Z)); ((u "size"), (VInt (1000)%Z)); ((u "extra_field"), (VStr (u "invalid")))])))] []];
t "models/bindings/test_pulsar.py::TestPulsarChannelBindings.test_pulsar_channel_binding_minimal_validation" [SLet 0 (XNew "PulsarChannelBindings" (XVal (VDict [((u "namespace"), (VStr (u "staging"))); ((u "persistence"), (VStr (u "persistent"))); ((u "bindingVersion"), (VStr (u "0.1.0")))])));
  SAssert (CEq (XAttr (XVar 0) (u "namespace")) (XVal (VStr (u "staging"))));
  SAssert (CEq (XAttr (XVar 0) (u "persistence")) (XVal (VStr (u "persistent"))));
  SAssert (CEq (XAttr (XVar 0) (u "binding_version")) (XVal (VStr (u "0.1.0"))))];
t "models/bindings/test_pulsar.py::TestPulsarChannelBindings.test_pulsar_channel_binding_full_validation" [SLet 0 (XNew "PulsarChannelBindings" (XVal (VDict [((u "namespace"), (VStr (u "staging"))); ((u "persistence"), (VStr (u "persistent"))); ((u "compaction"), (VInt (1000)%Z)); ((u "geo-replication"), (VList [(VStr (u "us-east1")); (VStr (u "us-west1"))])); ((u "retention"), (VDict [((u "time"), (VInt (7)%Z)); ((u "size"), (VInt (1000)%Z))])); ((u "ttl"), (VInt (360)%Z)); ((u "deduplication"), (VBool false)); ((u "bindingVersion"), (VStr (u "0.1.0")))])));
  SAssert (CEq (XAttr (XVar 0) (u "namespace")) (XVal (VStr (u "staging"))));
  SAssert (CEq (XAttr (XVar 0) (u "persistence")) (XVal (VStr (u "persistent"))));
  SAssert (CEq (XAttr (XVar 0) (u "compaction")) (XVal (VInt (1000)%Z)));
  SAssert (CEq (XAttr (XVar 0) (u "geo_replication")) (XVal (VList [(VStr (u "us-east1")); (VStr (u "us-west1"))])));
  SAssert (CNot (CEq (XAttr (XVar 0) (u "retention")) (XVal VNone)));
  SAssert (CIs (XAttr (XVar 0) (u "retention")) ["PulsarRetention"]);
  SAssert (CEq (XAttr (XAttr (XVar 0) (u "retention")) (u "time")) (XVal (VInt (7)%Z)));
  SAssert (CEq (XAttr (XAttr (XVar 0) (u "retention")) (u "size")) (XVal (VInt (1000)%Z)));
  SAssert (CEq (XAttr (XVar 0) (u "ttl")) (XVal (VInt (360)%Z)));
  SAssert (CEq (XAttr (XVar 0) (u "deduplication")) (XVal (VBool false)));
  SAssert (CEq (XAttr (XVar 0) (u "binding_version")) (XVal (VStr (u "0.1.0"))))];
t "models/bindings/test_pulsar.py::TestPulsarChannelBindings.test_pulsar_channel_bindings_validation_error_extra_fields" [SRaises [SDo (XNew "PulsarChannelBindings" (XVal (VDict [((u "namespace"), (VStr (u "staging"))); ((u "persistence"), (VStr (u "persistent"))); ((u "bindingVersion"), (VStr (u "0.1.0"))); ((u "extra_field"), (VStr (u "invalid")))])))] []];
t "models/bindings/test_pulsar.py::TestPulsarChannelBindings.test_pulsar_channel_bindings_validation_error_invalid_persistence" [SRaises [SDo (XNew "PulsarChannelBindings" (XVal (VDict [((u "namespace"), (VStr (u "staging"))); ((u "persistence"), (VStr (u "invalid_value"))); ((u "bindingVersion"), (VStr (u "0.1.0")))])))] []];
t "models/bindings/test_pulsar.py::TestPulsarChannelBindings.test_pulsar_channel_bindings_serialization/case_pulsar_channel_binding_serialization_minimal" [SLet 0 (XNew "PulsarChannelBindings" (XVal (VDict [((u "namespace"), (VStr (u "staging"))); ((u "persistence"), (VStr (u "persistent")))])));
  SLet 1 (XDump (XVar 0));
  SAssert (CEq (XVar 1) (XUnurl (XVal (VDict [((u "namespace"), (VStr (u "staging"))); ((u "persistence"), (VStr (u "persistent"))); ((u "bindingVersion"), (VStr (u "0.1.0")))]))))];
t "models/bindings/test_pulsar.py::TestPulsarChannelBindings.test_pulsar_channel_bindings_serialization/case_pulsar_channel_binding_serialization_full" [SLet 0 (XNew "PulsarChannelBindings" (XDict [((u "namespace"), (XVal (VStr (u "staging")))); ((u "persistence"), (XVal (VStr (u "persistent")))); ((u "compaction"), (XVal (VInt (1000)%Z))); ((u "geo_replication"), (XVal (VList [(VStr (u "us-east1")); (VStr (u "us-west1"))]))); ((u "retention"), (XNew "PulsarRetention" (XVal (VDict [((u "time"), (VInt (7)%Z)); ((u "size"), (VInt (1000)%Z))])))); ((u "ttl"), (XVal (VInt (360)%Z))); ((u "deduplication"), (XVal (VBool false)))]));
  SLet 1 (XDump (XVar 0));
  SAssert (CEq (XVar 1) (XUnurl (XVal (VDict [((u "namespace"), (VStr (u "staging"))); ((u "persistence"), (VStr (u "persistent"))); ((u "compaction"), (VInt (1000)%Z)); ((u "geo-replication"), (VList [(VStr (u "us-east1")); (VStr (u "us-west1"))])); ((u "retention"), (VDict [((u "time"), (VInt (7)%Z)); ((u "size"), (VInt (1000)%Z))])); ((u "ttl"), (VInt (360)%Z)); ((u "deduplication"), (VBool false)); ((u "bindingVersion"), (VStr (u "0.1.0")))]))))]].
Definition part8 : list (string * list stmt) := [
t "models/bindings/test_pulsar.py::TestPulsarOperationBindings.test_pulsar_operation_bindings_serialization" [SLet 0 (XNew "PulsarOperationBindings" (XVal (VDict [])));
  SLet 1 (XDump (XVar 0));
  SAssert (CEq (XVar 1) (XUnurl (XVal (VDict []))))];
t "models/bindings/test_pulsar.py::TestPulsarOperationBindings.test_pulsar_operation_bindings_python_validation_error" [SRaises [SDo (XNew "PulsarOperationBindings" (XVal (VDict [((u "some_field"), (VStr (u "value")))])))] []];
t "models/bindings/test_pulsar.py::TestPulsarOperationBindings.test_pulsar_operation_bindings_yaml_validation_error" [SRaises [SDo (XNew "PulsarOperationBindings" (XVal (VDict [((u "some_field"), (VStr (u "value")))])))] []];
t "models/bindings/test_pulsar.py::TestPulsarOperationBindings.test_pulsar_operation_bindings_yaml_empty_validation" [SLet 0 (XNew "PulsarOperationBindings" (XVal (VDict [])));
  SAssert (CNot (CEq (XVar 0) (XVal VNone)))];
t "models/bindings/test_pulsar.py::TestPulsarMessageBindings.test_pulsar_message_bindings_serialization" [SLet 0 (XNew "PulsarMessageBindings" (XVal (VDict [])));
  SLet 1 (XDump (XVar 0));
  SAssert (CEq (XVar 1) (XUnurl (XVal (VDict []))))];
t "models/bindings/test_pulsar.py::TestPulsarMessageBindings.test_pulsar_message_bindings_python_validation_error" [SRaises [SDo (XNew "PulsarMessageBindings" (XVal (VDict [((u "some_field"), (VStr (u "value")))])))] []];
t "models/bindings/test_pulsar.py::TestPulsarMessageBindings.test_pulsar_message_bindings_yaml_validation_error" [SRaises [SDo (XNew "PulsarMessageBindings" (XVal (VDict [((u "some_field"), (VStr (u "value")))])))] []];
t "models/bindings/test_pulsar.py::TestPulsarMessageBindings.test_pulsar_message_bindings_yaml_empty_validation" [SLet 0 (XNew "PulsarMessageBindings" (XVal (VDict [])));
  SAssert (CNot (CEq (XVar 0) (XVal VNone)))];
t "models/bindings/test_redis.py::TestRedisServerBindings.test_redis_server_bindings_serialization" [SLet 0 (XNew "RedisServerBindings" (XVal (VDict [])));
  SLet 1 (XDump (XVar 0));
  SAssert (CEq (XVar 1) (XUnurl (XVal (VDict []))))];
t "models/bindings/test_redis.py::TestRedisServerBindings.test_redis_server_bindings_python_validation_error" [SRaises [SDo (XNew "RedisServerBindings" (XVal (VDict [((u "some_field"), (VStr (u "value")))])))] []];
t "models/bindings/test_redis.py::TestRedisServerBindings.test_redis_server_bindings_yaml_validation_error" [SRaises [SDo (XNew "RedisServerBindings" (XVal (VDict [((u "some_field"), (VStr (u "value")))])))] []];
t "models/bindings/test_redis.py::TestRedisServerBindings.test_redis_server_bindings_yaml_empty_validation" [SLet 0 (XNew "RedisServerBindings" (XVal (VDict [])));
  SAssert (CNot (CEq (XVar 0) (XVal VNone)))];
t "models/bindings/test_redis.py::TestRedisChannelBindings.test_redis_channel_bindings_serialization" [SLet 0 (XNew "RedisChannelBindings" (XVal (VDict [])));
  SLet 1 (XDump (XVar 0));
  SAssert (CEq (XVar 1) (XUnurl (XVal (VDict []))))];
t "models/bindings/test_redis.py::TestRedisChannelBindings.test_redis_channel_bindings_python_validation_error" [SRaises [SDo (XNew "RedisChannelBindings" (XVal (VDict [((u "some_field"), (VStr (u "value")))])))] []];
t "models/bindings/test_redis.py::TestRedisChannelBindings.test_redis_channel_bindings_yaml_validation_error" [SRaises [SDo (XNew "RedisChannelBindings" (XVal (VDict [((u "some_field"), (VStr (u "value")))])))] []];
t "models/bindings/test_redis.py::TestRedisChannelBindings.test_redis_channel_bindings_yaml_empty_validation" [SLet 0 (XNew "RedisChannelBindings" (XVal (VDict [])));
  SAssert (CNot (CEq (XVar 0) (XVal VNone)))];
t "models/bindings/test_redis.py::TestRedisOperationBindings.test_redis_operation_bindings_serialization" [SLet 0 (XNew "RedisOperationBindings" (XVal (VDict [])));
  SLet 1 (XDump (XVar 0));
  SAssert (CEq (XVar 1) (XUnurl (XVal (VDict []))))];
t "models/bindings/test_redis.py::TestRedisOperationBindings.test_redis_operation_bindings_python_validation_error" [SRaises [SDo (XNew "RedisOperationBindings" (XVal (VDict [((u "some_field"), (VStr (u "value")))])))] []];
t "models/bindings/test_redis.py::TestRedisOperationBindings.test_redis_operation_bindings_yaml_validation_error" [SRaises [SDo (XNew "RedisOperationBindings" (XVal (VDict [((u "some_field"), (VStr (u "value")))])))] []];
t "models/bindings/test_redis.py::TestRedisOperationBindings.test_redis_operation_bindings_yaml_empty_validation" [SLet 0 (XNew "RedisOperationBindings" (XVal (VDict [])));
  SAssert (CNot (CEq (XVar 0) (XVal VNone)))];
t "models/bindings/test_redis.py::TestRedisMessageBindings.test_redis_message_bindings_serialization" [SLet 0 (XNew "RedisMessageBindings" (XVal (VDict [])));
  SLet 1 (XDump (XVar 0));
  SAssert (CEq (XVar 1) (XUnurl (XVal (VDict []))))];
t "models/bindings/test_redis.py::TestRedisMessageBindings.test_redis_message_bindings_python_validation_error" [SRaises [SDo (XNew "RedisMessageBindings" (XVal (VDict [((u "some_field"), (VStr (u "value")))])))] []];
t "models/bindings/test_redis.py::TestRedisMessageBindings.test_redis_message_bindings_yaml_validation_error" [SRaises [SDo (XNew "RedisMessageBindings" (XVal (VDict [((u "some_field"), (VStr (u "value")))])))] []];
t "models/bindings/test_redis.py::TestRedisMessageBindings.test_redis_message_bindings_yaml_empty_validation" [SLet 0 (XNew "RedisMessageBindings" (XVal (VDict [])));
  SAssert (CNot (CEq (XVar 0) (XVal VNone)))];
t "models/bindings/test_sns.py::TestSNSServerBindings.test_sns_server_bindings_serialization" [SLet 0 (XNew "SNSServerBindings" (XVal (VDict [])));
  SLet 1 (XDump (XVar 0));
  SAssert (CEq (XVar 1) (XUnurl (XVal (VDict []))))];
t "models/bindings/test_sns.py::TestSNSServerBindings.test_sns_server_bindings_python_validation_error" [SRaises [SDo (XNew "SNSServerBindings" (XVal (VDict [((u "some_field"), (VStr (u "value")))])))] []];
t "models/bindings/test_sns.py::TestSNSServerBindings.test_sns_server_bindings_yaml_validation_error" [SRaises [SDo (XNew "SNSServerBindings" (XVal (VDict [((u "some_field"), (VStr (u "value")))])))] []];
t "models/bindings/test_sns.py::TestSNSServerBindings.test_sns_server_bindings_yaml_empty_validation" [SLet 0 (XNew "SNSServerBindings" (XVal (VDict [])));
  SAssert (CNot (CEq (XVar 0) (XVal VNone)))];
t "models/bindings/test_sns.py::TestSNSChannelBindings.test_sns_channel_bindings_validation/case_channel_binding_minimal" [SLet 0 (XNew "SNSChannelBindings" (XVal (VDict [((u "name"), (VStr (u "user-signedup"))); ((u "bindingVersion"), (VStr (u "1.0.0")))])));
  SAssert (CNot (CEq (XVar 0) (XVal VNone)));
  SAssert (CEq (XAttr (XVar 0) (u "binding_version")) (XVal (VStr (u "1.0.0"))))];
t "models/bindings/test_sns.py::TestSNSChannelBindings.test_sns_channel_bindings_validation/case_channel_binding_with_policy" [SLet 0 (XNew "SNSChannelBindings" (XVal (VDict [((u "name"), (VStr (u "user-signedup"))); ((u "policy"), (VDict [((u "statements"), (VList [(VDict [((u "effect"), (VStr (u "Allow"))); ((u "principal"), (VStr (u "*"))); ((u "action"), (VStr (u "SNS:Publish")))])]))])); ((u "bindingVersion"), (VStr (u "1.0.0")))])));
  SAssert (CNot (CEq (XVar 0) (XVal VNone)));
  SAssert (CEq (XAttr (XVar 0) (u "binding_version")) (XVal (VStr (u "1.0.0"))))];
t "models/bindings/test_sns.py::TestSNSChannelBindings.test_sns_channel_bindings_serialization/case_sns_channel_binding_serialization_minimal" [SLet 0 (XNew "SNSChannelBindings" (XVal (VDict [((u "name"), (VStr (u "user-signedup")))])));
  SLet 1 (XDump (XVar 0));
  SAssert (CEq (XVar 1) (XUnurl (XVal (VDict [((u "name"), (VStr (u "user-signedup"))); ((u "bindingVersion"), (VStr (u "1.0.0")))]))))];
t "models/bindings/test_sns.py::TestSNSChannelBindings.test_sns_channel_bindings_serialization/case_sns_channel_binding_serialization_with_policy" [SLet 0 (XNew "SNSChannelBindings" (XDict [((u "name"), (XVal (VStr (u "user-signedup")))); ((u "policy"), (XNew "SNSPolicy" (XDict [((u "statements"), (XList [(XNew "SNSStatement" (XVal (VDict [((u "effect"), (VStr (u "Allow"))); ((u "principal"), (VStr (u "*"))); ((u "action"), (VStr (u "SNS:Publish")))])))]))])))]));
  SLet 1 (XDump (XVar 0));
  SAssert (CEq (XVar 1) (XUnurl (XVal (VDict [((u "name"), (VStr (u "user-signedup"))); ((u "policy"), (VDict [((u "statements"), (VList [(VDict [((u "effect"), (VStr (u "Allow"))); ((u "principal"), (VStr (u "*"))); ((u "action"), (VStr (u "SNS:Publish")))])]))])); ((u "bindingVersion"), (VStr (u "1.0.0")))]))))];
t "models/bindings/test_sns.py::TestSNSChannelBindings.test_sns_channel_bindings_serialization/case_sns_channel_binding_serialization_with_ordering" [SLet 0 (XNew "SNSChannelBindings" (XDict [((u "name"), (XVal (VStr (u "user-signedup-fifo")))); ((u "ordering"), (XNew "SNSOrdering" (XVal (VDict [((u "type"), (VStr (u "FIFO"))); ((u "content_based_deduplication"), (VBool true))]))))]));
  SLet 1 (XDump (XVar 0));
  SAssert (CEq (XVar 1) (XUnurl (XVal (VDict [((u "name"), (VStr (u "user-signedup-fifo"))); ((u "ordering"), (VDict [((u "type"), (VStr (u "FIFO"))); ((u "contentBasedDeduplication"), (VBool true))])); ((u "bindingVersion"), (VStr (u "1.0.0")))]))))];
t "models/bindings/test_sns.py::TestSNSChannelBindings.test_sns_channel_bindings_serialization/case_sns_channel_binding_serialization_with_tags" [SLet 0 (XNew "SNSChannelBindings" (XVal (VDict [((u "name"), (VStr (u "user-signedup"))); ((u "tags"), (VDict [((u "Environment"), (VStr (u "production"))); ((u "Team"), (VStr (u "backend")))]))])));
  SLet 1 (XDump (XVar 0));
  SAssert (CEq (XVar 1) (XUnurl (XVal (VDict [((u "name"), (VStr (u "user-signedup"))); ((u "tags"), (VDict [((u "Environment"), (VStr (u "production"))); ((u "Team"), (VStr (u "backend")))])); ((u "bindingVersion"), (VStr (u "1.0.0")))]))))];
t "models/bindings/test_sns.py::TestSNSChannelBindings.test_sns_channel_binding_policy_validation" [SLet 0 (XNew "SNSChannelBindings" (XVal (VDict [((u "name"), (VStr (u "user-signedup"))); ((u "policy"), (VDict [((u "statements"), (VList [(VDict [((u "effect"), (VStr (u "Allow"))); ((u "principal"), (VStr (u "*"))); ((u "action"), (VStr (u "SNS:Publish")))])]))])); ((u "bindingVersion"), (VStr (u "1.0.0")))])));
  SAssert (CEq (XAttr (XVar 0) (u "name")) (XVal (VStr (u "user-signedup"))));
  SAssert (CNot (CEq (XAttr (XVar 0) (u "policy")) (XVal VNone)));
  SAssert (CIs (XAttr (XVar 0) (u "policy")) ["SNSPolicy"]);
  SAssert (CEq (XAttr (XVar 0) (u "binding_version")) (XVal (VStr (u "1.0.0"))))];
t "models/bindings/test_sns.py::TestSNSChannelBindings.test_sns_channel_binding_ordering_validation" [SLet 0 (XNew "SNSChannelBindings" (XVal (VDict [((u "name"), (VStr (u "user-signedup-fifo"))); ((u "ordering"), (VDict [((u "type"), (VStr (u "FIFO"))); ((u "contentBasedDeduplication"), (VBool true))])); ((u "bindingVersion"), (VStr (u "1.0.0")))])));
  SAssert (CEq (XAttr (XVar 0) (u "name")) (XVal (VStr (u "user-signedup-fifo"))));
  SAssert (CNot (CEq (XAttr (XVar 0) (u "ordering")) (XVal VNone)));
  SAssert (CIs (XAttr (XVar 0) (u "ordering")) ["SNSOrdering"]);
  SAssert (CEq (XAttr (XAttr (XVar 0) (u "ordering")) (u "type")) (XVal (VStr (u "FIFO"))));
  SAssert (CEq (XAttr (XAttr (XVar 0) (u "ordering")) (u "content_based_deduplication")) (XVal (VBool true)));
  SAssert (CEq (XAttr (XVar 0) (u "binding_version")) (XVal (VStr (u "1.0.0"))))];
t "models/bindings/test_sns.py::TestSNSChannelBindings.test_sns_channel_binding_tags_validation" [SLet 0 (XNew "SNSChannelBindings" (XVal (VDict [((u "name"), (VStr (u "user-signedup"))); ((u "tags"), (VDict [((u "Environment"), (VStr (u "production"))); ((u "Team"), (VStr (u "backend")))])); ((u "bindingVersion"), (VStr (u "1.0.0")))])));
  SAssert (CEq (XAttr (XVar 0) (u "name")) (XVal (VStr (u "user-signedup"))));
  SAssert (CEq (XAttr (XVar 0) (u "tags")) (XVal (VDict [((u "Environment"), (VStr (u "production"))); ((u "Team"), (VStr (u "backend")))])));
  SAssert (CEq (XAttr (XVar 0) (u "binding_version")) (XVal (VStr (u "1.0.0"))))];
t "models/bindings/test_sns.py::TestSNSChannelBindings.test_sns_channel_bindings_python_validation_error" [SRaises [SDo (XNew "SNSChannelBindings" (XVal (VDict [((u "name"), (VStr (u "test"))); ((u "invalid_field"), (VStr (u "value")))])))] []];
t "models/bindings/test_sns.py::TestSNSChannelBindings.test_sns_channel_bindings_yaml_validation_error" [SRaises [SDo (XNew "SNSChannelBindings" (XVal (VDict [((u "name"), (VStr (u "user-signedup"))); ((u "invalid_field"), (VStr (u "value"))); ((u "bindingVersion"), (VStr (u "1.0.0")))])))] []];
t "models/bindings/test_sns.py::TestSNSOperationBindings.test_sns_operation_bindings_validation/case_operation_binding_with_consumers" [SLet 0 (XNew "SNSOperationBindings" (XVal (VDict [((u "consumers"), (VList [(VDict [((u "protocol"), (VStr (u "sqs"))); ((u "endpoint"), (VDict [((u "name"), (VStr (u "myQueue")))])); ((u "rawMessageDelivery"), (VBool false))])])); ((u "bindingVersion"), (VStr (u "1.0.0")))])));
  SAssert (CNot (CEq (XVar 0) (XVal VNone)));
  SAssert (CEq (XAttr (XVar 0) (u "binding_version")) (XVal (VStr (u "1.0.0"))))]].
Definition part9 : list (string * list stmt) := [
t "models/bindings/test_sns.py::TestSNSOperationBindings.test_sns_operation_bindings_serialization/case_sns_operation_binding_serialization_with_consumers" [SLet 0 (XNew "SNSOperationBindings" (XDict [((u "consumers"), (XList [(XNew "SNSConsumer" (XDict [((u "protocol"), (XVal (VStr (u "sqs")))); ((u "endpoint"), (XNew "SNSIdentifier" (XVal (VDict [((u "name"), (VStr (u "myQueue")))])))); ((u "raw_message_delivery"), (XVal (VBool false)))]))]))]));
  SLet 1 (XDump (XVar 0));
  SAssert (CEq (XVar 1) (XUnurl (XVal (VDict [((u "consumers"), (VList [(VDict [((u "protocol"), (VStr (u "sqs"))); ((u "endpoint"), (VDict [((u "name"), (VStr (u "myQueue")))])); ((u "rawMessageDelivery"), (VBool false))])])); ((u "bindingVersion"), (VStr (u "1.0.0")))]))))];
t "models/bindings/test_sns.py::TestSNSOperationBindings.test_sns_operation_bindings_serialization/case_sns_operation_binding_serialization_with_topic" [SLet 0 (XNew "SNSOperationBindings" (XDict [((u "topic"), (XNew "SNSIdentifier" (XVal (VDict [((u "arn"), (VStr (u "arn:aws:sns:us-east-1:123456789012:my-topic")))])))); ((u "consumers"), (XList [(XNew "SNSConsumer" (XDict [((u "protocol"), (XVal (VStr (u "sqs")))); ((u "endpoint"), (XNew "SNSIdentifier" (XVal (VDict [((u "name"), (VStr (u "myQueue")))])))); ((u "raw_message_delivery"), (XVal (VBool false)))]))]))]));
  SLet 1 (XDump (XVar 0));
  SAssert (CEq (XVar 1) (XUnurl (XVal (VDict [((u "topic"), (VDict [((u "arn"), (VStr (u "arn:aws:sns:us-east-1:123456789012:my-topic")))])); ((u "consumers"), (VList [(VDict [((u "protocol"), (VStr (u "sqs"))); ((u "endpoint"), (VDict [((u "name"), (VStr (u "myQueue")))])); ((u "rawMessageDelivery"), (VBool false))])])); ((u "bindingVersion"), (VStr (u "1.0.0")))]))))];
t "models/bindings/test_sns.py::TestSNSOperationBindings.test_sns_operation_binding_consumers_validation" [SLet 0 (XNew "SNSOperationBindings" (XVal (VDict [((u "consumers"), (VList [(VDict [((u "protocol"), (VStr (u "sqs"))); ((u "endpoint"), (VDict [((u "name"), (VStr (u "myQueue")))])); ((u "rawMessageDelivery"), (VBool false))])])); ((u "bindingVersion"), (VStr (u "1.0.0")))])));
  SAssert (CNot (CEq (XAttr (XVar 0) (u "consumers")) (XVal VNone)));
  SAssert (CEq (XLen (XAttr (XVar 0) (u "consumers"))) (XVal (VInt (1)%Z)));
  SAssert (CIs (XIndex (XAttr (XVar 0) (u "consumers")) 0) ["SNSConsumer"]);
  SAssert (CEq (XAttr (XIndex (XAttr (XVar 0) (u "consumers")) 0) (u "protocol")) (XVal (VStr (u "sqs"))));
  SAssert (CEq (XAttr (XVar 0) (u "binding_version")) (XVal (VStr (u "1.0.0"))))];
t "models/bindings/test_sns.py::TestSNSOperationBindings.test_sns_operation_binding_topic_validation" [SLet 0 (XNew "SNSOperationBindings" (XVal (VDict [((u "topic"), (VDict [((u "arn"), (VStr (u "arn:aws:sns:us-east-1:123456789012:my-topic")))])); ((u "consumers"), (VList [(VDict [((u "protocol"), (VStr (u "sqs"))); ((u "endpoint"), (VDict [((u "name"), (VStr (u "myQueue")))])); ((u "rawMessageDelivery"), (VBool false))])])); ((u "bindingVersion"), (VStr (u "1.0.0")))])));
  SAssert (CNot (CEq (XAttr (XVar 0) (u "topic")) (XVal VNone)));
  SAssert (CIs (XAttr (XVar 0) (u "topic")) ["SNSIdentifier"]);
  SAssert (CEq (XAttr (XAttr (XVar 0) (u "topic")) (u "arn")) (XVal (VStr (u "arn:aws:sns:us-east-1:123456789012:my-topic"))));
  SAssert (CNot (CEq (XAttr (XVar 0) (u "consumers")) (XVal VNone)));
  SAssert (CEq (XLen (XAttr (XVar 0) (u "consumers"))) (XVal (VInt (1)%Z)));
  SAssert (CIs (XIndex (XAttr (XVar 0) (u "consumers")) 0) ["SNSConsumer"]);
  SAssert (CEq (XAttr (XIndex (XAttr (XVar 0) (u "consumers")) 0) (u "protocol")) (XVal (VStr (u "sqs"))));
  SAssert (CEq (XAttr (XVar 0) (u "binding_version")) (XVal (VStr (u "1.0.0"))))];
t "models/bindings/test_sns.py::TestSNSOperationBindings.test_sns_operation_bindings_python_validation_error" [SRaises [SDo (XNew "SNSOperationBindings" (XVal (VDict [((u "consumers"), (VList [])); ((u "invalid_field"), (VStr (u "value")))])))] []];
t "models/bindings/test_sns.py::TestSNSOperationBindings.test_sns_operation_bindings_yaml_validation_error" [SRaises [SDo (XNew "SNSOperationBindings" (XVal (VDict [((u "consumers"), (VList [(VDict [((u "protocol"), (VStr (u "sqs"))); ((u "endpoint"), (VDict [((u "name"), (VStr (u "myQueue")))])); ((u "rawMessageDelivery"), (VBool false))])])); ((u "invalid_field"), (VStr (u "value"))); ((u "bindingVersion"), (VStr (u "1.0.0")))])))] []];
t "models/bindings/test_sns.py::TestSNSMessageBindings.test_sns_message_bindings_serialization" [SLet 0 (XNew "SNSMessageBindings" (XVal (VDict [])));
  SLet 1 (XDump (XVar 0));
  SAssert (CEq (XVar 1) (XUnurl (XVal (VDict []))))];
t "models/bindings/test_sns.py::TestSNSMessageBindings.test_sns_message_bindings_python_validation_error" [SRaises [SDo (XNew "SNSMessageBindings" (XVal (VDict [((u "some_field"), (VStr (u "value")))])))] []];
t "models/bindings/test_sns.py::TestSNSMessageBindings.test_sns_message_bindings_yaml_validation_error" [SRaises [SDo (XNew "SNSMessageBindings" (XVal (VDict [((u "some_field"), (VStr (u "value")))])))] []];
t "models/bindings/test_sns.py::TestSNSMessageBindings.test_sns_message_bindings_yaml_empty_validation" [SLet 0 (XNew "SNSMessageBindings" (XVal (VDict [])));
  SAssert (CNot (CEq (XVar 0) (XVal VNone)))];
t "models/bindings/test_solace.py::TestSolaceServerBindings.test_solace_server_bindings_validation/case_server_binding_with_vpn" [SLet 0 (XNew "SolaceServerBindings" (XVal (VDict [((u "msgVpn"), (VStr (u "my-vpn"))); ((u "clientName"), (VStr (u "my-client"))); ((u "bindingVersion"), (VStr (u "0.4.0")))])));
  SAssert (CNot (CEq (XVar 0) (XVal VNone)));
  SAssert (CEq (XAttr (XVar 0) (u "binding_version")) (XVal (VStr (u "0.4.0"))))];
t "models/bindings/test_solace.py::TestSolaceServerBindings.test_solace_server_bindings_serialization/case_solace_server_binding_serialization_empty" [SLet 0 (XNew "SolaceServerBindings" (XVal (VDict [])));
  SLet 1 (XDump (XVar 0));
  SAssert (CEq (XVar 1) (XUnurl (XVal (VDict [((u "bindingVersion"), (VStr (u "0.4.0")))]))))];
t "models/bindings/test_solace.py::TestSolaceServerBindings.test_solace_server_bindings_serialization/case_solace_server_binding_serialization_with_vpn" [SLet 0 (XNew "SolaceServerBindings" (XVal (VDict [((u "msg_vpn"), (VStr (u "my-vpn"))); ((u "client_name"), (VStr (u "my-client")))])));
  SLet 1 (XDump (XVar 0));
  SAssert (CEq (XVar 1) (XUnurl (XVal (VDict [((u "msgVpn"), (VStr (u "my-vpn"))); ((u "clientName"), (VStr (u "my-client"))); ((u "bindingVersion"), (VStr (u "0.4.0")))]))))];
t "models/bindings/test_solace.py::TestSolaceServerBindings.test_solace_server_bindings_client_name_too_long" [SRaises [SDo (XNew "SolaceServerBindings" (XVal (VDict [((u "client_name"), (VStr (u "aaaaaaaaaaaaaaaaaaaaaaaaaaaaaaaaaaaaaaaaaaaaaaaaaaaaaaaaaaaaaaaaaaaaaaaaaaaaaaaaaaaaaaaaaaaaaaaaaaaaaaaaaaaaaaaaaaaaaaaaaaaaaaaaaaaaaaaaaaaaaaaaaaaaaaaaaaaaaaaaa")))])))] []];
t "models/bindings/test_solace.py::TestSolaceServerBindings.test_solace_server_bindings_client_name_max_length" [SLet 0 (XNew "SolaceServerBindings" (XVal (VDict [((u "client_name"), (VStr (u "aaaaaaaaaaaaaaaaaaaaaaaaaaaaaaaaaaaaaaaaaaaaaaaaaaaaaaaaaaaaaaaaaaaaaaaaaaaaaaaaaaaaaaaaaaaaaaaaaaaaaaaaaaaaaaaaaaaaaaaaaaaaaaaaaaaaaaaaaaaaaaaaaaaaaaaaaaaaaaaa")))])));
  SAssert (CEq (XAttr (XVar 0) (u "client_name")) (XVal (VStr (u "aaaaaaaaaaaaaaaaaaaaaaaaaaaaaaaaaaaaaaaaaaaaaaaaaaaaaaaaaaaaaaaaaaaaaaaaaaaaaaaaaaaaaaaaaaaaaaaaaaaaaaaaaaaaaaaaaaaaaaaaaaaaaaaaaaaaaaaaaaaaaaaaaaaaaaaaaaaaaaaa"))))];
t "models/bindings/test_solace.py::TestSolaceServerBindings.test_solace_server_bindings_empty_creation" [SLet 0 (XNew "SolaceServerBindings" (XVal (VDict [])));
  SAssert (CEq (XAttr (XVar 0) (u "binding_version")) (XVal (VStr (u "0.4.0"))));
  SAssert (CEq (XAttr (XVar 0) (u "msg_vpn")) (XVal VNone));
  SAssert (CEq (XAttr (XVar 0) (u "client_name")) (XVal VNone))];
t "models/bindings/test_solace.py::TestSolaceServerBindings.test_solace_server_bindings_python_extra_fields_error" [SRaises [SDo (XNew "SolaceServerBindings" (XVal (VDict [((u "extra_field"), (VStr (u "value")))])))] []];
t "models/bindings/test_solace.py::TestSolaceServerBindings.test_solace_server_bindings_yaml_extra_fields_error" [SRaises [SDo (XNew "SolaceServerBindings" (XVal (VDict [((u "msgVpn"), (VStr (u "my-vpn"))); ((u "extraField"), (VStr (u "value"))); ((u "bindingVersion"), (VStr (u "0.4.0")))])))] []];
t "models/bindings/test_solace.py::TestSolaceChannelBindings.test_solace_channel_bindings_serialization_empty" [SLet 0 (XNew "SolaceChannelBindings" (XVal (VDict [])));
  SLet 1 (XDump (XVar 0));
  SAssert (CEq (XVar 1) (XUnurl (XVal (VDict []))))];
t "models/bindings/test_solace.py::TestSolaceChannelBindings.test_solace_channel_bindings_python_validation_error" [SRaises [SDo (XNew "SolaceChannelBindings" (XVal (VDict [((u "some_field"), (VStr (u "value")))])))] []];
t "models/bindings/test_solace.py::TestSolaceChannelBindings.test_solace_channel_bindings_yaml_validation_error" [SRaises [SDo (XNew "SolaceChannelBindings" (XVal (VDict [((u "some_field"), (VStr (u "value")))])))] []];
t "models/bindings/test_solace.py::TestSolaceChannelBindings.test_solace_channel_bindings_yaml_empty_validation" [SLet 0 (XNew "SolaceChannelBindings" (XVal (VDict [])));
  SAssert (CNot (CEq (XVar 0) (XVal VNone)))];
t "models/bindings/test_solace.py::TestSolaceOperationBindings.test_solace_operation_bindings_validation/case_operation_binding_with_destinations" [SLet 0 (XNew "SolaceOperationBindings" (XVal (VDict [((u "destinations"), (VList [(VDict [((u "destinationType"), (VStr (u "queue"))); ((u "queue"), (VDict [((u "name"), (VStr (u "CreatedHREvents"))); ((u "topicSubscriptions"), (VList [(VStr (u "person/*/created"))]))]))])])); ((u "timeToLive"), (VInt (5000)%Z)); ((u "priority"), (VInt (120)%Z)); ((u "dmqEligible"), (VBool true)); ((u "bindingVersion"), (VStr (u "0.4.0")))])));
  SAssert (CNot (CEq (XVar 0) (XVal VNone)));
  SAssert (CEq (XAttr (XVar 0) (u "binding_version")) (XVal (VStr (u "0.4.0"))))];
t "models/bindings/test_solace.py::TestSolaceOperationBindings.test_solace_operation_bindings_serialization/case_solace_operation_binding_serialization_empty" [SLet 0 (XNew "SolaceOperationBindings" (XVal (VDict [])));
  SLet 1 (XDump (XVar 0));
  SAssert (CEq (XVar 1) (XUnurl (XVal (VDict [((u "bindingVersion"), (VStr (u "0.4.0")))]))))];
t "models/bindings/test_solace.py::TestSolaceOperationBindings.test_solace_operation_bindings_serialization/case_solace_operation_binding_serialization_with_destinations" [SLet 0 (XNew "SolaceOperationBindings" (XDict [((u "destinations"), (XList [(XNew "SolaceDestination" (XDict [((u "destination_type"), (XVal (VStr (u "queue")))); ((u "queue"), (XNew "SolaceQueue" (XVal (VDict [((u "name"), (VStr (u "CreatedHREvents"))); ((u "topic_subscriptions"), (VList [(VStr (u "person/*/created"))]))]))))]))])); ((u "time_to_live"), (XVal (VInt (5000)%Z))); ((u "priority"), (XVal (VInt (120)%Z))); ((u "dmq_eligible"), (XVal (VBool true)))]));
  SLet 1 (XDump (XVar 0));
  SAssert (CEq (XVar 1) (XUnurl (XVal (VDict [((u "destinations"), (VList [(VDict [((u "deliveryMode"), (VStr (u "persistent"))); ((u "destinationType"), (VStr (u "queue"))); ((u "queue"), (VDict [((u "name"), (VStr (u "CreatedHREvents"))); ((u "topicSubscriptions"), (VList [(VStr (u "person/*/created"))]))])); ((u "bindingVersion"), (VStr (u "0.4.0")))])])); ((u "timeToLive"), (VInt (5000)%Z)); ((u "priority"), (VInt (120)%Z)); ((u "dmqEligible"), (VBool true)); ((u "bindingVersion"), (VStr (u "0.4.0")))]))))];
t "models/bindings/test_solace.py::TestSolaceOperationBindings.test_solace_operation_binding_destinations_validation" [SLet 0 (XNew "SolaceOperationBindings" (XVal (VDict [((u "destinations"), (VList [(VDict [((u "destinationType"), (VStr (u "queue"))); ((u "queue"), (VDict [((u "name"), (VStr (u "CreatedHREvents"))); ((u "topicSubscriptions"), (VList [(VStr (u "person/*/created"))]))]))])])); ((u "bindingVersion"), (VStr (u "0.4.0")))])));
  SAssert (CNot (CEq (XAttr (XVar 0) (u "destinations")) (XVal VNone)));
  SAssert (CEq (XLen (XAttr (XVar 0) (u "destinations"))) (XVal (VInt (1)%Z)));
  SAssert (CIs (XIndex (XAttr (XVar 0) (u "destinations")) 0) ["SolaceDestination"]);
  SAssert (CEq (XAttr (XIndex (XAttr (XVar 0) (u "destinations")) 0) (u "destination_type")) (XVal (VStr (u "queue"))));
  SAssert (CEq (XAttr (XVar 0) (u "binding_version")) (XVal (VStr (u "0.4.0"))))];
t "models/bindings/test_solace.py::TestSolaceOperationBindings.test_solace_operation_bindings_priority_too_low" [SRaises [SDo (XNew "SolaceOperationBindings" (XVal (VDict [((u "priority"), (VInt (-1)%Z))])))] []];
t "models/bindings/test_solace.py::TestSolaceOperationBindings.test_solace_operation_bindings_priority_too_high" [SRaises [SDo (XNew "SolaceOperationBindings" (XVal (VDict [((u "priority"), (VInt (256)%Z))])))] []];
t "models/bindings/test_solace.py::TestSolaceOperationBindings.test_solace_operation_bindings_priority_valid_range/0" [SLet 0 (XNew "SolaceOperationBindings" (XVal (VDict [((u "priority"), (VInt (0)%Z))])));
  SAssert (CEq (XAttr (XVar 0) (u "priority")) (XVal (VInt (0)%Z)))];
t "models/bindings/test_solace.py::TestSolaceOperationBindings.test_solace_operation_bindings_priority_valid_range/1" [SLet 0 (XNew "SolaceOperationBindings" (XVal (VDict [((u "priority"), (VInt (255)%Z))])));
  SAssert (CEq (XAttr (XVar 0) (u "priority")) (XVal (VInt (255)%Z)))];
t "models/bindings/test_solace.py::TestSolaceOperationBindings.test_solace_operation_bindings_priority_valid_range/2" [SLet 0 (XNew "SolaceOperationBindings" (XVal (VDict [((u "priority"), (VInt (120)%Z))])));
  SAssert (CEq (XAttr (XVar 0) (u "priority")) (XVal (VInt (120)%Z)))];
t "models/bindings/test_solace.py::TestSolaceOperationBindings.test_solace_operation_bindings_empty_creation" [SLet 0 (XNew "SolaceOperationBindings" (XVal (VDict [])));
  SAssert (CEq (XAttr (XVar 0) (u "binding_version")) (XVal (VStr (u "0.4.0"))));
  SAssert (CEq (XAttr (XVar 0) (u "destinations")) (XVal VNone));
  SAssert (CEq (XAttr (XVar 0) (u "time_to_live")) (XVal VNone));
  SAssert (CEq (XAttr (XVar 0) (u "priority")) (XVal VNone));
  SAssert (CEq (XAttr (XVar 0) (u "dmq_eligible")) (XVal VNone))];
t "models/bindings/test_solace.py::TestSolaceOperationBindings.test_solace_operation_bindings_python_extra_fields_error" [SRaises [SDo (XNew "SolaceOperationBindings" (XVal (VDict [((u "extra_field"), (VStr (u "value")))])))] []];
t "models/bindings/test_solace.py::TestSolaceOperationBindings.test_solace_operation_bindings_yaml_extra_fields_error" [SRaises [SDo (XNew "SolaceOperationBindings" (XVal (VDict [((u "destinations"), (VList [])); ((u "extraField"), (VStr (u "value"))); ((u "bindingVersion"), (VStr (u "0.4.0")))])))] []];
t "models/bindings/test_solace.py::TestSolaceMessageBindings.test_solace_message_bindings_serialization_empty" [SLet 0 (XNew "SolaceMessageBindings" (XVal (VDict [])));
  SLet 1 (XDump (XVar 0));
  SAssert (CEq (XVar 1) (XUnurl (XVal (VDict []))))];
t "models/bindings/test_solace.py::TestSolaceMessageBindings.test_solace_message_bindings_python_validation_error" [SRaises [SDo (XNew "SolaceMessageBindings" (XVal (VDict [((u "some_field"), (VStr (u "value")))])))] []];
t "models/bindings/test_solace.py::TestSolaceMessageBindings.test_solace_message_bindings_yaml_validation_error" [SRaises [SDo (XNew "SolaceMessageBindings" (XVal (VDict [((u "some_field"), (VStr (u "value")))])))] []];
t "models/bindings/test_solace.py::TestSolaceMessageBindings.test_solace_message_bindings_yaml_empty_validation" [SLet 0 (XNew "SolaceMessageBindings" (XVal (VDict [])));
  SAssert (CNot (CEq (XVar 0) (XVal VNone)))];
t "models/bindings/test_solace.py::TestSolaceDestination.test_solace_destination_queue_validation_success" [SLet 0 (XNew "SolaceDestination" (XDict [((u "destination_type"), (XVal (VStr (u "queue")))); ((u "queue"), (XNew "SolaceQueue" (XVal (VDict [((u "name"), (VStr (u "test_queue")))]))))]));
  SAssert (CEq (XAttr (XVar 0) (u "destination_type")) (XVal (VStr (u "queue"))));
  SAssert (CNot (CEq (XAttr (XVar 0) (u "queue")) (XVal VNone)));
  SAssert (CEq (XAttr (XVar 0) (u "topic")) (XVal VNone))];
t "models/bindings/test_solace.py::TestSolaceDestination.test_solace_destination_topic_validation_success" [SLet 0 (XNew "SolaceDestination" (XDict [((u "destination_type"), (XVal (VStr (u "topic")))); ((u "topic"), (XNew "SolaceTopic" (XVal (VDict [((u "topic_subscriptions"), (VList [(VStr (u "test/topic"))]))]))))]));
  SAssert (CEq (XAttr (XVar 0) (u "destination_type")) (XVal (VStr (u "topic"))));
  SAssert (CNot (CEq (XAttr (XVar 0) (u "topic")) (XVal VNone)));
  SAssert (CEq (XAttr (XVar 0) (u "queue")) (XVal VNone))]].
Definition part10 : list (string * list stmt) := [
t "models/bindings/test_solace.py::TestSolaceDestination.test_solace_destination_queue_missing_queue_error" [SRaises [SDo (XNew "SolaceDestination" (XVal (VDict [((u "destination_type"), (VStr (u "queue")))])))] [(u "queue required for destinationType 'queue'")]];
t "models/bindings/test_solace.py::TestSolaceDestination.test_solace_destination_topic_missing_topic_error" [SRaises [SDo (XNew "SolaceDestination" (XVal (VDict [((u "destination_type"), (VStr (u "topic")))])))] [(u "topic required for destinationType 'topic'")]];
t "models/bindings/test_solace.py::TestSolaceDestination.test_solace_destination_queue_with_topic_error" [SRaises [SDo (XNew "SolaceDestination" (XDict [((u "destination_type"), (XVal (VStr (u "queue")))); ((u "queue"), (XNew "SolaceQueue" (XVal (VDict [((u "name"), (VStr (u "test_queue")))])))); ((u "topic"), (XNew "SolaceTopic" (XVal (VDict [((u "topic_subscriptions"), (VList [(VStr (u "test/topic"))]))]))))]))] [(u "topic not allowed for destinationType 'queue'")]];
t "models/bindings/test_solace.py::TestSolaceDestination.test_solace_destination_topic_with_queue_error" [SRaises [SDo (XNew "SolaceDestination" (XDict [((u "destination_type"), (XVal (VStr (u "topic")))); ((u "topic"), (XNew "SolaceTopic" (XVal (VDict [((u "topic_subscriptions"), (VList [(VStr (u "test/topic"))]))])))); ((u "queue"), (XNew "SolaceQueue" (XVal (VDict [((u "name"), (VStr (u "test_queue")))]))))]))] [(u "queue not allowed for destinationType 'topic'")]];
t "models/bindings/test_solace.py::TestSolaceTopic.test_solace_topic_empty_validation" [SLet 0 (XNew "SolaceTopic" (XVal (VDict [])));
  SAssert (CEq (XAttr (XVar 0) (u "topic_subscriptions")) (XVal VNone))];
t "models/bindings/test_solace.py::TestSolaceTopic.test_solace_topic_with_subscriptions_validation" [SLet 0 (XNew "SolaceTopic" (XVal (VDict [((u "topic_subscriptions"), (VList [(VStr (u "topic1")); (VStr (u "topic2"))]))])));
  SAssert (CEq (XAttr (XVar 0) (u "topic_subscriptions")) (XVal (VList [(VStr (u "topic1")); (VStr (u "topic2"))])))];
t "models/bindings/test_solace.py::TestSolaceTopic.test_solace_topic_serialization_empty" [SLet 0 (XNew "SolaceTopic" (XVal (VDict [])));
  SLet 1 (XDump (XVar 0));
  SAssert (CEq (XVar 1) (XUnurl (XVal (VDict []))))];
t "models/bindings/test_solace.py::TestSolaceTopic.test_solace_topic_serialization_with_subscriptions" [SLet 0 (XNew "SolaceTopic" (XVal (VDict [((u "topic_subscriptions"), (VList [(VStr (u "topic1")); (VStr (u "topic2"))]))])));
  SLet 1 (XDump (XVar 0));
  SAssert (CEq (XVar 1) (XUnurl (XVal (VDict [((u "topicSubscriptions"), (VList [(VStr (u "topic1")); (VStr (u "topic2"))]))]))))];
t "models/bindings/test_sqs.py::TestSQSServerBindings.test_sqs_server_bindings_serialization" [SLet 0 (XNew "SQSServerBindings" (XVal (VDict [])));
  SLet 1 (XDump (XVar 0));
  SAssert (CEq (XVar 1) (XUnurl (XVal (VDict []))))];
t "models/bindings/test_sqs.py::TestSQSServerBindings.test_sqs_server_bindings_python_validation_error" [SRaises [SDo (XNew "SQSServerBindings" (XVal (VDict [((u "some_field"), (VStr (u "value")))])))] []];
t "models/bindings/test_sqs.py::TestSQSServerBindings.test_sqs_server_bindings_yaml_validation_error" [SRaises [SDo (XNew "SQSServerBindings" (XVal (VDict [((u "some_field"), (VStr (u "value")))])))] []];
t "models/bindings/test_sqs.py::TestSQSServerBindings.test_sqs_server_bindings_yaml_empty_validation" [SLet 0 (XNew "SQSServerBindings" (XVal (VDict [])));
  SAssert (CNot (CEq (XVar 0) (XVal VNone)))];
t "models/bindings/test_sqs.py::TestSQSChannelBindings.test_sqs_channel_bindings_validation/case_channel_binding_with_queue" [SLet 0 (XNew "SQSChannelBindings" (XVal (VDict [((u "queue"), (VDict [((u "name"), (VStr (u "user-signedup-queue"))); ((u "fifoQueue"), (VBool false)); ((u "receiveMessageWaitTime"), (VInt (4)%Z))])); ((u "bindingVersion"), (VStr (u "0.3.0")))])));
  SAssert (CNot (CEq (XVar 0) (XVal VNone)));
  SAssert (CEq (XAttr (XVar 0) (u "binding_version")) (XVal (VStr (u "0.3.0"))))];
t "models/bindings/test_sqs.py::TestSQSChannelBindings.test_sqs_channel_bindings_serialization/case_sqs_channel_binding_serialization_with_queue" [SLet 0 (XNew "SQSChannelBindings" (XDict [((u "queue"), (XNew "SQSQueue" (XVal (VDict [((u "name"), (VStr (u "user-signedup-queue"))); ((u "fifo_queue"), (VBool false)); ((u "receive_message_wait_time"), (VInt (4)%Z))]))))]));
  SLet 1 (XDump (XVar 0));
  SAssert (CEq (XVar 1) (XUnurl (XVal (VDict [((u "queue"), (VDict [((u "name"), (VStr (u "user-signedup-queue"))); ((u "fifoQueue"), (VBool false)); ((u "receiveMessageWaitTime"), (VInt (4)%Z))])); ((u "bindingVersion"), (VStr (u "0.3.0")))]))))];
t "models/bindings/test_sqs.py::TestSQSChannelBindings.test_sqs_channel_bindings_serialization/case_sqs_channel_binding_serialization_with_dead_letter_queue" [SLet 0 (XNew "SQSChannelBindings" (XDict [((u "queue"), (XNew "SQSQueue" (XVal (VDict [((u "name"), (VStr (u "user-signedup-queue"))); ((u "fifo_queue"), (VBool false))])))); ((u "dead_letter_queue"), (XNew "SQSQueue" (XVal (VDict [((u "name"), (VStr (u "user-signedup-dlq"))); ((u "fifo_queue"), (VBool false))]))))]));
  SLet 1 (XDump (XVar 0));
  SAssert (CEq (XVar 1) (XUnurl (XVal (VDict [((u "queue"), (VDict [((u "name"), (VStr (u "user-signedup-queue"))); ((u "fifoQueue"), (VBool false))])); ((u "deadLetterQueue"), (VDict [((u "name"), (VStr (u "user-signedup-dlq"))); ((u "fifoQueue"), (VBool false))])); ((u "bindingVersion"), (VStr (u "0.3.0")))]))))];
t "models/bindings/test_sqs.py::TestSQSChannelBindings.test_sqs_channel_binding_queue_validation" [SLet 0 (XNew "SQSChannelBindings" (XVal (VDict [((u "queue"), (VDict [((u "name"), (VStr (u "user-signedup-queue"))); ((u "fifoQueue"), (VBool false)); ((u "receiveMessageWaitTime"), (VInt (4)%Z))])); ((u "bindingVersion"), (VStr (u "0.3.0")))])));
  SAssert (CNot (CEq (XAttr (XVar 0) (u "queue")) (XVal VNone)));
  SAssert (CIs (XAttr (XVar 0) (u "queue")) ["SQSQueue"]);
  SAssert (CEq (XAttr (XAttr (XVar 0) (u "queue")) (u "name")) (XVal (VStr (u "user-signedup-queue"))));
  SAssert (CEq (XAttr (XAttr (XVar 0) (u "queue")) (u "fifo_queue")) (XVal (VBool false)));
  SAssert (CEq (XAttr (XAttr (XVar 0) (u "queue")) (u "receive_message_wait_time")) (XVal (VInt (4)%Z)));
  SAssert (CEq (XAttr (XVar 0) (u "binding_version")) (XVal (VStr (u "0.3.0"))))];
t "models/bindings/test_sqs.py::TestSQSChannelBindings.test_sqs_channel_binding_dead_letter_queue_validation" [SLet 0 (XNew "SQSChannelBindings" (XVal (VDict [((u "queue"), (VDict [((u "name"), (VStr (u "user-signedup-queue"))); ((u "fifoQueue"), (VBool false))])); ((u "deadLetterQueue"), (VDict [((u "name"), (VStr (u "user-signedup-dlq"))); ((u "fifoQueue"), (VBool false)); ((u "messageRetentionPeriod"), (VInt (345600)%Z))])); ((u "bindingVersion"), (VStr (u "0.3.0")))])));
  SAssert (CNot (CEq (XAttr (XVar 0) (u "queue")) (XVal VNone)));
  SAssert (CIs (XAttr (XVar 0) (u "queue")) ["SQSQueue"]);
  SAssert (CEq (XAttr (XAttr (XVar 0) (u "queue")) (u "name")) (XVal (VStr (u "user-signedup-queue"))));
  SAssert (CNot (CEq (XAttr (XVar 0) (u "dead_letter_queue")) (XVal VNone)));
  SAssert (CIs (XAttr (XVar 0) (u "dead_letter_queue")) ["SQSQueue"]);
  SAssert (CEq (XAttr (XAttr (XVar 0) (u "dead_letter_queue")) (u "name")) (XVal (VStr (u "user-signedup-dlq"))));
  SAssert (CEq (XAttr (XAttr (XVar 0) (u "dead_letter_queue")) (u "message_retention_period")) (XVal (VInt (345600)%Z)));
  SAssert (CEq (XAttr (XVar 0) (u "binding_version")) (XVal (VStr (u "0.3.0"))))];
t "models/bindings/test_sqs.py::TestSQSChannelBindings.test_sqs_channel_bindings_python_validation_error" [SRaises [SDo (XNew "SQSChannelBindings" (XDict [((u "queue"), (XNew "SQSQueue" (XVal (VDict [((u "name"), (VStr (u "test"))); ((u "fifo_queue"), (VBool false))])))); ((u "invalid_field"), (XVal (VStr (u "value"))))]))] []];
t "models/bindings/test_sqs.py::TestSQSChannelBindings.test_sqs_channel_bindings_yaml_validation_error" [SRaises [SDo (XNew "SQSChannelBindings" (XVal (VDict [((u "queue"), (VDict [((u "name"), (VStr (u "user-signedup-queue"))); ((u "fifoQueue"), (VBool false))])); ((u "invalid_field"), (VStr (u "value"))); ((u "bindingVersion"), (VStr (u "0.3.0")))])))] []];
t "models/bindings/test_sqs.py::TestSQSOperationBindings.test_sqs_operation_bindings_validation/case_operation_binding_with_queues" [SLet 0 (XNew "SQSOperationBindings" (XVal (VDict [((u "queues"), (VList [(VDict [((u "name"), (VStr (u "my-queue"))); ((u "fifoQueue"), (VBool false))])])); ((u "bindingVersion"), (VStr (u "0.3.0")))])));
  SAssert (CNot (CEq (XVar 0) (XVal VNone)));
  SAssert (CEq (XAttr (XVar 0) (u "binding_version")) (XVal (VStr (u "0.3.0"))))];
t "models/bindings/test_sqs.py::TestSQSOperationBindings.test_sqs_operation_bindings_serialization/case_sqs_operation_binding_serialization_with_queues" [SLet 0 (XNew "SQSOperationBindings" (XDict [((u "queues"), (XList [(XNew "SQSQueue" (XVal (VDict [((u "name"), (VStr (u "my-queue"))); ((u "fifo_queue"), (VBool false))])))]))]));
  SLet 1 (XDump (XVar 0));
  SAssert (CEq (XVar 1) (XUnurl (XVal (VDict [((u "queues"), (VList [(VDict [((u "name"), (VStr (u "my-queue"))); ((u "fifoQueue"), (VBool false))])])); ((u "bindingVersion"), (VStr (u "0.3.0")))]))))];
t "models/bindings/test_sqs.py::TestSQSOperationBindings.test_sqs_operation_bindings_serialization/case_sqs_operation_binding_serialization_with_multiple_queues" [SLet 0 (XNew "SQSOperationBindings" (XDict [((u "queues"), (XList [(XNew "SQSQueue" (XVal (VDict [((u "name"), (VStr (u "primary-queue"))); ((u "fifo_queue"), (VBool false)); ((u "visibility_timeout"), (VInt (30)%Z))]))); (XNew "SQSQueue" (XVal (VDict [((u "name"), (VStr (u "dlq-queue"))); ((u "fifo_queue"), (VBool false)); ((u "message_retention_period"), (VInt (345600)%Z))])))]))]));
  SLet 1 (XDump (XVar 0));
  SAssert (CEq (XVar 1) (XUnurl (XVal (VDict [((u "queues"), (VList [(VDict [((u "name"), (VStr (u "primary-queue"))); ((u "fifoQueue"), (VBool false)); ((u "visibilityTimeout"), (VInt (30)%Z))]); (VDict [((u "name"), (VStr (u "dlq-queue"))); ((u "fifoQueue"), (VBool false)); ((u "messageRetentionPeriod"), (VInt (345600)%Z))])])); ((u "bindingVersion"), (VStr (u "0.3.0")))]))))];
t "models/bindings/test_sqs.py::TestSQSOperationBindings.test_sqs_operation_binding_queues_validation" [SLet 0 (XNew "SQSOperationBindings" (XVal (VDict [((u "queues"), (VList [(VDict [((u "name"), (VStr (u "my-queue"))); ((u "fifoQueue"), (VBool false))])])); ((u "bindingVersion"), (VStr (u "0.3.0")))])));
  SAssert (CNot (CEq (XAttr (XVar 0) (u "queues")) (XVal VNone)));
  SAssert (CEq (XLen (XAttr (XVar 0) (u "queues"))) (XVal (VInt (1)%Z)));
  SAssert (CIs (XIndex (XAttr (XVar 0) (u "queues")) 0) ["SQSQueue"]);
  SAssert (CEq (XAttr (XIndex (XAttr (XVar 0) (u "queues")) 0) (u "name")) (XVal (VStr (u "my-queue"))));
  SAssert (CEq (XAttr (XVar 0) (u "binding_version")) (XVal (VStr (u "0.3.0"))))];
t "models/bindings/test_sqs.py::TestSQSOperationBindings.test_sqs_operation_binding_multiple_queues_validation" [SLet 0 (XNew "SQSOperationBindings" (XVal (VDict [((u "queues"), (VList [(VDict [((u "name"), (VStr (u "primary-queue"))); ((u "fifoQueue"), (VBool false)); ((u "visibilityTimeout"), (VInt (30)%Z))]); (VDict [((u "name"), (VStr (u "dlq-queue"))); ((u "fifoQueue"), (VBool false)); ((u "messageRetentionPeriod"), (VInt (345600)%Z))])])); ((u "bindingVersion"), (VStr (u "0.3.0")))])));
  SAssert (CNot (CEq (XAttr (XVar 0) (u "queues")) (XVal VNone)));
  SAssert (CEq (XLen (XAttr (XVar 0) (u "queues"))) (XVal (VInt (2)%Z)));
  SAssert (CIs (XIndex (XAttr (XVar 0) (u "queues")) 0) ["SQSQueue"]);
  SAssert (CEq (XAttr (XIndex (XAttr (XVar 0) (u "queues")) 0) (u "name")) (XVal (VStr (u "primary-queue"))));
  SAssert (CEq (XAttr (XIndex (XAttr (XVar 0) (u "queues")) 0) (u "visibility_timeout")) (XVal (VInt (30)%Z)));
  SAssert (CIs (XIndex (XAttr (XVar 0) (u "queues")) 1) ["SQSQueue"]);
  SAssert (CEq (XAttr (XIndex (XAttr (XVar 0) (u "queues")) 1) (u "name")) (XVal (VStr (u "dlq-queue"))));
  SAssert (CEq (XAttr (XIndex (XAttr (XVar 0) (u "queues")) 1) (u "message_retention_period")) (XVal (VInt (345600)%Z)));
  SAssert (CEq (XAttr (XVar 0) (u "binding_version")) (XVal (VStr (u "0.3.0"))))];
t "models/bindings/test_sqs.py::TestSQSOperationBindings.test_sqs_operation_bindings_python_validation_error" [SRaises [SDo (XNew "SQSOperationBindings" (XDict [((u "queues"), (XList [(XNew "SQSQueue" (XVal (VDict [((u "name"), (VStr (u "test"))); ((u "fifo_queue"), (VBool false))])))])); ((u "invalid_field"), (XVal (VStr (u "value"))))]))] []];
t "models/bindings/test_sqs.py::TestSQSOperationBindings.test_sqs_operation_bindings_yaml_validation_error" [SRaises [SDo (XNew "SQSOperationBindings" (XVal (VDict [((u "queues"), (VList [(VDict [((u "name"), (VStr (u "my-queue"))); ((u "fifoQueue"), (VBool false))])])); ((u "invalid_field"), (VStr (u "value"))); ((u "bindingVersion"), (VStr (u "0.3.0")))])))] []];
t "models/bindings/test_sqs.py::TestSQSMessageBindings.test_sqs_message_bindings_serialization" [SLet 0 (XNew "SQSMessageBindings" (XVal (VDict [])));
  SLet 1 (XDump (XVar 0));
  SAssert (CEq (XVar 1) (XUnurl (XVal (VDict []))))];
t "models/bindings/test_sqs.py::TestSQSMessageBindings.test_sqs_message_bindings_python_validation_error" [SRaises [SDo (XNew "SQSMessageBindings" (XVal (VDict [((u "some_field"), (VStr (u "value")))])))] []];
t "models/bindings/test_sqs.py::TestSQSMessageBindings.test_sqs_message_bindings_yaml_validation_error" [SRaises [SDo (XNew "SQSMessageBindings" (XVal (VDict [((u "some_field"), (VStr (u "value")))])))] []];
t "models/bindings/test_sqs.py::TestSQSMessageBindings.test_sqs_message_bindings_yaml_empty_validation" [SLet 0 (XNew "SQSMessageBindings" (XVal (VDict [])));
  SAssert (CNot (CEq (XVar 0) (XVal VNone)))];
t "models/bindings/test_stomp.py::TestSTOMPServerBindings.test_stomp_server_bindings_serialization" [SLet 0 (XNew "STOMPServerBindings" (XVal (VDict [])));
  SLet 1 (XDump (XVar 0));
  SAssert (CEq (XVar 1) (XUnurl (XVal (VDict []))))];
t "models/bindings/test_stomp.py::TestSTOMPServerBindings.test_stomp_server_bindings_python_validation_error" [SRaises [SDo (XNew "STOMPServerBindings" (XVal (VDict [((u "some_field"), (VStr (u "value")))])))] []];
t "models/bindings/test_stomp.py::TestSTOMPServerBindings.test_stomp_server_bindings_yaml_validation_error" [SRaises [SDo (XNew "STOMPServerBindings" (XVal (VDict [((u "some_field"), (VStr (u "value")))])))] []];
t "models/bindings/test_stomp.py::TestSTOMPServerBindings.test_stomp_server_bindings_yaml_empty_validation" [SLet 0 (XNew "STOMPServerBindings" (XVal (VDict [])));
  SAssert (CNot (CEq (XVar 0) (XVal VNone)))];
t "models/bindings/test_stomp.py::TestSTOMPChannelBindings.test_stomp_channel_bindings_serialization" [SLet 0 (XNew "STOMPChannelBindings" (XVal (VDict [])));
  SLet 1 (XDump (XVar 0));
  SAssert (CEq (XVar 1) (XUnurl (XVal (VDict []))))];
t "models/bindings/test_stomp.py::TestSTOMPChannelBindings.test_stomp_channel_bindings_python_validation_error" [SRaises [SDo (XNew "STOMPChannelBindings" (XVal (VDict [((u "some_field"), (VStr (u "value")))])))] []];
t "models/bindings/test_stomp.py::TestSTOMPChannelBindings.test_stomp_channel_bindings_yaml_validation_error" [SRaises [SDo (XNew "STOMPChannelBindings" (XVal (VDict [((u "some_field"), (VStr (u "value")))])))] []];
t "models/bindings/test_stomp.py::TestSTOMPChannelBindings.test_stomp_channel_bindings_yaml_empty_validation" [SLet 0 (XNew "STOMPChannelBindings" (XVal (VDict [])));
  SAssert (CNot (CEq (XVar 0) (XVal VNone)))];
t "models/bindings/test_stomp.py::TestSTOMPOperationBindings.test_stomp_operation_bindings_serialization" [SLet 0 (XNew "STOMPOperationBindings" (XVal (VDict [])));
  SLet 1 (XDump (XVar 0));
  SAssert (CEq (XVar 1) (XUnurl (XVal (VDict []))))];
t "models/bindings/test_stomp.py::TestSTOMPOperationBindings.test_stomp_operation_bindings_python_validation_error" [SRaises [SDo (XNew "STOMPOperationBindings" (XVal (VDict [((u "some_field"), (VStr (u "value")))])))] []]].
Definition part11 : list (string * list stmt) := [
t "models/bindings/test_stomp.py::TestSTOMPOperationBindings.test_stomp_operation_bindings_yaml_validation_error" [SRaises [SDo (XNew "STOMPOperationBindings" (XVal (VDict [((u "some_field"), (VStr (u "value")))])))] []];
t "models/bindings/test_stomp.py::TestSTOMPOperationBindings.test_stomp_operation_bindings_yaml_empty_validation" [SLet 0 (XNew "STOMPOperationBindings" (XVal (VDict [])));
  SAssert (CNot (CEq (XVar 0) (XVal VNone)))];
t "models/bindings/test_stomp.py::TestSTOMPMessageBindings.test_stomp_message_bindings_serialization" [SLet 0 (XNew "STOMPMessageBindings" (XVal (VDict [])));
  SLet 1 (XDump (XVar 0));
  SAssert (CEq (XVar 1) (XUnurl (XVal (VDict []))))];
t "models/bindings/test_stomp.py::TestSTOMPMessageBindings.test_stomp_message_bindings_python_validation_error" [SRaises [SDo (XNew "STOMPMessageBindings" (XVal (VDict [((u "some_field"), (VStr (u "value")))])))] []];
t "models/bindings/test_stomp.py::TestSTOMPMessageBindings.test_stomp_message_bindings_yaml_validation_error" [SRaises [SDo (XNew "STOMPMessageBindings" (XVal (VDict [((u "some_field"), (VStr (u "value")))])))] []];
t "models/bindings/test_stomp.py::TestSTOMPMessageBindings.test_stomp_message_bindings_yaml_empty_validation" [SLet 0 (XNew "STOMPMessageBindings" (XVal (VDict [])));
  SAssert (CNot (CEq (XVar 0) (XVal VNone)))];
t "models/bindings/test_websockets.py::TestWebSocketsServerBindings.test_websockets_server_bindings_serialization" [SLet 0 (XNew "WebSocketsServerBindings" (XVal (VDict [])));
  SLet 1 (XDump (XVar 0));
  SAssert (CEq (XVar 1) (XUnurl (XVal (VDict []))))];
t "models/bindings/test_websockets.py::TestWebSocketsServerBindings.test_websockets_server_bindings_python_validation_error" [SRaises [SDo (XNew "WebSocketsServerBindings" (XVal (VDict [((u "some_field"), (VStr (u "value")))])))] []];
t "models/bindings/test_websockets.py::TestWebSocketsServerBindings.test_websockets_server_bindings_yaml_validation_error" [SRaises [SDo (XNew "WebSocketsServerBindings" (XVal (VDict [((u "some_field"), (VStr (u "value")))])))] []];
t "models/bindings/test_websockets.py::TestWebSocketsServerBindings.test_websockets_server_bindings_yaml_empty_validation" [SLet 0 (XNew "WebSocketsServerBindings" (XVal (VDict [])));
  SAssert (CNot (CEq (XVar 0) (XVal VNone)))];
t "models/bindings/test_websockets.py::TestWebSocketsChannelBindings.test_websockets_channel_bindings_validation/case_channel_binding_get" [SLet 0 (XNew "WebSocketsChannelBindings" (XVal (VDict [((u "method"), (VStr (u "GET"))); ((u "bindingVersion"), (VStr (u "0.1.0")))])));
  SAssert (CNot (CEq (XVar 0) (XVal VNone)));
  SAssert (CEq (XAttr (XVar 0) (u "binding_version")) (XVal (VStr (u "0.1.0"))))];
t "models/bindings/test_websockets.py::TestWebSocketsChannelBindings.test_websockets_channel_bindings_validation/case_channel_binding_post_with_query" [SLet 0 (XNew "WebSocketsChannelBindings" (XVal (VDict [((u "method"), (VStr (u "POST"))); ((u "query"), (VDict [((u "type"), (VStr (u "object"))); ((u "properties"), (VDict [((u "token"), (VDict [((u "type"), (VStr (u "string")))]))]))])); ((u "bindingVersion"), (VStr (u "0.1.0")))])));
  SAssert (CNot (CEq (XVar 0) (XVal VNone)));
  SAssert (CEq (XAttr (XVar 0) (u "binding_version")) (XVal (VStr (u "0.1.0"))))];
t "models/bindings/test_websockets.py::TestWebSocketsChannelBindings.test_websockets_channel_bindings_validation/case_channel_binding_with_headers" [SLet 0 (XNew "WebSocketsChannelBindings" (XVal (VDict [((u "method"), (VStr (u "GET"))); ((u "headers"), (VDict [((u "type"), (VStr (u "object"))); ((u "properties"), (VDict [((u "Authorization"), (VDict [((u "type"), (VStr (u "string")))]))]))])); ((u "bindingVersion"), (VStr (u "0.1.0")))])));
  SAssert (CNot (CEq (XVar 0) (XVal VNone)));
  SAssert (CEq (XAttr (XVar 0) (u "binding_version")) (XVal (VStr (u "0.1.0"))))];
t "models/bindings/test_websockets.py::TestWebSocketsChannelBindings.test_websockets_channel_bindings_serialization/case_websockets_channel_binding_serialization_empty" [SLet 0 (XNew "WebSocketsChannelBindings" (XVal (VDict [])));
  SLet 1 (XDump (XVar 0));
  SAssert (CEq (XVar 1) (XUnurl (XVal (VDict [((u "bindingVersion"), (VStr (u "0.1.0")))]))))];
t "models/bindings/test_websockets.py::TestWebSocketsChannelBindings.test_websockets_channel_bindings_serialization/case_websockets_channel_binding_serialization_get" [SLet 0 (XNew "WebSocketsChannelBindings" (XVal (VDict [((u "method"), (VStr (u "GET")))])));
  SLet 1 (XDump (XVar 0));
  SAssert (CEq (XVar 1) (XUnurl (XVal (VDict [((u "method"), (VStr (u "GET"))); ((u "bindingVersion"), (VStr (u "0.1.0")))]))))];
t "models/bindings/test_websockets.py::TestWebSocketsChannelBindings.test_websockets_channel_bindings_serialization/case_websockets_channel_binding_serialization_with_query" [SLet 0 (XNew "WebSocketsChannelBindings" (XDict [((u "method"), (XVal (VStr (u "POST")))); ((u "query"), (XNew "Schema" (XDict [((u "type"), (XVal (VStr (u "object")))); ((u "properties"), (XDict [((u "token"), (XNew "Schema" (XVal (VDict [((u "type"), (VStr (u "string")))]))))]))])))]));
  SLet 1 (XDump (XVar 0));
  SAssert (CEq (XVar 1) (XUnurl (XVal (VDict [((u "method"), (VStr (u "POST"))); ((u "query"), (VDict [((u "type"), (VStr (u "object"))); ((u "properties"), (VDict [((u "token"), (VDict [((u "type"), (VStr (u "string")))]))]))])); ((u "bindingVersion"), (VStr (u "0.1.0")))]))))];
t "models/bindings/test_websockets.py::TestWebSocketsChannelBindings.test_websockets_channel_bindings_serialization/case_websockets_channel_binding_serialization_with_headers" [SLet 0 (XNew "WebSocketsChannelBindings" (XDict [((u "method"), (XVal (VStr (u "GET")))); ((u "headers"), (XNew "Schema" (XDict [((u "type"), (XVal (VStr (u "object")))); ((u "properties"), (XDict [((u "Authorization"), (XNew "Schema" (XVal (VDict [((u "type"), (VStr (u "string")))]))))]))])))]));
  SLet 1 (XDump (XVar 0));
  SAssert (CEq (XVar 1) (XUnurl (XVal (VDict [((u "method"), (VStr (u "GET"))); ((u "headers"), (VDict [((u "type"), (VStr (u "object"))); ((u "properties"), (VDict [((u "Authorization"), (VDict [((u "type"), (VStr (u "string")))]))]))])); ((u "bindingVersion"), (VStr (u "0.1.0")))]))))];
t "models/bindings/test_websockets.py::TestWebSocketsChannelBindings.test_websockets_channel_binding_query_schema_validation" [SLet 0 (XNew "WebSocketsChannelBindings" (XVal (VDict [((u "method"), (VStr (u "POST"))); ((u "query"), (VDict [((u "type"), (VStr (u "object"))); ((u "properties"), (VDict [((u "token"), (VDict [((u "type"), (VStr (u "string")))]))]))])); ((u "bindingVersion"), (VStr (u "0.1.0")))])));
  SAssert (CEq (XAttr (XVar 0) (u "method")) (XVal (VStr (u "POST"))));
  SAssert (CNot (CEq (XAttr (XVar 0) (u "query")) (XVal VNone)));
  SAssert (CIs (XAttr (XVar 0) (u "query")) ["Schema"]);
  SAssert (CEq (XAttr (XAttr (XVar 0) (u "query")) (u "type")) (XVal (VStr (u "object"))));
  SAssert (CEq (XAttr (XVar 0) (u "binding_version")) (XVal (VStr (u "0.1.0"))))];
t "models/bindings/test_websockets.py::TestWebSocketsChannelBindings.test_websockets_channel_binding_headers_schema_validation" [SLet 0 (XNew "WebSocketsChannelBindings" (XVal (VDict [((u "method"), (VStr (u "GET"))); ((u "headers"), (VDict [((u "type"), (VStr (u "object"))); ((u "properties"), (VDict [((u "Authorization"), (VDict [((u "type"), (VStr (u "string")))]))]))])); ((u "bindingVersion"), (VStr (u "0.1.0")))])));
  SAssert (CEq (XAttr (XVar 0) (u "method")) (XVal (VStr (u "GET"))));
  SAssert (CNot (CEq (XAttr (XVar 0) (u "headers")) (XVal VNone)));
  SAssert (CIs (XAttr (XVar 0) (u "headers")) ["Schema"]);
  SAssert (CEq (XAttr (XAttr (XVar 0) (u "headers")) (u "type")) (XVal (VStr (u "object"))));
  SAssert (CEq (XAttr (XVar 0) (u "binding_version")) (XVal (VStr (u "0.1.0"))))];
t "models/bindings/test_websockets.py::TestWebSocketsChannelBindings.test_websockets_channel_bindings_python_validation_error" [SRaises [SDo (XNew "WebSocketsChannelBindings" (XVal (VDict [((u "method"), (VStr (u "GET"))); ((u "invalid_field"), (VStr (u "value")))])))] []];
t "models/bindings/test_websockets.py::TestWebSocketsChannelBindings.test_websockets_channel_bindings_yaml_validation_error" [SRaises [SDo (XNew "WebSocketsChannelBindings" (XVal (VDict [((u "method"), (VStr (u "GET"))); ((u "invalid_field"), (VStr (u "value"))); ((u "bindingVersion"), (VStr (u "0.1.0")))])))] []];
t "models/bindings/test_websockets.py::TestWebSocketsOperationBindings.test_websockets_operation_bindings_serialization" [SLet 0 (XNew "WebSocketsOperationBindings" (XVal (VDict [])));
  SLet 1 (XDump (XVar 0));
  SAssert (CEq (XVar 1) (XUnurl (XVal (VDict []))))];
t "models/bindings/test_websockets.py::TestWebSocketsOperationBindings.test_websockets_operation_bindings_python_validation_error" [SRaises [SDo (XNew "WebSocketsOperationBindings" (XVal (VDict [((u "some_field"), (VStr (u "value")))])))] []];
t "models/bindings/test_websockets.py::TestWebSocketsOperationBindings.test_websockets_operation_bindings_yaml_validation_error" [SRaises [SDo (XNew "WebSocketsOperationBindings" (XVal (VDict [((u "some_field"), (VStr (u "value")))])))] []];
t "models/bindings/test_websockets.py::TestWebSocketsOperationBindings.test_websockets_operation_bindings_yaml_empty_validation" [SLet 0 (XNew "WebSocketsOperationBindings" (XVal (VDict [])));
  SAssert (CNot (CEq (XVar 0) (XVal VNone)))];
t "models/bindings/test_websockets.py::TestWebSocketsMessageBindings.test_websockets_message_bindings_serialization" [SLet 0 (XNew "WebSocketsMessageBindings" (XVal (VDict [])));
  SLet 1 (XDump (XVar 0));
  SAssert (CEq (XVar 1) (XUnurl (XVal (VDict []))))];
t "models/bindings/test_websockets.py::TestWebSocketsMessageBindings.test_websockets_message_bindings_python_validation_error" [SRaises [SDo (XNew "WebSocketsMessageBindings" (XVal (VDict [((u "some_field"), (VStr (u "value")))])))] []];
t "models/bindings/test_websockets.py::TestWebSocketsMessageBindings.test_websockets_message_bindings_yaml_validation_error" [SRaises [SDo (XNew "WebSocketsMessageBindings" (XVal (VDict [((u "some_field"), (VStr (u "value")))])))] []];
t "models/bindings/test_websockets.py::TestWebSocketsMessageBindings.test_websockets_message_bindings_yaml_empty_validation" [SLet 0 (XNew "WebSocketsMessageBindings" (XVal (VDict [])));
  SAssert (CNot (CEq (XVar 0) (XVal VNone)))]].
(** 469 tests *)
Definition tests := (part0 ++ part1 ++ part2 ++ part3 ++ part4 ++ part5 ++ part6 ++ part7 ++ part8 ++ part9 ++ part10 ++ part11)%list.
Example bindings_tests_pass : failing tests = [] /\ length tests = 469.
Proof. vm_compute. split; reflexivity. Qed.
