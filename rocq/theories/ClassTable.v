(** Generated by tools/gen_classes.py from the text of /repo/asyncapi3/models.  Do not edit.
    Each definition is one class: fields in declaration order with Python name, alias, default,
    exclude_if=is_null, exclude, field validator tag, annotation.  Simplification: descriptions dropped. *)
From Verif Require Import PyStr Value Types.

(* asyncapi3/models/bindings/amqp1.py:21-26 *)
Definition T_AMQP1ChannelBindings : ty := TModel "AMQP1ChannelBindings" KForbid [
].

(* asyncapi3/models/bindings/amqp.py:29-64 *)
Definition T_AMQPExchange : ty := TModel "AMQPExchange" KForbid [
  (fld "name" "name" None false false FvNone, (TStr (Some 255%N)));
  (fld "type" "type" None false false FvNone, (TLitS [u "topic"; u "direct"; u "fanout"; u "default"; u "headers"]));
  (fld "durable" "durable" (Some (VNone)) true false FvNone, (TOpt TBool));
  (fld "auto_delete" "autoDelete" (Some (VNone)) true false FvNone, (TOpt TBool));
  (fld "vhost" "vhost" (Some (VNone)) true false FvNone, (TOpt (TStr None)))].

(* asyncapi3/models/bindings/amqp.py:67-102 *)
Definition T_AMQPQueue : ty := TModel "AMQPQueue" KForbid [
  (fld "name" "name" (Some (VNone)) true false FvNone, (TOpt (TStr (Some 255%N))));
  (fld "durable" "durable" (Some (VNone)) true false FvNone, (TOpt TBool));
  (fld "exclusive" "exclusive" (Some (VNone)) true false FvNone, (TOpt TBool));
  (fld "auto_delete" "autoDelete" (Some (VNone)) true false FvNone, (TOpt TBool));
  (fld "vhost" "vhost" (Some (VNone)) true false FvNone, (TOpt (TStr None)))].

(* asyncapi3/models/bindings/amqp.py:105-155 *)
Definition T_AMQPChannelBindings : ty := TModel "AMQPChannelBindings" KForbid [
  (fld "is_" "is" None false false FvNone, (TLitS [u "queue"; u "routingKey"]));
  (fld "exchange" "exchange" (Some (VNone)) true false FvNone, (TOpt T_AMQPExchange));
  (fld "queue" "queue" (Some (VNone)) true false FvNone, (TOpt T_AMQPQueue));
  (fld "binding_version" "bindingVersion" (Some (VStr (u "0.3.0"))) false false FvNone, (TStr None))].

(* asyncapi3/models/bindings/anypointmq.py:28-61 *)
Definition T_AnypointMQChannelBindings : ty := TModel "AnypointMQChannelBindings" KForbid [
  (fld "destination" "destination" (Some (VNone)) true false FvNone, (TOpt (TStr None)));
  (fld "destination_type" "destinationType" (Some (VStr (u "queue"))) true false FvNone, (TOpt (TLitS [u "exchange"; u "queue"; u "fifo-queue"])));
  (fld "binding_version" "bindingVersion" (Some (VStr (u "0.1.0"))) false false FvNone, (TStr None))].

(* asyncapi3/models/bindings/googlepubsub.py:29-45 *)
Definition T_GooglePubSubMessageStoragePolicy : ty := TModel "GooglePubSubMessageStoragePolicy" KForbid [
  (fld "allowed_persistence_regions" "allowedPersistenceRegions" (Some (VNone)) true false FvNone, (TOpt (TList (TStr None))))].

(* asyncapi3/models/bindings/googlepubsub.py:48-92 *)
Definition T_GooglePubSubSchemaSettings : ty := TModel "GooglePubSubSchemaSettings" KForbid [
  (fld "encoding" "encoding" (Some (VNone)) true false FvNone, (TOpt (TLitS [u "ENCODING_UNSPECIFIED"; u "JSON"; u "BINARY"])));
  (fld "first_revision_id" "firstRevisionId" (Some (VNone)) true false FvNone, (TOpt (TStr None)));
  (fld "last_revision_id" "lastRevisionId" (Some (VNone)) true false FvNone, (TOpt (TStr None)));
  (fld "name" "name" (Some (VNone)) true false FvNone, (TOpt (TStr None)))].

(* asyncapi3/models/bindings/googlepubsub.py:95-139 *)
Definition T_GooglePubSubChannelBindings : ty := TModel "GooglePubSubChannelBindings" KForbid [
  (fld "binding_version" "bindingVersion" (Some (VStr (u "0.2.0"))) false false FvNone, (TStr None));
  (fld "labels" "labels" (Some (VNone)) true false FvNone, (TOpt (TDict TAny)));
  (fld "message_retention_duration" "messageRetentionDuration" (Some (VNone)) true false FvNone, (TOpt (TStr None)));
  (fld "message_storage_policy" "messageStoragePolicy" (Some (VNone)) true false FvNone, (TOpt T_GooglePubSubMessageStoragePolicy));
  (fld "schema_settings" "schemaSettings" (Some (VNone)) true false FvNone, (TOpt T_GooglePubSubSchemaSettings))].

(* asyncapi3/models/bindings/http.py:28-33 *)
Definition T_HTTPChannelBindings : ty := TModel "HTTPChannelBindings" KForbid [
].

(* asyncapi3/models/bindings/ibmmq.py:112-145 *)
Definition T_IBMMQQueue : ty := TModel "IBMMQQueue" KForbid [
  (fld "object_name" "objectName" None false false FvNone, (TStr (Some 48%N)));
  (fld "is_partitioned" "isPartitioned" (Some (VBool false)) false false FvNone, TBool);
  (fld "exclusive" "exclusive" (Some (VBool false)) false false FvNone, TBool)].

(* asyncapi3/models/bindings/ibmmq.py:148-192 *)
Definition T_IBMMQTopic : ty := TModel "IBMMQTopic" KForbid [
  (fld "string" "string" (Some (VNone)) true false FvNone, (TOpt (TStr (Some 10240%N))));
  (fld "object_name" "objectName" (Some (VNone)) true false FvNone, (TOpt (TStr (Some 48%N))));
  (fld "durable_permitted" "durablePermitted" (Some (VBool true)) false false FvNone, TBool);
  (fld "last_msg_retained" "lastMsgRetained" (Some (VBool false)) false false FvNone, TBool)].

(* asyncapi3/models/bindings/ibmmq.py:195-269 *)
Definition T_IBMMQChannelBindings : ty := TModel "IBMMQChannelBindings" KForbid [
  (fld "destination_type" "destinationType" (Some (VStr (u "topic"))) false false FvNone, (TLitS [u "topic"; u "queue"]));
  (fld "queue" "queue" (Some (VNone)) true false FvNone, (TOpt T_IBMMQQueue));
  (fld "topic" "topic" (Some (VNone)) true false FvNone, (TOpt T_IBMMQTopic));
  (fld "max_msg_length" "maxMsgLength" (Some (VNone)) true false FvMaxMsg, (TOpt TInt));
  (fld "binding_version" "bindingVersion" (Some (VStr (u "0.1.0"))) false false FvNone, (TStr None))].

(* asyncapi3/models/bindings/jms.py:61-94 *)
Definition T_JMSChannelBindings : ty := TModel "JMSChannelBindings" KForbid [
  (fld "destination" "destination" (Some (VNone)) true false FvNone, (TOpt (TStr None)));
  (fld "destination_type" "destinationType" (Some (VNone)) true false FvNone, (TOpt (TLitS [u "queue"; u "fifo-queue"])));
  (fld "binding_version" "bindingVersion" (Some (VStr (u "0.0.1"))) false false FvNone, (TStr None))].

(* asyncapi3/models/bindings/kafka.py:63-153 *)
Definition T_KafkaTopicConfiguration : ty := TModel "KafkaTopicConfiguration" KFree [
  (fld "cleanup_policy" "cleanup.policy" (Some (VNone)) true false FvNone, (TOpt (TList (TLitS [u "delete"; u "compact"]))));
  (fld "retention_ms" "retention.ms" (Some (VNone)) true false FvNone, (TOpt TInt));
  (fld "retention_bytes" "retention.bytes" (Some (VNone)) true false FvNone, (TOpt TInt));
  (fld "delete_retention_ms" "delete.retention.ms" (Some (VNone)) true false FvNone, (TOpt TInt));
  (fld "max_message_bytes" "max.message.bytes" (Some (VNone)) true false FvNone, (TOpt TInt));
  (fld "confluent_key_schema_validation" "confluent.key.schema.validation" (Some (VNone)) true false FvNone, (TOpt TBool));
  (fld "confluent_key_subject_name_strategy" "confluent.key.subject.name.strategy" (Some (VNone)) true false FvNone, (TOpt (TStr None)));
  (fld "confluent_value_schema_validation" "confluent.value.schema.validation" (Some (VNone)) true false FvNone, (TOpt TBool));
  (fld "confluent_value_subject_name_strategy" "confluent.value.subject.name.strategy" (Some (VNone)) true false FvNone, (TOpt (TStr None)))].

(* asyncapi3/models/bindings/kafka.py:156-210 *)
Definition T_KafkaChannelBindings : ty := TModel "KafkaChannelBindings" KForbid [
  (fld "topic" "topic" (Some (VNone)) true false FvNone, (TOpt (TStr None)));
  (fld "partitions" "partitions" (Some (VNone)) true false FvPositive, (TOpt TInt));
  (fld "replicas" "replicas" (Some (VNone)) true false FvPositive, (TOpt TInt));
  (fld "topic_configuration" "topicConfiguration" (Some (VNone)) true false FvNone, (TOpt T_KafkaTopicConfiguration));
  (fld "binding_version" "bindingVersion" (Some (VStr (u "0.5.0"))) false false FvNone, (TStr None))].

(* asyncapi3/models/bindings/mqtt5.py:43-48 *)
Definition T_MQTT5ChannelBindings : ty := TModel "MQTT5ChannelBindings" KForbid [
].

(* asyncapi3/models/bindings/mqtt.py:114-119 *)
Definition T_MQTTChannelBindings : ty := TModel "MQTTChannelBindings" KForbid [
].

(* asyncapi3/models/bindings/mercure.py:21-26 *)
Definition T_MercureChannelBindings : ty := TModel "MercureChannelBindings" KForbid [
].

(* asyncapi3/models/bindings/nats.py:24-29 *)
Definition T_NATSChannelBindings : ty := TModel "NATSChannelBindings" KForbid [
].

(* asyncapi3/models/bindings/pulsar.py:37-53 *)
Definition T_PulsarRetention : ty := TModel "PulsarRetention" KForbid [
  (fld "time" "time" (Some (VInt 0%Z)) true false FvNone, (TOpt TInt));
  (fld "size" "size" (Some (VInt 0%Z)) true false FvNone, (TOpt TInt))].

(* asyncapi3/models/bindings/pulsar.py:56-107 *)
Definition T_PulsarChannelBindings : ty := TModel "PulsarChannelBindings" KForbid [
  (fld "namespace" "namespace" None false false FvNone, (TStr None));
  (fld "persistence" "persistence" None false false FvNone, (TLitS [u "persistent"; u "non-persistent"]));
  (fld "compaction" "compaction" (Some (VNone)) true false FvNone, (TOpt TInt));
  (fld "geo_replication" "geo-replication" (Some (VNone)) true false FvNone, (TOpt (TList (TStr None))));
  (fld "retention" "retention" (Some (VNone)) true false FvNone, (TOpt T_PulsarRetention));
  (fld "ttl" "ttl" (Some (VNone)) true false FvNone, (TOpt TInt));
  (fld "deduplication" "deduplication" (Some (VNone)) true false FvNone, (TOpt TBool));
  (fld "binding_version" "bindingVersion" (Some (VStr (u "0.1.0"))) false false FvNone, (TStr None))].

(* asyncapi3/models/bindings/redis.py:21-26 *)
Definition T_RedisChannelBindings : ty := TModel "RedisChannelBindings" KForbid [
].

(* asyncapi3/models/bindings/sns.py:33-52 *)
Definition T_SNSOrdering : ty := TModel "SNSOrdering" KForbid [
  (fld "type" "type" None false false FvNone, (TLitS [u "standard"; u "FIFO"]));
  (fld "content_based_deduplication" "contentBasedDeduplication" (Some (VBool false)) false false FvNone, TBool)].

(* asyncapi3/models/bindings/sns.py:55-87 *)
Definition T_SNSStatement : ty := TModel "SNSStatement" KForbid [
  (fld "effect" "effect" None false false FvNone, (TLitS [u "Allow"; u "Deny"]));
  (fld "principal" "principal" None false false FvNone, (TUnion [(TStr None); (TDict (TUnion [(TStr None); (TList (TStr None))]))]));
  (fld "action" "action" None false false FvNone, (TUnion [(TStr None); (TList (TStr None))]));
  (fld "resource" "resource" (Some (VNone)) true false FvNone, (TOpt (TUnion [(TStr None); (TList (TStr None))])));
  (fld "condition" "condition" (Some (VNone)) true false FvNone, (TOpt (TUnion [(TDict TAny); (TList (TDict TAny))])))].

(* asyncapi3/models/bindings/sns.py:90-102 *)
Definition T_SNSPolicy : ty := TModel "SNSPolicy" KForbid [
  (fld "statements" "statements" None false false FvNone, (TList T_SNSStatement))].

(* asyncapi3/models/bindings/sns.py:105-149 *)
Definition T_SNSChannelBindings : ty := TModel "SNSChannelBindings" KForbid [
  (fld "name" "name" None false false FvNone, (TStr None));
  (fld "ordering" "ordering" (Some (VNone)) true false FvNone, (TOpt T_SNSOrdering));
  (fld "policy" "policy" (Some (VNone)) true false FvNone, (TOpt T_SNSPolicy));
  (fld "tags" "tags" (Some (VNone)) true false FvNone, (TOpt (TDict TAny)));
  (fld "binding_version" "bindingVersion" (Some (VStr (u "1.0.0"))) false false FvNone, (TStr None))].

(* asyncapi3/models/bindings/sqs.py:31-63 *)
Definition T_SQSStatement : ty := TModel "SQSStatement" KForbid [
  (fld "effect" "effect" None false false FvNone, (TLitS [u "Allow"; u "Deny"]));
  (fld "principal" "principal" None false false FvNone, (TUnion [(TStr None); (TDict (TUnion [(TStr None); (TList (TStr None))]))]));
  (fld "action" "action" None false false FvNone, (TUnion [(TStr None); (TList (TStr None))]));
  (fld "resource" "resource" (Some (VNone)) true false FvNone, (TOpt (TUnion [(TStr None); (TList (TStr None))])));
  (fld "condition" "condition" (Some (VNone)) true false FvNone, (TOpt (TUnion [(TDict TAny); (TList (TDict TAny))])))].

(* asyncapi3/models/bindings/sqs.py:66-79 *)
Definition T_SQSPolicy : ty := TModel "SQSPolicy" KForbid [
  (fld "statements" "Statements" None false false FvNone, (TList T_SQSStatement))].

(* asyncapi3/models/bindings/sqs.py:82-106 *)
Definition T_SQSIdentifier : ty := TModel "SQSIdentifier" KForbid [
  (fld "arn" "arn" (Some (VNone)) true false FvNone, (TOpt (TStr None)));
  (fld "name" "name" (Some (VNone)) true false FvNone, (TOpt (TStr None)))].

(* asyncapi3/models/bindings/sqs.py:109-129 *)
Definition T_SQSRedrivePolicy : ty := TModel "SQSRedrivePolicy" KForbid [
  (fld "dead_letter_queue" "deadLetterQueue" None false false FvNone, T_SQSIdentifier);
  (fld "max_receive_count" "maxReceiveCount" (Some (VNone)) true false FvNone, (TOpt TInt))].

(* asyncapi3/models/bindings/sqs.py:132-232 *)
Definition T_SQSQueue : ty := TModel "SQSQueue" KForbid [
  (fld "name" "name" None false false FvNone, (TStr None));
  (fld "fifo_queue" "fifoQueue" None false false FvNone, TBool);
  (fld "deduplication_scope" "deduplicationScope" (Some (VNone)) true false FvNone, (TOpt (TLitS [u "messageGroup"; u "queue"])));
  (fld "fifo_throughput_limit" "fifoThroughputLimit" (Some (VNone)) true false FvNone, (TOpt (TLitS [u "perQueue"; u "perMessageGroupId"])));
  (fld "delivery_delay" "deliveryDelay" (Some (VNone)) true false FvNone, (TOpt TInt));
  (fld "visibility_timeout" "visibilityTimeout" (Some (VNone)) true false FvNone, (TOpt TInt));
  (fld "receive_message_wait_time" "receiveMessageWaitTime" (Some (VNone)) true false FvNone, (TOpt TInt));
  (fld "message_retention_period" "messageRetentionPeriod" (Some (VNone)) true false FvNone, (TOpt TInt));
  (fld "redrive_policy" "redrivePolicy" (Some (VNone)) true false FvNone, (TOpt T_SQSRedrivePolicy));
  (fld "policy" "policy" (Some (VNone)) true false FvNone, (TOpt T_SQSPolicy));
  (fld "tags" "tags" (Some (VNone)) true false FvNone, (TOpt (TDict TAny)))].

(* asyncapi3/models/bindings/sqs.py:235-282 *)
Definition T_SQSChannelBindings : ty := TModel "SQSChannelBindings" KForbid [
  (fld "queue" "queue" None false false FvNone, T_SQSQueue);
  (fld "dead_letter_queue" "deadLetterQueue" (Some (VNone)) true false FvNone, (TOpt T_SQSQueue));
  (fld "binding_version" "bindingVersion" (Some (VStr (u "0.3.0"))) false false FvNone, (TStr None))].

(* asyncapi3/models/bindings/stomp.py:21-26 *)
Definition T_STOMPChannelBindings : ty := TModel "STOMPChannelBindings" KForbid [
].

(* asyncapi3/models/bindings/solace.py:55-60 *)
Definition T_SolaceChannelBindings : ty := TModel "SolaceChannelBindings" KForbid [
].

(* asyncapi3/models/base.py:11-144 *)
Definition T_Reference : ty := TModel "Reference" KForbid [
  (fld "ref" "$ref" None false false FvNone, (TStr None))].

(* asyncapi3/models/base.py:147-167 *)
Definition T_ExternalDocumentation : ty := TModel "ExternalDocumentation" KExt [
  (fld "url" "url" None false false FvNone, (TUrl false));
  (fld "description" "description" (Some (VNone)) true false FvNone, (TOpt (TStr None)))].

(* asyncapi3/models/schema.py:17-100 *)
Definition T_Schema : ty := TModel "Schema" KFree [
  (fld "discriminator" "discriminator" (Some (VNone)) true false FvNone, (TOpt (TStr None)));
  (fld "external_docs" "externalDocs" (Some (VNone)) true false FvNone, (TOpt (TUnion [T_ExternalDocumentation; T_Reference])));
  (fld "deprecated" "deprecated" (Some (VNone)) true false FvNone, (TOpt TBool))].

(* asyncapi3/models/bindings/websockets.py:28-70 *)
Definition T_WebSocketsChannelBindings : ty := TModel "WebSocketsChannelBindings" KForbid [
  (fld "method" "method" (Some (VNone)) true false FvNone, (TOpt (TLitS [u "GET"; u "POST"])));
  (fld "query" "query" (Some (VNone)) true false FvNone, (TOpt (TUnion [T_Schema; T_Reference])));
  (fld "headers" "headers" (Some (VNone)) true false FvNone, (TOpt (TUnion [T_Schema; T_Reference])));
  (fld "binding_version" "bindingVersion" (Some (VStr (u "0.1.0"))) false false FvNone, (TStr None))].

(* asyncapi3/models/bindings/core.py:236-339 *)
Definition T_ChannelBindingsObject : ty := TModel "ChannelBindingsObject" KExt [
  (fld "http" "http" (Some (VNone)) true false FvNone, (TOpt T_HTTPChannelBindings));
  (fld "ws" "ws" (Some (VNone)) true false FvNone, (TOpt T_WebSocketsChannelBindings));
  (fld "kafka" "kafka" (Some (VNone)) true false FvNone, (TOpt T_KafkaChannelBindings));
  (fld "anypointmq" "anypointmq" (Some (VNone)) true false FvNone, (TOpt T_AnypointMQChannelBindings));
  (fld "amqp" "amqp" (Some (VNone)) true false FvNone, (TOpt T_AMQPChannelBindings));
  (fld "amqp1" "amqp1" (Some (VNone)) true false FvNone, (TOpt T_AMQP1ChannelBindings));
  (fld "mqtt" "mqtt" (Some (VNone)) true false FvNone, (TOpt T_MQTTChannelBindings));
  (fld "mqtt5" "mqtt5" (Some (VNone)) true false FvNone, (TOpt T_MQTT5ChannelBindings));
  (fld "nats" "nats" (Some (VNone)) true false FvNone, (TOpt T_NATSChannelBindings));
  (fld "jms" "jms" (Some (VNone)) true false FvNone, (TOpt T_JMSChannelBindings));
  (fld "sns" "sns" (Some (VNone)) true false FvNone, (TOpt T_SNSChannelBindings));
  (fld "solace" "solace" (Some (VNone)) true false FvNone, (TOpt T_SolaceChannelBindings));
  (fld "sqs" "sqs" (Some (VNone)) true false FvNone, (TOpt T_SQSChannelBindings));
  (fld "stomp" "stomp" (Some (VNone)) true false FvNone, (TOpt T_STOMPChannelBindings));
  (fld "redis" "redis" (Some (VNone)) true false FvNone, (TOpt T_RedisChannelBindings));
  (fld "mercure" "mercure" (Some (VNone)) true false FvNone, (TOpt T_MercureChannelBindings));
  (fld "ibmmq" "ibmmq" (Some (VNone)) true false FvNone, (TOpt T_IBMMQChannelBindings));
  (fld "googlepubsub" "googlepubsub" (Some (VNone)) true false FvNone, (TOpt T_GooglePubSubChannelBindings));
  (fld "pulsar" "pulsar" (Some (VNone)) true false FvNone, (TOpt T_PulsarChannelBindings))].

(* asyncapi3/models/security.py:18-59 *)
Definition T_CorrelationID : ty := TModel "CorrelationID" KExt [
  (fld "description" "description" (Some (VNone)) true false FvNone, (TOpt (TStr None)));
  (fld "location" "location" None false false FvRuntimeExpr, (TStr None))].

(* asyncapi3/models/bindings/amqp1.py:37-42 *)
Definition T_AMQP1MessageBindings : ty := TModel "AMQP1MessageBindings" KForbid [
].

(* asyncapi3/models/bindings/amqp.py:238-263 *)
Definition T_AMQPMessageBindings : ty := TModel "AMQPMessageBindings" KForbid [
  (fld "content_encoding" "contentEncoding" (Some (VNone)) true false FvNone, (TOpt (TStr None)));
  (fld "message_type" "messageType" (Some (VNone)) true false FvNone, (TOpt (TStr None)));
  (fld "binding_version" "bindingVersion" (Some (VStr (u "0.3.0"))) false false FvNone, (TStr None))].

(* asyncapi3/models/bindings/anypointmq.py:72-93 *)
Definition T_AnypointMQMessageBindings : ty := TModel "AnypointMQMessageBindings" KForbid [
  (fld "headers" "headers" (Some (VNone)) true false FvNone, (TOpt (TUnion [T_Schema; T_Reference])));
  (fld "binding_version" "bindingVersion" (Some (VStr (u "0.1.0"))) false false FvNone, (TStr None))].

(* asyncapi3/models/bindings/googlepubsub.py:150-161 *)
Definition T_GooglePubSubSchemaDefinition : ty := TModel "GooglePubSubSchemaDefinition" KForbid [
  (fld "name" "name" (Some (VNone)) true false FvNone, (TOpt (TStr None)))].

(* asyncapi3/models/bindings/googlepubsub.py:164-202 *)
Definition T_GooglePubSubMessageBindings : ty := TModel "GooglePubSubMessageBindings" KForbid [
  (fld "binding_version" "bindingVersion" (Some (VStr (u "0.2.0"))) false false FvNone, (TStr None));
  (fld "attributes" "attributes" (Some (VNone)) true false FvNone, (TOpt (TDict TAny)));
  (fld "ordering_key" "orderingKey" (Some (VNone)) true false FvNone, (TOpt (TStr None)));
  (fld "schema" "schema" (Some (VNone)) true false FvNone, (TOpt T_GooglePubSubSchemaDefinition))].

(* asyncapi3/models/bindings/http.py:76-108 *)
Definition T_HTTPMessageBindings : ty := TModel "HTTPMessageBindings" KForbid [
  (fld "headers" "headers" (Some (VNone)) true false FvNone, (TOpt (TUnion [T_Schema; T_Reference])));
  (fld "status_code" "statusCode" (Some (VNone)) true false FvNone, (TOpt TInt));
  (fld "binding_version" "bindingVersion" (Some (VStr (u "0.3.0"))) false false FvNone, (TStr None))].

(* asyncapi3/models/bindings/ibmmq.py:280-348 *)
Definition T_IBMMQMessageBindings : ty := TModel "IBMMQMessageBindings" KForbid [
  (fld "type" "type" (Some (VStr (u "string"))) false false FvNone, (TLitS [u "string"; u "jms"; u "binary"]));
  (fld "headers" "headers" (Some (VNone)) true false FvNone, (TOpt (TStr None)));
  (fld "description" "description" (Some (VNone)) true false FvNone, (TOpt (TStr None)));
  (fld "expiry" "expiry" (Some (VNone)) true false FvNonNeg, (TOpt TInt));
  (fld "binding_version" "bindingVersion" (Some (VStr (u "0.1.0"))) false false FvNone, (TStr None))].

(* asyncapi3/models/bindings/jms.py:105-127 *)
Definition T_JMSMessageBindings : ty := TModel "JMSMessageBindings" KForbid [
  (fld "headers" "headers" (Some (VNone)) true false FvNone, (TOpt (TUnion [T_Schema; T_Reference])));
  (fld "binding_version" "bindingVersion" (Some (VStr (u "0.0.1"))) false false FvNone, (TStr None))].

(* asyncapi3/models/bindings/kafka.py:242-296 *)
Definition T_KafkaMessageBindings : ty := TModel "KafkaMessageBindings" KForbid [
  (fld "key" "key" (Some (VNone)) true false FvNone, (TOpt (TUnion [T_Schema; T_Reference; (TDict TAny)])));
  (fld "schema_id_location" "schemaIdLocation" (Some (VNone)) true false FvNone, (TOpt (TStr None)));
  (fld "schema_id_payload_encoding" "schemaIdPayloadEncoding" (Some (VNone)) true false FvNone, (TOpt (TStr None)));
  (fld "schema_lookup_strategy" "schemaLookupStrategy" (Some (VNone)) true false FvNone, (TOpt (TStr None)));
  (fld "binding_version" "bindingVersion" (Some (VStr (u "0.5.0"))) false false FvNone, (TStr None))].

(* asyncapi3/models/bindings/mqtt5.py:59-64 *)
Definition T_MQTT5MessageBindings : ty := TModel "MQTT5MessageBindings" KForbid [
].

(* asyncapi3/models/bindings/mqtt.py:161-208 *)
Definition T_MQTTMessageBindings : ty := TModel "MQTTMessageBindings" KForbid [
  (fld "payload_format_indicator" "payloadFormatIndicator" (Some (VNone)) true false FvNone, (TOpt (TLitI [0%Z; 1%Z])));
  (fld "correlation_data" "correlationData" (Some (VNone)) true false FvNone, (TOpt (TUnion [T_Schema; T_Reference])));
  (fld "content_type" "contentType" (Some (VNone)) true false FvNone, (TOpt (TStr None)));
  (fld "response_topic" "responseTopic" (Some (VNone)) true false FvNone, (TOpt (TUnion [(TStr None); T_Schema; T_Reference])));
  (fld "binding_version" "bindingVersion" (Some (VStr (u "0.2.0"))) false false FvNone, (TStr None))].

(* asyncapi3/models/bindings/mercure.py:37-42 *)
Definition T_MercureMessageBindings : ty := TModel "MercureMessageBindings" KForbid [
].

(* asyncapi3/models/bindings/nats.py:54-59 *)
Definition T_NATSMessageBindings : ty := TModel "NATSMessageBindings" KForbid [
].

(* asyncapi3/models/bindings/pulsar.py:118-123 *)
Definition T_PulsarMessageBindings : ty := TModel "PulsarMessageBindings" KForbid [
].

(* asyncapi3/models/bindings/redis.py:37-42 *)
Definition T_RedisMessageBindings : ty := TModel "RedisMessageBindings" KForbid [
].

(* asyncapi3/models/bindings/sns.py:433-438 *)
Definition T_SNSMessageBindings : ty := TModel "SNSMessageBindings" KForbid [
].

(* asyncapi3/models/bindings/sqs.py:313-318 *)
Definition T_SQSMessageBindings : ty := TModel "SQSMessageBindings" KForbid [
].

(* asyncapi3/models/bindings/stomp.py:37-42 *)
Definition T_STOMPMessageBindings : ty := TModel "STOMPMessageBindings" KForbid [
].

(* asyncapi3/models/bindings/solace.py:248-253 *)
Definition T_SolaceMessageBindings : ty := TModel "SolaceMessageBindings" KForbid [
].

(* asyncapi3/models/bindings/websockets.py:81-86 *)
Definition T_WebSocketsMessageBindings : ty := TModel "WebSocketsMessageBindings" KForbid [
].

(* asyncapi3/models/bindings/core.py:450-556 *)
Definition T_MessageBindingsObject : ty := TModel "MessageBindingsObject" KExt [
  (fld "http" "http" (Some (VNone)) true false FvNone, (TOpt T_HTTPMessageBindings));
  (fld "ws" "ws" (Some (VNone)) true false FvNone, (TOpt T_WebSocketsMessageBindings));
  (fld "kafka" "kafka" (Some (VNone)) true false FvNone, (TOpt T_KafkaMessageBindings));
  (fld "anypointmq" "anypointmq" (Some (VNone)) true false FvNone, (TOpt T_AnypointMQMessageBindings));
  (fld "amqp" "amqp" (Some (VNone)) true false FvNone, (TOpt T_AMQPMessageBindings));
  (fld "amqp1" "amqp1" (Some (VNone)) true false FvNone, (TOpt T_AMQP1MessageBindings));
  (fld "mqtt" "mqtt" (Some (VNone)) true false FvNone, (TOpt T_MQTTMessageBindings));
  (fld "mqtt5" "mqtt5" (Some (VNone)) true false FvNone, (TOpt T_MQTT5MessageBindings));
  (fld "nats" "nats" (Some (VNone)) true false FvNone, (TOpt T_NATSMessageBindings));
  (fld "jms" "jms" (Some (VNone)) true false FvNone, (TOpt T_JMSMessageBindings));
  (fld "sns" "sns" (Some (VNone)) true false FvNone, (TOpt T_SNSMessageBindings));
  (fld "solace" "solace" (Some (VNone)) true false FvNone, (TOpt T_SolaceMessageBindings));
  (fld "sqs" "sqs" (Some (VNone)) true false FvNone, (TOpt T_SQSMessageBindings));
  (fld "stomp" "stomp" (Some (VNone)) true false FvNone, (TOpt T_STOMPMessageBindings));
  (fld "redis" "redis" (Some (VNone)) true false FvNone, (TOpt T_RedisMessageBindings));
  (fld "mercure" "mercure" (Some (VNone)) true false FvNone, (TOpt T_MercureMessageBindings));
  (fld "ibmmq" "ibmmq" (Some (VNone)) true false FvNone, (TOpt T_IBMMQMessageBindings));
  (fld "googlepubsub" "googlepubsub" (Some (VNone)) true false FvNone, (TOpt T_GooglePubSubMessageBindings));
  (fld "pulsar" "pulsar" (Some (VNone)) true false FvNone, (TOpt T_PulsarMessageBindings))].

(* asyncapi3/models/message.py:22-72 *)
Definition T_MessageExample : ty := TModel "MessageExample" KExt [
  (fld "headers" "headers" (Some (VNone)) true false FvNone, (TOpt (TDict TAny)));
  (fld "payload" "payload" (Some (VNone)) true false FvNone, (TOpt TAny));
  (fld "name" "name" (Some (VNone)) true false FvNone, (TOpt (TStr None)));
  (fld "summary" "summary" (Some (VNone)) true false FvNone, (TOpt (TStr None)))].

(* asyncapi3/models/schema.py:103-154 *)
Definition T_MultiFormatSchema : ty := TModel "MultiFormatSchema" KFree [
  (fld "schema_format" "schemaFormat" (Some (VStr (u "application/vnd.aai.asyncapi;version=3.0.0"))) false false FvNone, (TStr None));
  (fld "schema" "schema" None false false FvNone, TAny)].

(* asyncapi3/models/base.py:170-193 *)
Definition T_Tag : ty := TModel "Tag" KExt [
  (fld "name" "name" None false false FvNone, (TStr None));
  (fld "description" "description" (Some (VNone)) true false FvNone, (TOpt (TStr None)));
  (fld "external_docs" "externalDocs" (Some (VNone)) true false FvNone, (TOpt (TUnion [T_ExternalDocumentation; T_Reference])))].

(* asyncapi3/models/message.py:75-165 *)
Definition T_MessageTrait : ty := TModel "MessageTrait" KExt [
  (fld "headers" "headers" (Some (VNone)) true false FvNone, (TOpt (TUnion [T_MultiFormatSchema; T_Schema; T_Reference])));
  (fld "correlation_id" "correlationId" (Some (VNone)) true false FvNone, (TOpt (TUnion [T_CorrelationID; T_Reference])));
  (fld "content_type" "contentType" (Some (VNone)) true false FvNone, (TOpt (TStr None)));
  (fld "name" "name" (Some (VNone)) true false FvNone, (TOpt (TStr None)));
  (fld "title" "title" (Some (VNone)) true false FvNone, (TOpt (TStr None)));
  (fld "summary" "summary" (Some (VNone)) true false FvNone, (TOpt (TStr None)));
  (fld "description" "description" (Some (VNone)) true false FvNone, (TOpt (TStr None)));
  (fld "tags" "tags" (Some (VNone)) true false FvNone, (TOpt (TList (TUnion [T_Tag; T_Reference]))));
  (fld "external_docs" "externalDocs" (Some (VNone)) true false FvNone, (TOpt (TUnion [T_ExternalDocumentation; T_Reference])));
  (fld "bindings" "bindings" (Some (VNone)) true false FvNone, (TOpt (TUnion [T_MessageBindingsObject; T_Reference])));
  (fld "examples" "examples" (Some (VNone)) true false FvNone, (TOpt (TList T_MessageExample)))].

(* asyncapi3/models/message.py:168-275 *)
Definition T_Message : ty := TModel "Message" KExt [
  (fld "headers" "headers" (Some (VNone)) true false FvNone, (TOpt (TUnion [T_MultiFormatSchema; T_Schema; T_Reference])));
  (fld "payload" "payload" (Some (VNone)) true false FvNone, (TOpt (TUnion [T_MultiFormatSchema; T_Schema; T_Reference])));
  (fld "correlation_id" "correlationId" (Some (VNone)) true false FvNone, (TOpt (TUnion [T_CorrelationID; T_Reference])));
  (fld "content_type" "contentType" (Some (VNone)) true false FvNone, (TOpt (TStr None)));
  (fld "name" "name" (Some (VNone)) true false FvNone, (TOpt (TStr None)));
  (fld "title" "title" (Some (VNone)) true false FvNone, (TOpt (TStr None)));
  (fld "summary" "summary" (Some (VNone)) true false FvNone, (TOpt (TStr None)));
  (fld "description" "description" (Some (VNone)) true false FvNone, (TOpt (TStr None)));
  (fld "tags" "tags" (Some (VNone)) true false FvNone, (TOpt (TList (TUnion [T_Tag; T_Reference]))));
  (fld "external_docs" "externalDocs" (Some (VNone)) true false FvNone, (TOpt (TUnion [T_ExternalDocumentation; T_Reference])));
  (fld "bindings" "bindings" (Some (VNone)) true false FvNone, (TOpt (TUnion [T_MessageBindingsObject; T_Reference])));
  (fld "examples" "examples" (Some (VNone)) true false FvNone, (TOpt (TList T_MessageExample)));
  (fld "traits" "traits" (Some (VNone)) true false FvNone, (TOpt (TList (TUnion [T_MessageTrait; T_Reference]))))].

(* asyncapi3/models/message.py:278-284 *)
Definition T_Messages : ty := TRoot "Messages" (TUnion [T_Message; T_Reference]).

(* asyncapi3/models/channel.py:21-65 *)
Definition T_Parameter : ty := TModel "Parameter" KExt [
  (fld "enum" "enum" (Some (VNone)) true false FvNone, (TOpt (TList (TStr None))));
  (fld "default" "default" (Some (VNone)) true false FvNone, (TOpt (TStr None)));
  (fld "description" "description" (Some (VNone)) true false FvNone, (TOpt (TStr None)));
  (fld "examples" "examples" (Some (VNone)) true false FvNone, (TOpt (TList (TStr None))));
  (fld "location" "location" (Some (VNone)) true false FvNone, (TOpt (TStr None)))].

(* asyncapi3/models/channel.py:68-74 *)
Definition T_Parameters : ty := TRoot "Parameters" (TUnion [T_Parameter; T_Reference]).

(* asyncapi3/models/channel.py:77-198 *)
Definition T_Channel : ty := TModel "Channel" KExt [
  (fld "address" "address" (Some (VNone)) false false FvNone, (TOpt (TStr None)));
  (fld "messages" "messages" (Some (VNone)) true false FvNone, (TOpt T_Messages));
  (fld "title" "title" (Some (VNone)) true false FvNone, (TOpt (TStr None)));
  (fld "summary" "summary" (Some (VNone)) true false FvNone, (TOpt (TStr None)));
  (fld "description" "description" (Some (VNone)) true false FvNone, (TOpt (TStr None)));
  (fld "servers" "servers" (Some (VNone)) true false FvNone, (TOpt (TList T_Reference)));
  (fld "parameters" "parameters" (Some (VNone)) true false FvNone, (TOpt T_Parameters));
  (fld "tags" "tags" (Some (VNone)) true false FvNone, (TOpt (TList (TUnion [T_Tag; T_Reference]))));
  (fld "external_docs" "externalDocs" (Some (VNone)) true false FvNone, (TOpt (TUnion [T_ExternalDocumentation; T_Reference])));
  (fld "bindings" "bindings" (Some (VNone)) true false FvNone, (TOpt (TUnion [T_ChannelBindingsObject; T_Reference])))].

(* asyncapi3/models/channel.py:201-207 *)
Definition T_Channels : ty := TRoot "Channels" (TUnion [T_Channel; T_Reference]).

(* asyncapi3/models/components.py:144-150 *)
Definition T_ChannelBindings : ty := TRoot "ChannelBindings" (TUnion [T_ChannelBindingsObject; T_Reference]).

(* asyncapi3/models/components.py:72-78 *)
Definition T_CorrelationIDs : ty := TRoot "CorrelationIDs" (TUnion [T_CorrelationID; T_Reference]).

(* asyncapi3/models/components.py:99-105 *)
Definition T_ExternalDocs : ty := TRoot "ExternalDocs" (TUnion [T_ExternalDocumentation; T_Reference]).

(* asyncapi3/models/components.py:162-168 *)
Definition T_MessageBindings : ty := TRoot "MessageBindings" (TUnion [T_MessageBindingsObject; T_Reference]).

(* asyncapi3/models/components.py:126-132 *)
Definition T_MessageTraits : ty := TRoot "MessageTraits" (TUnion [T_MessageTrait; T_Reference]).

(* asyncapi3/models/bindings/amqp1.py:29-34 *)
Definition T_AMQP1OperationBindings : ty := TModel "AMQP1OperationBindings" KForbid [
].

(* asyncapi3/models/bindings/amqp.py:158-235 *)
Definition T_AMQPOperationBindings : ty := TModel "AMQPOperationBindings" KForbid [
  (fld "expiration" "expiration" (Some (VNone)) true false FvNonNeg, (TOpt TInt));
  (fld "user_id" "userId" (Some (VNone)) true false FvNone, (TOpt (TStr None)));
  (fld "cc" "cc" (Some (VNone)) true false FvNone, (TOpt (TList (TStr None))));
  (fld "priority" "priority" (Some (VNone)) true false FvNone, (TOpt TInt));
  (fld "delivery_mode" "deliveryMode" (Some (VNone)) true false FvNone, (TOpt (TLitI [1%Z; 2%Z])));
  (fld "mandatory" "mandatory" (Some (VNone)) true false FvNone, (TOpt TBool));
  (fld "bcc" "bcc" (Some (VNone)) true false FvNone, (TOpt (TList (TStr None))));
  (fld "timestamp" "timestamp" (Some (VNone)) true false FvNone, (TOpt TBool));
  (fld "ack" "ack" (Some (VNone)) true false FvNone, (TOpt TBool));
  (fld "binding_version" "bindingVersion" (Some (VStr (u "0.3.0"))) false false FvNone, (TStr None))].

(* asyncapi3/models/bindings/anypointmq.py:64-69 *)
Definition T_AnypointMQOperationBindings : ty := TModel "AnypointMQOperationBindings" KForbid [
].

(* asyncapi3/models/bindings/googlepubsub.py:142-147 *)
Definition T_GooglePubSubOperationBindings : ty := TModel "GooglePubSubOperationBindings" KForbid [
].

(* asyncapi3/models/bindings/http.py:36-73 *)
Definition T_HTTPOperationBindings : ty := TModel "HTTPOperationBindings" KForbid [
  (fld "method" "method" None false false FvNone, (TLitS [u "GET"; u "POST"; u "PUT"; u "PATCH"; u "DELETE"; u "HEAD"; u "OPTIONS"; u "CONNECT"; u "TRACE"]));
  (fld "query" "query" (Some (VNone)) true false FvNone, (TOpt (TUnion [T_Schema; T_Reference])));
  (fld "binding_version" "bindingVersion" (Some (VStr (u "0.3.0"))) false false FvNone, (TStr None))].

(* asyncapi3/models/bindings/ibmmq.py:272-277 *)
Definition T_IBMMQOperationBindings : ty := TModel "IBMMQOperationBindings" KForbid [
].

(* asyncapi3/models/bindings/jms.py:97-102 *)
Definition T_JMSOperationBindings : ty := TModel "JMSOperationBindings" KForbid [
].

(* asyncapi3/models/bindings/kafka.py:213-239 *)
Definition T_KafkaOperationBindings : ty := TModel "KafkaOperationBindings" KForbid [
  (fld "group_id" "groupId" (Some (VNone)) true false FvNone, (TOpt (TUnion [T_Schema; T_Reference])));
  (fld "client_id" "clientId" (Some (VNone)) true false FvNone, (TOpt (TUnion [T_Schema; T_Reference])));
  (fld "binding_version" "bindingVersion" (Some (VStr (u "0.5.0"))) false false FvNone, (TStr None))].

(* asyncapi3/models/bindings/mqtt5.py:51-56 *)
Definition T_MQTT5OperationBindings : ty := TModel "MQTT5OperationBindings" KForbid [
].

(* asyncapi3/models/bindings/mqtt.py:122-158 *)
Definition T_MQTTOperationBindings : ty := TModel "MQTTOperationBindings" KForbid [
  (fld "qos" "qos" (Some (VNone)) true false FvNone, (TOpt (TLitI [0%Z; 1%Z; 2%Z])));
  (fld "retain" "retain" (Some (VNone)) true false FvNone, (TOpt TBool));
  (fld "message_expiry_interval" "messageExpiryInterval" (Some (VNone)) true false FvNone, (TOpt (TUnion [TInt; T_Schema; T_Reference])));
  (fld "binding_version" "bindingVersion" (Some (VStr (u "0.2.0"))) false false FvNone, (TStr None))].

(* asyncapi3/models/bindings/mercure.py:29-34 *)
Definition T_MercureOperationBindings : ty := TModel "MercureOperationBindings" KForbid [
].

(* asyncapi3/models/bindings/nats.py:32-51 *)
Definition T_NATSOperationBindings : ty := TModel "NATSOperationBindings" KForbid [
  (fld "queue" "queue" (Some (VNone)) true false FvNone, (TOpt (TStr (Some 255%N))));
  (fld "binding_version" "bindingVersion" (Some (VStr (u "0.1.0"))) false false FvNone, (TStr None))].

(* asyncapi3/models/bindings/pulsar.py:110-115 *)
Definition T_PulsarOperationBindings : ty := TModel "PulsarOperationBindings" KForbid [
].

(* asyncapi3/models/bindings/redis.py:29-34 *)
Definition T_RedisOperationBindings : ty := TModel "RedisOperationBindings" KForbid [
].

(* asyncapi3/models/bindings/sns.py:198-263 *)
Definition T_SNSDeliveryPolicy : ty := TModel "SNSDeliveryPolicy" KForbid [
  (fld "min_delay_target" "minDelayTarget" (Some (VNone)) true false FvNone, (TOpt TInt));
  (fld "max_delay_target" "maxDelayTarget" (Some (VNone)) true false FvNone, (TOpt TInt));
  (fld "num_retries" "numRetries" (Some (VNone)) true false FvNone, (TOpt TInt));
  (fld "num_no_delay_retries" "numNoDelayRetries" (Some (VNone)) true false FvNone, (TOpt TInt));
  (fld "num_min_delay_retries" "numMinDelayRetries" (Some (VNone)) true false FvNone, (TOpt TInt));
  (fld "num_max_delay_retries" "numMaxDelayRetries" (Some (VNone)) true false FvNone, (TOpt TInt));
  (fld "backoff_function" "backoffFunction" (Some (VNone)) true false FvNone, (TOpt (TLitS [u "arithmetic"; u "exponential"; u "geometric"; u "linear"])));
  (fld "max_receives_per_second" "maxReceivesPerSecond" (Some (VNone)) true false FvNone, (TOpt TInt))].

(* asyncapi3/models/bindings/sns.py:152-195 *)
Definition T_SNSIdentifier : ty := TModel "SNSIdentifier" KForbid [
  (fld "url" "url" (Some (VNone)) true false FvNone, (TOpt (TStr None)));
  (fld "email" "email" (Some (VNone)) true false FvNone, (TOpt (TStr None)));
  (fld "phone" "phone" (Some (VNone)) true false FvNone, (TOpt (TStr None)));
  (fld "arn" "arn" (Some (VNone)) true false FvNone, (TOpt (TStr None)));
  (fld "name" "name" (Some (VNone)) true false FvNone, (TOpt (TStr None)))].

(* asyncapi3/models/bindings/sns.py:266-294 *)
Definition T_SNSRedrivePolicy : ty := TModel "SNSRedrivePolicy" KForbid [
  (fld "dead_letter_queue" "deadLetterQueue" None false false FvNone, T_SNSIdentifier);
  (fld "max_receive_count" "maxReceiveCount" (Some (VNone)) true false FvNone, (TOpt TInt))].

(* asyncapi3/models/bindings/sns.py:297-372 *)
Definition T_SNSConsumer : ty := TModel "SNSConsumer" KForbid [
  (fld "protocol" "protocol" None false false FvNone, (TLitS [u "http"; u "https"; u "email"; u "email-json"; u "sms"; u "sqs"; u "application"; u "lambda"; u "firehose"]));
  (fld "endpoint" "endpoint" None false false FvNone, T_SNSIdentifier);
  (fld "filter_policy" "filterPolicy" (Some (VNone)) true false FvNone, (TOpt (TDict TAny)));
  (fld "filter_policy_scope" "filterPolicyScope" (Some (VNone)) true false FvNone, (TOpt (TLitS [u "MessageAttributes"; u "MessageBody"])));
  (fld "raw_message_delivery" "rawMessageDelivery" None false false FvNone, TBool);
  (fld "redrive_policy" "redrivePolicy" (Some (VNone)) true false FvNone, (TOpt T_SNSRedrivePolicy));
  (fld "delivery_policy" "deliveryPolicy" (Some (VNone)) true false FvNone, (TOpt T_SNSDeliveryPolicy));
  (fld "display_name" "displayName" (Some (VNone)) true false FvNone, (TOpt (TStr None)))].

(* asyncapi3/models/bindings/sns.py:375-430 *)
Definition T_SNSOperationBindings : ty := TModel "SNSOperationBindings" KForbid [
  (fld "topic" "topic" (Some (VNone)) true false FvNone, (TOpt T_SNSIdentifier));
  (fld "consumers" "consumers" None false false FvNone, (TList T_SNSConsumer));
  (fld "delivery_policy" "deliveryPolicy" (Some (VNone)) true false FvNone, (TOpt T_SNSDeliveryPolicy));
  (fld "binding_version" "bindingVersion" (Some (VStr (u "1.0.0"))) false false FvNone, (TStr None))].

(* asyncapi3/models/bindings/sqs.py:285-310 *)
Definition T_SQSOperationBindings : ty := TModel "SQSOperationBindings" KForbid [
  (fld "queues" "queues" None false false FvNone, (TList T_SQSQueue));
  (fld "binding_version" "bindingVersion" (Some (VStr (u "0.3.0"))) false false FvNone, (TStr None))].

(* asyncapi3/models/bindings/stomp.py:29-34 *)
Definition T_STOMPOperationBindings : ty := TModel "STOMPOperationBindings" KForbid [
].

(* asyncapi3/models/bindings/solace.py:63-113 *)
Definition T_SolaceQueue : ty := TModel "SolaceQueue" KForbid [
  (fld "name" "name" (Some (VNone)) true false FvNone, (TOpt (TStr None)));
  (fld "topic_subscriptions" "topicSubscriptions" (Some (VNone)) true false FvNone, (TOpt (TList (TStr None))));
  (fld "access_type" "accessType" (Some (VNone)) true false FvNone, (TOpt (TLitS [u "exclusive"; u "nonexclusive"])));
  (fld "max_msg_spool_size" "maxMsgSpoolSize" (Some (VNone)) true false FvNone, (TOpt (TStr None)));
  (fld "max_ttl" "maxTtl" (Some (VNone)) true false FvNone, (TOpt (TStr None)))].

(* asyncapi3/models/bindings/solace.py:116-132 *)
Definition T_SolaceTopic : ty := TModel "SolaceTopic" KForbid [
  (fld "topic_subscriptions" "topicSubscriptions" (Some (VNone)) true false FvNone, (TOpt (TList (TStr None))))].

(* asyncapi3/models/bindings/solace.py:135-191 *)
Definition T_SolaceDestination : ty := TModel "SolaceDestination" KForbid [
  (fld "binding_version" "bindingVersion" (Some (VStr (u "0.4.0"))) false false FvNone, (TStr None));
  (fld "destination_type" "destinationType" None false false FvNone, (TLitS [u "queue"; u "topic"]));
  (fld "delivery_mode" "deliveryMode" (Some (VStr (u "persistent"))) false false FvNone, (TLitS [u "direct"; u "persistent"]));
  (fld "queue" "queue" (Some (VNone)) true false FvNone, (TOpt T_SolaceQueue));
  (fld "topic" "topic" (Some (VNone)) true false FvNone, (TOpt T_SolaceTopic))].

(* asyncapi3/models/bindings/solace.py:194-245 *)
Definition T_SolaceOperationBindings : ty := TModel "SolaceOperationBindings" KForbid [
  (fld "binding_version" "bindingVersion" (Some (VStr (u "0.4.0"))) false false FvNone, (TStr None));
  (fld "destinations" "destinations" (Some (VNone)) true false FvNone, (TOpt (TList T_SolaceDestination)));
  (fld "time_to_live" "timeToLive" (Some (VNone)) true false FvNone, (TOpt (TUnion [TInt; T_Schema; T_Reference])));
  (fld "priority" "priority" (Some (VNone)) true false FvPriority, (TOpt (TUnion [TInt; T_Schema; T_Reference])));
  (fld "dmq_eligible" "dmqEligible" (Some (VNone)) true false FvNone, (TOpt TBool))].

(* asyncapi3/models/bindings/websockets.py:73-78 *)
Definition T_WebSocketsOperationBindings : ty := TModel "WebSocketsOperationBindings" KForbid [
].

(* asyncapi3/models/bindings/core.py:342-447 *)
Definition T_OperationBindingsObject : ty := TModel "OperationBindingsObject" KExt [
  (fld "http" "http" (Some (VNone)) true false FvNone, (TOpt T_HTTPOperationBindings));
  (fld "ws" "ws" (Some (VNone)) true false FvNone, (TOpt T_WebSocketsOperationBindings));
  (fld "kafka" "kafka" (Some (VNone)) true false FvNone, (TOpt T_KafkaOperationBindings));
  (fld "anypointmq" "anypointmq" (Some (VNone)) true false FvNone, (TOpt T_AnypointMQOperationBindings));
  (fld "amqp" "amqp" (Some (VNone)) true false FvNone, (TOpt T_AMQPOperationBindings));
  (fld "amqp1" "amqp1" (Some (VNone)) true false FvNone, (TOpt T_AMQP1OperationBindings));
  (fld "mqtt" "mqtt" (Some (VNone)) true false FvNone, (TOpt T_MQTTOperationBindings));
  (fld "mqtt5" "mqtt5" (Some (VNone)) true false FvNone, (TOpt T_MQTT5OperationBindings));
  (fld "nats" "nats" (Some (VNone)) true false FvNone, (TOpt T_NATSOperationBindings));
  (fld "jms" "jms" (Some (VNone)) true false FvNone, (TOpt T_JMSOperationBindings));
  (fld "sns" "sns" (Some (VNone)) true false FvNone, (TOpt T_SNSOperationBindings));
  (fld "solace" "solace" (Some (VNone)) true false FvNone, (TOpt T_SolaceOperationBindings));
  (fld "sqs" "sqs" (Some (VNone)) true false FvNone, (TOpt T_SQSOperationBindings));
  (fld "stomp" "stomp" (Some (VNone)) true false FvNone, (TOpt T_STOMPOperationBindings));
  (fld "redis" "redis" (Some (VNone)) true false FvNone, (TOpt T_RedisOperationBindings));
  (fld "mercure" "mercure" (Some (VNone)) true false FvNone, (TOpt T_MercureOperationBindings));
  (fld "ibmmq" "ibmmq" (Some (VNone)) true false FvNone, (TOpt T_IBMMQOperationBindings));
  (fld "googlepubsub" "googlepubsub" (Some (VNone)) true false FvNone, (TOpt T_GooglePubSubOperationBindings));
  (fld "pulsar" "pulsar" (Some (VNone)) true false FvNone, (TOpt T_PulsarOperationBindings))].

(* asyncapi3/models/components.py:153-159 *)
Definition T_OperationBindings : ty := TRoot "OperationBindings" (TUnion [T_OperationBindingsObject; T_Reference]).

(* asyncapi3/models/security.py:62-106 *)
Definition T_OAuthFlow : ty := TModel "OAuthFlow" KExt [
  (fld "authorization_url" "authorizationUrl" (Some (VNone)) true false FvNone, (TOpt (TUrl false)));
  (fld "token_url" "tokenUrl" (Some (VNone)) true false FvNone, (TOpt (TUrl false)));
  (fld "refresh_url" "refreshUrl" (Some (VNone)) true false FvNone, (TOpt (TUrl false)));
  (fld "available_scopes" "availableScopes" None false false FvNone, (TDict (TStr None)))].

(* asyncapi3/models/security.py:109-183 *)
Definition T_OAuthFlows : ty := TModel "OAuthFlows" KExt [
  (fld "implicit" "implicit" (Some (VNone)) true false FvNone, (TOpt T_OAuthFlow));
  (fld "password" "password" (Some (VNone)) true false FvNone, (TOpt T_OAuthFlow));
  (fld "client_credentials" "clientCredentials" (Some (VNone)) true false FvNone, (TOpt T_OAuthFlow));
  (fld "authorization_code" "authorizationCode" (Some (VNone)) true false FvNone, (TOpt T_OAuthFlow))].

(* asyncapi3/models/security.py:186-375 *)
Definition T_SecurityScheme : ty := TModel "SecurityScheme" KExt [
  (fld "type_" "type" None false false FvNone, (TLitS [u "apiKey"; u "asymmetricEncryption"; u "gssapi"; u "http"; u "httpApiKey"; u "oauth2"; u "openIdConnect"; u "plain"; u "scramSha256"; u "scramSha512"; u "symmetricEncryption"; u "userPassword"; u "X509"]));
  (fld "description" "description" (Some (VNone)) true false FvNone, (TOpt (TStr None)));
  (fld "name" "name" (Some (VNone)) true false FvNone, (TOpt (TStr None)));
  (fld "in_" "in" (Some (VNone)) true false FvNone, (TOpt (TLitS [u "user"; u "password"; u "query"; u "header"; u "cookie"])));
  (fld "scheme" "scheme" (Some (VNone)) true false FvNone, (TOpt (TStr None)));
  (fld "bearer_format" "bearerFormat" (Some (VNone)) true false FvNone, (TOpt (TStr None)));
  (fld "flows" "flows" (Some (VNone)) true false FvNone, (TOpt T_OAuthFlows));
  (fld "open_id_connect_url" "openIdConnectUrl" (Some (VNone)) true false FvNone, (TOpt (TUrl false)));
  (fld "scopes" "scopes" (Some (VNone)) true false FvNone, (TOpt (TList (TStr None))))].

(* asyncapi3/models/operation.py:108-169 *)
Definition T_OperationTrait : ty := TModel "OperationTrait" KExt [
  (fld "title" "title" (Some (VNone)) true false FvNone, (TOpt (TStr None)));
  (fld "summary" "summary" (Some (VNone)) true false FvNone, (TOpt (TStr None)));
  (fld "description" "description" (Some (VNone)) true false FvNone, (TOpt (TStr None)));
  (fld "security" "security" (Some (VNone)) true false FvNone, (TOpt (TList (TUnion [T_SecurityScheme; T_Reference]))));
  (fld "tags" "tags" (Some (VNone)) true false FvNone, (TOpt (TList (TUnion [T_Tag; T_Reference]))));
  (fld "external_docs" "externalDocs" (Some (VNone)) true false FvNone, (TOpt (TUnion [T_ExternalDocumentation; T_Reference])));
  (fld "bindings" "bindings" (Some (VNone)) true false FvNone, (TOpt (TUnion [T_OperationBindingsObject; T_Reference])))].

(* asyncapi3/models/components.py:117-123 *)
Definition T_OperationTraits : ty := TRoot "OperationTraits" (TUnion [T_OperationTrait; T_Reference]).

(* asyncapi3/models/operation.py:22-47 *)
Definition T_OperationReplyAddress : ty := TModel "OperationReplyAddress" KExt [
  (fld "location" "location" None false false FvNone, (TStr None));
  (fld "description" "description" (Some (VNone)) true false FvNone, (TOpt (TStr None)))].

(* asyncapi3/models/operation.py:50-105 *)
Definition T_OperationReply : ty := TModel "OperationReply" KExt [
  (fld "address" "address" (Some (VNone)) true false FvNone, (TOpt (TUnion [T_OperationReplyAddress; T_Reference])));
  (fld "channel" "channel" (Some (VNone)) true false FvNone, (TOpt T_Reference));
  (fld "messages" "messages" (Some (VNone)) true false FvNone, (TOpt (TList T_Reference)))].

(* asyncapi3/models/operation.py:172-286 *)
Definition T_Operation : ty := TModel "Operation" KExt [
  (fld "action" "action" None false false FvNone, (TLitS [u "send"; u "receive"]));
  (fld "channel" "channel" None false false FvNone, T_Reference);
  (fld "title" "title" (Some (VNone)) true false FvNone, (TOpt (TStr None)));
  (fld "summary" "summary" (Some (VNone)) true false FvNone, (TOpt (TStr None)));
  (fld "description" "description" (Some (VNone)) true false FvNone, (TOpt (TStr None)));
  (fld "security" "security" (Some (VNone)) true false FvNone, (TOpt (TList (TUnion [T_SecurityScheme; T_Reference]))));
  (fld "tags" "tags" (Some (VNone)) true false FvNone, (TOpt (TList (TUnion [T_Tag; T_Reference]))));
  (fld "external_docs" "externalDocs" (Some (VNone)) true false FvNone, (TOpt (TUnion [T_ExternalDocumentation; T_Reference])));
  (fld "bindings" "bindings" (Some (VNone)) true false FvNone, (TOpt (TUnion [T_OperationBindingsObject; T_Reference])));
  (fld "traits" "traits" (Some (VNone)) true false FvNone, (TOpt (TList (TUnion [T_OperationTrait; T_Reference]))));
  (fld "messages" "messages" (Some (VNone)) true false FvNone, (TOpt (TList T_Reference)));
  (fld "reply" "reply" (Some (VNone)) true false FvNone, (TOpt (TUnion [T_OperationReply; T_Reference])))].

(* asyncapi3/models/operation.py:289-295 *)
Definition T_Operations : ty := TRoot "Operations" (TUnion [T_Operation; T_Reference]).

(* asyncapi3/models/components.py:81-87 *)
Definition T_Replies : ty := TRoot "Replies" (TUnion [T_OperationReply; T_Reference]).

(* asyncapi3/models/components.py:90-96 *)
Definition T_ReplyAddresses : ty := TRoot "ReplyAddresses" (TUnion [T_OperationReplyAddress; T_Reference]).

(* asyncapi3/models/components.py:45-51 *)
Definition T_Schemas : ty := TRoot "Schemas" (TUnion [T_MultiFormatSchema; T_Schema; T_Reference]).

(* asyncapi3/models/components.py:54-60 *)
Definition T_SecuritySchemes : ty := TRoot "SecuritySchemes" (TUnion [T_SecurityScheme; T_Reference]).

(* asyncapi3/models/bindings/amqp1.py:13-18 *)
Definition T_AMQP1ServerBindings : ty := TModel "AMQP1ServerBindings" KForbid [
].

(* asyncapi3/models/bindings/amqp.py:21-26 *)
Definition T_AMQPServerBindings : ty := TModel "AMQPServerBindings" KForbid [
].

(* asyncapi3/models/bindings/anypointmq.py:20-25 *)
Definition T_AnypointMQServerBindings : ty := TModel "AnypointMQServerBindings" KForbid [
].

(* asyncapi3/models/bindings/googlepubsub.py:21-26 *)
Definition T_GooglePubSubServerBindings : ty := TModel "GooglePubSubServerBindings" KForbid [
].

(* asyncapi3/models/bindings/http.py:20-25 *)
Definition T_HTTPServerBindings : ty := TModel "HTTPServerBindings" KForbid [
].

(* asyncapi3/models/bindings/ibmmq.py:21-109 *)
Definition T_IBMMQServerBindings : ty := TModel "IBMMQServerBindings" KForbid [
  (fld "group_id" "groupId" (Some (VNone)) true false FvNone, (TOpt (TStr None)));
  (fld "ccdt_queue_manager_name" "ccdtQueueManagerName" (Some (VNone)) true false FvNone, (TOpt (TStr None)));
  (fld "cipher_spec" "cipherSpec" (Some (VNone)) true false FvNone, (TOpt (TStr None)));
  (fld "multi_endpoint_server" "multiEndpointServer" (Some (VNone)) true false FvNone, (TOpt TBool));
  (fld "heart_beat_interval" "heartBeatInterval" (Some (VNone)) true false FvHeartBeat, (TOpt TInt));
  (fld "binding_version" "bindingVersion" (Some (VStr (u "0.1.0"))) false false FvNone, (TStr None))].

(* asyncapi3/models/bindings/jms.py:20-58 *)
Definition T_JMSServerBindings : ty := TModel "JMSServerBindings" KForbid [
  (fld "jms_connection_factory" "jmsConnectionFactory" None false false FvNone, (TStr None));
  (fld "properties" "properties" (Some (VNone)) true false FvNone, (TOpt (TList T_Schema)));
  (fld "client_id" "clientID" (Some (VNone)) true false FvNone, (TOpt (TStr None)));
  (fld "binding_version" "bindingVersion" (Some (VStr (u "0.0.1"))) false false FvNone, (TStr None))].

(* asyncapi3/models/bindings/kafka.py:21-60 *)
Definition T_KafkaServerBindings : ty := TModel "KafkaServerBindings" KForbid [
  (fld "schema_registry_url" "schemaRegistryUrl" (Some (VNone)) true false FvNone, (TOpt (TStr None)));
  (fld "schema_registry_vendor" "schemaRegistryVendor" (Some (VNone)) true false FvNone, (TOpt (TStr None)));
  (fld "binding_version" "bindingVersion" (Some (VStr (u "0.5.0"))) false false FvNone, (TStr None))].

(* asyncapi3/models/bindings/mqtt5.py:18-40 *)
Definition T_MQTT5ServerBindings : ty := TModel "MQTT5ServerBindings" KForbid [
  (fld "session_expiry_interval" "sessionExpiryInterval" (Some (VNone)) true false FvNone, (TOpt (TUnion [TInt; T_Schema; T_Reference])));
  (fld "binding_version" "bindingVersion" (Some (VStr (u "0.2.0"))) false false FvNone, (TStr None))].

(* asyncapi3/models/bindings/mqtt.py:21-46 *)
Definition T_MQTTLastWill : ty := TModel "MQTTLastWill" KForbid [
  (fld "topic" "topic" None false false FvNone, (TStr None));
  (fld "qos" "qos" None false false FvNone, (TLitI [0%Z; 1%Z; 2%Z]));
  (fld "message" "message" None false false FvNone, (TStr None));
  (fld "retain" "retain" None false false FvNone, TBool)].

(* asyncapi3/models/bindings/mqtt.py:49-111 *)
Definition T_MQTTServerBindings : ty := TModel "MQTTServerBindings" KForbid [
  (fld "client_id" "clientId" (Some (VNone)) true false FvNone, (TOpt (TStr None)));
  (fld "clean_session" "cleanSession" (Some (VNone)) true false FvNone, (TOpt TBool));
  (fld "last_will" "lastWill" (Some (VNone)) true false FvNone, (TOpt T_MQTTLastWill));
  (fld "keep_alive" "keepAlive" (Some (VNone)) true false FvNone, (TOpt TInt));
  (fld "session_expiry_interval" "sessionExpiryInterval" (Some (VNone)) true false FvNone, (TOpt (TUnion [TInt; T_Schema; T_Reference])));
  (fld "maximum_packet_size" "maximumPacketSize" (Some (VNone)) true false FvNone, (TOpt (TUnion [TInt; T_Schema; T_Reference])));
  (fld "binding_version" "bindingVersion" (Some (VStr (u "0.2.0"))) false false FvNone, (TStr None))].

(* asyncapi3/models/bindings/mercure.py:13-18 *)
Definition T_MercureServerBindings : ty := TModel "MercureServerBindings" KForbid [
].

(* asyncapi3/models/bindings/nats.py:16-21 *)
Definition T_NATSServerBindings : ty := TModel "NATSServerBindings" KForbid [
].

(* asyncapi3/models/bindings/pulsar.py:19-34 *)
Definition T_PulsarServerBindings : ty := TModel "PulsarServerBindings" KForbid [
  (fld "tenant" "tenant" (Some (VStr (u "public"))) false false FvNone, (TStr None));
  (fld "binding_version" "bindingVersion" (Some (VStr (u "0.1.0"))) false false FvNone, (TStr None))].

(* asyncapi3/models/bindings/redis.py:13-18 *)
Definition T_RedisServerBindings : ty := TModel "RedisServerBindings" KForbid [
].

(* asyncapi3/models/bindings/sns.py:25-30 *)
Definition T_SNSServerBindings : ty := TModel "SNSServerBindings" KForbid [
].

(* asyncapi3/models/bindings/sqs.py:23-28 *)
Definition T_SQSServerBindings : ty := TModel "SQSServerBindings" KForbid [
].

(* asyncapi3/models/bindings/stomp.py:13-18 *)
Definition T_STOMPServerBindings : ty := TModel "STOMPServerBindings" KForbid [
].

(* asyncapi3/models/bindings/solace.py:24-52 *)
Definition T_SolaceServerBindings : ty := TModel "SolaceServerBindings" KForbid [
  (fld "binding_version" "bindingVersion" (Some (VStr (u "0.4.0"))) false false FvNone, (TStr None));
  (fld "msg_vpn" "msgVpn" (Some (VNone)) true false FvNone, (TOpt (TStr None)));
  (fld "client_name" "clientName" (Some (VNone)) true false FvNone, (TOpt (TStr (Some 160%N))))].

(* asyncapi3/models/bindings/websockets.py:20-25 *)
Definition T_WebSocketsServerBindings : ty := TModel "WebSocketsServerBindings" KForbid [
].

(* asyncapi3/models/bindings/core.py:130-233 *)
Definition T_ServerBindingsObject : ty := TModel "ServerBindingsObject" KExt [
  (fld "http" "http" (Some (VNone)) true false FvNone, (TOpt T_HTTPServerBindings));
  (fld "ws" "ws" (Some (VNone)) true false FvNone, (TOpt T_WebSocketsServerBindings));
  (fld "kafka" "kafka" (Some (VNone)) true false FvNone, (TOpt T_KafkaServerBindings));
  (fld "anypointmq" "anypointmq" (Some (VNone)) true false FvNone, (TOpt T_AnypointMQServerBindings));
  (fld "amqp" "amqp" (Some (VNone)) true false FvNone, (TOpt T_AMQPServerBindings));
  (fld "amqp1" "amqp1" (Some (VNone)) true false FvNone, (TOpt T_AMQP1ServerBindings));
  (fld "mqtt" "mqtt" (Some (VNone)) true false FvNone, (TOpt T_MQTTServerBindings));
  (fld "mqtt5" "mqtt5" (Some (VNone)) true false FvNone, (TOpt T_MQTT5ServerBindings));
  (fld "nats" "nats" (Some (VNone)) true false FvNone, (TOpt T_NATSServerBindings));
  (fld "jms" "jms" (Some (VNone)) true false FvNone, (TOpt T_JMSServerBindings));
  (fld "sns" "sns" (Some (VNone)) true false FvNone, (TOpt T_SNSServerBindings));
  (fld "solace" "solace" (Some (VNone)) true false FvNone, (TOpt T_SolaceServerBindings));
  (fld "sqs" "sqs" (Some (VNone)) true false FvNone, (TOpt T_SQSServerBindings));
  (fld "stomp" "stomp" (Some (VNone)) true false FvNone, (TOpt T_STOMPServerBindings));
  (fld "redis" "redis" (Some (VNone)) true false FvNone, (TOpt T_RedisServerBindings));
  (fld "mercure" "mercure" (Some (VNone)) true false FvNone, (TOpt T_MercureServerBindings));
  (fld "ibmmq" "ibmmq" (Some (VNone)) true false FvNone, (TOpt T_IBMMQServerBindings));
  (fld "googlepubsub" "googlepubsub" (Some (VNone)) true false FvNone, (TOpt T_GooglePubSubServerBindings));
  (fld "pulsar" "pulsar" (Some (VNone)) true false FvNone, (TOpt T_PulsarServerBindings))].

(* asyncapi3/models/components.py:135-141 *)
Definition T_ServerBindings : ty := TRoot "ServerBindings" (TUnion [T_ServerBindingsObject; T_Reference]).

(* asyncapi3/models/server.py:19-56 *)
Definition T_ServerVariable : ty := TModel "ServerVariable" KExt [
  (fld "enum" "enum" (Some (VNone)) true false FvNone, (TOpt (TList (TStr None))));
  (fld "default" "default" (Some (VNone)) true false FvNone, (TOpt (TStr None)));
  (fld "description" "description" (Some (VNone)) true false FvNone, (TOpt (TStr None)));
  (fld "examples" "examples" (Some (VNone)) true false FvNone, (TOpt (TList (TStr None))))].

(* asyncapi3/models/components.py:63-69 *)
Definition T_ServerVariables : ty := TRoot "ServerVariables" (TUnion [T_ServerVariable; T_Reference]).

(* asyncapi3/models/server.py:59-153 *)
Definition T_Server : ty := TModel "Server" KExt [
  (fld "host" "host" None false false FvNone, (TStr None));
  (fld "protocol" "protocol" None false false FvNone, (TStr None));
  (fld "protocol_version" "protocolVersion" (Some (VNone)) true false FvNone, (TOpt (TStr None)));
  (fld "pathname" "pathname" (Some (VNone)) true false FvNone, (TOpt (TStr None)));
  (fld "description" "description" (Some (VNone)) true false FvNone, (TOpt (TStr None)));
  (fld "title" "title" (Some (VNone)) true false FvNone, (TOpt (TStr None)));
  (fld "summary" "summary" (Some (VNone)) true false FvNone, (TOpt (TStr None)));
  (fld "variables" "variables" (Some (VNone)) true false FvNone, (TOpt (TDict (TUnion [T_ServerVariable; T_Reference]))));
  (fld "security" "security" (Some (VNone)) true false FvNone, (TOpt (TList (TUnion [T_SecurityScheme; T_Reference]))));
  (fld "tags" "tags" (Some (VNone)) true false FvNone, (TOpt (TList (TUnion [T_Tag; T_Reference]))));
  (fld "external_docs" "externalDocs" (Some (VNone)) true false FvNone, (TOpt (TUnion [T_ExternalDocumentation; T_Reference])));
  (fld "bindings" "bindings" (Some (VNone)) true false FvNone, (TOpt (TUnion [T_ServerBindingsObject; T_Reference])))].

(* asyncapi3/models/server.py:156-162 *)
Definition T_Servers : ty := TRoot "Servers" (TUnion [T_Server; T_Reference]).

(* asyncapi3/models/components.py:108-114 *)
Definition T_Tags : ty := TRoot "Tags" (TUnion [T_Tag; T_Reference]).

(* asyncapi3/models/components.py:171-292 *)
Definition T_Components : ty := TModel "Components" KExt [
  (fld "schemas" "schemas" (Some (VNone)) true false FvNone, (TOpt T_Schemas));
  (fld "servers" "servers" (Some (VNone)) true false FvNone, (TOpt T_Servers));
  (fld "channels" "channels" (Some (VNone)) true false FvNone, (TOpt T_Channels));
  (fld "operations" "operations" (Some (VNone)) true false FvNone, (TOpt T_Operations));
  (fld "messages" "messages" (Some (VNone)) true false FvNone, (TOpt T_Messages));
  (fld "security_schemes" "securitySchemes" (Some (VNone)) true false FvNone, (TOpt T_SecuritySchemes));
  (fld "server_variables" "serverVariables" (Some (VNone)) true false FvNone, (TOpt T_ServerVariables));
  (fld "parameters" "parameters" (Some (VNone)) true false FvNone, (TOpt T_Parameters));
  (fld "correlation_ids" "correlationIds" (Some (VNone)) true false FvNone, (TOpt T_CorrelationIDs));
  (fld "replies" "replies" (Some (VNone)) true false FvNone, (TOpt T_Replies));
  (fld "reply_addresses" "replyAddresses" (Some (VNone)) true false FvNone, (TOpt T_ReplyAddresses));
  (fld "external_docs" "externalDocs" (Some (VNone)) true false FvNone, (TOpt T_ExternalDocs));
  (fld "tags" "tags" (Some (VNone)) true false FvNone, (TOpt T_Tags));
  (fld "operation_traits" "operationTraits" (Some (VNone)) true false FvNone, (TOpt T_OperationTraits));
  (fld "message_traits" "messageTraits" (Some (VNone)) true false FvNone, (TOpt T_MessageTraits));
  (fld "server_bindings" "serverBindings" (Some (VNone)) true false FvNone, (TOpt T_ServerBindings));
  (fld "channel_bindings" "channelBindings" (Some (VNone)) true false FvNone, (TOpt T_ChannelBindings));
  (fld "operation_bindings" "operationBindings" (Some (VNone)) true false FvNone, (TOpt T_OperationBindings));
  (fld "message_bindings" "messageBindings" (Some (VNone)) true false FvNone, (TOpt T_MessageBindings))].

(* asyncapi3/models/info.py:12-39 *)
Definition T_Contact : ty := TModel "Contact" KExt [
  (fld "name" "name" (Some (VNone)) true false FvNone, (TOpt (TStr None)));
  (fld "url" "url" (Some (VNone)) true false FvNone, (TOpt (TUrl true)));
  (fld "email" "email" (Some (VNone)) true false FvNone, (TOpt TEmail))].

(* asyncapi3/models/info.py:42-59 *)
Definition T_License : ty := TModel "License" KExt [
  (fld "name" "name" None false false FvNone, (TStr None));
  (fld "url" "url" (Some (VNone)) true false FvNone, (TOpt (TUrl true)))].

(* asyncapi3/models/info.py:62-119 *)
Definition T_Info : ty := TModel "Info" KExt [
  (fld "title" "title" None false false FvNone, (TStr None));
  (fld "version" "version" None false false FvNone, (TStr None));
  (fld "description" "description" (Some (VNone)) true false FvNone, (TOpt (TStr None)));
  (fld "terms_of_service" "termsOfService" (Some (VNone)) true false FvNone, (TOpt (TUrl true)));
  (fld "contact" "contact" (Some (VNone)) true false FvNone, (TOpt T_Contact));
  (fld "license" "license" (Some (VNone)) true false FvNone, (TOpt T_License));
  (fld "tags" "tags" (Some (VNone)) true false FvNone, (TOpt (TList (TUnion [T_Tag; T_Reference]))));
  (fld "external_docs" "externalDocs" (Some (VNone)) true false FvNone, (TOpt (TUnion [T_ExternalDocumentation; T_Reference])))].

(* asyncapi3/models/asyncapi.py:60-296 *)
Definition T_AsyncAPI3 : ty := TModel "AsyncAPI3" KExt [
  (fld "asyncapi" "asyncapi" (Some (VStr (u "3.0.0"))) false false FvVersion, (TStr None));
  (fld "id" "id" (Some (VNone)) true false FvNone, (TOpt (TUrl false)));
  (fld "info" "info" None false false FvNone, T_Info);
  (fld "servers" "servers" (Some (VNone)) true false FvNone, (TOpt T_Servers));
  (fld "default_content_type" "defaultContentType" (Some (VNone)) true false FvNone, (TOpt (TStr None)));
  (fld "channels" "channels" (Some (VNone)) true false FvNone, (TOpt T_Channels));
  (fld "operations" "operations" (Some (VNone)) true false FvNone, (TOpt T_Operations));
  (fld "components" "components" (Some (VNone)) true false FvNone, (TOpt T_Components));
  (fld "extra_converters" "extra_converters" (Some (VNone)) false true FvNone, (TOpt TProcs));
  (fld "extra_validators" "extra_validators" (Some (VNone)) false true FvNone, (TOpt TProcs))].

(** All model classes, by name. *)
Definition all_types : list ty := [
  T_AMQP1ChannelBindings;
  T_AMQPExchange;
  T_AMQPQueue;
  T_AMQPChannelBindings;
  T_AnypointMQChannelBindings;
  T_GooglePubSubMessageStoragePolicy;
  T_GooglePubSubSchemaSettings;
  T_GooglePubSubChannelBindings;
  T_HTTPChannelBindings;
  T_IBMMQQueue;
  T_IBMMQTopic;
  T_IBMMQChannelBindings;
  T_JMSChannelBindings;
  T_KafkaTopicConfiguration;
  T_KafkaChannelBindings;
  T_MQTT5ChannelBindings;
  T_MQTTChannelBindings;
  T_MercureChannelBindings;
  T_NATSChannelBindings;
  T_PulsarRetention;
  T_PulsarChannelBindings;
  T_RedisChannelBindings;
  T_SNSOrdering;
  T_SNSStatement;
  T_SNSPolicy;
  T_SNSChannelBindings;
  T_SQSStatement;
  T_SQSPolicy;
  T_SQSIdentifier;
  T_SQSRedrivePolicy;
  T_SQSQueue;
  T_SQSChannelBindings;
  T_STOMPChannelBindings;
  T_SolaceChannelBindings;
  T_Reference;
  T_ExternalDocumentation;
  T_Schema;
  T_WebSocketsChannelBindings;
  T_ChannelBindingsObject;
  T_CorrelationID;
  T_AMQP1MessageBindings;
  T_AMQPMessageBindings;
  T_AnypointMQMessageBindings;
  T_GooglePubSubSchemaDefinition;
  T_GooglePubSubMessageBindings;
  T_HTTPMessageBindings;
  T_IBMMQMessageBindings;
  T_JMSMessageBindings;
  T_KafkaMessageBindings;
  T_MQTT5MessageBindings;
  T_MQTTMessageBindings;
  T_MercureMessageBindings;
  T_NATSMessageBindings;
  T_PulsarMessageBindings;
  T_RedisMessageBindings;
  T_SNSMessageBindings;
  T_SQSMessageBindings;
  T_STOMPMessageBindings;
  T_SolaceMessageBindings;
  T_WebSocketsMessageBindings;
  T_MessageBindingsObject;
  T_MessageExample;
  T_MultiFormatSchema;
  T_Tag;
  T_MessageTrait;
  T_Message;
  T_Messages;
  T_Parameter;
  T_Parameters;
  T_Channel;
  T_Channels;
  T_ChannelBindings;
  T_CorrelationIDs;
  T_ExternalDocs;
  T_MessageBindings;
  T_MessageTraits;
  T_AMQP1OperationBindings;
  T_AMQPOperationBindings;
  T_AnypointMQOperationBindings;
  T_GooglePubSubOperationBindings;
  T_HTTPOperationBindings;
  T_IBMMQOperationBindings;
  T_JMSOperationBindings;
  T_KafkaOperationBindings;
  T_MQTT5OperationBindings;
  T_MQTTOperationBindings;
  T_MercureOperationBindings;
  T_NATSOperationBindings;
  T_PulsarOperationBindings;
  T_RedisOperationBindings;
  T_SNSDeliveryPolicy;
  T_SNSIdentifier;
  T_SNSRedrivePolicy;
  T_SNSConsumer;
  T_SNSOperationBindings;
  T_SQSOperationBindings;
  T_STOMPOperationBindings;
  T_SolaceQueue;
  T_SolaceTopic;
  T_SolaceDestination;
  T_SolaceOperationBindings;
  T_WebSocketsOperationBindings;
  T_OperationBindingsObject;
  T_OperationBindings;
  T_OAuthFlow;
  T_OAuthFlows;
  T_SecurityScheme;
  T_OperationTrait;
  T_OperationTraits;
  T_OperationReplyAddress;
  T_OperationReply;
  T_Operation;
  T_Operations;
  T_Replies;
  T_ReplyAddresses;
  T_Schemas;
  T_SecuritySchemes;
  T_AMQP1ServerBindings;
  T_AMQPServerBindings;
  T_AnypointMQServerBindings;
  T_GooglePubSubServerBindings;
  T_HTTPServerBindings;
  T_IBMMQServerBindings;
  T_JMSServerBindings;
  T_KafkaServerBindings;
  T_MQTT5ServerBindings;
  T_MQTTLastWill;
  T_MQTTServerBindings;
  T_MercureServerBindings;
  T_NATSServerBindings;
  T_PulsarServerBindings;
  T_RedisServerBindings;
  T_SNSServerBindings;
  T_SQSServerBindings;
  T_STOMPServerBindings;
  T_SolaceServerBindings;
  T_WebSocketsServerBindings;
  T_ServerBindingsObject;
  T_ServerBindings;
  T_ServerVariable;
  T_ServerVariables;
  T_Server;
  T_Servers;
  T_Tags;
  T_Components;
  T_Contact;
  T_License;
  T_Info;
  T_AsyncAPI3].
