(** Specification: the objects of AsyncAPI 3.0.0 and of the protocol bindings as the library documents them (class docstrings,
    field descriptions, README): which fields an object has, under which key and Python name, which must be given, what
    is assumed when one is omitted, what kind of value it holds, and which other keys the object admits.  Written in its
    own vocabulary; nothing here refers to the class table of the model. *)
From Coq Require Import Ascii.
From Verif Require Import PyStr Value SpecParse.
Local Open Scope string_scope.

(** Kinds of values.  [Obj]: an instance of one of these classes.  [Map]: a patterned map.  [Url h]: a URL (http or https only if [h]).  [Free]: anything. *)
Inductive form :=
| Str | StrMax (n : N) | Email | Url (http_only : bool) | Bool | Int | OneOf (l : list string) | OneOfZ (l : list Z)
| Obj (cs : list string) | Map (c : string) | ListOf (f : form) | DictOf (f : form) | Alt (l : list form) | Free | Procs.
Fixpoint has_form (E : env) (f : form) (v : pv) {struct f} : Prop :=
  match f with
  | Str => exists s, v = VStr s
  | StrMax n => exists s, v = VStr s /\ (N.of_nat (List.length s) <= n)%N
  | Email => exists s, v = VStr s /\ email_spec s
  | Url h => exists s s0, v = VUrl s /\ e_url E h s0 = Some s
  | Bool => exists b, v = VBool b
  | Int => exists z, v = VInt z
  | OneOf l => exists s, In s l /\ v = VStr (u s)
  | OneOfZ l => exists z, In z l /\ v = VInt z
  | Obj cs => exists c fv ex, In c cs /\ v = VObj c fv ex
  | Map c => exists d, v = VRoot c d
  | ListOf f => exists l, v = VList l /\ Forall (has_form E f) l
  | DictOf f => exists d, v = VDict d /\ Forall (fun kv => has_form E f (snd kv)) d
  | Alt fs => (fix any (fs : list form) : Prop := match fs with [] => False | f :: r => has_form E f v \/ any r end) fs
  | Free => True
  | Procs => exists l, v = VList l /\ Forall (fun p => exists n, p = VProc n) l
  end.
Definition orRef (c : string) : form := Obj [c; "Reference"].

(** [Optional]: may be omitted or null, and is null when omitted.  [Default b v]: [v] when omitted; null allowed iff [b]. *)
Inductive mode := Required | Optional | Default (nullable : bool) (v : pv).
Record row := Row { r_name : string; r_key : string; r_mode : mode; r_form : form }.
(** snake_case to camelCase *)
Definition upper (c : ascii) : ascii :=
  let n := nat_of_ascii c in if (Nat.leb 97 n && Nat.leb n 122)%bool then ascii_of_nat (n - 32) else c.
Fixpoint camel (up : bool) (s : string) : string :=
  match s with
  | EmptyString => EmptyString
  | String c r => if Ascii.eqb c "_" then camel true r else String (if up then upper c else c) (camel false r)
  end.
Definition req' n k f := Row n k Required f.
Definition opt' n k f := Row n k Optional f.
Definition req n f := req' n (camel false n) f.
Definition opt n f := opt' n (camel false n) f.
Definition dft n f v := Row n (camel false n) (Default false v) f.
Definition dftN n f v := Row n (camel false n) (Default true v) f.
Definition version s := dft "binding_version" Str (VStr (u s)).

(** Other keys: [Extensible] x-..., [Closed] none, [Open] any. *)
Inductive policy := Extensible | Closed | Open.
Definition objects : list (string * policy * list row) := [
  ("AMQP1ChannelBindings", Closed, []);
  ("AMQPExchange", Closed, [req "name" (StrMax 255);
      req "type" (OneOf ["topic"; "direct"; "fanout"; "default"; "headers"]);
      opt "durable" Bool;
      opt "auto_delete" Bool;
      opt "vhost" Str]);
  ("AMQPQueue", Closed, [opt "name" (StrMax 255);
      opt "durable" Bool;
      opt "exclusive" Bool;
      opt "auto_delete" Bool;
      opt "vhost" Str]);
  ("AMQPChannelBindings", Closed, [req "is_" (OneOf ["queue"; "routingKey"]);
      opt "exchange" (Obj ["AMQPExchange"]);
      opt "queue" (Obj ["AMQPQueue"]);
      version "0.3.0"]);
  ("AnypointMQChannelBindings", Closed, [opt "destination" Str;
      dftN "destination_type" (OneOf ["exchange"; "queue"; "fifo-queue"]) (VStr (u "queue"));
      version "0.1.0"]);
  ("GooglePubSubMessageStoragePolicy", Closed, [opt "allowed_persistence_regions" (ListOf Str)]);
  ("GooglePubSubSchemaSettings", Closed, [opt "encoding" (OneOf ["ENCODING_UNSPECIFIED"; "JSON"; "BINARY"]);
      opt "first_revision_id" Str;
      opt "last_revision_id" Str;
      opt "name" Str]);
  ("GooglePubSubChannelBindings", Closed, [version "0.2.0";
      opt "labels" (DictOf Free);
      opt "message_retention_duration" Str;
      opt "message_storage_policy" (Obj ["GooglePubSubMessageStoragePolicy"]);
      opt "schema_settings" (Obj ["GooglePubSubSchemaSettings"])]);
  ("HTTPChannelBindings", Closed, []);
  ("IBMMQQueue", Closed, [req "object_name" (StrMax 48);
      dft "is_partitioned" Bool (VBool false);
      dft "exclusive" Bool (VBool false)]);
  ("IBMMQTopic", Closed, [opt "string" (StrMax 10240);
      opt "object_name" (StrMax 48);
      dft "durable_permitted" Bool (VBool true);
      dft "last_msg_retained" Bool (VBool false)]);
  ("IBMMQChannelBindings", Closed, [dft "destination_type" (OneOf ["topic"; "queue"]) (VStr (u "topic"));
      opt "queue" (Obj ["IBMMQQueue"]);
      opt "topic" (Obj ["IBMMQTopic"]);
      opt "max_msg_length" Int;
      version "0.1.0"]);
  ("JMSChannelBindings", Closed, [opt "destination" Str;
      opt "destination_type" (OneOf ["queue"; "fifo-queue"]);
      version "0.0.1"]);
  ("KafkaTopicConfiguration", Open, [opt' "cleanup_policy" "cleanup.policy" (ListOf (OneOf ["delete"; "compact"]));
      opt' "retention_ms" "retention.ms" Int;
      opt' "retention_bytes" "retention.bytes" Int;
      opt' "delete_retention_ms" "delete.retention.ms" Int;
      opt' "max_message_bytes" "max.message.bytes" Int;
      opt' "confluent_key_schema_validation" "confluent.key.schema.validation" Bool;
      opt' "confluent_key_subject_name_strategy" "confluent.key.subject.name.strategy" Str;
      opt' "confluent_value_schema_validation" "confluent.value.schema.validation" Bool;
      opt' "confluent_value_subject_name_strategy" "confluent.value.subject.name.strategy" Str]);
  ("KafkaChannelBindings", Closed, [opt "topic" Str;
      opt "partitions" Int;
      opt "replicas" Int;
      opt "topic_configuration" (Obj ["KafkaTopicConfiguration"]);
      version "0.5.0"]);
  ("MQTT5ChannelBindings", Closed, []);
  ("MQTTChannelBindings", Closed, []);
  ("MercureChannelBindings", Closed, []);
  ("NATSChannelBindings", Closed, []);
  ("PulsarRetention", Closed, [dftN "time" Int (VInt 0%Z);
      dftN "size" Int (VInt 0%Z)]);
  ("PulsarChannelBindings", Closed, [req "namespace" Str;
      req "persistence" (OneOf ["persistent"; "non-persistent"]);
      opt "compaction" Int;
      opt' "geo_replication" "geo-replication" (ListOf Str);
      opt "retention" (Obj ["PulsarRetention"]);
      opt "ttl" Int;
      opt "deduplication" Bool;
      version "0.1.0"]);
  ("RedisChannelBindings", Closed, []);
  ("SNSOrdering", Closed, [req "type" (OneOf ["standard"; "FIFO"]);
      dft "content_based_deduplication" Bool (VBool false)]);
  ("SNSStatement", Closed, [req "effect" (OneOf ["Allow"; "Deny"]);
      req "principal" (Alt [Str; (DictOf (Alt [Str; (ListOf Str)]))]);
      req "action" (Alt [Str; (ListOf Str)]);
      opt "resource" (Alt [Str; (ListOf Str)]);
      opt "condition" (Alt [(DictOf Free); (ListOf (DictOf Free))])]);
  ("SNSPolicy", Closed, [req "statements" (ListOf (Obj ["SNSStatement"]))]);
  ("SNSChannelBindings", Closed, [req "name" Str;
      opt "ordering" (Obj ["SNSOrdering"]);
      opt "policy" (Obj ["SNSPolicy"]);
      opt "tags" (DictOf Free);
      version "1.0.0"]);
  ("SQSStatement", Closed, [req "effect" (OneOf ["Allow"; "Deny"]);
      req "principal" (Alt [Str; (DictOf (Alt [Str; (ListOf Str)]))]);
      req "action" (Alt [Str; (ListOf Str)]);
      opt "resource" (Alt [Str; (ListOf Str)]);
      opt "condition" (Alt [(DictOf Free); (ListOf (DictOf Free))])]);
  ("SQSPolicy", Closed, [req' "statements" "Statements" (ListOf (Obj ["SQSStatement"]))]);
  ("SQSIdentifier", Closed, [opt "arn" Str;
      opt "name" Str]);
  ("SQSRedrivePolicy", Closed, [req "dead_letter_queue" (Obj ["SQSIdentifier"]);
      opt "max_receive_count" Int]);
  ("SQSQueue", Closed, [req "name" Str;
      req "fifo_queue" Bool;
      opt "deduplication_scope" (OneOf ["messageGroup"; "queue"]);
      opt "fifo_throughput_limit" (OneOf ["perQueue"; "perMessageGroupId"]);
      opt "delivery_delay" Int;
      opt "visibility_timeout" Int;
      opt "receive_message_wait_time" Int;
      opt "message_retention_period" Int;
      opt "redrive_policy" (Obj ["SQSRedrivePolicy"]);
      opt "policy" (Obj ["SQSPolicy"]);
      opt "tags" (DictOf Free)]);
  ("SQSChannelBindings", Closed, [req "queue" (Obj ["SQSQueue"]);
      opt "dead_letter_queue" (Obj ["SQSQueue"]);
      version "0.3.0"]);
  ("STOMPChannelBindings", Closed, []);
  ("SolaceChannelBindings", Closed, []);
  ("Reference", Closed, [req' "ref" "$ref" Str]);
  ("ExternalDocumentation", Extensible, [req "url" (Url false);
      opt "description" Str]);
  ("Schema", Open, [opt "discriminator" Str;
      opt "external_docs" (orRef "ExternalDocumentation");
      opt "deprecated" Bool]);
  ("WebSocketsChannelBindings", Closed, [opt "method" (OneOf ["GET"; "POST"]);
      opt "query" (orRef "Schema");
      opt "headers" (orRef "Schema");
      version "0.1.0"]);
  ("ChannelBindingsObject", Extensible, [opt "http" (Obj ["HTTPChannelBindings"]);
      opt "ws" (Obj ["WebSocketsChannelBindings"]);
      opt "kafka" (Obj ["KafkaChannelBindings"]);
      opt "anypointmq" (Obj ["AnypointMQChannelBindings"]);
      opt "amqp" (Obj ["AMQPChannelBindings"]);
      opt "amqp1" (Obj ["AMQP1ChannelBindings"]);
      opt "mqtt" (Obj ["MQTTChannelBindings"]);
      opt "mqtt5" (Obj ["MQTT5ChannelBindings"]);
      opt "nats" (Obj ["NATSChannelBindings"]);
      opt "jms" (Obj ["JMSChannelBindings"]);
      opt "sns" (Obj ["SNSChannelBindings"]);
      opt "solace" (Obj ["SolaceChannelBindings"]);
      opt "sqs" (Obj ["SQSChannelBindings"]);
      opt "stomp" (Obj ["STOMPChannelBindings"]);
      opt "redis" (Obj ["RedisChannelBindings"]);
      opt "mercure" (Obj ["MercureChannelBindings"]);
      opt "ibmmq" (Obj ["IBMMQChannelBindings"]);
      opt "googlepubsub" (Obj ["GooglePubSubChannelBindings"]);
      opt "pulsar" (Obj ["PulsarChannelBindings"])]);
  ("CorrelationID", Extensible, [opt "description" Str;
      req "location" Str]);
  ("AMQP1MessageBindings", Closed, []);
  ("AMQPMessageBindings", Closed, [opt "content_encoding" Str;
      opt "message_type" Str;
      version "0.3.0"]);
  ("AnypointMQMessageBindings", Closed, [opt "headers" (orRef "Schema");
      version "0.1.0"]);
  ("GooglePubSubSchemaDefinition", Closed, [opt "name" Str]);
  ("GooglePubSubMessageBindings", Closed, [version "0.2.0";
      opt "attributes" (DictOf Free);
      opt "ordering_key" Str;
      opt "schema" (Obj ["GooglePubSubSchemaDefinition"])]);
  ("HTTPMessageBindings", Closed, [opt "headers" (orRef "Schema");
      opt "status_code" Int;
      version "0.3.0"]);
  ("IBMMQMessageBindings", Closed, [dft "type" (OneOf ["string"; "jms"; "binary"]) (VStr (u "string"));
      opt "headers" Str;
      opt "description" Str;
      opt "expiry" Int;
      version "0.1.0"]);
  ("JMSMessageBindings", Closed, [opt "headers" (orRef "Schema");
      version "0.0.1"]);
  ("KafkaMessageBindings", Closed, [opt "key" (Alt [(Obj ["Schema"]); (Obj ["Reference"]); (DictOf Free)]);
      opt "schema_id_location" Str;
      opt "schema_id_payload_encoding" Str;
      opt "schema_lookup_strategy" Str;
      version "0.5.0"]);
  ("MQTT5MessageBindings", Closed, []);
  ("MQTTMessageBindings", Closed, [opt "payload_format_indicator" (OneOfZ [0; 1]%Z);
      opt "correlation_data" (orRef "Schema");
      opt "content_type" Str;
      opt "response_topic" (Alt [Str; (Obj ["Schema"]); (Obj ["Reference"])]);
      version "0.2.0"]);
  ("MercureMessageBindings", Closed, []);
  ("NATSMessageBindings", Closed, []);
  ("PulsarMessageBindings", Closed, []);
  ("RedisMessageBindings", Closed, []);
  ("SNSMessageBindings", Closed, []);
  ("SQSMessageBindings", Closed, []);
  ("STOMPMessageBindings", Closed, []);
  ("SolaceMessageBindings", Closed, []);
  ("WebSocketsMessageBindings", Closed, []);
  ("MessageBindingsObject", Extensible, [opt "http" (Obj ["HTTPMessageBindings"]);
      opt "ws" (Obj ["WebSocketsMessageBindings"]);
      opt "kafka" (Obj ["KafkaMessageBindings"]);
      opt "anypointmq" (Obj ["AnypointMQMessageBindings"]);
      opt "amqp" (Obj ["AMQPMessageBindings"]);
      opt "amqp1" (Obj ["AMQP1MessageBindings"]);
      opt "mqtt" (Obj ["MQTTMessageBindings"]);
      opt "mqtt5" (Obj ["MQTT5MessageBindings"]);
      opt "nats" (Obj ["NATSMessageBindings"]);
      opt "jms" (Obj ["JMSMessageBindings"]);
      opt "sns" (Obj ["SNSMessageBindings"]);
      opt "solace" (Obj ["SolaceMessageBindings"]);
      opt "sqs" (Obj ["SQSMessageBindings"]);
      opt "stomp" (Obj ["STOMPMessageBindings"]);
      opt "redis" (Obj ["RedisMessageBindings"]);
      opt "mercure" (Obj ["MercureMessageBindings"]);
      opt "ibmmq" (Obj ["IBMMQMessageBindings"]);
      opt "googlepubsub" (Obj ["GooglePubSubMessageBindings"]);
      opt "pulsar" (Obj ["PulsarMessageBindings"])]);
  ("MessageExample", Extensible, [opt "headers" (DictOf Free);
      opt "payload" Free;
      opt "name" Str;
      opt "summary" Str]);
  ("MultiFormatSchema", Open, [dft "schema_format" Str (VStr (u "application/vnd.aai.asyncapi;version=3.0.0"));
      req "schema" Free]);
  ("Tag", Extensible, [req "name" Str;
      opt "description" Str;
      opt "external_docs" (orRef "ExternalDocumentation")]);
  ("MessageTrait", Extensible, [opt "headers" (Obj ["MultiFormatSchema"; "Schema"; "Reference"]);
      opt "correlation_id" (orRef "CorrelationID");
      opt "content_type" Str;
      opt "name" Str;
      opt "title" Str;
      opt "summary" Str;
      opt "description" Str;
      opt "tags" (ListOf (orRef "Tag"));
      opt "external_docs" (orRef "ExternalDocumentation");
      opt "bindings" (orRef "MessageBindingsObject");
      opt "examples" (ListOf (Obj ["MessageExample"]))]);
  ("Message", Extensible, [opt "headers" (Obj ["MultiFormatSchema"; "Schema"; "Reference"]);
      opt "payload" (Obj ["MultiFormatSchema"; "Schema"; "Reference"]);
      opt "correlation_id" (orRef "CorrelationID");
      opt "content_type" Str;
      opt "name" Str;
      opt "title" Str;
      opt "summary" Str;
      opt "description" Str;
      opt "tags" (ListOf (orRef "Tag"));
      opt "external_docs" (orRef "ExternalDocumentation");
      opt "bindings" (orRef "MessageBindingsObject");
      opt "examples" (ListOf (Obj ["MessageExample"]));
      opt "traits" (ListOf (orRef "MessageTrait"))]);
  ("Parameter", Extensible, [opt "enum" (ListOf Str);
      opt "default" Str;
      opt "description" Str;
      opt "examples" (ListOf Str);
      opt "location" Str]);
  ("Channel", Extensible, [opt "address" Str;
      opt "messages" (Map "Messages");
      opt "title" Str;
      opt "summary" Str;
      opt "description" Str;
      opt "servers" (ListOf (Obj ["Reference"]));
      opt "parameters" (Map "Parameters");
      opt "tags" (ListOf (orRef "Tag"));
      opt "external_docs" (orRef "ExternalDocumentation");
      opt "bindings" (orRef "ChannelBindingsObject")]);
  ("AMQP1OperationBindings", Closed, []);
  ("AMQPOperationBindings", Closed, [opt "expiration" Int;
      opt "user_id" Str;
      opt "cc" (ListOf Str);
      opt "priority" Int;
      opt "delivery_mode" (OneOfZ [1; 2]%Z);
      opt "mandatory" Bool;
      opt "bcc" (ListOf Str);
      opt "timestamp" Bool;
      opt "ack" Bool;
      version "0.3.0"]);
  ("AnypointMQOperationBindings", Closed, []);
  ("GooglePubSubOperationBindings", Closed, []);
  ("HTTPOperationBindings", Closed, [req "method" (OneOf ["GET"; "POST"; "PUT"; "PATCH"; "DELETE"; "HEAD"; "OPTIONS"; "CONNECT"; "TRACE"]);
      opt "query" (orRef "Schema");
      version "0.3.0"]);
  ("IBMMQOperationBindings", Closed, []);
  ("JMSOperationBindings", Closed, []);
  ("KafkaOperationBindings", Closed, [opt "group_id" (orRef "Schema");
      opt "client_id" (orRef "Schema");
      version "0.5.0"]);
  ("MQTT5OperationBindings", Closed, []);
  ("MQTTOperationBindings", Closed, [opt "qos" (OneOfZ [0; 1; 2]%Z);
      opt "retain" Bool;
      opt "message_expiry_interval" (Alt [Int; (Obj ["Schema"]); (Obj ["Reference"])]);
      version "0.2.0"]);
  ("MercureOperationBindings", Closed, []);
  ("NATSOperationBindings", Closed, [opt "queue" (StrMax 255);
      version "0.1.0"]);
  ("PulsarOperationBindings", Closed, []);
  ("RedisOperationBindings", Closed, []);
  ("SNSDeliveryPolicy", Closed, [opt "min_delay_target" Int;
      opt "max_delay_target" Int;
      opt "num_retries" Int;
      opt "num_no_delay_retries" Int;
      opt "num_min_delay_retries" Int;
      opt "num_max_delay_retries" Int;
      opt "backoff_function" (OneOf ["arithmetic"; "exponential"; "geometric"; "linear"]);
      opt "max_receives_per_second" Int]);
  ("SNSIdentifier", Closed, [opt "url" Str;
      opt "email" Str;
      opt "phone" Str;
      opt "arn" Str;
      opt "name" Str]);
  ("SNSRedrivePolicy", Closed, [req "dead_letter_queue" (Obj ["SNSIdentifier"]);
      opt "max_receive_count" Int]);
  ("SNSConsumer", Closed, [req "protocol" (OneOf ["http"; "https"; "email"; "email-json"; "sms"; "sqs"; "application"; "lambda"; "firehose"]);
      req "endpoint" (Obj ["SNSIdentifier"]);
      opt "filter_policy" (DictOf Free);
      opt "filter_policy_scope" (OneOf ["MessageAttributes"; "MessageBody"]);
      req "raw_message_delivery" Bool;
      opt "redrive_policy" (Obj ["SNSRedrivePolicy"]);
      opt "delivery_policy" (Obj ["SNSDeliveryPolicy"]);
      opt "display_name" Str]);
  ("SNSOperationBindings", Closed, [opt "topic" (Obj ["SNSIdentifier"]);
      req "consumers" (ListOf (Obj ["SNSConsumer"]));
      opt "delivery_policy" (Obj ["SNSDeliveryPolicy"]);
      version "1.0.0"]);
  ("SQSOperationBindings", Closed, [req "queues" (ListOf (Obj ["SQSQueue"]));
      version "0.3.0"]);
  ("STOMPOperationBindings", Closed, []);
  ("SolaceQueue", Closed, [opt "name" Str;
      opt "topic_subscriptions" (ListOf Str);
      opt "access_type" (OneOf ["exclusive"; "nonexclusive"]);
      opt "max_msg_spool_size" Str;
      opt "max_ttl" Str]);
  ("SolaceTopic", Closed, [opt "topic_subscriptions" (ListOf Str)]);
  ("SolaceDestination", Closed, [version "0.4.0";
      req "destination_type" (OneOf ["queue"; "topic"]);
      dft "delivery_mode" (OneOf ["direct"; "persistent"]) (VStr (u "persistent"));
      opt "queue" (Obj ["SolaceQueue"]);
      opt "topic" (Obj ["SolaceTopic"])]);
  ("SolaceOperationBindings", Closed, [version "0.4.0";
      opt "destinations" (ListOf (Obj ["SolaceDestination"]));
      opt "time_to_live" (Alt [Int; (Obj ["Schema"]); (Obj ["Reference"])]);
      opt "priority" (Alt [Int; (Obj ["Schema"]); (Obj ["Reference"])]);
      opt "dmq_eligible" Bool]);
  ("WebSocketsOperationBindings", Closed, []);
  ("OperationBindingsObject", Extensible, [opt "http" (Obj ["HTTPOperationBindings"]);
      opt "ws" (Obj ["WebSocketsOperationBindings"]);
      opt "kafka" (Obj ["KafkaOperationBindings"]);
      opt "anypointmq" (Obj ["AnypointMQOperationBindings"]);
      opt "amqp" (Obj ["AMQPOperationBindings"]);
      opt "amqp1" (Obj ["AMQP1OperationBindings"]);
      opt "mqtt" (Obj ["MQTTOperationBindings"]);
      opt "mqtt5" (Obj ["MQTT5OperationBindings"]);
      opt "nats" (Obj ["NATSOperationBindings"]);
      opt "jms" (Obj ["JMSOperationBindings"]);
      opt "sns" (Obj ["SNSOperationBindings"]);
      opt "solace" (Obj ["SolaceOperationBindings"]);
      opt "sqs" (Obj ["SQSOperationBindings"]);
      opt "stomp" (Obj ["STOMPOperationBindings"]);
      opt "redis" (Obj ["RedisOperationBindings"]);
      opt "mercure" (Obj ["MercureOperationBindings"]);
      opt "ibmmq" (Obj ["IBMMQOperationBindings"]);
      opt "googlepubsub" (Obj ["GooglePubSubOperationBindings"]);
      opt "pulsar" (Obj ["PulsarOperationBindings"])]);
  ("OAuthFlow", Extensible, [opt "authorization_url" (Url false);
      opt "token_url" (Url false);
      opt "refresh_url" (Url false);
      req "available_scopes" (DictOf Str)]);
  ("OAuthFlows", Extensible, [opt "implicit" (Obj ["OAuthFlow"]);
      opt "password" (Obj ["OAuthFlow"]);
      opt "client_credentials" (Obj ["OAuthFlow"]);
      opt "authorization_code" (Obj ["OAuthFlow"])]);
  ("SecurityScheme", Extensible, [req "type_" (OneOf ["apiKey"; "asymmetricEncryption"; "gssapi"; "http"; "httpApiKey"; "oauth2"; "openIdConnect"; "plain"; "scramSha256"; "scramSha512"; "symmetricEncryption"; "userPassword"; "X509"]);
      opt "description" Str;
      opt "name" Str;
      opt "in_" (OneOf ["user"; "password"; "query"; "header"; "cookie"]);
      opt "scheme" Str;
      opt "bearer_format" Str;
      opt "flows" (Obj ["OAuthFlows"]);
      opt "open_id_connect_url" (Url false);
      opt "scopes" (ListOf Str)]);
  ("OperationTrait", Extensible, [opt "title" Str;
      opt "summary" Str;
      opt "description" Str;
      opt "security" (ListOf (orRef "SecurityScheme"));
      opt "tags" (ListOf (orRef "Tag"));
      opt "external_docs" (orRef "ExternalDocumentation");
      opt "bindings" (orRef "OperationBindingsObject")]);
  ("OperationReplyAddress", Extensible, [req "location" Str;
      opt "description" Str]);
  ("OperationReply", Extensible, [opt "address" (orRef "OperationReplyAddress");
      opt "channel" (Obj ["Reference"]);
      opt "messages" (ListOf (Obj ["Reference"]))]);
  ("Operation", Extensible, [req "action" (OneOf ["send"; "receive"]);
      req "channel" (Obj ["Reference"]);
      opt "title" Str;
      opt "summary" Str;
      opt "description" Str;
      opt "security" (ListOf (orRef "SecurityScheme"));
      opt "tags" (ListOf (orRef "Tag"));
      opt "external_docs" (orRef "ExternalDocumentation");
      opt "bindings" (orRef "OperationBindingsObject");
      opt "traits" (ListOf (orRef "OperationTrait"));
      opt "messages" (ListOf (Obj ["Reference"]));
      opt "reply" (orRef "OperationReply")]);
  ("AMQP1ServerBindings", Closed, []);
  ("AMQPServerBindings", Closed, []);
  ("AnypointMQServerBindings", Closed, []);
  ("GooglePubSubServerBindings", Closed, []);
  ("HTTPServerBindings", Closed, []);
  ("IBMMQServerBindings", Closed, [opt "group_id" Str;
      opt "ccdt_queue_manager_name" Str;
      opt "cipher_spec" Str;
      opt "multi_endpoint_server" Bool;
      opt "heart_beat_interval" Int;
      version "0.1.0"]);
  ("JMSServerBindings", Closed, [req "jms_connection_factory" Str;
      opt "properties" (ListOf (Obj ["Schema"]));
      opt' "client_id" "clientID" Str;
      version "0.0.1"]);
  ("KafkaServerBindings", Closed, [opt "schema_registry_url" Str;
      opt "schema_registry_vendor" Str;
      version "0.5.0"]);
  ("MQTT5ServerBindings", Closed, [opt "session_expiry_interval" (Alt [Int; (Obj ["Schema"]); (Obj ["Reference"])]);
      version "0.2.0"]);
  ("MQTTLastWill", Closed, [req "topic" Str;
      req "qos" (OneOfZ [0; 1; 2]%Z);
      req "message" Str;
      req "retain" Bool]);
  ("MQTTServerBindings", Closed, [opt "client_id" Str;
      opt "clean_session" Bool;
      opt "last_will" (Obj ["MQTTLastWill"]);
      opt "keep_alive" Int;
      opt "session_expiry_interval" (Alt [Int; (Obj ["Schema"]); (Obj ["Reference"])]);
      opt "maximum_packet_size" (Alt [Int; (Obj ["Schema"]); (Obj ["Reference"])]);
      version "0.2.0"]);
  ("MercureServerBindings", Closed, []);
  ("NATSServerBindings", Closed, []);
  ("PulsarServerBindings", Closed, [dft "tenant" Str (VStr (u "public"));
      version "0.1.0"]);
  ("RedisServerBindings", Closed, []);
  ("SNSServerBindings", Closed, []);
  ("SQSServerBindings", Closed, []);
  ("STOMPServerBindings", Closed, []);
  ("SolaceServerBindings", Closed, [version "0.4.0";
      opt "msg_vpn" Str;
      opt "client_name" (StrMax 160)]);
  ("WebSocketsServerBindings", Closed, []);
  ("ServerBindingsObject", Extensible, [opt "http" (Obj ["HTTPServerBindings"]);
      opt "ws" (Obj ["WebSocketsServerBindings"]);
      opt "kafka" (Obj ["KafkaServerBindings"]);
      opt "anypointmq" (Obj ["AnypointMQServerBindings"]);
      opt "amqp" (Obj ["AMQPServerBindings"]);
      opt "amqp1" (Obj ["AMQP1ServerBindings"]);
      opt "mqtt" (Obj ["MQTTServerBindings"]);
      opt "mqtt5" (Obj ["MQTT5ServerBindings"]);
      opt "nats" (Obj ["NATSServerBindings"]);
      opt "jms" (Obj ["JMSServerBindings"]);
      opt "sns" (Obj ["SNSServerBindings"]);
      opt "solace" (Obj ["SolaceServerBindings"]);
      opt "sqs" (Obj ["SQSServerBindings"]);
      opt "stomp" (Obj ["STOMPServerBindings"]);
      opt "redis" (Obj ["RedisServerBindings"]);
      opt "mercure" (Obj ["MercureServerBindings"]);
      opt "ibmmq" (Obj ["IBMMQServerBindings"]);
      opt "googlepubsub" (Obj ["GooglePubSubServerBindings"]);
      opt "pulsar" (Obj ["PulsarServerBindings"])]);
  ("ServerVariable", Extensible, [opt "enum" (ListOf Str);
      opt "default" Str;
      opt "description" Str;
      opt "examples" (ListOf Str)]);
  ("Server", Extensible, [req "host" Str;
      req "protocol" Str;
      opt "protocol_version" Str;
      opt "pathname" Str;
      opt "description" Str;
      opt "title" Str;
      opt "summary" Str;
      opt "variables" (DictOf (orRef "ServerVariable"));
      opt "security" (ListOf (orRef "SecurityScheme"));
      opt "tags" (ListOf (orRef "Tag"));
      opt "external_docs" (orRef "ExternalDocumentation");
      opt "bindings" (orRef "ServerBindingsObject")]);
  ("Components", Extensible, [opt "schemas" (Map "Schemas");
      opt "servers" (Map "Servers");
      opt "channels" (Map "Channels");
      opt "operations" (Map "Operations");
      opt "messages" (Map "Messages");
      opt "security_schemes" (Map "SecuritySchemes");
      opt "server_variables" (Map "ServerVariables");
      opt "parameters" (Map "Parameters");
      opt "correlation_ids" (Map "CorrelationIDs");
      opt "replies" (Map "Replies");
      opt "reply_addresses" (Map "ReplyAddresses");
      opt "external_docs" (Map "ExternalDocs");
      opt "tags" (Map "Tags");
      opt "operation_traits" (Map "OperationTraits");
      opt "message_traits" (Map "MessageTraits");
      opt "server_bindings" (Map "ServerBindings");
      opt "channel_bindings" (Map "ChannelBindings");
      opt "operation_bindings" (Map "OperationBindings");
      opt "message_bindings" (Map "MessageBindings")]);
  ("Contact", Extensible, [opt "name" Str;
      opt "url" (Url true);
      opt "email" Email]);
  ("License", Extensible, [req "name" Str;
      opt "url" (Url true)]);
  ("Info", Extensible, [req "title" Str;
      req "version" Str;
      opt "description" Str;
      opt "terms_of_service" (Url true);
      opt "contact" (Obj ["Contact"]);
      opt "license" (Obj ["License"]);
      opt "tags" (ListOf (orRef "Tag"));
      opt "external_docs" (orRef "ExternalDocumentation")]);
  ("AsyncAPI3", Extensible, [dft "asyncapi" Str (VStr (u "3.0.0"));
      opt "id" (Url false);
      req "info" (Obj ["Info"]);
      opt "servers" (Map "Servers");
      opt "default_content_type" Str;
      opt "channels" (Map "Channels");
      opt "operations" (Map "Operations");
      opt "components" (Obj ["Components"]);
      opt' "extra_converters" "extra_converters" Procs;
      opt' "extra_validators" "extra_validators" Procs])].

(** The patterned maps and what their entries are. *)
Definition maps : list (string * form) := [
  ("Messages", (orRef "Message"));
  ("Parameters", (orRef "Parameter"));
  ("Channels", (orRef "Channel"));
  ("ChannelBindings", (orRef "ChannelBindingsObject"));
  ("CorrelationIDs", (orRef "CorrelationID"));
  ("ExternalDocs", (orRef "ExternalDocumentation"));
  ("MessageBindings", (orRef "MessageBindingsObject"));
  ("MessageTraits", (orRef "MessageTrait"));
  ("OperationBindings", (orRef "OperationBindingsObject"));
  ("OperationTraits", (orRef "OperationTrait"));
  ("Operations", (orRef "Operation"));
  ("Replies", (orRef "OperationReply"));
  ("ReplyAddresses", (orRef "OperationReplyAddress"));
  ("Schemas", (Obj ["MultiFormatSchema"; "Schema"; "Reference"]));
  ("SecuritySchemes", (orRef "SecurityScheme"));
  ("ServerBindings", (orRef "ServerBindingsObject"));
  ("ServerVariables", (orRef "ServerVariable"));
  ("Servers", (orRef "Server"));
  ("Tags", (orRef "Tag"))].

(** Objects with a rule relating several fields (C06-C09, C11). *)
Definition with_rule : list string :=
  ["Channel"; "MessageExample"; "OAuthFlows"; "SecurityScheme"; "AMQPChannelBindings"; "IBMMQChannelBindings"; "IBMMQMessageBindings";
   "KafkaServerBindings"; "SolaceDestination"].

(** One field of an instance holds what its row says. *)
Definition as_described (E : env) (r : row) (v : pv) : Prop :=
  has_form E (r_form r) v
  \/ (v = VNone /\ match r_mode r with Required => False | Optional => True | Default b _ => b = true end).
(** What an omitted field gets. *)
Definition omitted (m : mode) : option pv :=
  match m with Required => None | Optional => Some VNone | Default _ v => Some v end.
(** Forms whose values are given directly in the data, and must therefore be accepted as they are. *)
Fixpoint literal_form (f : form) : bool :=
  match f with
  | Str | StrMax _ | Email | Bool | Int | OneOf _ | OneOfZ _ | Free => true
  | ListOf f | DictOf f => literal_form f
  | _ => false
  end.
(** A mapping without its entry for one field. *)
Definition leave_out (r : row) (d : list (pystr * pv)) : list (pystr * pv) :=
  filter (fun kv => negb (mem_str (fst kv) [u (r_key r); u (r_name r)])) d.
