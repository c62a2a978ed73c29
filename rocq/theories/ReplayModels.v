(** GENERATED by tools/replay.py from tests/models (do not edit): the project's own tests as programs of Replay.v. *)
From Verif Require Import PyStr Regex Value Types Classes State Unified Replay.
Local Open Scope string_scope.
Local Notation t := (@pair string (list stmt)).
Definition part0 : list (string * list stmt) := [
t "models/test_asyncapi.py::TestAsyncAPI3.test_as_builder_default" [SLet 0 (XBuilder [] []);
  SAssert (CNot (CEq (XVar 0) (XVal VNone)));
  SAssert (CEq (XAttr (XVar 0) (u "asyncapi")) (XVal (VStr (u "3.0.0"))));
  SAssert (CEq (XAttr (XAttr (XVar 0) (u "info")) (u "title")) (XVal (VStr (u "Sample APP"))));
  SAssert (CEq (XAttr (XAttr (XVar 0) (u "info")) (u "version")) (XVal (VStr (u "0.0.1"))));
  SAssert (CEq (XLen (XAttr (XAttr (XVar 0) (u "servers")) (u "root"))) (XVal (VInt (0)%Z)));
  SAssert (CEq (XLen (XAttr (XAttr (XVar 0) (u "channels")) (u "root"))) (XVal (VInt (0)%Z)));
  SAssert (CEq (XLen (XAttr (XAttr (XVar 0) (u "operations")) (u "root"))) (XVal (VInt (0)%Z)));
  SAssert (CNot (CEq (XAttr (XVar 0) (u "components")) (XVal VNone)))];
t "models/test_asyncapi.py::TestAsyncAPI3.test_as_builder_serialization_default" [SLet 0 (XBuilder [] []);
  SAssert (CEq (XDump (XVar 0)) (XUnurl (XVal (VDict [((u "asyncapi"), (VStr (u "3.0.0"))); ((u "info"), (VDict [((u "title"), (VStr (u "Sample APP"))); ((u "version"), (VStr (u "0.0.1")))])); ((u "servers"), (VDict [])); ((u "channels"), (VDict [])); ((u "operations"), (VDict [])); ((u "components"), (VDict [((u "schemas"), (VDict [])); ((u "servers"), (VDict [])); ((u "channels"), (VDict [])); ((u "operations"), (VDict [])); ((u "messages"), (VDict [])); ((u "securitySchemes"), (VDict [])); ((u "serverVariables"), (VDict [])); ((u "parameters"), (VDict [])); ((u "correlationIds"), (VDict [])); ((u "replies"), (VDict [])); ((u "replyAddresses"), (VDict [])); ((u "externalDocs"), (VDict [])); ((u "tags"), (VDict [])); ((u "operationTraits"), (VDict [])); ((u "messageTraits"), (VDict [])); ((u "serverBindings"), (VDict [])); ((u "channelBindings"), (VDict [])); ((u "operationBindings"), (VDict [])); ((u "messageBindings"), (VDict []))]))]))))];
t "models/test_asyncapi.py::TestAsyncAPI3.test_asyncapi3_validation/case_asyncapi_minimal" [SLet 0 (XNew "AsyncAPI3" (XVal (VDict [((u "asyncapi"), (VStr (u "3.0.0"))); ((u "info"), (VDict [((u "title"), (VStr (u "Account Service"))); ((u "version"), (VStr (u "1.0.0")))]))])));
  SAssert (CNot (CEq (XVar 0) (XVal VNone)));
  SAssert (CEq (XAttr (XVar 0) (u "asyncapi")) (XVal (VStr (u "3.0.0"))));
  SAssert (CNot (CEq (XAttr (XVar 0) (u "info")) (XVal VNone)))];
t "models/test_asyncapi.py::TestAsyncAPI3.test_asyncapi3_validation/case_asyncapi_full" [SLet 0 (XNew "AsyncAPI3" (XVal (VDict [((u "asyncapi"), (VStr (u "3.0.0"))); ((u "id"), (VStr (u "tag:stream.gitter.im,2022:api"))); ((u "info"), (VDict [((u "title"), (VStr (u "Gitter Streaming API"))); ((u "version"), (VStr (u "1.0.0"))); ((u "description"), (VStr (u "This is a sample app.")))])); ((u "servers"), (VDict [((u "production"), (VDict [((u "host"), (VStr (u "stream.gitter.im"))); ((u "pathname"), (VStr (u "/v1"))); ((u "protocol"), (VStr (u "https")))]))])); ((u "defaultContentType"), (VStr (u "application/json"))); ((u "channels"), (VDict [((u "rooms"), (VDict [((u "address"), (VStr (u "/rooms/{roomId}/{resource}"))); ((u "messages"), (VDict [((u "chatMessage"), (VDict [((u "$ref"), (VStr (u "#/components/messages/chatMessage")))]))]))]))])); ((u "operations"), (VDict [((u "sendRoomInfo"), (VDict [((u "action"), (VStr (u "send"))); ((u "channel"), (VDict [((u "$ref"), (VStr (u "#/channels/rooms")))])); ((u "messages"), (VList [(VDict [((u "$ref"), (VStr (u "#/channels/rooms/messages/chatMessage")))])]))]))])); ((u "components"), (VDict [((u "messages"), (VDict [((u "chatMessage"), (VDict [((u "payload"), (VDict [((u "type"), (VStr (u "object")))]))]))]))]))])));
  SAssert (CNot (CEq (XVar 0) (XVal VNone)));
  SAssert (CEq (XAttr (XVar 0) (u "asyncapi")) (XVal (VStr (u "3.0.0"))));
  SAssert (CNot (CEq (XAttr (XVar 0) (u "info")) (XVal VNone)))];
t "models/test_asyncapi.py::TestAsyncAPI3.test_asyncapi3_validation/case_asyncapi_with_defaults" [SLet 0 (XNew "AsyncAPI3" (XVal (VDict [((u "asyncapi"), (VStr (u "3.0.0"))); ((u "info"), (VDict [((u "title"), (VStr (u "My App"))); ((u "version"), (VStr (u "1.0.0")))]))])));
  SAssert (CNot (CEq (XVar 0) (XVal VNone)));
  SAssert (CEq (XAttr (XVar 0) (u "asyncapi")) (XVal (VStr (u "3.0.0"))));
  SAssert (CNot (CEq (XAttr (XVar 0) (u "info")) (XVal VNone)))];
t "models/test_asyncapi.py::TestAsyncAPI3.test_asyncapi3_validation/case_asyncapi_with_id" [SLet 0 (XNew "AsyncAPI3" (XVal (VDict [((u "asyncapi"), (VStr (u "3.0.0"))); ((u "id"), (VStr (u "https://example.com/my-api"))); ((u "info"), (VDict [((u "title"), (VStr (u "My App"))); ((u "version"), (VStr (u "1.0.0")))]))])));
  SAssert (CNot (CEq (XVar 0) (XVal VNone)));
  SAssert (CEq (XAttr (XVar 0) (u "asyncapi")) (XVal (VStr (u "3.0.0"))));
  SAssert (CNot (CEq (XAttr (XVar 0) (u "info")) (XVal VNone)))];
t "models/test_asyncapi.py::TestAsyncAPI3.test_asyncapi3_validation/case_asyncapi_with_extensions" [SLet 0 (XNew "AsyncAPI3" (XVal (VDict [((u "asyncapi"), (VStr (u "3.0.0"))); ((u "info"), (VDict [((u "title"), (VStr (u "My App"))); ((u "version"), (VStr (u "1.0.0")))])); ((u "x-custom-extension"), (VStr (u "custom value"))); ((u "x-another-extension"), (VDict [((u "nested"), (VStr (u "value")))]))])));
  SAssert (CNot (CEq (XVar 0) (XVal VNone)));
  SAssert (CEq (XAttr (XVar 0) (u "asyncapi")) (XVal (VStr (u "3.0.0"))));
  SAssert (CNot (CEq (XAttr (XVar 0) (u "info")) (XVal VNone)))];
t "models/test_asyncapi.py::TestAsyncAPI3.test_asyncapi3_serialization/case_asyncapi_serialization_minimal" [SLet 0 (XNew "AsyncAPI3" (XDict [((u "info"), (XNew "Info" (XVal (VDict [((u "title"), (VStr (u "AsyncAPI Sample App"))); ((u "version"), (VStr (u "0.0.1")))]))))]));
  SLet 1 (XDump (XVar 0));
  SAssert (CEq (XVar 1) (XUnurl (XVal (VDict [((u "asyncapi"), (VStr (u "3.0.0"))); ((u "info"), (VDict [((u "title"), (VStr (u "AsyncAPI Sample App"))); ((u "version"), (VStr (u "0.0.1")))]))]))))];
t "models/test_asyncapi.py::TestAsyncAPI3.test_asyncapi3_serialization/case_asyncapi_serialization_with_servers" [SLet 0 (XNew "AsyncAPI3" (XDict [((u "info"), (XNew "Info" (XVal (VDict [((u "title"), (VStr (u "My App"))); ((u "version"), (VStr (u "1.0.0")))])))); ((u "servers"), (XDict [((u "production"), (XNew "Server" (XVal (VDict [((u "host"), (VStr (u "kafka.in.mycompany.com:9092"))); ((u "protocol"), (VStr (u "kafka")))]))))]))]));
  SLet 1 (XDump (XVar 0));
  SAssert (CEq (XVar 1) (XUnurl (XVal (VDict [((u "asyncapi"), (VStr (u "3.0.0"))); ((u "info"), (VDict [((u "title"), (VStr (u "My App"))); ((u "version"), (VStr (u "1.0.0")))])); ((u "servers"), (VDict [((u "production"), (VDict [((u "host"), (VStr (u "kafka.in.mycompany.com:9092"))); ((u "protocol"), (VStr (u "kafka")))]))]))]))))];
t "models/test_asyncapi.py::TestAsyncAPI3.test_asyncapi3_serialization/case_asyncapi_serialization_with_channels" [SLet 0 (XNew "AsyncAPI3" (XDict [((u "info"), (XNew "Info" (XVal (VDict [((u "title"), (VStr (u "My App"))); ((u "version"), (VStr (u "1.0.0")))])))); ((u "channels"), (XDict [((u "userSignedup"), (XNew "Channel" (XVal (VDict [((u "address"), (VStr (u "user/signedup")))]))))]))]));
  SLet 1 (XDump (XVar 0));
  SAssert (CEq (XVar 1) (XUnurl (XVal (VDict [((u "asyncapi"), (VStr (u "3.0.0"))); ((u "info"), (VDict [((u "title"), (VStr (u "My App"))); ((u "version"), (VStr (u "1.0.0")))])); ((u "channels"), (VDict [((u "userSignedup"), (VDict [((u "address"), (VStr (u "user/signedup")))]))]))]))))];
t "models/test_asyncapi.py::TestAsyncAPI3.test_asyncapi3_serialization/case_asyncapi_serialization_with_operations_ref" [SLet 0 (XNew "AsyncAPI3" (XDict [((u "info"), (XNew "Info" (XVal (VDict [((u "title"), (VStr (u "My App"))); ((u "version"), (VStr (u "1.0.0")))])))); ((u "channels"), (XDict [((u "userSignedup"), (XNew "Channel" (XVal (VDict [((u "address"), (VStr (u "user/signedup")))]))))])); ((u "operations"), (XDict [((u "sendUserSignedup"), (XNew "Operation" (XDict [((u "action"), (XVal (VStr (u "send")))); ((u "channel"), (XNew "Reference" (XVal (VDict [((u "ref"), (VStr (u "#/channels/userSignedup")))]))))])))]))]));
  SLet 1 (XDump (XVar 0));
  SAssert (CEq (XVar 1) (XUnurl (XVal (VDict [((u "asyncapi"), (VStr (u "3.0.0"))); ((u "info"), (VDict [((u "title"), (VStr (u "My App"))); ((u "version"), (VStr (u "1.0.0")))])); ((u "channels"), (VDict [((u "userSignedup"), (VDict [((u "address"), (VStr (u "user/signedup")))]))])); ((u "operations"), (VDict [((u "sendUserSignedup"), (VDict [((u "action"), (VStr (u "send"))); ((u "channel"), (VDict [((u "$ref"), (VStr (u "#/channels/userSignedup")))]))]))]))]))))];
t "models/test_asyncapi.py::TestAsyncAPI3.test_asyncapi3_serialization/case_asyncapi_serialization_with_operations_multiple" [SLet 0 (XNew "AsyncAPI3" (XDict [((u "info"), (XNew "Info" (XVal (VDict [((u "title"), (VStr (u "My App"))); ((u "version"), (VStr (u "1.0.0")))])))); ((u "channels"), (XDict [((u "userSignedup"), (XNew "Channel" (XVal (VDict [((u "address"), (VStr (u "user/signedup")))]))))])); ((u "operations"), (XDict [((u "sendUserSignedup"), (XNew "Operation" (XDict [((u "action"), (XVal (VStr (u "send")))); ((u "channel"), (XNew "Reference" (XVal (VDict [((u "ref"), (VStr (u "#/channels/userSignedup")))]))))]))); ((u "receiveUserSignedup"), (XNew "Operation" (XDict [((u "action"), (XVal (VStr (u "receive")))); ((u "channel"), (XNew "Reference" (XVal (VDict [((u "ref"), (VStr (u "#/channels/userSignedup")))]))))])))]))]));
  SLet 1 (XDump (XVar 0));
  SAssert (CEq (XVar 1) (XUnurl (XVal (VDict [((u "asyncapi"), (VStr (u "3.0.0"))); ((u "info"), (VDict [((u "title"), (VStr (u "My App"))); ((u "version"), (VStr (u "1.0.0")))])); ((u "channels"), (VDict [((u "userSignedup"), (VDict [((u "address"), (VStr (u "user/signedup")))]))])); ((u "operations"), (VDict [((u "sendUserSignedup"), (VDict [((u "action"), (VStr (u "send"))); ((u "channel"), (VDict [((u "$ref"), (VStr (u "#/channels/userSignedup")))]))])); ((u "receiveUserSignedup"), (VDict [((u "action"), (VStr (u "receive"))); ((u "channel"), (VDict [((u "$ref"), (VStr (u "#/channels/userSignedup")))]))]))]))]))))];
t "models/test_asyncapi.py::TestAsyncAPI3.test_asyncapi3_serialization/case_asyncapi_serialization_with_components" [SLet 0 (XNew "AsyncAPI3" (XDict [((u "info"), (XNew "Info" (XVal (VDict [((u "title"), (VStr (u "My App"))); ((u "version"), (VStr (u "1.0.0")))])))); ((u "components"), (XNew "Components" (XDict [((u "messages"), (XDict [((u "UserSignedUp"), (XNew "Message" (XDict [((u "payload"), (XNew "Schema" (XVal (VDict [((u "type"), (VStr (u "object")))]))))])))]))])))]));
  SLet 1 (XDump (XVar 0));
  SAssert (CEq (XVar 1) (XUnurl (XVal (VDict [((u "asyncapi"), (VStr (u "3.0.0"))); ((u "info"), (VDict [((u "title"), (VStr (u "My App"))); ((u "version"), (VStr (u "1.0.0")))])); ((u "components"), (VDict [((u "messages"), (VDict [((u "UserSignedUp"), (VDict [((u "payload"), (VDict [((u "type"), (VStr (u "object")))]))]))]))]))]))))];
t "models/test_asyncapi.py::TestAsyncAPI3.test_asyncapi3_serialization/case_asyncapi_serialization_with_id" [SLet 0 (XNew "AsyncAPI3" (XDict [((u "id"), (XNewAt (TUrl false) (XVal (VStr (u "https://example.com/my-api"))))); ((u "info"), (XNew "Info" (XVal (VDict [((u "title"), (VStr (u "My App"))); ((u "version"), (VStr (u "1.0.0")))]))))]));
  SLet 1 (XDump (XVar 0));
  SAssert (CEq (XVar 1) (XUnurl (XVal (VDict [((u "asyncapi"), (VStr (u "3.0.0"))); ((u "id"), (VStr (u "https://example.com/my-api"))); ((u "info"), (VDict [((u "title"), (VStr (u "My App"))); ((u "version"), (VStr (u "1.0.0")))]))]))))];
t "models/test_asyncapi.py::TestAsyncAPI3.test_asyncapi3_with_servers_validation" [SLet 0 (XNew "AsyncAPI3" (XVal (VDict [((u "asyncapi"), (VStr (u "3.0.0"))); ((u "info"), (VDict [((u "title"), (VStr (u "My App"))); ((u "version"), (VStr (u "1.0.0")))])); ((u "servers"), (VDict [((u "production"), (VDict [((u "host"), (VStr (u "kafka.in.mycompany.com:9092"))); ((u "protocol"), (VStr (u "kafka")))]))]))])));
  SAssert (CNot (CEq (XAttr (XVar 0) (u "servers")) (XVal VNone)));
  SAssert (CEq (XItem (XAttr (XVar 0) (u "servers")) (u "production")) (XNew "Server" (XVal (VDict [((u "host"), (VStr (u "kafka.in.mycompany.com:9092"))); ((u "protocol"), (VStr (u "kafka")))]))))];
t "models/test_asyncapi.py::TestAsyncAPI3.test_asyncapi3_with_channels_validation" [SLet 0 (XNew "AsyncAPI3" (XVal (VDict [((u "asyncapi"), (VStr (u "3.0.0"))); ((u "info"), (VDict [((u "title"), (VStr (u "My App"))); ((u "version"), (VStr (u "1.0.0")))])); ((u "channels"), (VDict [((u "userSignedup"), (VDict [((u "address"), (VStr (u "user/signedup")))]))]))])));
  SAssert (CNot (CEq (XAttr (XVar 0) (u "channels")) (XVal VNone)));
  SAssert (CIn (u "userSignedup") (XAttr (XVar 0) (u "channels")));
  SAssert (CEq (XAttr (XItem (XAttr (XVar 0) (u "channels")) (u "userSignedup")) (u "address")) (XVal (VStr (u "user/signedup"))))];
t "models/test_asyncapi.py::TestAsyncAPI3.test_asyncapi3_with_operations_validation" [SLet 0 (XNew "AsyncAPI3" (XVal (VDict [((u "asyncapi"), (VStr (u "3.0.0"))); ((u "info"), (VDict [((u "title"), (VStr (u "My App"))); ((u "version"), (VStr (u "1.0.0")))])); ((u "channels"), (VDict [((u "userSignedup"), (VDict [((u "address"), (VStr (u "user/signedup")))]))])); ((u "operations"), (VDict [((u "sendUserSignedup"), (VDict [((u "action"), (VStr (u "send"))); ((u "channel"), (VDict [((u "$ref"), (VStr (u "#/channels/userSignedup")))]))]))]))])));
  SAssert (CNot (CEq (XAttr (XVar 0) (u "operations")) (XVal VNone)));
  SAssert (CIn (u "sendUserSignedup") (XAttr (XVar 0) (u "operations")));
  SAssert (CEq (XAttr (XItem (XAttr (XVar 0) (u "operations")) (u "sendUserSignedup")) (u "action")) (XVal (VStr (u "send"))))];
t "models/test_asyncapi.py::TestAsyncAPI3.test_asyncapi3_with_components_validation" [SLet 0 (XNew "AsyncAPI3" (XVal (VDict [((u "asyncapi"), (VStr (u "3.0.0"))); ((u "info"), (VDict [((u "title"), (VStr (u "My App"))); ((u "version"), (VStr (u "1.0.0")))])); ((u "components"), (VDict [((u "messages"), (VDict [((u "UserSignedUp"), (VDict [((u "payload"), (VDict [((u "type"), (VStr (u "object")))]))]))]))]))])));
  SAssert (CNot (CEq (XAttr (XVar 0) (u "components")) (XVal VNone)));
  SAssert (CNot (CEq (XAttr (XAttr (XVar 0) (u "components")) (u "messages")) (XVal VNone)));
  SAssert (CIn (u "UserSignedUp") (XAttr (XAttr (XVar 0) (u "components")) (u "messages")))];
t "models/test_asyncapi.py::TestAsyncAPI3.test_asyncapi3_validation_errors/case_asyncapi_invalid_version" [SRaises [SDo (XNew "AsyncAPI3" (XVal (VDict [((u "asyncapi"), (VStr (u "invalid.version"))); ((u "info"), (VDict [((u "title"), (VStr (u "My App"))); ((u "version"), (VStr (u "1.0.0")))]))])))] [(u "asyncapi must be in semantic versioning format: major.minor.patch[-suffix]")]];
t "models/test_asyncapi.py::TestAsyncAPI3.test_asyncapi3_validation_errors/case_asyncapi_invalid_id" [SRaises [SDo (XNew "AsyncAPI3" (XVal (VDict [((u "asyncapi"), (VStr (u "3.0.0"))); ((u "id"), (VStr (u "not-a-valid-uri"))); ((u "info"), (VDict [((u "title"), (VStr (u "My App"))); ((u "version"), (VStr (u "1.0.0")))]))])))] [(u "Input should be")]];
t "models/test_asyncapi.py::TestAsyncAPI3.test_asyncapi3_validation_errors/case_asyncapi_unsupported_version" [SRaises [SDo (XNew "AsyncAPI3" (XVal (VDict [((u "asyncapi"), (VStr (u "2.6.0"))); ((u "info"), (VDict [((u "title"), (VStr (u "My App"))); ((u "version"), (VStr (u "1.0.0")))]))])))] [(u "asyncapi version 2.6.0 is not supported. This application only supports AsyncAPI 3.x.x versions")]];
t "models/test_asyncapi.py::TestAsyncAPI3.test_asyncapi3_extensions_validation" [SLet 0 (XNew "AsyncAPI3" (XVal (VDict [((u "asyncapi"), (VStr (u "3.0.0"))); ((u "info"), (VDict [((u "title"), (VStr (u "My App"))); ((u "version"), (VStr (u "1.0.0")))])); ((u "x-custom-extension"), (VStr (u "custom value"))); ((u "x-another-extension"), (VDict [((u "nested"), (VStr (u "value")))]))])));
  SAssert (CNot (CEq (XExtra (XVar 0)) (XVal VNone)));
  SAssert (CIn (u "x-custom-extension") (XExtra (XVar 0)));
  SAssert (CEq (XItem (XExtra (XVar 0)) (u "x-custom-extension")) (XVal (VStr (u "custom value"))));
  SAssert (CIn (u "x-another-extension") (XExtra (XVar 0)));
  SAssert (CEq (XItem (XExtra (XVar 0)) (u "x-another-extension")) (XVal (VDict [((u "nested"), (VStr (u "value")))])))];
t "models/test_asyncapi.py::TestAsyncAPI3.test_as_builder_parameter_override" [SLet 0 (XNew "Server" (XVal (VDict [((u "host"), (VStr (u "kafka.example.com"))); ((u "protocol"), (VStr (u "kafka")))])));
  SLet 1 (XNew "Channel" (XVal (VDict [((u "address"), (VStr (u "test/channel")))])));
  SLet 2 (XNew "Operation" (XDict [((u "action"), (XVal (VStr (u "send")))); ((u "channel"), (XNew "Reference" (XVal (VDict [((u "ref"), (VStr (u "#/channels/test")))]))))]));
  SLet 3 (XNew "Components" (XDict [((u "messages"), (XDict [((u "test_msg"), (XNew "Message" (XDict [((u "payload"), (XNew "Schema" (XVal (VDict [((u "type"), (VStr (u "string")))]))))])))]))]));
  SLet 4 (XBuilder [((u "title"), (XVal (VStr (u "Custom Title")))); ((u "version"), (XVal (VStr (u "2.0.0")))); ((u "description"), (XVal (VStr (u "Custom description"))))] [((u "asyncapi"), (XVal (VStr (u "3.0.1")))); ((u "servers"), (XDict [((u "prod"), (XVar 0))])); ((u "channels"), (XDict [((u "test"), (XVar 1))])); ((u "operations"), (XDict [((u "test_op"), (XVar 2))])); ((u "components"), (XVar 3)); ((u "default_content_type"), (XVal (VStr (u "application/xml"))))]);
  SAssert (CEq (XAttr (XVar 4) (u "asyncapi")) (XVal (VStr (u "3.0.1"))));
  SAssert (CEq (XAttr (XAttr (XVar 4) (u "info")) (u "title")) (XVal (VStr (u "Custom Title"))));
  SAssert (CEq (XAttr (XAttr (XVar 4) (u "info")) (u "version")) (XVal (VStr (u "2.0.0"))));
  SAssert (CEq (XAttr (XAttr (XVar 4) (u "info")) (u "description")) (XVal (VStr (u "Custom description"))));
  SAssert (CEq (XAttr (XVar 4) (u "default_content_type")) (XVal (VStr (u "application/xml"))));
  SAssert (CEq (XLen (XAttr (XAttr (XVar 4) (u "servers")) (u "root"))) (XVal (VInt (1)%Z)));
  SAssert (CIn (u "prod") (XAttr (XAttr (XVar 4) (u "servers")) (u "root")));
  SAssert (CEq (XAttr (XItem (XAttr (XAttr (XVar 4) (u "servers")) (u "root")) (u "prod")) (u "host")) (XVal (VStr (u "kafka.example.com"))));
  SAssert (CEq (XLen (XAttr (XAttr (XVar 4) (u "channels")) (u "root"))) (XVal (VInt (1)%Z)));
  SAssert (CIn (u "test") (XAttr (XAttr (XVar 4) (u "channels")) (u "root")));
  SAssert (CEq (XAttr (XItem (XAttr (XAttr (XVar 4) (u "channels")) (u "root")) (u "test")) (u "address")) (XVal (VStr (u "test/channel"))));
  SAssert (CEq (XLen (XAttr (XAttr (XVar 4) (u "operations")) (u "root"))) (XVal (VInt (1)%Z)));
  SAssert (CIn (u "test_op") (XAttr (XAttr (XVar 4) (u "operations")) (u "root")));
  SAssert (CEq (XAttr (XItem (XAttr (XAttr (XVar 4) (u "operations")) (u "root")) (u "test_op")) (u "action")) (XVal (VStr (u "send"))));
  SAssert (CNot (CEq (XAttr (XAttr (XVar 4) (u "components")) (u "messages")) (XVal VNone)));
  SAssert (CIn (u "test_msg") (XAttr (XAttr (XVar 4) (u "components")) (u "messages")));
  SAssert (CEq (XAttr (XAttr (XItem (XAttr (XAttr (XVar 4) (u "components")) (u "messages")) (u "test_msg")) (u "payload")) (u "type")) (XVal (VStr (u "string"))))];
t "models/test_base.py::TestReference.test_reference_validation/case_reference_basic" [SLet 0 (XNew "Reference" (XVal (VDict [((u "$ref"), (VStr (u "#/components/schemas/Pet")))])));
  SAssert (CNot (CEq (XVar 0) (XVal VNone)));
  SAssert (CStarts (XAttr (XVar 0) (u "ref")) (u "#/"))];
t "models/test_base.py::TestReference.test_reference_validation/case_reference_components" [SLet 0 (XNew "Reference" (XVal (VDict [((u "$ref"), (VStr (u "#/components/messages/userSignUp")))])));
  SAssert (CNot (CEq (XVar 0) (XVal VNone)));
  SAssert (CStarts (XAttr (XVar 0) (u "ref")) (u "#/"))];
t "models/test_base.py::TestReference.test_reference_serialization/case_reference_serialization_basic" [SLet 0 (XNew "Reference" (XVal (VDict [((u "ref"), (VStr (u "#/components/schemas/Pet")))])));
  SLet 1 (XDump (XVar 0));
  SAssert (CEq (XVar 1) (XUnurl (XVal (VDict [((u "$ref"), (VStr (u "#/components/schemas/Pet")))]))))];
t "models/test_base.py::TestReference.test_reference_serialization/case_reference_serialization_components" [SLet 0 (XNew "Reference" (XVal (VDict [((u "ref"), (VStr (u "#/components/messages/userSignUp")))])));
  SLet 1 (XDump (XVar 0));
  SAssert (CEq (XVar 1) (XUnurl (XVal (VDict [((u "$ref"), (VStr (u "#/components/messages/userSignUp")))]))))];
t "models/test_base.py::TestReference.test_reference_forbids_extra_fields" [SRaises [SDo (XNew "Reference" (XVal (VDict [((u "$ref"), (VStr (u "#/components/schemas/Pet"))); ((u "extra_field"), (VStr (u "should_fail")))])))] [(u "Extra inputs are not permitted")]];
t "models/test_base.py::TestReference.test_to_root_server_name" [SLet 0 (XFactory "to_root_server_name" (XVal (VStr (u "production"))));
  SAssert (CIs (XVar 0) ["Reference"]);
  SAssert (CEq (XAttr (XVar 0) (u "ref")) (XVal (VStr (u "#/servers/production"))))];
t "models/test_base.py::TestReference.test_to_root_channel_name" [SLet 0 (XFactory "to_root_channel_name" (XVal (VStr (u "userSignup"))));
  SAssert (CIs (XVar 0) ["Reference"]);
  SAssert (CEq (XAttr (XVar 0) (u "ref")) (XVal (VStr (u "#/channels/userSignup"))))];
t "models/test_base.py::TestReference.test_to_root_operation_name" [SLet 0 (XFactory "to_root_operation_name" (XVal (VStr (u "sendMessage"))));
  SAssert (CIs (XVar 0) ["Reference"]);
  SAssert (CEq (XAttr (XVar 0) (u "ref")) (XVal (VStr (u "#/operations/sendMessage"))))];
t "models/test_base.py::TestReference.test_to_component_schema_name" [SLet 0 (XFactory "to_component_schema_name" (XVal (VStr (u "Pet"))));
  SAssert (CIs (XVar 0) ["Reference"]);
  SAssert (CEq (XAttr (XVar 0) (u "ref")) (XVal (VStr (u "#/components/schemas/Pet"))))];
t "models/test_base.py::TestReference.test_to_component_server_name" [SLet 0 (XFactory "to_component_server_name" (XVal (VStr (u "production"))));
  SAssert (CIs (XVar 0) ["Reference"]);
  SAssert (CEq (XAttr (XVar 0) (u "ref")) (XVal (VStr (u "#/components/servers/production"))))];
t "models/test_base.py::TestReference.test_to_component_channel_name" [SLet 0 (XFactory "to_component_channel_name" (XVal (VStr (u "userSignup"))));
  SAssert (CIs (XVar 0) ["Reference"]);
  SAssert (CEq (XAttr (XVar 0) (u "ref")) (XVal (VStr (u "#/components/channels/userSignup"))))];
t "models/test_base.py::TestReference.test_to_component_operation_name" [SLet 0 (XFactory "to_component_operation_name" (XVal (VStr (u "sendMessage"))));
  SAssert (CIs (XVar 0) ["Reference"]);
  SAssert (CEq (XAttr (XVar 0) (u "ref")) (XVal (VStr (u "#/components/operations/sendMessage"))))];
t "models/test_base.py::TestReference.test_to_component_message_name" [SLet 0 (XFactory "to_component_message_name" (XVal (VStr (u "userSignUp"))));
  SAssert (CIs (XVar 0) ["Reference"]);
  SAssert (CEq (XAttr (XVar 0) (u "ref")) (XVal (VStr (u "#/components/messages/userSignUp"))))];
t "models/test_base.py::TestReference.test_to_component_security_scheme_name" [SLet 0 (XFactory "to_component_security_scheme_name" (XVal (VStr (u "oauth2"))));
  SAssert (CIs (XVar 0) ["Reference"]);
  SAssert (CEq (XAttr (XVar 0) (u "ref")) (XVal (VStr (u "#/components/securitySchemes/oauth2"))))];
t "models/test_base.py::TestReference.test_to_component_server_variable_name" [SLet 0 (XFactory "to_component_server_variable_name" (XVal (VStr (u "port"))));
  SAssert (CIs (XVar 0) ["Reference"]);
  SAssert (CEq (XAttr (XVar 0) (u "ref")) (XVal (VStr (u "#/components/serverVariables/port"))))];
t "models/test_base.py::TestReference.test_to_component_parameter_name" [SLet 0 (XFactory "to_component_parameter_name" (XVal (VStr (u "userId"))));
  SAssert (CIs (XVar 0) ["Reference"]);
  SAssert (CEq (XAttr (XVar 0) (u "ref")) (XVal (VStr (u "#/components/parameters/userId"))))];
t "models/test_base.py::TestReference.test_to_component_correlation_id_name" [SLet 0 (XFactory "to_component_correlation_id_name" (XVal (VStr (u "defaultCorrelationId"))));
  SAssert (CIs (XVar 0) ["Reference"]);
  SAssert (CEq (XAttr (XVar 0) (u "ref")) (XVal (VStr (u "#/components/correlationIds/defaultCorrelationId"))))]].
Definition part1 : list (string * list stmt) := [
t "models/test_base.py::TestReference.test_to_component_reply_name" [SLet 0 (XFactory "to_component_reply_name" (XVal (VStr (u "successReply"))));
  SAssert (CIs (XVar 0) ["Reference"]);
  SAssert (CEq (XAttr (XVar 0) (u "ref")) (XVal (VStr (u "#/components/replies/successReply"))))];
t "models/test_base.py::TestReference.test_to_component_reply_address_name" [SLet 0 (XFactory "to_component_reply_address_name" (XVal (VStr (u "responseAddress"))));
  SAssert (CIs (XVar 0) ["Reference"]);
  SAssert (CEq (XAttr (XVar 0) (u "ref")) (XVal (VStr (u "#/components/replyAddresses/responseAddress"))))];
t "models/test_base.py::TestReference.test_to_component_external_doc_name" [SLet 0 (XFactory "to_component_external_doc_name" (XVal (VStr (u "apiDocs"))));
  SAssert (CIs (XVar 0) ["Reference"]);
  SAssert (CEq (XAttr (XVar 0) (u "ref")) (XVal (VStr (u "#/components/externalDocs/apiDocs"))))];
t "models/test_base.py::TestReference.test_to_component_tag_name" [SLet 0 (XFactory "to_component_tag_name" (XVal (VStr (u "deprecated"))));
  SAssert (CIs (XVar 0) ["Reference"]);
  SAssert (CEq (XAttr (XVar 0) (u "ref")) (XVal (VStr (u "#/components/tags/deprecated"))))];
t "models/test_base.py::TestReference.test_to_component_operation_trait_name" [SLet 0 (XFactory "to_component_operation_trait_name" (XVal (VStr (u "authenticatedOperation"))));
  SAssert (CIs (XVar 0) ["Reference"]);
  SAssert (CEq (XAttr (XVar 0) (u "ref")) (XVal (VStr (u "#/components/operationTraits/authenticatedOperation"))))];
t "models/test_base.py::TestReference.test_to_component_message_trait_name" [SLet 0 (XFactory "to_component_message_trait_name" (XVal (VStr (u "envelopedMessage"))));
  SAssert (CIs (XVar 0) ["Reference"]);
  SAssert (CEq (XAttr (XVar 0) (u "ref")) (XVal (VStr (u "#/components/messageTraits/envelopedMessage"))))];
t "models/test_base.py::TestReference.test_to_component_server_binding_name" [SLet 0 (XFactory "to_component_server_binding_name" (XVal (VStr (u "mqttBinding"))));
  SAssert (CIs (XVar 0) ["Reference"]);
  SAssert (CEq (XAttr (XVar 0) (u "ref")) (XVal (VStr (u "#/components/serverBindings/mqttBinding"))))];
t "models/test_base.py::TestReference.test_to_component_channel_binding_name" [SLet 0 (XFactory "to_component_channel_binding_name" (XVal (VStr (u "kafkaBinding"))));
  SAssert (CIs (XVar 0) ["Reference"]);
  SAssert (CEq (XAttr (XVar 0) (u "ref")) (XVal (VStr (u "#/components/channelBindings/kafkaBinding"))))];
t "models/test_base.py::TestReference.test_to_component_operation_binding_name" [SLet 0 (XFactory "to_component_operation_binding_name" (XVal (VStr (u "httpBinding"))));
  SAssert (CIs (XVar 0) ["Reference"]);
  SAssert (CEq (XAttr (XVar 0) (u "ref")) (XVal (VStr (u "#/components/operationBindings/httpBinding"))))];
t "models/test_base.py::TestReference.test_to_component_message_binding_name" [SLet 0 (XFactory "to_component_message_binding_name" (XVal (VStr (u "amqpBinding"))));
  SAssert (CIs (XVar 0) ["Reference"]);
  SAssert (CEq (XAttr (XVar 0) (u "ref")) (XVal (VStr (u "#/components/messageBindings/amqpBinding"))))];
t "models/test_base.py::TestReference.test_reference_hash" [SLet 0 (XNew "Reference" (XVal (VDict [((u "ref"), (VStr (u "#/components/schemas/Pet")))])));
  SLet 1 (XNew "Reference" (XVal (VDict [((u "ref"), (VStr (u "#/components/schemas/Pet")))])));
  SLet 2 (XNew "Reference" (XVal (VDict [((u "ref"), (VStr (u "#/components/schemas/User")))])));
  SAssert (CEq (XHash (XVar 0)) (XHash (XVar 1)));
  SAssert (CNot (CEq (XHash (XVar 0)) (XHash (XVar 2))));
  SAssert (CEq (XHash (XVar 0)) (XHash (XVal (VStr (u "#/components/schemas/Pet")))));
  SAssert (CEq (XHash (XVar 2)) (XHash (XVal (VStr (u "#/components/schemas/User")))))];
t "models/test_base.py::TestExternalDocumentation.test_external_documentation_validation/case_external_docs_basic" [SLet 0 (XNew "ExternalDocumentation" (XVal (VDict [((u "url"), (VStr (u "https://example.com")))])));
  SAssert (CNot (CEq (XVar 0) (XVal VNone)));
  SAssert (CEq (XStr (XAttr (XVar 0) (u "url"))) (XVal (VStr (u "https://example.com/"))))];
t "models/test_base.py::TestExternalDocumentation.test_external_documentation_validation/case_external_docs_full" [SLet 0 (XNew "ExternalDocumentation" (XVal (VDict [((u "description"), (VStr (u "Find more info here"))); ((u "url"), (VStr (u "https://example.com")))])));
  SAssert (CNot (CEq (XVar 0) (XVal VNone)));
  SAssert (CEq (XStr (XAttr (XVar 0) (u "url"))) (XVal (VStr (u "https://example.com/"))))];
t "models/test_base.py::TestExternalDocumentation.test_external_documentation_serialization/case_external_docs_serialization_basic" [SLet 0 (XNew "ExternalDocumentation" (XVal (VDict [((u "url"), (VStr (u "https://example.com")))])));
  SLet 1 (XDump (XVar 0));
  SAssert (CEq (XVar 1) (XUnurl (XDict [((u "url"), (XNewAt (TUrl false) (XVal (VStr (u "https://example.com/")))))])))];
t "models/test_base.py::TestExternalDocumentation.test_external_documentation_serialization/case_external_docs_serialization_full" [SLet 0 (XNew "ExternalDocumentation" (XVal (VDict [((u "url"), (VStr (u "https://example.com"))); ((u "description"), (VStr (u "Find more info here")))])));
  SLet 1 (XDump (XVar 0));
  SAssert (CEq (XVar 1) (XUnurl (XDict [((u "url"), (XNewAt (TUrl false) (XVal (VStr (u "https://example.com/"))))); ((u "description"), (XVal (VStr (u "Find more info here"))))])))];
t "models/test_base.py::TestExternalDocumentation.test_external_documentation_inherit_from_extendable_base_model" [SAssert (CIs (XNew "ExternalDocumentation" (XVal (VDict [((u "url"), (VStr (u "https://example.com")))]))) ["MessageExample"; "MessageTrait"; "Message"; "ExternalDocumentation"; "Tag"; "AsyncAPI3"; "Parameter"; "Channel"; "Components"; "OperationReplyAddress"; "OperationReply"; "OperationTrait"; "Operation"; "CorrelationID"; "OAuthFlow"; "OAuthFlows"; "SecurityScheme"; "ServerVariable"; "Server"; "Contact"; "License"; "Info"; "ServerBindingsObject"; "ChannelBindingsObject"; "OperationBindingsObject"; "MessageBindingsObject"])];
t "models/test_base.py::TestExternalDocumentation.test_external_documentation_valid_extensions" [SLet 0 (XNew "ExternalDocumentation" (XVal (VDict [((u "url"), (VStr (u "https://example.com"))); ((u "description"), (VStr (u "Test documentation"))); ((u "x-custom-extension"), (VStr (u "custom value"))); ((u "x-vendor-specific"), (VInt (123)%Z)); ((u "x-detailed.info"), (VBool true))])));
  SAssert (CNot (CEq (XExtra (XVar 0)) (XVal VNone)));
  SAssert (CEq (XItem (XExtra (XVar 0)) (u "x-custom-extension")) (XVal (VStr (u "custom value"))));
  SAssert (CEq (XItem (XExtra (XVar 0)) (u "x-vendor-specific")) (XVal (VInt (123)%Z)));
  SAssert (CEq (XItem (XExtra (XVar 0)) (u "x-detailed.info")) (XVal (VBool true)));
  SLet 1 (XDump (XVar 0));
  SAssert (CIn (u "x-custom-extension") (XVar 1));
  SAssert (CIn (u "x-vendor-specific") (XVar 1));
  SAssert (CIn (u "x-detailed.info") (XVar 1))];
t "models/test_base.py::TestExternalDocumentation.test_external_documentation_invalid_extensions" [SRaises [SDo (XNew "ExternalDocumentation" (XVal (VDict [((u "url"), (VStr (u "https://example.com"))); ((u "invalid-extension"), (VStr (u "should fail"))); ((u "x-invalid_extension"), (VStr (u "underscore not allowed")))])))] [(u "does not match specification extension pattern")]];
t "models/test_base.py::TestTag.test_tag_validation/case_tag_basic" [SLet 0 (XNew "Tag" (XVal (VDict [((u "name"), (VStr (u "user")))])));
  SAssert (CNot (CEq (XVar 0) (XVal VNone)));
  SAssert (COr (CEq (XAttr (XVar 0) (u "name")) (XVal (VStr (u "user")))) (CEq (XAttr (XVar 0) (u "name")) (XVal (VStr (u "e-commerce")))))];
t "models/test_base.py::TestTag.test_tag_validation/case_tag_full" [SLet 0 (XNew "Tag" (XVal (VDict [((u "name"), (VStr (u "user"))); ((u "description"), (VStr (u "User-related messages")))])));
  SAssert (CNot (CEq (XVar 0) (XVal VNone)));
  SAssert (COr (CEq (XAttr (XVar 0) (u "name")) (XVal (VStr (u "user")))) (CEq (XAttr (XVar 0) (u "name")) (XVal (VStr (u "e-commerce")))))];
t "models/test_base.py::TestTag.test_tag_validation/case_tag_with_external_docs" [SLet 0 (XNew "Tag" (XVal (VDict [((u "name"), (VStr (u "e-commerce"))); ((u "description"), (VStr (u "E-commerce related messages"))); ((u "externalDocs"), (VDict [((u "description"), (VStr (u "Find more info here"))); ((u "url"), (VStr (u "https://example.com")))]))])));
  SAssert (CNot (CEq (XVar 0) (XVal VNone)));
  SAssert (COr (CEq (XAttr (XVar 0) (u "name")) (XVal (VStr (u "user")))) (CEq (XAttr (XVar 0) (u "name")) (XVal (VStr (u "e-commerce")))))];
t "models/test_base.py::TestTag.test_tag_serialization/case_tag_serialization_basic" [SLet 0 (XNew "Tag" (XVal (VDict [((u "name"), (VStr (u "user")))])));
  SLet 1 (XDump (XVar 0));
  SAssert (CEq (XVar 1) (XUnurl (XVal (VDict [((u "name"), (VStr (u "user")))]))))];
t "models/test_base.py::TestTag.test_tag_serialization/case_tag_serialization_full" [SLet 0 (XNew "Tag" (XVal (VDict [((u "name"), (VStr (u "user"))); ((u "description"), (VStr (u "User-related messages")))])));
  SLet 1 (XDump (XVar 0));
  SAssert (CEq (XVar 1) (XUnurl (XVal (VDict [((u "name"), (VStr (u "user"))); ((u "description"), (VStr (u "User-related messages")))]))))];
t "models/test_base.py::TestTag.test_tag_serialization/case_tag_serialization_with_external_docs" [SLet 0 (XNew "Tag" (XDict [((u "name"), (XVal (VStr (u "e-commerce")))); ((u "description"), (XVal (VStr (u "E-commerce related messages")))); ((u "external_docs"), (XNew "ExternalDocumentation" (XVal (VDict [((u "url"), (VStr (u "https://example.com"))); ((u "description"), (VStr (u "Find more info here")))]))))]));
  SLet 1 (XDump (XVar 0));
  SAssert (CEq (XVar 1) (XUnurl (XDict [((u "name"), (XVal (VStr (u "e-commerce")))); ((u "description"), (XVal (VStr (u "E-commerce related messages")))); ((u "externalDocs"), (XDict [((u "url"), (XNewAt (TUrl false) (XVal (VStr (u "https://example.com/"))))); ((u "description"), (XVal (VStr (u "Find more info here"))))]))])))];
t "models/test_base.py::TestTag.test_tag_serialization/case_tag_serialization_with_reference_external_docs" [SLet 0 (XNew "Tag" (XDict [((u "name"), (XVal (VStr (u "user")))); ((u "external_docs"), (XNew "Reference" (XVal (VDict [((u "ref"), (VStr (u "#/components/externalDocs/infoDocs")))]))))]));
  SLet 1 (XDump (XVar 0));
  SAssert (CEq (XVar 1) (XUnurl (XVal (VDict [((u "name"), (VStr (u "user"))); ((u "externalDocs"), (VDict [((u "$ref"), (VStr (u "#/components/externalDocs/infoDocs")))]))]))))];
t "models/test_base.py::TestTag.test_tag_with_external_docs_validation" [SLet 0 (XNew "Tag" (XVal (VDict [((u "name"), (VStr (u "e-commerce"))); ((u "description"), (VStr (u "E-commerce related messages"))); ((u "externalDocs"), (VDict [((u "description"), (VStr (u "Find more info here"))); ((u "url"), (VStr (u "https://example.com")))]))])));
  SAssert (CEq (XAttr (XVar 0) (u "name")) (XVal (VStr (u "e-commerce"))));
  SAssert (CEq (XAttr (XVar 0) (u "description")) (XVal (VStr (u "E-commerce related messages"))));
  SAssert (CNot (CEq (XAttr (XVar 0) (u "external_docs")) (XVal VNone)));
  SAssert (CIs (XAttr (XVar 0) (u "external_docs")) ["ExternalDocumentation"]);
  SAssert (CEq (XStr (XAttr (XAttr (XVar 0) (u "external_docs")) (u "url"))) (XVal (VStr (u "https://example.com/"))));
  SAssert (CEq (XAttr (XAttr (XVar 0) (u "external_docs")) (u "description")) (XVal (VStr (u "Find more info here"))))];
t "models/test_base.py::TestTag.test_tag_with_reference_external_docs_validation" [SLet 0 (XNew "Tag" (XVal (VDict [((u "name"), (VStr (u "user"))); ((u "externalDocs"), (VDict [((u "$ref"), (VStr (u "#/components/externalDocs/infoDocs")))]))])));
  SAssert (CEq (XAttr (XVar 0) (u "name")) (XVal (VStr (u "user"))));
  SAssert (CNot (CEq (XAttr (XVar 0) (u "external_docs")) (XVal VNone)));
  SAssert (CIs (XAttr (XVar 0) (u "external_docs")) ["Reference"]);
  SAssert (CEq (XAttr (XAttr (XVar 0) (u "external_docs")) (u "ref")) (XVal (VStr (u "#/components/externalDocs/infoDocs"))))];
t "models/test_base.py::TestTag.test_tag_inherit_from_extendable_base_model" [SAssert (CIs (XNew "Tag" (XVal (VDict [((u "name"), (VStr (u "test")))]))) ["MessageExample"; "MessageTrait"; "Message"; "ExternalDocumentation"; "Tag"; "AsyncAPI3"; "Parameter"; "Channel"; "Components"; "OperationReplyAddress"; "OperationReply"; "OperationTrait"; "Operation"; "CorrelationID"; "OAuthFlow"; "OAuthFlows"; "SecurityScheme"; "ServerVariable"; "Server"; "Contact"; "License"; "Info"; "ServerBindingsObject"; "ChannelBindingsObject"; "OperationBindingsObject"; "MessageBindingsObject"])];
t "models/test_base.py::TestTag.test_tag_valid_extensions" [SLet 0 (XNew "Tag" (XVal (VDict [((u "name"), (VStr (u "user"))); ((u "description"), (VStr (u "User-related messages"))); ((u "x-workflow-id"), (VStr (u "wf-123"))); ((u "x-metadata"), (VDict [((u "key"), (VStr (u "value")))])); ((u "x-category"), (VStr (u "events")))])));
  SAssert (CNot (CEq (XExtra (XVar 0)) (XVal VNone)));
  SAssert (CEq (XItem (XExtra (XVar 0)) (u "x-workflow-id")) (XVal (VStr (u "wf-123"))));
  SAssert (CEq (XItem (XExtra (XVar 0)) (u "x-metadata")) (XVal (VDict [((u "key"), (VStr (u "value")))])));
  SAssert (CEq (XItem (XExtra (XVar 0)) (u "x-category")) (XVal (VStr (u "events"))))];
t "models/test_base.py::TestTag.test_tag_invalid_extensions" [SRaises [SDo (XNew "Tag" (XVal (VDict [((u "name"), (VStr (u "user"))); ((u "not-x-prefix"), (VStr (u "invalid"))); ((u "x-invalid@symbol"), (VStr (u "invalid char")))])))] [(u "does not match specification extension pattern")]];
t "models/test_base_models.py::TestExtendableBaseModel.test_extendable_model_allows_valid_extensions" [SLet 0 (XNewAt (TModel "TestModel" KExt [(fld "name" "name" None false false FvNone, (TStr None))]) (XVal (VDict [((u "name"), (VStr (u "test"))); ((u "x-custom-field"), (VStr (u "value"))); ((u "x-internal-id"), (VInt (123)%Z)); ((u "x-more-extension"), (VBool true))])));
  SAssert (CEq (XAttr (XVar 0) (u "name")) (XVal (VStr (u "test"))));
  SAssert (CEq (XExtra (XVar 0)) (XVal (VDict [((u "x-custom-field"), (VStr (u "value"))); ((u "x-internal-id"), (VInt (123)%Z)); ((u "x-more-extension"), (VBool true))])))];
t "models/test_base_models.py::TestExtendableBaseModel.test_extendable_model_rejects_invalid_extensions" [SRaises [SDo (XNewAt (TModel "TestModel" KExt [(fld "name" "name" None false false FvNone, (TStr None))]) (XVal (VDict [((u "name"), (VStr (u "test"))); ((u "custom-field"), (VStr (u "value"))); ((u "y-extension"), (VStr (u "invalid")))])))] [(u "does not match specification extension pattern")]];
t "models/test_base_models.py::TestExtendableBaseModel.test_extendable_model_empty_extensions" [SLet 0 (XNewAt (TModel "TestModel" KExt [(fld "name" "name" None false false FvNone, (TStr None))]) (XVal (VDict [((u "name"), (VStr (u "test")))])));
  SAssert (CEq (XAttr (XVar 0) (u "name")) (XVal (VStr (u "test"))));
  SAssert (COr (CEq (XExtra (XVar 0)) (XVal VNone)) (CEq (XLen (XExtra (XVar 0))) (XVal (VInt (0)%Z))))];
t "models/test_base_models.py::TestNonExtendableBaseModel.test_non_extendable_model_forbids_extra_fields" [SRaises [SDo (XNewAt (TModel "TestModel" KForbid [(fld "name" "name" None false false FvNone, (TStr None))]) (XVal (VDict [((u "name"), (VStr (u "test"))); ((u "extra_field"), (VStr (u "value")))])))] []];
t "models/test_base_models.py::TestNonExtendableBaseModel.test_non_extendable_model_allows_defined_fields_only" [SLet 0 (XNewAt (TModel "TestModel" KForbid [(fld "name" "name" None false false FvNone, (TStr None)); (fld "value" "value" None false false FvNone, TInt)]) (XVal (VDict [((u "name"), (VStr (u "test"))); ((u "value"), (VInt (42)%Z))])));
  SAssert (CEq (XAttr (XVar 0) (u "name")) (XVal (VStr (u "test"))));
  SAssert (CEq (XAttr (XVar 0) (u "value")) (XVal (VInt (42)%Z)))];
t "models/test_base_models.py::TestNonExtendableBaseModel.test_non_extendable_model_python_validation_error" [SRaises [SDo (XNewAt (TModel "TestModel" KForbid [(fld "name" "name" None false false FvNone, (TStr None))]) (XVal (VDict [((u "name"), (VStr (u "test"))); ((u "extra_field"), (VStr (u "value")))])))] []];
t "models/test_base_models.py::TestPatternedRootModel.test_patterned_object_valid_keys" [SLet 0 (XNewAt (TRoot "TestObject" (TStr None)) (XVal (VDict [((u "user"), (VStr (u "value1"))); ((u "user123"), (VStr (u "value2"))); ((u "user-name"), (VStr (u "value3"))); ((u "user_name"), (VStr (u "value4")))])));
  SAssert (CEq (XAttr (XVar 0) (u "root")) (XVal (VDict [((u "user"), (VStr (u "value1"))); ((u "user123"), (VStr (u "value2"))); ((u "user-name"), (VStr (u "value3"))); ((u "user_name"), (VStr (u "value4")))])));
  SAssert (CEq (XLen (XAttr (XVar 0) (u "root"))) (XVal (VInt (4)%Z)))];
t "models/test_base_models.py::TestPatternedRootModel.test_patterned_object_invalid_keys/0" [SRaises [SDo (XNewAt (TRoot "TestObject" (TStr None)) (XVal (VDict [((u "user id"), (VStr (u "value1")))])))] [(u "Field 'user id' does not match")]];
t "models/test_base_models.py::TestPatternedRootModel.test_patterned_object_invalid_keys/1" [SRaises [SDo (XNewAt (TRoot "TestObject" (TStr None)) (XVal (VDict [((u "user@id"), (VStr (u "value1")))])))] [(u "Field 'user@id' does not match")]];
t "models/test_base_models.py::TestPatternedRootModel.test_patterned_object_invalid_keys/2" [SRaises [SDo (XNewAt (TRoot "TestObject" (TStr None)) (XVal (VDict [((u "user(id)"), (VStr (u "value1")))])))] [(u "Field 'user(id)' does not match")]]].
Definition part2 : list (string * list stmt) := [
t "models/test_base_models.py::TestPatternedRootModel.test_patterned_object_invalid_keys/3" [SRaises [SDo (XNewAt (TRoot "TestObject" (TStr None)) (XVal (VDict [((u "user.id"), (VStr (u "value1")))])))] [(u "Field 'user.id' does not match")]];
t "models/test_base_models.py::TestPatternedRootModel.test_patterned_object_iteration" [SLet 0 (XNewAt (TRoot "TestObject" (TStr None)) (XVal (VDict [((u "user1"), (VStr (u "value1"))); ((u "user2"), (VStr (u "value2")))])));
  SLet 1 (XKeys (XVar 0));
  SAssert (CEq (XLen (XVar 1)) (XVal (VInt (2)%Z)));
  SAssert (CIn (u "user1") (XVar 1));
  SAssert (CIn (u "user2") (XVar 1))];
t "models/test_base_models.py::TestPatternedRootModel.test_patterned_object_getitem" [SLet 0 (XNewAt (TRoot "TestObject" (TStr None)) (XVal (VDict [((u "user1"), (VStr (u "value1"))); ((u "user2"), (VStr (u "value2")))])));
  SAssert (CEq (XItem (XVar 0) (u "user1")) (XVal (VStr (u "value1"))));
  SAssert (CEq (XItem (XVar 0) (u "user2")) (XVal (VStr (u "value2"))))];
t "models/test_base_models.py::TestPatternedRootModel.test_patterned_object_empty_dict" [SLet 0 (XNewAt (TRoot "TestObject" (TStr None)) (XVal (VDict [])));
  SAssert (CEq (XAttr (XVar 0) (u "root")) (XVal (VDict [])));
  SAssert (CEq (XLen (XAttr (XVar 0) (u "root"))) (XVal (VInt (0)%Z)))];
t "models/test_base_models.py::TestPatternedRootModel.test_patterned_object_single_valid_key" [SLet 0 (XNewAt (TRoot "TestObject" TInt) (XVal (VDict [((u "validKey123"), (VInt (42)%Z))])));
  SAssert (CEq (XAttr (XVar 0) (u "root")) (XVal (VDict [((u "validKey123"), (VInt (42)%Z))])));
  SAssert (CEq (XItem (XVar 0) (u "validKey123")) (XVal (VInt (42)%Z)))];
t "models/test_base_models.py::TestPatternedRootModel.test_patterned_object_setitem" [SLet 0 (XNewAt (TRoot "TestObject" (TStr None)) (XVal (VDict [((u "user1"), (VStr (u "value1")))])));
  SSetItem 0 [] (u "user2") (XVal (VStr (u "value2")));
  SAssert (CEq (XAttr (XVar 0) (u "root")) (XVal (VDict [((u "user1"), (VStr (u "value1"))); ((u "user2"), (VStr (u "value2")))])));
  SAssert (CEq (XItem (XVar 0) (u "user2")) (XVal (VStr (u "value2"))))];
t "models/test_base_models.py::TestPatternedRootModel.test_patterned_object_delitem" [SLet 0 (XNewAt (TRoot "TestObject" (TStr None)) (XVal (VDict [((u "user1"), (VStr (u "value1"))); ((u "user2"), (VStr (u "value2")))])));
  SDelItem 0 [] (u "user1");
  SAssert (CEq (XAttr (XVar 0) (u "root")) (XVal (VDict [((u "user2"), (VStr (u "value2")))])));
  SAssert (CEq (XLen (XAttr (XVar 0) (u "root"))) (XVal (VInt (1)%Z)))];
t "models/test_base_models.py::TestPatternedRootModel.test_patterned_object_contains" [SLet 0 (XNewAt (TRoot "TestObject" (TStr None)) (XVal (VDict [((u "user1"), (VStr (u "value1"))); ((u "user2"), (VStr (u "value2")))])));
  SAssert (CIn (u "user1") (XVar 0));
  SAssert (CIn (u "user2") (XVar 0));
  SAssert (CNot (CIn (u "user3") (XVar 0)))];
t "models/test_base_models.py::TestPatternedRootModel.test_patterned_object_len" [SLet 0 (XNewAt (TRoot "TestObject" (TStr None)) (XVal (VDict [((u "user1"), (VStr (u "value1"))); ((u "user2"), (VStr (u "value2")))])));
  SAssert (CEq (XLen (XVar 0)) (XVal (VInt (2)%Z)));
  SSetItem 0 [] (u "user3") (XVal (VStr (u "value3")));
  SAssert (CEq (XLen (XVar 0)) (XVal (VInt (3)%Z)));
  SDelItem 0 [] (u "user1");
  SAssert (CEq (XLen (XVar 0)) (XVal (VInt (2)%Z)))];
t "models/test_channel.py::TestParameter.test_parameter_validation/case_parameter_basic" [SLet 0 (XNew "Parameter" (XVal (VDict [((u "description"), (VStr (u "Id of the user.")))])));
  SAssert (CNot (CEq (XVar 0) (XVal VNone)));
  SAssert (CEq (XAttr (XVar 0) (u "description")) (XVal (VStr (u "Id of the user."))))];
t "models/test_channel.py::TestParameter.test_parameter_validation/case_parameter_full" [SLet 0 (XNew "Parameter" (XVal (VDict [((u "description"), (VStr (u "Id of the user."))); ((u "location"), (VStr (u "$message.payload#/user/id"))); ((u "enum"), (VList [(VStr (u "user1")); (VStr (u "user2"))])); ((u "default"), (VStr (u "user1"))); ((u "examples"), (VList [(VStr (u "user1")); (VStr (u "user2"))]))])));
  SAssert (CNot (CEq (XVar 0) (XVal VNone)));
  SAssert (CEq (XAttr (XVar 0) (u "description")) (XVal (VStr (u "Id of the user."))))];
t "models/test_channel.py::TestParameter.test_parameter_validation/case_parameter_with_enum" [SLet 0 (XNew "Parameter" (XVal (VDict [((u "enum"), (VList [(VStr (u "chatMessages")); (VStr (u "events"))])); ((u "description"), (VStr (u "The resource to consume.")))])));
  SAssert (CNot (CEq (XVar 0) (XVal VNone)));
  SAssert (CEq (XAttr (XVar 0) (u "description")) (XVal (VStr (u "The resource to consume."))))];
t "models/test_channel.py::TestParameter.test_parameter_serialization/case_parameter_serialization_empty" [SLet 0 (XNew "Parameter" (XVal (VDict [])));
  SLet 1 (XDump (XVar 0));
  SAssert (CEq (XVar 1) (XUnurl (XVal (VDict []))))];
t "models/test_channel.py::TestParameter.test_parameter_serialization/case_parameter_serialization_basic" [SLet 0 (XNew "Parameter" (XVal (VDict [((u "description"), (VStr (u "Id of the user.")))])));
  SLet 1 (XDump (XVar 0));
  SAssert (CEq (XVar 1) (XUnurl (XVal (VDict [((u "description"), (VStr (u "Id of the user.")))]))))];
t "models/test_channel.py::TestParameter.test_parameter_serialization/case_parameter_serialization_full" [SLet 0 (XNew "Parameter" (XVal (VDict [((u "description"), (VStr (u "Id of the user."))); ((u "location"), (VStr (u "$message.payload#/user/id"))); ((u "enum"), (VList [(VStr (u "user1")); (VStr (u "user2"))])); ((u "default"), (VStr (u "user1"))); ((u "examples"), (VList [(VStr (u "user1")); (VStr (u "user2"))]))])));
  SLet 1 (XDump (XVar 0));
  SAssert (CEq (XVar 1) (XUnurl (XVal (VDict [((u "description"), (VStr (u "Id of the user."))); ((u "location"), (VStr (u "$message.payload#/user/id"))); ((u "enum"), (VList [(VStr (u "user1")); (VStr (u "user2"))])); ((u "default"), (VStr (u "user1"))); ((u "examples"), (VList [(VStr (u "user1")); (VStr (u "user2"))]))]))))];
t "models/test_channel.py::TestParameter.test_parameter_serialization/case_parameter_serialization_with_location" [SLet 0 (XNew "Parameter" (XVal (VDict [((u "description"), (VStr (u "Id of the user."))); ((u "location"), (VStr (u "$message.payload#/user/id")))])));
  SLet 1 (XDump (XVar 0));
  SAssert (CEq (XVar 1) (XUnurl (XVal (VDict [((u "description"), (VStr (u "Id of the user."))); ((u "location"), (VStr (u "$message.payload#/user/id")))]))))];
t "models/test_channel.py::TestParameter.test_parameter_serialization/case_parameter_serialization_with_examples" [SLet 0 (XNew "Parameter" (XVal (VDict [((u "description"), (VStr (u "Id of the Gitter room."))); ((u "examples"), (VList [(VStr (u "53307860c3599d1de448e19d"))]))])));
  SLet 1 (XDump (XVar 0));
  SAssert (CEq (XVar 1) (XUnurl (XVal (VDict [((u "description"), (VStr (u "Id of the Gitter room."))); ((u "examples"), (VList [(VStr (u "53307860c3599d1de448e19d"))]))]))))];
t "models/test_channel.py::TestParameters.test_parameters_validation/case_parameters_basic" [SLet 0 (XNew "Parameters" (XVal (VDict [((u "userId"), (VDict [((u "description"), (VStr (u "Id of the user.")))])); ((u "orderId"), (VDict [((u "description"), (VStr (u "Id of the order.")))]))])));
  SAssert (CNot (CEq (XVar 0) (XVal VNone)));
  SAssert (CIs (XAttr (XVar 0) (u "root")) ["dict"]);
  SAssert (CGt (XLen (XAttr (XVar 0) (u "root"))) (0)%Z)];
t "models/test_channel.py::TestParameters.test_parameters_validation/case_parameters_with_references" [SLet 0 (XNew "Parameters" (XVal (VDict [((u "userId"), (VDict [((u "$ref"), (VStr (u "#/components/parameters/userId")))])); ((u "orderId"), (VDict [((u "description"), (VStr (u "Id of the order.")))]))])));
  SAssert (CNot (CEq (XVar 0) (XVal VNone)));
  SAssert (CIs (XAttr (XVar 0) (u "root")) ["dict"]);
  SAssert (CGt (XLen (XAttr (XVar 0) (u "root"))) (0)%Z)];
t "models/test_channel.py::TestParameters.test_parameters_validation_errors/case_parameters_invalid_key_spaces" [SRaises [SDo (XNew "Parameters" (XVal (VDict [((u "user id"), (VDict [((u "description"), (VStr (u "Id of the user.")))]))])))] [(u "Field 'user id' does not match patterned object key pattern. Keys must contain letters, digits, hyphens, and underscores.")]];
t "models/test_channel.py::TestParameters.test_parameters_validation_errors/case_parameters_invalid_key_special_chars" [SRaises [SDo (XNew "Parameters" (XVal (VDict [((u "user@id"), (VDict [((u "description"), (VStr (u "Id of the user.")))]))])))] [(u "Field 'user@id' does not match patterned object key pattern. Keys must contain letters, digits, hyphens, and underscores.")]];
t "models/test_channel.py::TestParameters.test_parameters_validation_errors/case_parameters_invalid_key_dots" [SRaises [SDo (XNew "Parameters" (XVal (VDict [((u "user.id"), (VDict [((u "description"), (VStr (u "Id of the user.")))]))])))] [(u "Field 'user.id' does not match patterned object key pattern. Keys must contain letters, digits, hyphens, and underscores.")]];
t "models/test_channel.py::TestParameters.test_parameters_validation_errors/case_parameters_invalid_key_parentheses" [SRaises [SDo (XNew "Parameters" (XVal (VDict [((u "user(id)"), (VDict [((u "description"), (VStr (u "Id of the user.")))]))])))] [(u "Field 'user(id)' does not match patterned object key pattern. Keys must contain letters, digits, hyphens, and underscores.")]];
t "models/test_channel.py::TestParameters.test_parameters_empty_dict_validation" [SLet 0 (XNew "Parameters" (XVal (VDict [])));
  SAssert (CNot (CEq (XVar 0) (XVal VNone)));
  SAssert (CEq (XAttr (XVar 0) (u "root")) (XVal (VDict [])));
  SAssert (CEq (XLen (XAttr (XVar 0) (u "root"))) (XVal (VInt (0)%Z)))];
t "models/test_channel.py::TestParameters.test_parameters_iteration" [SLet 0 (XNew "Parameter" (XVal (VDict [((u "description"), (VStr (u "Id of the user.")))])));
  SLet 1 (XNew "Parameter" (XVal (VDict [((u "description"), (VStr (u "Id of the order.")))])));
  SLet 2 (XNew "Parameters" (XDict [((u "userId"), (XVar 0)); ((u "orderId"), (XVar 1))]));
  SLet 3 (XKeys (XVar 2));
  SAssert (CEq (XLen (XVar 3)) (XVal (VInt (2)%Z)));
  SAssert (CIn (u "userId") (XVar 3));
  SAssert (CIn (u "orderId") (XVar 3))];
t "models/test_channel.py::TestParameters.test_parameters_getitem" [SLet 0 (XNew "Parameter" (XVal (VDict [((u "description"), (VStr (u "Id of the user.")))])));
  SLet 1 (XNew "Parameter" (XVal (VDict [((u "description"), (VStr (u "Id of the order.")))])));
  SLet 2 (XNew "Parameters" (XDict [((u "userId"), (XVar 0)); ((u "orderId"), (XVar 1))]));
  SAssert (CEq (XItem (XVar 2) (u "userId")) (XVar 0));
  SAssert (CEq (XItem (XVar 2) (u "orderId")) (XVar 1));
  SLet 3 (XNew "Reference" (XVal (VDict [((u "ref"), (VStr (u "#/components/parameters/orderId")))])));
  SLet 4 (XNew "Parameters" (XDict [((u "orderId"), (XVar 3))]));
  SAssert (CEq (XItem (XVar 4) (u "orderId")) (XVar 3))];
t "models/test_channel.py::TestParameters.test_parameters_getattr" [SLet 0 (XNew "Parameter" (XVal (VDict [((u "description"), (VStr (u "Id of the user.")))])));
  SLet 1 (XNew "Parameter" (XVal (VDict [((u "description"), (VStr (u "Id of the order.")))])));
  SLet 2 (XNew "Parameters" (XDict [((u "userId"), (XVar 0)); ((u "orderId"), (XVar 1))]));
  SAssert (CEq (XItem (XVar 2) (u "userId")) (XVar 0));
  SAssert (CEq (XItem (XVar 2) (u "orderId")) (XVar 1));
  SLet 3 (XNew "Reference" (XVal (VDict [((u "ref"), (VStr (u "#/components/parameters/orderId")))])));
  SLet 4 (XNew "Parameters" (XDict [((u "orderId"), (XVar 3))]));
  SAssert (CEq (XItem (XVar 4) (u "orderId")) (XVar 3))];
t "models/test_channel.py::TestChannel.test_channel_validation/case_channel_basic" [SLet 0 (XNew "Channel" (XVal (VDict [((u "address"), (VStr (u "user/signedup")))])));
  SAssert (CNot (CEq (XVar 0) (XVal VNone)));
  SAssert (CEq (XAttr (XVar 0) (u "address")) (XVal (VStr (u "user/signedup"))))];
t "models/test_channel.py::TestChannel.test_channel_validation/case_channel_full" [SLet 0 (XNew "Channel" (XVal (VDict [((u "address"), (VStr (u "users.{userId}"))); ((u "title"), (VStr (u "Users channel"))); ((u "description"), (VStr (u "This channel is used to exchange messages about user events."))); ((u "messages"), (VDict [((u "userSignedUp"), (VDict [((u "$ref"), (VStr (u "#/components/messages/userSignedUp")))]))])); ((u "parameters"), (VDict [((u "userId"), (VDict [((u "$ref"), (VStr (u "#/components/parameters/userId")))]))])); ((u "servers"), (VList [(VDict [((u "$ref"), (VStr (u "#/servers/rabbitmqInProd")))])])); ((u "tags"), (VList [(VDict [((u "name"), (VStr (u "user"))); ((u "description"), (VStr (u "User-related messages")))])])); ((u "externalDocs"), (VDict [((u "description"), (VStr (u "Find more info here"))); ((u "url"), (VStr (u "https://example.com")))]))])));
  SAssert (CNot (CEq (XVar 0) (XVal VNone)));
  SAssert (CEq (XAttr (XVar 0) (u "address")) (XVal (VStr (u "users.{userId}"))))];
t "models/test_channel.py::TestChannel.test_channel_validation/case_channel_with_parameters" [SLet 0 (XNew "Channel" (XVal (VDict [((u "address"), (VStr (u "/rooms/{roomId}/{resource}"))); ((u "parameters"), (VDict [((u "roomId"), (VDict [((u "description"), (VStr (u "Id of the Gitter room."))); ((u "examples"), (VList [(VStr (u "53307860c3599d1de448e19d"))]))])); ((u "resource"), (VDict [((u "enum"), (VList [(VStr (u "chatMessages")); (VStr (u "events"))])); ((u "description"), (VStr (u "The resource to consume.")))]))]))])));
  SAssert (CNot (CEq (XVar 0) (XVal VNone)));
  SAssert (CEq (XAttr (XVar 0) (u "address")) (XVal (VStr (u "/rooms/{roomId}/{resource}"))))];
t "models/test_channel.py::TestChannel.test_channel_serialization/case_channel_serialization_empty" [SLet 0 (XNew "Channel" (XVal (VDict [])));
  SLet 1 (XDump (XVar 0));
  SAssert (CEq (XVar 1) (XUnurl (XVal (VDict [((u "address"), VNone)]))))];
t "models/test_channel.py::TestChannel.test_channel_serialization/case_channel_serialization_basic" [SLet 0 (XNew "Channel" (XVal (VDict [((u "address"), (VStr (u "user/signedup")))])));
  SLet 1 (XDump (XVar 0));
  SAssert (CEq (XVar 1) (XUnurl (XVal (VDict [((u "address"), (VStr (u "user/signedup")))]))))];
t "models/test_channel.py::TestChannel.test_channel_serialization/case_channel_serialization_with_parameters" [SLet 0 (XNew "Channel" (XDict [((u "address"), (XVal (VStr (u "/rooms/{roomId}/{resource}")))); ((u "parameters"), (XDict [((u "roomId"), (XNew "Parameter" (XVal (VDict [((u "description"), (VStr (u "Id of the Gitter room."))); ((u "examples"), (VList [(VStr (u "53307860c3599d1de448e19d"))]))])))); ((u "resource"), (XNew "Parameter" (XVal (VDict [((u "enum"), (VList [(VStr (u "chatMessages")); (VStr (u "events"))])); ((u "description"), (VStr (u "The resource to consume.")))]))))]))]));
  SLet 1 (XDump (XVar 0));
  SAssert (CEq (XVar 1) (XUnurl (XVal (VDict [((u "address"), (VStr (u "/rooms/{roomId}/{resource}"))); ((u "parameters"), (VDict [((u "roomId"), (VDict [((u "description"), (VStr (u "Id of the Gitter room."))); ((u "examples"), (VList [(VStr (u "53307860c3599d1de448e19d"))]))])); ((u "resource"), (VDict [((u "enum"), (VList [(VStr (u "chatMessages")); (VStr (u "events"))])); ((u "description"), (VStr (u "The resource to consume.")))]))]))]))))];
t "models/test_channel.py::TestChannel.test_channel_serialization/case_channel_serialization_with_reference_parameter" [SLet 0 (XNew "Channel" (XDict [((u "address"), (XVal (VStr (u "users.{userId}")))); ((u "parameters"), (XDict [((u "userId"), (XNew "Reference" (XVal (VDict [((u "ref"), (VStr (u "#/components/parameters/userId")))]))))]))]));
  SLet 1 (XDump (XVar 0));
  SAssert (CEq (XVar 1) (XUnurl (XVal (VDict [((u "address"), (VStr (u "users.{userId}"))); ((u "parameters"), (VDict [((u "userId"), (VDict [((u "$ref"), (VStr (u "#/components/parameters/userId")))]))]))]))))];
t "models/test_channel.py::TestChannel.test_channel_serialization/case_channel_serialization_with_servers" [SLet 0 (XNew "Channel" (XDict [((u "address"), (XVal (VStr (u "users.{userId}")))); ((u "servers"), (XList [(XNew "Reference" (XVal (VDict [((u "ref"), (VStr (u "#/servers/rabbitmqInProd")))]))); (XNew "Reference" (XVal (VDict [((u "ref"), (VStr (u "#/servers/rabbitmqInStaging")))])))]))]));
  SLet 1 (XDump (XVar 0));
  SAssert (CEq (XVar 1) (XUnurl (XVal (VDict [((u "address"), (VStr (u "users.{userId}"))); ((u "servers"), (VList [(VDict [((u "$ref"), (VStr (u "#/servers/rabbitmqInProd")))]); (VDict [((u "$ref"), (VStr (u "#/servers/rabbitmqInStaging")))])]))]))))];
t "models/test_channel.py::TestChannel.test_channel_with_parameters_validation" [SLet 0 (XNew "Channel" (XVal (VDict [((u "address"), (VStr (u "/rooms/{roomId}/{resource}"))); ((u "parameters"), (VDict [((u "roomId"), (VDict [((u "description"), (VStr (u "Id of the Gitter room."))); ((u "examples"), (VList [(VStr (u "53307860c3599d1de448e19d"))]))])); ((u "resource"), (VDict [((u "enum"), (VList [(VStr (u "chatMessages")); (VStr (u "events"))])); ((u "description"), (VStr (u "The resource to consume.")))]))]))])));
  SAssert (CNot (CEq (XAttr (XVar 0) (u "parameters")) (XVal VNone)));
  SAssert (CIn (u "roomId") (XAttr (XVar 0) (u "parameters")));
  SAssert (CIs (XItem (XAttr (XVar 0) (u "parameters")) (u "roomId")) ["Parameter"]);
  SAssert (CEq (XAttr (XItem (XAttr (XVar 0) (u "parameters")) (u "roomId")) (u "description")) (XVal (VStr (u "Id of the Gitter room."))));
  SAssert (CIn (u "resource") (XAttr (XVar 0) (u "parameters")));
  SAssert (CIs (XItem (XAttr (XVar 0) (u "parameters")) (u "resource")) ["Parameter"]);
  SAssert (CEq (XAttr (XItem (XAttr (XVar 0) (u "parameters")) (u "resource")) (u "enum")) (XVal (VList [(VStr (u "chatMessages")); (VStr (u "events"))])))];
t "models/test_channel.py::TestChannel.test_channel_with_reference_parameter_validation" [SLet 0 (XNew "Channel" (XVal (VDict [((u "address"), (VStr (u "users.{userId}"))); ((u "parameters"), (VDict [((u "userId"), (VDict [((u "$ref"), (VStr (u "#/components/parameters/userId")))]))]))])));
  SAssert (CNot (CEq (XAttr (XVar 0) (u "parameters")) (XVal VNone)));
  SAssert (CIn (u "userId") (XAttr (XVar 0) (u "parameters")));
  SAssert (CIs (XItem (XAttr (XVar 0) (u "parameters")) (u "userId")) ["Reference"]);
  SAssert (CEq (XAttr (XItem (XAttr (XVar 0) (u "parameters")) (u "userId")) (u "ref")) (XVal (VStr (u "#/components/parameters/userId"))))];
t "models/test_channel.py::TestChannel.test_channel_with_servers_validation" [SLet 0 (XNew "Channel" (XVal (VDict [((u "address"), (VStr (u "users.{userId}"))); ((u "servers"), (VList [(VDict [((u "$ref"), (VStr (u "#/servers/rabbitmqInProd")))]); (VDict [((u "$ref"), (VStr (u "#/servers/rabbitmqInStaging")))])]))])));
  SAssert (CNot (CEq (XAttr (XVar 0) (u "servers")) (XVal VNone)));
  SAssert (CEq (XLen (XAttr (XVar 0) (u "servers"))) (XVal (VInt (2)%Z)));
  SAssert (CIs (XIndex (XAttr (XVar 0) (u "servers")) 0) ["Reference"]);
  SAssert (CEq (XAttr (XIndex (XAttr (XVar 0) (u "servers")) 0) (u "ref")) (XVal (VStr (u "#/servers/rabbitmqInProd"))));
  SAssert (CIs (XIndex (XAttr (XVar 0) (u "servers")) 1) ["Reference"]);
  SAssert (CEq (XAttr (XIndex (XAttr (XVar 0) (u "servers")) 1) (u "ref")) (XVal (VStr (u "#/servers/rabbitmqInStaging"))))];
t "models/test_channel.py::TestChannel.test_channel_parameters_validation_with_address_expressions" [SLet 0 (XNew "Channel" (XVal (VDict [((u "address"), (VStr (u "users/{userId}/orders/{orderId}"))); ((u "parameters"), (VDict [((u "userId"), (VDict [((u "description"), (VStr (u "Id of the user.")))])); ((u "orderId"), (VDict [((u "description"), (VStr (u "Id of the order.")))]))]))])));
  SAssert (CNot (CEq (XAttr (XVar 0) (u "parameters")) (XVal VNone)));
  SAssert (CIn (u "userId") (XAttr (XVar 0) (u "parameters")));
  SAssert (CIn (u "orderId") (XAttr (XVar 0) (u "parameters")))];
t "models/test_channel.py::TestChannel.test_channel_parameters_validation_without_address_expressions_error" [SRaises [SDo (XNew "Channel" (XVal (VDict [((u "address"), (VStr (u "users/orders"))); ((u "parameters"), (VDict [((u "userId"), (VDict [((u "description"), (VStr (u "Id of the user.")))]))]))])))] [(u "parameters must not be provided when address does not contain Channel Address Expressions")]]].
Definition part3 : list (string * list stmt) := [
t "models/test_channel.py::TestChannel.test_channel_parameters_validation_with_null_address_error" [SRaises [SDo (XNew "Channel" (XVal (VDict [((u "address"), VNone); ((u "parameters"), (VDict [((u "userId"), (VDict [((u "description"), (VStr (u "Id of the user.")))]))]))])))] [(u "parameters must not be provided when address is null or absent")]];
t "models/test_channel.py::TestChannel.test_channel_parameters_validation_without_address_error" [SRaises [SDo (XNew "Channel" (XVal (VDict [((u "title"), (VStr (u "Test channel"))); ((u "parameters"), (VDict [((u "userId"), (VDict [((u "description"), (VStr (u "Id of the user.")))]))]))])))] [(u "parameters must not be provided when address is null or absent")]];
t "models/test_channel.py::TestChannels.test_channels_validation/case_channels_basic" [SLet 0 (XNew "Channels" (XVal (VDict [((u "userChannel"), (VDict [((u "address"), (VStr (u "user/signedup")))])); ((u "adminChannel"), (VDict [((u "address"), (VStr (u "admin/events")))]))])));
  SAssert (CNot (CEq (XVar 0) (XVal VNone)));
  SAssert (CIs (XAttr (XVar 0) (u "root")) ["dict"]);
  SAssert (CGt (XLen (XAttr (XVar 0) (u "root"))) (0)%Z)];
t "models/test_channel.py::TestChannels.test_channels_validation/case_channels_with_references" [SLet 0 (XNew "Channels" (XVal (VDict [((u "userChannel"), (VDict [((u "$ref"), (VStr (u "#/components/channels/userChannel")))])); ((u "adminChannel"), (VDict [((u "$ref"), (VStr (u "#/components/channels/adminChannel")))]))])));
  SAssert (CNot (CEq (XVar 0) (XVal VNone)));
  SAssert (CIs (XAttr (XVar 0) (u "root")) ["dict"]);
  SAssert (CGt (XLen (XAttr (XVar 0) (u "root"))) (0)%Z)];
t "models/test_channel.py::TestChannels.test_channels_validation_errors/case_channels_invalid_key_spaces" [SRaises [SDo (XNew "Channels" (XVal (VDict [((u "user channel"), (VDict [((u "address"), (VStr (u "user/signedup")))]))])))] [(u "Field 'user channel' does not match patterned object key pattern. Keys must contain letters, digits, hyphens, and underscores.")]];
t "models/test_channel.py::TestChannels.test_channels_validation_errors/case_channels_invalid_key_special_chars" [SRaises [SDo (XNew "Channels" (XVal (VDict [((u "user@channel"), (VDict [((u "address"), (VStr (u "user/signedup")))]))])))] [(u "Field 'user@channel' does not match patterned object key pattern. Keys must contain letters, digits, hyphens, and underscores.")]];
t "models/test_channel.py::TestChannels.test_channels_validation_errors/case_channels_invalid_key_parentheses" [SRaises [SDo (XNew "Channels" (XVal (VDict [((u "user(channel)"), (VDict [((u "address"), (VStr (u "user/signedup")))]))])))] [(u "Field 'user(channel)' does not match patterned object key pattern. Keys must contain letters, digits, hyphens, and underscores.")]];
t "models/test_channel.py::TestChannels.test_channels_empty_dict_validation" [SLet 0 (XNew "Channels" (XVal (VDict [])));
  SAssert (CNot (CEq (XVar 0) (XVal VNone)));
  SAssert (CEq (XAttr (XVar 0) (u "root")) (XVal (VDict [])));
  SAssert (CEq (XLen (XAttr (XVar 0) (u "root"))) (XVal (VInt (0)%Z)))];
t "models/test_channel.py::TestChannels.test_channels_iteration" [SLet 0 (XNew "Channel" (XVal (VDict [((u "address"), (VStr (u "user/signedup")))])));
  SLet 1 (XNew "Channel" (XVal (VDict [((u "address"), (VStr (u "admin/events")))])));
  SLet 2 (XNew "Channels" (XDict [((u "userChannel"), (XVar 0)); ((u "adminChannel"), (XVar 1))]));
  SLet 3 (XKeys (XVar 2));
  SAssert (CEq (XLen (XVar 3)) (XVal (VInt (2)%Z)));
  SAssert (CIn (u "userChannel") (XVar 3));
  SAssert (CIn (u "adminChannel") (XVar 3))];
t "models/test_channel.py::TestChannels.test_channels_getitem" [SLet 0 (XNew "Channel" (XVal (VDict [((u "address"), (VStr (u "user/signedup")))])));
  SLet 1 (XNew "Channel" (XVal (VDict [((u "address"), (VStr (u "admin/events")))])));
  SLet 2 (XNew "Channels" (XDict [((u "userChannel"), (XVar 0)); ((u "adminChannel"), (XVar 1))]));
  SAssert (CEq (XItem (XVar 2) (u "userChannel")) (XVar 0));
  SAssert (CEq (XItem (XVar 2) (u "adminChannel")) (XVar 1))];
t "models/test_channel.py::TestChannels.test_channels_getattr" [SLet 0 (XNew "Channel" (XVal (VDict [((u "address"), (VStr (u "user/signedup")))])));
  SLet 1 (XNew "Channel" (XVal (VDict [((u "address"), (VStr (u "admin/events")))])));
  SLet 2 (XNew "Channels" (XDict [((u "userChannel"), (XVar 0)); ((u "adminChannel"), (XVar 1))]));
  SAssert (CEq (XItem (XVar 2) (u "userChannel")) (XVar 0));
  SAssert (CEq (XItem (XVar 2) (u "adminChannel")) (XVar 1))];
t "models/test_helpers.py::TestIsNull.test_is_null_with_none" [SAssert (CEq (XIsNull (XVal VNone)) (XVal (VBool true)))];
t "models/test_helpers.py::TestIsNull.test_is_null_with_non_none_values/0" [SAssert (CEq (XIsNull (XVal (VStr (u "")))) (XVal (VBool false)))];
t "models/test_helpers.py::TestIsNull.test_is_null_with_non_none_values/1" [SAssert (CEq (XIsNull (XVal (VInt (0)%Z))) (XVal (VBool false)))];
t "models/test_helpers.py::TestIsNull.test_is_null_with_non_none_values/2" [SAssert (CEq (XIsNull (XVal (VBool false))) (XVal (VBool false)))];
t "models/test_helpers.py::TestIsNull.test_is_null_with_non_none_values/3" [SAssert (CEq (XIsNull (XVal (VList []))) (XVal (VBool false)))];
t "models/test_helpers.py::TestIsNull.test_is_null_with_non_none_values/4" [SAssert (CEq (XIsNull (XVal (VDict []))) (XVal (VBool false)))];
t "models/test_helpers.py::TestIsNull.test_is_null_with_non_none_values/5" [SAssert (CEq (XIsNull (XVal (VStr (u "test")))) (XVal (VBool false)))];
t "models/test_helpers.py::TestIsNull.test_is_null_with_non_none_values/6" [SAssert (CEq (XIsNull (XVal (VInt (42)%Z))) (XVal (VBool false)))];
t "models/test_helpers.py::TestEmailStr.test_emailstr_valid" [SLet 0 (XNewAt TEmail (XVal (VStr (u "test@example.com"))));
  SAssert (CEq (XVar 0) (XVal (VStr (u "test@example.com"))));
  SAssert (CIs (XVar 0) ["str"]);
  SLet 1 (XNewAt TEmail (XVal (VStr (u "user.name+tag@example.co.uk"))));
  SAssert (CEq (XVar 1) (XVal (VStr (u "user.name+tag@example.co.uk"))));
  SAssert (CIs (XVar 1) ["str"]);
  SLet 2 (XNewAt TEmail (XVal (VStr (u "test.email@subdomain.example.org"))));
  SAssert (CEq (XVar 2) (XVal (VStr (u "test.email@subdomain.example.org"))));
  SAssert (CIs (XVar 2) ["str"])];
t "models/test_helpers.py::TestEmailStr.test_emailstr_invalid/0" [SRaises [SDo (XNewAt TEmail (XVal (VStr (u "invalid-email"))))] [(u "Invalid email format")]];
t "models/test_helpers.py::TestEmailStr.test_emailstr_invalid/1" [SRaises [SDo (XNewAt TEmail (XVal (VStr (u "test@"))))] [(u "Invalid email format")]];
t "models/test_helpers.py::TestEmailStr.test_emailstr_invalid/2" [SRaises [SDo (XNewAt TEmail (XVal (VStr (u "@example.com"))))] [(u "Invalid email format")]];
t "models/test_helpers.py::TestEmailStr.test_emailstr_invalid/3" [SRaises [SDo (XNewAt TEmail (XVal (VStr (u "test@.com"))))] [(u "Invalid email format")]];
t "models/test_helpers.py::TestEmailStr.test_emailstr_invalid/4" [SRaises [SDo (XNewAt TEmail (XVal (VStr (u "test..email@example.com"))))] [(u "Invalid email format")]];
t "models/test_helpers.py::TestEmailStr.test_emailstr_invalid/5" [SRaises [SDo (XNewAt TEmail (XVal (VStr (u "test@example"))))] [(u "Invalid email format")]];
t "models/test_helpers.py::TestEmailStr.test_emailstr_invalid/6" [SRaises [SDo (XNewAt TEmail (XVal (VStr (u ""))))] [(u "Invalid email format")]];
t "models/test_helpers.py::TestValidatePatternedKey.test_validate_patterned_key_accepts_valid_keys/0" [SDo (XKey (XVal (VStr (u "valid_key"))))];
t "models/test_helpers.py::TestValidatePatternedKey.test_validate_patterned_key_accepts_valid_keys/1" [SDo (XKey (XVal (VStr (u "valid-key"))))];
t "models/test_helpers.py::TestValidatePatternedKey.test_validate_patterned_key_accepts_valid_keys/2" [SDo (XKey (XVal (VStr (u "valid123"))))];
t "models/test_helpers.py::TestValidatePatternedKey.test_validate_patterned_key_accepts_valid_keys/3" [SDo (XKey (XVal (VStr (u "valid_key_123"))))];
t "models/test_helpers.py::TestValidatePatternedKey.test_validate_patterned_key_accepts_valid_keys/4" [SDo (XKey (XVal (VStr (u "a"))))];
t "models/test_helpers.py::TestValidatePatternedKey.test_validate_patterned_key_accepts_valid_keys/5" [SDo (XKey (XVal (VStr (u "A"))))];
t "models/test_helpers.py::TestValidatePatternedKey.test_validate_patterned_key_accepts_valid_keys/6" [SDo (XKey (XVal (VStr (u "Test123"))))];
t "models/test_helpers.py::TestValidatePatternedKey.test_validate_patterned_key_accepts_valid_keys/7" [SDo (XKey (XVal (VStr (u "test_123-456"))))];
t "models/test_helpers.py::TestValidatePatternedKey.test_validate_patterned_key_rejects_invalid_keys/0" [SRaises [SDo (XKey (XVal (VStr (u "invalid@key"))))] [(u "Field 'invalid@key' does not match patterned object key pattern. Keys must contain letters, digits, hyphens, and underscores.")]];
t "models/test_helpers.py::TestValidatePatternedKey.test_validate_patterned_key_rejects_invalid_keys/1" [SRaises [SDo (XKey (XVal (VStr (u "invalid key"))))] [(u "Field 'invalid key' does not match patterned object key pattern. Keys must contain letters, digits, hyphens, and underscores.")]];
t "models/test_helpers.py::TestValidatePatternedKey.test_validate_patterned_key_rejects_invalid_keys/2" [SRaises [SDo (XKey (XVal (VStr (u "invalid.key"))))] [(u "Field 'invalid.key' does not match patterned object key pattern. Keys must contain letters, digits, hyphens, and underscores.")]];
t "models/test_helpers.py::TestValidatePatternedKey.test_validate_patterned_key_rejects_invalid_keys/3" [SRaises [SDo (XKey (XVal (VStr (u "invalid/key"))))] [(u "Field 'invalid/key' does not match patterned object key pattern. Keys must contain letters, digits, hyphens, and underscores.")]];
t "models/test_helpers.py::TestValidatePatternedKey.test_validate_patterned_key_rejects_invalid_keys/4" [SRaises [SDo (XKey (XVal (VStr (u "invalid#key"))))] [(u "Field 'invalid#key' does not match patterned object key pattern. Keys must contain letters, digits, hyphens, and underscores.")]]].
Definition part4 : list (string * list stmt) := [
t "models/test_helpers.py::TestValidatePatternedKey.test_validate_patterned_key_rejects_invalid_keys/5" [SRaises [SDo (XKey (XVal (VStr (u "invalid?key"))))] [(u "Field 'invalid?key' does not match patterned object key pattern. Keys must contain letters, digits, hyphens, and underscores.")]];
t "models/test_helpers.py::TestValidatePatternedKey.test_validate_patterned_key_rejects_invalid_keys/6" [SRaises [SDo (XKey (XVal (VStr (u "invalid:key"))))] [(u "Field 'invalid:key' does not match patterned object key pattern. Keys must contain letters, digits, hyphens, and underscores.")]];
t "models/test_helpers.py::TestValidatePatternedKey.test_validate_patterned_key_rejects_invalid_keys/7" [SRaises [SDo (XKey (XVal (VStr (u ""))))] [(u "Field '' does not match patterned object key pattern. Keys must contain letters, digits, hyphens, and underscores.")]];
t "models/test_helpers.py::TestValidatePatternedKey.test_validate_patterned_key_rejects_non_string_types/0" [SRaises [SDo (XKey (XVal (VInt (123)%Z)))] []];
t "models/test_helpers.py::TestValidatePatternedKey.test_validate_patterned_key_rejects_non_string_types/1" [SRaises [SDo (XKey (XVal (VFloat (u "42.5"))))] []];
t "models/test_helpers.py::TestValidatePatternedKey.test_validate_patterned_key_rejects_non_string_types/2" [SRaises [SDo (XKey (XVal (VBool true)))] []];
t "models/test_helpers.py::TestValidatePatternedKey.test_validate_patterned_key_rejects_non_string_types/3" [SRaises [SDo (XKey (XVal (VBool false)))] []];
t "models/test_helpers.py::TestValidatePatternedKey.test_validate_patterned_key_rejects_non_string_types/4" [SRaises [SDo (XKey (XVal (VList [(VStr (u "list"))])))] []];
t "models/test_helpers.py::TestValidatePatternedKey.test_validate_patterned_key_rejects_non_string_types/5" [SRaises [SDo (XKey (XVal (VDict [((u "dict"), (VStr (u "value")))])))] []];
t "models/test_helpers.py::TestValidatePatternedKey.test_validate_patterned_key_rejects_non_string_types/6" [SRaises [SDo (XKey (XVal VNone))] []];
t "models/test_info.py::TestContact.test_contact_validation/case_contact_full" [SLet 0 (XNew "Contact" (XVal (VDict [((u "name"), (VStr (u "API Support"))); ((u "url"), (VStr (u "https://www.example.com/support"))); ((u "email"), (VStr (u "support@example.com")))])));
  SAssert (CNot (CEq (XVar 0) (XVal VNone)));
  SAssert (CEq (XAttr (XVar 0) (u "name")) (XVal (VStr (u "API Support"))))];
t "models/test_info.py::TestContact.test_contact_validation/case_contact_partial" [SLet 0 (XNew "Contact" (XVal (VDict [((u "name"), (VStr (u "API Support"))); ((u "email"), (VStr (u "support@example.com")))])));
  SAssert (CNot (CEq (XVar 0) (XVal VNone)));
  SAssert (CEq (XAttr (XVar 0) (u "name")) (XVal (VStr (u "API Support"))))];
t "models/test_info.py::TestContact.test_contact_serialization/case_contact_serialization_empty" [SLet 0 (XNew "Contact" (XVal (VDict [])));
  SLet 1 (XDump (XVar 0));
  SAssert (CEq (XVar 1) (XUnurl (XVal (VDict []))))];
t "models/test_info.py::TestContact.test_contact_serialization/case_contact_serialization_full" [SLet 0 (XNew "Contact" (XVal (VDict [((u "name"), (VStr (u "API Support"))); ((u "url"), (VStr (u "https://www.example.com/support"))); ((u "email"), (VStr (u "support@example.com")))])));
  SLet 1 (XDump (XVar 0));
  SAssert (CEq (XVar 1) (XUnurl (XVal (VDict [((u "name"), (VStr (u "API Support"))); ((u "url"), (VStr (u "https://www.example.com/support"))); ((u "email"), (VStr (u "support@example.com")))]))))];
t "models/test_info.py::TestContact.test_contact_serialization/case_contact_serialization_partial" [SLet 0 (XNew "Contact" (XVal (VDict [((u "name"), (VStr (u "API Support"))); ((u "email"), (VStr (u "support@example.com")))])));
  SLet 1 (XDump (XVar 0));
  SAssert (CEq (XVar 1) (XUnurl (XVal (VDict [((u "name"), (VStr (u "API Support"))); ((u "email"), (VStr (u "support@example.com")))]))))];
t "models/test_info.py::TestContact.test_contact_extensions_validation" [SLet 0 (XNew "Contact" (XVal (VDict [((u "name"), (VStr (u "API Support"))); ((u "x-contact-extension"), (VStr (u "extended info")))])));
  SAssert (CEq (XAttr (XVar 0) (u "name")) (XVal (VStr (u "API Support"))));
  SAssert (CEq (XExtra (XVar 0)) (XVal (VDict [((u "x-contact-extension"), (VStr (u "extended info")))])));
  SRaises [SDo (XNew "Contact" (XVal (VDict [((u "name"), (VStr (u "API Support"))); ((u "invalid-extension"), (VStr (u "value")))])))] [(u "does not match specification extension pattern")]];
t "models/test_info.py::TestLicense.test_license_validation/case_license_name_only" [SLet 0 (XNew "License" (XVal (VDict [((u "name"), (VStr (u "Apache 2.0")))])));
  SAssert (CNot (CEq (XVar 0) (XVal VNone)));
  SAssert (CEq (XAttr (XVar 0) (u "name")) (XVal (VStr (u "Apache 2.0"))))];
t "models/test_info.py::TestLicense.test_license_validation/case_license_full" [SLet 0 (XNew "License" (XVal (VDict [((u "name"), (VStr (u "Apache 2.0"))); ((u "url"), (VStr (u "https://www.apache.org/licenses/LICENSE-2.0.html")))])));
  SAssert (CNot (CEq (XVar 0) (XVal VNone)));
  SAssert (CEq (XAttr (XVar 0) (u "name")) (XVal (VStr (u "Apache 2.0"))))];
t "models/test_info.py::TestLicense.test_license_serialization/case_license_serialization_name_only" [SLet 0 (XNew "License" (XVal (VDict [((u "name"), (VStr (u "Apache 2.0")))])));
  SLet 1 (XDump (XVar 0));
  SAssert (CEq (XVar 1) (XUnurl (XVal (VDict [((u "name"), (VStr (u "Apache 2.0")))]))))];
t "models/test_info.py::TestLicense.test_license_serialization/case_license_serialization_full" [SLet 0 (XNew "License" (XVal (VDict [((u "name"), (VStr (u "Apache 2.0"))); ((u "url"), (VStr (u "https://www.apache.org/licenses/LICENSE-2.0.html")))])));
  SLet 1 (XDump (XVar 0));
  SAssert (CEq (XVar 1) (XUnurl (XVal (VDict [((u "name"), (VStr (u "Apache 2.0"))); ((u "url"), (VStr (u "https://www.apache.org/licenses/LICENSE-2.0.html")))]))))];
t "models/test_info.py::TestLicense.test_license_extensions_validation" [SLet 0 (XNew "License" (XVal (VDict [((u "name"), (VStr (u "Apache 2.0"))); ((u "x-license-extension"), (VStr (u "extended info")))])));
  SAssert (CEq (XAttr (XVar 0) (u "name")) (XVal (VStr (u "Apache 2.0"))));
  SAssert (CEq (XExtra (XVar 0)) (XVal (VDict [((u "x-license-extension"), (VStr (u "extended info")))])));
  SRaises [SDo (XNew "License" (XVal (VDict [((u "name"), (VStr (u "Apache 2.0"))); ((u "invalid-extension"), (VStr (u "value")))])))] [(u "does not match specification extension pattern")]];
t "models/test_info.py::TestInfo.test_info_validation/case_info_minimal" [SLet 0 (XNew "Info" (XVal (VDict [((u "title"), (VStr (u "AsyncAPI Sample App"))); ((u "version"), (VStr (u "1.0.1")))])));
  SAssert (CNot (CEq (XVar 0) (XVal VNone)));
  SAssert (CEq (XAttr (XVar 0) (u "title")) (XVal (VStr (u "AsyncAPI Sample App"))));
  SAssert (CEq (XAttr (XVar 0) (u "version")) (XVal (VStr (u "1.0.1"))))];
t "models/test_info.py::TestInfo.test_info_validation/case_info_full" [SLet 0 (XNew "Info" (XVal (VDict [((u "title"), (VStr (u "AsyncAPI Sample App"))); ((u "version"), (VStr (u "1.0.1"))); ((u "description"), (VStr (u "This is a sample app."))); ((u "termsOfService"), (VStr (u "https://asyncapi.org/terms/"))); ((u "contact"), (VDict [((u "name"), (VStr (u "API Support"))); ((u "url"), (VStr (u "https://www.asyncapi.org/support"))); ((u "email"), (VStr (u "support@asyncapi.org")))])); ((u "license"), (VDict [((u "name"), (VStr (u "Apache 2.0"))); ((u "url"), (VStr (u "https://www.apache.org/licenses/LICENSE-2.0.html")))])); ((u "externalDocs"), (VDict [((u "description"), (VStr (u "Find more info here"))); ((u "url"), (VStr (u "https://www.asyncapi.org")))])); ((u "tags"), (VList [(VDict [((u "name"), (VStr (u "e-commerce")))])]))])));
  SAssert (CNot (CEq (XVar 0) (XVal VNone)));
  SAssert (CEq (XAttr (XVar 0) (u "title")) (XVal (VStr (u "AsyncAPI Sample App"))));
  SAssert (CEq (XAttr (XVar 0) (u "version")) (XVal (VStr (u "1.0.1"))))];
t "models/test_info.py::TestInfo.test_info_validation/case_info_with_defaults" [SLet 0 (XNew "Info" (XVal (VDict [((u "title"), (VStr (u "My App"))); ((u "version"), (VStr (u "2.0.0")))])));
  SAssert (CNot (CEq (XVar 0) (XVal VNone)));
  SAssert (CEq (XAttr (XVar 0) (u "title")) (XVal (VStr (u "My App"))));
  SAssert (CEq (XAttr (XVar 0) (u "version")) (XVal (VStr (u "2.0.0"))))];
t "models/test_info.py::TestInfo.test_info_serialization/case_info_serialization_minimal_required" [SLet 0 (XNew "Info" (XVal (VDict [((u "title"), (VStr (u "AsyncAPI Sample App"))); ((u "version"), (VStr (u "1.0.1")))])));
  SLet 1 (XDump (XVar 0));
  SAssert (CEq (XVar 1) (XUnurl (XVal (VDict [((u "title"), (VStr (u "AsyncAPI Sample App"))); ((u "version"), (VStr (u "1.0.1")))]))))];
t "models/test_info.py::TestInfo.test_info_serialization/case_info_serialization_minimal" [SLet 0 (XNew "Info" (XVal (VDict [((u "title"), (VStr (u "AsyncAPI Sample App"))); ((u "version"), (VStr (u "1.0.1")))])));
  SLet 1 (XDump (XVar 0));
  SAssert (CEq (XVar 1) (XUnurl (XVal (VDict [((u "title"), (VStr (u "AsyncAPI Sample App"))); ((u "version"), (VStr (u "1.0.1")))]))))];
t "models/test_info.py::TestInfo.test_info_serialization/case_info_serialization_with_contact" [SLet 0 (XNew "Info" (XDict [((u "title"), (XVal (VStr (u "My App")))); ((u "version"), (XVal (VStr (u "1.0.0")))); ((u "contact"), (XNew "Contact" (XVal (VDict [((u "name"), (VStr (u "API Support"))); ((u "url"), (VStr (u "https://www.example.com/support"))); ((u "email"), (VStr (u "support@example.com")))]))))]));
  SLet 1 (XDump (XVar 0));
  SAssert (CEq (XVar 1) (XUnurl (XVal (VDict [((u "title"), (VStr (u "My App"))); ((u "version"), (VStr (u "1.0.0"))); ((u "contact"), (VDict [((u "name"), (VStr (u "API Support"))); ((u "url"), (VStr (u "https://www.example.com/support"))); ((u "email"), (VStr (u "support@example.com")))]))]))))];
t "models/test_info.py::TestInfo.test_info_serialization/case_info_serialization_with_license" [SLet 0 (XNew "Info" (XDict [((u "title"), (XVal (VStr (u "My App")))); ((u "version"), (XVal (VStr (u "1.0.0")))); ((u "license"), (XNew "License" (XVal (VDict [((u "name"), (VStr (u "Apache 2.0"))); ((u "url"), (VStr (u "https://www.apache.org/licenses/LICENSE-2.0.html")))]))))]));
  SLet 1 (XDump (XVar 0));
  SAssert (CEq (XVar 1) (XUnurl (XVal (VDict [((u "title"), (VStr (u "My App"))); ((u "version"), (VStr (u "1.0.0"))); ((u "license"), (VDict [((u "name"), (VStr (u "Apache 2.0"))); ((u "url"), (VStr (u "https://www.apache.org/licenses/LICENSE-2.0.html")))]))]))))];
t "models/test_info.py::TestInfo.test_info_serialization/case_info_serialization_with_external_docs" [SLet 0 (XNew "Info" (XDict [((u "title"), (XVal (VStr (u "My App")))); ((u "version"), (XVal (VStr (u "1.0.0")))); ((u "external_docs"), (XNew "ExternalDocumentation" (XVal (VDict [((u "url"), (VStr (u "https://www.asyncapi.org"))); ((u "description"), (VStr (u "Find more info here")))]))))]));
  SLet 1 (XDump (XVar 0));
  SAssert (CEq (XVar 1) (XUnurl (XVal (VDict [((u "title"), (VStr (u "My App"))); ((u "version"), (VStr (u "1.0.0"))); ((u "externalDocs"), (VDict [((u "url"), (VStr (u "https://www.asyncapi.org/"))); ((u "description"), (VStr (u "Find more info here")))]))]))))];
t "models/test_info.py::TestInfo.test_info_serialization/case_info_serialization_with_reference_external_docs" [SLet 0 (XNew "Info" (XDict [((u "title"), (XVal (VStr (u "My App")))); ((u "version"), (XVal (VStr (u "1.0.0")))); ((u "external_docs"), (XNew "Reference" (XVal (VDict [((u "ref"), (VStr (u "#/components/externalDocs/infoDocs")))]))))]));
  SLet 1 (XDump (XVar 0));
  SAssert (CEq (XVar 1) (XUnurl (XVal (VDict [((u "title"), (VStr (u "My App"))); ((u "version"), (VStr (u "1.0.0"))); ((u "externalDocs"), (VDict [((u "$ref"), (VStr (u "#/components/externalDocs/infoDocs")))]))]))))];
t "models/test_info.py::TestInfo.test_info_serialization/case_info_serialization_with_tags" [SLet 0 (XNew "Info" (XDict [((u "title"), (XVal (VStr (u "My App")))); ((u "version"), (XVal (VStr (u "1.0.0")))); ((u "tags"), (XList [(XNew "Tag" (XVal (VDict [((u "name"), (VStr (u "e-commerce")))]))); (XNew "Tag" (XVal (VDict [((u "name"), (VStr (u "user"))); ((u "description"), (VStr (u "User-related messages")))])))]))]));
  SLet 1 (XDump (XVar 0));
  SAssert (CEq (XVar 1) (XUnurl (XVal (VDict [((u "title"), (VStr (u "My App"))); ((u "version"), (VStr (u "1.0.0"))); ((u "tags"), (VList [(VDict [((u "name"), (VStr (u "e-commerce")))]); (VDict [((u "name"), (VStr (u "user"))); ((u "description"), (VStr (u "User-related messages")))])]))]))))];
t "models/test_info.py::TestInfo.test_info_with_contact_validation" [SLet 0 (XNew "Info" (XVal (VDict [((u "title"), (VStr (u "My App"))); ((u "version"), (VStr (u "1.0.0"))); ((u "contact"), (VDict [((u "name"), (VStr (u "API Support"))); ((u "url"), (VStr (u "https://www.example.com/support"))); ((u "email"), (VStr (u "support@example.com")))]))])));
  SAssert (CNot (CEq (XAttr (XVar 0) (u "contact")) (XVal VNone)));
  SAssert (CIs (XAttr (XVar 0) (u "contact")) ["Contact"]);
  SAssert (CEq (XAttr (XAttr (XVar 0) (u "contact")) (u "name")) (XVal (VStr (u "API Support"))));
  SAssert (CEq (XStr (XAttr (XAttr (XVar 0) (u "contact")) (u "url"))) (XVal (VStr (u "https://www.example.com/support"))));
  SAssert (CEq (XAttr (XAttr (XVar 0) (u "contact")) (u "email")) (XVal (VStr (u "support@example.com"))))];
t "models/test_info.py::TestInfo.test_info_with_license_validation" [SLet 0 (XNew "Info" (XVal (VDict [((u "title"), (VStr (u "My App"))); ((u "version"), (VStr (u "1.0.0"))); ((u "license"), (VDict [((u "name"), (VStr (u "Apache 2.0"))); ((u "url"), (VStr (u "https://www.apache.org/licenses/LICENSE-2.0.html")))]))])));
  SAssert (CNot (CEq (XAttr (XVar 0) (u "license")) (XVal VNone)));
  SAssert (CIs (XAttr (XVar 0) (u "license")) ["License"]);
  SAssert (CEq (XAttr (XAttr (XVar 0) (u "license")) (u "name")) (XVal (VStr (u "Apache 2.0"))));
  SAssert (CEq (XStr (XAttr (XAttr (XVar 0) (u "license")) (u "url"))) (XVal (VStr (u "https://www.apache.org/licenses/LICENSE-2.0.html"))))];
t "models/test_info.py::TestInfo.test_info_with_external_docs_validation" [SLet 0 (XNew "Info" (XVal (VDict [((u "title"), (VStr (u "My App"))); ((u "version"), (VStr (u "1.0.0"))); ((u "externalDocs"), (VDict [((u "description"), (VStr (u "Find more info here"))); ((u "url"), (VStr (u "https://www.asyncapi.org")))]))])));
  SAssert (CNot (CEq (XAttr (XVar 0) (u "external_docs")) (XVal VNone)));
  SAssert (CIs (XAttr (XVar 0) (u "external_docs")) ["ExternalDocumentation"]);
  SAssert (CEq (XStr (XAttr (XAttr (XVar 0) (u "external_docs")) (u "url"))) (XVal (VStr (u "https://www.asyncapi.org/"))));
  SAssert (CEq (XAttr (XAttr (XVar 0) (u "external_docs")) (u "description")) (XVal (VStr (u "Find more info here"))))];
t "models/test_info.py::TestInfo.test_info_with_reference_external_docs_validation" [SLet 0 (XNew "Info" (XVal (VDict [((u "title"), (VStr (u "My App"))); ((u "version"), (VStr (u "1.0.0"))); ((u "externalDocs"), (VDict [((u "$ref"), (VStr (u "#/components/externalDocs/infoDocs")))]))])));
  SAssert (CNot (CEq (XAttr (XVar 0) (u "external_docs")) (XVal VNone)));
  SAssert (CIs (XAttr (XVar 0) (u "external_docs")) ["Reference"]);
  SAssert (CEq (XAttr (XAttr (XVar 0) (u "external_docs")) (u "ref")) (XVal (VStr (u "#/components/externalDocs/infoDocs"))))];
t "models/test_info.py::TestInfo.test_info_with_tags_validation" [SLet 0 (XNew "Info" (XVal (VDict [((u "title"), (VStr (u "My App"))); ((u "version"), (VStr (u "1.0.0"))); ((u "tags"), (VList [(VDict [((u "name"), (VStr (u "e-commerce")))]); (VDict [((u "name"), (VStr (u "user"))); ((u "description"), (VStr (u "User-related messages")))])]))])));
  SAssert (CNot (CEq (XAttr (XVar 0) (u "tags")) (XVal VNone)));
  SAssert (CEq (XLen (XAttr (XVar 0) (u "tags"))) (XVal (VInt (2)%Z)));
  SAssert (CEq (XAttr (XIndex (XAttr (XVar 0) (u "tags")) 0) (u "name")) (XVal (VStr (u "e-commerce"))));
  SAssert (CEq (XAttr (XIndex (XAttr (XVar 0) (u "tags")) 1) (u "name")) (XVal (VStr (u "user"))));
  SAssert (CEq (XAttr (XIndex (XAttr (XVar 0) (u "tags")) 1) (u "description")) (XVal (VStr (u "User-related messages"))))];
t "models/test_info.py::TestInfo.test_info_required_fields_validation_error" [SRaises [SDo (XNew "Info" (XVal (VDict [((u "version"), (VStr (u "1.0.0")))])))] [];
  SRaises [SDo (XNew "Info" (XVal (VDict [((u "title"), (VStr (u "Test App")))])))] [];
  SRaises [SDo (XNew "Info" (XVal (VDict [])))] []];
t "models/test_info.py::TestInfo.test_info_extensions_validation" [SLet 0 (XNew "Info" (XVal (VDict [((u "title"), (VStr (u "My App"))); ((u "version"), (VStr (u "1.0.0"))); ((u "x-custom-extension"), (VStr (u "custom value"))); ((u "x-another-extension"), (VDict [((u "key"), (VStr (u "value")))]))])));
  SAssert (CEq (XAttr (XVar 0) (u "title")) (XVal (VStr (u "My App"))));
  SAssert (CEq (XAttr (XVar 0) (u "version")) (XVal (VStr (u "1.0.0"))));
  SAssert (CEq (XExtra (XVar 0)) (XVal (VDict [((u "x-custom-extension"), (VStr (u "custom value"))); ((u "x-another-extension"), (VDict [((u "key"), (VStr (u "value")))]))])));
  SRaises [SDo (XNew "Info" (XVal (VDict [((u "title"), (VStr (u "My App"))); ((u "version"), (VStr (u "1.0.0"))); ((u "invalid-extension"), (VStr (u "value")))])))] [(u "does not match specification extension pattern")]];
t "models/test_info.py::TestInfo.test_contact_url_validation" [SLet 0 (XNew "Contact" (XVal (VDict [((u "name"), (VStr (u "Test"))); ((u "url"), (VStr (u "https://example.com")))])));
  SAssert (CEq (XStr (XAttr (XVar 0) (u "url"))) (XVal (VStr (u "https://example.com/"))));
  SRaises [SDo (XNew "Contact" (XVal (VDict [((u "name"), (VStr (u "Test"))); ((u "url"), (VStr (u "not-a-url")))])))] []];
t "models/test_info.py::TestInfo.test_contact_email_validation" [SLet 0 (XNew "Contact" (XVal (VDict [((u "name"), (VStr (u "Test"))); ((u "email"), (VStr (u "test@example.com")))])));
  SAssert (CEq (XAttr (XVar 0) (u "email")) (XVal (VStr (u "test@example.com"))));
  SRaises [SDo (XNew "Contact" (XVal (VDict [((u "name"), (VStr (u "Test"))); ((u "email"), (VStr (u "not-an-email")))])))] [(u "Invalid email format")]]].
Definition part5 : list (string * list stmt) := [
t "models/test_info.py::TestInfo.test_license_url_validation" [SLet 0 (XNew "License" (XVal (VDict [((u "name"), (VStr (u "MIT"))); ((u "url"), (VStr (u "https://opensource.org/licenses/MIT")))])));
  SAssert (CEq (XStr (XAttr (XVar 0) (u "url"))) (XVal (VStr (u "https://opensource.org/licenses/MIT"))));
  SRaises [SDo (XNew "License" (XVal (VDict [((u "name"), (VStr (u "MIT"))); ((u "url"), (VStr (u "not-a-url")))])))] []];
t "models/test_info.py::TestInfo.test_info_terms_of_service_url_validation" [SLet 0 (XNew "Info" (XVal (VDict [((u "title"), (VStr (u "Test"))); ((u "version"), (VStr (u "1.0.0"))); ((u "terms_of_service"), (VStr (u "https://example.com/terms")))])));
  SAssert (CEq (XStr (XAttr (XVar 0) (u "terms_of_service"))) (XVal (VStr (u "https://example.com/terms"))));
  SRaises [SDo (XNew "Info" (XVal (VDict [((u "title"), (VStr (u "Test"))); ((u "version"), (VStr (u "1.0.0"))); ((u "terms_of_service"), (VStr (u "not-a-url")))])))] []];
t "models/test_message.py::TestMessageExample.test_message_example_validation/case_message_example_basic" [SLet 0 (XNew "MessageExample" (XVal (VDict [((u "headers"), (VDict [((u "correlationId"), (VStr (u "my-correlation-id"))); ((u "applicationInstanceId"), (VStr (u "myInstanceId")))])); ((u "payload"), (VDict [((u "user"), (VDict [((u "someUserKey"), (VStr (u "someUserValue")))]))]))])));
  SAssert (CNot (CEq (XVar 0) (XVal VNone)));
  SAssert (COr (CNot (CEq (XAttr (XVar 0) (u "headers")) (XVal VNone))) (CNot (CEq (XAttr (XVar 0) (u "payload")) (XVal VNone))))];
t "models/test_message.py::TestMessageExample.test_message_example_validation/case_message_example_full" [SLet 0 (XNew "MessageExample" (XVal (VDict [((u "name"), (VStr (u "SimpleSignup"))); ((u "summary"), (VStr (u "A simple UserSignup example message"))); ((u "headers"), (VDict [((u "correlationId"), (VStr (u "my-correlation-id"))); ((u "applicationInstanceId"), (VStr (u "myInstanceId")))])); ((u "payload"), (VDict [((u "user"), (VDict [((u "someUserKey"), (VStr (u "someUserValue")))])); ((u "signup"), (VDict [((u "someSignupKey"), (VStr (u "someSignupValue")))]))]))])));
  SAssert (CNot (CEq (XVar 0) (XVal VNone)));
  SAssert (COr (CNot (CEq (XAttr (XVar 0) (u "headers")) (XVal VNone))) (CNot (CEq (XAttr (XVar 0) (u "payload")) (XVal VNone))))];
t "models/test_message.py::TestMessageExample.test_message_example_serialization/case_message_example_serialization_basic" [SLet 0 (XNew "MessageExample" (XVal (VDict [((u "headers"), (VDict [((u "correlationId"), (VStr (u "my-correlation-id"))); ((u "applicationInstanceId"), (VStr (u "myInstanceId")))])); ((u "payload"), (VDict [((u "user"), (VDict [((u "someUserKey"), (VStr (u "someUserValue")))]))]))])));
  SLet 1 (XDump (XVar 0));
  SAssert (CEq (XVar 1) (XUnurl (XVal (VDict [((u "headers"), (VDict [((u "correlationId"), (VStr (u "my-correlation-id"))); ((u "applicationInstanceId"), (VStr (u "myInstanceId")))])); ((u "payload"), (VDict [((u "user"), (VDict [((u "someUserKey"), (VStr (u "someUserValue")))]))]))]))))];
t "models/test_message.py::TestMessageExample.test_message_example_serialization/case_message_example_serialization_full" [SLet 0 (XNew "MessageExample" (XVal (VDict [((u "name"), (VStr (u "SimpleSignup"))); ((u "summary"), (VStr (u "A simple UserSignup example message"))); ((u "headers"), (VDict [((u "correlationId"), (VStr (u "my-correlation-id"))); ((u "applicationInstanceId"), (VStr (u "myInstanceId")))])); ((u "payload"), (VDict [((u "user"), (VDict [((u "someUserKey"), (VStr (u "someUserValue")))])); ((u "signup"), (VDict [((u "someSignupKey"), (VStr (u "someSignupValue")))]))]))])));
  SLet 1 (XDump (XVar 0));
  SAssert (CEq (XVar 1) (XUnurl (XVal (VDict [((u "name"), (VStr (u "SimpleSignup"))); ((u "summary"), (VStr (u "A simple UserSignup example message"))); ((u "headers"), (VDict [((u "correlationId"), (VStr (u "my-correlation-id"))); ((u "applicationInstanceId"), (VStr (u "myInstanceId")))])); ((u "payload"), (VDict [((u "user"), (VDict [((u "someUserKey"), (VStr (u "someUserValue")))])); ((u "signup"), (VDict [((u "someSignupKey"), (VStr (u "someSignupValue")))]))]))]))))];
t "models/test_message.py::TestMessageExample.test_message_example_serialization/case_message_example_serialization_headers_only" [SLet 0 (XNew "MessageExample" (XVal (VDict [((u "headers"), (VDict [((u "correlationId"), (VStr (u "my-correlation-id")))]))])));
  SLet 1 (XDump (XVar 0));
  SAssert (CEq (XVar 1) (XUnurl (XVal (VDict [((u "headers"), (VDict [((u "correlationId"), (VStr (u "my-correlation-id")))]))]))))];
t "models/test_message.py::TestMessageExample.test_message_example_serialization/case_message_example_serialization_payload_only" [SLet 0 (XNew "MessageExample" (XVal (VDict [((u "payload"), (VDict [((u "user"), (VDict [((u "someUserKey"), (VStr (u "someUserValue")))]))]))])));
  SLet 1 (XDump (XVar 0));
  SAssert (CEq (XVar 1) (XUnurl (XVal (VDict [((u "payload"), (VDict [((u "user"), (VDict [((u "someUserKey"), (VStr (u "someUserValue")))]))]))]))))];
t "models/test_message.py::TestMessageExample.test_message_example_validation_error_no_headers_or_payload" [SRaises [SDo (XNew "MessageExample" (XVal (VDict [((u "name"), (VStr (u "InvalidExample"))); ((u "summary"), (VStr (u "This should fail validation")))])))] [(u "MessageExample MUST contain either headers and/or payload fields")]];
t "models/test_message.py::TestMessageTrait.test_message_trait_validation/case_message_trait_basic" [SLet 0 (XNew "MessageTrait" (XVal (VDict [((u "contentType"), (VStr (u "application/json")))])));
  SAssert (CNot (CEq (XVar 0) (XVal VNone)));
  SAssert (CEq (XAttr (XVar 0) (u "content_type")) (XVal (VStr (u "application/json"))))];
t "models/test_message.py::TestMessageTrait.test_message_trait_validation/case_message_trait_full" [SLet 0 (XNew "MessageTrait" (XVal (VDict [((u "contentType"), (VStr (u "application/json"))); ((u "name"), (VStr (u "CommonMessage"))); ((u "title"), (VStr (u "Common Message"))); ((u "summary"), (VStr (u "Common message trait"))); ((u "description"), (VStr (u "A common message trait"))); ((u "headers"), (VDict [((u "type"), (VStr (u "object"))); ((u "properties"), (VDict [((u "correlationId"), (VDict [((u "type"), (VStr (u "string")))]))]))]))])));
  SAssert (CNot (CEq (XVar 0) (XVal VNone)));
  SAssert (CEq (XAttr (XVar 0) (u "content_type")) (XVal (VStr (u "application/json"))))];
t "models/test_message.py::TestMessageTrait.test_message_trait_serialization/case_message_trait_serialization_empty" [SLet 0 (XNew "MessageTrait" (XVal (VDict [])));
  SLet 1 (XDump (XVar 0));
  SAssert (CEq (XVar 1) (XUnurl (XVal (VDict []))))];
t "models/test_message.py::TestMessageTrait.test_message_trait_serialization/case_message_trait_serialization_basic" [SLet 0 (XNew "MessageTrait" (XVal (VDict [((u "content_type"), (VStr (u "application/json")))])));
  SLet 1 (XDump (XVar 0));
  SAssert (CEq (XVar 1) (XUnurl (XVal (VDict [((u "contentType"), (VStr (u "application/json")))]))))];
t "models/test_message.py::TestMessageTrait.test_message_trait_serialization/case_message_trait_serialization_with_headers" [SLet 0 (XNew "MessageTrait" (XDict [((u "content_type"), (XVal (VStr (u "application/json")))); ((u "headers"), (XNew "Schema" (XDict [((u "type"), (XVal (VStr (u "object")))); ((u "properties"), (XDict [((u "correlationId"), (XNew "Schema" (XVal (VDict [((u "type"), (VStr (u "string")))]))))]))])))]));
  SLet 1 (XDump (XVar 0));
  SAssert (CEq (XVar 1) (XUnurl (XVal (VDict [((u "contentType"), (VStr (u "application/json"))); ((u "headers"), (VDict [((u "type"), (VStr (u "object"))); ((u "properties"), (VDict [((u "correlationId"), (VDict [((u "type"), (VStr (u "string")))]))]))]))]))))];
t "models/test_message.py::TestMessageTrait.test_message_trait_with_headers_validation" [SLet 0 (XNew "MessageTrait" (XVal (VDict [((u "contentType"), (VStr (u "application/json"))); ((u "headers"), (VDict [((u "type"), (VStr (u "object"))); ((u "properties"), (VDict [((u "correlationId"), (VDict [((u "type"), (VStr (u "string")))]))]))]))])));
  SAssert (CEq (XAttr (XVar 0) (u "content_type")) (XVal (VStr (u "application/json"))));
  SAssert (CNot (CEq (XAttr (XVar 0) (u "headers")) (XVal VNone)));
  SAssert (CIs (XAttr (XVar 0) (u "headers")) ["Schema"]);
  SAssert (CEq (XAttr (XAttr (XVar 0) (u "headers")) (u "type")) (XVal (VStr (u "object"))))];
t "models/test_message.py::TestMessage.test_message_validation/case_message_basic" [SLet 0 (XNew "Message" (XVal (VDict [((u "payload"), (VDict [((u "type"), (VStr (u "object"))); ((u "properties"), (VDict [((u "displayName"), (VDict [((u "type"), (VStr (u "string")))])); ((u "email"), (VDict [((u "type"), (VStr (u "string"))); ((u "format"), (VStr (u "email")))]))]))]))])));
  SAssert (CNot (CEq (XVar 0) (XVal VNone)));
  SAssert (CNot (CEq (XAttr (XVar 0) (u "payload")) (XVal VNone)))];
t "models/test_message.py::TestMessage.test_message_validation/case_message_full" [SLet 0 (XNew "Message" (XVal (VDict [((u "name"), (VStr (u "UserSignup"))); ((u "title"), (VStr (u "User signup"))); ((u "summary"), (VStr (u "Action to sign a user up."))); ((u "description"), (VStr (u "A longer description"))); ((u "contentType"), (VStr (u "application/json"))); ((u "tags"), (VList [(VDict [((u "name"), (VStr (u "user")))]); (VDict [((u "name"), (VStr (u "signup")))])])); ((u "headers"), (VDict [((u "type"), (VStr (u "object"))); ((u "properties"), (VDict [((u "correlationId"), (VDict [((u "description"), (VStr (u "Correlation ID set by application"))); ((u "type"), (VStr (u "string")))]))]))])); ((u "payload"), (VDict [((u "type"), (VStr (u "object"))); ((u "properties"), (VDict [((u "user"), (VDict [((u "$ref"), (VStr (u "#/components/schemas/userCreate")))]))]))])); ((u "correlationId"), (VDict [((u "description"), (VStr (u "Default Correlation ID"))); ((u "location"), (VStr (u "$message.header#/correlationId")))])); ((u "examples"), (VList [(VDict [((u "name"), (VStr (u "SimpleSignup"))); ((u "summary"), (VStr (u "A simple UserSignup example message"))); ((u "headers"), (VDict [((u "correlationId"), (VStr (u "my-correlation-id")))])); ((u "payload"), (VDict [((u "user"), (VDict [((u "someUserKey"), (VStr (u "someUserValue")))]))]))])]))])));
  SAssert (CNot (CEq (XVar 0) (XVal VNone)));
  SAssert (CNot (CEq (XAttr (XVar 0) (u "payload")) (XVal VNone)))];
t "models/test_message.py::TestMessage.test_message_serialization/case_message_serialization_empty" [SLet 0 (XNew "Message" (XVal (VDict [])));
  SLet 1 (XDump (XVar 0));
  SAssert (CEq (XVar 1) (XUnurl (XVal (VDict []))))];
t "models/test_message.py::TestMessage.test_message_serialization/case_message_serialization_basic" [SLet 0 (XNew "Message" (XDict [((u "payload"), (XNew "Schema" (XDict [((u "type"), (XVal (VStr (u "object")))); ((u "properties"), (XDict [((u "displayName"), (XNew "Schema" (XVal (VDict [((u "type"), (VStr (u "string")))])))); ((u "email"), (XNew "Schema" (XVal (VDict [((u "type"), (VStr (u "string"))); ((u "format"), (VStr (u "email")))]))))]))])))]));
  SLet 1 (XDump (XVar 0));
  SAssert (CEq (XVar 1) (XUnurl (XVal (VDict [((u "payload"), (VDict [((u "type"), (VStr (u "object"))); ((u "properties"), (VDict [((u "displayName"), (VDict [((u "type"), (VStr (u "string")))])); ((u "email"), (VDict [((u "type"), (VStr (u "string"))); ((u "format"), (VStr (u "email")))]))]))]))]))))];
t "models/test_message.py::TestMessage.test_message_serialization/case_message_serialization_with_reference_payload" [SLet 0 (XNew "Message" (XDict [((u "payload"), (XNew "Reference" (XVal (VDict [((u "ref"), (VStr (u "#/components/schemas/userCreate")))]))))]));
  SLet 1 (XDump (XVar 0));
  SAssert (CEq (XVar 1) (XUnurl (XVal (VDict [((u "payload"), (VDict [((u "$ref"), (VStr (u "#/components/schemas/userCreate")))]))]))))];
t "models/test_message.py::TestMessage.test_message_serialization/case_message_serialization_with_examples" [SLet 0 (XNew "Message" (XDict [((u "payload"), (XNew "Schema" (XVal (VDict [((u "type"), (VStr (u "object")))])))); ((u "examples"), (XList [(XNew "MessageExample" (XVal (VDict [((u "name"), (VStr (u "SimpleSignup"))); ((u "summary"), (VStr (u "A simple UserSignup example message"))); ((u "headers"), (VDict [((u "correlationId"), (VStr (u "my-correlation-id")))])); ((u "payload"), (VDict [((u "user"), (VDict [((u "someUserKey"), (VStr (u "someUserValue")))]))]))])))]))]));
  SLet 1 (XDump (XVar 0));
  SAssert (CEq (XVar 1) (XUnurl (XVal (VDict [((u "payload"), (VDict [((u "type"), (VStr (u "object")))])); ((u "examples"), (VList [(VDict [((u "name"), (VStr (u "SimpleSignup"))); ((u "summary"), (VStr (u "A simple UserSignup example message"))); ((u "headers"), (VDict [((u "correlationId"), (VStr (u "my-correlation-id")))])); ((u "payload"), (VDict [((u "user"), (VDict [((u "someUserKey"), (VStr (u "someUserValue")))]))]))])]))]))))];
t "models/test_message.py::TestMessage.test_message_serialization/case_message_serialization_with_traits" [SLet 0 (XNew "Message" (XDict [((u "payload"), (XNew "Schema" (XVal (VDict [((u "type"), (VStr (u "object")))])))); ((u "traits"), (XList [(XNew "Reference" (XVal (VDict [((u "ref"), (VStr (u "#/components/messageTraits/commonHeaders")))])))]))]));
  SLet 1 (XDump (XVar 0));
  SAssert (CEq (XVar 1) (XUnurl (XVal (VDict [((u "payload"), (VDict [((u "type"), (VStr (u "object")))])); ((u "traits"), (VList [(VDict [((u "$ref"), (VStr (u "#/components/messageTraits/commonHeaders")))])]))]))))];
t "models/test_message.py::TestMessage.test_message_with_examples_validation" [SLet 0 (XNew "Message" (XVal (VDict [((u "payload"), (VDict [((u "type"), (VStr (u "object")))])); ((u "examples"), (VList [(VDict [((u "name"), (VStr (u "SimpleSignup"))); ((u "summary"), (VStr (u "A simple UserSignup example message"))); ((u "headers"), (VDict [((u "correlationId"), (VStr (u "my-correlation-id")))])); ((u "payload"), (VDict [((u "user"), (VDict [((u "someUserKey"), (VStr (u "someUserValue")))]))]))])]))])));
  SAssert (CNot (CEq (XAttr (XVar 0) (u "examples")) (XVal VNone)));
  SAssert (CEq (XLen (XAttr (XVar 0) (u "examples"))) (XVal (VInt (1)%Z)));
  SAssert (CIs (XIndex (XAttr (XVar 0) (u "examples")) 0) ["MessageExample"]);
  SAssert (CEq (XAttr (XIndex (XAttr (XVar 0) (u "examples")) 0) (u "name")) (XVal (VStr (u "SimpleSignup"))));
  SAssert (CEq (XAttr (XIndex (XAttr (XVar 0) (u "examples")) 0) (u "summary")) (XVal (VStr (u "A simple UserSignup example message"))))];
t "models/test_message.py::TestMessage.test_message_with_traits_validation" [SLet 0 (XNew "Message" (XVal (VDict [((u "payload"), (VDict [((u "type"), (VStr (u "object")))])); ((u "traits"), (VList [(VDict [((u "$ref"), (VStr (u "#/components/messageTraits/commonHeaders")))])]))])));
  SAssert (CNot (CEq (XAttr (XVar 0) (u "traits")) (XVal VNone)));
  SAssert (CEq (XLen (XAttr (XVar 0) (u "traits"))) (XVal (VInt (1)%Z)));
  SAssert (CIs (XIndex (XAttr (XVar 0) (u "traits")) 0) ["Reference"]);
  SAssert (CEq (XAttr (XIndex (XAttr (XVar 0) (u "traits")) 0) (u "ref")) (XVal (VStr (u "#/components/messageTraits/commonHeaders"))))];
t "models/test_message.py::TestMessage.test_message_with_reference_payload_validation" [SLet 0 (XNew "Message" (XVal (VDict [((u "payload"), (VDict [((u "$ref"), (VStr (u "#/components/schemas/userCreate")))]))])));
  SAssert (CNot (CEq (XAttr (XVar 0) (u "payload")) (XVal VNone)));
  SAssert (CIs (XAttr (XVar 0) (u "payload")) ["Reference"]);
  SAssert (CEq (XAttr (XAttr (XVar 0) (u "payload")) (u "ref")) (XVal (VStr (u "#/components/schemas/userCreate"))))];
t "models/test_message.py::TestMessages.test_messages_validation/case_messages_basic" [SLet 0 (XNew "Messages" (XVal (VDict [((u "UserSignedUp"), (VDict [((u "payload"), (VDict [((u "type"), (VStr (u "object"))); ((u "properties"), (VDict [((u "displayName"), (VDict [((u "type"), (VStr (u "string")))])); ((u "email"), (VDict [((u "type"), (VStr (u "string"))); ((u "format"), (VStr (u "email")))]))]))]))])); ((u "UserLoggedOut"), (VDict [((u "payload"), (VDict [((u "type"), (VStr (u "object"))); ((u "properties"), (VDict [((u "userId"), (VDict [((u "type"), (VStr (u "string")))]))]))]))]))])));
  SAssert (CNot (CEq (XVar 0) (XVal VNone)));
  SAssert (CIs (XAttr (XVar 0) (u "root")) ["dict"]);
  SAssert (CGt (XLen (XAttr (XVar 0) (u "root"))) (0)%Z)];
t "models/test_message.py::TestMessages.test_messages_validation/case_messages_with_references" [SLet 0 (XNew "Messages" (XVal (VDict [((u "UserSignedUp"), (VDict [((u "$ref"), (VStr (u "#/components/messages/UserSignedUp")))])); ((u "UserLoggedOut"), (VDict [((u "$ref"), (VStr (u "#/components/messages/UserLoggedOut")))]))])));
  SAssert (CNot (CEq (XVar 0) (XVal VNone)));
  SAssert (CIs (XAttr (XVar 0) (u "root")) ["dict"]);
  SAssert (CGt (XLen (XAttr (XVar 0) (u "root"))) (0)%Z)];
t "models/test_message.py::TestMessages.test_messages_validation_errors/case_messages_invalid_key_spaces" [SRaises [SDo (XNew "Messages" (XVal (VDict [((u "user signed up"), (VDict [((u "payload"), (VDict [((u "type"), (VStr (u "object")))]))]))])))] [(u "Field 'user signed up' does not match patterned object key pattern. Keys must contain letters, digits, hyphens, and underscores.")]];
t "models/test_message.py::TestMessages.test_messages_validation_errors/case_messages_invalid_key_special_chars" [SRaises [SDo (XNew "Messages" (XVal (VDict [((u "user@signed@up"), (VDict [((u "payload"), (VDict [((u "type"), (VStr (u "object")))]))]))])))] [(u "Field 'user@signed@up' does not match patterned object key pattern. Keys must contain letters, digits, hyphens, and underscores.")]];
t "models/test_message.py::TestMessages.test_messages_validation_errors/case_messages_invalid_key_parentheses" [SRaises [SDo (XNew "Messages" (XVal (VDict [((u "user(signed)up"), (VDict [((u "payload"), (VDict [((u "type"), (VStr (u "object")))]))]))])))] [(u "Field 'user(signed)up' does not match patterned object key pattern. Keys must contain letters, digits, hyphens, and underscores.")]];
t "models/test_message.py::TestMessages.test_messages_empty_dict_validation" [SLet 0 (XNew "Messages" (XVal (VDict [])));
  SAssert (CNot (CEq (XVar 0) (XVal VNone)));
  SAssert (CEq (XAttr (XVar 0) (u "root")) (XVal (VDict [])));
  SAssert (CEq (XLen (XAttr (XVar 0) (u "root"))) (XVal (VInt (0)%Z)))];
t "models/test_message.py::TestMessages.test_messages_iteration" [SLet 0 (XNew "Message" (XDict [((u "payload"), (XNew "Schema" (XDict [((u "type"), (XVal (VStr (u "object")))); ((u "properties"), (XDict [((u "displayName"), (XNew "Schema" (XVal (VDict [((u "type"), (VStr (u "string")))])))); ((u "email"), (XNew "Schema" (XVal (VDict [((u "type"), (VStr (u "string"))); ((u "format"), (VStr (u "email")))]))))]))])))]));
  SLet 1 (XNew "Message" (XDict [((u "payload"), (XNew "Schema" (XDict [((u "type"), (XVal (VStr (u "object")))); ((u "properties"), (XDict [((u "userId"), (XNew "Schema" (XVal (VDict [((u "type"), (VStr (u "string")))]))))]))])))]));
  SLet 2 (XNew "Messages" (XDict [((u "UserSignedUp"), (XVar 0)); ((u "UserLoggedOut"), (XVar 1))]));
  SLet 3 (XKeys (XVar 2));
  SAssert (CEq (XLen (XVar 3)) (XVal (VInt (2)%Z)));
  SAssert (CIn (u "UserSignedUp") (XVar 3));
  SAssert (CIn (u "UserLoggedOut") (XVar 3))];
t "models/test_message.py::TestMessages.test_messages_getitem" [SLet 0 (XNew "Message" (XDict [((u "payload"), (XNew "Schema" (XDict [((u "type"), (XVal (VStr (u "object")))); ((u "properties"), (XDict [((u "displayName"), (XNew "Schema" (XVal (VDict [((u "type"), (VStr (u "string")))])))); ((u "email"), (XNew "Schema" (XVal (VDict [((u "type"), (VStr (u "string"))); ((u "format"), (VStr (u "email")))]))))]))])))]));
  SLet 1 (XNew "Message" (XDict [((u "payload"), (XNew "Schema" (XDict [((u "type"), (XVal (VStr (u "object")))); ((u "properties"), (XDict [((u "userId"), (XNew "Schema" (XVal (VDict [((u "type"), (VStr (u "string")))]))))]))])))]));
  SLet 2 (XNew "Messages" (XDict [((u "UserSignedUp"), (XVar 0)); ((u "UserLoggedOut"), (XVar 1))]));
  SAssert (CEq (XItem (XVar 2) (u "UserSignedUp")) (XVar 0));
  SAssert (CEq (XItem (XVar 2) (u "UserLoggedOut")) (XVar 1))];
t "models/test_message.py::TestMessages.test_messages_getattr" [SLet 0 (XNew "Message" (XDict [((u "payload"), (XNew "Schema" (XDict [((u "type"), (XVal (VStr (u "object")))); ((u "properties"), (XDict [((u "displayName"), (XNew "Schema" (XVal (VDict [((u "type"), (VStr (u "string")))])))); ((u "email"), (XNew "Schema" (XVal (VDict [((u "type"), (VStr (u "string"))); ((u "format"), (VStr (u "email")))]))))]))])))]));
  SLet 1 (XNew "Message" (XDict [((u "payload"), (XNew "Schema" (XDict [((u "type"), (XVal (VStr (u "object")))); ((u "properties"), (XDict [((u "userId"), (XNew "Schema" (XVal (VDict [((u "type"), (VStr (u "string")))]))))]))])))]));
  SLet 2 (XNew "Messages" (XDict [((u "UserSignedUp"), (XVar 0)); ((u "UserLoggedOut"), (XVar 1))]));
  SAssert (CEq (XItem (XVar 2) (u "UserSignedUp")) (XVar 0));
  SAssert (CEq (XItem (XVar 2) (u "UserLoggedOut")) (XVar 1))];
t "models/test_operation.py::TestOperationReplyAddress.test_operation_reply_address_validation/case_operation_reply_address_basic" [SLet 0 (XNew "OperationReplyAddress" (XVal (VDict [((u "location"), (VStr (u "$message.header#/replyTo")))])));
  SAssert (CNot (CEq (XVar 0) (XVal VNone)));
  SAssert (CEq (XAttr (XVar 0) (u "location")) (XVal (VStr (u "$message.header#/replyTo"))))];
t "models/test_operation.py::TestOperationReplyAddress.test_operation_reply_address_validation/case_operation_reply_address_full" [SLet 0 (XNew "OperationReplyAddress" (XVal (VDict [((u "location"), (VStr (u "$message.header#/replyTo"))); ((u "description"), (VStr (u "Reply address location")))])));
  SAssert (CNot (CEq (XVar 0) (XVal VNone)));
  SAssert (CEq (XAttr (XVar 0) (u "location")) (XVal (VStr (u "$message.header#/replyTo"))))];
t "models/test_operation.py::TestOperationReplyAddress.test_operation_reply_address_serialization/case_operation_reply_address_serialization_basic" [SLet 0 (XNew "OperationReplyAddress" (XVal (VDict [((u "location"), (VStr (u "$message.header#/replyTo")))])));
  SLet 1 (XDump (XVar 0));
  SAssert (CEq (XVar 1) (XUnurl (XVal (VDict [((u "location"), (VStr (u "$message.header#/replyTo")))]))))];
t "models/test_operation.py::TestOperationReplyAddress.test_operation_reply_address_serialization/case_operation_reply_address_serialization_full" [SLet 0 (XNew "OperationReplyAddress" (XVal (VDict [((u "location"), (VStr (u "$message.header#/replyTo"))); ((u "description"), (VStr (u "Reply address location")))])));
  SLet 1 (XDump (XVar 0));
  SAssert (CEq (XVar 1) (XUnurl (XVal (VDict [((u "location"), (VStr (u "$message.header#/replyTo"))); ((u "description"), (VStr (u "Reply address location")))]))))];
t "models/test_operation.py::TestOperationReply.test_operation_reply_validation/case_operation_reply_basic" [SLet 0 (XNew "OperationReply" (XVal (VDict [((u "address"), (VDict [((u "location"), (VStr (u "$message.header#/replyTo")))]))])));
  SAssert (CNot (CEq (XVar 0) (XVal VNone)));
  SAssert (CNot (CEq (XAttr (XVar 0) (u "address")) (XVal VNone)))];
t "models/test_operation.py::TestOperationReply.test_operation_reply_validation/case_operation_reply_full" [SLet 0 (XNew "OperationReply" (XVal (VDict [((u "address"), (VDict [((u "location"), (VStr (u "$message.header#/replyTo"))); ((u "description"), (VStr (u "Reply address location")))])); ((u "channel"), (VDict [((u "$ref"), (VStr (u "#/channels/userSignupReply")))])); ((u "messages"), (VList [(VDict [((u "$ref"), (VStr (u "#/channels/userSignupReply/messages/userSignedUpReply")))])]))])));
  SAssert (CNot (CEq (XVar 0) (XVal VNone)));
  SAssert (CNot (CEq (XAttr (XVar 0) (u "address")) (XVal VNone)))]].
Definition part6 : list (string * list stmt) := [
t "models/test_operation.py::TestOperationReply.test_operation_reply_serialization/case_operation_reply_serialization_basic" [SLet 0 (XNew "OperationReply" (XDict [((u "address"), (XNew "OperationReplyAddress" (XVal (VDict [((u "location"), (VStr (u "$message.header#/replyTo")))]))))]));
  SLet 1 (XDump (XVar 0));
  SAssert (CEq (XVar 1) (XUnurl (XVal (VDict [((u "address"), (VDict [((u "location"), (VStr (u "$message.header#/replyTo")))]))]))))];
t "models/test_operation.py::TestOperationReply.test_operation_reply_serialization/case_operation_reply_serialization_with_reference_channel" [SLet 0 (XNew "OperationReply" (XDict [((u "address"), (XNew "OperationReplyAddress" (XVal (VDict [((u "location"), (VStr (u "$message.header#/replyTo")))])))); ((u "channel"), (XNew "Reference" (XVal (VDict [((u "ref"), (VStr (u "#/channels/userSignupReply")))]))))]));
  SLet 1 (XDump (XVar 0));
  SAssert (CEq (XVar 1) (XUnurl (XVal (VDict [((u "address"), (VDict [((u "location"), (VStr (u "$message.header#/replyTo")))])); ((u "channel"), (VDict [((u "$ref"), (VStr (u "#/channels/userSignupReply")))]))]))))];
t "models/test_operation.py::TestOperationReply.test_operation_reply_serialization/case_operation_reply_serialization_full" [SLet 0 (XNew "OperationReply" (XDict [((u "address"), (XNew "OperationReplyAddress" (XVal (VDict [((u "location"), (VStr (u "$message.header#/replyTo"))); ((u "description"), (VStr (u "Reply address location")))])))); ((u "channel"), (XNew "Reference" (XVal (VDict [((u "ref"), (VStr (u "#/channels/userSignupReply")))])))); ((u "messages"), (XList [(XNew "Reference" (XVal (VDict [((u "ref"), (VStr (u "#/channels/userSignupReply/messages/userSignedUpReply")))])))]))]));
  SLet 1 (XDump (XVar 0));
  SAssert (CEq (XVar 1) (XUnurl (XVal (VDict [((u "address"), (VDict [((u "location"), (VStr (u "$message.header#/replyTo"))); ((u "description"), (VStr (u "Reply address location")))])); ((u "channel"), (VDict [((u "$ref"), (VStr (u "#/channels/userSignupReply")))])); ((u "messages"), (VList [(VDict [((u "$ref"), (VStr (u "#/channels/userSignupReply/messages/userSignedUpReply")))])]))]))))];
t "models/test_operation.py::TestOperationReply.test_operation_reply_with_reference_channel_validation" [SLet 0 (XNew "OperationReply" (XVal (VDict [((u "address"), (VDict [((u "location"), (VStr (u "$message.header#/replyTo")))])); ((u "channel"), (VDict [((u "$ref"), (VStr (u "#/channels/userSignupReply")))]))])));
  SAssert (CNot (CEq (XAttr (XVar 0) (u "channel")) (XVal VNone)));
  SAssert (CIs (XAttr (XVar 0) (u "channel")) ["Reference"]);
  SAssert (CEq (XAttr (XAttr (XVar 0) (u "channel")) (u "ref")) (XVal (VStr (u "#/channels/userSignupReply"))))];
t "models/test_operation.py::TestOperationTrait.test_operation_trait_validation/case_operation_trait_basic" [SLet 0 (XNew "OperationTrait" (XVal (VDict [((u "bindings"), (VDict [((u "amqp"), (VDict [((u "ack"), (VBool false))]))]))])));
  SAssert (CNot (CEq (XVar 0) (XVal VNone)))];
t "models/test_operation.py::TestOperationTrait.test_operation_trait_validation/case_operation_trait_full" [SLet 0 (XNew "OperationTrait" (XVal (VDict [((u "title"), (VStr (u "User sign up"))); ((u "summary"), (VStr (u "Action to sign a user up."))); ((u "description"), (VStr (u "A longer description"))); ((u "bindings"), (VDict [((u "amqp"), (VDict [((u "ack"), (VBool false))]))]))])));
  SAssert (CNot (CEq (XVar 0) (XVal VNone)))];
t "models/test_operation.py::TestOperationTrait.test_operation_trait_serialization/case_operation_trait_serialization_empty" [SLet 0 (XNew "OperationTrait" (XVal (VDict [])));
  SLet 1 (XDump (XVar 0));
  SAssert (CEq (XVar 1) (XUnurl (XVal (VDict []))))];
t "models/test_operation.py::TestOperation.test_operation_validation/case_operation_basic" [SLet 0 (XNew "Operation" (XVal (VDict [((u "action"), (VStr (u "send"))); ((u "channel"), (VDict [((u "$ref"), (VStr (u "#/channels/userSignup")))]))])));
  SAssert (CNot (CEq (XVar 0) (XVal VNone)));
  SAssert (COr (CEq (XAttr (XVar 0) (u "action")) (XVal (VStr (u "send")))) (CEq (XAttr (XVar 0) (u "action")) (XVal (VStr (u "receive")))));
  SAssert (CNot (CEq (XAttr (XVar 0) (u "channel")) (XVal VNone)))];
t "models/test_operation.py::TestOperation.test_operation_validation/case_operation_full" [SLet 0 (XNew "Operation" (XVal (VDict [((u "title"), (VStr (u "User sign up"))); ((u "summary"), (VStr (u "Action to sign a user up."))); ((u "description"), (VStr (u "A longer description"))); ((u "channel"), (VDict [((u "$ref"), (VStr (u "#/channels/userSignup")))])); ((u "action"), (VStr (u "send"))); ((u "tags"), (VList [(VDict [((u "name"), (VStr (u "user")))]); (VDict [((u "name"), (VStr (u "signup")))])])); ((u "bindings"), (VDict [((u "amqp"), (VDict [((u "ack"), (VBool false))]))])); ((u "traits"), (VList [(VDict [((u "$ref"), (VStr (u "#/components/operationTraits/kafka")))])])); ((u "messages"), (VList [(VDict [((u "$ref"), (VStr (u "#/channels/userSignup/messages/userSignedUp")))])])); ((u "reply"), (VDict [((u "address"), (VDict [((u "location"), (VStr (u "$message.header#/replyTo")))])); ((u "channel"), (VDict [((u "$ref"), (VStr (u "#/channels/userSignupReply")))]))]))])));
  SAssert (CNot (CEq (XVar 0) (XVal VNone)));
  SAssert (COr (CEq (XAttr (XVar 0) (u "action")) (XVal (VStr (u "send")))) (CEq (XAttr (XVar 0) (u "action")) (XVal (VStr (u "receive")))));
  SAssert (CNot (CEq (XAttr (XVar 0) (u "channel")) (XVal VNone)))];
t "models/test_operation.py::TestOperation.test_operation_serialization/case_operation_serialization_basic" [SLet 0 (XNew "Operation" (XDict [((u "action"), (XVal (VStr (u "send")))); ((u "channel"), (XNew "Reference" (XVal (VDict [((u "ref"), (VStr (u "#/channels/userSignup")))]))))]));
  SLet 1 (XDump (XVar 0));
  SAssert (CEq (XVar 1) (XUnurl (XVal (VDict [((u "action"), (VStr (u "send"))); ((u "channel"), (VDict [((u "$ref"), (VStr (u "#/channels/userSignup")))]))]))))];
t "models/test_operation.py::TestOperation.test_operation_serialization/case_operation_serialization_with_reply" [SLet 0 (XNew "Operation" (XDict [((u "action"), (XVal (VStr (u "send")))); ((u "channel"), (XNew "Reference" (XVal (VDict [((u "ref"), (VStr (u "#/channels/userSignup")))])))); ((u "reply"), (XNew "OperationReply" (XDict [((u "address"), (XNew "OperationReplyAddress" (XVal (VDict [((u "location"), (VStr (u "$message.header#/replyTo")))])))); ((u "channel"), (XNew "Reference" (XVal (VDict [((u "ref"), (VStr (u "#/channels/userSignupReply")))]))))])))]));
  SLet 1 (XDump (XVar 0));
  SAssert (CEq (XVar 1) (XUnurl (XVal (VDict [((u "action"), (VStr (u "send"))); ((u "channel"), (VDict [((u "$ref"), (VStr (u "#/channels/userSignup")))])); ((u "reply"), (VDict [((u "address"), (VDict [((u "location"), (VStr (u "$message.header#/replyTo")))])); ((u "channel"), (VDict [((u "$ref"), (VStr (u "#/channels/userSignupReply")))]))]))]))))];
t "models/test_operation.py::TestOperation.test_operation_serialization/case_operation_serialization_with_messages" [SLet 0 (XNew "Operation" (XDict [((u "action"), (XVal (VStr (u "send")))); ((u "channel"), (XNew "Reference" (XVal (VDict [((u "ref"), (VStr (u "#/channels/userSignup")))])))); ((u "messages"), (XList [(XNew "Reference" (XVal (VDict [((u "ref"), (VStr (u "#/channels/userSignup/messages/userSignedUp")))])))]))]));
  SLet 1 (XDump (XVar 0));
  SAssert (CEq (XVar 1) (XUnurl (XVal (VDict [((u "action"), (VStr (u "send"))); ((u "channel"), (VDict [((u "$ref"), (VStr (u "#/channels/userSignup")))])); ((u "messages"), (VList [(VDict [((u "$ref"), (VStr (u "#/channels/userSignup/messages/userSignedUp")))])]))]))))];
t "models/test_operation.py::TestOperation.test_operation_serialization/case_operation_serialization_with_traits" [SLet 0 (XNew "Operation" (XDict [((u "action"), (XVal (VStr (u "send")))); ((u "channel"), (XNew "Reference" (XVal (VDict [((u "ref"), (VStr (u "#/channels/userSignup")))])))); ((u "traits"), (XList [(XNew "Reference" (XVal (VDict [((u "ref"), (VStr (u "#/components/operationTraits/kafka")))])))]))]));
  SLet 1 (XDump (XVar 0));
  SAssert (CEq (XVar 1) (XUnurl (XVal (VDict [((u "action"), (VStr (u "send"))); ((u "channel"), (VDict [((u "$ref"), (VStr (u "#/channels/userSignup")))])); ((u "traits"), (VList [(VDict [((u "$ref"), (VStr (u "#/components/operationTraits/kafka")))])]))]))))];
t "models/test_operation.py::TestOperation.test_operation_with_reply_validation" [SLet 0 (XNew "Operation" (XVal (VDict [((u "action"), (VStr (u "send"))); ((u "channel"), (VDict [((u "$ref"), (VStr (u "#/channels/userSignup")))])); ((u "reply"), (VDict [((u "address"), (VDict [((u "location"), (VStr (u "$message.header#/replyTo")))])); ((u "channel"), (VDict [((u "$ref"), (VStr (u "#/channels/userSignupReply")))]))]))])));
  SAssert (CNot (CEq (XAttr (XVar 0) (u "reply")) (XVal VNone)));
  SAssert (CIs (XAttr (XVar 0) (u "reply")) ["OperationReply"]);
  SAssert (CNot (CEq (XAttr (XAttr (XVar 0) (u "reply")) (u "address")) (XVal VNone)));
  SAssert (CEq (XAttr (XAttr (XAttr (XVar 0) (u "reply")) (u "address")) (u "location")) (XVal (VStr (u "$message.header#/replyTo"))))];
t "models/test_operation.py::TestOperation.test_operation_with_messages_validation" [SLet 0 (XNew "Operation" (XVal (VDict [((u "action"), (VStr (u "send"))); ((u "channel"), (VDict [((u "$ref"), (VStr (u "#/channels/userSignup")))])); ((u "messages"), (VList [(VDict [((u "$ref"), (VStr (u "#/channels/userSignup/messages/userSignedUp")))])]))])));
  SAssert (CNot (CEq (XAttr (XVar 0) (u "messages")) (XVal VNone)));
  SAssert (CEq (XLen (XAttr (XVar 0) (u "messages"))) (XVal (VInt (1)%Z)));
  SAssert (CIs (XIndex (XAttr (XVar 0) (u "messages")) 0) ["Reference"]);
  SAssert (CEq (XAttr (XIndex (XAttr (XVar 0) (u "messages")) 0) (u "ref")) (XVal (VStr (u "#/channels/userSignup/messages/userSignedUp"))))];
t "models/test_operation.py::TestOperation.test_operation_with_traits_validation" [SLet 0 (XNew "Operation" (XVal (VDict [((u "action"), (VStr (u "send"))); ((u "channel"), (VDict [((u "$ref"), (VStr (u "#/channels/userSignup")))])); ((u "traits"), (VList [(VDict [((u "$ref"), (VStr (u "#/components/operationTraits/kafka")))])]))])));
  SAssert (CNot (CEq (XAttr (XVar 0) (u "traits")) (XVal VNone)));
  SAssert (CEq (XLen (XAttr (XVar 0) (u "traits"))) (XVal (VInt (1)%Z)));
  SAssert (CIs (XIndex (XAttr (XVar 0) (u "traits")) 0) ["Reference"]);
  SAssert (CEq (XAttr (XIndex (XAttr (XVar 0) (u "traits")) 0) (u "ref")) (XVal (VStr (u "#/components/operationTraits/kafka"))))];
t "models/test_operation.py::TestOperations.test_operations_validation/case_operations_basic" [SLet 0 (XNew "Operations" (XVal (VDict [((u "sendUserSignup"), (VDict [((u "action"), (VStr (u "send"))); ((u "channel"), (VDict [((u "$ref"), (VStr (u "#/channels/userChannel")))]))])); ((u "receiveUserSignup"), (VDict [((u "action"), (VStr (u "receive"))); ((u "channel"), (VDict [((u "$ref"), (VStr (u "#/channels/userChannel")))]))]))])));
  SAssert (CNot (CEq (XVar 0) (XVal VNone)));
  SAssert (CIs (XAttr (XVar 0) (u "root")) ["dict"]);
  SAssert (CGt (XLen (XAttr (XVar 0) (u "root"))) (0)%Z)];
t "models/test_operation.py::TestOperations.test_operations_validation/case_operations_with_references" [SLet 0 (XNew "Operations" (XVal (VDict [((u "sendUserSignup"), (VDict [((u "$ref"), (VStr (u "#/components/operations/sendUserSignup")))])); ((u "receiveUserSignup"), (VDict [((u "$ref"), (VStr (u "#/components/operations/receiveUserSignup")))]))])));
  SAssert (CNot (CEq (XVar 0) (XVal VNone)));
  SAssert (CIs (XAttr (XVar 0) (u "root")) ["dict"]);
  SAssert (CGt (XLen (XAttr (XVar 0) (u "root"))) (0)%Z)];
t "models/test_operation.py::TestOperations.test_operations_validation_errors/case_operations_invalid_key_spaces" [SRaises [SDo (XNew "Operations" (XVal (VDict [((u "send user signup"), (VDict [((u "action"), (VStr (u "send"))); ((u "channel"), (VDict [((u "$ref"), (VStr (u "#/channels/userChannel")))]))]))])))] [(u "Field 'send user signup' does not match patterned object key pattern. Keys must contain letters, digits, hyphens, and underscores.")]];
t "models/test_operation.py::TestOperations.test_operations_validation_errors/case_operations_invalid_key_special_chars" [SRaises [SDo (XNew "Operations" (XVal (VDict [((u "send@user@signup"), (VDict [((u "action"), (VStr (u "send"))); ((u "channel"), (VDict [((u "$ref"), (VStr (u "#/channels/userChannel")))]))]))])))] [(u "Field 'send@user@signup' does not match patterned object key pattern. Keys must contain letters, digits, hyphens, and underscores.")]];
t "models/test_operation.py::TestOperations.test_operations_validation_errors/case_operations_invalid_key_parentheses" [SRaises [SDo (XNew "Operations" (XVal (VDict [((u "send(user)signup"), (VDict [((u "action"), (VStr (u "send"))); ((u "channel"), (VDict [((u "$ref"), (VStr (u "#/channels/userChannel")))]))]))])))] [(u "Field 'send(user)signup' does not match patterned object key pattern. Keys must contain letters, digits, hyphens, and underscores.")]];
t "models/test_operation.py::TestOperations.test_operations_empty_dict_validation" [SLet 0 (XNew "Operations" (XVal (VDict [])));
  SAssert (CNot (CEq (XVar 0) (XVal VNone)));
  SAssert (CEq (XAttr (XVar 0) (u "root")) (XVal (VDict [])));
  SAssert (CEq (XLen (XAttr (XVar 0) (u "root"))) (XVal (VInt (0)%Z)))];
t "models/test_operation.py::TestOperations.test_operations_iteration" [SLet 0 (XNew "Operation" (XDict [((u "action"), (XVal (VStr (u "send")))); ((u "channel"), (XNew "Reference" (XVal (VDict [((u "ref"), (VStr (u "#/channels/userChannel")))]))))]));
  SLet 1 (XNew "Operation" (XDict [((u "action"), (XVal (VStr (u "receive")))); ((u "channel"), (XNew "Reference" (XVal (VDict [((u "ref"), (VStr (u "#/channels/userChannel")))]))))]));
  SLet 2 (XNew "Operations" (XDict [((u "sendUserSignup"), (XVar 0)); ((u "receiveUserSignup"), (XVar 1))]));
  SLet 3 (XKeys (XVar 2));
  SAssert (CEq (XLen (XVar 3)) (XVal (VInt (2)%Z)));
  SAssert (CIn (u "sendUserSignup") (XVar 3));
  SAssert (CIn (u "receiveUserSignup") (XVar 3))];
t "models/test_operation.py::TestOperations.test_operations_getitem" [SLet 0 (XNew "Operation" (XDict [((u "action"), (XVal (VStr (u "send")))); ((u "channel"), (XNew "Reference" (XVal (VDict [((u "ref"), (VStr (u "#/channels/userChannel")))]))))]));
  SLet 1 (XNew "Operation" (XDict [((u "action"), (XVal (VStr (u "receive")))); ((u "channel"), (XNew "Reference" (XVal (VDict [((u "ref"), (VStr (u "#/channels/userChannel")))]))))]));
  SLet 2 (XNew "Operations" (XDict [((u "sendUserSignup"), (XVar 0)); ((u "receiveUserSignup"), (XVar 1))]));
  SAssert (CEq (XItem (XVar 2) (u "sendUserSignup")) (XVar 0));
  SAssert (CEq (XItem (XVar 2) (u "receiveUserSignup")) (XVar 1))];
t "models/test_operation.py::TestOperations.test_operations_getattr" [SLet 0 (XNew "Operation" (XDict [((u "action"), (XVal (VStr (u "send")))); ((u "channel"), (XNew "Reference" (XVal (VDict [((u "ref"), (VStr (u "#/channels/userChannel")))]))))]));
  SLet 1 (XNew "Operation" (XDict [((u "action"), (XVal (VStr (u "receive")))); ((u "channel"), (XNew "Reference" (XVal (VDict [((u "ref"), (VStr (u "#/channels/userChannel")))]))))]));
  SLet 2 (XNew "Operations" (XDict [((u "sendUserSignup"), (XVar 0)); ((u "receiveUserSignup"), (XVar 1))]));
  SAssert (CEq (XItem (XVar 2) (u "sendUserSignup")) (XVar 0));
  SAssert (CEq (XItem (XVar 2) (u "receiveUserSignup")) (XVar 1))];
t "models/test_schema.py::TestSchema.test_schema_validation/case_schema_basic" [SLet 0 (XNew "Schema" (XVal (VDict [((u "type"), (VStr (u "object")))])));
  SAssert (CNot (CEq (XVar 0) (XVal VNone)));
  SAssert (CEq (XAttr (XVar 0) (u "type")) (XVal (VStr (u "object"))))];
t "models/test_schema.py::TestSchema.test_schema_validation/case_schema_full" [SLet 0 (XNew "Schema" (XVal (VDict [((u "type"), (VStr (u "object"))); ((u "properties"), (VDict [((u "displayName"), (VDict [((u "type"), (VStr (u "string"))); ((u "description"), (VStr (u "Name of the user")))])); ((u "email"), (VDict [((u "type"), (VStr (u "string"))); ((u "format"), (VStr (u "email"))); ((u "description"), (VStr (u "Email of the user")))]))])); ((u "required"), (VList [(VStr (u "displayName")); (VStr (u "email"))])); ((u "discriminator"), (VStr (u "userType"))); ((u "deprecated"), (VBool false)); ((u "externalDocs"), (VDict [((u "description"), (VStr (u "Find more info here"))); ((u "url"), (VStr (u "https://example.com")))]))])));
  SAssert (CNot (CEq (XVar 0) (XVal VNone)));
  SAssert (CEq (XAttr (XVar 0) (u "type")) (XVal (VStr (u "object"))))];
t "models/test_schema.py::TestSchema.test_schema_serialization/case_schema_serialization_basic" [SLet 0 (XNew "Schema" (XVal (VDict [((u "type"), (VStr (u "object")))])));
  SLet 1 (XDump (XVar 0));
  SAssert (CEq (XVar 1) (XUnurl (XVal (VDict [((u "type"), (VStr (u "object")))]))))];
t "models/test_schema.py::TestSchema.test_schema_serialization/case_schema_serialization_with_discriminator" [SLet 0 (XNew "Schema" (XDict [((u "type"), (XVal (VStr (u "object")))); ((u "discriminator"), (XVal (VStr (u "userType")))); ((u "properties"), (XDict [((u "name"), (XNew "Schema" (XVal (VDict [((u "type"), (VStr (u "string")))]))))]))]));
  SLet 1 (XDump (XVar 0));
  SAssert (CEq (XVar 1) (XUnurl (XVal (VDict [((u "type"), (VStr (u "object"))); ((u "discriminator"), (VStr (u "userType"))); ((u "properties"), (VDict [((u "name"), (VDict [((u "type"), (VStr (u "string")))]))]))]))))];
t "models/test_schema.py::TestSchema.test_schema_serialization/case_schema_serialization_with_external_docs" [SLet 0 (XNew "Schema" (XDict [((u "type"), (XVal (VStr (u "object")))); ((u "external_docs"), (XNew "ExternalDocumentation" (XVal (VDict [((u "url"), (VStr (u "https://example.com"))); ((u "description"), (VStr (u "Find more info here")))]))))]));
  SLet 1 (XDump (XVar 0));
  SAssert (CEq (XVar 1) (XUnurl (XDict [((u "type"), (XVal (VStr (u "object")))); ((u "externalDocs"), (XDict [((u "url"), (XNewAt (TUrl false) (XVal (VStr (u "https://example.com/"))))); ((u "description"), (XVal (VStr (u "Find more info here"))))]))])))];
t "models/test_schema.py::TestSchema.test_schema_serialization/case_schema_serialization_with_reference_external_docs" [SLet 0 (XNew "Schema" (XDict [((u "type"), (XVal (VStr (u "object")))); ((u "external_docs"), (XNew "Reference" (XVal (VDict [((u "ref"), (VStr (u "#/components/externalDocs/infoDocs")))]))))]));
  SLet 1 (XDump (XVar 0));
  SAssert (CEq (XVar 1) (XUnurl (XVal (VDict [((u "type"), (VStr (u "object"))); ((u "externalDocs"), (VDict [((u "$ref"), (VStr (u "#/components/externalDocs/infoDocs")))]))]))))];
t "models/test_schema.py::TestSchema.test_schema_with_discriminator_validation" [SLet 0 (XNew "Schema" (XVal (VDict [((u "type"), (VStr (u "object"))); ((u "discriminator"), (VStr (u "userType"))); ((u "properties"), (VDict [((u "name"), (VDict [((u "type"), (VStr (u "string")))]))]))])));
  SAssert (CEq (XAttr (XVar 0) (u "discriminator")) (XVal (VStr (u "userType"))))];
t "models/test_schema.py::TestSchema.test_schema_with_external_docs_validation" [SLet 0 (XNew "Schema" (XVal (VDict [((u "type"), (VStr (u "object"))); ((u "externalDocs"), (VDict [((u "description"), (VStr (u "Find more info here"))); ((u "url"), (VStr (u "https://example.com")))]))])));
  SAssert (CNot (CEq (XAttr (XVar 0) (u "external_docs")) (XVal VNone)));
  SAssert (CEq (XStr (XAttr (XAttr (XVar 0) (u "external_docs")) (u "url"))) (XVal (VStr (u "https://example.com/"))))];
t "models/test_schema.py::TestSchema.test_schema_with_reference_external_docs_validation" [SLet 0 (XNew "Schema" (XVal (VDict [((u "type"), (VStr (u "object"))); ((u "externalDocs"), (VDict [((u "$ref"), (VStr (u "#/components/externalDocs/infoDocs")))]))])));
  SAssert (CNot (CEq (XAttr (XVar 0) (u "external_docs")) (XVal VNone)));
  SAssert (CIs (XAttr (XVar 0) (u "external_docs")) ["Reference"]);
  SAssert (CEq (XAttr (XAttr (XVar 0) (u "external_docs")) (u "ref")) (XVal (VStr (u "#/components/externalDocs/infoDocs"))))];
t "models/test_schema.py::TestMultiFormatSchema.test_multi_format_schema_validation/case_multi_format_schema_basic" [SLet 0 (XNew "MultiFormatSchema" (XVal (VDict [((u "schema"), (VDict [((u "type"), (VStr (u "object"))); ((u "properties"), (VDict [((u "name"), (VDict [((u "type"), (VStr (u "string")))]))]))]))])));
  SAssert (CNot (CEq (XVar 0) (XVal VNone)));
  SAssert (CNot (CEq (XAttr (XVar 0) (u "schema")) (XVal VNone)))];
t "models/test_schema.py::TestMultiFormatSchema.test_multi_format_schema_validation/case_multi_format_schema_avro" [SLet 0 (XNew "MultiFormatSchema" (XVal (VDict [((u "schemaFormat"), (VStr (u "application/vnd.apache.avro+yaml;version=1.9.0"))); ((u "schema"), (VDict [((u "$ref"), (VStr (u "./user-create.avsc")))]))])));
  SAssert (CNot (CEq (XVar 0) (XVal VNone)));
  SAssert (CNot (CEq (XAttr (XVar 0) (u "schema")) (XVal VNone)))];
t "models/test_schema.py::TestMultiFormatSchema.test_multi_format_schema_serialization/case_multi_format_schema_serialization_default" [SLet 0 (XNew "MultiFormatSchema" (XDict [((u "schema"), (XNew "Schema" (XDict [((u "type"), (XVal (VStr (u "object")))); ((u "properties"), (XDict [((u "name"), (XNew "Schema" (XVal (VDict [((u "type"), (VStr (u "string")))]))))]))])))]));
  SLet 1 (XDump (XVar 0));
  SAssert (CEq (XVar 1) (XUnurl (XVal (VDict [((u "schemaFormat"), (VStr (u "application/vnd.aai.asyncapi;version=3.0.0"))); ((u "schema"), (VDict [((u "type"), (VStr (u "object"))); ((u "properties"), (VDict [((u "name"), (VDict [((u "type"), (VStr (u "string")))]))]))]))]))))];
t "models/test_schema.py::TestMultiFormatSchema.test_multi_format_schema_serialization/case_multi_format_schema_serialization_avro" [SLet 0 (XNew "MultiFormatSchema" (XDict [((u "schema_format"), (XVal (VStr (u "application/vnd.apache.avro+yaml;version=1.9.0")))); ((u "schema"), (XNew "Reference" (XVal (VDict [((u "ref"), (VStr (u "./user-create.avsc")))]))))]));
  SLet 1 (XDump (XVar 0));
  SAssert (CEq (XVar 1) (XUnurl (XVal (VDict [((u "schemaFormat"), (VStr (u "application/vnd.apache.avro+yaml;version=1.9.0"))); ((u "schema"), (VDict [((u "$ref"), (VStr (u "./user-create.avsc")))]))]))))];
t "models/test_schema.py::TestMultiFormatSchema.test_multi_format_schema_default_format_validation" [SLet 0 (XNew "MultiFormatSchema" (XVal (VDict [((u "schema"), (VDict [((u "type"), (VStr (u "object"))); ((u "properties"), (VDict [((u "name"), (VDict [((u "type"), (VStr (u "string")))]))]))]))])));
  SAssert (CEq (XAttr (XVar 0) (u "schema_format")) (XVal (VStr (u "application/vnd.aai.asyncapi;version=3.0.0"))))];
t "models/test_security.py::TestCorrelationID.test_correlation_id_validation/case_correlation_id_basic" [SLet 0 (XNew "CorrelationID" (XVal (VDict [((u "location"), (VStr (u "$message.header#/correlationId")))])));
  SAssert (CNot (CEq (XVar 0) (XVal VNone)));
  SAssert (CEq (XAttr (XVar 0) (u "location")) (XVal (VStr (u "$message.header#/correlationId"))))]].
Definition part7 : list (string * list stmt) := [
t "models/test_security.py::TestCorrelationID.test_correlation_id_validation/case_correlation_id_full" [SLet 0 (XNew "CorrelationID" (XVal (VDict [((u "description"), (VStr (u "Default Correlation ID"))); ((u "location"), (VStr (u "$message.header#/correlationId")))])));
  SAssert (CNot (CEq (XVar 0) (XVal VNone)));
  SAssert (CEq (XAttr (XVar 0) (u "location")) (XVal (VStr (u "$message.header#/correlationId"))))];
t "models/test_security.py::TestCorrelationID.test_correlation_id_serialization/case_correlation_id_serialization_basic" [SLet 0 (XNew "CorrelationID" (XVal (VDict [((u "location"), (VStr (u "$message.header#/correlationId")))])));
  SLet 1 (XDump (XVar 0));
  SAssert (CEq (XVar 1) (XUnurl (XVal (VDict [((u "location"), (VStr (u "$message.header#/correlationId")))]))))];
t "models/test_security.py::TestCorrelationID.test_correlation_id_serialization/case_correlation_id_serialization_full" [SLet 0 (XNew "CorrelationID" (XVal (VDict [((u "location"), (VStr (u "$message.header#/correlationId"))); ((u "description"), (VStr (u "Default Correlation ID")))])));
  SLet 1 (XDump (XVar 0));
  SAssert (CEq (XVar 1) (XUnurl (XVal (VDict [((u "location"), (VStr (u "$message.header#/correlationId"))); ((u "description"), (VStr (u "Default Correlation ID")))]))))];
t "models/test_security.py::TestCorrelationID.test_correlation_id_validation_errors/case_correlation_id_invalid_location" [SRaises [SDo (XNew "CorrelationID" (XVal (VDict [((u "location"), (VStr (u "invalid_location")))])))] [(u "location must be a runtime expression starting with '$message.'")]];
t "models/test_security.py::TestCorrelationID.test_correlation_id_validation_errors/case_correlation_id_empty_location" [SRaises [SDo (XNew "CorrelationID" (XVal (VDict [((u "location"), (VStr (u "")))])))] [(u "location must be a runtime expression starting with '$message.'")]];
t "models/test_security.py::TestSecuritySchemeValidationErrors.test_security_scheme_validation_errors/case_security_scheme_http_api_key_missing_name" [SRaises [SDo (XNew "SecurityScheme" (XVal (VDict [((u "type"), (VStr (u "httpApiKey"))); ((u "in"), (VStr (u "header")))])))] [(u "name is required for httpApiKey type")]];
t "models/test_security.py::TestSecuritySchemeValidationErrors.test_security_scheme_validation_errors/case_security_scheme_api_key_missing_in" [SRaises [SDo (XNew "SecurityScheme" (XVal (VDict [((u "type"), (VStr (u "apiKey"))); ((u "name"), (VStr (u "api_key")))])))] [(u "in is required for apiKey type")]];
t "models/test_security.py::TestSecuritySchemeValidationErrors.test_security_scheme_validation_errors/case_security_scheme_http_api_key_missing_in" [SRaises [SDo (XNew "SecurityScheme" (XVal (VDict [((u "type"), (VStr (u "httpApiKey"))); ((u "name"), (VStr (u "api_key")))])))] [(u "in is required for httpApiKey type")]];
t "models/test_security.py::TestSecuritySchemeValidationErrors.test_security_scheme_validation_errors/case_security_scheme_http_missing_scheme" [SRaises [SDo (XNew "SecurityScheme" (XVal (VDict [((u "type"), (VStr (u "http")))])))] [(u "scheme is required for http type")]];
t "models/test_security.py::TestSecuritySchemeValidationErrors.test_security_scheme_validation_errors/case_security_scheme_api_key_invalid_in" [SRaises [SDo (XNew "SecurityScheme" (XVal (VDict [((u "type"), (VStr (u "apiKey"))); ((u "in"), (VStr (u "header"))); ((u "name"), (VStr (u "api_key")))])))] [(u "in must be 'user' or 'password' for apiKey type")]];
t "models/test_security.py::TestSecuritySchemeValidationErrors.test_security_scheme_validation_errors/case_security_scheme_http_api_key_invalid_in" [SRaises [SDo (XNew "SecurityScheme" (XVal (VDict [((u "type"), (VStr (u "httpApiKey"))); ((u "in"), (VStr (u "user"))); ((u "name"), (VStr (u "api_key")))])))] [(u "in must be 'query', 'header', or 'cookie' for httpApiKey type")]];
t "models/test_security.py::TestSecuritySchemeValidationErrors.test_security_scheme_validation_errors/case_security_scheme_bearer_format_without_bearer_scheme" [SRaises [SDo (XNew "SecurityScheme" (XVal (VDict [((u "type"), (VStr (u "http"))); ((u "scheme"), (VStr (u "basic"))); ((u "bearerFormat"), (VStr (u "JWT")))])))] [(u "bearerFormat can only be used with http type and bearer scheme")]];
t "models/test_security.py::TestSecuritySchemeValidationErrors.test_security_scheme_validation_errors/case_security_scheme_bearer_format_without_http_type" [SRaises [SDo (XNew "SecurityScheme" (XVal (VDict [((u "type"), (VStr (u "apiKey"))); ((u "in"), (VStr (u "user"))); ((u "name"), (VStr (u "api_key"))); ((u "bearerFormat"), (VStr (u "JWT")))])))] [(u "bearerFormat can only be used with http type and bearer scheme")]];
t "models/test_security.py::TestSecuritySchemeValidationErrors.test_security_scheme_validation_errors/case_security_scheme_oauth2_missing_flows" [SRaises [SDo (XNew "SecurityScheme" (XVal (VDict [((u "type"), (VStr (u "oauth2")))])))] [(u "flows is required for oauth2 type")]];
t "models/test_security.py::TestSecuritySchemeValidationErrors.test_security_scheme_validation_errors/case_security_scheme_openid_connect_missing_url" [SRaises [SDo (XNew "SecurityScheme" (XVal (VDict [((u "type"), (VStr (u "openIdConnect")))])))] [(u "openIdConnectUrl is required for openIdConnect type")]];
t "models/test_security.py::TestSecuritySchemeValidationErrors.test_security_scheme_validation_errors/case_security_scheme_scopes_with_wrong_type" [SRaises [SDo (XNew "SecurityScheme" (XVal (VDict [((u "type"), (VStr (u "http"))); ((u "scheme"), (VStr (u "basic"))); ((u "scopes"), (VList [(VStr (u "read"))]))])))] [(u "scopes can only be used with oauth2 or openIdConnect type")]];
t "models/test_security.py::TestOAuthFlowsValidationErrors.test_oauth_flows_validation_errors/case_oauth_flows_implicit_missing_authorization_url" [SRaises [SDo (XNew "OAuthFlows" (XVal (VDict [((u "implicit"), (VDict [((u "availableScopes"), (VDict [((u "read"), (VStr (u "Read access")))]))]))])))] [(u "authorizationUrl is required for implicit flow")]];
t "models/test_security.py::TestOAuthFlowsValidationErrors.test_oauth_flows_validation_errors/case_oauth_flows_password_missing_token_url" [SRaises [SDo (XNew "OAuthFlows" (XVal (VDict [((u "password"), (VDict [((u "availableScopes"), (VDict [((u "read"), (VStr (u "Read access")))]))]))])))] [(u "tokenUrl is required for password flow")]];
t "models/test_security.py::TestOAuthFlowsValidationErrors.test_oauth_flows_validation_errors/case_oauth_flows_client_credentials_missing_token_url" [SRaises [SDo (XNew "OAuthFlows" (XVal (VDict [((u "clientCredentials"), (VDict [((u "availableScopes"), (VDict [((u "read"), (VStr (u "Read access")))]))]))])))] [(u "tokenUrl is required for clientCredentials flow")]];
t "models/test_security.py::TestOAuthFlowsValidationErrors.test_oauth_flows_validation_errors/case_oauth_flows_authorization_code_missing_authorization_url" [SRaises [SDo (XNew "OAuthFlows" (XVal (VDict [((u "authorizationCode"), (VDict [((u "tokenUrl"), (VStr (u "https://authserver.example/token"))); ((u "availableScopes"), (VDict [((u "read"), (VStr (u "Read access")))]))]))])))] [(u "authorizationUrl is required for authorizationCode flow")]];
t "models/test_security.py::TestOAuthFlowsValidationErrors.test_oauth_flows_validation_errors/case_oauth_flows_authorization_code_missing_token_url" [SRaises [SDo (XNew "OAuthFlows" (XVal (VDict [((u "authorizationCode"), (VDict [((u "authorizationUrl"), (VStr (u "https://authserver.example/auth"))); ((u "availableScopes"), (VDict [((u "read"), (VStr (u "Read access")))]))]))])))] [(u "tokenUrl is required for authorizationCode flow")]];
t "models/test_security.py::TestOAuthFlow.test_oauth_flow_validation/case_oauth_flow_implicit" [SLet 0 (XNew "OAuthFlow" (XVal (VDict [((u "authorizationUrl"), (VStr (u "https://authserver.example/auth"))); ((u "availableScopes"), (VDict [((u "streetlights:on"), (VStr (u "Ability to switch lights on"))); ((u "streetlights:off"), (VStr (u "Ability to switch lights off")))]))])));
  SAssert (CNot (CEq (XVar 0) (XVal VNone)));
  SAssert (CNot (CEq (XAttr (XVar 0) (u "available_scopes")) (XVal VNone)))];
t "models/test_security.py::TestOAuthFlow.test_oauth_flow_validation/case_oauth_flow_client_credentials" [SLet 0 (XNew "OAuthFlow" (XVal (VDict [((u "tokenUrl"), (VStr (u "https://authserver.example/token"))); ((u "availableScopes"), (VDict [((u "streetlights:on"), (VStr (u "Ability to switch lights on"))); ((u "streetlights:off"), (VStr (u "Ability to switch lights off")))]))])));
  SAssert (CNot (CEq (XVar 0) (XVal VNone)));
  SAssert (CNot (CEq (XAttr (XVar 0) (u "available_scopes")) (XVal VNone)))];
t "models/test_security.py::TestOAuthFlow.test_oauth_flow_validation/case_oauth_flow_authorization_code" [SLet 0 (XNew "OAuthFlow" (XVal (VDict [((u "authorizationUrl"), (VStr (u "https://authserver.example/auth"))); ((u "tokenUrl"), (VStr (u "https://authserver.example/token"))); ((u "refreshUrl"), (VStr (u "https://authserver.example/refresh"))); ((u "availableScopes"), (VDict [((u "streetlights:on"), (VStr (u "Ability to switch lights on"))); ((u "streetlights:off"), (VStr (u "Ability to switch lights off")))]))])));
  SAssert (CNot (CEq (XVar 0) (XVal VNone)));
  SAssert (CNot (CEq (XAttr (XVar 0) (u "available_scopes")) (XVal VNone)))];
t "models/test_security.py::TestOAuthFlow.test_oauth_flow_serialization/case_oauth_flow_serialization_implicit" [SLet 0 (XNew "OAuthFlow" (XVal (VDict [((u "authorization_url"), (VStr (u "https://authserver.example/auth"))); ((u "available_scopes"), (VDict [((u "streetlights:on"), (VStr (u "Ability to switch lights on"))); ((u "streetlights:off"), (VStr (u "Ability to switch lights off")))]))])));
  SLet 1 (XDump (XVar 0));
  SAssert (CEq (XVar 1) (XUnurl (XDict [((u "authorizationUrl"), (XNewAt (TUrl false) (XVal (VStr (u "https://authserver.example/auth"))))); ((u "availableScopes"), (XVal (VDict [((u "streetlights:on"), (VStr (u "Ability to switch lights on"))); ((u "streetlights:off"), (VStr (u "Ability to switch lights off")))])))])))];
t "models/test_security.py::TestOAuthFlow.test_oauth_flow_serialization/case_oauth_flow_serialization_client_credentials" [SLet 0 (XNew "OAuthFlow" (XVal (VDict [((u "token_url"), (VStr (u "https://authserver.example/token"))); ((u "available_scopes"), (VDict [((u "streetlights:on"), (VStr (u "Ability to switch lights on"))); ((u "streetlights:off"), (VStr (u "Ability to switch lights off")))]))])));
  SLet 1 (XDump (XVar 0));
  SAssert (CEq (XVar 1) (XUnurl (XDict [((u "tokenUrl"), (XNewAt (TUrl false) (XVal (VStr (u "https://authserver.example/token"))))); ((u "availableScopes"), (XVal (VDict [((u "streetlights:on"), (VStr (u "Ability to switch lights on"))); ((u "streetlights:off"), (VStr (u "Ability to switch lights off")))])))])))];
t "models/test_security.py::TestOAuthFlow.test_oauth_flow_serialization/case_oauth_flow_serialization_authorization_code" [SLet 0 (XNew "OAuthFlow" (XVal (VDict [((u "authorization_url"), (VStr (u "https://authserver.example/auth"))); ((u "token_url"), (VStr (u "https://authserver.example/token"))); ((u "refresh_url"), (VStr (u "https://authserver.example/refresh"))); ((u "available_scopes"), (VDict [((u "streetlights:on"), (VStr (u "Ability to switch lights on"))); ((u "streetlights:off"), (VStr (u "Ability to switch lights off")))]))])));
  SLet 1 (XDump (XVar 0));
  SAssert (CEq (XVar 1) (XUnurl (XDict [((u "authorizationUrl"), (XNewAt (TUrl false) (XVal (VStr (u "https://authserver.example/auth"))))); ((u "tokenUrl"), (XNewAt (TUrl false) (XVal (VStr (u "https://authserver.example/token"))))); ((u "refreshUrl"), (XNewAt (TUrl false) (XVal (VStr (u "https://authserver.example/refresh"))))); ((u "availableScopes"), (XVal (VDict [((u "streetlights:on"), (VStr (u "Ability to switch lights on"))); ((u "streetlights:off"), (VStr (u "Ability to switch lights off")))])))])))];
t "models/test_security.py::TestOAuthFlows.test_oauth_flows_validation/case_oauth_flows_basic" [SLet 0 (XNew "OAuthFlows" (XVal (VDict [((u "implicit"), (VDict [((u "authorizationUrl"), (VStr (u "https://authserver.example/auth"))); ((u "availableScopes"), (VDict [((u "streetlights:on"), (VStr (u "Ability to switch lights on")))]))]))])));
  SAssert (CNot (CEq (XVar 0) (XVal VNone)));
  SAssert (CNot (CEq (XAttr (XVar 0) (u "implicit")) (XVal VNone)))];
t "models/test_security.py::TestOAuthFlows.test_oauth_flows_validation/case_oauth_flows_full" [SLet 0 (XNew "OAuthFlows" (XVal (VDict [((u "implicit"), (VDict [((u "authorizationUrl"), (VStr (u "https://authserver.example/auth"))); ((u "availableScopes"), (VDict [((u "streetlights:on"), (VStr (u "Ability to switch lights on")))]))])); ((u "password"), (VDict [((u "tokenUrl"), (VStr (u "https://authserver.example/token"))); ((u "availableScopes"), (VDict [((u "streetlights:on"), (VStr (u "Ability to switch lights on")))]))])); ((u "clientCredentials"), (VDict [((u "tokenUrl"), (VStr (u "https://authserver.example/token"))); ((u "availableScopes"), (VDict [((u "streetlights:on"), (VStr (u "Ability to switch lights on")))]))])); ((u "authorizationCode"), (VDict [((u "authorizationUrl"), (VStr (u "https://authserver.example/auth"))); ((u "tokenUrl"), (VStr (u "https://authserver.example/token"))); ((u "availableScopes"), (VDict [((u "streetlights:on"), (VStr (u "Ability to switch lights on")))]))]))])));
  SAssert (CNot (CEq (XVar 0) (XVal VNone)));
  SAssert (CNot (CEq (XAttr (XVar 0) (u "implicit")) (XVal VNone)))];
t "models/test_security.py::TestOAuthFlows.test_oauth_flows_serialization/case_oauth_flows_serialization_empty" [SLet 0 (XNew "OAuthFlows" (XVal (VDict [])));
  SLet 1 (XDump (XVar 0));
  SAssert (CEq (XVar 1) (XUnurl (XVal (VDict []))))];
t "models/test_security.py::TestOAuthFlows.test_oauth_flows_serialization/case_oauth_flows_serialization_basic" [SLet 0 (XNew "OAuthFlows" (XDict [((u "implicit"), (XNew "OAuthFlow" (XVal (VDict [((u "authorization_url"), (VStr (u "https://authserver.example/auth"))); ((u "available_scopes"), (VDict [((u "streetlights:on"), (VStr (u "Ability to switch lights on")))]))]))))]));
  SLet 1 (XDump (XVar 0));
  SAssert (CEq (XVar 1) (XUnurl (XDict [((u "implicit"), (XDict [((u "authorizationUrl"), (XNewAt (TUrl false) (XVal (VStr (u "https://authserver.example/auth"))))); ((u "availableScopes"), (XVal (VDict [((u "streetlights:on"), (VStr (u "Ability to switch lights on")))])))]))])))];
t "models/test_security.py::TestOAuthFlows.test_oauth_flows_serialization/case_oauth_flows_serialization_full" [SLet 0 (XNew "OAuthFlows" (XDict [((u "implicit"), (XNew "OAuthFlow" (XVal (VDict [((u "authorization_url"), (VStr (u "https://authserver.example/auth"))); ((u "available_scopes"), (VDict [((u "streetlights:on"), (VStr (u "Ability to switch lights on")))]))])))); ((u "password"), (XNew "OAuthFlow" (XVal (VDict [((u "token_url"), (VStr (u "https://authserver.example/token"))); ((u "available_scopes"), (VDict [((u "streetlights:on"), (VStr (u "Ability to switch lights on")))]))])))); ((u "client_credentials"), (XNew "OAuthFlow" (XVal (VDict [((u "token_url"), (VStr (u "https://authserver.example/token"))); ((u "available_scopes"), (VDict [((u "streetlights:on"), (VStr (u "Ability to switch lights on")))]))])))); ((u "authorization_code"), (XNew "OAuthFlow" (XVal (VDict [((u "authorization_url"), (VStr (u "https://authserver.example/auth"))); ((u "token_url"), (VStr (u "https://authserver.example/token"))); ((u "available_scopes"), (VDict [((u "streetlights:on"), (VStr (u "Ability to switch lights on")))]))]))))]));
  SLet 1 (XDump (XVar 0));
  SAssert (CEq (XVar 1) (XUnurl (XDict [((u "implicit"), (XDict [((u "authorizationUrl"), (XNewAt (TUrl false) (XVal (VStr (u "https://authserver.example/auth"))))); ((u "availableScopes"), (XVal (VDict [((u "streetlights:on"), (VStr (u "Ability to switch lights on")))])))])); ((u "password"), (XDict [((u "tokenUrl"), (XNewAt (TUrl false) (XVal (VStr (u "https://authserver.example/token"))))); ((u "availableScopes"), (XVal (VDict [((u "streetlights:on"), (VStr (u "Ability to switch lights on")))])))])); ((u "clientCredentials"), (XDict [((u "tokenUrl"), (XNewAt (TUrl false) (XVal (VStr (u "https://authserver.example/token"))))); ((u "availableScopes"), (XVal (VDict [((u "streetlights:on"), (VStr (u "Ability to switch lights on")))])))])); ((u "authorizationCode"), (XDict [((u "authorizationUrl"), (XNewAt (TUrl false) (XVal (VStr (u "https://authserver.example/auth"))))); ((u "tokenUrl"), (XNewAt (TUrl false) (XVal (VStr (u "https://authserver.example/token"))))); ((u "availableScopes"), (XVal (VDict [((u "streetlights:on"), (VStr (u "Ability to switch lights on")))])))]))])))];
t "models/test_security.py::TestSecurityScheme.test_security_scheme_validation/case_security_scheme_http" [SLet 0 (XNew "SecurityScheme" (XVal (VDict [((u "type"), (VStr (u "http"))); ((u "scheme"), (VStr (u "bearer"))); ((u "bearerFormat"), (VStr (u "JWT")))])));
  SAssert (CNot (CEq (XVar 0) (XVal VNone)));
  SAssert (CEq (XAttr (XVar 0) (u "type_")) (XVal (VStr (u "http"))))];
t "models/test_security.py::TestSecurityScheme.test_security_scheme_validation/case_security_scheme_oauth2" [SLet 0 (XNew "SecurityScheme" (XVal (VDict [((u "type"), (VStr (u "oauth2"))); ((u "description"), (VStr (u "Flows to support OAuth 2.0"))); ((u "flows"), (VDict [((u "implicit"), (VDict [((u "authorizationUrl"), (VStr (u "https://authserver.example/auth"))); ((u "availableScopes"), (VDict [((u "streetlights:on"), (VStr (u "Ability to switch lights on")))]))]))])); ((u "scopes"), (VList [(VStr (u "streetlights:on"))]))])));
  SAssert (CNot (CEq (XVar 0) (XVal VNone)));
  SAssert (CEq (XAttr (XVar 0) (u "type_")) (XVal (VStr (u "oauth2"))))];
t "models/test_security.py::TestSecurityScheme.test_security_scheme_validation/case_security_scheme_api_key" [SLet 0 (XNew "SecurityScheme" (XVal (VDict [((u "type"), (VStr (u "apiKey"))); ((u "in"), (VStr (u "user"))); ((u "name"), (VStr (u "api_key")))])));
  SAssert (CNot (CEq (XVar 0) (XVal VNone)));
  SAssert (CEq (XAttr (XVar 0) (u "type_")) (XVal (VStr (u "apiKey"))))];
t "models/test_security.py::TestSecurityScheme.test_security_scheme_serialization/case_security_scheme_serialization_http" [SLet 0 (XNew "SecurityScheme" (XVal (VDict [((u "type_"), (VStr (u "http"))); ((u "scheme"), (VStr (u "bearer"))); ((u "bearer_format"), (VStr (u "JWT")))])));
  SLet 1 (XDump (XVar 0));
  SAssert (CEq (XVar 1) (XUnurl (XVal (VDict [((u "type"), (VStr (u "http"))); ((u "scheme"), (VStr (u "bearer"))); ((u "bearerFormat"), (VStr (u "JWT")))]))))];
t "models/test_security.py::TestSecurityScheme.test_security_scheme_serialization/case_security_scheme_serialization_api_key" [SLet 0 (XNew "SecurityScheme" (XVal (VDict [((u "type_"), (VStr (u "apiKey"))); ((u "in_"), (VStr (u "user"))); ((u "name"), (VStr (u "api_key")))])));
  SLet 1 (XDump (XVar 0));
  SAssert (CEq (XVar 1) (XUnurl (XVal (VDict [((u "type"), (VStr (u "apiKey"))); ((u "in"), (VStr (u "user"))); ((u "name"), (VStr (u "api_key")))]))))];
t "models/test_security.py::TestSecurityScheme.test_security_scheme_serialization/case_security_scheme_serialization_oauth2" [SLet 0 (XNew "SecurityScheme" (XDict [((u "type_"), (XVal (VStr (u "oauth2")))); ((u "description"), (XVal (VStr (u "Flows to support OAuth 2.0")))); ((u "flows"), (XNew "OAuthFlows" (XDict [((u "implicit"), (XNew "OAuthFlow" (XVal (VDict [((u "authorization_url"), (VStr (u "https://authserver.example/auth"))); ((u "available_scopes"), (VDict [((u "streetlights:on"), (VStr (u "Ability to switch lights on")))]))]))))]))); ((u "scopes"), (XVal (VList [(VStr (u "streetlights:on"))])))]));
  SLet 1 (XDump (XVar 0));
  SAssert (CEq (XVar 1) (XUnurl (XDict [((u "type"), (XVal (VStr (u "oauth2")))); ((u "description"), (XVal (VStr (u "Flows to support OAuth 2.0")))); ((u "flows"), (XDict [((u "implicit"), (XDict [((u "authorizationUrl"), (XNewAt (TUrl false) (XVal (VStr (u "https://authserver.example/auth"))))); ((u "availableScopes"), (XVal (VDict [((u "streetlights:on"), (VStr (u "Ability to switch lights on")))])))]))])); ((u "scopes"), (XVal (VList [(VStr (u "streetlights:on"))])))])))];
t "models/test_security.py::TestSecurityScheme.test_security_scheme_oauth2_with_flows_validation" [SLet 0 (XNew "SecurityScheme" (XVal (VDict [((u "type"), (VStr (u "oauth2"))); ((u "description"), (VStr (u "Flows to support OAuth 2.0"))); ((u "flows"), (VDict [((u "implicit"), (VDict [((u "authorizationUrl"), (VStr (u "https://authserver.example/auth"))); ((u "availableScopes"), (VDict [((u "streetlights:on"), (VStr (u "Ability to switch lights on")))]))]))])); ((u "scopes"), (VList [(VStr (u "streetlights:on"))]))])));
  SAssert (CEq (XAttr (XVar 0) (u "type_")) (XVal (VStr (u "oauth2"))));
  SAssert (CNot (CEq (XAttr (XVar 0) (u "flows")) (XVal VNone)));
  SAssert (CIs (XAttr (XVar 0) (u "flows")) ["OAuthFlows"]);
  SAssert (CNot (CEq (XAttr (XAttr (XVar 0) (u "flows")) (u "implicit")) (XVal VNone)));
  SAssert (CIs (XAttr (XAttr (XAttr (XVar 0) (u "flows")) (u "implicit")) (u "authorization_url")) ["AnyUrl"])];
t "models/test_server.py::TestServerVariable.test_server_variable_validation/case_server_variable_basic" [SLet 0 (XNew "ServerVariable" (XVal (VDict [((u "default"), (VStr (u "1883")))])));
  SAssert (CNot (CEq (XVar 0) (XVal VNone)));
  SAssert (CEq (XAttr (XVar 0) (u "default")) (XVal (VStr (u "1883"))))]].
Definition part8 : list (string * list stmt) := [
t "models/test_server.py::TestServerVariable.test_server_variable_validation/case_server_variable_full" [SLet 0 (XNew "ServerVariable" (XVal (VDict [((u "description"), (VStr (u "Environment to connect to. It can be either `production` or `staging`."))); ((u "enum"), (VList [(VStr (u "production")); (VStr (u "staging"))])); ((u "default"), (VStr (u "production"))); ((u "examples"), (VList [(VStr (u "production")); (VStr (u "staging"))]))])));
  SAssert (CNot (CEq (XVar 0) (XVal VNone)));
  SAssert (CEq (XAttr (XVar 0) (u "default")) (XVal (VStr (u "production"))))];
t "models/test_server.py::TestServerVariable.test_server_variable_serialization/case_server_variable_serialization_empty" [SLet 0 (XNew "ServerVariable" (XVal (VDict [])));
  SLet 1 (XDump (XVar 0));
  SAssert (CEq (XVar 1) (XUnurl (XVal (VDict []))))];
t "models/test_server.py::TestServerVariable.test_server_variable_serialization/case_server_variable_serialization_basic" [SLet 0 (XNew "ServerVariable" (XVal (VDict [((u "default"), (VStr (u "1883")))])));
  SLet 1 (XDump (XVar 0));
  SAssert (CEq (XVar 1) (XUnurl (XVal (VDict [((u "default"), (VStr (u "1883")))]))))];
t "models/test_server.py::TestServerVariable.test_server_variable_serialization/case_server_variable_serialization_with_enum" [SLet 0 (XNew "ServerVariable" (XVal (VDict [((u "description"), (VStr (u "Environment to connect to."))); ((u "enum"), (VList [(VStr (u "production")); (VStr (u "staging"))])); ((u "default"), (VStr (u "production")))])));
  SLet 1 (XDump (XVar 0));
  SAssert (CEq (XVar 1) (XUnurl (XVal (VDict [((u "description"), (VStr (u "Environment to connect to."))); ((u "enum"), (VList [(VStr (u "production")); (VStr (u "staging"))])); ((u "default"), (VStr (u "production")))]))))];
t "models/test_server.py::TestServerVariable.test_server_variable_serialization/case_server_variable_serialization_full" [SLet 0 (XNew "ServerVariable" (XVal (VDict [((u "description"), (VStr (u "Environment to connect to. It can be either `production` or `staging`."))); ((u "enum"), (VList [(VStr (u "production")); (VStr (u "staging"))])); ((u "default"), (VStr (u "production"))); ((u "examples"), (VList [(VStr (u "production")); (VStr (u "staging"))]))])));
  SLet 1 (XDump (XVar 0));
  SAssert (CEq (XVar 1) (XUnurl (XVal (VDict [((u "description"), (VStr (u "Environment to connect to. It can be either `production` or `staging`."))); ((u "enum"), (VList [(VStr (u "production")); (VStr (u "staging"))])); ((u "default"), (VStr (u "production"))); ((u "examples"), (VList [(VStr (u "production")); (VStr (u "staging"))]))]))))];
t "models/test_server.py::TestServerVariable.test_server_variable_with_enum_validation" [SLet 0 (XNew "ServerVariable" (XVal (VDict [((u "description"), (VStr (u "Environment to connect to."))); ((u "enum"), (VList [(VStr (u "production")); (VStr (u "staging"))])); ((u "default"), (VStr (u "production")))])));
  SAssert (CEq (XAttr (XVar 0) (u "enum")) (XVal (VList [(VStr (u "production")); (VStr (u "staging"))])));
  SAssert (CEq (XAttr (XVar 0) (u "default")) (XVal (VStr (u "production"))));
  SAssert (CEq (XAttr (XVar 0) (u "description")) (XVal (VStr (u "Environment to connect to."))))];
t "models/test_server.py::TestServerVariable.test_server_variable_empty_enum_validation" [SLet 0 (XNew "ServerVariable" (XVal (VDict [((u "enum"), (VList [])); ((u "default"), (VStr (u "production")))])));
  SAssert (CEq (XAttr (XVar 0) (u "enum")) (XVal (VList [])));
  SAssert (CEq (XAttr (XVar 0) (u "default")) (XVal (VStr (u "production"))))];
t "models/test_server.py::TestServer.test_server_validation/case_server_basic" [SLet 0 (XNew "Server" (XVal (VDict [((u "host"), (VStr (u "kafka.in.mycompany.com:9092"))); ((u "protocol"), (VStr (u "kafka")))])));
  SAssert (CNot (CEq (XVar 0) (XVal VNone)));
  SAssert (CEq (XAttr (XVar 0) (u "host")) (XVal (VStr (u "kafka.in.mycompany.com:9092"))));
  SAssert (CEq (XAttr (XVar 0) (u "protocol")) (XVal (VStr (u "kafka"))))];
t "models/test_server.py::TestServer.test_server_validation/case_server_full" [SLet 0 (XNew "Server" (XVal (VDict [((u "host"), (VStr (u "kafka.in.mycompany.com:9092"))); ((u "description"), (VStr (u "Production Kafka broker."))); ((u "protocol"), (VStr (u "kafka"))); ((u "protocolVersion"), (VStr (u "3.2")))])));
  SAssert (CNot (CEq (XVar 0) (XVal VNone)));
  SAssert (CEq (XAttr (XVar 0) (u "host")) (XVal (VStr (u "kafka.in.mycompany.com:9092"))));
  SAssert (CEq (XAttr (XVar 0) (u "protocol")) (XVal (VStr (u "kafka"))))];
t "models/test_server.py::TestServer.test_server_validation/case_server_with_pathname" [SLet 0 (XNew "Server" (XVal (VDict [((u "host"), (VStr (u "rabbitmq.in.mycompany.com:5672"))); ((u "pathname"), (VStr (u "/production"))); ((u "protocol"), (VStr (u "amqp"))); ((u "description"), (VStr (u "Production RabbitMQ broker (uses the `production` vhost).")))])));
  SAssert (CNot (CEq (XVar 0) (XVal VNone)));
  SAssert (CEq (XAttr (XVar 0) (u "host")) (XVal (VStr (u "rabbitmq.in.mycompany.com:5672"))));
  SAssert (CEq (XAttr (XVar 0) (u "protocol")) (XVal (VStr (u "amqp"))))];
t "models/test_server.py::TestServer.test_server_validation/case_server_with_variables" [SLet 0 (XNew "Server" (XVal (VDict [((u "host"), (VStr (u "rabbitmq.in.mycompany.com:5672"))); ((u "pathname"), (VStr (u "/{env}"))); ((u "protocol"), (VStr (u "amqp"))); ((u "description"), (VStr (u "RabbitMQ broker. Use the `env` variable to point to either `production` or `staging`."))); ((u "variables"), (VDict [((u "env"), (VDict [((u "description"), (VStr (u "Environment to connect to. It can be either `production` or `staging`."))); ((u "enum"), (VList [(VStr (u "production")); (VStr (u "staging"))]))]))]))])));
  SAssert (CNot (CEq (XVar 0) (XVal VNone)));
  SAssert (CEq (XAttr (XVar 0) (u "host")) (XVal (VStr (u "rabbitmq.in.mycompany.com:5672"))));
  SAssert (CEq (XAttr (XVar 0) (u "protocol")) (XVal (VStr (u "amqp"))))];
t "models/test_server.py::TestServer.test_server_serialization/case_server_serialization_basic" [SLet 0 (XNew "Server" (XVal (VDict [((u "host"), (VStr (u "kafka.in.mycompany.com:9092"))); ((u "protocol"), (VStr (u "kafka")))])));
  SLet 1 (XDump (XVar 0));
  SAssert (CEq (XVar 1) (XUnurl (XVal (VDict [((u "host"), (VStr (u "kafka.in.mycompany.com:9092"))); ((u "protocol"), (VStr (u "kafka")))]))))];
t "models/test_server.py::TestServer.test_server_serialization/case_server_serialization_with_pathname" [SLet 0 (XNew "Server" (XVal (VDict [((u "host"), (VStr (u "rabbitmq.in.mycompany.com:5672"))); ((u "pathname"), (VStr (u "/production"))); ((u "protocol"), (VStr (u "amqp")))])));
  SLet 1 (XDump (XVar 0));
  SAssert (CEq (XVar 1) (XUnurl (XVal (VDict [((u "host"), (VStr (u "rabbitmq.in.mycompany.com:5672"))); ((u "pathname"), (VStr (u "/production"))); ((u "protocol"), (VStr (u "amqp")))]))))];
t "models/test_server.py::TestServer.test_server_serialization/case_server_serialization_with_protocol_version" [SLet 0 (XNew "Server" (XVal (VDict [((u "host"), (VStr (u "kafka.in.mycompany.com:9092"))); ((u "protocol"), (VStr (u "kafka"))); ((u "protocol_version"), (VStr (u "3.2")))])));
  SLet 1 (XDump (XVar 0));
  SAssert (CEq (XVar 1) (XUnurl (XVal (VDict [((u "host"), (VStr (u "kafka.in.mycompany.com:9092"))); ((u "protocol"), (VStr (u "kafka"))); ((u "protocolVersion"), (VStr (u "3.2")))]))))];
t "models/test_server.py::TestServer.test_server_serialization/case_server_serialization_with_variables" [SLet 0 (XNew "Server" (XDict [((u "host"), (XVal (VStr (u "rabbitmq.in.mycompany.com:5672")))); ((u "pathname"), (XVal (VStr (u "/{env}")))); ((u "protocol"), (XVal (VStr (u "amqp")))); ((u "variables"), (XDict [((u "env"), (XNew "ServerVariable" (XVal (VDict [((u "description"), (VStr (u "Environment to connect to."))); ((u "enum"), (VList [(VStr (u "production")); (VStr (u "staging"))])); ((u "default"), (VStr (u "production")))]))))]))]));
  SLet 1 (XDump (XVar 0));
  SAssert (CEq (XVar 1) (XUnurl (XVal (VDict [((u "host"), (VStr (u "rabbitmq.in.mycompany.com:5672"))); ((u "pathname"), (VStr (u "/{env}"))); ((u "protocol"), (VStr (u "amqp"))); ((u "variables"), (VDict [((u "env"), (VDict [((u "description"), (VStr (u "Environment to connect to."))); ((u "enum"), (VList [(VStr (u "production")); (VStr (u "staging"))])); ((u "default"), (VStr (u "production")))]))]))]))))];
t "models/test_server.py::TestServer.test_server_serialization/case_server_serialization_with_reference_variable" [SLet 0 (XNew "Server" (XDict [((u "host"), (XVal (VStr (u "rabbitmq.in.mycompany.com:5672")))); ((u "protocol"), (XVal (VStr (u "amqp")))); ((u "variables"), (XDict [((u "env"), (XNew "Reference" (XVal (VDict [((u "ref"), (VStr (u "#/components/serverVariables/env")))]))))]))]));
  SLet 1 (XDump (XVar 0));
  SAssert (CEq (XVar 1) (XUnurl (XVal (VDict [((u "host"), (VStr (u "rabbitmq.in.mycompany.com:5672"))); ((u "protocol"), (VStr (u "amqp"))); ((u "variables"), (VDict [((u "env"), (VDict [((u "$ref"), (VStr (u "#/components/serverVariables/env")))]))]))]))))];
t "models/test_server.py::TestServer.test_server_with_variables_validation" [SLet 0 (XNew "Server" (XVal (VDict [((u "host"), (VStr (u "rabbitmq.in.mycompany.com:5672"))); ((u "pathname"), (VStr (u "/{env}"))); ((u "protocol"), (VStr (u "amqp"))); ((u "variables"), (VDict [((u "env"), (VDict [((u "description"), (VStr (u "Environment to connect to."))); ((u "enum"), (VList [(VStr (u "production")); (VStr (u "staging"))])); ((u "default"), (VStr (u "production")))]))]))])));
  SAssert (CNot (CEq (XAttr (XVar 0) (u "variables")) (XVal VNone)));
  SAssert (CIn (u "env") (XAttr (XVar 0) (u "variables")));
  SAssert (CIs (XItem (XAttr (XVar 0) (u "variables")) (u "env")) ["ServerVariable"]);
  SAssert (CEq (XAttr (XItem (XAttr (XVar 0) (u "variables")) (u "env")) (u "default")) (XVal (VStr (u "production"))));
  SAssert (CEq (XAttr (XItem (XAttr (XVar 0) (u "variables")) (u "env")) (u "enum")) (XVal (VList [(VStr (u "production")); (VStr (u "staging"))])))];
t "models/test_server.py::TestServer.test_server_with_reference_variable_validation" [SLet 0 (XNew "Server" (XVal (VDict [((u "host"), (VStr (u "rabbitmq.in.mycompany.com:5672"))); ((u "protocol"), (VStr (u "amqp"))); ((u "variables"), (VDict [((u "env"), (VDict [((u "$ref"), (VStr (u "#/components/serverVariables/env")))]))]))])));
  SAssert (CNot (CEq (XAttr (XVar 0) (u "variables")) (XVal VNone)));
  SAssert (CIn (u "env") (XAttr (XVar 0) (u "variables")));
  SAssert (CIs (XItem (XAttr (XVar 0) (u "variables")) (u "env")) ["Reference"]);
  SAssert (CEq (XAttr (XItem (XAttr (XVar 0) (u "variables")) (u "env")) (u "ref")) (XVal (VStr (u "#/components/serverVariables/env"))))];
t "models/test_server.py::TestServer.test_server_with_protocol_version_validation" [SLet 0 (XNew "Server" (XVal (VDict [((u "host"), (VStr (u "kafka.in.mycompany.com:9092"))); ((u "protocol"), (VStr (u "kafka"))); ((u "protocolVersion"), (VStr (u "3.2")))])));
  SAssert (CEq (XAttr (XVar 0) (u "protocol_version")) (XVal (VStr (u "3.2"))))];
t "models/test_server.py::TestServer.test_server_with_pathname_validation" [SLet 0 (XNew "Server" (XVal (VDict [((u "host"), (VStr (u "rabbitmq.in.mycompany.com:5672"))); ((u "pathname"), (VStr (u "/production"))); ((u "protocol"), (VStr (u "amqp")))])));
  SAssert (CEq (XAttr (XVar 0) (u "pathname")) (XVal (VStr (u "/production"))))];
t "models/test_server.py::TestServer.test_server_missing_host_validation_error" [SRaises [SDo (XNew "Server" (XVal (VDict [((u "protocol"), (VStr (u "kafka")))])))] []];
t "models/test_server.py::TestServer.test_server_missing_protocol_validation_error" [SRaises [SDo (XNew "Server" (XVal (VDict [((u "host"), (VStr (u "kafka.in.mycompany.com:9092")))])))] []];
t "models/test_server.py::TestServer.test_server_missing_required_fields_validation_error" [SRaises [SDo (XNew "Server" (XVal (VDict [((u "description"), (VStr (u "Test server")))])))] []];
t "models/test_server.py::TestServers.test_servers_validation/case_servers_basic" [SLet 0 (XNew "Servers" (XVal (VDict [((u "production"), (VDict [((u "host"), (VStr (u "kafka.in.mycompany.com:9092"))); ((u "protocol"), (VStr (u "kafka")))])); ((u "staging"), (VDict [((u "host"), (VStr (u "kafka-staging.in.mycompany.com:9092"))); ((u "protocol"), (VStr (u "kafka")))]))])));
  SAssert (CNot (CEq (XVar 0) (XVal VNone)));
  SAssert (CIs (XAttr (XVar 0) (u "root")) ["dict"]);
  SAssert (CGt (XLen (XAttr (XVar 0) (u "root"))) (0)%Z)];
t "models/test_server.py::TestServers.test_servers_validation/case_servers_with_underscores_and_hyphens" [SLet 0 (XNew "Servers" (XVal (VDict [((u "production_server_1"), (VDict [((u "host"), (VStr (u "kafka.in.mycompany.com:9092"))); ((u "protocol"), (VStr (u "kafka")))])); ((u "staging-server-2"), (VDict [((u "host"), (VStr (u "kafka-staging.in.mycompany.com:9092"))); ((u "protocol"), (VStr (u "kafka")))])); ((u "server_3"), (VDict [((u "host"), (VStr (u "kafka-dev.in.mycompany.com:9092"))); ((u "protocol"), (VStr (u "kafka")))]))])));
  SAssert (CNot (CEq (XVar 0) (XVal VNone)));
  SAssert (CIs (XAttr (XVar 0) (u "root")) ["dict"]);
  SAssert (CGt (XLen (XAttr (XVar 0) (u "root"))) (0)%Z)];
t "models/test_server.py::TestServers.test_servers_validation/case_servers_with_references" [SLet 0 (XNew "Servers" (XVal (VDict [((u "production"), (VDict [((u "$ref"), (VStr (u "#/components/servers/production")))])); ((u "staging"), (VDict [((u "host"), (VStr (u "kafka-staging.in.mycompany.com:9092"))); ((u "protocol"), (VStr (u "kafka")))]))])));
  SAssert (CNot (CEq (XVar 0) (XVal VNone)));
  SAssert (CIs (XAttr (XVar 0) (u "root")) ["dict"]);
  SAssert (CGt (XLen (XAttr (XVar 0) (u "root"))) (0)%Z)];
t "models/test_server.py::TestServers.test_servers_validation_errors/case_servers_invalid_key_spaces" [SRaises [SDo (XNew "Servers" (XVal (VDict [((u "production server"), (VDict [((u "host"), (VStr (u "kafka.in.mycompany.com:9092"))); ((u "protocol"), (VStr (u "kafka")))]))])))] [(u "Field 'production server' does not match patterned object key pattern. Keys must contain letters, digits, hyphens, and underscores.")]];
t "models/test_server.py::TestServers.test_servers_validation_errors/case_servers_invalid_key_special_chars" [SRaises [SDo (XNew "Servers" (XVal (VDict [((u "production@server"), (VDict [((u "host"), (VStr (u "kafka.in.mycompany.com:9092"))); ((u "protocol"), (VStr (u "kafka")))]))])))] [(u "Field 'production@server' does not match patterned object key pattern. Keys must contain letters, digits, hyphens, and underscores.")]];
t "models/test_server.py::TestServers.test_servers_validation_errors/case_servers_invalid_key_dots" [SRaises [SDo (XNew "Servers" (XVal (VDict [((u "production.server"), (VDict [((u "host"), (VStr (u "kafka.in.mycompany.com:9092"))); ((u "protocol"), (VStr (u "kafka")))]))])))] [(u "Field 'production.server' does not match patterned object key pattern. Keys must contain letters, digits, hyphens, and underscores.")]];
t "models/test_server.py::TestServers.test_servers_validation_errors/case_servers_invalid_key_empty" [SRaises [SDo (XNew "Servers" (XVal (VDict [((u ""), (VDict [((u "host"), (VStr (u "kafka.in.mycompany.com:9092"))); ((u "protocol"), (VStr (u "kafka")))]))])))] [(u "Field '' does not match patterned object key pattern. Keys must contain letters, digits, hyphens, and underscores.")]];
t "models/test_server.py::TestServers.test_servers_empty_dict_validation" [SLet 0 (XNew "Servers" (XVal (VDict [])));
  SAssert (CNot (CEq (XVar 0) (XVal VNone)));
  SAssert (CEq (XAttr (XVar 0) (u "root")) (XVal (VDict [])));
  SAssert (CEq (XLen (XAttr (XVar 0) (u "root"))) (XVal (VInt (0)%Z)))];
t "models/test_server.py::TestServers.test_servers_iteration" [SLet 0 (XNew "Server" (XVal (VDict [((u "host"), (VStr (u "kafka.in.mycompany.com:9092"))); ((u "protocol"), (VStr (u "kafka")))])));
  SLet 1 (XNew "Server" (XVal (VDict [((u "host"), (VStr (u "kafka-staging.in.mycompany.com:9092"))); ((u "protocol"), (VStr (u "kafka")))])));
  SLet 2 (XNew "Servers" (XDict [((u "production"), (XVar 0)); ((u "staging"), (XVar 1))]));
  SLet 3 (XKeys (XVar 2));
  SAssert (CEq (XLen (XVar 3)) (XVal (VInt (2)%Z)));
  SAssert (CIn (u "production") (XVar 3));
  SAssert (CIn (u "staging") (XVar 3))];
t "models/test_server.py::TestServers.test_servers_getitem" [SLet 0 (XNew "Server" (XVal (VDict [((u "host"), (VStr (u "kafka.in.mycompany.com:9092"))); ((u "protocol"), (VStr (u "kafka")))])));
  SLet 1 (XNew "Server" (XVal (VDict [((u "host"), (VStr (u "kafka-staging.in.mycompany.com:9092"))); ((u "protocol"), (VStr (u "kafka")))])));
  SLet 2 (XNew "Servers" (XDict [((u "production"), (XVar 0)); ((u "staging"), (XVar 1))]));
  SAssert (CEq (XItem (XVar 2) (u "production")) (XVar 0));
  SAssert (CEq (XItem (XVar 2) (u "staging")) (XVar 1));
  SLet 3 (XNew "Reference" (XVal (VDict [((u "ref"), (VStr (u "#/components/servers/dev")))])));
  SLet 4 (XNew "Servers" (XDict [((u "dev"), (XVar 3))]));
  SAssert (CEq (XItem (XVar 4) (u "dev")) (XVar 3))];
t "models/test_server.py::TestServers.test_servers_getattr" [SLet 0 (XNew "Server" (XVal (VDict [((u "host"), (VStr (u "kafka.in.mycompany.com:9092"))); ((u "protocol"), (VStr (u "kafka")))])));
  SLet 1 (XNew "Server" (XVal (VDict [((u "host"), (VStr (u "kafka-staging.in.mycompany.com:9092"))); ((u "protocol"), (VStr (u "kafka")))])));
  SLet 2 (XNew "Servers" (XDict [((u "production"), (XVar 0)); ((u "staging"), (XVar 1))]));
  SAssert (CEq (XItem (XVar 2) (u "production")) (XVar 0));
  SAssert (CEq (XItem (XVar 2) (u "staging")) (XVar 1));
  SLet 3 (XNew "Reference" (XVal (VDict [((u "ref"), (VStr (u "#/components/servers/dev")))])));
  SLet 4 (XNew "Servers" (XDict [((u "dev"), (XVar 3))]));
  SAssert (CEq (XItem (XVar 4) (u "dev")) (XVar 3))]].
(** 354 tests *)
Definition tests := (part0 ++ part1 ++ part2 ++ part3 ++ part4 ++ part5 ++ part6 ++ part7 ++ part8)%list.
Example models_tests_pass : failing tests = [] /\ length tests = 354.
Proof. vm_compute. split; reflexivity. Qed.
