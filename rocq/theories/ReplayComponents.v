(** GENERATED by tools/replay.py from tests/models/test_components.py (do not edit): the project's own tests as programs of Replay.v. *)
From Verif Require Import PyStr Regex Value Types Classes State Unified Replay.
Local Open Scope string_scope.
Local Notation t := (@pair string (list stmt)).
Definition part0 : list (string * list stmt) := [
t "models/test_components.py::TestSchemas.test_schemas_validation/case_schemas_basic" [SLet 0 (XNew "Schemas" (XVal (VDict [((u "user"), (VDict [((u "type"), (VStr (u "object"))); ((u "properties"), (VDict [((u "name"), (VDict [((u "type"), (VStr (u "string")))]))]))])); ((u "order"), (VDict [((u "type"), (VStr (u "object"))); ((u "properties"), (VDict [((u "id"), (VDict [((u "type"), (VStr (u "integer")))]))]))]))])));
  SAssert (CNot (CEq (XVar 0) (XVal VNone)));
  SAssert (CIs (XAttr (XVar 0) (u "root")) ["dict"]);
  SAssert (CGt (XLen (XAttr (XVar 0) (u "root"))) (0)%Z)];
t "models/test_components.py::TestSchemas.test_schemas_validation/case_schemas_with_references" [SLet 0 (XNew "Schemas" (XVal (VDict [((u "user"), (VDict [((u "$ref"), (VStr (u "#/components/schemas/user")))])); ((u "order"), (VDict [((u "$ref"), (VStr (u "#/components/schemas/order")))]))])));
  SAssert (CNot (CEq (XVar 0) (XVal VNone)));
  SAssert (CIs (XAttr (XVar 0) (u "root")) ["dict"]);
  SAssert (CGt (XLen (XAttr (XVar 0) (u "root"))) (0)%Z)];
t "models/test_components.py::TestSchemas.test_schemas_validation_errors/case_schemas_invalid_key_spaces" [SRaises [SDo (XNew "Schemas" (XVal (VDict [((u "user schema"), (VDict [((u "type"), (VStr (u "object")))]))])))] [(u "Field 'user schema' does not match patterned object key pattern. Keys must contain letters, digits, hyphens, and underscores.")]];
t "models/test_components.py::TestSchemas.test_schemas_validation_errors/case_schemas_invalid_key_special_chars" [SRaises [SDo (XNew "Schemas" (XVal (VDict [((u "user@schema"), (VDict [((u "type"), (VStr (u "object")))]))])))] [(u "Field 'user@schema' does not match patterned object key pattern. Keys must contain letters, digits, hyphens, and underscores.")]];
t "models/test_components.py::TestSchemas.test_schemas_validation_errors/case_schemas_invalid_key_parentheses" [SRaises [SDo (XNew "Schemas" (XVal (VDict [((u "user(schema)"), (VDict [((u "type"), (VStr (u "object")))]))])))] [(u "Field 'user(schema)' does not match patterned object key pattern. Keys must contain letters, digits, hyphens, and underscores.")]];
t "models/test_components.py::TestSchemas.test_schemas_empty_dict_validation" [SLet 0 (XNew "Schemas" (XVal (VDict [])));
  SAssert (CNot (CEq (XVar 0) (XVal VNone)));
  SAssert (CEq (XAttr (XVar 0) (u "root")) (XVal (VDict [])));
  SAssert (CEq (XLen (XAttr (XVar 0) (u "root"))) (XVal (VInt (0)%Z)))];
t "models/test_components.py::TestSchemas.test_schemas_iteration" [SLet 0 (XNew "Schema" (XDict [((u "type"), (XVal (VStr (u "object")))); ((u "properties"), (XDict [((u "name"), (XNew "Schema" (XVal (VDict [((u "type"), (VStr (u "string")))]))))]))]));
  SLet 1 (XNew "Schema" (XDict [((u "type"), (XVal (VStr (u "object")))); ((u "properties"), (XDict [((u "id"), (XNew "Schema" (XVal (VDict [((u "type"), (VStr (u "integer")))]))))]))]));
  SLet 2 (XNew "Schemas" (XDict [((u "user"), (XVar 0)); ((u "order"), (XVar 1))]));
  SLet 3 (XKeys (XVar 2));
  SAssert (CEq (XLen (XVar 3)) (XVal (VInt (2)%Z)));
  SAssert (CIn (u "user") (XVar 3));
  SAssert (CIn (u "order") (XVar 3))];
t "models/test_components.py::TestSchemas.test_schemas_getitem" [SLet 0 (XNew "Schema" (XDict [((u "type"), (XVal (VStr (u "object")))); ((u "properties"), (XDict [((u "name"), (XNew "Schema" (XVal (VDict [((u "type"), (VStr (u "string")))]))))]))]));
  SLet 1 (XNew "Schema" (XDict [((u "type"), (XVal (VStr (u "object")))); ((u "properties"), (XDict [((u "id"), (XNew "Schema" (XVal (VDict [((u "type"), (VStr (u "integer")))]))))]))]));
  SLet 2 (XNew "Schemas" (XDict [((u "user"), (XVar 0)); ((u "order"), (XVar 1))]));
  SAssert (CEq (XItem (XVar 2) (u "user")) (XVar 0));
  SAssert (CEq (XItem (XVar 2) (u "order")) (XVar 1))];
t "models/test_components.py::TestSchemas.test_schemas_getattr" [SLet 0 (XNew "Schema" (XDict [((u "type"), (XVal (VStr (u "object")))); ((u "properties"), (XDict [((u "name"), (XNew "Schema" (XVal (VDict [((u "type"), (VStr (u "string")))]))))]))]));
  SLet 1 (XNew "Schema" (XDict [((u "type"), (XVal (VStr (u "object")))); ((u "properties"), (XDict [((u "id"), (XNew "Schema" (XVal (VDict [((u "type"), (VStr (u "integer")))]))))]))]));
  SLet 2 (XNew "Schemas" (XDict [((u "user"), (XVar 0)); ((u "order"), (XVar 1))]));
  SAssert (CEq (XItem (XVar 2) (u "user")) (XVar 0));
  SAssert (CEq (XItem (XVar 2) (u "order")) (XVar 1))];
t "models/test_components.py::TestChannels.test_channels_validation/case_channels_basic" [SLet 0 (XNew "Channels" (XVal (VDict [((u "userChannel"), (VDict [((u "address"), (VStr (u "user/signedup")))])); ((u "adminChannel"), (VDict [((u "address"), (VStr (u "admin/events")))]))])));
  SAssert (CNot (CEq (XVar 0) (XVal VNone)));
  SAssert (CIs (XAttr (XVar 0) (u "root")) ["dict"]);
  SAssert (CGt (XLen (XAttr (XVar 0) (u "root"))) (0)%Z)];
t "models/test_components.py::TestChannels.test_channels_validation/case_channels_with_references" [SLet 0 (XNew "Channels" (XVal (VDict [((u "userChannel"), (VDict [((u "$ref"), (VStr (u "#/components/channels/userChannel")))])); ((u "adminChannel"), (VDict [((u "$ref"), (VStr (u "#/components/channels/adminChannel")))]))])));
  SAssert (CNot (CEq (XVar 0) (XVal VNone)));
  SAssert (CIs (XAttr (XVar 0) (u "root")) ["dict"]);
  SAssert (CGt (XLen (XAttr (XVar 0) (u "root"))) (0)%Z)];
t "models/test_components.py::TestChannels.test_channels_validation_errors/case_channels_invalid_key_spaces" [SRaises [SDo (XNew "Channels" (XVal (VDict [((u "user channel"), (VDict [((u "address"), (VStr (u "user/signedup")))]))])))] [(u "Field 'user channel' does not match patterned object key pattern. Keys must contain letters, digits, hyphens, and underscores.")]];
t "models/test_components.py::TestChannels.test_channels_validation_errors/case_channels_invalid_key_special_chars" [SRaises [SDo (XNew "Channels" (XVal (VDict [((u "user@channel"), (VDict [((u "address"), (VStr (u "user/signedup")))]))])))] [(u "Field 'user@channel' does not match patterned object key pattern. Keys must contain letters, digits, hyphens, and underscores.")]];
t "models/test_components.py::TestChannels.test_channels_validation_errors/case_channels_invalid_key_parentheses" [SRaises [SDo (XNew "Channels" (XVal (VDict [((u "user(channel)"), (VDict [((u "address"), (VStr (u "user/signedup")))]))])))] [(u "Field 'user(channel)' does not match patterned object key pattern. Keys must contain letters, digits, hyphens, and underscores.")]];
t "models/test_components.py::TestChannels.test_channels_empty_dict_validation" [SLet 0 (XNew "Channels" (XVal (VDict [])));
  SAssert (CNot (CEq (XVar 0) (XVal VNone)));
  SAssert (CEq (XAttr (XVar 0) (u "root")) (XVal (VDict [])));
  SAssert (CEq (XLen (XAttr (XVar 0) (u "root"))) (XVal (VInt (0)%Z)))];
t "models/test_components.py::TestChannels.test_channels_iteration" [SLet 0 (XNew "Channel" (XVal (VDict [((u "address"), (VStr (u "user/signedup")))])));
  SLet 1 (XNew "Channel" (XVal (VDict [((u "address"), (VStr (u "admin/events")))])));
  SLet 2 (XNew "Channels" (XDict [((u "userChannel"), (XVar 0)); ((u "adminChannel"), (XVar 1))]));
  SLet 3 (XKeys (XVar 2));
  SAssert (CEq (XLen (XVar 3)) (XVal (VInt (2)%Z)));
  SAssert (CIn (u "userChannel") (XVar 3));
  SAssert (CIn (u "adminChannel") (XVar 3))];
t "models/test_components.py::TestChannels.test_channels_getitem" [SLet 0 (XNew "Channel" (XVal (VDict [((u "address"), (VStr (u "user/signedup")))])));
  SLet 1 (XNew "Channel" (XVal (VDict [((u "address"), (VStr (u "admin/events")))])));
  SLet 2 (XNew "Channels" (XDict [((u "userChannel"), (XVar 0)); ((u "adminChannel"), (XVar 1))]));
  SAssert (CEq (XItem (XVar 2) (u "userChannel")) (XVar 0));
  SAssert (CEq (XItem (XVar 2) (u "adminChannel")) (XVar 1))];
t "models/test_components.py::TestChannels.test_channels_getattr" [SLet 0 (XNew "Channel" (XVal (VDict [((u "address"), (VStr (u "user/signedup")))])));
  SLet 1 (XNew "Channel" (XVal (VDict [((u "address"), (VStr (u "admin/events")))])));
  SLet 2 (XNew "Channels" (XDict [((u "userChannel"), (XVar 0)); ((u "adminChannel"), (XVar 1))]));
  SAssert (CEq (XItem (XVar 2) (u "userChannel")) (XVar 0));
  SAssert (CEq (XItem (XVar 2) (u "adminChannel")) (XVar 1))];
t "models/test_components.py::TestOperations.test_operations_validation/case_operations_basic" [SLet 0 (XNew "Operations" (XVal (VDict [((u "sendUserSignup"), (VDict [((u "action"), (VStr (u "send"))); ((u "channel"), (VDict [((u "$ref"), (VStr (u "#/channels/userChannel")))]))])); ((u "receiveUserSignup"), (VDict [((u "action"), (VStr (u "receive"))); ((u "channel"), (VDict [((u "$ref"), (VStr (u "#/channels/userChannel")))]))]))])));
  SAssert (CNot (CEq (XVar 0) (XVal VNone)));
  SAssert (CIs (XAttr (XVar 0) (u "root")) ["dict"]);
  SAssert (CGt (XLen (XAttr (XVar 0) (u "root"))) (0)%Z)];
t "models/test_components.py::TestOperations.test_operations_validation/case_operations_with_references" [SLet 0 (XNew "Operations" (XVal (VDict [((u "sendUserSignup"), (VDict [((u "$ref"), (VStr (u "#/components/operations/sendUserSignup")))])); ((u "receiveUserSignup"), (VDict [((u "$ref"), (VStr (u "#/components/operations/receiveUserSignup")))]))])));
  SAssert (CNot (CEq (XVar 0) (XVal VNone)));
  SAssert (CIs (XAttr (XVar 0) (u "root")) ["dict"]);
  SAssert (CGt (XLen (XAttr (XVar 0) (u "root"))) (0)%Z)];
t "models/test_components.py::TestOperations.test_operations_validation_errors/case_operations_invalid_key_spaces" [SRaises [SDo (XNew "Operations" (XVal (VDict [((u "send user signup"), (VDict [((u "action"), (VStr (u "send"))); ((u "channel"), (VDict [((u "$ref"), (VStr (u "#/channels/userChannel")))]))]))])))] [(u "Field 'send user signup' does not match patterned object key pattern. Keys must contain letters, digits, hyphens, and underscores.")]];
t "models/test_components.py::TestOperations.test_operations_validation_errors/case_operations_invalid_key_special_chars" [SRaises [SDo (XNew "Operations" (XVal (VDict [((u "send@user@signup"), (VDict [((u "action"), (VStr (u "send"))); ((u "channel"), (VDict [((u "$ref"), (VStr (u "#/channels/userChannel")))]))]))])))] [(u "Field 'send@user@signup' does not match patterned object key pattern. Keys must contain letters, digits, hyphens, and underscores.")]];
t "models/test_components.py::TestOperations.test_operations_validation_errors/case_operations_invalid_key_parentheses" [SRaises [SDo (XNew "Operations" (XVal (VDict [((u "send(user)signup"), (VDict [((u "action"), (VStr (u "send"))); ((u "channel"), (VDict [((u "$ref"), (VStr (u "#/channels/userChannel")))]))]))])))] [(u "Field 'send(user)signup' does not match patterned object key pattern. Keys must contain letters, digits, hyphens, and underscores.")]];
t "models/test_components.py::TestOperations.test_operations_empty_dict_validation" [SLet 0 (XNew "Operations" (XVal (VDict [])));
  SAssert (CNot (CEq (XVar 0) (XVal VNone)));
  SAssert (CEq (XAttr (XVar 0) (u "root")) (XVal (VDict [])));
  SAssert (CEq (XLen (XAttr (XVar 0) (u "root"))) (XVal (VInt (0)%Z)))];
t "models/test_components.py::TestOperations.test_operations_iteration" [SLet 0 (XNew "Operation" (XDict [((u "action"), (XVal (VStr (u "send")))); ((u "channel"), (XNew "Reference" (XVal (VDict [((u "ref"), (VStr (u "#/channels/userChannel")))]))))]));
  SLet 1 (XNew "Operation" (XDict [((u "action"), (XVal (VStr (u "receive")))); ((u "channel"), (XNew "Reference" (XVal (VDict [((u "ref"), (VStr (u "#/channels/userChannel")))]))))]));
  SLet 2 (XNew "Operations" (XDict [((u "sendUserSignup"), (XVar 0)); ((u "receiveUserSignup"), (XVar 1))]));
  SLet 3 (XKeys (XVar 2));
  SAssert (CEq (XLen (XVar 3)) (XVal (VInt (2)%Z)));
  SAssert (CIn (u "sendUserSignup") (XVar 3));
  SAssert (CIn (u "receiveUserSignup") (XVar 3))];
t "models/test_components.py::TestOperations.test_operations_getitem" [SLet 0 (XNew "Operation" (XDict [((u "action"), (XVal (VStr (u "send")))); ((u "channel"), (XNew "Reference" (XVal (VDict [((u "ref"), (VStr (u "#/channels/userChannel")))]))))]));
  SLet 1 (XNew "Operation" (XDict [((u "action"), (XVal (VStr (u "receive")))); ((u "channel"), (XNew "Reference" (XVal (VDict [((u "ref"), (VStr (u "#/channels/userChannel")))]))))]));
  SLet 2 (XNew "Operations" (XDict [((u "sendUserSignup"), (XVar 0)); ((u "receiveUserSignup"), (XVar 1))]));
  SAssert (CEq (XItem (XVar 2) (u "sendUserSignup")) (XVar 0));
  SAssert (CEq (XItem (XVar 2) (u "receiveUserSignup")) (XVar 1))];
t "models/test_components.py::TestOperations.test_operations_getattr" [SLet 0 (XNew "Operation" (XDict [((u "action"), (XVal (VStr (u "send")))); ((u "channel"), (XNew "Reference" (XVal (VDict [((u "ref"), (VStr (u "#/channels/userChannel")))]))))]));
  SLet 1 (XNew "Operation" (XDict [((u "action"), (XVal (VStr (u "receive")))); ((u "channel"), (XNew "Reference" (XVal (VDict [((u "ref"), (VStr (u "#/channels/userChannel")))]))))]));
  SLet 2 (XNew "Operations" (XDict [((u "sendUserSignup"), (XVar 0)); ((u "receiveUserSignup"), (XVar 1))]));
  SAssert (CEq (XItem (XVar 2) (u "sendUserSignup")) (XVar 0));
  SAssert (CEq (XItem (XVar 2) (u "receiveUserSignup")) (XVar 1))];
t "models/test_components.py::TestMessages.test_messages_validation/case_messages_basic" [SLet 0 (XNew "Messages" (XVal (VDict [((u "UserSignedUp"), (VDict [((u "payload"), (VDict [((u "type"), (VStr (u "object"))); ((u "properties"), (VDict [((u "displayName"), (VDict [((u "type"), (VStr (u "string")))])); ((u "email"), (VDict [((u "type"), (VStr (u "string"))); ((u "format"), (VStr (u "email")))]))]))]))])); ((u "UserLoggedOut"), (VDict [((u "payload"), (VDict [((u "type"), (VStr (u "object"))); ((u "properties"), (VDict [((u "userId"), (VDict [((u "type"), (VStr (u "string")))]))]))]))]))])));
  SAssert (CNot (CEq (XVar 0) (XVal VNone)));
  SAssert (CIs (XAttr (XVar 0) (u "root")) ["dict"]);
  SAssert (CGt (XLen (XAttr (XVar 0) (u "root"))) (0)%Z)];
t "models/test_components.py::TestMessages.test_messages_validation/case_messages_with_references" [SLet 0 (XNew "Messages" (XVal (VDict [((u "UserSignedUp"), (VDict [((u "$ref"), (VStr (u "#/components/messages/UserSignedUp")))])); ((u "UserLoggedOut"), (VDict [((u "$ref"), (VStr (u "#/components/messages/UserLoggedOut")))]))])));
  SAssert (CNot (CEq (XVar 0) (XVal VNone)));
  SAssert (CIs (XAttr (XVar 0) (u "root")) ["dict"]);
  SAssert (CGt (XLen (XAttr (XVar 0) (u "root"))) (0)%Z)];
t "models/test_components.py::TestMessages.test_messages_validation_errors/case_messages_invalid_key_spaces" [SRaises [SDo (XNew "Messages" (XVal (VDict [((u "user signed up"), (VDict [((u "payload"), (VDict [((u "type"), (VStr (u "object"))); ((u "properties"), (VDict [((u "displayName"), (VDict [((u "type"), (VStr (u "string")))]))]))]))]))])))] [(u "Field 'user signed up' does not match patterned object key pattern. Keys must contain letters, digits, hyphens, and underscores.")]];
t "models/test_components.py::TestMessages.test_messages_validation_errors/case_messages_invalid_key_special_chars" [SRaises [SDo (XNew "Messages" (XVal (VDict [((u "user@signed@up"), (VDict [((u "payload"), (VDict [((u "type"), (VStr (u "object"))); ((u "properties"), (VDict [((u "displayName"), (VDict [((u "type"), (VStr (u "string")))]))]))]))]))])))] [(u "Field 'user@signed@up' does not match patterned object key pattern. Keys must contain letters, digits, hyphens, and underscores.")]];
t "models/test_components.py::TestMessages.test_messages_validation_errors/case_messages_invalid_key_parentheses" [SRaises [SDo (XNew "Messages" (XVal (VDict [((u "user(signed)up"), (VDict [((u "payload"), (VDict [((u "type"), (VStr (u "object"))); ((u "properties"), (VDict [((u "displayName"), (VDict [((u "type"), (VStr (u "string")))]))]))]))]))])))] [(u "Field 'user(signed)up' does not match patterned object key pattern. Keys must contain letters, digits, hyphens, and underscores.")]];
t "models/test_components.py::TestMessages.test_messages_empty_dict_validation" [SLet 0 (XNew "Messages" (XVal (VDict [])));
  SAssert (CNot (CEq (XVar 0) (XVal VNone)));
  SAssert (CEq (XAttr (XVar 0) (u "root")) (XVal (VDict [])));
  SAssert (CEq (XLen (XAttr (XVar 0) (u "root"))) (XVal (VInt (0)%Z)))];
t "models/test_components.py::TestMessages.test_messages_iteration" [SLet 0 (XNew "Message" (XDict [((u "payload"), (XNew "Schema" (XDict [((u "type"), (XVal (VStr (u "object")))); ((u "properties"), (XDict [((u "displayName"), (XNew "Schema" (XVal (VDict [((u "type"), (VStr (u "string")))])))); ((u "email"), (XNew "Schema" (XVal (VDict [((u "type"), (VStr (u "string"))); ((u "format"), (VStr (u "email")))]))))]))])))]));
  SLet 1 (XNew "Message" (XDict [((u "payload"), (XNew "Schema" (XDict [((u "type"), (XVal (VStr (u "object")))); ((u "properties"), (XDict [((u "userId"), (XNew "Schema" (XVal (VDict [((u "type"), (VStr (u "string")))]))))]))])))]));
  SLet 2 (XNew "Messages" (XDict [((u "UserSignedUp"), (XVar 0)); ((u "UserLoggedOut"), (XVar 1))]));
  SLet 3 (XKeys (XVar 2));
  SAssert (CEq (XLen (XVar 3)) (XVal (VInt (2)%Z)));
  SAssert (CIn (u "UserSignedUp") (XVar 3));
  SAssert (CIn (u "UserLoggedOut") (XVar 3))];
t "models/test_components.py::TestMessages.test_messages_getitem" [SLet 0 (XNew "Message" (XDict [((u "payload"), (XNew "Schema" (XDict [((u "type"), (XVal (VStr (u "object")))); ((u "properties"), (XDict [((u "displayName"), (XNew "Schema" (XVal (VDict [((u "type"), (VStr (u "string")))])))); ((u "email"), (XNew "Schema" (XVal (VDict [((u "type"), (VStr (u "string"))); ((u "format"), (VStr (u "email")))]))))]))])))]));
  SLet 1 (XNew "Message" (XDict [((u "payload"), (XNew "Schema" (XDict [((u "type"), (XVal (VStr (u "object")))); ((u "properties"), (XDict [((u "userId"), (XNew "Schema" (XVal (VDict [((u "type"), (VStr (u "string")))]))))]))])))]));
  SLet 2 (XNew "Messages" (XDict [((u "UserSignedUp"), (XVar 0)); ((u "UserLoggedOut"), (XVar 1))]));
  SAssert (CEq (XItem (XVar 2) (u "UserSignedUp")) (XVar 0));
  SAssert (CEq (XItem (XVar 2) (u "UserLoggedOut")) (XVar 1))];
t "models/test_components.py::TestMessages.test_messages_getattr" [SLet 0 (XNew "Message" (XDict [((u "payload"), (XNew "Schema" (XDict [((u "type"), (XVal (VStr (u "object")))); ((u "properties"), (XDict [((u "displayName"), (XNew "Schema" (XVal (VDict [((u "type"), (VStr (u "string")))])))); ((u "email"), (XNew "Schema" (XVal (VDict [((u "type"), (VStr (u "string"))); ((u "format"), (VStr (u "email")))]))))]))])))]));
  SLet 1 (XNew "Message" (XDict [((u "payload"), (XNew "Schema" (XDict [((u "type"), (XVal (VStr (u "object")))); ((u "properties"), (XDict [((u "userId"), (XNew "Schema" (XVal (VDict [((u "type"), (VStr (u "string")))]))))]))])))]));
  SLet 2 (XNew "Messages" (XDict [((u "UserSignedUp"), (XVar 0)); ((u "UserLoggedOut"), (XVar 1))]));
  SAssert (CEq (XItem (XVar 2) (u "UserSignedUp")) (XVar 0));
  SAssert (CEq (XItem (XVar 2) (u "UserLoggedOut")) (XVar 1))];
t "models/test_components.py::TestSecuritySchemes.test_security_schemes_validation/case_security_schemes_basic" [SLet 0 (XNew "SecuritySchemes" (XVal (VDict [((u "apiKey"), (VDict [((u "type"), (VStr (u "apiKey"))); ((u "in"), (VStr (u "user"))); ((u "name"), (VStr (u "api_key")))])); ((u "basicAuth"), (VDict [((u "type"), (VStr (u "http"))); ((u "scheme"), (VStr (u "basic")))]))])));
  SAssert (CNot (CEq (XVar 0) (XVal VNone)));
  SAssert (CIs (XAttr (XVar 0) (u "root")) ["dict"]);
  SAssert (CGt (XLen (XAttr (XVar 0) (u "root"))) (0)%Z)];
t "models/test_components.py::TestSecuritySchemes.test_security_schemes_validation/case_security_schemes_with_references" [SLet 0 (XNew "SecuritySchemes" (XVal (VDict [((u "apiKey"), (VDict [((u "$ref"), (VStr (u "#/components/securitySchemes/apiKey")))])); ((u "basicAuth"), (VDict [((u "$ref"), (VStr (u "#/components/securitySchemes/basicAuth")))]))])));
  SAssert (CNot (CEq (XVar 0) (XVal VNone)));
  SAssert (CIs (XAttr (XVar 0) (u "root")) ["dict"]);
  SAssert (CGt (XLen (XAttr (XVar 0) (u "root"))) (0)%Z)];
t "models/test_components.py::TestSecuritySchemes.test_security_schemes_validation_errors/case_security_schemes_invalid_key_spaces" [SRaises [SDo (XNew "SecuritySchemes" (XVal (VDict [((u "api key"), (VDict [((u "type"), (VStr (u "apiKey"))); ((u "in"), (VStr (u "user"))); ((u "name"), (VStr (u "api_key")))]))])))] [(u "Field 'api key' does not match patterned object key pattern. Keys must contain letters, digits, hyphens, and underscores.")]];
t "models/test_components.py::TestSecuritySchemes.test_security_schemes_validation_errors/case_security_schemes_invalid_key_special_chars" [SRaises [SDo (XNew "SecuritySchemes" (XVal (VDict [((u "api@key"), (VDict [((u "type"), (VStr (u "apiKey"))); ((u "in"), (VStr (u "user"))); ((u "name"), (VStr (u "api_key")))]))])))] [(u "Field 'api@key' does not match patterned object key pattern. Keys must contain letters, digits, hyphens, and underscores.")]]].
Definition part1 : list (string * list stmt) := [
t "models/test_components.py::TestSecuritySchemes.test_security_schemes_validation_errors/case_security_schemes_invalid_key_parentheses" [SRaises [SDo (XNew "SecuritySchemes" (XVal (VDict [((u "api(key)"), (VDict [((u "type"), (VStr (u "apiKey"))); ((u "in"), (VStr (u "user"))); ((u "name"), (VStr (u "api_key")))]))])))] [(u "Field 'api(key)' does not match patterned object key pattern. Keys must contain letters, digits, hyphens, and underscores.")]];
t "models/test_components.py::TestSecuritySchemes.test_security_schemes_empty_dict_validation" [SLet 0 (XNew "SecuritySchemes" (XVal (VDict [])));
  SAssert (CNot (CEq (XVar 0) (XVal VNone)));
  SAssert (CEq (XAttr (XVar 0) (u "root")) (XVal (VDict [])));
  SAssert (CEq (XLen (XAttr (XVar 0) (u "root"))) (XVal (VInt (0)%Z)))];
t "models/test_components.py::TestSecuritySchemes.test_security_schemes_iteration" [SLet 0 (XNew "SecurityScheme" (XVal (VDict [((u "type_"), (VStr (u "apiKey"))); ((u "in_"), (VStr (u "user"))); ((u "name"), (VStr (u "api_key")))])));
  SLet 1 (XNew "SecurityScheme" (XVal (VDict [((u "type_"), (VStr (u "http"))); ((u "scheme"), (VStr (u "basic")))])));
  SLet 2 (XNew "SecuritySchemes" (XDict [((u "apiKey"), (XVar 0)); ((u "basicAuth"), (XVar 1))]));
  SLet 3 (XKeys (XVar 2));
  SAssert (CEq (XLen (XVar 3)) (XVal (VInt (2)%Z)));
  SAssert (CIn (u "apiKey") (XVar 3));
  SAssert (CIn (u "basicAuth") (XVar 3))];
t "models/test_components.py::TestSecuritySchemes.test_security_schemes_getitem" [SLet 0 (XNew "SecurityScheme" (XVal (VDict [((u "type_"), (VStr (u "apiKey"))); ((u "in_"), (VStr (u "user"))); ((u "name"), (VStr (u "api_key")))])));
  SLet 1 (XNew "SecurityScheme" (XVal (VDict [((u "type_"), (VStr (u "http"))); ((u "scheme"), (VStr (u "basic")))])));
  SLet 2 (XNew "SecuritySchemes" (XDict [((u "apiKey"), (XVar 0)); ((u "basicAuth"), (XVar 1))]));
  SAssert (CEq (XItem (XVar 2) (u "apiKey")) (XVar 0));
  SAssert (CEq (XItem (XVar 2) (u "basicAuth")) (XVar 1))];
t "models/test_components.py::TestSecuritySchemes.test_security_schemes_getattr" [SLet 0 (XNew "SecurityScheme" (XVal (VDict [((u "type_"), (VStr (u "apiKey"))); ((u "in_"), (VStr (u "user"))); ((u "name"), (VStr (u "api_key")))])));
  SLet 1 (XNew "SecurityScheme" (XVal (VDict [((u "type_"), (VStr (u "http"))); ((u "scheme"), (VStr (u "basic")))])));
  SLet 2 (XNew "SecuritySchemes" (XDict [((u "apiKey"), (XVar 0)); ((u "basicAuth"), (XVar 1))]));
  SAssert (CEq (XItem (XVar 2) (u "apiKey")) (XVar 0));
  SAssert (CEq (XItem (XVar 2) (u "basicAuth")) (XVar 1))];
t "models/test_components.py::TestServerVariables.test_server_variables_validation/case_server_variables_basic" [SLet 0 (XNew "ServerVariables" (XVal (VDict [((u "port"), (VDict [((u "default"), (VStr (u "1883"))); ((u "enum"), (VList [(VStr (u "1883")); (VStr (u "8883"))]))])); ((u "username"), (VDict [((u "default"), (VStr (u "guest")))]))])));
  SAssert (CNot (CEq (XVar 0) (XVal VNone)));
  SAssert (CIs (XAttr (XVar 0) (u "root")) ["dict"]);
  SAssert (CGt (XLen (XAttr (XVar 0) (u "root"))) (0)%Z)];
t "models/test_components.py::TestServerVariables.test_server_variables_validation/case_server_variables_with_references" [SLet 0 (XNew "ServerVariables" (XVal (VDict [((u "port"), (VDict [((u "$ref"), (VStr (u "#/components/serverVariables/port")))])); ((u "username"), (VDict [((u "$ref"), (VStr (u "#/components/serverVariables/username")))]))])));
  SAssert (CNot (CEq (XVar 0) (XVal VNone)));
  SAssert (CIs (XAttr (XVar 0) (u "root")) ["dict"]);
  SAssert (CGt (XLen (XAttr (XVar 0) (u "root"))) (0)%Z)];
t "models/test_components.py::TestServerVariables.test_server_variables_validation_errors/case_server_variables_invalid_key_spaces" [SRaises [SDo (XNew "ServerVariables" (XVal (VDict [((u "server port"), (VDict [((u "default"), (VStr (u "1883")))]))])))] [(u "Field 'server port' does not match patterned object key pattern. Keys must contain letters, digits, hyphens, and underscores.")]];
t "models/test_components.py::TestServerVariables.test_server_variables_validation_errors/case_server_variables_invalid_key_special_chars" [SRaises [SDo (XNew "ServerVariables" (XVal (VDict [((u "server@port"), (VDict [((u "default"), (VStr (u "1883")))]))])))] [(u "Field 'server@port' does not match patterned object key pattern. Keys must contain letters, digits, hyphens, and underscores.")]];
t "models/test_components.py::TestServerVariables.test_server_variables_validation_errors/case_server_variables_invalid_key_parentheses" [SRaises [SDo (XNew "ServerVariables" (XVal (VDict [((u "server(port)"), (VDict [((u "default"), (VStr (u "1883")))]))])))] [(u "Field 'server(port)' does not match patterned object key pattern. Keys must contain letters, digits, hyphens, and underscores.")]];
t "models/test_components.py::TestServerVariables.test_server_variables_empty_dict_validation" [SLet 0 (XNew "ServerVariables" (XVal (VDict [])));
  SAssert (CNot (CEq (XVar 0) (XVal VNone)));
  SAssert (CEq (XAttr (XVar 0) (u "root")) (XVal (VDict [])));
  SAssert (CEq (XLen (XAttr (XVar 0) (u "root"))) (XVal (VInt (0)%Z)))];
t "models/test_components.py::TestServerVariables.test_server_variables_iteration" [SLet 0 (XNew "ServerVariable" (XVal (VDict [((u "default"), (VStr (u "1883"))); ((u "enum"), (VList [(VStr (u "1883")); (VStr (u "8883"))]))])));
  SLet 1 (XNew "ServerVariable" (XVal (VDict [((u "default"), (VStr (u "guest")))])));
  SLet 2 (XNew "ServerVariables" (XDict [((u "port"), (XVar 0)); ((u "username"), (XVar 1))]));
  SLet 3 (XKeys (XVar 2));
  SAssert (CEq (XLen (XVar 3)) (XVal (VInt (2)%Z)));
  SAssert (CIn (u "port") (XVar 3));
  SAssert (CIn (u "username") (XVar 3))];
t "models/test_components.py::TestServerVariables.test_server_variables_getitem" [SLet 0 (XNew "ServerVariable" (XVal (VDict [((u "default"), (VStr (u "1883"))); ((u "enum"), (VList [(VStr (u "1883")); (VStr (u "8883"))]))])));
  SLet 1 (XNew "ServerVariable" (XVal (VDict [((u "default"), (VStr (u "guest")))])));
  SLet 2 (XNew "ServerVariables" (XDict [((u "port"), (XVar 0)); ((u "username"), (XVar 1))]));
  SAssert (CEq (XItem (XVar 2) (u "port")) (XVar 0));
  SAssert (CEq (XItem (XVar 2) (u "username")) (XVar 1))];
t "models/test_components.py::TestServerVariables.test_server_variables_getattr" [SLet 0 (XNew "ServerVariable" (XVal (VDict [((u "default"), (VStr (u "1883"))); ((u "enum"), (VList [(VStr (u "1883")); (VStr (u "8883"))]))])));
  SLet 1 (XNew "ServerVariable" (XVal (VDict [((u "default"), (VStr (u "guest")))])));
  SLet 2 (XNew "ServerVariables" (XDict [((u "port"), (XVar 0)); ((u "username"), (XVar 1))]));
  SAssert (CEq (XItem (XVar 2) (u "port")) (XVar 0));
  SAssert (CEq (XItem (XVar 2) (u "username")) (XVar 1))];
t "models/test_components.py::TestParameters.test_parameters_validation/case_parameters_basic" [SLet 0 (XNew "Parameters" (XVal (VDict [((u "userId"), (VDict [((u "description"), (VStr (u "Id of the user.")))])); ((u "channelId"), (VDict [((u "description"), (VStr (u "Id of the channel.")))]))])));
  SAssert (CNot (CEq (XVar 0) (XVal VNone)));
  SAssert (CIs (XAttr (XVar 0) (u "root")) ["dict"]);
  SAssert (CGt (XLen (XAttr (XVar 0) (u "root"))) (0)%Z)];
t "models/test_components.py::TestParameters.test_parameters_validation/case_parameters_with_references" [SLet 0 (XNew "Parameters" (XVal (VDict [((u "userId"), (VDict [((u "$ref"), (VStr (u "#/components/parameters/userId")))])); ((u "channelId"), (VDict [((u "$ref"), (VStr (u "#/components/parameters/channelId")))]))])));
  SAssert (CNot (CEq (XVar 0) (XVal VNone)));
  SAssert (CIs (XAttr (XVar 0) (u "root")) ["dict"]);
  SAssert (CGt (XLen (XAttr (XVar 0) (u "root"))) (0)%Z)];
t "models/test_components.py::TestParameters.test_parameters_validation_errors/case_parameters_invalid_key_spaces" [SRaises [SDo (XNew "Parameters" (XVal (VDict [((u "user id"), (VDict [((u "description"), (VStr (u "Id of the user.")))]))])))] [(u "Field 'user id' does not match patterned object key pattern. Keys must contain letters, digits, hyphens, and underscores.")]];
t "models/test_components.py::TestParameters.test_parameters_validation_errors/case_parameters_invalid_key_special_chars" [SRaises [SDo (XNew "Parameters" (XVal (VDict [((u "user@id"), (VDict [((u "description"), (VStr (u "Id of the user.")))]))])))] [(u "Field 'user@id' does not match patterned object key pattern. Keys must contain letters, digits, hyphens, and underscores.")]];
t "models/test_components.py::TestParameters.test_parameters_validation_errors/case_parameters_invalid_key_parentheses" [SRaises [SDo (XNew "Parameters" (XVal (VDict [((u "user(id)"), (VDict [((u "description"), (VStr (u "Id of the user.")))]))])))] [(u "Field 'user(id)' does not match patterned object key pattern. Keys must contain letters, digits, hyphens, and underscores.")]];
t "models/test_components.py::TestParameters.test_parameters_empty_dict_validation" [SLet 0 (XNew "Parameters" (XVal (VDict [])));
  SAssert (CNot (CEq (XVar 0) (XVal VNone)));
  SAssert (CEq (XAttr (XVar 0) (u "root")) (XVal (VDict [])));
  SAssert (CEq (XLen (XAttr (XVar 0) (u "root"))) (XVal (VInt (0)%Z)))];
t "models/test_components.py::TestParameters.test_parameters_iteration" [SLet 0 (XNew "Parameter" (XVal (VDict [((u "description"), (VStr (u "Id of the user.")))])));
  SLet 1 (XNew "Parameter" (XVal (VDict [((u "description"), (VStr (u "Id of the channel.")))])));
  SLet 2 (XNew "Parameters" (XDict [((u "userId"), (XVar 0)); ((u "channelId"), (XVar 1))]));
  SLet 3 (XKeys (XVar 2));
  SAssert (CEq (XLen (XVar 3)) (XVal (VInt (2)%Z)));
  SAssert (CIn (u "userId") (XVar 3));
  SAssert (CIn (u "channelId") (XVar 3))];
t "models/test_components.py::TestParameters.test_parameters_getitem" [SLet 0 (XNew "Parameter" (XVal (VDict [((u "description"), (VStr (u "Id of the user.")))])));
  SLet 1 (XNew "Parameter" (XVal (VDict [((u "description"), (VStr (u "Id of the channel.")))])));
  SLet 2 (XNew "Parameters" (XDict [((u "userId"), (XVar 0)); ((u "channelId"), (XVar 1))]));
  SAssert (CEq (XItem (XVar 2) (u "userId")) (XVar 0));
  SAssert (CEq (XItem (XVar 2) (u "channelId")) (XVar 1))];
t "models/test_components.py::TestParameters.test_parameters_getattr" [SLet 0 (XNew "Parameter" (XVal (VDict [((u "description"), (VStr (u "Id of the user.")))])));
  SLet 1 (XNew "Parameter" (XVal (VDict [((u "description"), (VStr (u "Id of the channel.")))])));
  SLet 2 (XNew "Parameters" (XDict [((u "userId"), (XVar 0)); ((u "channelId"), (XVar 1))]));
  SAssert (CEq (XItem (XVar 2) (u "userId")) (XVar 0));
  SAssert (CEq (XItem (XVar 2) (u "channelId")) (XVar 1))];
t "models/test_components.py::TestCorrelationIDs.test_correlation_ids_validation/case_correlation_ids_basic" [SLet 0 (XNew "CorrelationIDs" (XVal (VDict [((u "default"), (VDict [((u "location"), (VStr (u "$message.header#/correlationId")))])); ((u "requestId"), (VDict [((u "location"), (VStr (u "$message.header#/requestId")))]))])));
  SAssert (CNot (CEq (XVar 0) (XVal VNone)));
  SAssert (CIs (XAttr (XVar 0) (u "root")) ["dict"]);
  SAssert (CGt (XLen (XAttr (XVar 0) (u "root"))) (0)%Z)];
t "models/test_components.py::TestCorrelationIDs.test_correlation_ids_validation/case_correlation_ids_with_references" [SLet 0 (XNew "CorrelationIDs" (XVal (VDict [((u "default"), (VDict [((u "$ref"), (VStr (u "#/components/correlationIds/default")))])); ((u "requestId"), (VDict [((u "$ref"), (VStr (u "#/components/correlationIds/requestId")))]))])));
  SAssert (CNot (CEq (XVar 0) (XVal VNone)));
  SAssert (CIs (XAttr (XVar 0) (u "root")) ["dict"]);
  SAssert (CGt (XLen (XAttr (XVar 0) (u "root"))) (0)%Z)];
t "models/test_components.py::TestCorrelationIDs.test_correlation_ids_validation_errors/case_correlation_ids_invalid_key_spaces" [SRaises [SDo (XNew "CorrelationIDs" (XVal (VDict [((u "default id"), (VDict [((u "location"), (VStr (u "$message.header#/correlationId")))]))])))] [(u "Field 'default id' does not match patterned object key pattern. Keys must contain letters, digits, hyphens, and underscores.")]];
t "models/test_components.py::TestCorrelationIDs.test_correlation_ids_validation_errors/case_correlation_ids_invalid_key_special_chars" [SRaises [SDo (XNew "CorrelationIDs" (XVal (VDict [((u "default@id"), (VDict [((u "location"), (VStr (u "$message.header#/correlationId")))]))])))] [(u "Field 'default@id' does not match patterned object key pattern. Keys must contain letters, digits, hyphens, and underscores.")]];
t "models/test_components.py::TestCorrelationIDs.test_correlation_ids_validation_errors/case_correlation_ids_invalid_key_parentheses" [SRaises [SDo (XNew "CorrelationIDs" (XVal (VDict [((u "default(id)"), (VDict [((u "location"), (VStr (u "$message.header#/correlationId")))]))])))] [(u "Field 'default(id)' does not match patterned object key pattern. Keys must contain letters, digits, hyphens, and underscores.")]];
t "models/test_components.py::TestCorrelationIDs.test_correlation_ids_empty_dict_validation" [SLet 0 (XNew "CorrelationIDs" (XVal (VDict [])));
  SAssert (CNot (CEq (XVar 0) (XVal VNone)));
  SAssert (CEq (XAttr (XVar 0) (u "root")) (XVal (VDict [])));
  SAssert (CEq (XLen (XAttr (XVar 0) (u "root"))) (XVal (VInt (0)%Z)))];
t "models/test_components.py::TestCorrelationIDs.test_correlation_ids_iteration" [SLet 0 (XNew "CorrelationID" (XVal (VDict [((u "location"), (VStr (u "$message.header#/correlationId")))])));
  SLet 1 (XNew "CorrelationID" (XVal (VDict [((u "location"), (VStr (u "$message.header#/requestId")))])));
  SLet 2 (XNew "CorrelationIDs" (XDict [((u "default"), (XVar 0)); ((u "requestId"), (XVar 1))]));
  SLet 3 (XKeys (XVar 2));
  SAssert (CEq (XLen (XVar 3)) (XVal (VInt (2)%Z)));
  SAssert (CIn (u "default") (XVar 3));
  SAssert (CIn (u "requestId") (XVar 3))];
t "models/test_components.py::TestCorrelationIDs.test_correlation_ids_getitem" [SLet 0 (XNew "CorrelationID" (XVal (VDict [((u "location"), (VStr (u "$message.header#/correlationId")))])));
  SLet 1 (XNew "CorrelationID" (XVal (VDict [((u "location"), (VStr (u "$message.header#/requestId")))])));
  SLet 2 (XNew "CorrelationIDs" (XDict [((u "default"), (XVar 0)); ((u "requestId"), (XVar 1))]));
  SAssert (CEq (XItem (XVar 2) (u "default")) (XVar 0));
  SAssert (CEq (XItem (XVar 2) (u "requestId")) (XVar 1))];
t "models/test_components.py::TestCorrelationIDs.test_correlation_ids_getattr" [SLet 0 (XNew "CorrelationID" (XVal (VDict [((u "location"), (VStr (u "$message.header#/correlationId")))])));
  SLet 1 (XNew "CorrelationID" (XVal (VDict [((u "location"), (VStr (u "$message.header#/requestId")))])));
  SLet 2 (XNew "CorrelationIDs" (XDict [((u "default"), (XVar 0)); ((u "requestId"), (XVar 1))]));
  SAssert (CEq (XItem (XVar 2) (u "default")) (XVar 0));
  SAssert (CEq (XItem (XVar 2) (u "requestId")) (XVar 1))];
t "models/test_components.py::TestReplies.test_replies_validation/case_replies_basic" [SLet 0 (XNew "Replies" (XVal (VDict [((u "userReply"), (VDict [((u "address"), (VDict [((u "location"), (VStr (u "$message.header#/replyTo")))]))])); ((u "adminReply"), (VDict [((u "address"), (VDict [((u "location"), (VStr (u "$message.header#/adminReplyTo")))]))]))])));
  SAssert (CNot (CEq (XVar 0) (XVal VNone)));
  SAssert (CIs (XAttr (XVar 0) (u "root")) ["dict"]);
  SAssert (CGt (XLen (XAttr (XVar 0) (u "root"))) (0)%Z)];
t "models/test_components.py::TestReplies.test_replies_validation/case_replies_with_references" [SLet 0 (XNew "Replies" (XVal (VDict [((u "userReply"), (VDict [((u "$ref"), (VStr (u "#/components/replies/userReply")))])); ((u "adminReply"), (VDict [((u "$ref"), (VStr (u "#/components/replies/adminReply")))]))])));
  SAssert (CNot (CEq (XVar 0) (XVal VNone)));
  SAssert (CIs (XAttr (XVar 0) (u "root")) ["dict"]);
  SAssert (CGt (XLen (XAttr (XVar 0) (u "root"))) (0)%Z)];
t "models/test_components.py::TestReplies.test_replies_validation_errors/case_replies_invalid_key_spaces" [SRaises [SDo (XNew "Replies" (XVal (VDict [((u "user reply"), (VDict [((u "address"), (VDict [((u "location"), (VStr (u "$message.header#/replyTo")))]))]))])))] [(u "Field 'user reply' does not match patterned object key pattern. Keys must contain letters, digits, hyphens, and underscores.")]];
t "models/test_components.py::TestReplies.test_replies_validation_errors/case_replies_invalid_key_special_chars" [SRaises [SDo (XNew "Replies" (XVal (VDict [((u "user@reply"), (VDict [((u "address"), (VDict [((u "location"), (VStr (u "$message.header#/replyTo")))]))]))])))] [(u "Field 'user@reply' does not match patterned object key pattern. Keys must contain letters, digits, hyphens, and underscores.")]];
t "models/test_components.py::TestReplies.test_replies_validation_errors/case_replies_invalid_key_parentheses" [SRaises [SDo (XNew "Replies" (XVal (VDict [((u "user(reply)"), (VDict [((u "address"), (VDict [((u "location"), (VStr (u "$message.header#/replyTo")))]))]))])))] [(u "Field 'user(reply)' does not match patterned object key pattern. Keys must contain letters, digits, hyphens, and underscores.")]];
t "models/test_components.py::TestReplies.test_replies_empty_dict_validation" [SLet 0 (XNew "Replies" (XVal (VDict [])));
  SAssert (CNot (CEq (XVar 0) (XVal VNone)));
  SAssert (CEq (XAttr (XVar 0) (u "root")) (XVal (VDict [])));
  SAssert (CEq (XLen (XAttr (XVar 0) (u "root"))) (XVal (VInt (0)%Z)))];
t "models/test_components.py::TestReplies.test_replies_iteration" [SLet 0 (XNew "OperationReply" (XDict [((u "address"), (XNew "OperationReplyAddress" (XVal (VDict [((u "location"), (VStr (u "$message.header#/replyTo")))]))))]));
  SLet 1 (XNew "OperationReply" (XDict [((u "address"), (XNew "OperationReplyAddress" (XVal (VDict [((u "location"), (VStr (u "$message.header#/adminReplyTo")))]))))]));
  SLet 2 (XNew "Replies" (XDict [((u "userReply"), (XVar 0)); ((u "adminReply"), (XVar 1))]));
  SLet 3 (XKeys (XVar 2));
  SAssert (CEq (XLen (XVar 3)) (XVal (VInt (2)%Z)));
  SAssert (CIn (u "userReply") (XVar 3));
  SAssert (CIn (u "adminReply") (XVar 3))];
t "models/test_components.py::TestReplies.test_replies_getitem" [SLet 0 (XNew "OperationReply" (XDict [((u "address"), (XNew "OperationReplyAddress" (XVal (VDict [((u "location"), (VStr (u "$message.header#/replyTo")))]))))]));
  SLet 1 (XNew "OperationReply" (XDict [((u "address"), (XNew "OperationReplyAddress" (XVal (VDict [((u "location"), (VStr (u "$message.header#/adminReplyTo")))]))))]));
  SLet 2 (XNew "Replies" (XDict [((u "userReply"), (XVar 0)); ((u "adminReply"), (XVar 1))]));
  SAssert (CEq (XItem (XVar 2) (u "userReply")) (XVar 0));
  SAssert (CEq (XItem (XVar 2) (u "adminReply")) (XVar 1))]].
Definition part2 : list (string * list stmt) := [
t "models/test_components.py::TestReplies.test_replies_getattr" [SLet 0 (XNew "OperationReply" (XDict [((u "address"), (XNew "OperationReplyAddress" (XVal (VDict [((u "location"), (VStr (u "$message.header#/replyTo")))]))))]));
  SLet 1 (XNew "OperationReply" (XDict [((u "address"), (XNew "OperationReplyAddress" (XVal (VDict [((u "location"), (VStr (u "$message.header#/adminReplyTo")))]))))]));
  SLet 2 (XNew "Replies" (XDict [((u "userReply"), (XVar 0)); ((u "adminReply"), (XVar 1))]));
  SAssert (CEq (XItem (XVar 2) (u "userReply")) (XVar 0));
  SAssert (CEq (XItem (XVar 2) (u "adminReply")) (XVar 1))];
t "models/test_components.py::TestReplyAddresses.test_reply_addresses_validation/case_reply_addresses_basic" [SLet 0 (XNew "ReplyAddresses" (XVal (VDict [((u "userReplyAddress"), (VDict [((u "location"), (VStr (u "$message.header#/replyTo")))])); ((u "adminReplyAddress"), (VDict [((u "location"), (VStr (u "$message.header#/adminReplyTo")))]))])));
  SAssert (CNot (CEq (XVar 0) (XVal VNone)));
  SAssert (CIs (XAttr (XVar 0) (u "root")) ["dict"]);
  SAssert (CGt (XLen (XAttr (XVar 0) (u "root"))) (0)%Z)];
t "models/test_components.py::TestReplyAddresses.test_reply_addresses_validation/case_reply_addresses_with_references" [SLet 0 (XNew "ReplyAddresses" (XVal (VDict [((u "userReplyAddress"), (VDict [((u "$ref"), (VStr (u "#/components/replyAddresses/userReplyAddress")))])); ((u "adminReplyAddress"), (VDict [((u "$ref"), (VStr (u "#/components/replyAddresses/adminReplyAddress")))]))])));
  SAssert (CNot (CEq (XVar 0) (XVal VNone)));
  SAssert (CIs (XAttr (XVar 0) (u "root")) ["dict"]);
  SAssert (CGt (XLen (XAttr (XVar 0) (u "root"))) (0)%Z)];
t "models/test_components.py::TestReplyAddresses.test_reply_addresses_validation_errors/case_reply_addresses_invalid_key_spaces" [SRaises [SDo (XNew "ReplyAddresses" (XVal (VDict [((u "user reply address"), (VDict [((u "location"), (VStr (u "$message.header#/replyTo")))]))])))] [(u "Field 'user reply address' does not match patterned object key pattern. Keys must contain letters, digits, hyphens, and underscores.")]];
t "models/test_components.py::TestReplyAddresses.test_reply_addresses_validation_errors/case_reply_addresses_invalid_key_special_chars" [SRaises [SDo (XNew "ReplyAddresses" (XVal (VDict [((u "user@reply@address"), (VDict [((u "location"), (VStr (u "$message.header#/replyTo")))]))])))] [(u "Field 'user@reply@address' does not match patterned object key pattern. Keys must contain letters, digits, hyphens, and underscores.")]];
t "models/test_components.py::TestReplyAddresses.test_reply_addresses_validation_errors/case_reply_addresses_invalid_key_parentheses" [SRaises [SDo (XNew "ReplyAddresses" (XVal (VDict [((u "user(reply)address"), (VDict [((u "location"), (VStr (u "$message.header#/replyTo")))]))])))] [(u "Field 'user(reply)address' does not match patterned object key pattern. Keys must contain letters, digits, hyphens, and underscores.")]];
t "models/test_components.py::TestReplyAddresses.test_reply_addresses_empty_dict_validation" [SLet 0 (XNew "ReplyAddresses" (XVal (VDict [])));
  SAssert (CNot (CEq (XVar 0) (XVal VNone)));
  SAssert (CEq (XAttr (XVar 0) (u "root")) (XVal (VDict [])));
  SAssert (CEq (XLen (XAttr (XVar 0) (u "root"))) (XVal (VInt (0)%Z)))];
t "models/test_components.py::TestReplyAddresses.test_reply_addresses_iteration" [SLet 0 (XNew "OperationReplyAddress" (XVal (VDict [((u "location"), (VStr (u "$message.header#/replyTo")))])));
  SLet 1 (XNew "OperationReplyAddress" (XVal (VDict [((u "location"), (VStr (u "$message.header#/adminReplyTo")))])));
  SLet 2 (XNew "ReplyAddresses" (XDict [((u "userReplyAddress"), (XVar 0)); ((u "adminReplyAddress"), (XVar 1))]));
  SLet 3 (XKeys (XVar 2));
  SAssert (CEq (XLen (XVar 3)) (XVal (VInt (2)%Z)));
  SAssert (CIn (u "userReplyAddress") (XVar 3));
  SAssert (CIn (u "adminReplyAddress") (XVar 3))];
t "models/test_components.py::TestReplyAddresses.test_reply_addresses_getitem" [SLet 0 (XNew "OperationReplyAddress" (XVal (VDict [((u "location"), (VStr (u "$message.header#/replyTo")))])));
  SLet 1 (XNew "OperationReplyAddress" (XVal (VDict [((u "location"), (VStr (u "$message.header#/adminReplyTo")))])));
  SLet 2 (XNew "ReplyAddresses" (XDict [((u "userReplyAddress"), (XVar 0)); ((u "adminReplyAddress"), (XVar 1))]));
  SAssert (CEq (XItem (XVar 2) (u "userReplyAddress")) (XVar 0));
  SAssert (CEq (XItem (XVar 2) (u "adminReplyAddress")) (XVar 1))];
t "models/test_components.py::TestReplyAddresses.test_reply_addresses_getattr" [SLet 0 (XNew "OperationReplyAddress" (XVal (VDict [((u "location"), (VStr (u "$message.header#/replyTo")))])));
  SLet 1 (XNew "OperationReplyAddress" (XVal (VDict [((u "location"), (VStr (u "$message.header#/adminReplyTo")))])));
  SLet 2 (XNew "ReplyAddresses" (XDict [((u "userReplyAddress"), (XVar 0)); ((u "adminReplyAddress"), (XVar 1))]));
  SAssert (CEq (XItem (XVar 2) (u "userReplyAddress")) (XVar 0));
  SAssert (CEq (XItem (XVar 2) (u "adminReplyAddress")) (XVar 1))];
t "models/test_components.py::TestExternalDocs.test_external_docs_validation/case_external_docs_basic" [SLet 0 (XNew "ExternalDocs" (XVal (VDict [((u "infoDocs"), (VDict [((u "url"), (VStr (u "https://example.com"))); ((u "description"), (VStr (u "API documentation")))])); ((u "userDocs"), (VDict [((u "url"), (VStr (u "https://example.com/users")))]))])));
  SAssert (CNot (CEq (XVar 0) (XVal VNone)));
  SAssert (CIs (XAttr (XVar 0) (u "root")) ["dict"]);
  SAssert (CGt (XLen (XAttr (XVar 0) (u "root"))) (0)%Z)];
t "models/test_components.py::TestExternalDocs.test_external_docs_validation/case_external_docs_with_references" [SLet 0 (XNew "ExternalDocs" (XVal (VDict [((u "infoDocs"), (VDict [((u "$ref"), (VStr (u "#/components/externalDocs/infoDocs")))])); ((u "userDocs"), (VDict [((u "$ref"), (VStr (u "#/components/externalDocs/userDocs")))]))])));
  SAssert (CNot (CEq (XVar 0) (XVal VNone)));
  SAssert (CIs (XAttr (XVar 0) (u "root")) ["dict"]);
  SAssert (CGt (XLen (XAttr (XVar 0) (u "root"))) (0)%Z)];
t "models/test_components.py::TestExternalDocs.test_external_docs_validation_errors/case_external_docs_invalid_key_spaces" [SRaises [SDo (XNew "ExternalDocs" (XVal (VDict [((u "info docs"), (VDict [((u "url"), (VStr (u "https://example.com")))]))])))] [(u "Field 'info docs' does not match patterned object key pattern. Keys must contain letters, digits, hyphens, and underscores.")]];
t "models/test_components.py::TestExternalDocs.test_external_docs_validation_errors/case_external_docs_invalid_key_special_chars" [SRaises [SDo (XNew "ExternalDocs" (XVal (VDict [((u "info@docs"), (VDict [((u "url"), (VStr (u "https://example.com")))]))])))] [(u "Field 'info@docs' does not match patterned object key pattern. Keys must contain letters, digits, hyphens, and underscores.")]];
t "models/test_components.py::TestExternalDocs.test_external_docs_validation_errors/case_external_docs_invalid_key_parentheses" [SRaises [SDo (XNew "ExternalDocs" (XVal (VDict [((u "info(docs)"), (VDict [((u "url"), (VStr (u "https://example.com")))]))])))] [(u "Field 'info(docs)' does not match patterned object key pattern. Keys must contain letters, digits, hyphens, and underscores.")]];
t "models/test_components.py::TestExternalDocs.test_external_docs_empty_dict_validation" [SLet 0 (XNew "ExternalDocs" (XVal (VDict [])));
  SAssert (CNot (CEq (XVar 0) (XVal VNone)));
  SAssert (CEq (XAttr (XVar 0) (u "root")) (XVal (VDict [])));
  SAssert (CEq (XLen (XAttr (XVar 0) (u "root"))) (XVal (VInt (0)%Z)))];
t "models/test_components.py::TestExternalDocs.test_external_docs_iteration" [SLet 0 (XNew "ExternalDocumentation" (XVal (VDict [((u "url"), (VStr (u "https://example.com"))); ((u "description"), (VStr (u "API documentation")))])));
  SLet 1 (XNew "ExternalDocumentation" (XVal (VDict [((u "url"), (VStr (u "https://example.com/users")))])));
  SLet 2 (XNew "ExternalDocs" (XDict [((u "infoDocs"), (XVar 0)); ((u "userDocs"), (XVar 1))]));
  SLet 3 (XKeys (XVar 2));
  SAssert (CEq (XLen (XVar 3)) (XVal (VInt (2)%Z)));
  SAssert (CIn (u "infoDocs") (XVar 3));
  SAssert (CIn (u "userDocs") (XVar 3))];
t "models/test_components.py::TestExternalDocs.test_external_docs_getitem" [SLet 0 (XNew "ExternalDocumentation" (XVal (VDict [((u "url"), (VStr (u "https://example.com"))); ((u "description"), (VStr (u "API documentation")))])));
  SLet 1 (XNew "ExternalDocumentation" (XVal (VDict [((u "url"), (VStr (u "https://example.com/users")))])));
  SLet 2 (XNew "ExternalDocs" (XDict [((u "infoDocs"), (XVar 0)); ((u "userDocs"), (XVar 1))]));
  SAssert (CEq (XItem (XVar 2) (u "infoDocs")) (XVar 0));
  SAssert (CEq (XItem (XVar 2) (u "userDocs")) (XVar 1))];
t "models/test_components.py::TestExternalDocs.test_external_docs_getattr" [SLet 0 (XNew "ExternalDocumentation" (XVal (VDict [((u "url"), (VStr (u "https://example.com"))); ((u "description"), (VStr (u "API documentation")))])));
  SLet 1 (XNew "ExternalDocumentation" (XVal (VDict [((u "url"), (VStr (u "https://example.com/users")))])));
  SLet 2 (XNew "ExternalDocs" (XDict [((u "infoDocs"), (XVar 0)); ((u "userDocs"), (XVar 1))]));
  SAssert (CEq (XItem (XVar 2) (u "infoDocs")) (XVar 0));
  SAssert (CEq (XItem (XVar 2) (u "userDocs")) (XVar 1))];
t "models/test_components.py::TestTags.test_tags_validation/case_tags_basic" [SLet 0 (XNew "Tags" (XVal (VDict [((u "user"), (VDict [((u "name"), (VStr (u "user"))); ((u "description"), (VStr (u "User related operations")))])); ((u "admin"), (VDict [((u "name"), (VStr (u "admin"))); ((u "description"), (VStr (u "Admin related operations")))]))])));
  SAssert (CNot (CEq (XVar 0) (XVal VNone)));
  SAssert (CIs (XAttr (XVar 0) (u "root")) ["dict"]);
  SAssert (CGt (XLen (XAttr (XVar 0) (u "root"))) (0)%Z)];
t "models/test_components.py::TestTags.test_tags_validation/case_tags_with_references" [SLet 0 (XNew "Tags" (XVal (VDict [((u "user"), (VDict [((u "$ref"), (VStr (u "#/components/tags/user")))])); ((u "admin"), (VDict [((u "$ref"), (VStr (u "#/components/tags/admin")))]))])));
  SAssert (CNot (CEq (XVar 0) (XVal VNone)));
  SAssert (CIs (XAttr (XVar 0) (u "root")) ["dict"]);
  SAssert (CGt (XLen (XAttr (XVar 0) (u "root"))) (0)%Z)];
t "models/test_components.py::TestTags.test_tags_validation_errors/case_tags_invalid_key_spaces" [SRaises [SDo (XNew "Tags" (XVal (VDict [((u "user tag"), (VDict [((u "name"), (VStr (u "user")))]))])))] [(u "Field 'user tag' does not match patterned object key pattern. Keys must contain letters, digits, hyphens, and underscores.")]];
t "models/test_components.py::TestTags.test_tags_validation_errors/case_tags_invalid_key_special_chars" [SRaises [SDo (XNew "Tags" (XVal (VDict [((u "user@tag"), (VDict [((u "name"), (VStr (u "user")))]))])))] [(u "Field 'user@tag' does not match patterned object key pattern. Keys must contain letters, digits, hyphens, and underscores.")]];
t "models/test_components.py::TestTags.test_tags_validation_errors/case_tags_invalid_key_parentheses" [SRaises [SDo (XNew "Tags" (XVal (VDict [((u "user(tag)"), (VDict [((u "name"), (VStr (u "user")))]))])))] [(u "Field 'user(tag)' does not match patterned object key pattern. Keys must contain letters, digits, hyphens, and underscores.")]];
t "models/test_components.py::TestTags.test_tags_empty_dict_validation" [SLet 0 (XNew "Tags" (XVal (VDict [])));
  SAssert (CNot (CEq (XVar 0) (XVal VNone)));
  SAssert (CEq (XAttr (XVar 0) (u "root")) (XVal (VDict [])));
  SAssert (CEq (XLen (XAttr (XVar 0) (u "root"))) (XVal (VInt (0)%Z)))];
t "models/test_components.py::TestTags.test_tags_iteration" [SLet 0 (XNew "Tag" (XVal (VDict [((u "name"), (VStr (u "user"))); ((u "description"), (VStr (u "User related operations")))])));
  SLet 1 (XNew "Tag" (XVal (VDict [((u "name"), (VStr (u "admin"))); ((u "description"), (VStr (u "Admin related operations")))])));
  SLet 2 (XNew "Tags" (XDict [((u "user"), (XVar 0)); ((u "admin"), (XVar 1))]));
  SLet 3 (XKeys (XVar 2));
  SAssert (CEq (XLen (XVar 3)) (XVal (VInt (2)%Z)));
  SAssert (CIn (u "user") (XVar 3));
  SAssert (CIn (u "admin") (XVar 3))];
t "models/test_components.py::TestTags.test_tags_getitem" [SLet 0 (XNew "Tag" (XVal (VDict [((u "name"), (VStr (u "user"))); ((u "description"), (VStr (u "User related operations")))])));
  SLet 1 (XNew "Tag" (XVal (VDict [((u "name"), (VStr (u "admin"))); ((u "description"), (VStr (u "Admin related operations")))])));
  SLet 2 (XNew "Tags" (XDict [((u "user"), (XVar 0)); ((u "admin"), (XVar 1))]));
  SAssert (CEq (XItem (XVar 2) (u "user")) (XVar 0));
  SAssert (CEq (XItem (XVar 2) (u "admin")) (XVar 1))];
t "models/test_components.py::TestTags.test_tags_getattr" [SLet 0 (XNew "Tag" (XVal (VDict [((u "name"), (VStr (u "user"))); ((u "description"), (VStr (u "User related operations")))])));
  SLet 1 (XNew "Tag" (XVal (VDict [((u "name"), (VStr (u "admin"))); ((u "description"), (VStr (u "Admin related operations")))])));
  SLet 2 (XNew "Tags" (XDict [((u "user"), (XVar 0)); ((u "admin"), (XVar 1))]));
  SAssert (CEq (XItem (XVar 2) (u "user")) (XVar 0));
  SAssert (CEq (XItem (XVar 2) (u "admin")) (XVar 1))];
t "models/test_components.py::TestOperationTraits.test_operation_traits_validation/case_operation_traits_basic" [SLet 0 (XNew "OperationTraits" (XVal (VDict [((u "httpTrait"), (VDict [((u "bindings"), (VDict [((u "http"), (VDict [((u "method"), (VStr (u "POST")))]))]))])); ((u "summaryTrait"), (VDict [((u "summary"), (VStr (u "A summary of the operation")))]))])));
  SAssert (CNot (CEq (XVar 0) (XVal VNone)));
  SAssert (CIs (XAttr (XVar 0) (u "root")) ["dict"]);
  SAssert (CGt (XLen (XAttr (XVar 0) (u "root"))) (0)%Z)];
t "models/test_components.py::TestOperationTraits.test_operation_traits_validation/case_operation_traits_with_references" [SLet 0 (XNew "OperationTraits" (XVal (VDict [((u "kafkaTrait"), (VDict [((u "$ref"), (VStr (u "#/components/operationTraits/kafkaTrait")))])); ((u "httpTrait"), (VDict [((u "$ref"), (VStr (u "#/components/operationTraits/httpTrait")))]))])));
  SAssert (CNot (CEq (XVar 0) (XVal VNone)));
  SAssert (CIs (XAttr (XVar 0) (u "root")) ["dict"]);
  SAssert (CGt (XLen (XAttr (XVar 0) (u "root"))) (0)%Z)];
t "models/test_components.py::TestOperationTraits.test_operation_traits_validation_errors/case_operation_traits_invalid_key_spaces" [SRaises [SDo (XNew "OperationTraits" (XVal (VDict [((u "kafka trait"), (VDict [((u "summary"), (VStr (u "A summary")))]))])))] [(u "Field 'kafka trait' does not match patterned object key pattern. Keys must contain letters, digits, hyphens, and underscores.")]];
t "models/test_components.py::TestOperationTraits.test_operation_traits_validation_errors/case_operation_traits_invalid_key_special_chars" [SRaises [SDo (XNew "OperationTraits" (XVal (VDict [((u "kafka@trait"), (VDict [((u "summary"), (VStr (u "A summary")))]))])))] [(u "Field 'kafka@trait' does not match patterned object key pattern. Keys must contain letters, digits, hyphens, and underscores.")]];
t "models/test_components.py::TestOperationTraits.test_operation_traits_validation_errors/case_operation_traits_invalid_key_parentheses" [SRaises [SDo (XNew "OperationTraits" (XVal (VDict [((u "kafka(trait)"), (VDict [((u "summary"), (VStr (u "A summary")))]))])))] [(u "Field 'kafka(trait)' does not match patterned object key pattern. Keys must contain letters, digits, hyphens, and underscores.")]];
t "models/test_components.py::TestOperationTraits.test_operation_traits_empty_dict_validation" [SLet 0 (XNew "OperationTraits" (XVal (VDict [])));
  SAssert (CNot (CEq (XVar 0) (XVal VNone)));
  SAssert (CEq (XAttr (XVar 0) (u "root")) (XVal (VDict [])));
  SAssert (CEq (XLen (XAttr (XVar 0) (u "root"))) (XVal (VInt (0)%Z)))];
t "models/test_components.py::TestOperationTraits.test_operation_traits_iteration" [SLet 0 (XNew "OperationTrait" (XVal (VDict [((u "bindings"), (VDict [((u "http"), (VDict [((u "method"), (VStr (u "POST")))]))]))])));
  SLet 1 (XNew "OperationTrait" (XVal (VDict [((u "summary"), (VStr (u "A summary of the operation")))])));
  SLet 2 (XNew "OperationTraits" (XDict [((u "httpTrait"), (XVar 0)); ((u "summaryTrait"), (XVar 1))]));
  SLet 3 (XKeys (XVar 2));
  SAssert (CEq (XLen (XVar 3)) (XVal (VInt (2)%Z)));
  SAssert (CIn (u "httpTrait") (XVar 3));
  SAssert (CIn (u "summaryTrait") (XVar 3))];
t "models/test_components.py::TestOperationTraits.test_operation_traits_getitem" [SLet 0 (XNew "OperationTrait" (XVal (VDict [((u "bindings"), (VDict [((u "http"), (VDict [((u "method"), (VStr (u "POST")))]))]))])));
  SLet 1 (XNew "OperationTrait" (XVal (VDict [((u "summary"), (VStr (u "A summary of the operation")))])));
  SLet 2 (XNew "OperationTraits" (XDict [((u "httpTrait"), (XVar 0)); ((u "summaryTrait"), (XVar 1))]));
  SAssert (CEq (XItem (XVar 2) (u "httpTrait")) (XVar 0));
  SAssert (CEq (XItem (XVar 2) (u "summaryTrait")) (XVar 1))];
t "models/test_components.py::TestOperationTraits.test_operation_traits_getattr" [SLet 0 (XNew "OperationTrait" (XVal (VDict [((u "bindings"), (VDict [((u "http"), (VDict [((u "method"), (VStr (u "POST")))]))]))])));
  SLet 1 (XNew "OperationTrait" (XVal (VDict [((u "summary"), (VStr (u "A summary of the operation")))])));
  SLet 2 (XNew "OperationTraits" (XDict [((u "httpTrait"), (XVar 0)); ((u "summaryTrait"), (XVar 1))]));
  SAssert (CEq (XItem (XVar 2) (u "httpTrait")) (XVar 0));
  SAssert (CEq (XItem (XVar 2) (u "summaryTrait")) (XVar 1))];
t "models/test_components.py::TestMessageTraits.test_message_traits_validation/case_message_traits_basic" [SLet 0 (XNew "MessageTraits" (XVal (VDict [((u "commonHeaders"), (VDict [((u "contentType"), (VStr (u "application/json")))])); ((u "eventHeaders"), (VDict [((u "headers"), (VDict [((u "type"), (VStr (u "object"))); ((u "properties"), (VDict [((u "eventId"), (VDict [((u "type"), (VStr (u "string")))]))]))]))]))])));
  SAssert (CNot (CEq (XVar 0) (XVal VNone)));
  SAssert (CIs (XAttr (XVar 0) (u "root")) ["dict"]);
  SAssert (CGt (XLen (XAttr (XVar 0) (u "root"))) (0)%Z)];
t "models/test_components.py::TestMessageTraits.test_message_traits_validation/case_message_traits_with_references" [SLet 0 (XNew "MessageTraits" (XVal (VDict [((u "commonHeaders"), (VDict [((u "$ref"), (VStr (u "#/components/messageTraits/commonHeaders")))])); ((u "eventHeaders"), (VDict [((u "$ref"), (VStr (u "#/components/messageTraits/eventHeaders")))]))])));
  SAssert (CNot (CEq (XVar 0) (XVal VNone)));
  SAssert (CIs (XAttr (XVar 0) (u "root")) ["dict"]);
  SAssert (CGt (XLen (XAttr (XVar 0) (u "root"))) (0)%Z)];
t "models/test_components.py::TestMessageTraits.test_message_traits_validation_errors/case_message_traits_invalid_key_spaces" [SRaises [SDo (XNew "MessageTraits" (XVal (VDict [((u "common headers"), (VDict [((u "contentType"), (VStr (u "application/json")))]))])))] [(u "Field 'common headers' does not match patterned object key pattern. Keys must contain letters, digits, hyphens, and underscores.")]]].
Definition part3 : list (string * list stmt) := [
t "models/test_components.py::TestMessageTraits.test_message_traits_validation_errors/case_message_traits_invalid_key_special_chars" [SRaises [SDo (XNew "MessageTraits" (XVal (VDict [((u "common@headers"), (VDict [((u "contentType"), (VStr (u "application/json")))]))])))] [(u "Field 'common@headers' does not match patterned object key pattern. Keys must contain letters, digits, hyphens, and underscores.")]];
t "models/test_components.py::TestMessageTraits.test_message_traits_validation_errors/case_message_traits_invalid_key_parentheses" [SRaises [SDo (XNew "MessageTraits" (XVal (VDict [((u "common(headers)"), (VDict [((u "contentType"), (VStr (u "application/json")))]))])))] [(u "Field 'common(headers)' does not match patterned object key pattern. Keys must contain letters, digits, hyphens, and underscores.")]];
t "models/test_components.py::TestMessageTraits.test_message_traits_empty_dict_validation" [SLet 0 (XNew "MessageTraits" (XVal (VDict [])));
  SAssert (CNot (CEq (XVar 0) (XVal VNone)));
  SAssert (CEq (XAttr (XVar 0) (u "root")) (XVal (VDict [])));
  SAssert (CEq (XLen (XAttr (XVar 0) (u "root"))) (XVal (VInt (0)%Z)))];
t "models/test_components.py::TestMessageTraits.test_message_traits_iteration" [SLet 0 (XNew "MessageTrait" (XVal (VDict [((u "content_type"), (VStr (u "application/json")))])));
  SLet 1 (XNew "MessageTrait" (XDict [((u "headers"), (XNew "Schema" (XDict [((u "type"), (XVal (VStr (u "object")))); ((u "properties"), (XDict [((u "eventId"), (XNew "Schema" (XVal (VDict [((u "type"), (VStr (u "string")))]))))]))])))]));
  SLet 2 (XNew "MessageTraits" (XDict [((u "commonHeaders"), (XVar 0)); ((u "eventHeaders"), (XVar 1))]));
  SLet 3 (XKeys (XVar 2));
  SAssert (CEq (XLen (XVar 3)) (XVal (VInt (2)%Z)));
  SAssert (CIn (u "commonHeaders") (XVar 3));
  SAssert (CIn (u "eventHeaders") (XVar 3))];
t "models/test_components.py::TestMessageTraits.test_message_traits_getitem" [SLet 0 (XNew "MessageTrait" (XVal (VDict [((u "content_type"), (VStr (u "application/json")))])));
  SLet 1 (XNew "MessageTrait" (XDict [((u "headers"), (XNew "Schema" (XDict [((u "type"), (XVal (VStr (u "object")))); ((u "properties"), (XDict [((u "eventId"), (XNew "Schema" (XVal (VDict [((u "type"), (VStr (u "string")))]))))]))])))]));
  SLet 2 (XNew "MessageTraits" (XDict [((u "commonHeaders"), (XVar 0)); ((u "eventHeaders"), (XVar 1))]));
  SAssert (CEq (XItem (XVar 2) (u "commonHeaders")) (XVar 0));
  SAssert (CEq (XItem (XVar 2) (u "eventHeaders")) (XVar 1))];
t "models/test_components.py::TestMessageTraits.test_message_traits_getattr" [SLet 0 (XNew "MessageTrait" (XVal (VDict [((u "content_type"), (VStr (u "application/json")))])));
  SLet 1 (XNew "MessageTrait" (XDict [((u "headers"), (XNew "Schema" (XDict [((u "type"), (XVal (VStr (u "object")))); ((u "properties"), (XDict [((u "eventId"), (XNew "Schema" (XVal (VDict [((u "type"), (VStr (u "string")))]))))]))])))]));
  SLet 2 (XNew "MessageTraits" (XDict [((u "commonHeaders"), (XVar 0)); ((u "eventHeaders"), (XVar 1))]));
  SAssert (CEq (XItem (XVar 2) (u "commonHeaders")) (XVar 0));
  SAssert (CEq (XItem (XVar 2) (u "eventHeaders")) (XVar 1))];
t "models/test_components.py::TestServers.test_servers_validation/case_servers_basic" [SLet 0 (XNew "Servers" (XVal (VDict [((u "production"), (VDict [((u "host"), (VStr (u "kafka.in.mycompany.com:9092"))); ((u "protocol"), (VStr (u "kafka")))])); ((u "staging"), (VDict [((u "host"), (VStr (u "kafka.staging.mycompany.com:9092"))); ((u "protocol"), (VStr (u "kafka")))]))])));
  SAssert (CNot (CEq (XVar 0) (XVal VNone)));
  SAssert (CIs (XAttr (XVar 0) (u "root")) ["dict"]);
  SAssert (CGt (XLen (XAttr (XVar 0) (u "root"))) (0)%Z)];
t "models/test_components.py::TestServers.test_servers_validation/case_servers_with_references" [SLet 0 (XNew "Servers" (XVal (VDict [((u "production"), (VDict [((u "$ref"), (VStr (u "#/components/servers/production")))])); ((u "staging"), (VDict [((u "$ref"), (VStr (u "#/components/servers/staging")))]))])));
  SAssert (CNot (CEq (XVar 0) (XVal VNone)));
  SAssert (CIs (XAttr (XVar 0) (u "root")) ["dict"]);
  SAssert (CGt (XLen (XAttr (XVar 0) (u "root"))) (0)%Z)];
t "models/test_components.py::TestServers.test_servers_validation_errors/case_servers_invalid_key_spaces" [SRaises [SDo (XNew "Servers" (XVal (VDict [((u "production server"), (VDict [((u "host"), (VStr (u "kafka.in.mycompany.com:9092"))); ((u "protocol"), (VStr (u "kafka")))]))])))] [(u "Field 'production server' does not match patterned object key pattern. Keys must contain letters, digits, hyphens, and underscores.")]];
t "models/test_components.py::TestServers.test_servers_empty_dict_validation" [SLet 0 (XNew "Servers" (XVal (VDict [])));
  SAssert (CNot (CEq (XVar 0) (XVal VNone)));
  SAssert (CEq (XAttr (XVar 0) (u "root")) (XVal (VDict [])));
  SAssert (CEq (XLen (XAttr (XVar 0) (u "root"))) (XVal (VInt (0)%Z)))];
t "models/test_components.py::TestComponents.test_components_validation/case_components_empty" [SLet 0 (XNew "Components" (XVal (VDict [])));
  SAssert (CNot (CEq (XVar 0) (XVal VNone)))];
t "models/test_components.py::TestComponents.test_components_validation/case_components_with_messages" [SLet 0 (XNew "Components" (XVal (VDict [((u "messages"), (VDict [((u "UserSignedUp"), (VDict [((u "payload"), (VDict [((u "type"), (VStr (u "object"))); ((u "properties"), (VDict [((u "displayName"), (VDict [((u "type"), (VStr (u "string")))])); ((u "email"), (VDict [((u "type"), (VStr (u "string"))); ((u "format"), (VStr (u "email")))]))]))]))]))]))])));
  SAssert (CNot (CEq (XVar 0) (XVal VNone)))];
t "models/test_components.py::TestComponents.test_components_validation/case_components_full" [SLet 0 (XNew "Components" (XVal (VDict [((u "schemas"), (VDict [((u "User"), (VDict [((u "type"), (VStr (u "object"))); ((u "properties"), (VDict [((u "name"), (VDict [((u "type"), (VStr (u "string")))]))]))]))])); ((u "servers"), (VDict [((u "production"), (VDict [((u "host"), (VStr (u "kafka.in.mycompany.com:9092"))); ((u "protocol"), (VStr (u "kafka")))]))])); ((u "channels"), (VDict [((u "userChannel"), (VDict [((u "address"), (VStr (u "user/signedup")))]))])); ((u "operations"), (VDict [((u "sendUserSignup"), (VDict [((u "action"), (VStr (u "send"))); ((u "channel"), (VDict [((u "$ref"), (VStr (u "#/channels/userChannel")))]))]))])); ((u "messages"), (VDict [((u "UserSignedUp"), (VDict [((u "payload"), (VDict [((u "type"), (VStr (u "object")))]))]))])); ((u "securitySchemes"), (VDict [((u "apiKey"), (VDict [((u "type"), (VStr (u "apiKey"))); ((u "in"), (VStr (u "user"))); ((u "name"), (VStr (u "api_key")))]))])); ((u "parameters"), (VDict [((u "userId"), (VDict [((u "description"), (VStr (u "Id of the user.")))]))])); ((u "correlationIds"), (VDict [((u "default"), (VDict [((u "location"), (VStr (u "$message.header#/correlationId")))]))])); ((u "tags"), (VDict [((u "user"), (VDict [((u "name"), (VStr (u "user")))]))]))])));
  SAssert (CNot (CEq (XVar 0) (XVal VNone)))];
t "models/test_components.py::TestComponents.test_components_serialization/case_components_serialization_empty" [SLet 0 (XNew "Components" (XVal (VDict [])));
  SLet 1 (XDump (XVar 0));
  SAssert (CEq (XVar 1) (XUnurl (XVal (VDict []))))];
t "models/test_components.py::TestComponents.test_components_serialization/case_components_serialization_with_messages" [SLet 0 (XNew "Components" (XDict [((u "messages"), (XNew "Messages" (XDict [((u "UserSignedUp"), (XNew "Message" (XDict [((u "payload"), (XNew "Schema" (XDict [((u "type"), (XVal (VStr (u "object")))); ((u "properties"), (XDict [((u "displayName"), (XNew "Schema" (XVal (VDict [((u "type"), (VStr (u "string")))])))); ((u "email"), (XNew "Schema" (XVal (VDict [((u "type"), (VStr (u "string"))); ((u "format"), (VStr (u "email")))]))))]))])))])))])))]));
  SLet 1 (XDump (XVar 0));
  SAssert (CEq (XVar 1) (XUnurl (XVal (VDict [((u "messages"), (VDict [((u "UserSignedUp"), (VDict [((u "payload"), (VDict [((u "type"), (VStr (u "object"))); ((u "properties"), (VDict [((u "displayName"), (VDict [((u "type"), (VStr (u "string")))])); ((u "email"), (VDict [((u "type"), (VStr (u "string"))); ((u "format"), (VStr (u "email")))]))]))]))]))]))]))))];
t "models/test_components.py::TestComponents.test_components_serialization/case_components_serialization_with_schemas" [SLet 0 (XNew "Components" (XDict [((u "schemas"), (XDict [((u "User"), (XNew "Schema" (XDict [((u "type"), (XVal (VStr (u "object")))); ((u "properties"), (XDict [((u "name"), (XNew "Schema" (XVal (VDict [((u "type"), (VStr (u "string")))]))))]))])))]))]));
  SLet 1 (XDump (XVar 0));
  SAssert (CEq (XVar 1) (XUnurl (XVal (VDict [((u "schemas"), (VDict [((u "User"), (VDict [((u "type"), (VStr (u "object"))); ((u "properties"), (VDict [((u "name"), (VDict [((u "type"), (VStr (u "string")))]))]))]))]))]))))];
t "models/test_components.py::TestComponents.test_components_serialization/case_components_serialization_with_servers" [SLet 0 (XNew "Components" (XDict [((u "servers"), (XDict [((u "production"), (XNew "Server" (XVal (VDict [((u "host"), (VStr (u "kafka.in.mycompany.com:9092"))); ((u "protocol"), (VStr (u "kafka")))]))))]))]));
  SLet 1 (XDump (XVar 0));
  SAssert (CEq (XVar 1) (XUnurl (XVal (VDict [((u "servers"), (VDict [((u "production"), (VDict [((u "host"), (VStr (u "kafka.in.mycompany.com:9092"))); ((u "protocol"), (VStr (u "kafka")))]))]))]))))];
t "models/test_components.py::TestComponents.test_components_serialization/case_components_serialization_with_channels" [SLet 0 (XNew "Components" (XDict [((u "channels"), (XDict [((u "userChannel"), (XNew "Channel" (XVal (VDict [((u "address"), (VStr (u "user/signedup")))]))))]))]));
  SLet 1 (XDump (XVar 0));
  SAssert (CEq (XVar 1) (XUnurl (XVal (VDict [((u "channels"), (VDict [((u "userChannel"), (VDict [((u "address"), (VStr (u "user/signedup")))]))]))]))))];
t "models/test_components.py::TestComponents.test_components_serialization/case_components_serialization_with_operations" [SLet 0 (XNew "Components" (XDict [((u "operations"), (XDict [((u "sendUserSignup"), (XNew "Operation" (XDict [((u "action"), (XVal (VStr (u "send")))); ((u "channel"), (XNew "Reference" (XVal (VDict [((u "ref"), (VStr (u "#/channels/userChannel")))]))))])))]))]));
  SLet 1 (XDump (XVar 0));
  SAssert (CEq (XVar 1) (XUnurl (XVal (VDict [((u "operations"), (VDict [((u "sendUserSignup"), (VDict [((u "action"), (VStr (u "send"))); ((u "channel"), (VDict [((u "$ref"), (VStr (u "#/channels/userChannel")))]))]))]))]))))];
t "models/test_components.py::TestComponents.test_components_serialization/case_components_serialization_with_parameters" [SLet 0 (XNew "Components" (XDict [((u "parameters"), (XDict [((u "userId"), (XNew "Parameter" (XVal (VDict [((u "description"), (VStr (u "Id of the user.")))]))))]))]));
  SLet 1 (XDump (XVar 0));
  SAssert (CEq (XVar 1) (XUnurl (XVal (VDict [((u "parameters"), (VDict [((u "userId"), (VDict [((u "description"), (VStr (u "Id of the user.")))]))]))]))))];
t "models/test_components.py::TestComponents.test_components_serialization/case_components_serialization_with_correlation_ids" [SLet 0 (XNew "Components" (XDict [((u "correlation_ids"), (XDict [((u "default"), (XNew "CorrelationID" (XVal (VDict [((u "location"), (VStr (u "$message.header#/correlationId")))]))))]))]));
  SLet 1 (XDump (XVar 0));
  SAssert (CEq (XVar 1) (XUnurl (XVal (VDict [((u "correlationIds"), (VDict [((u "default"), (VDict [((u "location"), (VStr (u "$message.header#/correlationId")))]))]))]))))];
t "models/test_components.py::TestComponents.test_components_serialization/case_components_serialization_with_security_schemes" [SLet 0 (XNew "Components" (XDict [((u "security_schemes"), (XDict [((u "apiKey"), (XNew "SecurityScheme" (XVal (VDict [((u "type_"), (VStr (u "apiKey"))); ((u "in_"), (VStr (u "user"))); ((u "name"), (VStr (u "api_key")))]))))]))]));
  SLet 1 (XDump (XVar 0));
  SAssert (CEq (XVar 1) (XUnurl (XVal (VDict [((u "securitySchemes"), (VDict [((u "apiKey"), (VDict [((u "type"), (VStr (u "apiKey"))); ((u "in"), (VStr (u "user"))); ((u "name"), (VStr (u "api_key")))]))]))]))))];
t "models/test_components.py::TestComponents.test_components_serialization/case_components_serialization_with_server_variables" [SLet 0 (XNew "Components" (XDict [((u "server_variables"), (XDict [((u "port"), (XNew "ServerVariable" (XVal (VDict [((u "default"), (VStr (u "1883"))); ((u "enum"), (VList [(VStr (u "1883")); (VStr (u "8883"))]))]))))]))]));
  SLet 1 (XDump (XVar 0));
  SAssert (CEq (XVar 1) (XUnurl (XVal (VDict [((u "serverVariables"), (VDict [((u "port"), (VDict [((u "default"), (VStr (u "1883"))); ((u "enum"), (VList [(VStr (u "1883")); (VStr (u "8883"))]))]))]))]))))];
t "models/test_components.py::TestComponents.test_components_serialization/case_components_serialization_with_replies" [SLet 0 (XNew "Components" (XDict [((u "replies"), (XDict [((u "userReply"), (XNew "OperationReply" (XDict [((u "address"), (XNew "OperationReplyAddress" (XVal (VDict [((u "location"), (VStr (u "$message.header#/replyTo")))]))))])))]))]));
  SLet 1 (XDump (XVar 0));
  SAssert (CEq (XVar 1) (XUnurl (XVal (VDict [((u "replies"), (VDict [((u "userReply"), (VDict [((u "address"), (VDict [((u "location"), (VStr (u "$message.header#/replyTo")))]))]))]))]))))];
t "models/test_components.py::TestComponents.test_components_serialization/case_components_serialization_with_reply_addresses" [SLet 0 (XNew "Components" (XDict [((u "reply_addresses"), (XDict [((u "userReplyAddress"), (XNew "OperationReplyAddress" (XVal (VDict [((u "location"), (VStr (u "$message.header#/replyTo")))]))))]))]));
  SLet 1 (XDump (XVar 0));
  SAssert (CEq (XVar 1) (XUnurl (XVal (VDict [((u "replyAddresses"), (VDict [((u "userReplyAddress"), (VDict [((u "location"), (VStr (u "$message.header#/replyTo")))]))]))]))))];
t "models/test_components.py::TestComponents.test_components_serialization/case_components_serialization_with_external_docs" [SLet 0 (XNew "Components" (XDict [((u "external_docs"), (XDict [((u "apiDocs"), (XNew "ExternalDocumentation" (XVal (VDict [((u "url"), (VStr (u "https://example.com"))); ((u "description"), (VStr (u "API documentation")))]))))]))]));
  SLet 1 (XDump (XVar 0));
  SAssert (CEq (XVar 1) (XUnurl (XDict [((u "externalDocs"), (XDict [((u "apiDocs"), (XDict [((u "url"), (XNewAt (TUrl false) (XVal (VStr (u "https://example.com/"))))); ((u "description"), (XVal (VStr (u "API documentation"))))]))]))])))];
t "models/test_components.py::TestComponents.test_components_serialization/case_components_serialization_with_tags" [SLet 0 (XNew "Components" (XDict [((u "tags"), (XDict [((u "user"), (XNew "Tag" (XVal (VDict [((u "name"), (VStr (u "user"))); ((u "description"), (VStr (u "User operations")))]))))]))]));
  SLet 1 (XDump (XVar 0));
  SAssert (CEq (XVar 1) (XUnurl (XVal (VDict [((u "tags"), (VDict [((u "user"), (VDict [((u "name"), (VStr (u "user"))); ((u "description"), (VStr (u "User operations")))]))]))]))))];
t "models/test_components.py::TestComponents.test_components_serialization/case_components_serialization_with_operation_traits" [SLet 0 (XNew "Components" (XDict [((u "operation_traits"), (XDict [((u "httpTrait"), (XNew "OperationTrait" (XVal (VDict [((u "bindings"), (VDict [((u "http"), (VDict [((u "method"), (VStr (u "POST")))]))])); ((u "summary"), (VStr (u "HTTP operation trait")))]))))]))]));
  SLet 1 (XDump (XVar 0));
  SAssert (CEq (XVar 1) (XUnurl (XVal (VDict [((u "operationTraits"), (VDict [((u "httpTrait"), (VDict [((u "bindings"), (VDict [((u "http"), (VDict [((u "method"), (VStr (u "POST"))); ((u "bindingVersion"), (VStr (u "0.3.0")))]))])); ((u "summary"), (VStr (u "HTTP operation trait")))]))]))]))))];
t "models/test_components.py::TestComponents.test_components_serialization/case_components_serialization_with_message_traits" [SLet 0 (XNew "Components" (XDict [((u "message_traits"), (XDict [((u "commonHeaders"), (XNew "MessageTrait" (XDict [((u "content_type"), (XVal (VStr (u "application/json")))); ((u "headers"), (XNew "Schema" (XDict [((u "type"), (XVal (VStr (u "object")))); ((u "properties"), (XDict [((u "eventId"), (XNew "Schema" (XVal (VDict [((u "type"), (VStr (u "string")))]))))]))])))])))]))]));
  SLet 1 (XDump (XVar 0));
  SAssert (CEq (XVar 1) (XUnurl (XVal (VDict [((u "messageTraits"), (VDict [((u "commonHeaders"), (VDict [((u "contentType"), (VStr (u "application/json"))); ((u "headers"), (VDict [((u "type"), (VStr (u "object"))); ((u "properties"), (VDict [((u "eventId"), (VDict [((u "type"), (VStr (u "string")))]))]))]))]))]))]))))];
t "models/test_components.py::TestComponents.test_components_with_all_sections_validation" [SLet 0 (XNew "Components" (XVal (VDict [((u "schemas"), (VDict [((u "User"), (VDict [((u "type"), (VStr (u "object")))]))])); ((u "servers"), (VDict [((u "production"), (VDict [((u "host"), (VStr (u "kafka.in.mycompany.com:9092"))); ((u "protocol"), (VStr (u "kafka")))]))])); ((u "channels"), (VDict [((u "userChannel"), (VDict [((u "address"), (VStr (u "user/signedup")))]))])); ((u "operations"), (VDict [((u "sendUserSignup"), (VDict [((u "action"), (VStr (u "send"))); ((u "channel"), (VDict [((u "$ref"), (VStr (u "#/channels/userChannel")))]))]))])); ((u "messages"), (VDict [((u "UserSignedUp"), (VDict [((u "payload"), (VDict [((u "type"), (VStr (u "object")))]))]))])); ((u "securitySchemes"), (VDict [((u "apiKey"), (VDict [((u "type"), (VStr (u "apiKey"))); ((u "in"), (VStr (u "user"))); ((u "name"), (VStr (u "api_key")))]))])); ((u "serverVariables"), (VDict [((u "port"), (VDict [((u "default"), (VStr (u "1883")))]))])); ((u "parameters"), (VDict [((u "userId"), (VDict [((u "description"), (VStr (u "Id of the user.")))]))])); ((u "correlationIds"), (VDict [((u "default"), (VDict [((u "location"), (VStr (u "$message.header#/correlationId")))]))])); ((u "replies"), (VDict [((u "userReply"), (VDict [((u "address"), (VDict [((u "location"), (VStr (u "$message.header#/replyTo")))]))]))])); ((u "replyAddresses"), (VDict [((u "userReplyAddress"), (VDict [((u "location"), (VStr (u "$message.header#/replyTo")))]))])); ((u "externalDocs"), (VDict [((u "infoDocs"), (VDict [((u "url"), (VStr (u "https://example.com")))]))])); ((u "tags"), (VDict [((u "user"), (VDict [((u "name"), (VStr (u "user")))]))])); ((u "operationTraits"), (VDict [((u "kafka"), (VDict [((u "bindings"), (VDict [((u "http"), (VDict [((u "method"), (VStr (u "POST")))]))]))]))])); ((u "messageTraits"), (VDict [((u "commonHeaders"), (VDict [((u "contentType"), (VStr (u "application/json")))]))])); ((u "serverBindings"), (VDict [((u "http"), (VDict [((u "http"), (VDict []))]))])); ((u "channelBindings"), (VDict [((u "http"), (VDict [((u "http"), (VDict []))]))])); ((u "operationBindings"), (VDict [((u "http"), (VDict [((u "http"), (VDict [((u "method"), (VStr (u "POST")))]))]))])); ((u "messageBindings"), (VDict [((u "http"), (VDict [((u "http"), (VDict [((u "headers"), (VDict [((u "type"), (VStr (u "object")))]))]))]))]))])));
  SAssert (CNot (CEq (XAttr (XVar 0) (u "schemas")) (XVal VNone)));
  SAssert (CNot (CEq (XAttr (XVar 0) (u "servers")) (XVal VNone)));
  SAssert (CNot (CEq (XAttr (XVar 0) (u "channels")) (XVal VNone)));
  SAssert (CNot (CEq (XAttr (XVar 0) (u "operations")) (XVal VNone)));
  SAssert (CNot (CEq (XAttr (XVar 0) (u "messages")) (XVal VNone)));
  SAssert (CNot (CEq (XAttr (XVar 0) (u "security_schemes")) (XVal VNone)));
  SAssert (CNot (CEq (XAttr (XVar 0) (u "server_variables")) (XVal VNone)));
  SAssert (CNot (CEq (XAttr (XVar 0) (u "parameters")) (XVal VNone)));
  SAssert (CNot (CEq (XAttr (XVar 0) (u "correlation_ids")) (XVal VNone)));
  SAssert (CNot (CEq (XAttr (XVar 0) (u "replies")) (XVal VNone)));
  SAssert (CNot (CEq (XAttr (XVar 0) (u "reply_addresses")) (XVal VNone)));
  SAssert (CNot (CEq (XAttr (XVar 0) (u "external_docs")) (XVal VNone)));
  SAssert (CNot (CEq (XAttr (XVar 0) (u "tags")) (XVal VNone)));
  SAssert (CNot (CEq (XAttr (XVar 0) (u "operation_traits")) (XVal VNone)));
  SAssert (CNot (CEq (XAttr (XVar 0) (u "message_traits")) (XVal VNone)));
  SAssert (CNot (CEq (XAttr (XVar 0) (u "server_bindings")) (XVal VNone)));
  SAssert (CNot (CEq (XAttr (XVar 0) (u "channel_bindings")) (XVal VNone)));
  SAssert (CNot (CEq (XAttr (XVar 0) (u "operation_bindings")) (XVal VNone)));
  SAssert (CNot (CEq (XAttr (XVar 0) (u "message_bindings")) (XVal VNone)))]].
(** 150 tests *)
Definition tests := (part0 ++ part1 ++ part2 ++ part3)%list.
Example components_tests_pass : failing tests = [] /\ length tests = 150.
Proof. vm_compute. split; reflexivity. Qed.
