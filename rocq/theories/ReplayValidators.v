(** GENERATED by tools/replay.py from tests/validators (do not edit): the project's own tests as programs of Replay.v. *)
From Verif Require Import PyStr Regex Value Types Classes State Unified Replay.
Local Open Scope string_scope.
Local Notation t := (@pair string (list stmt)).
Definition part0 : list (string * list stmt) := [
t "validators/test_external_docs_ref_validator.py::TestExternalDocsRefValidator.test_external_docs_ref_validator_validates_info_refs" [SLet 0 (XNew "AsyncAPI3" (XVal (VDict [((u "asyncapi"), (VStr (u "3.0.0"))); ((u "info"), (VDict [((u "title"), (VStr (u "Test API"))); ((u "version"), (VStr (u "1.0.0"))); ((u "externalDocs"), (VDict [((u "$ref"), (VStr (u "#/components/externalDocs/main")))]))])); ((u "components"), (VDict [((u "externalDocs"), (VDict [((u "main"), (VDict [((u "url"), (VStr (u "https://example.com")))]))]))])); ((u "extra_validators"), (VList [(VProc (u "ExternalDocsRefValidator"))]))])));
  SAssert (CNot (CEq (XVar 0) (XVal VNone)))];
t "validators/test_external_docs_ref_validator.py::TestExternalDocsRefValidator.test_external_docs_ref_validator_invalid_path" [SRaises [SDo (XNew "AsyncAPI3" (XVal (VDict [((u "asyncapi"), (VStr (u "3.0.0"))); ((u "info"), (VDict [((u "title"), (VStr (u "Test API"))); ((u "version"), (VStr (u "1.0.0"))); ((u "externalDocs"), (VDict [((u "$ref"), (VStr (u "#/docs/main")))]))])); ((u "components"), (VDict [((u "externalDocs"), (VDict [((u "main"), (VDict [((u "url"), (VStr (u "https://example.com")))]))]))])); ((u "extra_validators"), (VList [(VProc (u "ExternalDocsRefValidator"))]))])))] [(u "must point to #/components/externalDocs/")]];
t "validators/test_external_docs_ref_validator.py::TestExternalDocsRefValidator.test_external_docs_ref_validator_nonexistent_ref" [SRaises [SDo (XNew "AsyncAPI3" (XVal (VDict [((u "asyncapi"), (VStr (u "3.0.0"))); ((u "info"), (VDict [((u "title"), (VStr (u "Test API"))); ((u "version"), (VStr (u "1.0.0"))); ((u "externalDocs"), (VDict [((u "$ref"), (VStr (u "#/components/externalDocs/nonexistent")))]))])); ((u "components"), (VDict [((u "externalDocs"), (VDict [((u "main"), (VDict [((u "url"), (VStr (u "https://example.com")))]))]))])); ((u "extra_validators"), (VList [(VProc (u "ExternalDocsRefValidator"))]))])))] [(u "does not exist in components/externalDocs")]];
t "validators/test_external_docs_ref_validator.py::TestExternalDocsRefValidator.test_external_docs_ref_validator_validates_servers_refs" [SLet 0 (XNew "AsyncAPI3" (XVal (VDict [((u "asyncapi"), (VStr (u "3.0.0"))); ((u "info"), (VDict [((u "title"), (VStr (u "Test"))); ((u "version"), (VStr (u "1.0")))])); ((u "servers"), (VDict [((u "prod"), (VDict [((u "host"), (VStr (u "example.com"))); ((u "protocol"), (VStr (u "mqtt"))); ((u "externalDocs"), (VDict [((u "$ref"), (VStr (u "#/components/externalDocs/server")))]))]))])); ((u "components"), (VDict [((u "externalDocs"), (VDict [((u "server"), (VDict [((u "url"), (VStr (u "https://example.com/server")))]))]))])); ((u "extra_validators"), (VList [(VProc (u "ExternalDocsRefValidator"))]))])));
  SAssert (CNot (CEq (XVar 0) (XVal VNone)))];
t "validators/test_external_docs_ref_validator.py::TestExternalDocsRefValidator.test_external_docs_ref_validator_validates_channels_refs" [SLet 0 (XNew "AsyncAPI3" (XVal (VDict [((u "asyncapi"), (VStr (u "3.0.0"))); ((u "info"), (VDict [((u "title"), (VStr (u "Test"))); ((u "version"), (VStr (u "1.0")))])); ((u "channels"), (VDict [((u "user_signup"), (VDict [((u "address"), (VStr (u "user/signup"))); ((u "externalDocs"), (VDict [((u "$ref"), (VStr (u "#/components/externalDocs/channel")))]))]))])); ((u "components"), (VDict [((u "externalDocs"), (VDict [((u "channel"), (VDict [((u "url"), (VStr (u "https://example.com/channel")))]))]))])); ((u "extra_validators"), (VList [(VProc (u "ExternalDocsRefValidator"))]))])));
  SAssert (CNot (CEq (XVar 0) (XVal VNone)))];
t "validators/test_external_docs_ref_validator.py::TestExternalDocsRefValidator.test_external_docs_ref_validator_validates_operations_refs" [SLet 0 (XNew "AsyncAPI3" (XVal (VDict [((u "asyncapi"), (VStr (u "3.0.0"))); ((u "info"), (VDict [((u "title"), (VStr (u "Test"))); ((u "version"), (VStr (u "1.0")))])); ((u "operations"), (VDict [((u "signup"), (VDict [((u "action"), (VStr (u "receive"))); ((u "channel"), (VDict [((u "$ref"), (VStr (u "#/channels/user_signup")))])); ((u "externalDocs"), (VDict [((u "$ref"), (VStr (u "#/components/externalDocs/op")))]))]))])); ((u "channels"), (VDict [((u "user_signup"), (VDict [((u "address"), (VStr (u "user/signup")))]))])); ((u "components"), (VDict [((u "externalDocs"), (VDict [((u "op"), (VDict [((u "url"), (VStr (u "https://example.com/op")))]))]))])); ((u "extra_validators"), (VList [(VProc (u "ExternalDocsRefValidator"))]))])));
  SAssert (CNot (CEq (XVar 0) (XVal VNone)))];
t "validators/test_external_docs_ref_validator.py::TestExternalDocsRefValidator.test_external_docs_ref_validator_validates_messages_refs" [SLet 0 (XNew "AsyncAPI3" (XVal (VDict [((u "asyncapi"), (VStr (u "3.0.0"))); ((u "info"), (VDict [((u "title"), (VStr (u "Test"))); ((u "version"), (VStr (u "1.0")))])); ((u "channels"), (VDict [((u "test"), (VDict [((u "address"), (VStr (u "test"))); ((u "messages"), (VDict [((u "msg"), (VDict [((u "payload"), (VDict [((u "type"), (VStr (u "string")))])); ((u "externalDocs"), (VDict [((u "$ref"), (VStr (u "#/components/externalDocs/msg")))]))]))]))]))])); ((u "components"), (VDict [((u "externalDocs"), (VDict [((u "msg"), (VDict [((u "url"), (VStr (u "https://example.com/msg")))]))]))])); ((u "extra_validators"), (VList [(VProc (u "ExternalDocsRefValidator"))]))])));
  SAssert (CNot (CEq (XVar 0) (XVal VNone)))];
t "validators/test_external_docs_ref_validator.py::TestExternalDocsRefValidator.test_external_docs_ref_validator_validates_tags_refs" [SLet 0 (XNew "AsyncAPI3" (XVal (VDict [((u "asyncapi"), (VStr (u "3.0.0"))); ((u "info"), (VDict [((u "title"), (VStr (u "Test"))); ((u "version"), (VStr (u "1.0"))); ((u "tags"), (VList [(VDict [((u "name"), (VStr (u "tag1"))); ((u "externalDocs"), (VDict [((u "$ref"), (VStr (u "#/components/externalDocs/tag")))]))])]))])); ((u "components"), (VDict [((u "externalDocs"), (VDict [((u "tag"), (VDict [((u "url"), (VStr (u "https://example.com/tag")))]))]))])); ((u "extra_validators"), (VList [(VProc (u "ExternalDocsRefValidator"))]))])));
  SAssert (CNot (CEq (XVar 0) (XVal VNone)))];
t "validators/test_external_docs_ref_validator.py::TestExternalDocsRefValidator.test_external_docs_ref_validator_validates_components_tags_refs" [SLet 0 (XNew "AsyncAPI3" (XVal (VDict [((u "asyncapi"), (VStr (u "3.0.0"))); ((u "info"), (VDict [((u "title"), (VStr (u "Test"))); ((u "version"), (VStr (u "1.0")))])); ((u "components"), (VDict [((u "tags"), (VDict [((u "t1"), (VDict [((u "name"), (VStr (u "t1"))); ((u "externalDocs"), (VDict [((u "$ref"), (VStr (u "#/components/externalDocs/tag")))]))]))])); ((u "externalDocs"), (VDict [((u "tag"), (VDict [((u "url"), (VStr (u "https://example.com/tag")))]))]))])); ((u "extra_validators"), (VList [(VProc (u "ExternalDocsRefValidator"))]))])));
  SAssert (CNot (CEq (XVar 0) (XVal VNone)))];
t "validators/test_external_docs_ref_validator.py::TestExternalDocsRefValidator.test_external_docs_ref_validator_validates_schemas_refs" [SLet 0 (XNew "AsyncAPI3" (XVal (VDict [((u "asyncapi"), (VStr (u "3.0.0"))); ((u "info"), (VDict [((u "title"), (VStr (u "Test"))); ((u "version"), (VStr (u "1.0")))])); ((u "components"), (VDict [((u "schemas"), (VDict [((u "User"), (VDict [((u "type"), (VStr (u "object"))); ((u "externalDocs"), (VDict [((u "$ref"), (VStr (u "#/components/externalDocs/schema")))]))]))])); ((u "externalDocs"), (VDict [((u "schema"), (VDict [((u "url"), (VStr (u "https://example.com/schema")))]))]))])); ((u "extra_validators"), (VList [(VProc (u "ExternalDocsRefValidator"))]))])));
  SAssert (CNot (CEq (XVar 0) (XVal VNone)))];
t "validators/test_external_docs_ref_validator.py::TestExternalDocsRefValidator.test_external_docs_ref_validator_external_warning" [SDo (XNew "AsyncAPI3" (XVal (VDict [((u "asyncapi"), (VStr (u "3.0.0"))); ((u "info"), (VDict [((u "title"), (VStr (u "Test"))); ((u "version"), (VStr (u "1.0"))); ((u "externalDocs"), (VDict [((u "$ref"), (VStr (u "https://example.com/external.json")))]))])); ((u "extra_validators"), (VList [(VProc (u "ExternalDocsRefValidator"))]))])));
  SAssert (CLogs (XNew "AsyncAPI3" (XVal (VDict [((u "asyncapi"), (VStr (u "3.0.0"))); ((u "info"), (VDict [((u "title"), (VStr (u "Test"))); ((u "version"), (VStr (u "1.0"))); ((u "externalDocs"), (VDict [((u "$ref"), (VStr (u "https://example.com/external.json")))]))])); ((u "extra_validators"), (VList [(VProc (u "ExternalDocsRefValidator"))]))]))) (u "is external. Cannot validate external references"))];
t "validators/test_external_docs_ref_validator.py::TestExternalDocsRefValidator.test_external_docs_ref_validator_validates_operation_traits_refs" [SLet 0 (XNew "AsyncAPI3" (XVal (VDict [((u "asyncapi"), (VStr (u "3.0.0"))); ((u "info"), (VDict [((u "title"), (VStr (u "Test"))); ((u "version"), (VStr (u "1.0")))])); ((u "components"), (VDict [((u "operationTraits"), (VDict [((u "trait1"), (VDict [((u "externalDocs"), (VDict [((u "$ref"), (VStr (u "#/components/externalDocs/trait")))]))]))])); ((u "externalDocs"), (VDict [((u "trait"), (VDict [((u "url"), (VStr (u "https://example.com/trait")))]))]))])); ((u "extra_validators"), (VList [(VProc (u "ExternalDocsRefValidator"))]))])));
  SAssert (CNot (CEq (XVar 0) (XVal VNone)))];
t "validators/test_external_docs_ref_validator.py::TestExternalDocsRefValidator.test_external_docs_ref_validator_validates_message_traits_refs" [SLet 0 (XNew "AsyncAPI3" (XVal (VDict [((u "asyncapi"), (VStr (u "3.0.0"))); ((u "info"), (VDict [((u "title"), (VStr (u "Test"))); ((u "version"), (VStr (u "1.0")))])); ((u "components"), (VDict [((u "messageTraits"), (VDict [((u "trait1"), (VDict [((u "externalDocs"), (VDict [((u "$ref"), (VStr (u "#/components/externalDocs/trait")))]))]))])); ((u "externalDocs"), (VDict [((u "trait"), (VDict [((u "url"), (VStr (u "https://example.com/trait")))]))]))])); ((u "extra_validators"), (VList [(VProc (u "ExternalDocsRefValidator"))]))])));
  SAssert (CNot (CEq (XVar 0) (XVal VNone)))];
t "validators/test_external_docs_ref_validator.py::TestExternalDocsRefValidator.test_external_docs_ref_validator_validates_components_refs" [SLet 0 (XNew "AsyncAPI3" (XVal (VDict [((u "asyncapi"), (VStr (u "3.0.0"))); ((u "info"), (VDict [((u "title"), (VStr (u "Test"))); ((u "version"), (VStr (u "1.0")))])); ((u "components"), (VDict [((u "externalDocs"), (VDict [((u "doc1"), (VDict [((u "$ref"), (VStr (u "#/components/externalDocs/doc2")))])); ((u "doc2"), (VDict [((u "url"), (VStr (u "https://example.com/2")))]))]))])); ((u "extra_validators"), (VList [(VProc (u "ExternalDocsRefValidator"))]))])));
  SAssert (CNot (CEq (XVar 0) (XVal VNone)))];
t "validators/test_external_docs_ref_validator.py::TestExternalDocsRefValidator.test_external_docs_ref_validator_validates_components_servers_refs" [SLet 0 (XNew "AsyncAPI3" (XVal (VDict [((u "asyncapi"), (VStr (u "3.0.0"))); ((u "info"), (VDict [((u "title"), (VStr (u "Test"))); ((u "version"), (VStr (u "1.0")))])); ((u "components"), (VDict [((u "servers"), (VDict [((u "s1"), (VDict [((u "host"), (VStr (u "h1"))); ((u "protocol"), (VStr (u "mqtt"))); ((u "externalDocs"), (VDict [((u "$ref"), (VStr (u "#/components/externalDocs/d1")))]))]))])); ((u "externalDocs"), (VDict [((u "d1"), (VDict [((u "url"), (VStr (u "https://example.com/d1")))]))]))])); ((u "extra_validators"), (VList [(VProc (u "ExternalDocsRefValidator"))]))])));
  SAssert (CNot (CEq (XVar 0) (XVal VNone)))];
t "validators/test_external_docs_ref_validator.py::TestExternalDocsRefValidator.test_external_docs_ref_validator_validates_components_channels_refs" [SLet 0 (XNew "AsyncAPI3" (XVal (VDict [((u "asyncapi"), (VStr (u "3.0.0"))); ((u "info"), (VDict [((u "title"), (VStr (u "Test"))); ((u "version"), (VStr (u "1.0")))])); ((u "components"), (VDict [((u "channels"), (VDict [((u "c1"), (VDict [((u "address"), (VStr (u "a1"))); ((u "externalDocs"), (VDict [((u "$ref"), (VStr (u "#/components/externalDocs/d1")))]))]))])); ((u "externalDocs"), (VDict [((u "d1"), (VDict [((u "url"), (VStr (u "https://example.com/d1")))]))]))])); ((u "extra_validators"), (VList [(VProc (u "ExternalDocsRefValidator"))]))])));
  SAssert (CNot (CEq (XVar 0) (XVal VNone)))];
t "validators/test_external_docs_ref_validator.py::TestExternalDocsRefValidator.test_external_docs_ref_validator_validates_components_operations_refs" [SLet 0 (XNew "AsyncAPI3" (XVal (VDict [((u "asyncapi"), (VStr (u "3.0.0"))); ((u "info"), (VDict [((u "title"), (VStr (u "Test"))); ((u "version"), (VStr (u "1.0")))])); ((u "components"), (VDict [((u "operations"), (VDict [((u "o1"), (VDict [((u "action"), (VStr (u "receive"))); ((u "channel"), (VDict [((u "$ref"), (VStr (u "#/components/channels/c1")))])); ((u "externalDocs"), (VDict [((u "$ref"), (VStr (u "#/components/externalDocs/d1")))]))]))])); ((u "channels"), (VDict [((u "c1"), (VDict [((u "address"), (VStr (u "a1")))]))])); ((u "externalDocs"), (VDict [((u "d1"), (VDict [((u "url"), (VStr (u "https://example.com/d1")))]))]))])); ((u "extra_validators"), (VList [(VProc (u "ExternalDocsRefValidator"))]))])));
  SAssert (CNot (CEq (XVar 0) (XVal VNone)))];
t "validators/test_external_docs_ref_validator.py::TestExternalDocsRefValidator.test_external_docs_ref_validator_validates_components_messages_refs" [SLet 0 (XNew "AsyncAPI3" (XVal (VDict [((u "asyncapi"), (VStr (u "3.0.0"))); ((u "info"), (VDict [((u "title"), (VStr (u "Test"))); ((u "version"), (VStr (u "1.0")))])); ((u "components"), (VDict [((u "messages"), (VDict [((u "m1"), (VDict [((u "payload"), (VDict [((u "type"), (VStr (u "string")))])); ((u "externalDocs"), (VDict [((u "$ref"), (VStr (u "#/components/externalDocs/d1")))]))]))])); ((u "externalDocs"), (VDict [((u "d1"), (VDict [((u "url"), (VStr (u "https://example.com/d1")))]))]))])); ((u "extra_validators"), (VList [(VProc (u "ExternalDocsRefValidator"))]))])));
  SAssert (CNot (CEq (XVar 0) (XVal VNone)))];
t "validators/test_external_docs_ref_validator.py::TestExternalDocsRefValidator.test_external_docs_ref_validator_validates_channels_messages_headers_refs" [SLet 0 (XNew "AsyncAPI3" (XVal (VDict [((u "asyncapi"), (VStr (u "3.0.0"))); ((u "info"), (VDict [((u "title"), (VStr (u "Test"))); ((u "version"), (VStr (u "1.0")))])); ((u "channels"), (VDict [((u "test"), (VDict [((u "address"), (VStr (u "test"))); ((u "messages"), (VDict [((u "msg"), (VDict [((u "payload"), (VDict [((u "type"), (VStr (u "string")))])); ((u "headers"), (VDict [((u "type"), (VStr (u "object"))); ((u "externalDocs"), (VDict [((u "$ref"), (VStr (u "#/components/externalDocs/header_docs")))]))]))]))]))]))])); ((u "components"), (VDict [((u "externalDocs"), (VDict [((u "header_docs"), (VDict [((u "url"), (VStr (u "https://example.com/header")))]))]))])); ((u "extra_validators"), (VList [(VProc (u "ExternalDocsRefValidator"))]))])));
  SAssert (CNot (CEq (XVar 0) (XVal VNone)))];
t "validators/test_external_docs_ref_validator.py::TestExternalDocsRefValidator.test_external_docs_ref_validator_validates_channels_messages_payload_refs" [SLet 0 (XNew "AsyncAPI3" (XVal (VDict [((u "asyncapi"), (VStr (u "3.0.0"))); ((u "info"), (VDict [((u "title"), (VStr (u "Test"))); ((u "version"), (VStr (u "1.0")))])); ((u "channels"), (VDict [((u "test"), (VDict [((u "address"), (VStr (u "test"))); ((u "messages"), (VDict [((u "msg"), (VDict [((u "headers"), (VDict [((u "type"), (VStr (u "object")))])); ((u "payload"), (VDict [((u "type"), (VStr (u "string"))); ((u "externalDocs"), (VDict [((u "$ref"), (VStr (u "#/components/externalDocs/payload_docs")))]))]))]))]))]))])); ((u "components"), (VDict [((u "externalDocs"), (VDict [((u "payload_docs"), (VDict [((u "url"), (VStr (u "https://example.com/payload")))]))]))])); ((u "extra_validators"), (VList [(VProc (u "ExternalDocsRefValidator"))]))])));
  SAssert (CNot (CEq (XVar 0) (XVal VNone)))];
t "validators/test_external_docs_ref_validator.py::TestExternalDocsRefValidator.test_external_docs_ref_validator_validates_channels_messages_tags_refs" [SLet 0 (XNew "AsyncAPI3" (XVal (VDict [((u "asyncapi"), (VStr (u "3.0.0"))); ((u "info"), (VDict [((u "title"), (VStr (u "Test"))); ((u "version"), (VStr (u "1.0")))])); ((u "channels"), (VDict [((u "test"), (VDict [((u "address"), (VStr (u "test"))); ((u "messages"), (VDict [((u "msg"), (VDict [((u "payload"), (VDict [((u "type"), (VStr (u "string")))])); ((u "tags"), (VList [(VDict [((u "name"), (VStr (u "tag1"))); ((u "externalDocs"), (VDict [((u "$ref"), (VStr (u "#/components/externalDocs/tag_docs")))]))])]))]))]))]))])); ((u "components"), (VDict [((u "externalDocs"), (VDict [((u "tag_docs"), (VDict [((u "url"), (VStr (u "https://example.com/tag")))]))]))])); ((u "extra_validators"), (VList [(VProc (u "ExternalDocsRefValidator"))]))])));
  SAssert (CNot (CEq (XVar 0) (XVal VNone)))];
t "validators/test_external_docs_ref_validator.py::TestExternalDocsRefValidator.test_external_docs_ref_validator_validates_channels_messages_traits_refs" [SLet 0 (XNew "AsyncAPI3" (XVal (VDict [((u "asyncapi"), (VStr (u "3.0.0"))); ((u "info"), (VDict [((u "title"), (VStr (u "Test"))); ((u "version"), (VStr (u "1.0")))])); ((u "channels"), (VDict [((u "test"), (VDict [((u "address"), (VStr (u "test"))); ((u "messages"), (VDict [((u "msg"), (VDict [((u "payload"), (VDict [((u "type"), (VStr (u "string")))])); ((u "traits"), (VList [(VDict [((u "externalDocs"), (VDict [((u "$ref"), (VStr (u "#/components/externalDocs/trait_docs")))]))])]))]))]))]))])); ((u "components"), (VDict [((u "externalDocs"), (VDict [((u "trait_docs"), (VDict [((u "url"), (VStr (u "https://example.com/trait")))]))]))])); ((u "extra_validators"), (VList [(VProc (u "ExternalDocsRefValidator"))]))])));
  SAssert (CNot (CEq (XVar 0) (XVal VNone)))];
t "validators/test_external_docs_ref_validator.py::TestExternalDocsRefValidator.test_external_docs_ref_validator_validates_channels_messages_traits_headers_refs" [SLet 0 (XNew "AsyncAPI3" (XVal (VDict [((u "asyncapi"), (VStr (u "3.0.0"))); ((u "info"), (VDict [((u "title"), (VStr (u "Test"))); ((u "version"), (VStr (u "1.0")))])); ((u "channels"), (VDict [((u "test"), (VDict [((u "address"), (VStr (u "test"))); ((u "messages"), (VDict [((u "msg"), (VDict [((u "payload"), (VDict [((u "type"), (VStr (u "string")))])); ((u "traits"), (VList [(VDict [((u "headers"), (VDict [((u "type"), (VStr (u "object"))); ((u "externalDocs"), (VDict [((u "$ref"), (VStr (u "#/components/externalDocs/trait_header_docs")))]))]))])]))]))]))]))])); ((u "components"), (VDict [((u "externalDocs"), (VDict [((u "trait_header_docs"), (VDict [((u "url"), (VStr (u "https://example.com/trait_header")))]))]))])); ((u "extra_validators"), (VList [(VProc (u "ExternalDocsRefValidator"))]))])));
  SAssert (CNot (CEq (XVar 0) (XVal VNone)))];
t "validators/test_external_docs_ref_validator.py::TestExternalDocsRefValidator.test_external_docs_ref_validator_validates_channels_messages_traits_tags_refs" [SLet 0 (XNew "AsyncAPI3" (XVal (VDict [((u "asyncapi"), (VStr (u "3.0.0"))); ((u "info"), (VDict [((u "title"), (VStr (u "Test"))); ((u "version"), (VStr (u "1.0")))])); ((u "channels"), (VDict [((u "test"), (VDict [((u "address"), (VStr (u "test"))); ((u "messages"), (VDict [((u "msg"), (VDict [((u "payload"), (VDict [((u "type"), (VStr (u "string")))])); ((u "traits"), (VList [(VDict [((u "tags"), (VList [(VDict [((u "name"), (VStr (u "trait_tag"))); ((u "externalDocs"), (VDict [((u "$ref"), (VStr (u "#/components/externalDocs/trait_tag_docs")))]))])]))])]))]))]))]))])); ((u "components"), (VDict [((u "externalDocs"), (VDict [((u "trait_tag_docs"), (VDict [((u "url"), (VStr (u "https://example.com/trait_tag")))]))]))])); ((u "extra_validators"), (VList [(VProc (u "ExternalDocsRefValidator"))]))])));
  SAssert (CNot (CEq (XVar 0) (XVal VNone)))];
t "validators/test_external_docs_ref_validator.py::TestExternalDocsRefValidator.test_external_docs_ref_validator_validates_operations_tags_refs" [SLet 0 (XNew "AsyncAPI3" (XVal (VDict [((u "asyncapi"), (VStr (u "3.0.0"))); ((u "info"), (VDict [((u "title"), (VStr (u "Test"))); ((u "version"), (VStr (u "1.0")))])); ((u "operations"), (VDict [((u "op1"), (VDict [((u "action"), (VStr (u "receive"))); ((u "channel"), (VDict [((u "$ref"), (VStr (u "#/channels/test")))])); ((u "tags"), (VList [(VDict [((u "name"), (VStr (u "op_tag"))); ((u "externalDocs"), (VDict [((u "$ref"), (VStr (u "#/components/externalDocs/op_tag_docs")))]))])]))]))])); ((u "channels"), (VDict [((u "test"), (VDict [((u "address"), (VStr (u "test")))]))])); ((u "components"), (VDict [((u "externalDocs"), (VDict [((u "op_tag_docs"), (VDict [((u "url"), (VStr (u "https://example.com/op_tag")))]))]))])); ((u "extra_validators"), (VList [(VProc (u "ExternalDocsRefValidator"))]))])));
  SAssert (CNot (CEq (XVar 0) (XVal VNone)))];
t "validators/test_external_docs_ref_validator.py::TestExternalDocsRefValidator.test_external_docs_ref_validator_validates_operations_traits_refs" [SLet 0 (XNew "AsyncAPI3" (XVal (VDict [((u "asyncapi"), (VStr (u "3.0.0"))); ((u "info"), (VDict [((u "title"), (VStr (u "Test"))); ((u "version"), (VStr (u "1.0")))])); ((u "operations"), (VDict [((u "op1"), (VDict [((u "action"), (VStr (u "receive"))); ((u "channel"), (VDict [((u "$ref"), (VStr (u "#/channels/test")))])); ((u "traits"), (VList [(VDict [((u "externalDocs"), (VDict [((u "$ref"), (VStr (u "#/components/externalDocs/op_trait_docs")))]))])]))]))])); ((u "channels"), (VDict [((u "test"), (VDict [((u "address"), (VStr (u "test")))]))])); ((u "components"), (VDict [((u "externalDocs"), (VDict [((u "op_trait_docs"), (VDict [((u "url"), (VStr (u "https://example.com/op_trait")))]))]))])); ((u "extra_validators"), (VList [(VProc (u "ExternalDocsRefValidator"))]))])));
  SAssert (CNot (CEq (XVar 0) (XVal VNone)))];
t "validators/test_external_docs_ref_validator.py::TestExternalDocsRefValidator.test_external_docs_ref_validator_validates_operations_traits_tags_refs" [SLet 0 (XNew "AsyncAPI3" (XVal (VDict [((u "asyncapi"), (VStr (u "3.0.0"))); ((u "info"), (VDict [((u "title"), (VStr (u "Test"))); ((u "version"), (VStr (u "1.0")))])); ((u "operations"), (VDict [((u "op1"), (VDict [((u "action"), (VStr (u "receive"))); ((u "channel"), (VDict [((u "$ref"), (VStr (u "#/channels/test")))])); ((u "traits"), (VList [(VDict [((u "tags"), (VList [(VDict [((u "name"), (VStr (u "op_trait_tag"))); ((u "externalDocs"), (VDict [((u "$ref"), (VStr (u "#/components/externalDocs/op_trait_tag_docs")))]))])]))])]))]))])); ((u "channels"), (VDict [((u "test"), (VDict [((u "address"), (VStr (u "test")))]))])); ((u "components"), (VDict [((u "externalDocs"), (VDict [((u "op_trait_tag_docs"), (VDict [((u "url"), (VStr (u "https://example.com/op_trait_tag")))]))]))])); ((u "extra_validators"), (VList [(VProc (u "ExternalDocsRefValidator"))]))])));
  SAssert (CNot (CEq (XVar 0) (XVal VNone)))];
t "validators/test_external_docs_ref_validator.py::TestExternalDocsRefValidator.test_external_docs_ref_validator_validates_components_messages_headers_refs" [SLet 0 (XNew "AsyncAPI3" (XVal (VDict [((u "asyncapi"), (VStr (u "3.0.0"))); ((u "info"), (VDict [((u "title"), (VStr (u "Test"))); ((u "version"), (VStr (u "1.0")))])); ((u "components"), (VDict [((u "messages"), (VDict [((u "m1"), (VDict [((u "payload"), (VDict [((u "type"), (VStr (u "string")))])); ((u "headers"), (VDict [((u "type"), (VStr (u "object"))); ((u "externalDocs"), (VDict [((u "$ref"), (VStr (u "#/components/externalDocs/comp_msg_header_docs")))]))]))]))])); ((u "externalDocs"), (VDict [((u "comp_msg_header_docs"), (VDict [((u "url"), (VStr (u "https://example.com/comp_msg_header")))]))]))])); ((u "extra_validators"), (VList [(VProc (u "ExternalDocsRefValidator"))]))])));
  SAssert (CNot (CEq (XVar 0) (XVal VNone)))];
t "validators/test_external_docs_ref_validator.py::TestExternalDocsRefValidator.test_external_docs_ref_validator_validates_components_messages_payload_refs" [SLet 0 (XNew "AsyncAPI3" (XVal (VDict [((u "asyncapi"), (VStr (u "3.0.0"))); ((u "info"), (VDict [((u "title"), (VStr (u "Test"))); ((u "version"), (VStr (u "1.0")))])); ((u "components"), (VDict [((u "messages"), (VDict [((u "m1"), (VDict [((u "headers"), (VDict [((u "type"), (VStr (u "object")))])); ((u "payload"), (VDict [((u "type"), (VStr (u "string"))); ((u "externalDocs"), (VDict [((u "$ref"), (VStr (u "#/components/externalDocs/comp_msg_payload_docs")))]))]))]))])); ((u "externalDocs"), (VDict [((u "comp_msg_payload_docs"), (VDict [((u "url"), (VStr (u "https://example.com/comp_msg_payload")))]))]))])); ((u "extra_validators"), (VList [(VProc (u "ExternalDocsRefValidator"))]))])));
  SAssert (CNot (CEq (XVar 0) (XVal VNone)))];
t "validators/test_external_docs_ref_validator.py::TestExternalDocsRefValidator.test_external_docs_ref_validator_validates_components_message_traits_headers_refs" [SLet 0 (XNew "AsyncAPI3" (XVal (VDict [((u "asyncapi"), (VStr (u "3.0.0"))); ((u "info"), (VDict [((u "title"), (VStr (u "Test"))); ((u "version"), (VStr (u "1.0")))])); ((u "components"), (VDict [((u "messageTraits"), (VDict [((u "mt1"), (VDict [((u "headers"), (VDict [((u "type"), (VStr (u "object"))); ((u "externalDocs"), (VDict [((u "$ref"), (VStr (u "#/components/externalDocs/comp_mt_header_docs")))]))]))]))])); ((u "externalDocs"), (VDict [((u "comp_mt_header_docs"), (VDict [((u "url"), (VStr (u "https://example.com/comp_mt_header")))]))]))])); ((u "extra_validators"), (VList [(VProc (u "ExternalDocsRefValidator"))]))])));
  SAssert (CNot (CEq (XVar 0) (XVal VNone)))];
t "validators/test_external_docs_ref_validator.py::TestExternalDocsRefValidator.test_external_docs_ref_validator_handles_missing_info_tags" [SLet 0 (XNew "AsyncAPI3" (XVal (VDict [((u "asyncapi"), (VStr (u "3.0.0"))); ((u "info"), (VDict [((u "title"), (VStr (u "Test"))); ((u "version"), (VStr (u "1.0")))])); ((u "extra_validators"), (VList [(VProc (u "ExternalDocsRefValidator"))]))])));
  SAssert (CNot (CEq (XVar 0) (XVal VNone)))];
t "validators/test_external_docs_ref_validator.py::TestExternalDocsRefValidator.test_external_docs_ref_validator_handles_empty_collections" [SLet 0 (XNew "AsyncAPI3" (XVal (VDict [((u "asyncapi"), (VStr (u "3.0.0"))); ((u "info"), (VDict [((u "title"), (VStr (u "Test"))); ((u "version"), (VStr (u "1.0")))])); ((u "servers"), (VDict [])); ((u "channels"), (VDict [])); ((u "operations"), (VDict [])); ((u "components"), (VDict [])); ((u "extra_validators"), (VList [(VProc (u "ExternalDocsRefValidator"))]))])));
  SAssert (CNot (CEq (XVar 0) (XVal VNone)))];
t "validators/test_external_docs_ref_validator.py::TestExternalDocsRefValidator.test_external_docs_ref_validator_handles_empty_components_collections" [SLet 0 (XNew "AsyncAPI3" (XVal (VDict [((u "asyncapi"), (VStr (u "3.0.0"))); ((u "info"), (VDict [((u "title"), (VStr (u "Test"))); ((u "version"), (VStr (u "1.0")))])); ((u "components"), (VDict [((u "servers"), (VDict [])); ((u "channels"), (VDict [])); ((u "operations"), (VDict [])); ((u "messages"), (VDict [])); ((u "messageTraits"), (VDict [])); ((u "schemas"), (VDict [])); ((u "tags"), (VDict []))])); ((u "extra_validators"), (VList [(VProc (u "ExternalDocsRefValidator"))]))])));
  SAssert (CNot (CEq (XVar 0) (XVal VNone)))];
t "validators/test_external_docs_ref_validator.py::TestExternalDocsRefValidator.test_external_docs_ref_validator_handles_reference_messages_in_channels" [SLet 0 (XNew "AsyncAPI3" (XVal (VDict [((u "asyncapi"), (VStr (u "3.0.0"))); ((u "info"), (VDict [((u "title"), (VStr (u "Test"))); ((u "version"), (VStr (u "1.0")))])); ((u "channels"), (VDict [((u "test"), (VDict [((u "address"), (VStr (u "test"))); ((u "messages"), (VDict [((u "msg"), (VDict [((u "$ref"), (VStr (u "#/components/messages/shared")))]))]))]))])); ((u "components"), (VDict [((u "messages"), (VDict [((u "shared"), (VDict [((u "payload"), (VDict [((u "type"), (VStr (u "string")))]))]))]))])); ((u "extra_validators"), (VList [(VProc (u "ExternalDocsRefValidator"))]))])));
  SAssert (CNot (CEq (XVar 0) (XVal VNone)))];
t "validators/test_external_docs_ref_validator.py::TestExternalDocsRefValidator.test_external_docs_ref_validator_handles_messages_without_payload" [SLet 0 (XNew "AsyncAPI3" (XVal (VDict [((u "asyncapi"), (VStr (u "3.0.0"))); ((u "info"), (VDict [((u "title"), (VStr (u "Test"))); ((u "version"), (VStr (u "1.0")))])); ((u "channels"), (VDict [((u "test"), (VDict [((u "address"), (VStr (u "test"))); ((u "messages"), (VDict [((u "msg"), (VDict [((u "headers"), (VDict [((u "type"), (VStr (u "object")))]))]))]))]))])); ((u "extra_validators"), (VList [(VProc (u "ExternalDocsRefValidator"))]))])));
  SAssert (CNot (CEq (XVar 0) (XVal VNone)))];
t "validators/test_external_docs_ref_validator.py::TestExternalDocsRefValidator.test_external_docs_ref_validator_handles_reference_traits_in_messages" [SLet 0 (XNew "AsyncAPI3" (XVal (VDict [((u "asyncapi"), (VStr (u "3.0.0"))); ((u "info"), (VDict [((u "title"), (VStr (u "Test"))); ((u "version"), (VStr (u "1.0")))])); ((u "channels"), (VDict [((u "test"), (VDict [((u "address"), (VStr (u "test"))); ((u "messages"), (VDict [((u "msg"), (VDict [((u "payload"), (VDict [((u "type"), (VStr (u "string")))])); ((u "traits"), (VList [(VDict [((u "$ref"), (VStr (u "#/components/messageTraits/shared")))])]))]))]))]))])); ((u "components"), (VDict [((u "messageTraits"), (VDict [((u "shared"), (VDict []))]))])); ((u "extra_validators"), (VList [(VProc (u "ExternalDocsRefValidator"))]))])));
  SAssert (CNot (CEq (XVar 0) (XVal VNone)))];
t "validators/test_external_docs_ref_validator.py::TestExternalDocsRefValidator.test_external_docs_ref_validator_handles_messages_without_traits" [SLet 0 (XNew "AsyncAPI3" (XVal (VDict [((u "asyncapi"), (VStr (u "3.0.0"))); ((u "info"), (VDict [((u "title"), (VStr (u "Test"))); ((u "version"), (VStr (u "1.0")))])); ((u "channels"), (VDict [((u "test"), (VDict [((u "address"), (VStr (u "test"))); ((u "messages"), (VDict [((u "msg"), (VDict [((u "payload"), (VDict [((u "type"), (VStr (u "string")))]))]))]))]))])); ((u "extra_validators"), (VList [(VProc (u "ExternalDocsRefValidator"))]))])));
  SAssert (CNot (CEq (XVar 0) (XVal VNone)))];
t "validators/test_external_docs_ref_validator.py::TestExternalDocsRefValidator.test_external_docs_ref_validator_handles_reference_traits_in_operations" [SLet 0 (XNew "AsyncAPI3" (XVal (VDict [((u "asyncapi"), (VStr (u "3.0.0"))); ((u "info"), (VDict [((u "title"), (VStr (u "Test"))); ((u "version"), (VStr (u "1.0")))])); ((u "operations"), (VDict [((u "op1"), (VDict [((u "action"), (VStr (u "receive"))); ((u "channel"), (VDict [((u "$ref"), (VStr (u "#/channels/test")))])); ((u "traits"), (VList [(VDict [((u "$ref"), (VStr (u "#/components/operationTraits/shared")))])]))]))])); ((u "channels"), (VDict [((u "test"), (VDict [((u "address"), (VStr (u "test")))]))])); ((u "components"), (VDict [((u "operationTraits"), (VDict [((u "shared"), (VDict []))]))])); ((u "extra_validators"), (VList [(VProc (u "ExternalDocsRefValidator"))]))])));
  SAssert (CNot (CEq (XVar 0) (XVal VNone)))];
t "validators/test_external_docs_ref_validator.py::TestExternalDocsRefValidator.test_external_docs_ref_validator_handles_operations_without_traits" [SLet 0 (XNew "AsyncAPI3" (XVal (VDict [((u "asyncapi"), (VStr (u "3.0.0"))); ((u "info"), (VDict [((u "title"), (VStr (u "Test"))); ((u "version"), (VStr (u "1.0")))])); ((u "operations"), (VDict [((u "op1"), (VDict [((u "action"), (VStr (u "receive"))); ((u "channel"), (VDict [((u "$ref"), (VStr (u "#/channels/test")))]))]))])); ((u "channels"), (VDict [((u "test"), (VDict [((u "address"), (VStr (u "test")))]))])); ((u "extra_validators"), (VList [(VProc (u "ExternalDocsRefValidator"))]))])));
  SAssert (CNot (CEq (XVar 0) (XVal VNone)))];
t "validators/test_external_docs_ref_validator.py::TestExternalDocsRefValidator.test_external_docs_ref_validator_handles_reference_messages_in_components" [SLet 0 (XNew "AsyncAPI3" (XVal (VDict [((u "asyncapi"), (VStr (u "3.0.0"))); ((u "info"), (VDict [((u "title"), (VStr (u "Test"))); ((u "version"), (VStr (u "1.0")))])); ((u "components"), (VDict [((u "messages"), (VDict [((u "m1"), (VDict [((u "$ref"), (VStr (u "#/components/messages/shared")))])); ((u "shared"), (VDict [((u "payload"), (VDict [((u "type"), (VStr (u "string")))]))]))]))])); ((u "extra_validators"), (VList [(VProc (u "ExternalDocsRefValidator"))]))])));
  SAssert (CNot (CEq (XVar 0) (XVal VNone)))]].
Definition part1 : list (string * list stmt) := [
t "validators/test_external_docs_ref_validator.py::TestExternalDocsRefValidator.test_external_docs_ref_validator_handles_components_messages_without_payload" [SLet 0 (XNew "AsyncAPI3" (XVal (VDict [((u "asyncapi"), (VStr (u "3.0.0"))); ((u "info"), (VDict [((u "title"), (VStr (u "Test"))); ((u "version"), (VStr (u "1.0")))])); ((u "components"), (VDict [((u "messages"), (VDict [((u "m1"), (VDict [((u "headers"), (VDict [((u "type"), (VStr (u "object")))]))]))]))])); ((u "extra_validators"), (VList [(VProc (u "ExternalDocsRefValidator"))]))])));
  SAssert (CNot (CEq (XVar 0) (XVal VNone)))];
t "validators/test_external_docs_ref_validator.py::TestExternalDocsRefValidator.test_external_docs_ref_validator_handles_reference_tags_in_components" [SLet 0 (XNew "AsyncAPI3" (XVal (VDict [((u "asyncapi"), (VStr (u "3.0.0"))); ((u "info"), (VDict [((u "title"), (VStr (u "Test"))); ((u "version"), (VStr (u "1.0")))])); ((u "components"), (VDict [((u "tags"), (VDict [((u "t1"), (VDict [((u "$ref"), (VStr (u "#/components/tags/shared")))])); ((u "shared"), (VDict [((u "name"), (VStr (u "shared")))]))]))])); ((u "extra_validators"), (VList [(VProc (u "ExternalDocsRefValidator"))]))])));
  SAssert (CNot (CEq (XVar 0) (XVal VNone)))];
t "validators/test_external_docs_ref_validator.py::TestExternalDocsRefValidator.test_external_docs_ref_validator_handles_operations_without_tags" [SLet 0 (XNew "AsyncAPI3" (XVal (VDict [((u "asyncapi"), (VStr (u "3.0.0"))); ((u "info"), (VDict [((u "title"), (VStr (u "Test"))); ((u "version"), (VStr (u "1.0")))])); ((u "operations"), (VDict [((u "op1"), (VDict [((u "action"), (VStr (u "receive"))); ((u "channel"), (VDict [((u "$ref"), (VStr (u "#/channels/test")))]))]))])); ((u "channels"), (VDict [((u "test"), (VDict [((u "address"), (VStr (u "test")))]))])); ((u "extra_validators"), (VList [(VProc (u "ExternalDocsRefValidator"))]))])));
  SAssert (CNot (CEq (XVar 0) (XVal VNone)))];
t "validators/test_external_docs_ref_validator.py::TestExternalDocsRefValidator.test_external_docs_ref_validator_handles_trait_tags_with_references" [SLet 0 (XNew "AsyncAPI3" (XVal (VDict [((u "asyncapi"), (VStr (u "3.0.0"))); ((u "info"), (VDict [((u "title"), (VStr (u "Test"))); ((u "version"), (VStr (u "1.0")))])); ((u "operations"), (VDict [((u "op1"), (VDict [((u "action"), (VStr (u "receive"))); ((u "channel"), (VDict [((u "$ref"), (VStr (u "#/channels/test")))])); ((u "traits"), (VList [(VDict [((u "tags"), (VList [(VDict [((u "$ref"), (VStr (u "#/components/tags/shared")))])]))])]))]))])); ((u "channels"), (VDict [((u "test"), (VDict [((u "address"), (VStr (u "test")))]))])); ((u "components"), (VDict [((u "tags"), (VDict [((u "shared"), (VDict [((u "name"), (VStr (u "shared")))]))]))])); ((u "extra_validators"), (VList [(VProc (u "ExternalDocsRefValidator"))]))])));
  SAssert (CNot (CEq (XVar 0) (XVal VNone)))];
t "validators/test_external_docs_ref_validator.py::TestExternalDocsRefValidator.test_external_docs_ref_validator_handles_info_tags_with_references" [SLet 0 (XNew "AsyncAPI3" (XVal (VDict [((u "asyncapi"), (VStr (u "3.0.0"))); ((u "info"), (VDict [((u "title"), (VStr (u "Test"))); ((u "version"), (VStr (u "1.0"))); ((u "tags"), (VList [(VDict [((u "$ref"), (VStr (u "#/components/tags/shared")))])]))])); ((u "components"), (VDict [((u "tags"), (VDict [((u "shared"), (VDict [((u "name"), (VStr (u "shared")))]))]))])); ((u "extra_validators"), (VList [(VProc (u "ExternalDocsRefValidator"))]))])));
  SAssert (CNot (CEq (XVar 0) (XVal VNone)))];
t "validators/test_external_docs_ref_validator.py::TestExternalDocsRefValidator.test_external_docs_ref_validator_handles_message_trait_tags_with_references" [SLet 0 (XNew "AsyncAPI3" (XVal (VDict [((u "asyncapi"), (VStr (u "3.0.0"))); ((u "info"), (VDict [((u "title"), (VStr (u "Test"))); ((u "version"), (VStr (u "1.0")))])); ((u "channels"), (VDict [((u "test"), (VDict [((u "address"), (VStr (u "test"))); ((u "messages"), (VDict [((u "msg"), (VDict [((u "payload"), (VDict [((u "type"), (VStr (u "string")))])); ((u "traits"), (VList [(VDict [((u "tags"), (VList [(VDict [((u "$ref"), (VStr (u "#/components/tags/shared")))])]))])]))]))]))]))])); ((u "components"), (VDict [((u "tags"), (VDict [((u "shared"), (VDict [((u "name"), (VStr (u "shared")))]))]))])); ((u "extra_validators"), (VList [(VProc (u "ExternalDocsRefValidator"))]))])));
  SAssert (CNot (CEq (XVar 0) (XVal VNone)))];
t "validators/test_reference_utils.py::TestReferenceUtils.test_initialize_visited_refs_detects_cycles" [SRaises [SDo (XVisited (u "#/channels/test") [(u "#/channels/test")])] [(u "Circular reference detected")]];
t "validators/test_reference_utils.py::TestReferenceUtils.test_initialize_visited_refs_initializes_set" [SAssert (CEq (XVisited (u "#/channels/test") []) (XVal (VList [(VStr (u "#/channels/test"))])))];
t "validators/test_reference_utils.py::TestReferenceUtils.test_is_external_reference_http_true" [SAssert (CEq (XExternal (u "https://example.com")) (XVal (VBool true)))];
t "validators/test_reference_utils.py::TestReferenceUtils.test_is_external_reference_internal_false" [SAssert (CEq (XExternal (u "#/channels/test")) (XVal (VBool false)))];
t "validators/test_reference_utils.py::TestReferenceUtils.test_parse_reference_path_unsupported_format" [SRaises [SDo (XParseRef (u "channels/test"))] [(u "Unsupported reference format")]];
t "validators/test_reference_utils.py::TestReferenceUtils.test_parse_reference_path_invalid_path" [SRaises [SDo (XParseRef (u "#"))] [(u "Invalid reference path")]];
t "validators/test_reference_utils.py::TestReferenceUtils.test_resolve_reference_external_returns_none" [SLet 0 (XNew "AsyncAPI3" (XVal (VDict [((u "asyncapi"), (VStr (u "3.0.0"))); ((u "info"), (VDict [((u "title"), (VStr (u "Test API"))); ((u "version"), (VStr (u "1.0.0")))])); ((u "channels"), (VDict [((u "test"), (VDict [((u "address"), (VStr (u "test"))); ((u "messages"), (VDict [((u "msg"), (VDict [((u "payload"), (VDict [((u "type"), (VStr (u "object")))]))]))]))]))])); ((u "components"), (VDict [((u "messages"), (VDict [((u "refMessage"), (VDict [((u "$ref"), (VStr (u "#/channels/test/messages/msg")))]))]))]))])));
  SAssert (CEq (XResolve (XVal (VStr (u "http://example.com/schema"))) (XVar 0)) (XVal VNone))];
t "validators/test_reference_utils.py::TestReferenceUtils.test_resolve_reference_external_logs_warning" [SLet 0 (XNew "AsyncAPI3" (XVal (VDict [((u "asyncapi"), (VStr (u "3.0.0"))); ((u "info"), (VDict [((u "title"), (VStr (u "Test API"))); ((u "version"), (VStr (u "1.0.0")))])); ((u "channels"), (VDict [((u "test"), (VDict [((u "address"), (VStr (u "test"))); ((u "messages"), (VDict [((u "msg"), (VDict [((u "payload"), (VDict [((u "type"), (VStr (u "object")))]))]))]))]))])); ((u "components"), (VDict [((u "messages"), (VDict [((u "refMessage"), (VDict [((u "$ref"), (VStr (u "#/channels/test/messages/msg")))]))]))]))])));
  SDo (XResolve (XVal (VStr (u "http://example.com/schema"))) (XVar 0));
  SAssert (CLogs (XResolve (XVal (VStr (u "http://example.com/schema"))) (XVar 0)) (u "External reference"))];
t "validators/test_reference_utils.py::TestReferenceUtils.test_resolve_reference_follows_reference_chain_returns_result" [SLet 0 (XNew "AsyncAPI3" (XVal (VDict [((u "asyncapi"), (VStr (u "3.0.0"))); ((u "info"), (VDict [((u "title"), (VStr (u "Test API"))); ((u "version"), (VStr (u "1.0.0")))])); ((u "channels"), (VDict [((u "test"), (VDict [((u "address"), (VStr (u "test"))); ((u "messages"), (VDict [((u "msg"), (VDict [((u "payload"), (VDict [((u "type"), (VStr (u "object")))]))]))]))]))])); ((u "components"), (VDict [((u "messages"), (VDict [((u "refMessage"), (VDict [((u "$ref"), (VStr (u "#/channels/test/messages/msg")))]))]))]))])));
  SLet 1 (XResolve (XVal (VStr (u "#/components/messages/refMessage"))) (XVar 0));
  SAssert (CNot (CEq (XVar 1) (XVal VNone)))];
t "validators/test_reference_utils.py::TestReferenceUtils.test_resolve_reference_follows_reference_chain_path" [SLet 0 (XNew "AsyncAPI3" (XVal (VDict [((u "asyncapi"), (VStr (u "3.0.0"))); ((u "info"), (VDict [((u "title"), (VStr (u "Test API"))); ((u "version"), (VStr (u "1.0.0")))])); ((u "channels"), (VDict [((u "test"), (VDict [((u "address"), (VStr (u "test"))); ((u "messages"), (VDict [((u "msg"), (VDict [((u "payload"), (VDict [((u "type"), (VStr (u "object")))]))]))]))]))])); ((u "components"), (VDict [((u "messages"), (VDict [((u "refMessage"), (VDict [((u "$ref"), (VStr (u "#/channels/test/messages/msg")))]))]))]))])));
  SLet 1 (XResolve (XVal (VStr (u "#/components/messages/refMessage"))) (XVar 0));
  SAssert (CEq (XItem (XVar 1) (u "path")) (XVal (VStr (u "spec.channels.test.messages.msg"))))];
t "validators/test_reference_utils.py::TestReferenceUtils.test_resolve_reference_follows_reference_chain_type" [SLet 0 (XNew "AsyncAPI3" (XVal (VDict [((u "asyncapi"), (VStr (u "3.0.0"))); ((u "info"), (VDict [((u "title"), (VStr (u "Test API"))); ((u "version"), (VStr (u "1.0.0")))])); ((u "channels"), (VDict [((u "test"), (VDict [((u "address"), (VStr (u "test"))); ((u "messages"), (VDict [((u "msg"), (VDict [((u "payload"), (VDict [((u "type"), (VStr (u "object")))]))]))]))]))])); ((u "components"), (VDict [((u "messages"), (VDict [((u "refMessage"), (VDict [((u "$ref"), (VStr (u "#/channels/test/messages/msg")))]))]))]))])));
  SLet 1 (XResolve (XVal (VStr (u "#/components/messages/refMessage"))) (XVar 0));
  SAssert (CEq (XItem (XVar 1) (u "resolved_type")) (XVal (VStr (u "Message"))))];
t "validators/test_reference_utils.py::TestReferenceUtils.test_resolve_reference_invalid_format" [SLet 0 (XNew "AsyncAPI3" (XVal (VDict [((u "asyncapi"), (VStr (u "3.0.0"))); ((u "info"), (VDict [((u "title"), (VStr (u "Test API"))); ((u "version"), (VStr (u "1.0.0")))])); ((u "channels"), (VDict [((u "test"), (VDict [((u "address"), (VStr (u "test"))); ((u "messages"), (VDict [((u "msg"), (VDict [((u "payload"), (VDict [((u "type"), (VStr (u "object")))]))]))]))]))])); ((u "components"), (VDict [((u "messages"), (VDict [((u "refMessage"), (VDict [((u "$ref"), (VStr (u "#/channels/test/messages/msg")))]))]))]))])));
  SRaises [SDo (XResolve (XVal (VStr (u "invalid"))) (XVar 0))] [(u "Unsupported reference format")]];
t "validators/test_reference_utils.py::TestReferenceUtils.test_resolve_path_part_root" [SLet 0 (XNewAt (TRoot "RootContainer" TAny) (XVal (VDict [((u "item"), (VDict [((u "nested"), (VStr (u "value")))]))])));
  SLet 1 (XPart (XVar 0) (u "item") (u "spec.item"));
  SAssert (CEq (XVar 1) (XVal (VDict [((u "nested"), (VStr (u "value")))])))];
t "validators/test_reference_utils.py::TestReferenceUtils.test_resolve_path_part_root_type" [SLet 0 (XNewAt (TRoot "RootContainer" TAny) (XVal (VDict [((u "item"), (VDict [((u "nested"), (VStr (u "value")))]))])));
  SLet 1 (XPart (XVar 0) (u "item") (u "spec.item"));
  SAssert (CIs (XVar 1) ["dict"])];
t "validators/test_reference_utils.py::TestReferenceUtils.test_resolve_path_part_dict" [SLet 0 (XPart (XVal (VDict [((u "item"), (VInt (1)%Z))])) (u "item") (u "spec.item"));
  SAssert (CEq (XVar 0) (XVal (VInt (1)%Z)))];
t "validators/test_reference_utils.py::TestReferenceUtils.test_resolve_path_part_dict_type" [SLet 0 (XPart (XVal (VDict [((u "item"), (VInt (1)%Z))])) (u "item") (u "spec.item"));
  SAssert (CIs (XVar 0) ["int"])];
t "validators/test_reference_utils.py::TestReferenceUtils.test_resolve_path_parts_skips_empty_segments_path" [SLet 0 (XNew "AsyncAPI3" (XVal (VDict [((u "asyncapi"), (VStr (u "3.0.0"))); ((u "info"), (VDict [((u "title"), (VStr (u "Test API"))); ((u "version"), (VStr (u "1.0.0")))])); ((u "channels"), (VDict [((u "test"), (VDict [((u "address"), (VStr (u "test"))); ((u "messages"), (VDict [((u "msg"), (VDict [((u "payload"), (VDict [((u "type"), (VStr (u "object")))]))]))]))]))])); ((u "components"), (VDict [((u "messages"), (VDict [((u "refMessage"), (VDict [((u "$ref"), (VStr (u "#/channels/test/messages/msg")))]))]))]))])));
  SLet 1 (XParts (XVar 0) [(u "channels"); (u ""); (u "test")]);
  SAssert (CEq (XItem (XVar 1) (u "path")) (XVal (VStr (u "spec.channels.test"))))];
t "validators/test_reference_utils.py::TestReferenceUtils.test_resolve_path_parts_skips_empty_segments_type" [SLet 0 (XNew "AsyncAPI3" (XVal (VDict [((u "asyncapi"), (VStr (u "3.0.0"))); ((u "info"), (VDict [((u "title"), (VStr (u "Test API"))); ((u "version"), (VStr (u "1.0.0")))])); ((u "channels"), (VDict [((u "test"), (VDict [((u "address"), (VStr (u "test"))); ((u "messages"), (VDict [((u "msg"), (VDict [((u "payload"), (VDict [((u "type"), (VStr (u "object")))]))]))]))]))])); ((u "components"), (VDict [((u "messages"), (VDict [((u "refMessage"), (VDict [((u "$ref"), (VStr (u "#/channels/test/messages/msg")))]))]))]))])));
  SLet 1 (XParts (XVar 0) [(u "channels"); (u ""); (u "test")]);
  SAssert (CEq (XItem (XVar 1) (u "resolved_type")) (XVal (VStr (u "Channel"))))];
t "validators/test_reference_utils.py::TestReferenceUtils.test_resolve_path_parts_skips_empty_segments_object" [SLet 0 (XNew "AsyncAPI3" (XVal (VDict [((u "asyncapi"), (VStr (u "3.0.0"))); ((u "info"), (VDict [((u "title"), (VStr (u "Test API"))); ((u "version"), (VStr (u "1.0.0")))])); ((u "channels"), (VDict [((u "test"), (VDict [((u "address"), (VStr (u "test"))); ((u "messages"), (VDict [((u "msg"), (VDict [((u "payload"), (VDict [((u "type"), (VStr (u "object")))]))]))]))]))])); ((u "components"), (VDict [((u "messages"), (VDict [((u "refMessage"), (VDict [((u "$ref"), (VStr (u "#/channels/test/messages/msg")))]))]))]))])));
  SLet 1 (XParts (XVar 0) [(u "channels"); (u ""); (u "test")]);
  SAssert (CHas (XItem (XVar 1) (u "resolved_object")) (u "address"))];
t "validators/test_reference_utils.py::TestReferenceUtils.test_resolve_path_part_root_missing_key_error" [SRaises [SDo (XPart (XNewAt (TRoot "RootContainer" TAny) (XVal (VDict [((u "item"), (VInt (1)%Z))]))) (u "missing") (u "spec"))] [(u "Reference key 'missing' not found")]];
t "validators/test_reference_utils.py::TestReferenceUtils.test_resolve_path_part_invalid_object_error" [SRaises [SDo (XPart (XVal (VInt (1)%Z)) (u "item") (u "spec"))] [(u "Cannot navigate")]];
t "validators/test_reference_utils.py::TestReferenceUtils.test_resolve_from_dict_missing_key_error" [SRaises [SDo (XPart (XVal (VDict [])) (u "missing") (u "spec.missing"))] [(u "Reference key 'missing' not found")]];
t "validators/test_tags_ref_validator.py::TestTagsRefValidator.test_tags_ref_validator_validates_info_tags_refs" [SLet 0 (XNew "AsyncAPI3" (XVal (VDict [((u "asyncapi"), (VStr (u "3.0.0"))); ((u "info"), (VDict [((u "title"), (VStr (u "Test API"))); ((u "version"), (VStr (u "1.0.0"))); ((u "tags"), (VList [(VDict [((u "$ref"), (VStr (u "#/components/tags/prod")))])]))])); ((u "components"), (VDict [((u "tags"), (VDict [((u "prod"), (VDict [((u "name"), (VStr (u "prod"))); ((u "description"), (VStr (u "Production environment")))]))]))])); ((u "extra_validators"), (VList [(VProc (u "TagsRefValidator"))]))])));
  SAssert (CNot (CEq (XVar 0) (XVal VNone)))];
t "validators/test_tags_ref_validator.py::TestTagsRefValidator.test_tags_ref_validator_invalid_info_tags_ref_path" [SRaises [SDo (XNew "AsyncAPI3" (XVal (VDict [((u "asyncapi"), (VStr (u "3.0.0"))); ((u "info"), (VDict [((u "title"), (VStr (u "Test API"))); ((u "version"), (VStr (u "1.0.0"))); ((u "tags"), (VList [(VDict [((u "$ref"), (VStr (u "#/tags/prod")))])]))])); ((u "components"), (VDict [((u "tags"), (VDict [((u "prod"), (VDict [((u "name"), (VStr (u "prod"))); ((u "description"), (VStr (u "Production environment")))]))]))])); ((u "extra_validators"), (VList [(VProc (u "TagsRefValidator"))]))])))] [(u "must point to #/components/tags/")]];
t "validators/test_tags_ref_validator.py::TestTagsRefValidator.test_tags_ref_validator_info_tags_ref_to_nonexistent_tag" [SRaises [SDo (XNew "AsyncAPI3" (XVal (VDict [((u "asyncapi"), (VStr (u "3.0.0"))); ((u "info"), (VDict [((u "title"), (VStr (u "Test API"))); ((u "version"), (VStr (u "1.0.0"))); ((u "tags"), (VList [(VDict [((u "$ref"), (VStr (u "#/components/tags/nonexistent")))])]))])); ((u "components"), (VDict [((u "tags"), (VDict [((u "existing"), (VDict [((u "name"), (VStr (u "existing"))); ((u "description"), (VStr (u "Existing tag")))]))]))])); ((u "extra_validators"), (VList [(VProc (u "TagsRefValidator"))]))])))] [(u "does not exist in components/tags")]];
t "validators/test_tags_ref_validator.py::TestTagsRefValidator.test_tags_ref_validator_validates_channels_tags_refs" [SLet 0 (XNew "AsyncAPI3" (XVal (VDict [((u "asyncapi"), (VStr (u "3.0.0"))); ((u "info"), (VDict [((u "title"), (VStr (u "Test API"))); ((u "version"), (VStr (u "1.0.0")))])); ((u "channels"), (VDict [((u "test"), (VDict [((u "address"), (VStr (u "/test"))); ((u "tags"), (VList [(VDict [((u "$ref"), (VStr (u "#/components/tags/prod")))])]))]))])); ((u "components"), (VDict [((u "tags"), (VDict [((u "prod"), (VDict [((u "name"), (VStr (u "prod"))); ((u "description"), (VStr (u "Production environment")))]))]))])); ((u "extra_validators"), (VList [(VProc (u "TagsRefValidator"))]))])));
  SAssert (CNot (CEq (XVar 0) (XVal VNone)))];
t "validators/test_tags_ref_validator.py::TestTagsRefValidator.test_tags_ref_validator_invalid_channels_tags_ref_path" [SRaises [SDo (XNew "AsyncAPI3" (XVal (VDict [((u "asyncapi"), (VStr (u "3.0.0"))); ((u "info"), (VDict [((u "title"), (VStr (u "Test API"))); ((u "version"), (VStr (u "1.0.0")))])); ((u "channels"), (VDict [((u "test"), (VDict [((u "address"), (VStr (u "/test"))); ((u "tags"), (VList [(VDict [((u "$ref"), (VStr (u "#/tags/prod")))])]))]))])); ((u "components"), (VDict [((u "tags"), (VDict [((u "prod"), (VDict [((u "name"), (VStr (u "prod"))); ((u "description"), (VStr (u "Production environment")))]))]))])); ((u "extra_validators"), (VList [(VProc (u "TagsRefValidator"))]))])))] [(u "must point to #/components/tags/")]];
t "validators/test_tags_ref_validator.py::TestTagsRefValidator.test_tags_ref_validator_channels_tags_ref_to_nonexistent_tag" [SRaises [SDo (XNew "AsyncAPI3" (XVal (VDict [((u "asyncapi"), (VStr (u "3.0.0"))); ((u "info"), (VDict [((u "title"), (VStr (u "Test API"))); ((u "version"), (VStr (u "1.0.0")))])); ((u "channels"), (VDict [((u "test"), (VDict [((u "address"), (VStr (u "/test"))); ((u "tags"), (VList [(VDict [((u "$ref"), (VStr (u "#/components/tags/nonexistent")))])]))]))])); ((u "components"), (VDict [((u "tags"), (VDict [((u "existing"), (VDict [((u "name"), (VStr (u "existing"))); ((u "description"), (VStr (u "Existing tag")))]))]))])); ((u "extra_validators"), (VList [(VProc (u "TagsRefValidator"))]))])))] [(u "does not exist in components/tags")]];
t "validators/test_tags_ref_validator.py::TestTagsRefValidator.test_tags_ref_validator_validates_operations_tags_refs" [SLet 0 (XNew "AsyncAPI3" (XVal (VDict [((u "asyncapi"), (VStr (u "3.0.0"))); ((u "info"), (VDict [((u "title"), (VStr (u "Test API"))); ((u "version"), (VStr (u "1.0.0")))])); ((u "operations"), (VDict [((u "sendMessage"), (VDict [((u "action"), (VStr (u "send"))); ((u "channel"), (VDict [((u "$ref"), (VStr (u "#/channels/test")))])); ((u "tags"), (VList [(VDict [((u "$ref"), (VStr (u "#/components/tags/prod")))])]))]))])); ((u "channels"), (VDict [((u "test"), (VDict [((u "address"), (VStr (u "/test")))]))])); ((u "components"), (VDict [((u "tags"), (VDict [((u "prod"), (VDict [((u "name"), (VStr (u "prod"))); ((u "description"), (VStr (u "Production environment")))]))]))])); ((u "extra_validators"), (VList [(VProc (u "TagsRefValidator"))]))])));
  SAssert (CNot (CEq (XVar 0) (XVal VNone)))];
t "validators/test_tags_ref_validator.py::TestTagsRefValidator.test_tags_ref_validator_invalid_operations_tags_ref_path" [SRaises [SDo (XNew "AsyncAPI3" (XVal (VDict [((u "asyncapi"), (VStr (u "3.0.0"))); ((u "info"), (VDict [((u "title"), (VStr (u "Test API"))); ((u "version"), (VStr (u "1.0.0")))])); ((u "operations"), (VDict [((u "sendMessage"), (VDict [((u "action"), (VStr (u "send"))); ((u "channel"), (VDict [((u "$ref"), (VStr (u "#/channels/test")))])); ((u "tags"), (VList [(VDict [((u "$ref"), (VStr (u "#/tags/prod")))])]))]))])); ((u "channels"), (VDict [((u "test"), (VDict [((u "address"), (VStr (u "/test")))]))])); ((u "components"), (VDict [((u "tags"), (VDict [((u "prod"), (VDict [((u "name"), (VStr (u "prod"))); ((u "description"), (VStr (u "Production environment")))]))]))])); ((u "extra_validators"), (VList [(VProc (u "TagsRefValidator"))]))])))] [(u "must point to #/components/tags/")]];
t "validators/test_tags_ref_validator.py::TestTagsRefValidator.test_tags_ref_validator_operations_tags_ref_to_nonexistent_tag" [SRaises [SDo (XNew "AsyncAPI3" (XVal (VDict [((u "asyncapi"), (VStr (u "3.0.0"))); ((u "info"), (VDict [((u "title"), (VStr (u "Test API"))); ((u "version"), (VStr (u "1.0.0")))])); ((u "operations"), (VDict [((u "sendMessage"), (VDict [((u "action"), (VStr (u "send"))); ((u "channel"), (VDict [((u "$ref"), (VStr (u "#/channels/test")))])); ((u "tags"), (VList [(VDict [((u "$ref"), (VStr (u "#/components/tags/nonexistent")))])]))]))])); ((u "channels"), (VDict [((u "test"), (VDict [((u "address"), (VStr (u "/test")))]))])); ((u "components"), (VDict [((u "tags"), (VDict [((u "existing"), (VDict [((u "name"), (VStr (u "existing"))); ((u "description"), (VStr (u "Existing tag")))]))]))])); ((u "extra_validators"), (VList [(VProc (u "TagsRefValidator"))]))])))] [(u "does not exist in components/tags")]];
t "validators/test_tags_ref_validator.py::TestTagsRefValidator.test_tags_ref_validator_validates_servers_tags_refs" [SLet 0 (XNew "AsyncAPI3" (XVal (VDict [((u "asyncapi"), (VStr (u "3.0.0"))); ((u "info"), (VDict [((u "title"), (VStr (u "Test API"))); ((u "version"), (VStr (u "1.0.0")))])); ((u "servers"), (VDict [((u "prod"), (VDict [((u "host"), (VStr (u "api.example.com"))); ((u "protocol"), (VStr (u "https"))); ((u "tags"), (VList [(VDict [((u "$ref"), (VStr (u "#/components/tags/prod")))])]))]))])); ((u "components"), (VDict [((u "tags"), (VDict [((u "prod"), (VDict [((u "name"), (VStr (u "prod"))); ((u "description"), (VStr (u "Production environment")))]))]))])); ((u "extra_validators"), (VList [(VProc (u "TagsRefValidator"))]))])));
  SAssert (CNot (CEq (XVar 0) (XVal VNone)))];
t "validators/test_tags_ref_validator.py::TestTagsRefValidator.test_tags_ref_validator_invalid_servers_tags_ref_path" [SRaises [SDo (XNew "AsyncAPI3" (XVal (VDict [((u "asyncapi"), (VStr (u "3.0.0"))); ((u "info"), (VDict [((u "title"), (VStr (u "Test API"))); ((u "version"), (VStr (u "1.0.0")))])); ((u "servers"), (VDict [((u "prod"), (VDict [((u "host"), (VStr (u "api.example.com"))); ((u "protocol"), (VStr (u "https"))); ((u "tags"), (VList [(VDict [((u "$ref"), (VStr (u "#/tags/prod")))])]))]))])); ((u "components"), (VDict [((u "tags"), (VDict [((u "prod"), (VDict [((u "name"), (VStr (u "prod"))); ((u "description"), (VStr (u "Production environment")))]))]))])); ((u "extra_validators"), (VList [(VProc (u "TagsRefValidator"))]))])))] [(u "must point to #/components/tags/")]];
t "validators/test_tags_ref_validator.py::TestTagsRefValidator.test_tags_ref_validator_servers_tags_ref_to_nonexistent_tag" [SRaises [SDo (XNew "AsyncAPI3" (XVal (VDict [((u "asyncapi"), (VStr (u "3.0.0"))); ((u "info"), (VDict [((u "title"), (VStr (u "Test API"))); ((u "version"), (VStr (u "1.0.0")))])); ((u "servers"), (VDict [((u "prod"), (VDict [((u "host"), (VStr (u "api.example.com"))); ((u "protocol"), (VStr (u "https"))); ((u "tags"), (VList [(VDict [((u "$ref"), (VStr (u "#/components/tags/nonexistent")))])]))]))])); ((u "components"), (VDict [((u "tags"), (VDict [((u "existing"), (VDict [((u "name"), (VStr (u "existing"))); ((u "description"), (VStr (u "Existing tag")))]))]))])); ((u "extra_validators"), (VList [(VProc (u "TagsRefValidator"))]))])))] [(u "does not exist in components/tags")]]].
Definition part2 : list (string * list stmt) := [
t "validators/test_tags_ref_validator.py::TestTagsRefValidator.test_tags_ref_validator_validates_components_messages_tags_refs" [SLet 0 (XNew "AsyncAPI3" (XVal (VDict [((u "asyncapi"), (VStr (u "3.0.0"))); ((u "info"), (VDict [((u "title"), (VStr (u "Test API"))); ((u "version"), (VStr (u "1.0.0")))])); ((u "components"), (VDict [((u "messages"), (VDict [((u "testMessage"), (VDict [((u "payload"), (VDict [((u "type"), (VStr (u "string")))])); ((u "tags"), (VList [(VDict [((u "$ref"), (VStr (u "#/components/tags/prod")))])]))]))])); ((u "tags"), (VDict [((u "prod"), (VDict [((u "name"), (VStr (u "prod"))); ((u "description"), (VStr (u "Production environment")))]))]))])); ((u "extra_validators"), (VList [(VProc (u "TagsRefValidator"))]))])));
  SAssert (CNot (CEq (XVar 0) (XVal VNone)))];
t "validators/test_tags_ref_validator.py::TestTagsRefValidator.test_tags_ref_validator_components_messages_tags_ref_to_nonexistent_tag" [SRaises [SDo (XNew "AsyncAPI3" (XVal (VDict [((u "asyncapi"), (VStr (u "3.0.0"))); ((u "info"), (VDict [((u "title"), (VStr (u "Test API"))); ((u "version"), (VStr (u "1.0.0")))])); ((u "components"), (VDict [((u "messages"), (VDict [((u "testMessage"), (VDict [((u "payload"), (VDict [((u "type"), (VStr (u "string")))])); ((u "tags"), (VList [(VDict [((u "$ref"), (VStr (u "#/components/tags/nonexistent")))])]))]))])); ((u "tags"), (VDict [((u "existing"), (VDict [((u "name"), (VStr (u "existing"))); ((u "description"), (VStr (u "Existing tag")))]))]))])); ((u "extra_validators"), (VList [(VProc (u "TagsRefValidator"))]))])))] [(u "does not exist in components/tags")]];
t "validators/test_tags_ref_validator.py::TestTagsRefValidator.test_tags_ref_validator_validates_components_channels_tags_refs" [SLet 0 (XNew "AsyncAPI3" (XVal (VDict [((u "asyncapi"), (VStr (u "3.0.0"))); ((u "info"), (VDict [((u "title"), (VStr (u "Test API"))); ((u "version"), (VStr (u "1.0.0")))])); ((u "components"), (VDict [((u "channels"), (VDict [((u "test"), (VDict [((u "address"), (VStr (u "/test"))); ((u "tags"), (VList [(VDict [((u "$ref"), (VStr (u "#/components/tags/prod")))])]))]))])); ((u "tags"), (VDict [((u "prod"), (VDict [((u "name"), (VStr (u "prod"))); ((u "description"), (VStr (u "Production environment")))]))]))])); ((u "extra_validators"), (VList [(VProc (u "TagsRefValidator"))]))])));
  SAssert (CNot (CEq (XVar 0) (XVal VNone)))];
t "validators/test_tags_ref_validator.py::TestTagsRefValidator.test_tags_ref_validator_components_channels_tags_ref_to_nonexistent_tag" [SRaises [SDo (XNew "AsyncAPI3" (XVal (VDict [((u "asyncapi"), (VStr (u "3.0.0"))); ((u "info"), (VDict [((u "title"), (VStr (u "Test API"))); ((u "version"), (VStr (u "1.0.0")))])); ((u "components"), (VDict [((u "channels"), (VDict [((u "test"), (VDict [((u "address"), (VStr (u "/test"))); ((u "tags"), (VList [(VDict [((u "$ref"), (VStr (u "#/components/tags/nonexistent")))])]))]))])); ((u "tags"), (VDict [((u "existing"), (VDict [((u "name"), (VStr (u "existing"))); ((u "description"), (VStr (u "Existing tag")))]))]))])); ((u "extra_validators"), (VList [(VProc (u "TagsRefValidator"))]))])))] [(u "does not exist in components/tags")]];
t "validators/test_tags_ref_validator.py::TestTagsRefValidator.test_tags_ref_validator_validates_components_operations_tags_refs" [SLet 0 (XNew "AsyncAPI3" (XVal (VDict [((u "asyncapi"), (VStr (u "3.0.0"))); ((u "info"), (VDict [((u "title"), (VStr (u "Test API"))); ((u "version"), (VStr (u "1.0.0")))])); ((u "channels"), (VDict [((u "test"), (VDict [((u "address"), (VStr (u "/test")))]))])); ((u "components"), (VDict [((u "operations"), (VDict [((u "sendMessage"), (VDict [((u "action"), (VStr (u "send"))); ((u "channel"), (VDict [((u "$ref"), (VStr (u "#/channels/test")))])); ((u "tags"), (VList [(VDict [((u "$ref"), (VStr (u "#/components/tags/prod")))])]))]))])); ((u "tags"), (VDict [((u "prod"), (VDict [((u "name"), (VStr (u "prod"))); ((u "description"), (VStr (u "Production environment")))]))]))])); ((u "extra_validators"), (VList [(VProc (u "TagsRefValidator"))]))])));
  SAssert (CNot (CEq (XVar 0) (XVal VNone)))];
t "validators/test_tags_ref_validator.py::TestTagsRefValidator.test_tags_ref_validator_components_operations_tags_ref_to_nonexistent_tag" [SRaises [SDo (XNew "AsyncAPI3" (XVal (VDict [((u "asyncapi"), (VStr (u "3.0.0"))); ((u "info"), (VDict [((u "title"), (VStr (u "Test API"))); ((u "version"), (VStr (u "1.0.0")))])); ((u "channels"), (VDict [((u "test"), (VDict [((u "address"), (VStr (u "/test")))]))])); ((u "components"), (VDict [((u "operations"), (VDict [((u "sendMessage"), (VDict [((u "action"), (VStr (u "send"))); ((u "channel"), (VDict [((u "$ref"), (VStr (u "#/channels/test")))])); ((u "tags"), (VList [(VDict [((u "$ref"), (VStr (u "#/components/tags/nonexistent")))])]))]))])); ((u "tags"), (VDict [((u "existing"), (VDict [((u "name"), (VStr (u "existing"))); ((u "description"), (VStr (u "Existing tag")))]))]))])); ((u "extra_validators"), (VList [(VProc (u "TagsRefValidator"))]))])))] [(u "does not exist in components/tags")]];
t "validators/test_tags_ref_validator.py::TestTagsRefValidator.test_tags_ref_validator_info_without_tags_attr" [SLet 0 (XNew "AsyncAPI3" (XVal (VDict [((u "asyncapi"), (VStr (u "3.0.0"))); ((u "info"), (VDict [((u "title"), (VStr (u "Test API"))); ((u "version"), (VStr (u "1.0.0")))])); ((u "extra_validators"), (VList [(VProc (u "TagsRefValidator"))]))])));
  SAssert (CNot (CEq (XVar 0) (XVal VNone)))];
t "validators/test_tags_ref_validator.py::TestTagsRefValidator.test_tags_ref_validator_info_empty_tags" [SLet 0 (XNew "AsyncAPI3" (XVal (VDict [((u "asyncapi"), (VStr (u "3.0.0"))); ((u "info"), (VDict [((u "title"), (VStr (u "Test API"))); ((u "version"), (VStr (u "1.0.0"))); ((u "tags"), (VList []))])); ((u "extra_validators"), (VList [(VProc (u "TagsRefValidator"))]))])));
  SAssert (CNot (CEq (XVar 0) (XVal VNone)))];
t "validators/test_tags_ref_validator.py::TestTagsRefValidator.test_tags_ref_validator_channels_without_tags_attr" [SLet 0 (XNew "AsyncAPI3" (XVal (VDict [((u "asyncapi"), (VStr (u "3.0.0"))); ((u "info"), (VDict [((u "title"), (VStr (u "Test API"))); ((u "version"), (VStr (u "1.0.0")))])); ((u "channels"), (VDict [((u "test"), (VDict [((u "address"), (VStr (u "/test")))]))])); ((u "extra_validators"), (VList [(VProc (u "TagsRefValidator"))]))])));
  SAssert (CNot (CEq (XVar 0) (XVal VNone)))];
t "validators/test_tags_ref_validator.py::TestTagsRefValidator.test_tags_ref_validator_channels_empty_tags" [SLet 0 (XNew "AsyncAPI3" (XVal (VDict [((u "asyncapi"), (VStr (u "3.0.0"))); ((u "info"), (VDict [((u "title"), (VStr (u "Test API"))); ((u "version"), (VStr (u "1.0.0")))])); ((u "channels"), (VDict [((u "test"), (VDict [((u "address"), (VStr (u "/test"))); ((u "tags"), (VList []))]))])); ((u "extra_validators"), (VList [(VProc (u "TagsRefValidator"))]))])));
  SAssert (CNot (CEq (XVar 0) (XVal VNone)))];
t "validators/test_tags_ref_validator.py::TestTagsRefValidator.test_tags_ref_validator_external_info_tags_ref_warning" [SLet 0 (XNew "AsyncAPI3" (XVal (VDict [((u "asyncapi"), (VStr (u "3.0.0"))); ((u "info"), (VDict [((u "title"), (VStr (u "Test API"))); ((u "version"), (VStr (u "1.0.0"))); ((u "tags"), (VList [(VDict [((u "$ref"), (VStr (u "https://external.example.com/tags/prod")))])]))])); ((u "extra_validators"), (VList [(VProc (u "TagsRefValidator"))]))])));
  SAssert (CNot (CEq (XVar 0) (XVal VNone)));
  SAssert (CLogs (XNew "AsyncAPI3" (XVal (VDict [((u "asyncapi"), (VStr (u "3.0.0"))); ((u "info"), (VDict [((u "title"), (VStr (u "Test API"))); ((u "version"), (VStr (u "1.0.0"))); ((u "tags"), (VList [(VDict [((u "$ref"), (VStr (u "https://external.example.com/tags/prod")))])]))])); ((u "extra_validators"), (VList [(VProc (u "TagsRefValidator"))]))]))) (u "is external. Cannot validate external references"))];
t "validators/test_tags_ref_validator.py::TestTagsRefValidator.test_tags_ref_validator_tags_with_inline_objects_and_refs" [SLet 0 (XNew "AsyncAPI3" (XVal (VDict [((u "asyncapi"), (VStr (u "3.0.0"))); ((u "info"), (VDict [((u "title"), (VStr (u "Test API"))); ((u "version"), (VStr (u "1.0.0"))); ((u "tags"), (VList [(VDict [((u "name"), (VStr (u "inline"))); ((u "description"), (VStr (u "Inline tag")))]); (VDict [((u "$ref"), (VStr (u "#/components/tags/prod")))])]))])); ((u "components"), (VDict [((u "tags"), (VDict [((u "prod"), (VDict [((u "name"), (VStr (u "prod"))); ((u "description"), (VStr (u "Production environment")))]))]))])); ((u "extra_validators"), (VList [(VProc (u "TagsRefValidator"))]))])));
  SAssert (CNot (CEq (XVar 0) (XVal VNone)))];
t "validators/test_tags_ref_validator.py::TestTagsRefValidator.test_tags_ref_validator_missing_components_tags" [SRaises [SDo (XNew "AsyncAPI3" (XVal (VDict [((u "asyncapi"), (VStr (u "3.0.0"))); ((u "info"), (VDict [((u "title"), (VStr (u "Test API"))); ((u "version"), (VStr (u "1.0.0"))); ((u "tags"), (VList [(VDict [((u "$ref"), (VStr (u "#/components/tags/prod")))])]))])); ((u "components"), (VDict [])); ((u "extra_validators"), (VList [(VProc (u "TagsRefValidator"))]))])))] [(u "does not exist in components/tags")]];
t "validators/test_tags_ref_validator.py::TestTagsRefValidator.test_tags_ref_validator_validates_components_servers_tags_refs" [SLet 0 (XNew "AsyncAPI3" (XVal (VDict [((u "asyncapi"), (VStr (u "3.0.0"))); ((u "info"), (VDict [((u "title"), (VStr (u "Test API"))); ((u "version"), (VStr (u "1.0.0")))])); ((u "components"), (VDict [((u "servers"), (VDict [((u "prod"), (VDict [((u "host"), (VStr (u "api.example.com"))); ((u "protocol"), (VStr (u "https"))); ((u "tags"), (VList [(VDict [((u "$ref"), (VStr (u "#/components/tags/prod")))])]))]))])); ((u "tags"), (VDict [((u "prod"), (VDict [((u "name"), (VStr (u "prod"))); ((u "description"), (VStr (u "Production environment")))]))]))])); ((u "extra_validators"), (VList [(VProc (u "TagsRefValidator"))]))])));
  SAssert (CNot (CEq (XVar 0) (XVal VNone)))];
t "validators/test_tags_ref_validator.py::TestTagsRefValidator.test_tags_ref_validator_validates_components_operation_traits_tags_refs" [SLet 0 (XNew "AsyncAPI3" (XVal (VDict [((u "asyncapi"), (VStr (u "3.0.0"))); ((u "info"), (VDict [((u "title"), (VStr (u "Test API"))); ((u "version"), (VStr (u "1.0.0")))])); ((u "components"), (VDict [((u "operationTraits"), (VDict [((u "testTrait"), (VDict [((u "tags"), (VList [(VDict [((u "$ref"), (VStr (u "#/components/tags/prod")))])]))]))])); ((u "tags"), (VDict [((u "prod"), (VDict [((u "name"), (VStr (u "prod"))); ((u "description"), (VStr (u "Production environment")))]))]))])); ((u "extra_validators"), (VList [(VProc (u "TagsRefValidator"))]))])));
  SAssert (CNot (CEq (XVar 0) (XVal VNone)))];
t "validators/test_tags_ref_validator.py::TestTagsRefValidator.test_tags_ref_validator_validates_components_message_traits_tags_refs" [SLet 0 (XNew "AsyncAPI3" (XVal (VDict [((u "asyncapi"), (VStr (u "3.0.0"))); ((u "info"), (VDict [((u "title"), (VStr (u "Test API"))); ((u "version"), (VStr (u "1.0.0")))])); ((u "components"), (VDict [((u "messageTraits"), (VDict [((u "testTrait"), (VDict [((u "tags"), (VList [(VDict [((u "$ref"), (VStr (u "#/components/tags/prod")))])]))]))])); ((u "tags"), (VDict [((u "prod"), (VDict [((u "name"), (VStr (u "prod"))); ((u "description"), (VStr (u "Production environment")))]))]))])); ((u "extra_validators"), (VList [(VProc (u "TagsRefValidator"))]))])));
  SAssert (CNot (CEq (XVar 0) (XVal VNone)))];
t "validators/test_tags_ref_validator.py::TestTagsRefValidator.test_tags_ref_validator_validates_channels_messages_tags_refs" [SLet 0 (XNew "AsyncAPI3" (XVal (VDict [((u "asyncapi"), (VStr (u "3.0.0"))); ((u "info"), (VDict [((u "title"), (VStr (u "Test API"))); ((u "version"), (VStr (u "1.0.0")))])); ((u "channels"), (VDict [((u "test"), (VDict [((u "address"), (VStr (u "/test"))); ((u "messages"), (VDict [((u "testMsg"), (VDict [((u "payload"), (VDict [((u "type"), (VStr (u "string")))])); ((u "tags"), (VList [(VDict [((u "$ref"), (VStr (u "#/components/tags/prod")))])]))]))]))]))])); ((u "components"), (VDict [((u "tags"), (VDict [((u "prod"), (VDict [((u "name"), (VStr (u "prod"))); ((u "description"), (VStr (u "Production environment")))]))]))])); ((u "extra_validators"), (VList [(VProc (u "TagsRefValidator"))]))])));
  SAssert (CNot (CEq (XVar 0) (XVal VNone)))];
t "validators/test_tags_ref_validator.py::TestTagsRefValidator.test_tags_ref_validator_validates_components_channels_messages_tags_refs" [SLet 0 (XNew "AsyncAPI3" (XVal (VDict [((u "asyncapi"), (VStr (u "3.0.0"))); ((u "info"), (VDict [((u "title"), (VStr (u "Test API"))); ((u "version"), (VStr (u "1.0.0")))])); ((u "components"), (VDict [((u "channels"), (VDict [((u "test"), (VDict [((u "address"), (VStr (u "/test"))); ((u "messages"), (VDict [((u "testMsg"), (VDict [((u "payload"), (VDict [((u "type"), (VStr (u "string")))])); ((u "tags"), (VList [(VDict [((u "$ref"), (VStr (u "#/components/tags/prod")))])]))]))]))]))])); ((u "tags"), (VDict [((u "prod"), (VDict [((u "name"), (VStr (u "prod"))); ((u "description"), (VStr (u "Production environment")))]))]))])); ((u "extra_validators"), (VList [(VProc (u "TagsRefValidator"))]))])));
  SAssert (CNot (CEq (XVar 0) (XVal VNone)))];
t "validators/test_tags_ref_validator.py::TestTagsRefValidator.test_tags_ref_validator_raises_error_for_nested_message_tags" [SRaises [SDo (XNew "AsyncAPI3" (XVal (VDict [((u "asyncapi"), (VStr (u "3.0.0"))); ((u "info"), (VDict [((u "title"), (VStr (u "Test API"))); ((u "version"), (VStr (u "1.0.0")))])); ((u "channels"), (VDict [((u "test"), (VDict [((u "address"), (VStr (u "/test"))); ((u "messages"), (VDict [((u "testMsg"), (VDict [((u "payload"), (VDict [((u "type"), (VStr (u "string")))])); ((u "tags"), (VList [(VDict [((u "$ref"), (VStr (u "#/components/tags/nonexistent")))])]))]))]))]))])); ((u "components"), (VDict [((u "tags"), (VDict [((u "prod"), (VDict [((u "name"), (VStr (u "prod")))]))]))])); ((u "extra_validators"), (VList [(VProc (u "TagsRefValidator"))]))])))] [(u "does not exist in components/tags")]];
t "validators/test_tags_ref_validator.py::TestTagsRefValidator.test_tags_ref_validator_validates_components_tags_refs" [SLet 0 (XNew "AsyncAPI3" (XVal (VDict [((u "asyncapi"), (VStr (u "3.0.0"))); ((u "info"), (VDict [((u "title"), (VStr (u "Test API"))); ((u "version"), (VStr (u "1.0.0")))])); ((u "components"), (VDict [((u "tags"), (VDict [((u "prod"), (VDict [((u "$ref"), (VStr (u "#/components/tags/base")))])); ((u "base"), (VDict [((u "name"), (VStr (u "base"))); ((u "description"), (VStr (u "Base tag")))]))]))])); ((u "extra_validators"), (VList [(VProc (u "TagsRefValidator"))]))])));
  SAssert (CNot (CEq (XVar 0) (XVal VNone)))];
t "validators/test_tags_ref_validator.py::TestTagsRefValidator.test_tags_ref_validator_invalid_components_tags_ref" [SRaises [SDo (XNew "AsyncAPI3" (XVal (VDict [((u "asyncapi"), (VStr (u "3.0.0"))); ((u "info"), (VDict [((u "title"), (VStr (u "Test API"))); ((u "version"), (VStr (u "1.0.0")))])); ((u "components"), (VDict [((u "tags"), (VDict [((u "prod"), (VDict [((u "$ref"), (VStr (u "#/components/tags/nonexistent")))]))]))])); ((u "extra_validators"), (VList [(VProc (u "TagsRefValidator"))]))])))] [(u "does not exist in components/tags")]];
t "validators/test_unified_references_validator.py::TestUnifiedReferencesValidator.test_unified_validator_valid_channel_reference" [SLet 0 (XNew "AsyncAPI3" (XVal (VDict [((u "asyncapi"), (VStr (u "3.0.0"))); ((u "info"), (VDict [((u "title"), (VStr (u "Test API"))); ((u "version"), (VStr (u "1.0.0")))])); ((u "channels"), (VDict [((u "userChannel"), (VDict [((u "address"), (VStr (u "user/{userId}"))); ((u "messages"), (VDict []))]))])); ((u "operations"), (VDict [((u "userOp"), (VDict [((u "action"), (VStr (u "send"))); ((u "channel"), (VDict [((u "$ref"), (VStr (u "#/channels/userChannel")))]))]))])); ((u "extra_validators"), (VList [(VProc (u "UnifiedReferencesValidator"))]))])));
  SAssert (CNot (CEq (XVar 0) (XVal VNone)))];
t "validators/test_unified_references_validator.py::TestUnifiedReferencesValidator.test_unified_validator_invalid_server_reference_path" [SRaises [SDo (XNew "AsyncAPI3" (XVal (VDict [((u "asyncapi"), (VStr (u "3.0.0"))); ((u "info"), (VDict [((u "title"), (VStr (u "Test API"))); ((u "version"), (VStr (u "1.0.0")))])); ((u "channels"), (VDict [((u "test"), (VDict [((u "$ref"), (VStr (u "#/servers/nonexistent")))]))])); ((u "extra_validators"), (VList [(VProc (u "UnifiedReferencesValidator"))]))])))] [(u "Invalid reference")]];
t "validators/test_unified_references_validator.py::TestUnifiedReferencesValidator.test_unified_validator_valid_tag_reference" [SLet 0 (XNew "AsyncAPI3" (XVal (VDict [((u "asyncapi"), (VStr (u "3.0.0"))); ((u "info"), (VDict [((u "title"), (VStr (u "Test API"))); ((u "version"), (VStr (u "1.0.0"))); ((u "tags"), (VList [(VDict [((u "$ref"), (VStr (u "#/components/tags/prod")))])]))])); ((u "components"), (VDict [((u "tags"), (VDict [((u "prod"), (VDict [((u "name"), (VStr (u "prod"))); ((u "description"), (VStr (u "Production environment")))]))]))])); ((u "extra_validators"), (VList [(VProc (u "UnifiedReferencesValidator"))]))])));
  SAssert (CNot (CEq (XVar 0) (XVal VNone)))];
t "validators/test_unified_references_validator.py::TestUnifiedReferencesValidator.test_unified_validator_invalid_tag_reference_path" [SRaises [SDo (XNew "AsyncAPI3" (XVal (VDict [((u "asyncapi"), (VStr (u "3.0.0"))); ((u "info"), (VDict [((u "title"), (VStr (u "Test API"))); ((u "version"), (VStr (u "1.0.0"))); ((u "tags"), (VList [(VDict [((u "$ref"), (VStr (u "#/components/tags/nonexistent")))])]))])); ((u "components"), (VDict [((u "tags"), (VDict [((u "prod"), (VDict [((u "name"), (VStr (u "prod"))); ((u "description"), (VStr (u "Production environment")))]))]))])); ((u "extra_validators"), (VList [(VProc (u "UnifiedReferencesValidator"))]))])))] [(u "Invalid reference")]];
t "validators/test_unified_references_validator.py::TestUnifiedReferencesValidator.test_unified_validator_external_reference_logs_warning" [SDo (XNew "AsyncAPI3" (XVal (VDict [((u "asyncapi"), (VStr (u "3.0.0"))); ((u "info"), (VDict [((u "title"), (VStr (u "Test API"))); ((u "version"), (VStr (u "1.0.0"))); ((u "tags"), (VList [(VDict [((u "$ref"), (VStr (u "https://example.com/external-tag")))])]))])); ((u "extra_validators"), (VList [(VProc (u "UnifiedReferencesValidator"))]))])));
  SAssert (CLogs (XNew "AsyncAPI3" (XVal (VDict [((u "asyncapi"), (VStr (u "3.0.0"))); ((u "info"), (VDict [((u "title"), (VStr (u "Test API"))); ((u "version"), (VStr (u "1.0.0"))); ((u "tags"), (VList [(VDict [((u "$ref"), (VStr (u "https://example.com/external-tag")))])]))])); ((u "extra_validators"), (VList [(VProc (u "UnifiedReferencesValidator"))]))]))) (u "External reference"))];
t "validators/test_unified_references_validator.py::TestUnifiedReferencesValidator.test_unified_validator_unsupported_reference_format" [SRaises [SDo (XNew "AsyncAPI3" (XVal (VDict [((u "asyncapi"), (VStr (u "3.0.0"))); ((u "info"), (VDict [((u "title"), (VStr (u "Test API"))); ((u "version"), (VStr (u "1.0.0"))); ((u "tags"), (VList [(VDict [((u "$ref"), (VStr (u "file://local-tag")))])]))])); ((u "extra_validators"), (VList [(VProc (u "UnifiedReferencesValidator"))]))])))] [(u "Unsupported reference format")]];
t "validators/test_unified_references_validator.py::TestUnifiedReferencesValidator.test_unified_validator_valid_schema_reference" [SLet 0 (XNew "AsyncAPI3" (XVal (VDict [((u "asyncapi"), (VStr (u "3.0.0"))); ((u "info"), (VDict [((u "title"), (VStr (u "Test API"))); ((u "version"), (VStr (u "1.0.0")))])); ((u "components"), (VDict [((u "schemas"), (VDict [((u "User"), (VDict [((u "type"), (VStr (u "object"))); ((u "properties"), (VDict [((u "name"), (VDict [((u "type"), (VStr (u "string")))]))]))]))])); ((u "messages"), (VDict [((u "UserMessage"), (VDict [((u "payload"), (VDict [((u "$ref"), (VStr (u "#/components/schemas/User")))]))]))]))])); ((u "extra_validators"), (VList [(VProc (u "UnifiedReferencesValidator"))]))])));
  SAssert (CNot (CEq (XVar 0) (XVal VNone)))];
t "validators/test_unified_references_validator.py::TestUnifiedReferencesValidator.test_unified_validator_invalid_schema_reference" [SRaises [SDo (XNew "AsyncAPI3" (XVal (VDict [((u "asyncapi"), (VStr (u "3.0.0"))); ((u "info"), (VDict [((u "title"), (VStr (u "Test API"))); ((u "version"), (VStr (u "1.0.0")))])); ((u "components"), (VDict [((u "messages"), (VDict [((u "UserMessage"), (VDict [((u "payload"), (VDict [((u "$ref"), (VStr (u "#/components/schemas/NonExistentSchema")))]))]))]))])); ((u "extra_validators"), (VList [(VProc (u "UnifiedReferencesValidator"))]))])))] [(u "Invalid reference")]];
t "validators/test_unified_references_validator.py::TestUnifiedReferencesValidatorParametrized.test_reference_type_mappings_resolve_old_paths/0" [SLet 0 (XExpected (u "spec.channels.*"));
  SAssert (CEq (XVar 0) (XVal (VList [VStr (u "Channel")])))];
t "validators/test_unified_references_validator.py::TestUnifiedReferencesValidatorParametrized.test_reference_type_mappings_resolve_old_paths/1" [SLet 0 (XExpected (u "spec.channels.*.bindings"));
  SAssert (CEq (XVar 0) (XVal (VList [VStr (u "ChannelBindingsObject")])))];
t "validators/test_unified_references_validator.py::TestUnifiedReferencesValidatorParametrized.test_reference_type_mappings_resolve_old_paths/2" [SLet 0 (XExpected (u "spec.channels.*.bindings.ws.headers"));
  SAssert (CEq (XVar 0) (XVal (VList [VStr (u "Schema")])))];
t "validators/test_unified_references_validator.py::TestUnifiedReferencesValidatorParametrized.test_reference_type_mappings_resolve_old_paths/3" [SLet 0 (XExpected (u "spec.channels.*.bindings.ws.headers.external_docs"));
  SAssert (CEq (XVar 0) (XVal (VList [VStr (u "ExternalDocumentation")])))];
t "validators/test_unified_references_validator.py::TestUnifiedReferencesValidatorParametrized.test_reference_type_mappings_resolve_old_paths/4" [SLet 0 (XExpected (u "spec.channels.*.bindings.ws.query"));
  SAssert (CEq (XVar 0) (XVal (VList [VStr (u "Schema")])))];
t "validators/test_unified_references_validator.py::TestUnifiedReferencesValidatorParametrized.test_reference_type_mappings_resolve_old_paths/5" [SLet 0 (XExpected (u "spec.channels.*.bindings.ws.query.external_docs"));
  SAssert (CEq (XVar 0) (XVal (VList [VStr (u "ExternalDocumentation")])))];
t "validators/test_unified_references_validator.py::TestUnifiedReferencesValidatorParametrized.test_reference_type_mappings_resolve_old_paths/6" [SLet 0 (XExpected (u "spec.channels.*.external_docs"));
  SAssert (CEq (XVar 0) (XVal (VList [VStr (u "ExternalDocumentation")])))];
t "validators/test_unified_references_validator.py::TestUnifiedReferencesValidatorParametrized.test_reference_type_mappings_resolve_old_paths/7" [SLet 0 (XExpected (u "spec.channels.*.messages.*"));
  SAssert (CEq (XVar 0) (XVal (VList [VStr (u "Message")])))];
t "validators/test_unified_references_validator.py::TestUnifiedReferencesValidatorParametrized.test_reference_type_mappings_resolve_old_paths/8" [SLet 0 (XExpected (u "spec.channels.*.messages.*.bindings"));
  SAssert (CEq (XVar 0) (XVal (VList [VStr (u "MessageBindingsObject")])))];
t "validators/test_unified_references_validator.py::TestUnifiedReferencesValidatorParametrized.test_reference_type_mappings_resolve_old_paths/9" [SLet 0 (XExpected (u "spec.channels.*.messages.*.bindings.anypointmq.headers"));
  SAssert (CEq (XVar 0) (XVal (VList [VStr (u "Schema")])))];
t "validators/test_unified_references_validator.py::TestUnifiedReferencesValidatorParametrized.test_reference_type_mappings_resolve_old_paths/10" [SLet 0 (XExpected (u "spec.channels.*.messages.*.bindings.anypointmq.headers.external_docs"));
  SAssert (CEq (XVar 0) (XVal (VList [VStr (u "ExternalDocumentation")])))]].
Definition part3 : list (string * list stmt) := [
t "validators/test_unified_references_validator.py::TestUnifiedReferencesValidatorParametrized.test_reference_type_mappings_resolve_old_paths/11" [SLet 0 (XExpected (u "spec.channels.*.messages.*.bindings.http.headers"));
  SAssert (CEq (XVar 0) (XVal (VList [VStr (u "Schema")])))];
t "validators/test_unified_references_validator.py::TestUnifiedReferencesValidatorParametrized.test_reference_type_mappings_resolve_old_paths/12" [SLet 0 (XExpected (u "spec.channels.*.messages.*.bindings.http.headers.external_docs"));
  SAssert (CEq (XVar 0) (XVal (VList [VStr (u "ExternalDocumentation")])))];
t "validators/test_unified_references_validator.py::TestUnifiedReferencesValidatorParametrized.test_reference_type_mappings_resolve_old_paths/13" [SLet 0 (XExpected (u "spec.channels.*.messages.*.bindings.jms.headers"));
  SAssert (CEq (XVar 0) (XVal (VList [VStr (u "Schema")])))];
t "validators/test_unified_references_validator.py::TestUnifiedReferencesValidatorParametrized.test_reference_type_mappings_resolve_old_paths/14" [SLet 0 (XExpected (u "spec.channels.*.messages.*.bindings.jms.headers.external_docs"));
  SAssert (CEq (XVar 0) (XVal (VList [VStr (u "ExternalDocumentation")])))];
t "validators/test_unified_references_validator.py::TestUnifiedReferencesValidatorParametrized.test_reference_type_mappings_resolve_old_paths/15" [SLet 0 (XExpected (u "spec.channels.*.messages.*.bindings.kafka.key"));
  SAssert (CEq (XVar 0) (XVal (VList [VStr (u "Schema")])))];
t "validators/test_unified_references_validator.py::TestUnifiedReferencesValidatorParametrized.test_reference_type_mappings_resolve_old_paths/16" [SLet 0 (XExpected (u "spec.channels.*.messages.*.bindings.kafka.key.external_docs"));
  SAssert (CEq (XVar 0) (XVal (VList [VStr (u "ExternalDocumentation")])))];
t "validators/test_unified_references_validator.py::TestUnifiedReferencesValidatorParametrized.test_reference_type_mappings_resolve_old_paths/17" [SLet 0 (XExpected (u "spec.channels.*.messages.*.bindings.mqtt.correlation_data"));
  SAssert (CEq (XVar 0) (XVal (VList [VStr (u "Schema")])))];
t "validators/test_unified_references_validator.py::TestUnifiedReferencesValidatorParametrized.test_reference_type_mappings_resolve_old_paths/18" [SLet 0 (XExpected (u "spec.channels.*.messages.*.bindings.mqtt.correlation_data.external_docs"));
  SAssert (CEq (XVar 0) (XVal (VList [VStr (u "ExternalDocumentation")])))];
t "validators/test_unified_references_validator.py::TestUnifiedReferencesValidatorParametrized.test_reference_type_mappings_resolve_old_paths/19" [SLet 0 (XExpected (u "spec.channels.*.messages.*.bindings.mqtt.response_topic"));
  SAssert (CEq (XVar 0) (XVal (VList [VStr (u "Schema")])))];
t "validators/test_unified_references_validator.py::TestUnifiedReferencesValidatorParametrized.test_reference_type_mappings_resolve_old_paths/20" [SLet 0 (XExpected (u "spec.channels.*.messages.*.bindings.mqtt.response_topic.external_docs"));
  SAssert (CEq (XVar 0) (XVal (VList [VStr (u "ExternalDocumentation")])))];
t "validators/test_unified_references_validator.py::TestUnifiedReferencesValidatorParametrized.test_reference_type_mappings_resolve_old_paths/21" [SLet 0 (XExpected (u "spec.channels.*.messages.*.correlation_id"));
  SAssert (CEq (XVar 0) (XVal (VList [VStr (u "CorrelationID")])))];
t "validators/test_unified_references_validator.py::TestUnifiedReferencesValidatorParametrized.test_reference_type_mappings_resolve_old_paths/22" [SLet 0 (XExpected (u "spec.channels.*.messages.*.external_docs"));
  SAssert (CEq (XVar 0) (XVal (VList [VStr (u "ExternalDocumentation")])))];
t "validators/test_unified_references_validator.py::TestUnifiedReferencesValidatorParametrized.test_reference_type_mappings_resolve_old_paths/23" [SLet 0 (XExpected (u "spec.channels.*.messages.*.headers"));
  SAssert (CEq (XVar 0) (XVal (VList [VStr (u "MultiFormatSchema"); VStr (u "Schema")])))];
t "validators/test_unified_references_validator.py::TestUnifiedReferencesValidatorParametrized.test_reference_type_mappings_resolve_old_paths/24" [SLet 0 (XExpected (u "spec.channels.*.messages.*.headers.external_docs"));
  SAssert (CEq (XVar 0) (XVal (VList [VStr (u "ExternalDocumentation")])))];
t "validators/test_unified_references_validator.py::TestUnifiedReferencesValidatorParametrized.test_reference_type_mappings_resolve_old_paths/25" [SLet 0 (XExpected (u "spec.channels.*.messages.*.payload"));
  SAssert (CEq (XVar 0) (XVal (VList [VStr (u "MultiFormatSchema"); VStr (u "Schema")])))];
t "validators/test_unified_references_validator.py::TestUnifiedReferencesValidatorParametrized.test_reference_type_mappings_resolve_old_paths/26" [SLet 0 (XExpected (u "spec.channels.*.messages.*.payload.external_docs"));
  SAssert (CEq (XVar 0) (XVal (VList [VStr (u "ExternalDocumentation")])))];
t "validators/test_unified_references_validator.py::TestUnifiedReferencesValidatorParametrized.test_reference_type_mappings_resolve_old_paths/27" [SLet 0 (XExpected (u "spec.channels.*.messages.*.tags.*"));
  SAssert (CEq (XVar 0) (XVal (VList [VStr (u "Tag")])))];
t "validators/test_unified_references_validator.py::TestUnifiedReferencesValidatorParametrized.test_reference_type_mappings_resolve_old_paths/28" [SLet 0 (XExpected (u "spec.channels.*.messages.*.tags.*.external_docs"));
  SAssert (CEq (XVar 0) (XVal (VList [VStr (u "ExternalDocumentation")])))];
t "validators/test_unified_references_validator.py::TestUnifiedReferencesValidatorParametrized.test_reference_type_mappings_resolve_old_paths/29" [SLet 0 (XExpected (u "spec.channels.*.messages.*.traits.*"));
  SAssert (CEq (XVar 0) (XVal (VList [VStr (u "MessageTrait")])))];
t "validators/test_unified_references_validator.py::TestUnifiedReferencesValidatorParametrized.test_reference_type_mappings_resolve_old_paths/30" [SLet 0 (XExpected (u "spec.channels.*.messages.*.traits.*.bindings"));
  SAssert (CEq (XVar 0) (XVal (VList [VStr (u "MessageBindingsObject")])))];
t "validators/test_unified_references_validator.py::TestUnifiedReferencesValidatorParametrized.test_reference_type_mappings_resolve_old_paths/31" [SLet 0 (XExpected (u "spec.channels.*.messages.*.traits.*.bindings.anypointmq.headers"));
  SAssert (CEq (XVar 0) (XVal (VList [VStr (u "Schema")])))];
t "validators/test_unified_references_validator.py::TestUnifiedReferencesValidatorParametrized.test_reference_type_mappings_resolve_old_paths/32" [SLet 0 (XExpected (u "spec.channels.*.messages.*.traits.*.bindings.anypointmq.headers.external_docs"));
  SAssert (CEq (XVar 0) (XVal (VList [VStr (u "ExternalDocumentation")])))];
t "validators/test_unified_references_validator.py::TestUnifiedReferencesValidatorParametrized.test_reference_type_mappings_resolve_old_paths/33" [SLet 0 (XExpected (u "spec.channels.*.messages.*.traits.*.bindings.http.headers"));
  SAssert (CEq (XVar 0) (XVal (VList [VStr (u "Schema")])))];
t "validators/test_unified_references_validator.py::TestUnifiedReferencesValidatorParametrized.test_reference_type_mappings_resolve_old_paths/34" [SLet 0 (XExpected (u "spec.channels.*.messages.*.traits.*.bindings.http.headers.external_docs"));
  SAssert (CEq (XVar 0) (XVal (VList [VStr (u "ExternalDocumentation")])))];
t "validators/test_unified_references_validator.py::TestUnifiedReferencesValidatorParametrized.test_reference_type_mappings_resolve_old_paths/35" [SLet 0 (XExpected (u "spec.channels.*.messages.*.traits.*.bindings.jms.headers"));
  SAssert (CEq (XVar 0) (XVal (VList [VStr (u "Schema")])))];
t "validators/test_unified_references_validator.py::TestUnifiedReferencesValidatorParametrized.test_reference_type_mappings_resolve_old_paths/36" [SLet 0 (XExpected (u "spec.channels.*.messages.*.traits.*.bindings.jms.headers.external_docs"));
  SAssert (CEq (XVar 0) (XVal (VList [VStr (u "ExternalDocumentation")])))];
t "validators/test_unified_references_validator.py::TestUnifiedReferencesValidatorParametrized.test_reference_type_mappings_resolve_old_paths/37" [SLet 0 (XExpected (u "spec.channels.*.messages.*.traits.*.bindings.kafka.key"));
  SAssert (CEq (XVar 0) (XVal (VList [VStr (u "Schema")])))];
t "validators/test_unified_references_validator.py::TestUnifiedReferencesValidatorParametrized.test_reference_type_mappings_resolve_old_paths/38" [SLet 0 (XExpected (u "spec.channels.*.messages.*.traits.*.bindings.kafka.key.external_docs"));
  SAssert (CEq (XVar 0) (XVal (VList [VStr (u "ExternalDocumentation")])))];
t "validators/test_unified_references_validator.py::TestUnifiedReferencesValidatorParametrized.test_reference_type_mappings_resolve_old_paths/39" [SLet 0 (XExpected (u "spec.channels.*.messages.*.traits.*.bindings.mqtt.correlation_data"));
  SAssert (CEq (XVar 0) (XVal (VList [VStr (u "Schema")])))];
t "validators/test_unified_references_validator.py::TestUnifiedReferencesValidatorParametrized.test_reference_type_mappings_resolve_old_paths/40" [SLet 0 (XExpected (u "spec.channels.*.messages.*.traits.*.bindings.mqtt.correlation_data.external_docs"));
  SAssert (CEq (XVar 0) (XVal (VList [VStr (u "ExternalDocumentation")])))];
t "validators/test_unified_references_validator.py::TestUnifiedReferencesValidatorParametrized.test_reference_type_mappings_resolve_old_paths/41" [SLet 0 (XExpected (u "spec.channels.*.messages.*.traits.*.bindings.mqtt.response_topic"));
  SAssert (CEq (XVar 0) (XVal (VList [VStr (u "Schema")])))];
t "validators/test_unified_references_validator.py::TestUnifiedReferencesValidatorParametrized.test_reference_type_mappings_resolve_old_paths/42" [SLet 0 (XExpected (u "spec.channels.*.messages.*.traits.*.bindings.mqtt.response_topic.external_docs"));
  SAssert (CEq (XVar 0) (XVal (VList [VStr (u "ExternalDocumentation")])))];
t "validators/test_unified_references_validator.py::TestUnifiedReferencesValidatorParametrized.test_reference_type_mappings_resolve_old_paths/43" [SLet 0 (XExpected (u "spec.channels.*.messages.*.traits.*.correlation_id"));
  SAssert (CEq (XVar 0) (XVal (VList [VStr (u "CorrelationID")])))];
t "validators/test_unified_references_validator.py::TestUnifiedReferencesValidatorParametrized.test_reference_type_mappings_resolve_old_paths/44" [SLet 0 (XExpected (u "spec.channels.*.messages.*.traits.*.external_docs"));
  SAssert (CEq (XVar 0) (XVal (VList [VStr (u "ExternalDocumentation")])))];
t "validators/test_unified_references_validator.py::TestUnifiedReferencesValidatorParametrized.test_reference_type_mappings_resolve_old_paths/45" [SLet 0 (XExpected (u "spec.channels.*.messages.*.traits.*.headers"));
  SAssert (CEq (XVar 0) (XVal (VList [VStr (u "MultiFormatSchema"); VStr (u "Schema")])))];
t "validators/test_unified_references_validator.py::TestUnifiedReferencesValidatorParametrized.test_reference_type_mappings_resolve_old_paths/46" [SLet 0 (XExpected (u "spec.channels.*.messages.*.traits.*.headers.external_docs"));
  SAssert (CEq (XVar 0) (XVal (VList [VStr (u "ExternalDocumentation")])))];
t "validators/test_unified_references_validator.py::TestUnifiedReferencesValidatorParametrized.test_reference_type_mappings_resolve_old_paths/47" [SLet 0 (XExpected (u "spec.channels.*.messages.*.traits.*.tags.*"));
  SAssert (CEq (XVar 0) (XVal (VList [VStr (u "Tag")])))];
t "validators/test_unified_references_validator.py::TestUnifiedReferencesValidatorParametrized.test_reference_type_mappings_resolve_old_paths/48" [SLet 0 (XExpected (u "spec.channels.*.messages.*.traits.*.tags.*.external_docs"));
  SAssert (CEq (XVar 0) (XVal (VList [VStr (u "ExternalDocumentation")])))];
t "validators/test_unified_references_validator.py::TestUnifiedReferencesValidatorParametrized.test_reference_type_mappings_resolve_old_paths/49" [SLet 0 (XExpected (u "spec.channels.*.parameters.*"));
  SAssert (CEq (XVar 0) (XVal (VList [VStr (u "Parameter")])))];
t "validators/test_unified_references_validator.py::TestUnifiedReferencesValidatorParametrized.test_reference_type_mappings_resolve_old_paths/50" [SLet 0 (XExpected (u "spec.channels.*.servers.*"));
  SAssert (CEq (XVar 0) (XVal (VList [VStr (u "Server")])))]].
Definition part4 : list (string * list stmt) := [
t "validators/test_unified_references_validator.py::TestUnifiedReferencesValidatorParametrized.test_reference_type_mappings_resolve_old_paths/51" [SLet 0 (XExpected (u "spec.channels.*.tags.*"));
  SAssert (CEq (XVar 0) (XVal (VList [VStr (u "Tag")])))];
t "validators/test_unified_references_validator.py::TestUnifiedReferencesValidatorParametrized.test_reference_type_mappings_resolve_old_paths/52" [SLet 0 (XExpected (u "spec.channels.*.tags.*.external_docs"));
  SAssert (CEq (XVar 0) (XVal (VList [VStr (u "ExternalDocumentation")])))];
t "validators/test_unified_references_validator.py::TestUnifiedReferencesValidatorParametrized.test_reference_type_mappings_resolve_old_paths/53" [SLet 0 (XExpected (u "spec.components.channel_bindings.*"));
  SAssert (CEq (XVar 0) (XVal (VList [VStr (u "ChannelBindingsObject")])))];
t "validators/test_unified_references_validator.py::TestUnifiedReferencesValidatorParametrized.test_reference_type_mappings_resolve_old_paths/54" [SLet 0 (XExpected (u "spec.components.channel_bindings.*.ws.headers"));
  SAssert (CEq (XVar 0) (XVal (VList [VStr (u "Schema")])))];
t "validators/test_unified_references_validator.py::TestUnifiedReferencesValidatorParametrized.test_reference_type_mappings_resolve_old_paths/55" [SLet 0 (XExpected (u "spec.components.channel_bindings.*.ws.headers.external_docs"));
  SAssert (CEq (XVar 0) (XVal (VList [VStr (u "ExternalDocumentation")])))];
t "validators/test_unified_references_validator.py::TestUnifiedReferencesValidatorParametrized.test_reference_type_mappings_resolve_old_paths/56" [SLet 0 (XExpected (u "spec.components.channel_bindings.*.ws.query"));
  SAssert (CEq (XVar 0) (XVal (VList [VStr (u "Schema")])))];
t "validators/test_unified_references_validator.py::TestUnifiedReferencesValidatorParametrized.test_reference_type_mappings_resolve_old_paths/57" [SLet 0 (XExpected (u "spec.components.channel_bindings.*.ws.query.external_docs"));
  SAssert (CEq (XVar 0) (XVal (VList [VStr (u "ExternalDocumentation")])))];
t "validators/test_unified_references_validator.py::TestUnifiedReferencesValidatorParametrized.test_reference_type_mappings_resolve_old_paths/58" [SLet 0 (XExpected (u "spec.components.channels.*"));
  SAssert (CEq (XVar 0) (XVal (VList [VStr (u "Channel")])))];
t "validators/test_unified_references_validator.py::TestUnifiedReferencesValidatorParametrized.test_reference_type_mappings_resolve_old_paths/59" [SLet 0 (XExpected (u "spec.components.channels.*.bindings"));
  SAssert (CEq (XVar 0) (XVal (VList [VStr (u "ChannelBindingsObject")])))];
t "validators/test_unified_references_validator.py::TestUnifiedReferencesValidatorParametrized.test_reference_type_mappings_resolve_old_paths/60" [SLet 0 (XExpected (u "spec.components.channels.*.bindings.ws.headers"));
  SAssert (CEq (XVar 0) (XVal (VList [VStr (u "Schema")])))];
t "validators/test_unified_references_validator.py::TestUnifiedReferencesValidatorParametrized.test_reference_type_mappings_resolve_old_paths/61" [SLet 0 (XExpected (u "spec.components.channels.*.bindings.ws.headers.external_docs"));
  SAssert (CEq (XVar 0) (XVal (VList [VStr (u "ExternalDocumentation")])))];
t "validators/test_unified_references_validator.py::TestUnifiedReferencesValidatorParametrized.test_reference_type_mappings_resolve_old_paths/62" [SLet 0 (XExpected (u "spec.components.channels.*.bindings.ws.query"));
  SAssert (CEq (XVar 0) (XVal (VList [VStr (u "Schema")])))];
t "validators/test_unified_references_validator.py::TestUnifiedReferencesValidatorParametrized.test_reference_type_mappings_resolve_old_paths/63" [SLet 0 (XExpected (u "spec.components.channels.*.bindings.ws.query.external_docs"));
  SAssert (CEq (XVar 0) (XVal (VList [VStr (u "ExternalDocumentation")])))];
t "validators/test_unified_references_validator.py::TestUnifiedReferencesValidatorParametrized.test_reference_type_mappings_resolve_old_paths/64" [SLet 0 (XExpected (u "spec.components.channels.*.external_docs"));
  SAssert (CEq (XVar 0) (XVal (VList [VStr (u "ExternalDocumentation")])))];
t "validators/test_unified_references_validator.py::TestUnifiedReferencesValidatorParametrized.test_reference_type_mappings_resolve_old_paths/65" [SLet 0 (XExpected (u "spec.components.channels.*.messages.*"));
  SAssert (CEq (XVar 0) (XVal (VList [VStr (u "Message")])))];
t "validators/test_unified_references_validator.py::TestUnifiedReferencesValidatorParametrized.test_reference_type_mappings_resolve_old_paths/66" [SLet 0 (XExpected (u "spec.components.channels.*.messages.*.bindings"));
  SAssert (CEq (XVar 0) (XVal (VList [VStr (u "MessageBindingsObject")])))];
t "validators/test_unified_references_validator.py::TestUnifiedReferencesValidatorParametrized.test_reference_type_mappings_resolve_old_paths/67" [SLet 0 (XExpected (u "spec.components.channels.*.messages.*.bindings.anypointmq.headers"));
  SAssert (CEq (XVar 0) (XVal (VList [VStr (u "Schema")])))];
t "validators/test_unified_references_validator.py::TestUnifiedReferencesValidatorParametrized.test_reference_type_mappings_resolve_old_paths/68" [SLet 0 (XExpected (u "spec.components.channels.*.messages.*.bindings.anypointmq.headers.external_docs"));
  SAssert (CEq (XVar 0) (XVal (VList [VStr (u "ExternalDocumentation")])))];
t "validators/test_unified_references_validator.py::TestUnifiedReferencesValidatorParametrized.test_reference_type_mappings_resolve_old_paths/69" [SLet 0 (XExpected (u "spec.components.channels.*.messages.*.bindings.http.headers"));
  SAssert (CEq (XVar 0) (XVal (VList [VStr (u "Schema")])))];
t "validators/test_unified_references_validator.py::TestUnifiedReferencesValidatorParametrized.test_reference_type_mappings_resolve_old_paths/70" [SLet 0 (XExpected (u "spec.components.channels.*.messages.*.bindings.http.headers.external_docs"));
  SAssert (CEq (XVar 0) (XVal (VList [VStr (u "ExternalDocumentation")])))];
t "validators/test_unified_references_validator.py::TestUnifiedReferencesValidatorParametrized.test_reference_type_mappings_resolve_old_paths/71" [SLet 0 (XExpected (u "spec.components.channels.*.messages.*.bindings.jms.headers"));
  SAssert (CEq (XVar 0) (XVal (VList [VStr (u "Schema")])))];
t "validators/test_unified_references_validator.py::TestUnifiedReferencesValidatorParametrized.test_reference_type_mappings_resolve_old_paths/72" [SLet 0 (XExpected (u "spec.components.channels.*.messages.*.bindings.jms.headers.external_docs"));
  SAssert (CEq (XVar 0) (XVal (VList [VStr (u "ExternalDocumentation")])))];
t "validators/test_unified_references_validator.py::TestUnifiedReferencesValidatorParametrized.test_reference_type_mappings_resolve_old_paths/73" [SLet 0 (XExpected (u "spec.components.channels.*.messages.*.bindings.kafka.key"));
  SAssert (CEq (XVar 0) (XVal (VList [VStr (u "Schema")])))];
t "validators/test_unified_references_validator.py::TestUnifiedReferencesValidatorParametrized.test_reference_type_mappings_resolve_old_paths/74" [SLet 0 (XExpected (u "spec.components.channels.*.messages.*.bindings.kafka.key.external_docs"));
  SAssert (CEq (XVar 0) (XVal (VList [VStr (u "ExternalDocumentation")])))];
t "validators/test_unified_references_validator.py::TestUnifiedReferencesValidatorParametrized.test_reference_type_mappings_resolve_old_paths/75" [SLet 0 (XExpected (u "spec.components.channels.*.messages.*.bindings.mqtt.correlation_data"));
  SAssert (CEq (XVar 0) (XVal (VList [VStr (u "Schema")])))];
t "validators/test_unified_references_validator.py::TestUnifiedReferencesValidatorParametrized.test_reference_type_mappings_resolve_old_paths/76" [SLet 0 (XExpected (u "spec.components.channels.*.messages.*.bindings.mqtt.correlation_data.external_docs"));
  SAssert (CEq (XVar 0) (XVal (VList [VStr (u "ExternalDocumentation")])))];
t "validators/test_unified_references_validator.py::TestUnifiedReferencesValidatorParametrized.test_reference_type_mappings_resolve_old_paths/77" [SLet 0 (XExpected (u "spec.components.channels.*.messages.*.bindings.mqtt.response_topic"));
  SAssert (CEq (XVar 0) (XVal (VList [VStr (u "Schema")])))];
t "validators/test_unified_references_validator.py::TestUnifiedReferencesValidatorParametrized.test_reference_type_mappings_resolve_old_paths/78" [SLet 0 (XExpected (u "spec.components.channels.*.messages.*.bindings.mqtt.response_topic.external_docs"));
  SAssert (CEq (XVar 0) (XVal (VList [VStr (u "ExternalDocumentation")])))];
t "validators/test_unified_references_validator.py::TestUnifiedReferencesValidatorParametrized.test_reference_type_mappings_resolve_old_paths/79" [SLet 0 (XExpected (u "spec.components.channels.*.messages.*.correlation_id"));
  SAssert (CEq (XVar 0) (XVal (VList [VStr (u "CorrelationID")])))];
t "validators/test_unified_references_validator.py::TestUnifiedReferencesValidatorParametrized.test_reference_type_mappings_resolve_old_paths/80" [SLet 0 (XExpected (u "spec.components.channels.*.messages.*.external_docs"));
  SAssert (CEq (XVar 0) (XVal (VList [VStr (u "ExternalDocumentation")])))];
t "validators/test_unified_references_validator.py::TestUnifiedReferencesValidatorParametrized.test_reference_type_mappings_resolve_old_paths/81" [SLet 0 (XExpected (u "spec.components.channels.*.messages.*.headers"));
  SAssert (CEq (XVar 0) (XVal (VList [VStr (u "MultiFormatSchema"); VStr (u "Schema")])))];
t "validators/test_unified_references_validator.py::TestUnifiedReferencesValidatorParametrized.test_reference_type_mappings_resolve_old_paths/82" [SLet 0 (XExpected (u "spec.components.channels.*.messages.*.headers.external_docs"));
  SAssert (CEq (XVar 0) (XVal (VList [VStr (u "ExternalDocumentation")])))];
t "validators/test_unified_references_validator.py::TestUnifiedReferencesValidatorParametrized.test_reference_type_mappings_resolve_old_paths/83" [SLet 0 (XExpected (u "spec.components.channels.*.messages.*.payload"));
  SAssert (CEq (XVar 0) (XVal (VList [VStr (u "MultiFormatSchema"); VStr (u "Schema")])))];
t "validators/test_unified_references_validator.py::TestUnifiedReferencesValidatorParametrized.test_reference_type_mappings_resolve_old_paths/84" [SLet 0 (XExpected (u "spec.components.channels.*.messages.*.payload.external_docs"));
  SAssert (CEq (XVar 0) (XVal (VList [VStr (u "ExternalDocumentation")])))];
t "validators/test_unified_references_validator.py::TestUnifiedReferencesValidatorParametrized.test_reference_type_mappings_resolve_old_paths/85" [SLet 0 (XExpected (u "spec.components.channels.*.messages.*.tags.*"));
  SAssert (CEq (XVar 0) (XVal (VList [VStr (u "Tag")])))];
t "validators/test_unified_references_validator.py::TestUnifiedReferencesValidatorParametrized.test_reference_type_mappings_resolve_old_paths/86" [SLet 0 (XExpected (u "spec.components.channels.*.messages.*.tags.*.external_docs"));
  SAssert (CEq (XVar 0) (XVal (VList [VStr (u "ExternalDocumentation")])))];
t "validators/test_unified_references_validator.py::TestUnifiedReferencesValidatorParametrized.test_reference_type_mappings_resolve_old_paths/87" [SLet 0 (XExpected (u "spec.components.channels.*.messages.*.traits.*"));
  SAssert (CEq (XVar 0) (XVal (VList [VStr (u "MessageTrait")])))];
t "validators/test_unified_references_validator.py::TestUnifiedReferencesValidatorParametrized.test_reference_type_mappings_resolve_old_paths/88" [SLet 0 (XExpected (u "spec.components.channels.*.messages.*.traits.*.bindings"));
  SAssert (CEq (XVar 0) (XVal (VList [VStr (u "MessageBindingsObject")])))];
t "validators/test_unified_references_validator.py::TestUnifiedReferencesValidatorParametrized.test_reference_type_mappings_resolve_old_paths/89" [SLet 0 (XExpected (u "spec.components.channels.*.messages.*.traits.*.bindings.anypointmq.headers"));
  SAssert (CEq (XVar 0) (XVal (VList [VStr (u "Schema")])))];
t "validators/test_unified_references_validator.py::TestUnifiedReferencesValidatorParametrized.test_reference_type_mappings_resolve_old_paths/90" [SLet 0 (XExpected (u "spec.components.channels.*.messages.*.traits.*.bindings.anypointmq.headers.external_docs"));
  SAssert (CEq (XVar 0) (XVal (VList [VStr (u "ExternalDocumentation")])))]].
Definition part5 : list (string * list stmt) := [
t "validators/test_unified_references_validator.py::TestUnifiedReferencesValidatorParametrized.test_reference_type_mappings_resolve_old_paths/91" [SLet 0 (XExpected (u "spec.components.channels.*.messages.*.traits.*.bindings.http.headers"));
  SAssert (CEq (XVar 0) (XVal (VList [VStr (u "Schema")])))];
t "validators/test_unified_references_validator.py::TestUnifiedReferencesValidatorParametrized.test_reference_type_mappings_resolve_old_paths/92" [SLet 0 (XExpected (u "spec.components.channels.*.messages.*.traits.*.bindings.http.headers.external_docs"));
  SAssert (CEq (XVar 0) (XVal (VList [VStr (u "ExternalDocumentation")])))];
t "validators/test_unified_references_validator.py::TestUnifiedReferencesValidatorParametrized.test_reference_type_mappings_resolve_old_paths/93" [SLet 0 (XExpected (u "spec.components.channels.*.messages.*.traits.*.bindings.jms.headers"));
  SAssert (CEq (XVar 0) (XVal (VList [VStr (u "Schema")])))];
t "validators/test_unified_references_validator.py::TestUnifiedReferencesValidatorParametrized.test_reference_type_mappings_resolve_old_paths/94" [SLet 0 (XExpected (u "spec.components.channels.*.messages.*.traits.*.bindings.jms.headers.external_docs"));
  SAssert (CEq (XVar 0) (XVal (VList [VStr (u "ExternalDocumentation")])))];
t "validators/test_unified_references_validator.py::TestUnifiedReferencesValidatorParametrized.test_reference_type_mappings_resolve_old_paths/95" [SLet 0 (XExpected (u "spec.components.channels.*.messages.*.traits.*.bindings.kafka.key"));
  SAssert (CEq (XVar 0) (XVal (VList [VStr (u "Schema")])))];
t "validators/test_unified_references_validator.py::TestUnifiedReferencesValidatorParametrized.test_reference_type_mappings_resolve_old_paths/96" [SLet 0 (XExpected (u "spec.components.channels.*.messages.*.traits.*.bindings.kafka.key.external_docs"));
  SAssert (CEq (XVar 0) (XVal (VList [VStr (u "ExternalDocumentation")])))];
t "validators/test_unified_references_validator.py::TestUnifiedReferencesValidatorParametrized.test_reference_type_mappings_resolve_old_paths/97" [SLet 0 (XExpected (u "spec.components.channels.*.messages.*.traits.*.bindings.mqtt.correlation_data"));
  SAssert (CEq (XVar 0) (XVal (VList [VStr (u "Schema")])))];
t "validators/test_unified_references_validator.py::TestUnifiedReferencesValidatorParametrized.test_reference_type_mappings_resolve_old_paths/98" [SLet 0 (XExpected (u "spec.components.channels.*.messages.*.traits.*.bindings.mqtt.correlation_data.external_docs"));
  SAssert (CEq (XVar 0) (XVal (VList [VStr (u "ExternalDocumentation")])))];
t "validators/test_unified_references_validator.py::TestUnifiedReferencesValidatorParametrized.test_reference_type_mappings_resolve_old_paths/99" [SLet 0 (XExpected (u "spec.components.channels.*.messages.*.traits.*.bindings.mqtt.response_topic"));
  SAssert (CEq (XVar 0) (XVal (VList [VStr (u "Schema")])))];
t "validators/test_unified_references_validator.py::TestUnifiedReferencesValidatorParametrized.test_reference_type_mappings_resolve_old_paths/100" [SLet 0 (XExpected (u "spec.components.channels.*.messages.*.traits.*.bindings.mqtt.response_topic.external_docs"));
  SAssert (CEq (XVar 0) (XVal (VList [VStr (u "ExternalDocumentation")])))];
t "validators/test_unified_references_validator.py::TestUnifiedReferencesValidatorParametrized.test_reference_type_mappings_resolve_old_paths/101" [SLet 0 (XExpected (u "spec.components.channels.*.messages.*.traits.*.correlation_id"));
  SAssert (CEq (XVar 0) (XVal (VList [VStr (u "CorrelationID")])))];
t "validators/test_unified_references_validator.py::TestUnifiedReferencesValidatorParametrized.test_reference_type_mappings_resolve_old_paths/102" [SLet 0 (XExpected (u "spec.components.channels.*.messages.*.traits.*.external_docs"));
  SAssert (CEq (XVar 0) (XVal (VList [VStr (u "ExternalDocumentation")])))];
t "validators/test_unified_references_validator.py::TestUnifiedReferencesValidatorParametrized.test_reference_type_mappings_resolve_old_paths/103" [SLet 0 (XExpected (u "spec.components.channels.*.messages.*.traits.*.headers"));
  SAssert (CEq (XVar 0) (XVal (VList [VStr (u "MultiFormatSchema"); VStr (u "Schema")])))];
t "validators/test_unified_references_validator.py::TestUnifiedReferencesValidatorParametrized.test_reference_type_mappings_resolve_old_paths/104" [SLet 0 (XExpected (u "spec.components.channels.*.messages.*.traits.*.headers.external_docs"));
  SAssert (CEq (XVar 0) (XVal (VList [VStr (u "ExternalDocumentation")])))];
t "validators/test_unified_references_validator.py::TestUnifiedReferencesValidatorParametrized.test_reference_type_mappings_resolve_old_paths/105" [SLet 0 (XExpected (u "spec.components.channels.*.messages.*.traits.*.tags.*"));
  SAssert (CEq (XVar 0) (XVal (VList [VStr (u "Tag")])))];
t "validators/test_unified_references_validator.py::TestUnifiedReferencesValidatorParametrized.test_reference_type_mappings_resolve_old_paths/106" [SLet 0 (XExpected (u "spec.components.channels.*.messages.*.traits.*.tags.*.external_docs"));
  SAssert (CEq (XVar 0) (XVal (VList [VStr (u "ExternalDocumentation")])))];
t "validators/test_unified_references_validator.py::TestUnifiedReferencesValidatorParametrized.test_reference_type_mappings_resolve_old_paths/107" [SLet 0 (XExpected (u "spec.components.channels.*.parameters.*"));
  SAssert (CEq (XVar 0) (XVal (VList [VStr (u "Parameter")])))];
t "validators/test_unified_references_validator.py::TestUnifiedReferencesValidatorParametrized.test_reference_type_mappings_resolve_old_paths/108" [SLet 0 (XExpected (u "spec.components.channels.*.servers.*"));
  SAssert (CEq (XVar 0) (XVal (VList [VStr (u "Server")])))];
t "validators/test_unified_references_validator.py::TestUnifiedReferencesValidatorParametrized.test_reference_type_mappings_resolve_old_paths/109" [SLet 0 (XExpected (u "spec.components.channels.*.tags.*"));
  SAssert (CEq (XVar 0) (XVal (VList [VStr (u "Tag")])))];
t "validators/test_unified_references_validator.py::TestUnifiedReferencesValidatorParametrized.test_reference_type_mappings_resolve_old_paths/110" [SLet 0 (XExpected (u "spec.components.channels.*.tags.*.external_docs"));
  SAssert (CEq (XVar 0) (XVal (VList [VStr (u "ExternalDocumentation")])))];
t "validators/test_unified_references_validator.py::TestUnifiedReferencesValidatorParametrized.test_reference_type_mappings_resolve_old_paths/111" [SLet 0 (XExpected (u "spec.components.correlation_ids.*"));
  SAssert (CEq (XVar 0) (XVal (VList [VStr (u "CorrelationID")])))];
t "validators/test_unified_references_validator.py::TestUnifiedReferencesValidatorParametrized.test_reference_type_mappings_resolve_old_paths/112" [SLet 0 (XExpected (u "spec.components.external_docs.*"));
  SAssert (CEq (XVar 0) (XVal (VList [VStr (u "ExternalDocumentation")])))];
t "validators/test_unified_references_validator.py::TestUnifiedReferencesValidatorParametrized.test_reference_type_mappings_resolve_old_paths/113" [SLet 0 (XExpected (u "spec.components.message_bindings.*"));
  SAssert (CEq (XVar 0) (XVal (VList [VStr (u "MessageBindingsObject")])))];
t "validators/test_unified_references_validator.py::TestUnifiedReferencesValidatorParametrized.test_reference_type_mappings_resolve_old_paths/114" [SLet 0 (XExpected (u "spec.components.message_bindings.*.anypointmq.headers"));
  SAssert (CEq (XVar 0) (XVal (VList [VStr (u "Schema")])))];
t "validators/test_unified_references_validator.py::TestUnifiedReferencesValidatorParametrized.test_reference_type_mappings_resolve_old_paths/115" [SLet 0 (XExpected (u "spec.components.message_bindings.*.anypointmq.headers.external_docs"));
  SAssert (CEq (XVar 0) (XVal (VList [VStr (u "ExternalDocumentation")])))];
t "validators/test_unified_references_validator.py::TestUnifiedReferencesValidatorParametrized.test_reference_type_mappings_resolve_old_paths/116" [SLet 0 (XExpected (u "spec.components.message_bindings.*.http.headers"));
  SAssert (CEq (XVar 0) (XVal (VList [VStr (u "Schema")])))];
t "validators/test_unified_references_validator.py::TestUnifiedReferencesValidatorParametrized.test_reference_type_mappings_resolve_old_paths/117" [SLet 0 (XExpected (u "spec.components.message_bindings.*.http.headers.external_docs"));
  SAssert (CEq (XVar 0) (XVal (VList [VStr (u "ExternalDocumentation")])))];
t "validators/test_unified_references_validator.py::TestUnifiedReferencesValidatorParametrized.test_reference_type_mappings_resolve_old_paths/118" [SLet 0 (XExpected (u "spec.components.message_bindings.*.jms.headers"));
  SAssert (CEq (XVar 0) (XVal (VList [VStr (u "Schema")])))];
t "validators/test_unified_references_validator.py::TestUnifiedReferencesValidatorParametrized.test_reference_type_mappings_resolve_old_paths/119" [SLet 0 (XExpected (u "spec.components.message_bindings.*.jms.headers.external_docs"));
  SAssert (CEq (XVar 0) (XVal (VList [VStr (u "ExternalDocumentation")])))];
t "validators/test_unified_references_validator.py::TestUnifiedReferencesValidatorParametrized.test_reference_type_mappings_resolve_old_paths/120" [SLet 0 (XExpected (u "spec.components.message_bindings.*.kafka.key"));
  SAssert (CEq (XVar 0) (XVal (VList [VStr (u "Schema")])))];
t "validators/test_unified_references_validator.py::TestUnifiedReferencesValidatorParametrized.test_reference_type_mappings_resolve_old_paths/121" [SLet 0 (XExpected (u "spec.components.message_bindings.*.kafka.key.external_docs"));
  SAssert (CEq (XVar 0) (XVal (VList [VStr (u "ExternalDocumentation")])))];
t "validators/test_unified_references_validator.py::TestUnifiedReferencesValidatorParametrized.test_reference_type_mappings_resolve_old_paths/122" [SLet 0 (XExpected (u "spec.components.message_bindings.*.mqtt.correlation_data"));
  SAssert (CEq (XVar 0) (XVal (VList [VStr (u "Schema")])))];
t "validators/test_unified_references_validator.py::TestUnifiedReferencesValidatorParametrized.test_reference_type_mappings_resolve_old_paths/123" [SLet 0 (XExpected (u "spec.components.message_bindings.*.mqtt.correlation_data.external_docs"));
  SAssert (CEq (XVar 0) (XVal (VList [VStr (u "ExternalDocumentation")])))];
t "validators/test_unified_references_validator.py::TestUnifiedReferencesValidatorParametrized.test_reference_type_mappings_resolve_old_paths/124" [SLet 0 (XExpected (u "spec.components.message_bindings.*.mqtt.response_topic"));
  SAssert (CEq (XVar 0) (XVal (VList [VStr (u "Schema")])))];
t "validators/test_unified_references_validator.py::TestUnifiedReferencesValidatorParametrized.test_reference_type_mappings_resolve_old_paths/125" [SLet 0 (XExpected (u "spec.components.message_bindings.*.mqtt.response_topic.external_docs"));
  SAssert (CEq (XVar 0) (XVal (VList [VStr (u "ExternalDocumentation")])))];
t "validators/test_unified_references_validator.py::TestUnifiedReferencesValidatorParametrized.test_reference_type_mappings_resolve_old_paths/126" [SLet 0 (XExpected (u "spec.components.message_traits.*"));
  SAssert (CEq (XVar 0) (XVal (VList [VStr (u "MessageTrait")])))];
t "validators/test_unified_references_validator.py::TestUnifiedReferencesValidatorParametrized.test_reference_type_mappings_resolve_old_paths/127" [SLet 0 (XExpected (u "spec.components.message_traits.*.bindings"));
  SAssert (CEq (XVar 0) (XVal (VList [VStr (u "MessageBindingsObject")])))];
t "validators/test_unified_references_validator.py::TestUnifiedReferencesValidatorParametrized.test_reference_type_mappings_resolve_old_paths/128" [SLet 0 (XExpected (u "spec.components.message_traits.*.bindings.anypointmq.headers"));
  SAssert (CEq (XVar 0) (XVal (VList [VStr (u "Schema")])))];
t "validators/test_unified_references_validator.py::TestUnifiedReferencesValidatorParametrized.test_reference_type_mappings_resolve_old_paths/129" [SLet 0 (XExpected (u "spec.components.message_traits.*.bindings.anypointmq.headers.external_docs"));
  SAssert (CEq (XVar 0) (XVal (VList [VStr (u "ExternalDocumentation")])))];
t "validators/test_unified_references_validator.py::TestUnifiedReferencesValidatorParametrized.test_reference_type_mappings_resolve_old_paths/130" [SLet 0 (XExpected (u "spec.components.message_traits.*.bindings.http.headers"));
  SAssert (CEq (XVar 0) (XVal (VList [VStr (u "Schema")])))]].
Definition part6 : list (string * list stmt) := [
t "validators/test_unified_references_validator.py::TestUnifiedReferencesValidatorParametrized.test_reference_type_mappings_resolve_old_paths/131" [SLet 0 (XExpected (u "spec.components.message_traits.*.bindings.http.headers.external_docs"));
  SAssert (CEq (XVar 0) (XVal (VList [VStr (u "ExternalDocumentation")])))];
t "validators/test_unified_references_validator.py::TestUnifiedReferencesValidatorParametrized.test_reference_type_mappings_resolve_old_paths/132" [SLet 0 (XExpected (u "spec.components.message_traits.*.bindings.jms.headers"));
  SAssert (CEq (XVar 0) (XVal (VList [VStr (u "Schema")])))];
t "validators/test_unified_references_validator.py::TestUnifiedReferencesValidatorParametrized.test_reference_type_mappings_resolve_old_paths/133" [SLet 0 (XExpected (u "spec.components.message_traits.*.bindings.jms.headers.external_docs"));
  SAssert (CEq (XVar 0) (XVal (VList [VStr (u "ExternalDocumentation")])))];
t "validators/test_unified_references_validator.py::TestUnifiedReferencesValidatorParametrized.test_reference_type_mappings_resolve_old_paths/134" [SLet 0 (XExpected (u "spec.components.message_traits.*.bindings.kafka.key"));
  SAssert (CEq (XVar 0) (XVal (VList [VStr (u "Schema")])))];
t "validators/test_unified_references_validator.py::TestUnifiedReferencesValidatorParametrized.test_reference_type_mappings_resolve_old_paths/135" [SLet 0 (XExpected (u "spec.components.message_traits.*.bindings.kafka.key.external_docs"));
  SAssert (CEq (XVar 0) (XVal (VList [VStr (u "ExternalDocumentation")])))];
t "validators/test_unified_references_validator.py::TestUnifiedReferencesValidatorParametrized.test_reference_type_mappings_resolve_old_paths/136" [SLet 0 (XExpected (u "spec.components.message_traits.*.bindings.mqtt.correlation_data"));
  SAssert (CEq (XVar 0) (XVal (VList [VStr (u "Schema")])))];
t "validators/test_unified_references_validator.py::TestUnifiedReferencesValidatorParametrized.test_reference_type_mappings_resolve_old_paths/137" [SLet 0 (XExpected (u "spec.components.message_traits.*.bindings.mqtt.correlation_data.external_docs"));
  SAssert (CEq (XVar 0) (XVal (VList [VStr (u "ExternalDocumentation")])))];
t "validators/test_unified_references_validator.py::TestUnifiedReferencesValidatorParametrized.test_reference_type_mappings_resolve_old_paths/138" [SLet 0 (XExpected (u "spec.components.message_traits.*.bindings.mqtt.response_topic"));
  SAssert (CEq (XVar 0) (XVal (VList [VStr (u "Schema")])))];
t "validators/test_unified_references_validator.py::TestUnifiedReferencesValidatorParametrized.test_reference_type_mappings_resolve_old_paths/139" [SLet 0 (XExpected (u "spec.components.message_traits.*.bindings.mqtt.response_topic.external_docs"));
  SAssert (CEq (XVar 0) (XVal (VList [VStr (u "ExternalDocumentation")])))];
t "validators/test_unified_references_validator.py::TestUnifiedReferencesValidatorParametrized.test_reference_type_mappings_resolve_old_paths/140" [SLet 0 (XExpected (u "spec.components.message_traits.*.correlation_id"));
  SAssert (CEq (XVar 0) (XVal (VList [VStr (u "CorrelationID")])))];
t "validators/test_unified_references_validator.py::TestUnifiedReferencesValidatorParametrized.test_reference_type_mappings_resolve_old_paths/141" [SLet 0 (XExpected (u "spec.components.message_traits.*.external_docs"));
  SAssert (CEq (XVar 0) (XVal (VList [VStr (u "ExternalDocumentation")])))];
t "validators/test_unified_references_validator.py::TestUnifiedReferencesValidatorParametrized.test_reference_type_mappings_resolve_old_paths/142" [SLet 0 (XExpected (u "spec.components.message_traits.*.headers"));
  SAssert (CEq (XVar 0) (XVal (VList [VStr (u "MultiFormatSchema"); VStr (u "Schema")])))];
t "validators/test_unified_references_validator.py::TestUnifiedReferencesValidatorParametrized.test_reference_type_mappings_resolve_old_paths/143" [SLet 0 (XExpected (u "spec.components.message_traits.*.headers.external_docs"));
  SAssert (CEq (XVar 0) (XVal (VList [VStr (u "ExternalDocumentation")])))];
t "validators/test_unified_references_validator.py::TestUnifiedReferencesValidatorParametrized.test_reference_type_mappings_resolve_old_paths/144" [SLet 0 (XExpected (u "spec.components.message_traits.*.tags.*"));
  SAssert (CEq (XVar 0) (XVal (VList [VStr (u "Tag")])))];
t "validators/test_unified_references_validator.py::TestUnifiedReferencesValidatorParametrized.test_reference_type_mappings_resolve_old_paths/145" [SLet 0 (XExpected (u "spec.components.message_traits.*.tags.*.external_docs"));
  SAssert (CEq (XVar 0) (XVal (VList [VStr (u "ExternalDocumentation")])))];
t "validators/test_unified_references_validator.py::TestUnifiedReferencesValidatorParametrized.test_reference_type_mappings_resolve_old_paths/146" [SLet 0 (XExpected (u "spec.components.messages.*"));
  SAssert (CEq (XVar 0) (XVal (VList [VStr (u "Message")])))];
t "validators/test_unified_references_validator.py::TestUnifiedReferencesValidatorParametrized.test_reference_type_mappings_resolve_old_paths/147" [SLet 0 (XExpected (u "spec.components.messages.*.bindings"));
  SAssert (CEq (XVar 0) (XVal (VList [VStr (u "MessageBindingsObject")])))];
t "validators/test_unified_references_validator.py::TestUnifiedReferencesValidatorParametrized.test_reference_type_mappings_resolve_old_paths/148" [SLet 0 (XExpected (u "spec.components.messages.*.bindings.anypointmq.headers"));
  SAssert (CEq (XVar 0) (XVal (VList [VStr (u "Schema")])))];
t "validators/test_unified_references_validator.py::TestUnifiedReferencesValidatorParametrized.test_reference_type_mappings_resolve_old_paths/149" [SLet 0 (XExpected (u "spec.components.messages.*.bindings.anypointmq.headers.external_docs"));
  SAssert (CEq (XVar 0) (XVal (VList [VStr (u "ExternalDocumentation")])))];
t "validators/test_unified_references_validator.py::TestUnifiedReferencesValidatorParametrized.test_reference_type_mappings_resolve_old_paths/150" [SLet 0 (XExpected (u "spec.components.messages.*.bindings.http.headers"));
  SAssert (CEq (XVar 0) (XVal (VList [VStr (u "Schema")])))];
t "validators/test_unified_references_validator.py::TestUnifiedReferencesValidatorParametrized.test_reference_type_mappings_resolve_old_paths/151" [SLet 0 (XExpected (u "spec.components.messages.*.bindings.http.headers.external_docs"));
  SAssert (CEq (XVar 0) (XVal (VList [VStr (u "ExternalDocumentation")])))];
t "validators/test_unified_references_validator.py::TestUnifiedReferencesValidatorParametrized.test_reference_type_mappings_resolve_old_paths/152" [SLet 0 (XExpected (u "spec.components.messages.*.bindings.jms.headers"));
  SAssert (CEq (XVar 0) (XVal (VList [VStr (u "Schema")])))];
t "validators/test_unified_references_validator.py::TestUnifiedReferencesValidatorParametrized.test_reference_type_mappings_resolve_old_paths/153" [SLet 0 (XExpected (u "spec.components.messages.*.bindings.jms.headers.external_docs"));
  SAssert (CEq (XVar 0) (XVal (VList [VStr (u "ExternalDocumentation")])))];
t "validators/test_unified_references_validator.py::TestUnifiedReferencesValidatorParametrized.test_reference_type_mappings_resolve_old_paths/154" [SLet 0 (XExpected (u "spec.components.messages.*.bindings.kafka.key"));
  SAssert (CEq (XVar 0) (XVal (VList [VStr (u "Schema")])))];
t "validators/test_unified_references_validator.py::TestUnifiedReferencesValidatorParametrized.test_reference_type_mappings_resolve_old_paths/155" [SLet 0 (XExpected (u "spec.components.messages.*.bindings.kafka.key.external_docs"));
  SAssert (CEq (XVar 0) (XVal (VList [VStr (u "ExternalDocumentation")])))];
t "validators/test_unified_references_validator.py::TestUnifiedReferencesValidatorParametrized.test_reference_type_mappings_resolve_old_paths/156" [SLet 0 (XExpected (u "spec.components.messages.*.bindings.mqtt.correlation_data"));
  SAssert (CEq (XVar 0) (XVal (VList [VStr (u "Schema")])))];
t "validators/test_unified_references_validator.py::TestUnifiedReferencesValidatorParametrized.test_reference_type_mappings_resolve_old_paths/157" [SLet 0 (XExpected (u "spec.components.messages.*.bindings.mqtt.correlation_data.external_docs"));
  SAssert (CEq (XVar 0) (XVal (VList [VStr (u "ExternalDocumentation")])))];
t "validators/test_unified_references_validator.py::TestUnifiedReferencesValidatorParametrized.test_reference_type_mappings_resolve_old_paths/158" [SLet 0 (XExpected (u "spec.components.messages.*.bindings.mqtt.response_topic"));
  SAssert (CEq (XVar 0) (XVal (VList [VStr (u "Schema")])))];
t "validators/test_unified_references_validator.py::TestUnifiedReferencesValidatorParametrized.test_reference_type_mappings_resolve_old_paths/159" [SLet 0 (XExpected (u "spec.components.messages.*.bindings.mqtt.response_topic.external_docs"));
  SAssert (CEq (XVar 0) (XVal (VList [VStr (u "ExternalDocumentation")])))];
t "validators/test_unified_references_validator.py::TestUnifiedReferencesValidatorParametrized.test_reference_type_mappings_resolve_old_paths/160" [SLet 0 (XExpected (u "spec.components.messages.*.correlation_id"));
  SAssert (CEq (XVar 0) (XVal (VList [VStr (u "CorrelationID")])))];
t "validators/test_unified_references_validator.py::TestUnifiedReferencesValidatorParametrized.test_reference_type_mappings_resolve_old_paths/161" [SLet 0 (XExpected (u "spec.components.messages.*.external_docs"));
  SAssert (CEq (XVar 0) (XVal (VList [VStr (u "ExternalDocumentation")])))];
t "validators/test_unified_references_validator.py::TestUnifiedReferencesValidatorParametrized.test_reference_type_mappings_resolve_old_paths/162" [SLet 0 (XExpected (u "spec.components.messages.*.headers"));
  SAssert (CEq (XVar 0) (XVal (VList [VStr (u "MultiFormatSchema"); VStr (u "Schema")])))];
t "validators/test_unified_references_validator.py::TestUnifiedReferencesValidatorParametrized.test_reference_type_mappings_resolve_old_paths/163" [SLet 0 (XExpected (u "spec.components.messages.*.headers.external_docs"));
  SAssert (CEq (XVar 0) (XVal (VList [VStr (u "ExternalDocumentation")])))];
t "validators/test_unified_references_validator.py::TestUnifiedReferencesValidatorParametrized.test_reference_type_mappings_resolve_old_paths/164" [SLet 0 (XExpected (u "spec.components.messages.*.payload"));
  SAssert (CEq (XVar 0) (XVal (VList [VStr (u "MultiFormatSchema"); VStr (u "Schema")])))];
t "validators/test_unified_references_validator.py::TestUnifiedReferencesValidatorParametrized.test_reference_type_mappings_resolve_old_paths/165" [SLet 0 (XExpected (u "spec.components.messages.*.payload.external_docs"));
  SAssert (CEq (XVar 0) (XVal (VList [VStr (u "ExternalDocumentation")])))];
t "validators/test_unified_references_validator.py::TestUnifiedReferencesValidatorParametrized.test_reference_type_mappings_resolve_old_paths/166" [SLet 0 (XExpected (u "spec.components.messages.*.tags.*"));
  SAssert (CEq (XVar 0) (XVal (VList [VStr (u "Tag")])))];
t "validators/test_unified_references_validator.py::TestUnifiedReferencesValidatorParametrized.test_reference_type_mappings_resolve_old_paths/167" [SLet 0 (XExpected (u "spec.components.messages.*.tags.*.external_docs"));
  SAssert (CEq (XVar 0) (XVal (VList [VStr (u "ExternalDocumentation")])))];
t "validators/test_unified_references_validator.py::TestUnifiedReferencesValidatorParametrized.test_reference_type_mappings_resolve_old_paths/168" [SLet 0 (XExpected (u "spec.components.messages.*.traits.*"));
  SAssert (CEq (XVar 0) (XVal (VList [VStr (u "MessageTrait")])))];
t "validators/test_unified_references_validator.py::TestUnifiedReferencesValidatorParametrized.test_reference_type_mappings_resolve_old_paths/169" [SLet 0 (XExpected (u "spec.components.messages.*.traits.*.bindings"));
  SAssert (CEq (XVar 0) (XVal (VList [VStr (u "MessageBindingsObject")])))];
t "validators/test_unified_references_validator.py::TestUnifiedReferencesValidatorParametrized.test_reference_type_mappings_resolve_old_paths/170" [SLet 0 (XExpected (u "spec.components.messages.*.traits.*.bindings.anypointmq.headers"));
  SAssert (CEq (XVar 0) (XVal (VList [VStr (u "Schema")])))]].
Definition part7 : list (string * list stmt) := [
t "validators/test_unified_references_validator.py::TestUnifiedReferencesValidatorParametrized.test_reference_type_mappings_resolve_old_paths/171" [SLet 0 (XExpected (u "spec.components.messages.*.traits.*.bindings.anypointmq.headers.external_docs"));
  SAssert (CEq (XVar 0) (XVal (VList [VStr (u "ExternalDocumentation")])))];
t "validators/test_unified_references_validator.py::TestUnifiedReferencesValidatorParametrized.test_reference_type_mappings_resolve_old_paths/172" [SLet 0 (XExpected (u "spec.components.messages.*.traits.*.bindings.http.headers"));
  SAssert (CEq (XVar 0) (XVal (VList [VStr (u "Schema")])))];
t "validators/test_unified_references_validator.py::TestUnifiedReferencesValidatorParametrized.test_reference_type_mappings_resolve_old_paths/173" [SLet 0 (XExpected (u "spec.components.messages.*.traits.*.bindings.http.headers.external_docs"));
  SAssert (CEq (XVar 0) (XVal (VList [VStr (u "ExternalDocumentation")])))];
t "validators/test_unified_references_validator.py::TestUnifiedReferencesValidatorParametrized.test_reference_type_mappings_resolve_old_paths/174" [SLet 0 (XExpected (u "spec.components.messages.*.traits.*.bindings.jms.headers"));
  SAssert (CEq (XVar 0) (XVal (VList [VStr (u "Schema")])))];
t "validators/test_unified_references_validator.py::TestUnifiedReferencesValidatorParametrized.test_reference_type_mappings_resolve_old_paths/175" [SLet 0 (XExpected (u "spec.components.messages.*.traits.*.bindings.jms.headers.external_docs"));
  SAssert (CEq (XVar 0) (XVal (VList [VStr (u "ExternalDocumentation")])))];
t "validators/test_unified_references_validator.py::TestUnifiedReferencesValidatorParametrized.test_reference_type_mappings_resolve_old_paths/176" [SLet 0 (XExpected (u "spec.components.messages.*.traits.*.bindings.kafka.key"));
  SAssert (CEq (XVar 0) (XVal (VList [VStr (u "Schema")])))];
t "validators/test_unified_references_validator.py::TestUnifiedReferencesValidatorParametrized.test_reference_type_mappings_resolve_old_paths/177" [SLet 0 (XExpected (u "spec.components.messages.*.traits.*.bindings.kafka.key.external_docs"));
  SAssert (CEq (XVar 0) (XVal (VList [VStr (u "ExternalDocumentation")])))];
t "validators/test_unified_references_validator.py::TestUnifiedReferencesValidatorParametrized.test_reference_type_mappings_resolve_old_paths/178" [SLet 0 (XExpected (u "spec.components.messages.*.traits.*.bindings.mqtt.correlation_data"));
  SAssert (CEq (XVar 0) (XVal (VList [VStr (u "Schema")])))];
t "validators/test_unified_references_validator.py::TestUnifiedReferencesValidatorParametrized.test_reference_type_mappings_resolve_old_paths/179" [SLet 0 (XExpected (u "spec.components.messages.*.traits.*.bindings.mqtt.correlation_data.external_docs"));
  SAssert (CEq (XVar 0) (XVal (VList [VStr (u "ExternalDocumentation")])))];
t "validators/test_unified_references_validator.py::TestUnifiedReferencesValidatorParametrized.test_reference_type_mappings_resolve_old_paths/180" [SLet 0 (XExpected (u "spec.components.messages.*.traits.*.bindings.mqtt.response_topic"));
  SAssert (CEq (XVar 0) (XVal (VList [VStr (u "Schema")])))];
t "validators/test_unified_references_validator.py::TestUnifiedReferencesValidatorParametrized.test_reference_type_mappings_resolve_old_paths/181" [SLet 0 (XExpected (u "spec.components.messages.*.traits.*.bindings.mqtt.response_topic.external_docs"));
  SAssert (CEq (XVar 0) (XVal (VList [VStr (u "ExternalDocumentation")])))];
t "validators/test_unified_references_validator.py::TestUnifiedReferencesValidatorParametrized.test_reference_type_mappings_resolve_old_paths/182" [SLet 0 (XExpected (u "spec.components.messages.*.traits.*.correlation_id"));
  SAssert (CEq (XVar 0) (XVal (VList [VStr (u "CorrelationID")])))];
t "validators/test_unified_references_validator.py::TestUnifiedReferencesValidatorParametrized.test_reference_type_mappings_resolve_old_paths/183" [SLet 0 (XExpected (u "spec.components.messages.*.traits.*.external_docs"));
  SAssert (CEq (XVar 0) (XVal (VList [VStr (u "ExternalDocumentation")])))];
t "validators/test_unified_references_validator.py::TestUnifiedReferencesValidatorParametrized.test_reference_type_mappings_resolve_old_paths/184" [SLet 0 (XExpected (u "spec.components.messages.*.traits.*.headers"));
  SAssert (CEq (XVar 0) (XVal (VList [VStr (u "MultiFormatSchema"); VStr (u "Schema")])))];
t "validators/test_unified_references_validator.py::TestUnifiedReferencesValidatorParametrized.test_reference_type_mappings_resolve_old_paths/185" [SLet 0 (XExpected (u "spec.components.messages.*.traits.*.headers.external_docs"));
  SAssert (CEq (XVar 0) (XVal (VList [VStr (u "ExternalDocumentation")])))];
t "validators/test_unified_references_validator.py::TestUnifiedReferencesValidatorParametrized.test_reference_type_mappings_resolve_old_paths/186" [SLet 0 (XExpected (u "spec.components.messages.*.traits.*.tags.*"));
  SAssert (CEq (XVar 0) (XVal (VList [VStr (u "Tag")])))];
t "validators/test_unified_references_validator.py::TestUnifiedReferencesValidatorParametrized.test_reference_type_mappings_resolve_old_paths/187" [SLet 0 (XExpected (u "spec.components.messages.*.traits.*.tags.*.external_docs"));
  SAssert (CEq (XVar 0) (XVal (VList [VStr (u "ExternalDocumentation")])))];
t "validators/test_unified_references_validator.py::TestUnifiedReferencesValidatorParametrized.test_reference_type_mappings_resolve_old_paths/188" [SLet 0 (XExpected (u "spec.components.operation_bindings.*"));
  SAssert (CEq (XVar 0) (XVal (VList [VStr (u "OperationBindingsObject")])))];
t "validators/test_unified_references_validator.py::TestUnifiedReferencesValidatorParametrized.test_reference_type_mappings_resolve_old_paths/189" [SLet 0 (XExpected (u "spec.components.operation_bindings.*.http.query"));
  SAssert (CEq (XVar 0) (XVal (VList [VStr (u "Schema")])))];
t "validators/test_unified_references_validator.py::TestUnifiedReferencesValidatorParametrized.test_reference_type_mappings_resolve_old_paths/190" [SLet 0 (XExpected (u "spec.components.operation_bindings.*.http.query.external_docs"));
  SAssert (CEq (XVar 0) (XVal (VList [VStr (u "ExternalDocumentation")])))];
t "validators/test_unified_references_validator.py::TestUnifiedReferencesValidatorParametrized.test_reference_type_mappings_resolve_old_paths/191" [SLet 0 (XExpected (u "spec.components.operation_bindings.*.kafka.client_id"));
  SAssert (CEq (XVar 0) (XVal (VList [VStr (u "Schema")])))];
t "validators/test_unified_references_validator.py::TestUnifiedReferencesValidatorParametrized.test_reference_type_mappings_resolve_old_paths/192" [SLet 0 (XExpected (u "spec.components.operation_bindings.*.kafka.client_id.external_docs"));
  SAssert (CEq (XVar 0) (XVal (VList [VStr (u "ExternalDocumentation")])))];
t "validators/test_unified_references_validator.py::TestUnifiedReferencesValidatorParametrized.test_reference_type_mappings_resolve_old_paths/193" [SLet 0 (XExpected (u "spec.components.operation_bindings.*.kafka.group_id"));
  SAssert (CEq (XVar 0) (XVal (VList [VStr (u "Schema")])))];
t "validators/test_unified_references_validator.py::TestUnifiedReferencesValidatorParametrized.test_reference_type_mappings_resolve_old_paths/194" [SLet 0 (XExpected (u "spec.components.operation_bindings.*.kafka.group_id.external_docs"));
  SAssert (CEq (XVar 0) (XVal (VList [VStr (u "ExternalDocumentation")])))];
t "validators/test_unified_references_validator.py::TestUnifiedReferencesValidatorParametrized.test_reference_type_mappings_resolve_old_paths/195" [SLet 0 (XExpected (u "spec.components.operation_bindings.*.mqtt.message_expiry_interval"));
  SAssert (CEq (XVar 0) (XVal (VList [VStr (u "Schema")])))];
t "validators/test_unified_references_validator.py::TestUnifiedReferencesValidatorParametrized.test_reference_type_mappings_resolve_old_paths/196" [SLet 0 (XExpected (u "spec.components.operation_bindings.*.mqtt.message_expiry_interval.external_docs"));
  SAssert (CEq (XVar 0) (XVal (VList [VStr (u "ExternalDocumentation")])))];
t "validators/test_unified_references_validator.py::TestUnifiedReferencesValidatorParametrized.test_reference_type_mappings_resolve_old_paths/197" [SLet 0 (XExpected (u "spec.components.operation_bindings.*.solace.priority"));
  SAssert (CEq (XVar 0) (XVal (VList [VStr (u "Schema")])))];
t "validators/test_unified_references_validator.py::TestUnifiedReferencesValidatorParametrized.test_reference_type_mappings_resolve_old_paths/198" [SLet 0 (XExpected (u "spec.components.operation_bindings.*.solace.priority.external_docs"));
  SAssert (CEq (XVar 0) (XVal (VList [VStr (u "ExternalDocumentation")])))];
t "validators/test_unified_references_validator.py::TestUnifiedReferencesValidatorParametrized.test_reference_type_mappings_resolve_old_paths/199" [SLet 0 (XExpected (u "spec.components.operation_bindings.*.solace.time_to_live"));
  SAssert (CEq (XVar 0) (XVal (VList [VStr (u "Schema")])))];
t "validators/test_unified_references_validator.py::TestUnifiedReferencesValidatorParametrized.test_reference_type_mappings_resolve_old_paths/200" [SLet 0 (XExpected (u "spec.components.operation_bindings.*.solace.time_to_live.external_docs"));
  SAssert (CEq (XVar 0) (XVal (VList [VStr (u "ExternalDocumentation")])))];
t "validators/test_unified_references_validator.py::TestUnifiedReferencesValidatorParametrized.test_reference_type_mappings_resolve_old_paths/201" [SLet 0 (XExpected (u "spec.components.operation_traits.*"));
  SAssert (CEq (XVar 0) (XVal (VList [VStr (u "OperationTrait")])))];
t "validators/test_unified_references_validator.py::TestUnifiedReferencesValidatorParametrized.test_reference_type_mappings_resolve_old_paths/202" [SLet 0 (XExpected (u "spec.components.operation_traits.*.bindings"));
  SAssert (CEq (XVar 0) (XVal (VList [VStr (u "OperationBindingsObject")])))];
t "validators/test_unified_references_validator.py::TestUnifiedReferencesValidatorParametrized.test_reference_type_mappings_resolve_old_paths/203" [SLet 0 (XExpected (u "spec.components.operation_traits.*.bindings.http.query"));
  SAssert (CEq (XVar 0) (XVal (VList [VStr (u "Schema")])))];
t "validators/test_unified_references_validator.py::TestUnifiedReferencesValidatorParametrized.test_reference_type_mappings_resolve_old_paths/204" [SLet 0 (XExpected (u "spec.components.operation_traits.*.bindings.http.query.external_docs"));
  SAssert (CEq (XVar 0) (XVal (VList [VStr (u "ExternalDocumentation")])))];
t "validators/test_unified_references_validator.py::TestUnifiedReferencesValidatorParametrized.test_reference_type_mappings_resolve_old_paths/205" [SLet 0 (XExpected (u "spec.components.operation_traits.*.bindings.kafka.client_id"));
  SAssert (CEq (XVar 0) (XVal (VList [VStr (u "Schema")])))];
t "validators/test_unified_references_validator.py::TestUnifiedReferencesValidatorParametrized.test_reference_type_mappings_resolve_old_paths/206" [SLet 0 (XExpected (u "spec.components.operation_traits.*.bindings.kafka.client_id.external_docs"));
  SAssert (CEq (XVar 0) (XVal (VList [VStr (u "ExternalDocumentation")])))];
t "validators/test_unified_references_validator.py::TestUnifiedReferencesValidatorParametrized.test_reference_type_mappings_resolve_old_paths/207" [SLet 0 (XExpected (u "spec.components.operation_traits.*.bindings.kafka.group_id"));
  SAssert (CEq (XVar 0) (XVal (VList [VStr (u "Schema")])))];
t "validators/test_unified_references_validator.py::TestUnifiedReferencesValidatorParametrized.test_reference_type_mappings_resolve_old_paths/208" [SLet 0 (XExpected (u "spec.components.operation_traits.*.bindings.kafka.group_id.external_docs"));
  SAssert (CEq (XVar 0) (XVal (VList [VStr (u "ExternalDocumentation")])))];
t "validators/test_unified_references_validator.py::TestUnifiedReferencesValidatorParametrized.test_reference_type_mappings_resolve_old_paths/209" [SLet 0 (XExpected (u "spec.components.operation_traits.*.bindings.mqtt.message_expiry_interval"));
  SAssert (CEq (XVar 0) (XVal (VList [VStr (u "Schema")])))];
t "validators/test_unified_references_validator.py::TestUnifiedReferencesValidatorParametrized.test_reference_type_mappings_resolve_old_paths/210" [SLet 0 (XExpected (u "spec.components.operation_traits.*.bindings.mqtt.message_expiry_interval.external_docs"));
  SAssert (CEq (XVar 0) (XVal (VList [VStr (u "ExternalDocumentation")])))]].
Definition part8 : list (string * list stmt) := [
t "validators/test_unified_references_validator.py::TestUnifiedReferencesValidatorParametrized.test_reference_type_mappings_resolve_old_paths/211" [SLet 0 (XExpected (u "spec.components.operation_traits.*.bindings.solace.priority"));
  SAssert (CEq (XVar 0) (XVal (VList [VStr (u "Schema")])))];
t "validators/test_unified_references_validator.py::TestUnifiedReferencesValidatorParametrized.test_reference_type_mappings_resolve_old_paths/212" [SLet 0 (XExpected (u "spec.components.operation_traits.*.bindings.solace.priority.external_docs"));
  SAssert (CEq (XVar 0) (XVal (VList [VStr (u "ExternalDocumentation")])))];
t "validators/test_unified_references_validator.py::TestUnifiedReferencesValidatorParametrized.test_reference_type_mappings_resolve_old_paths/213" [SLet 0 (XExpected (u "spec.components.operation_traits.*.bindings.solace.time_to_live"));
  SAssert (CEq (XVar 0) (XVal (VList [VStr (u "Schema")])))];
t "validators/test_unified_references_validator.py::TestUnifiedReferencesValidatorParametrized.test_reference_type_mappings_resolve_old_paths/214" [SLet 0 (XExpected (u "spec.components.operation_traits.*.bindings.solace.time_to_live.external_docs"));
  SAssert (CEq (XVar 0) (XVal (VList [VStr (u "ExternalDocumentation")])))];
t "validators/test_unified_references_validator.py::TestUnifiedReferencesValidatorParametrized.test_reference_type_mappings_resolve_old_paths/215" [SLet 0 (XExpected (u "spec.components.operation_traits.*.external_docs"));
  SAssert (CEq (XVar 0) (XVal (VList [VStr (u "ExternalDocumentation")])))];
t "validators/test_unified_references_validator.py::TestUnifiedReferencesValidatorParametrized.test_reference_type_mappings_resolve_old_paths/216" [SLet 0 (XExpected (u "spec.components.operation_traits.*.security.*"));
  SAssert (CEq (XVar 0) (XVal (VList [VStr (u "SecurityScheme")])))];
t "validators/test_unified_references_validator.py::TestUnifiedReferencesValidatorParametrized.test_reference_type_mappings_resolve_old_paths/217" [SLet 0 (XExpected (u "spec.components.operation_traits.*.tags.*"));
  SAssert (CEq (XVar 0) (XVal (VList [VStr (u "Tag")])))];
t "validators/test_unified_references_validator.py::TestUnifiedReferencesValidatorParametrized.test_reference_type_mappings_resolve_old_paths/218" [SLet 0 (XExpected (u "spec.components.operation_traits.*.tags.*.external_docs"));
  SAssert (CEq (XVar 0) (XVal (VList [VStr (u "ExternalDocumentation")])))];
t "validators/test_unified_references_validator.py::TestUnifiedReferencesValidatorParametrized.test_reference_type_mappings_resolve_old_paths/219" [SLet 0 (XExpected (u "spec.components.operations.*"));
  SAssert (CEq (XVar 0) (XVal (VList [VStr (u "Operation")])))];
t "validators/test_unified_references_validator.py::TestUnifiedReferencesValidatorParametrized.test_reference_type_mappings_resolve_old_paths/220" [SLet 0 (XExpected (u "spec.components.operations.*.bindings"));
  SAssert (CEq (XVar 0) (XVal (VList [VStr (u "OperationBindingsObject")])))];
t "validators/test_unified_references_validator.py::TestUnifiedReferencesValidatorParametrized.test_reference_type_mappings_resolve_old_paths/221" [SLet 0 (XExpected (u "spec.components.operations.*.bindings.http.query"));
  SAssert (CEq (XVar 0) (XVal (VList [VStr (u "Schema")])))];
t "validators/test_unified_references_validator.py::TestUnifiedReferencesValidatorParametrized.test_reference_type_mappings_resolve_old_paths/222" [SLet 0 (XExpected (u "spec.components.operations.*.bindings.http.query.external_docs"));
  SAssert (CEq (XVar 0) (XVal (VList [VStr (u "ExternalDocumentation")])))];
t "validators/test_unified_references_validator.py::TestUnifiedReferencesValidatorParametrized.test_reference_type_mappings_resolve_old_paths/223" [SLet 0 (XExpected (u "spec.components.operations.*.bindings.kafka.client_id"));
  SAssert (CEq (XVar 0) (XVal (VList [VStr (u "Schema")])))];
t "validators/test_unified_references_validator.py::TestUnifiedReferencesValidatorParametrized.test_reference_type_mappings_resolve_old_paths/224" [SLet 0 (XExpected (u "spec.components.operations.*.bindings.kafka.client_id.external_docs"));
  SAssert (CEq (XVar 0) (XVal (VList [VStr (u "ExternalDocumentation")])))];
t "validators/test_unified_references_validator.py::TestUnifiedReferencesValidatorParametrized.test_reference_type_mappings_resolve_old_paths/225" [SLet 0 (XExpected (u "spec.components.operations.*.bindings.kafka.group_id"));
  SAssert (CEq (XVar 0) (XVal (VList [VStr (u "Schema")])))];
t "validators/test_unified_references_validator.py::TestUnifiedReferencesValidatorParametrized.test_reference_type_mappings_resolve_old_paths/226" [SLet 0 (XExpected (u "spec.components.operations.*.bindings.kafka.group_id.external_docs"));
  SAssert (CEq (XVar 0) (XVal (VList [VStr (u "ExternalDocumentation")])))];
t "validators/test_unified_references_validator.py::TestUnifiedReferencesValidatorParametrized.test_reference_type_mappings_resolve_old_paths/227" [SLet 0 (XExpected (u "spec.components.operations.*.bindings.mqtt.message_expiry_interval"));
  SAssert (CEq (XVar 0) (XVal (VList [VStr (u "Schema")])))];
t "validators/test_unified_references_validator.py::TestUnifiedReferencesValidatorParametrized.test_reference_type_mappings_resolve_old_paths/228" [SLet 0 (XExpected (u "spec.components.operations.*.bindings.mqtt.message_expiry_interval.external_docs"));
  SAssert (CEq (XVar 0) (XVal (VList [VStr (u "ExternalDocumentation")])))];
t "validators/test_unified_references_validator.py::TestUnifiedReferencesValidatorParametrized.test_reference_type_mappings_resolve_old_paths/229" [SLet 0 (XExpected (u "spec.components.operations.*.bindings.solace.priority"));
  SAssert (CEq (XVar 0) (XVal (VList [VStr (u "Schema")])))];
t "validators/test_unified_references_validator.py::TestUnifiedReferencesValidatorParametrized.test_reference_type_mappings_resolve_old_paths/230" [SLet 0 (XExpected (u "spec.components.operations.*.bindings.solace.priority.external_docs"));
  SAssert (CEq (XVar 0) (XVal (VList [VStr (u "ExternalDocumentation")])))];
t "validators/test_unified_references_validator.py::TestUnifiedReferencesValidatorParametrized.test_reference_type_mappings_resolve_old_paths/231" [SLet 0 (XExpected (u "spec.components.operations.*.bindings.solace.time_to_live"));
  SAssert (CEq (XVar 0) (XVal (VList [VStr (u "Schema")])))];
t "validators/test_unified_references_validator.py::TestUnifiedReferencesValidatorParametrized.test_reference_type_mappings_resolve_old_paths/232" [SLet 0 (XExpected (u "spec.components.operations.*.bindings.solace.time_to_live.external_docs"));
  SAssert (CEq (XVar 0) (XVal (VList [VStr (u "ExternalDocumentation")])))];
t "validators/test_unified_references_validator.py::TestUnifiedReferencesValidatorParametrized.test_reference_type_mappings_resolve_old_paths/233" [SLet 0 (XExpected (u "spec.components.operations.*.channel"));
  SAssert (CEq (XVar 0) (XVal (VList [VStr (u "Channel")])))];
t "validators/test_unified_references_validator.py::TestUnifiedReferencesValidatorParametrized.test_reference_type_mappings_resolve_old_paths/234" [SLet 0 (XExpected (u "spec.components.operations.*.external_docs"));
  SAssert (CEq (XVar 0) (XVal (VList [VStr (u "ExternalDocumentation")])))];
t "validators/test_unified_references_validator.py::TestUnifiedReferencesValidatorParametrized.test_reference_type_mappings_resolve_old_paths/235" [SLet 0 (XExpected (u "spec.components.operations.*.messages.*"));
  SAssert (CEq (XVar 0) (XVal (VList [VStr (u "Message")])))];
t "validators/test_unified_references_validator.py::TestUnifiedReferencesValidatorParametrized.test_reference_type_mappings_resolve_old_paths/236" [SLet 0 (XExpected (u "spec.components.operations.*.reply"));
  SAssert (CEq (XVar 0) (XVal (VList [VStr (u "OperationReply")])))];
t "validators/test_unified_references_validator.py::TestUnifiedReferencesValidatorParametrized.test_reference_type_mappings_resolve_old_paths/237" [SLet 0 (XExpected (u "spec.components.operations.*.reply.address"));
  SAssert (CEq (XVar 0) (XVal (VList [VStr (u "OperationReplyAddress")])))];
t "validators/test_unified_references_validator.py::TestUnifiedReferencesValidatorParametrized.test_reference_type_mappings_resolve_old_paths/238" [SLet 0 (XExpected (u "spec.components.operations.*.reply.channel"));
  SAssert (CEq (XVar 0) (XVal (VList [VStr (u "Channel")])))];
t "validators/test_unified_references_validator.py::TestUnifiedReferencesValidatorParametrized.test_reference_type_mappings_resolve_old_paths/239" [SLet 0 (XExpected (u "spec.components.operations.*.reply.messages.*"));
  SAssert (CEq (XVar 0) (XVal (VList [VStr (u "Message")])))];
t "validators/test_unified_references_validator.py::TestUnifiedReferencesValidatorParametrized.test_reference_type_mappings_resolve_old_paths/240" [SLet 0 (XExpected (u "spec.components.operations.*.security.*"));
  SAssert (CEq (XVar 0) (XVal (VList [VStr (u "SecurityScheme")])))];
t "validators/test_unified_references_validator.py::TestUnifiedReferencesValidatorParametrized.test_reference_type_mappings_resolve_old_paths/241" [SLet 0 (XExpected (u "spec.components.operations.*.tags.*"));
  SAssert (CEq (XVar 0) (XVal (VList [VStr (u "Tag")])))];
t "validators/test_unified_references_validator.py::TestUnifiedReferencesValidatorParametrized.test_reference_type_mappings_resolve_old_paths/242" [SLet 0 (XExpected (u "spec.components.operations.*.tags.*.external_docs"));
  SAssert (CEq (XVar 0) (XVal (VList [VStr (u "ExternalDocumentation")])))];
t "validators/test_unified_references_validator.py::TestUnifiedReferencesValidatorParametrized.test_reference_type_mappings_resolve_old_paths/243" [SLet 0 (XExpected (u "spec.components.operations.*.traits.*"));
  SAssert (CEq (XVar 0) (XVal (VList [VStr (u "OperationTrait")])))];
t "validators/test_unified_references_validator.py::TestUnifiedReferencesValidatorParametrized.test_reference_type_mappings_resolve_old_paths/244" [SLet 0 (XExpected (u "spec.components.operations.*.traits.*.bindings"));
  SAssert (CEq (XVar 0) (XVal (VList [VStr (u "OperationBindingsObject")])))];
t "validators/test_unified_references_validator.py::TestUnifiedReferencesValidatorParametrized.test_reference_type_mappings_resolve_old_paths/245" [SLet 0 (XExpected (u "spec.components.operations.*.traits.*.bindings.http.query"));
  SAssert (CEq (XVar 0) (XVal (VList [VStr (u "Schema")])))];
t "validators/test_unified_references_validator.py::TestUnifiedReferencesValidatorParametrized.test_reference_type_mappings_resolve_old_paths/246" [SLet 0 (XExpected (u "spec.components.operations.*.traits.*.bindings.http.query.external_docs"));
  SAssert (CEq (XVar 0) (XVal (VList [VStr (u "ExternalDocumentation")])))];
t "validators/test_unified_references_validator.py::TestUnifiedReferencesValidatorParametrized.test_reference_type_mappings_resolve_old_paths/247" [SLet 0 (XExpected (u "spec.components.operations.*.traits.*.bindings.kafka.client_id"));
  SAssert (CEq (XVar 0) (XVal (VList [VStr (u "Schema")])))];
t "validators/test_unified_references_validator.py::TestUnifiedReferencesValidatorParametrized.test_reference_type_mappings_resolve_old_paths/248" [SLet 0 (XExpected (u "spec.components.operations.*.traits.*.bindings.kafka.client_id.external_docs"));
  SAssert (CEq (XVar 0) (XVal (VList [VStr (u "ExternalDocumentation")])))];
t "validators/test_unified_references_validator.py::TestUnifiedReferencesValidatorParametrized.test_reference_type_mappings_resolve_old_paths/249" [SLet 0 (XExpected (u "spec.components.operations.*.traits.*.bindings.kafka.group_id"));
  SAssert (CEq (XVar 0) (XVal (VList [VStr (u "Schema")])))];
t "validators/test_unified_references_validator.py::TestUnifiedReferencesValidatorParametrized.test_reference_type_mappings_resolve_old_paths/250" [SLet 0 (XExpected (u "spec.components.operations.*.traits.*.bindings.kafka.group_id.external_docs"));
  SAssert (CEq (XVar 0) (XVal (VList [VStr (u "ExternalDocumentation")])))]].
Definition part9 : list (string * list stmt) := [
t "validators/test_unified_references_validator.py::TestUnifiedReferencesValidatorParametrized.test_reference_type_mappings_resolve_old_paths/251" [SLet 0 (XExpected (u "spec.components.operations.*.traits.*.bindings.mqtt.message_expiry_interval"));
  SAssert (CEq (XVar 0) (XVal (VList [VStr (u "Schema")])))];
t "validators/test_unified_references_validator.py::TestUnifiedReferencesValidatorParametrized.test_reference_type_mappings_resolve_old_paths/252" [SLet 0 (XExpected (u "spec.components.operations.*.traits.*.bindings.mqtt.message_expiry_interval.external_docs"));
  SAssert (CEq (XVar 0) (XVal (VList [VStr (u "ExternalDocumentation")])))];
t "validators/test_unified_references_validator.py::TestUnifiedReferencesValidatorParametrized.test_reference_type_mappings_resolve_old_paths/253" [SLet 0 (XExpected (u "spec.components.operations.*.traits.*.bindings.solace.priority"));
  SAssert (CEq (XVar 0) (XVal (VList [VStr (u "Schema")])))];
t "validators/test_unified_references_validator.py::TestUnifiedReferencesValidatorParametrized.test_reference_type_mappings_resolve_old_paths/254" [SLet 0 (XExpected (u "spec.components.operations.*.traits.*.bindings.solace.priority.external_docs"));
  SAssert (CEq (XVar 0) (XVal (VList [VStr (u "ExternalDocumentation")])))];
t "validators/test_unified_references_validator.py::TestUnifiedReferencesValidatorParametrized.test_reference_type_mappings_resolve_old_paths/255" [SLet 0 (XExpected (u "spec.components.operations.*.traits.*.bindings.solace.time_to_live"));
  SAssert (CEq (XVar 0) (XVal (VList [VStr (u "Schema")])))];
t "validators/test_unified_references_validator.py::TestUnifiedReferencesValidatorParametrized.test_reference_type_mappings_resolve_old_paths/256" [SLet 0 (XExpected (u "spec.components.operations.*.traits.*.bindings.solace.time_to_live.external_docs"));
  SAssert (CEq (XVar 0) (XVal (VList [VStr (u "ExternalDocumentation")])))];
t "validators/test_unified_references_validator.py::TestUnifiedReferencesValidatorParametrized.test_reference_type_mappings_resolve_old_paths/257" [SLet 0 (XExpected (u "spec.components.operations.*.traits.*.external_docs"));
  SAssert (CEq (XVar 0) (XVal (VList [VStr (u "ExternalDocumentation")])))];
t "validators/test_unified_references_validator.py::TestUnifiedReferencesValidatorParametrized.test_reference_type_mappings_resolve_old_paths/258" [SLet 0 (XExpected (u "spec.components.operations.*.traits.*.security.*"));
  SAssert (CEq (XVar 0) (XVal (VList [VStr (u "SecurityScheme")])))];
t "validators/test_unified_references_validator.py::TestUnifiedReferencesValidatorParametrized.test_reference_type_mappings_resolve_old_paths/259" [SLet 0 (XExpected (u "spec.components.operations.*.traits.*.tags.*"));
  SAssert (CEq (XVar 0) (XVal (VList [VStr (u "Tag")])))];
t "validators/test_unified_references_validator.py::TestUnifiedReferencesValidatorParametrized.test_reference_type_mappings_resolve_old_paths/260" [SLet 0 (XExpected (u "spec.components.operations.*.traits.*.tags.*.external_docs"));
  SAssert (CEq (XVar 0) (XVal (VList [VStr (u "ExternalDocumentation")])))];
t "validators/test_unified_references_validator.py::TestUnifiedReferencesValidatorParametrized.test_reference_type_mappings_resolve_old_paths/261" [SLet 0 (XExpected (u "spec.components.parameters.*"));
  SAssert (CEq (XVar 0) (XVal (VList [VStr (u "Parameter")])))];
t "validators/test_unified_references_validator.py::TestUnifiedReferencesValidatorParametrized.test_reference_type_mappings_resolve_old_paths/262" [SLet 0 (XExpected (u "spec.components.replies.*"));
  SAssert (CEq (XVar 0) (XVal (VList [VStr (u "OperationReply")])))];
t "validators/test_unified_references_validator.py::TestUnifiedReferencesValidatorParametrized.test_reference_type_mappings_resolve_old_paths/263" [SLet 0 (XExpected (u "spec.components.replies.*.address"));
  SAssert (CEq (XVar 0) (XVal (VList [VStr (u "OperationReplyAddress")])))];
t "validators/test_unified_references_validator.py::TestUnifiedReferencesValidatorParametrized.test_reference_type_mappings_resolve_old_paths/264" [SLet 0 (XExpected (u "spec.components.replies.*.channel"));
  SAssert (CEq (XVar 0) (XVal (VList [VStr (u "Channel")])))];
t "validators/test_unified_references_validator.py::TestUnifiedReferencesValidatorParametrized.test_reference_type_mappings_resolve_old_paths/265" [SLet 0 (XExpected (u "spec.components.replies.*.messages.*"));
  SAssert (CEq (XVar 0) (XVal (VList [VStr (u "Message")])))];
t "validators/test_unified_references_validator.py::TestUnifiedReferencesValidatorParametrized.test_reference_type_mappings_resolve_old_paths/266" [SLet 0 (XExpected (u "spec.components.reply_addresses.*"));
  SAssert (CEq (XVar 0) (XVal (VList [VStr (u "OperationReplyAddress")])))];
t "validators/test_unified_references_validator.py::TestUnifiedReferencesValidatorParametrized.test_reference_type_mappings_resolve_old_paths/267" [SLet 0 (XExpected (u "spec.components.schemas.*"));
  SAssert (CEq (XVar 0) (XVal (VList [VStr (u "MultiFormatSchema"); VStr (u "Schema")])))];
t "validators/test_unified_references_validator.py::TestUnifiedReferencesValidatorParametrized.test_reference_type_mappings_resolve_old_paths/268" [SLet 0 (XExpected (u "spec.components.schemas.*.external_docs"));
  SAssert (CEq (XVar 0) (XVal (VList [VStr (u "ExternalDocumentation")])))];
t "validators/test_unified_references_validator.py::TestUnifiedReferencesValidatorParametrized.test_reference_type_mappings_resolve_old_paths/269" [SLet 0 (XExpected (u "spec.components.security_schemes.*"));
  SAssert (CEq (XVar 0) (XVal (VList [VStr (u "SecurityScheme")])))];
t "validators/test_unified_references_validator.py::TestUnifiedReferencesValidatorParametrized.test_reference_type_mappings_resolve_old_paths/270" [SLet 0 (XExpected (u "spec.components.server_bindings.*"));
  SAssert (CEq (XVar 0) (XVal (VList [VStr (u "ServerBindingsObject")])))];
t "validators/test_unified_references_validator.py::TestUnifiedReferencesValidatorParametrized.test_reference_type_mappings_resolve_old_paths/271" [SLet 0 (XExpected (u "spec.components.server_bindings.*.jms.properties.*.external_docs"));
  SAssert (CEq (XVar 0) (XVal (VList [VStr (u "ExternalDocumentation")])))];
t "validators/test_unified_references_validator.py::TestUnifiedReferencesValidatorParametrized.test_reference_type_mappings_resolve_old_paths/272" [SLet 0 (XExpected (u "spec.components.server_bindings.*.mqtt.maximum_packet_size"));
  SAssert (CEq (XVar 0) (XVal (VList [VStr (u "Schema")])))];
t "validators/test_unified_references_validator.py::TestUnifiedReferencesValidatorParametrized.test_reference_type_mappings_resolve_old_paths/273" [SLet 0 (XExpected (u "spec.components.server_bindings.*.mqtt.maximum_packet_size.external_docs"));
  SAssert (CEq (XVar 0) (XVal (VList [VStr (u "ExternalDocumentation")])))];
t "validators/test_unified_references_validator.py::TestUnifiedReferencesValidatorParametrized.test_reference_type_mappings_resolve_old_paths/274" [SLet 0 (XExpected (u "spec.components.server_bindings.*.mqtt.session_expiry_interval"));
  SAssert (CEq (XVar 0) (XVal (VList [VStr (u "Schema")])))];
t "validators/test_unified_references_validator.py::TestUnifiedReferencesValidatorParametrized.test_reference_type_mappings_resolve_old_paths/275" [SLet 0 (XExpected (u "spec.components.server_bindings.*.mqtt.session_expiry_interval.external_docs"));
  SAssert (CEq (XVar 0) (XVal (VList [VStr (u "ExternalDocumentation")])))];
t "validators/test_unified_references_validator.py::TestUnifiedReferencesValidatorParametrized.test_reference_type_mappings_resolve_old_paths/276" [SLet 0 (XExpected (u "spec.components.server_bindings.*.mqtt5.session_expiry_interval"));
  SAssert (CEq (XVar 0) (XVal (VList [VStr (u "Schema")])))];
t "validators/test_unified_references_validator.py::TestUnifiedReferencesValidatorParametrized.test_reference_type_mappings_resolve_old_paths/277" [SLet 0 (XExpected (u "spec.components.server_bindings.*.mqtt5.session_expiry_interval.external_docs"));
  SAssert (CEq (XVar 0) (XVal (VList [VStr (u "ExternalDocumentation")])))];
t "validators/test_unified_references_validator.py::TestUnifiedReferencesValidatorParametrized.test_reference_type_mappings_resolve_old_paths/278" [SLet 0 (XExpected (u "spec.components.server_variables.*"));
  SAssert (CEq (XVar 0) (XVal (VList [VStr (u "ServerVariable")])))];
t "validators/test_unified_references_validator.py::TestUnifiedReferencesValidatorParametrized.test_reference_type_mappings_resolve_old_paths/279" [SLet 0 (XExpected (u "spec.components.servers.*"));
  SAssert (CEq (XVar 0) (XVal (VList [VStr (u "Server")])))];
t "validators/test_unified_references_validator.py::TestUnifiedReferencesValidatorParametrized.test_reference_type_mappings_resolve_old_paths/280" [SLet 0 (XExpected (u "spec.components.servers.*.bindings"));
  SAssert (CEq (XVar 0) (XVal (VList [VStr (u "ServerBindingsObject")])))];
t "validators/test_unified_references_validator.py::TestUnifiedReferencesValidatorParametrized.test_reference_type_mappings_resolve_old_paths/281" [SLet 0 (XExpected (u "spec.components.servers.*.bindings.jms.properties.*.external_docs"));
  SAssert (CEq (XVar 0) (XVal (VList [VStr (u "ExternalDocumentation")])))];
t "validators/test_unified_references_validator.py::TestUnifiedReferencesValidatorParametrized.test_reference_type_mappings_resolve_old_paths/282" [SLet 0 (XExpected (u "spec.components.servers.*.bindings.mqtt.maximum_packet_size"));
  SAssert (CEq (XVar 0) (XVal (VList [VStr (u "Schema")])))];
t "validators/test_unified_references_validator.py::TestUnifiedReferencesValidatorParametrized.test_reference_type_mappings_resolve_old_paths/283" [SLet 0 (XExpected (u "spec.components.servers.*.bindings.mqtt.maximum_packet_size.external_docs"));
  SAssert (CEq (XVar 0) (XVal (VList [VStr (u "ExternalDocumentation")])))];
t "validators/test_unified_references_validator.py::TestUnifiedReferencesValidatorParametrized.test_reference_type_mappings_resolve_old_paths/284" [SLet 0 (XExpected (u "spec.components.servers.*.bindings.mqtt.session_expiry_interval"));
  SAssert (CEq (XVar 0) (XVal (VList [VStr (u "Schema")])))];
t "validators/test_unified_references_validator.py::TestUnifiedReferencesValidatorParametrized.test_reference_type_mappings_resolve_old_paths/285" [SLet 0 (XExpected (u "spec.components.servers.*.bindings.mqtt.session_expiry_interval.external_docs"));
  SAssert (CEq (XVar 0) (XVal (VList [VStr (u "ExternalDocumentation")])))];
t "validators/test_unified_references_validator.py::TestUnifiedReferencesValidatorParametrized.test_reference_type_mappings_resolve_old_paths/286" [SLet 0 (XExpected (u "spec.components.servers.*.bindings.mqtt5.session_expiry_interval"));
  SAssert (CEq (XVar 0) (XVal (VList [VStr (u "Schema")])))];
t "validators/test_unified_references_validator.py::TestUnifiedReferencesValidatorParametrized.test_reference_type_mappings_resolve_old_paths/287" [SLet 0 (XExpected (u "spec.components.servers.*.bindings.mqtt5.session_expiry_interval.external_docs"));
  SAssert (CEq (XVar 0) (XVal (VList [VStr (u "ExternalDocumentation")])))];
t "validators/test_unified_references_validator.py::TestUnifiedReferencesValidatorParametrized.test_reference_type_mappings_resolve_old_paths/288" [SLet 0 (XExpected (u "spec.components.servers.*.external_docs"));
  SAssert (CEq (XVar 0) (XVal (VList [VStr (u "ExternalDocumentation")])))];
t "validators/test_unified_references_validator.py::TestUnifiedReferencesValidatorParametrized.test_reference_type_mappings_resolve_old_paths/289" [SLet 0 (XExpected (u "spec.components.servers.*.security.*"));
  SAssert (CEq (XVar 0) (XVal (VList [VStr (u "SecurityScheme")])))];
t "validators/test_unified_references_validator.py::TestUnifiedReferencesValidatorParametrized.test_reference_type_mappings_resolve_old_paths/290" [SLet 0 (XExpected (u "spec.components.servers.*.tags.*"));
  SAssert (CEq (XVar 0) (XVal (VList [VStr (u "Tag")])))]].
Definition part10 : list (string * list stmt) := [
t "validators/test_unified_references_validator.py::TestUnifiedReferencesValidatorParametrized.test_reference_type_mappings_resolve_old_paths/291" [SLet 0 (XExpected (u "spec.components.servers.*.tags.*.external_docs"));
  SAssert (CEq (XVar 0) (XVal (VList [VStr (u "ExternalDocumentation")])))];
t "validators/test_unified_references_validator.py::TestUnifiedReferencesValidatorParametrized.test_reference_type_mappings_resolve_old_paths/292" [SLet 0 (XExpected (u "spec.components.servers.*.variables.*"));
  SAssert (CEq (XVar 0) (XVal (VList [VStr (u "ServerVariable")])))];
t "validators/test_unified_references_validator.py::TestUnifiedReferencesValidatorParametrized.test_reference_type_mappings_resolve_old_paths/293" [SLet 0 (XExpected (u "spec.components.tags.*"));
  SAssert (CEq (XVar 0) (XVal (VList [VStr (u "Tag")])))];
t "validators/test_unified_references_validator.py::TestUnifiedReferencesValidatorParametrized.test_reference_type_mappings_resolve_old_paths/294" [SLet 0 (XExpected (u "spec.components.tags.*.external_docs"));
  SAssert (CEq (XVar 0) (XVal (VList [VStr (u "ExternalDocumentation")])))];
t "validators/test_unified_references_validator.py::TestUnifiedReferencesValidatorParametrized.test_reference_type_mappings_resolve_old_paths/295" [SLet 0 (XExpected (u "spec.info.external_docs"));
  SAssert (CEq (XVar 0) (XVal (VList [VStr (u "ExternalDocumentation")])))];
t "validators/test_unified_references_validator.py::TestUnifiedReferencesValidatorParametrized.test_reference_type_mappings_resolve_old_paths/296" [SLet 0 (XExpected (u "spec.info.tags.*"));
  SAssert (CEq (XVar 0) (XVal (VList [VStr (u "Tag")])))];
t "validators/test_unified_references_validator.py::TestUnifiedReferencesValidatorParametrized.test_reference_type_mappings_resolve_old_paths/297" [SLet 0 (XExpected (u "spec.info.tags.*.external_docs"));
  SAssert (CEq (XVar 0) (XVal (VList [VStr (u "ExternalDocumentation")])))];
t "validators/test_unified_references_validator.py::TestUnifiedReferencesValidatorParametrized.test_reference_type_mappings_resolve_old_paths/298" [SLet 0 (XExpected (u "spec.operations.*"));
  SAssert (CEq (XVar 0) (XVal (VList [VStr (u "Operation")])))];
t "validators/test_unified_references_validator.py::TestUnifiedReferencesValidatorParametrized.test_reference_type_mappings_resolve_old_paths/299" [SLet 0 (XExpected (u "spec.operations.*.bindings"));
  SAssert (CEq (XVar 0) (XVal (VList [VStr (u "OperationBindingsObject")])))];
t "validators/test_unified_references_validator.py::TestUnifiedReferencesValidatorParametrized.test_reference_type_mappings_resolve_old_paths/300" [SLet 0 (XExpected (u "spec.operations.*.bindings.http.query"));
  SAssert (CEq (XVar 0) (XVal (VList [VStr (u "Schema")])))];
t "validators/test_unified_references_validator.py::TestUnifiedReferencesValidatorParametrized.test_reference_type_mappings_resolve_old_paths/301" [SLet 0 (XExpected (u "spec.operations.*.bindings.http.query.external_docs"));
  SAssert (CEq (XVar 0) (XVal (VList [VStr (u "ExternalDocumentation")])))];
t "validators/test_unified_references_validator.py::TestUnifiedReferencesValidatorParametrized.test_reference_type_mappings_resolve_old_paths/302" [SLet 0 (XExpected (u "spec.operations.*.bindings.kafka.client_id"));
  SAssert (CEq (XVar 0) (XVal (VList [VStr (u "Schema")])))];
t "validators/test_unified_references_validator.py::TestUnifiedReferencesValidatorParametrized.test_reference_type_mappings_resolve_old_paths/303" [SLet 0 (XExpected (u "spec.operations.*.bindings.kafka.client_id.external_docs"));
  SAssert (CEq (XVar 0) (XVal (VList [VStr (u "ExternalDocumentation")])))];
t "validators/test_unified_references_validator.py::TestUnifiedReferencesValidatorParametrized.test_reference_type_mappings_resolve_old_paths/304" [SLet 0 (XExpected (u "spec.operations.*.bindings.kafka.group_id"));
  SAssert (CEq (XVar 0) (XVal (VList [VStr (u "Schema")])))];
t "validators/test_unified_references_validator.py::TestUnifiedReferencesValidatorParametrized.test_reference_type_mappings_resolve_old_paths/305" [SLet 0 (XExpected (u "spec.operations.*.bindings.kafka.group_id.external_docs"));
  SAssert (CEq (XVar 0) (XVal (VList [VStr (u "ExternalDocumentation")])))];
t "validators/test_unified_references_validator.py::TestUnifiedReferencesValidatorParametrized.test_reference_type_mappings_resolve_old_paths/306" [SLet 0 (XExpected (u "spec.operations.*.bindings.mqtt.message_expiry_interval"));
  SAssert (CEq (XVar 0) (XVal (VList [VStr (u "Schema")])))];
t "validators/test_unified_references_validator.py::TestUnifiedReferencesValidatorParametrized.test_reference_type_mappings_resolve_old_paths/307" [SLet 0 (XExpected (u "spec.operations.*.bindings.mqtt.message_expiry_interval.external_docs"));
  SAssert (CEq (XVar 0) (XVal (VList [VStr (u "ExternalDocumentation")])))];
t "validators/test_unified_references_validator.py::TestUnifiedReferencesValidatorParametrized.test_reference_type_mappings_resolve_old_paths/308" [SLet 0 (XExpected (u "spec.operations.*.bindings.solace.priority"));
  SAssert (CEq (XVar 0) (XVal (VList [VStr (u "Schema")])))];
t "validators/test_unified_references_validator.py::TestUnifiedReferencesValidatorParametrized.test_reference_type_mappings_resolve_old_paths/309" [SLet 0 (XExpected (u "spec.operations.*.bindings.solace.priority.external_docs"));
  SAssert (CEq (XVar 0) (XVal (VList [VStr (u "ExternalDocumentation")])))];
t "validators/test_unified_references_validator.py::TestUnifiedReferencesValidatorParametrized.test_reference_type_mappings_resolve_old_paths/310" [SLet 0 (XExpected (u "spec.operations.*.bindings.solace.time_to_live"));
  SAssert (CEq (XVar 0) (XVal (VList [VStr (u "Schema")])))];
t "validators/test_unified_references_validator.py::TestUnifiedReferencesValidatorParametrized.test_reference_type_mappings_resolve_old_paths/311" [SLet 0 (XExpected (u "spec.operations.*.bindings.solace.time_to_live.external_docs"));
  SAssert (CEq (XVar 0) (XVal (VList [VStr (u "ExternalDocumentation")])))];
t "validators/test_unified_references_validator.py::TestUnifiedReferencesValidatorParametrized.test_reference_type_mappings_resolve_old_paths/312" [SLet 0 (XExpected (u "spec.operations.*.channel"));
  SAssert (CEq (XVar 0) (XVal (VList [VStr (u "Channel")])))];
t "validators/test_unified_references_validator.py::TestUnifiedReferencesValidatorParametrized.test_reference_type_mappings_resolve_old_paths/313" [SLet 0 (XExpected (u "spec.operations.*.external_docs"));
  SAssert (CEq (XVar 0) (XVal (VList [VStr (u "ExternalDocumentation")])))];
t "validators/test_unified_references_validator.py::TestUnifiedReferencesValidatorParametrized.test_reference_type_mappings_resolve_old_paths/314" [SLet 0 (XExpected (u "spec.operations.*.messages.*"));
  SAssert (CEq (XVar 0) (XVal (VList [VStr (u "Message")])))];
t "validators/test_unified_references_validator.py::TestUnifiedReferencesValidatorParametrized.test_reference_type_mappings_resolve_old_paths/315" [SLet 0 (XExpected (u "spec.operations.*.reply"));
  SAssert (CEq (XVar 0) (XVal (VList [VStr (u "OperationReply")])))];
t "validators/test_unified_references_validator.py::TestUnifiedReferencesValidatorParametrized.test_reference_type_mappings_resolve_old_paths/316" [SLet 0 (XExpected (u "spec.operations.*.reply.address"));
  SAssert (CEq (XVar 0) (XVal (VList [VStr (u "OperationReplyAddress")])))];
t "validators/test_unified_references_validator.py::TestUnifiedReferencesValidatorParametrized.test_reference_type_mappings_resolve_old_paths/317" [SLet 0 (XExpected (u "spec.operations.*.reply.channel"));
  SAssert (CEq (XVar 0) (XVal (VList [VStr (u "Channel")])))];
t "validators/test_unified_references_validator.py::TestUnifiedReferencesValidatorParametrized.test_reference_type_mappings_resolve_old_paths/318" [SLet 0 (XExpected (u "spec.operations.*.reply.messages.*"));
  SAssert (CEq (XVar 0) (XVal (VList [VStr (u "Message")])))];
t "validators/test_unified_references_validator.py::TestUnifiedReferencesValidatorParametrized.test_reference_type_mappings_resolve_old_paths/319" [SLet 0 (XExpected (u "spec.operations.*.security.*"));
  SAssert (CEq (XVar 0) (XVal (VList [VStr (u "SecurityScheme")])))];
t "validators/test_unified_references_validator.py::TestUnifiedReferencesValidatorParametrized.test_reference_type_mappings_resolve_old_paths/320" [SLet 0 (XExpected (u "spec.operations.*.tags.*"));
  SAssert (CEq (XVar 0) (XVal (VList [VStr (u "Tag")])))];
t "validators/test_unified_references_validator.py::TestUnifiedReferencesValidatorParametrized.test_reference_type_mappings_resolve_old_paths/321" [SLet 0 (XExpected (u "spec.operations.*.tags.*.external_docs"));
  SAssert (CEq (XVar 0) (XVal (VList [VStr (u "ExternalDocumentation")])))];
t "validators/test_unified_references_validator.py::TestUnifiedReferencesValidatorParametrized.test_reference_type_mappings_resolve_old_paths/322" [SLet 0 (XExpected (u "spec.operations.*.traits.*"));
  SAssert (CEq (XVar 0) (XVal (VList [VStr (u "OperationTrait")])))];
t "validators/test_unified_references_validator.py::TestUnifiedReferencesValidatorParametrized.test_reference_type_mappings_resolve_old_paths/323" [SLet 0 (XExpected (u "spec.operations.*.traits.*.bindings"));
  SAssert (CEq (XVar 0) (XVal (VList [VStr (u "OperationBindingsObject")])))];
t "validators/test_unified_references_validator.py::TestUnifiedReferencesValidatorParametrized.test_reference_type_mappings_resolve_old_paths/324" [SLet 0 (XExpected (u "spec.operations.*.traits.*.bindings.http.query"));
  SAssert (CEq (XVar 0) (XVal (VList [VStr (u "Schema")])))];
t "validators/test_unified_references_validator.py::TestUnifiedReferencesValidatorParametrized.test_reference_type_mappings_resolve_old_paths/325" [SLet 0 (XExpected (u "spec.operations.*.traits.*.bindings.http.query.external_docs"));
  SAssert (CEq (XVar 0) (XVal (VList [VStr (u "ExternalDocumentation")])))];
t "validators/test_unified_references_validator.py::TestUnifiedReferencesValidatorParametrized.test_reference_type_mappings_resolve_old_paths/326" [SLet 0 (XExpected (u "spec.operations.*.traits.*.bindings.kafka.client_id"));
  SAssert (CEq (XVar 0) (XVal (VList [VStr (u "Schema")])))];
t "validators/test_unified_references_validator.py::TestUnifiedReferencesValidatorParametrized.test_reference_type_mappings_resolve_old_paths/327" [SLet 0 (XExpected (u "spec.operations.*.traits.*.bindings.kafka.client_id.external_docs"));
  SAssert (CEq (XVar 0) (XVal (VList [VStr (u "ExternalDocumentation")])))];
t "validators/test_unified_references_validator.py::TestUnifiedReferencesValidatorParametrized.test_reference_type_mappings_resolve_old_paths/328" [SLet 0 (XExpected (u "spec.operations.*.traits.*.bindings.kafka.group_id"));
  SAssert (CEq (XVar 0) (XVal (VList [VStr (u "Schema")])))];
t "validators/test_unified_references_validator.py::TestUnifiedReferencesValidatorParametrized.test_reference_type_mappings_resolve_old_paths/329" [SLet 0 (XExpected (u "spec.operations.*.traits.*.bindings.kafka.group_id.external_docs"));
  SAssert (CEq (XVar 0) (XVal (VList [VStr (u "ExternalDocumentation")])))];
t "validators/test_unified_references_validator.py::TestUnifiedReferencesValidatorParametrized.test_reference_type_mappings_resolve_old_paths/330" [SLet 0 (XExpected (u "spec.operations.*.traits.*.bindings.mqtt.message_expiry_interval"));
  SAssert (CEq (XVar 0) (XVal (VList [VStr (u "Schema")])))]].
Definition part11 : list (string * list stmt) := [
t "validators/test_unified_references_validator.py::TestUnifiedReferencesValidatorParametrized.test_reference_type_mappings_resolve_old_paths/331" [SLet 0 (XExpected (u "spec.operations.*.traits.*.bindings.mqtt.message_expiry_interval.external_docs"));
  SAssert (CEq (XVar 0) (XVal (VList [VStr (u "ExternalDocumentation")])))];
t "validators/test_unified_references_validator.py::TestUnifiedReferencesValidatorParametrized.test_reference_type_mappings_resolve_old_paths/332" [SLet 0 (XExpected (u "spec.operations.*.traits.*.bindings.solace.priority"));
  SAssert (CEq (XVar 0) (XVal (VList [VStr (u "Schema")])))];
t "validators/test_unified_references_validator.py::TestUnifiedReferencesValidatorParametrized.test_reference_type_mappings_resolve_old_paths/333" [SLet 0 (XExpected (u "spec.operations.*.traits.*.bindings.solace.priority.external_docs"));
  SAssert (CEq (XVar 0) (XVal (VList [VStr (u "ExternalDocumentation")])))];
t "validators/test_unified_references_validator.py::TestUnifiedReferencesValidatorParametrized.test_reference_type_mappings_resolve_old_paths/334" [SLet 0 (XExpected (u "spec.operations.*.traits.*.bindings.solace.time_to_live"));
  SAssert (CEq (XVar 0) (XVal (VList [VStr (u "Schema")])))];
t "validators/test_unified_references_validator.py::TestUnifiedReferencesValidatorParametrized.test_reference_type_mappings_resolve_old_paths/335" [SLet 0 (XExpected (u "spec.operations.*.traits.*.bindings.solace.time_to_live.external_docs"));
  SAssert (CEq (XVar 0) (XVal (VList [VStr (u "ExternalDocumentation")])))];
t "validators/test_unified_references_validator.py::TestUnifiedReferencesValidatorParametrized.test_reference_type_mappings_resolve_old_paths/336" [SLet 0 (XExpected (u "spec.operations.*.traits.*.external_docs"));
  SAssert (CEq (XVar 0) (XVal (VList [VStr (u "ExternalDocumentation")])))];
t "validators/test_unified_references_validator.py::TestUnifiedReferencesValidatorParametrized.test_reference_type_mappings_resolve_old_paths/337" [SLet 0 (XExpected (u "spec.operations.*.traits.*.security.*"));
  SAssert (CEq (XVar 0) (XVal (VList [VStr (u "SecurityScheme")])))];
t "validators/test_unified_references_validator.py::TestUnifiedReferencesValidatorParametrized.test_reference_type_mappings_resolve_old_paths/338" [SLet 0 (XExpected (u "spec.operations.*.traits.*.tags.*"));
  SAssert (CEq (XVar 0) (XVal (VList [VStr (u "Tag")])))];
t "validators/test_unified_references_validator.py::TestUnifiedReferencesValidatorParametrized.test_reference_type_mappings_resolve_old_paths/339" [SLet 0 (XExpected (u "spec.operations.*.traits.*.tags.*.external_docs"));
  SAssert (CEq (XVar 0) (XVal (VList [VStr (u "ExternalDocumentation")])))];
t "validators/test_unified_references_validator.py::TestUnifiedReferencesValidatorParametrized.test_reference_type_mappings_resolve_old_paths/340" [SLet 0 (XExpected (u "spec.servers.*"));
  SAssert (CEq (XVar 0) (XVal (VList [VStr (u "Server")])))];
t "validators/test_unified_references_validator.py::TestUnifiedReferencesValidatorParametrized.test_reference_type_mappings_resolve_old_paths/341" [SLet 0 (XExpected (u "spec.servers.*.bindings"));
  SAssert (CEq (XVar 0) (XVal (VList [VStr (u "ServerBindingsObject")])))];
t "validators/test_unified_references_validator.py::TestUnifiedReferencesValidatorParametrized.test_reference_type_mappings_resolve_old_paths/342" [SLet 0 (XExpected (u "spec.servers.*.bindings.jms.properties.*.external_docs"));
  SAssert (CEq (XVar 0) (XVal (VList [VStr (u "ExternalDocumentation")])))];
t "validators/test_unified_references_validator.py::TestUnifiedReferencesValidatorParametrized.test_reference_type_mappings_resolve_old_paths/343" [SLet 0 (XExpected (u "spec.servers.*.bindings.mqtt.maximum_packet_size"));
  SAssert (CEq (XVar 0) (XVal (VList [VStr (u "Schema")])))];
t "validators/test_unified_references_validator.py::TestUnifiedReferencesValidatorParametrized.test_reference_type_mappings_resolve_old_paths/344" [SLet 0 (XExpected (u "spec.servers.*.bindings.mqtt.maximum_packet_size.external_docs"));
  SAssert (CEq (XVar 0) (XVal (VList [VStr (u "ExternalDocumentation")])))];
t "validators/test_unified_references_validator.py::TestUnifiedReferencesValidatorParametrized.test_reference_type_mappings_resolve_old_paths/345" [SLet 0 (XExpected (u "spec.servers.*.bindings.mqtt.session_expiry_interval"));
  SAssert (CEq (XVar 0) (XVal (VList [VStr (u "Schema")])))];
t "validators/test_unified_references_validator.py::TestUnifiedReferencesValidatorParametrized.test_reference_type_mappings_resolve_old_paths/346" [SLet 0 (XExpected (u "spec.servers.*.bindings.mqtt.session_expiry_interval.external_docs"));
  SAssert (CEq (XVar 0) (XVal (VList [VStr (u "ExternalDocumentation")])))];
t "validators/test_unified_references_validator.py::TestUnifiedReferencesValidatorParametrized.test_reference_type_mappings_resolve_old_paths/347" [SLet 0 (XExpected (u "spec.servers.*.bindings.mqtt5.session_expiry_interval"));
  SAssert (CEq (XVar 0) (XVal (VList [VStr (u "Schema")])))];
t "validators/test_unified_references_validator.py::TestUnifiedReferencesValidatorParametrized.test_reference_type_mappings_resolve_old_paths/348" [SLet 0 (XExpected (u "spec.servers.*.bindings.mqtt5.session_expiry_interval.external_docs"));
  SAssert (CEq (XVar 0) (XVal (VList [VStr (u "ExternalDocumentation")])))];
t "validators/test_unified_references_validator.py::TestUnifiedReferencesValidatorParametrized.test_reference_type_mappings_resolve_old_paths/349" [SLet 0 (XExpected (u "spec.servers.*.external_docs"));
  SAssert (CEq (XVar 0) (XVal (VList [VStr (u "ExternalDocumentation")])))];
t "validators/test_unified_references_validator.py::TestUnifiedReferencesValidatorParametrized.test_reference_type_mappings_resolve_old_paths/350" [SLet 0 (XExpected (u "spec.servers.*.security.*"));
  SAssert (CEq (XVar 0) (XVal (VList [VStr (u "SecurityScheme")])))];
t "validators/test_unified_references_validator.py::TestUnifiedReferencesValidatorParametrized.test_reference_type_mappings_resolve_old_paths/351" [SLet 0 (XExpected (u "spec.servers.*.tags.*"));
  SAssert (CEq (XVar 0) (XVal (VList [VStr (u "Tag")])))];
t "validators/test_unified_references_validator.py::TestUnifiedReferencesValidatorParametrized.test_reference_type_mappings_resolve_old_paths/352" [SLet 0 (XExpected (u "spec.servers.*.tags.*.external_docs"));
  SAssert (CEq (XVar 0) (XVal (VList [VStr (u "ExternalDocumentation")])))];
t "validators/test_unified_references_validator.py::TestUnifiedReferencesValidatorParametrized.test_reference_type_mappings_resolve_old_paths/353" [SLet 0 (XExpected (u "spec.servers.*.variables.*"));
  SAssert (CEq (XVar 0) (XVal (VList [VStr (u "ServerVariable")])))];
t "validators/test_unified_references_validator.py::TestUnifiedReferencesValidatorParametrized.test_valid_bindings_references/0" [SLet 0 (XNew "AsyncAPI3" (XVal (VDict [((u "asyncapi"), (VStr (u "3.0.0"))); ((u "info"), (VDict [((u "title"), (VStr (u "Test API"))); ((u "version"), (VStr (u "1.0.0")))])); ((u "servers"), (VDict [((u "prod"), (VDict [((u "host"), (VStr (u "api.example.com"))); ((u "protocol"), (VStr (u "https"))); ((u "bindings"), (VDict [((u "$ref"), (VStr (u "#/components/server_bindings/httpBindings")))]))]))])); ((u "components"), (VDict [((u "serverBindings"), (VDict [((u "httpBindings"), (VDict [((u "http"), (VDict []))]))]))])); ((u "extra_validators"), (VList [(VProc (u "UnifiedReferencesValidator"))]))])));
  SAssert (CNot (CEq (XVar 0) (XVal VNone)))];
t "validators/test_unified_references_validator.py::TestUnifiedReferencesValidatorParametrized.test_valid_bindings_references/1" [SLet 0 (XNew "AsyncAPI3" (XVal (VDict [((u "asyncapi"), (VStr (u "3.0.0"))); ((u "info"), (VDict [((u "title"), (VStr (u "Test API"))); ((u "version"), (VStr (u "1.0.0")))])); ((u "channels"), (VDict [((u "userChannel"), (VDict [((u "address"), (VStr (u "user/{userId}"))); ((u "bindings"), (VDict [((u "$ref"), (VStr (u "#/components/channel_bindings/kafkaBindings")))]))]))])); ((u "components"), (VDict [((u "channelBindings"), (VDict [((u "kafkaBindings"), (VDict [((u "kafka"), (VDict [((u "topic"), (VStr (u "user-events"))); ((u "partitions"), (VInt (3)%Z))]))]))]))])); ((u "extra_validators"), (VList [(VProc (u "UnifiedReferencesValidator"))]))])));
  SAssert (CNot (CEq (XVar 0) (XVal VNone)))];
t "validators/test_unified_references_validator.py::TestUnifiedReferencesValidatorParametrized.test_valid_bindings_references/2" [SLet 0 (XNew "AsyncAPI3" (XVal (VDict [((u "asyncapi"), (VStr (u "3.0.0"))); ((u "info"), (VDict [((u "title"), (VStr (u "Test API"))); ((u "version"), (VStr (u "1.0.0")))])); ((u "operations"), (VDict [((u "sendMessage"), (VDict [((u "action"), (VStr (u "send"))); ((u "channel"), (VDict [((u "$ref"), (VStr (u "#/channels/userChannel")))])); ((u "bindings"), (VDict [((u "$ref"), (VStr (u "#/components/operation_bindings/httpBindings")))]))]))])); ((u "channels"), (VDict [((u "userChannel"), (VDict [((u "address"), (VStr (u "user/{userId}")))]))])); ((u "components"), (VDict [((u "operationBindings"), (VDict [((u "httpBindings"), (VDict [((u "http"), (VDict [((u "method"), (VStr (u "POST")))]))]))]))])); ((u "extra_validators"), (VList [(VProc (u "UnifiedReferencesValidator"))]))])));
  SAssert (CNot (CEq (XVar 0) (XVal VNone)))];
t "validators/test_unified_references_validator.py::TestUnifiedReferencesValidatorParametrized.test_valid_bindings_references/3" [SLet 0 (XNew "AsyncAPI3" (XVal (VDict [((u "asyncapi"), (VStr (u "3.0.0"))); ((u "info"), (VDict [((u "title"), (VStr (u "Test API"))); ((u "version"), (VStr (u "1.0.0")))])); ((u "components"), (VDict [((u "messages"), (VDict [((u "userMessage"), (VDict [((u "payload"), (VDict [((u "type"), (VStr (u "object")))])); ((u "bindings"), (VDict [((u "$ref"), (VStr (u "#/components/message_bindings/kafkaBindings")))]))]))])); ((u "messageBindings"), (VDict [((u "kafkaBindings"), (VDict [((u "kafka"), (VDict [((u "key"), (VDict [((u "type"), (VStr (u "string")))]))]))]))]))])); ((u "extra_validators"), (VList [(VProc (u "UnifiedReferencesValidator"))]))])));
  SAssert (CNot (CEq (XVar 0) (XVal VNone)))];
t "validators/test_unified_references_validator.py::TestUnifiedReferencesValidatorParametrized.test_invalid_server_bindings_reference" [SRaises [SDo (XNew "AsyncAPI3" (XVal (VDict [((u "asyncapi"), (VStr (u "3.0.0"))); ((u "info"), (VDict [((u "title"), (VStr (u "Test API"))); ((u "version"), (VStr (u "1.0.0")))])); ((u "servers"), (VDict [((u "prod"), (VDict [((u "host"), (VStr (u "api.example.com"))); ((u "protocol"), (VStr (u "https"))); ((u "bindings"), (VDict [((u "$ref"), (VStr (u "#/components/server_bindings/nonexistent")))]))]))])); ((u "extra_validators"), (VList [(VProc (u "UnifiedReferencesValidator"))]))])))] [(u "Invalid reference")]];
t "validators/test_unified_references_validator.py::TestUnifiedReferencesValidatorParametrized.test_valid_trait_references/0" [SLet 0 (XNew "AsyncAPI3" (XVal (VDict [((u "asyncapi"), (VStr (u "3.0.0"))); ((u "info"), (VDict [((u "title"), (VStr (u "Test API"))); ((u "version"), (VStr (u "1.0.0")))])); ((u "channels"), (VDict [((u "userChannel"), (VDict [((u "address"), (VStr (u "user/{userId}")))]))])); ((u "components"), (VDict [((u "operations"), (VDict [((u "sendMessage"), (VDict [((u "action"), (VStr (u "send"))); ((u "channel"), (VDict [((u "$ref"), (VStr (u "#/channels/userChannel")))])); ((u "traits"), (VList [(VDict [((u "$ref"), (VStr (u "#/components/operationTraits/commonTrait")))])]))]))])); ((u "operationTraits"), (VDict [((u "commonTrait"), (VDict [((u "bindings"), (VDict [((u "http"), (VDict [((u "method"), (VStr (u "POST")))]))]))]))]))])); ((u "extra_validators"), (VList [(VProc (u "UnifiedReferencesValidator"))]))])));
  SAssert (CNot (CEq (XVar 0) (XVal VNone)))];
t "validators/test_unified_references_validator.py::TestUnifiedReferencesValidatorParametrized.test_valid_trait_references/1" [SLet 0 (XNew "AsyncAPI3" (XVal (VDict [((u "asyncapi"), (VStr (u "3.0.0"))); ((u "info"), (VDict [((u "title"), (VStr (u "Test API"))); ((u "version"), (VStr (u "1.0.0")))])); ((u "components"), (VDict [((u "messages"), (VDict [((u "userMessage"), (VDict [((u "payload"), (VDict [((u "type"), (VStr (u "object")))])); ((u "traits"), (VList [(VDict [((u "$ref"), (VStr (u "#/components/messageTraits/commonTrait")))])]))]))])); ((u "messageTraits"), (VDict [((u "commonTrait"), (VDict [((u "headers"), (VDict [((u "type"), (VStr (u "object")))]))]))]))])); ((u "extra_validators"), (VList [(VProc (u "UnifiedReferencesValidator"))]))])));
  SAssert (CNot (CEq (XVar 0) (XVal VNone)))];
t "validators/test_unified_references_validator.py::TestUnifiedReferencesValidatorParametrized.test_valid_component_references/0" [SLet 0 (XNew "AsyncAPI3" (XVal (VDict [((u "asyncapi"), (VStr (u "3.0.0"))); ((u "info"), (VDict [((u "title"), (VStr (u "Test API"))); ((u "version"), (VStr (u "1.0.0")))])); ((u "components"), (VDict [((u "securitySchemes"), (VDict [((u "apiKey"), (VDict [((u "type"), (VStr (u "apiKey"))); ((u "in"), (VStr (u "user")))]))]))])); ((u "servers"), (VDict [((u "prod"), (VDict [((u "host"), (VStr (u "api.example.com"))); ((u "protocol"), (VStr (u "https"))); ((u "security"), (VList [(VDict [((u "$ref"), (VStr (u "#/components/securitySchemes/apiKey")))])]))]))])); ((u "extra_validators"), (VList [(VProc (u "UnifiedReferencesValidator"))]))])));
  SAssert (CNot (CEq (XVar 0) (XVal VNone)))];
t "validators/test_unified_references_validator.py::TestUnifiedReferencesValidatorParametrized.test_valid_component_references/1" [SLet 0 (XNew "AsyncAPI3" (XVal (VDict [((u "asyncapi"), (VStr (u "3.0.0"))); ((u "info"), (VDict [((u "title"), (VStr (u "Test API"))); ((u "version"), (VStr (u "1.0.0")))])); ((u "servers"), (VDict [((u "prod"), (VDict [((u "host"), (VStr (u "{environment}.api.example.com"))); ((u "protocol"), (VStr (u "https"))); ((u "variables"), (VDict [((u "environment"), (VDict [((u "default"), (VStr (u "prod"))); ((u "enum"), (VList [(VStr (u "dev")); (VStr (u "staging")); (VStr (u "prod"))]))]))]))]))])); ((u "extra_validators"), (VList [(VProc (u "UnifiedReferencesValidator"))]))])));
  SAssert (CNot (CEq (XVar 0) (XVal VNone)))];
t "validators/test_unified_references_validator.py::TestUnifiedReferencesValidatorParametrized.test_valid_component_references/2" [SLet 0 (XNew "AsyncAPI3" (XVal (VDict [((u "asyncapi"), (VStr (u "3.0.0"))); ((u "info"), (VDict [((u "title"), (VStr (u "Test API"))); ((u "version"), (VStr (u "1.0.0")))])); ((u "components"), (VDict [((u "correlationIds"), (VDict [((u "requestId"), (VDict [((u "description"), (VStr (u "Unique request identifier"))); ((u "location"), (VStr (u "$message.header#/requestId")))]))])); ((u "messages"), (VDict [((u "requestMessage"), (VDict [((u "correlationId"), (VDict [((u "$ref"), (VStr (u "#/components/correlationIds/requestId")))])); ((u "payload"), (VDict [((u "type"), (VStr (u "object")))]))]))]))])); ((u "extra_validators"), (VList [(VProc (u "UnifiedReferencesValidator"))]))])));
  SAssert (CNot (CEq (XVar 0) (XVal VNone)))];
t "validators/test_unified_references_validator.py::TestUnifiedReferencesValidatorParametrized.test_valid_component_references/3" [SLet 0 (XNew "AsyncAPI3" (XVal (VDict [((u "asyncapi"), (VStr (u "3.0.0"))); ((u "info"), (VDict [((u "title"), (VStr (u "Test API"))); ((u "version"), (VStr (u "1.0.0")))])); ((u "channels"), (VDict [((u "requestChannel"), (VDict [((u "address"), (VStr (u "request")))])); ((u "replyChannel"), (VDict [((u "address"), (VStr (u "reply/{requestId}")))]))])); ((u "components"), (VDict [((u "replies"), (VDict [((u "successReply"), (VDict [((u "address"), (VDict [((u "location"), (VStr (u "$message.payload#/replyTo")))])); ((u "channel"), (VDict [((u "$ref"), (VStr (u "#/channels/replyChannel")))])); ((u "messages"), (VList [(VDict [((u "$ref"), (VStr (u "#/components/messages/successMessage")))])]))]))])); ((u "messages"), (VDict [((u "successMessage"), (VDict [((u "payload"), (VDict [((u "type"), (VStr (u "object")))]))]))])); ((u "operations"), (VDict [((u "sendRequest"), (VDict [((u "action"), (VStr (u "send"))); ((u "channel"), (VDict [((u "$ref"), (VStr (u "#/channels/requestChannel")))])); ((u "reply"), (VDict [((u "$ref"), (VStr (u "#/components/replies/successReply")))]))]))]))])); ((u "extra_validators"), (VList [(VProc (u "UnifiedReferencesValidator"))]))])));
  SAssert (CNot (CEq (XVar 0) (XVal VNone)))];
t "validators/test_unified_references_validator.py::TestUnifiedReferencesValidatorParametrized.test_valid_component_references/4" [SLet 0 (XNew "AsyncAPI3" (XVal (VDict [((u "asyncapi"), (VStr (u "3.0.0"))); ((u "info"), (VDict [((u "title"), (VStr (u "Test API"))); ((u "version"), (VStr (u "1.0.0")))])); ((u "channels"), (VDict [((u "requestChannel"), (VDict [((u "address"), (VStr (u "request")))])); ((u "replyChannel"), (VDict [((u "address"), (VStr (u "reply/{requestId}")))]))])); ((u "components"), (VDict [((u "replyAddresses"), (VDict [((u "successAddress"), (VDict [((u "location"), (VStr (u "$message.payload#/replyTo")))]))])); ((u "operations"), (VDict [((u "sendRequest"), (VDict [((u "action"), (VStr (u "send"))); ((u "channel"), (VDict [((u "$ref"), (VStr (u "#/channels/requestChannel")))])); ((u "reply"), (VDict [((u "address"), (VDict [((u "$ref"), (VStr (u "#/components/replyAddresses/successAddress")))])); ((u "channel"), (VDict [((u "$ref"), (VStr (u "#/channels/replyChannel")))]))]))]))]))])); ((u "extra_validators"), (VList [(VProc (u "UnifiedReferencesValidator"))]))])));
  SAssert (CNot (CEq (XVar 0) (XVal VNone)))];
t "validators/test_unified_references_validator.py::TestUnifiedReferencesValidatorInternals.test_normalize_path_removes_root_and_indices" [SAssert (CEq (XNormalize (u "spec.root.channels[0].messages[2].root")) (XVal (VStr (u "spec.channels.messages"))))];
t "validators/test_unified_references_validator.py::TestUnifiedReferencesValidatorInternals.test_path_matches_double_star" [SAssert (CEq (XMatches (u "**") (u "spec.channels")) (XVal (VBool true)))];
t "validators/test_unified_references_validator.py::TestUnifiedReferencesValidatorInternals.test_path_matches_message_glob" [SAssert (CEq (XMatches (u "**.messages.*") (u "spec.channels.messages.msg")) (XVal (VBool true)))];
t "validators/test_unified_references_validator.py::TestUnifiedReferencesValidatorInternals.test_path_matches_single_segment_glob" [SAssert (CEq (XMatches (u "spec.*.messages.*") (u "spec.channels.messages.msg")) (XVal (VBool true)))];
t "validators/test_unified_references_validator.py::TestUnifiedReferencesValidatorInternals.test_path_matches_wildcard_in_segment" [SAssert (CEq (XMatches (u "**.*_bindings.*") (u "spec.channel_bindings.kafka")) (XVal (VBool true)))]].
Definition part12 : list (string * list stmt) := [
t "validators/test_unified_references_validator.py::TestUnifiedReferencesValidatorInternals.test_path_matches_escaped_dot_segment" [SAssert (CEq (XMatches (u "spec.channels.*") (u "spec.channels.foo\.bar")) (XVal (VBool true)))];
t "validators/test_unified_references_validator.py::TestUnifiedReferencesValidatorInternals.test_path_matches_rejects_missing_segment" [SAssert (CNot (CEq (XMatches (u "spec.channels.*") (u "spec.channels")) (XVal (VBool true))))];
t "validators/test_unified_references_validator.py::TestUnifiedReferencesValidatorInternals.test_path_matches_rejects_mismatch" [SAssert (CNot (CEq (XMatches (u "spec.channels.*") (u "spec.channel.msg")) (XVal (VBool true))))];
t "validators/test_unified_references_validator.py::TestUnifiedReferencesValidatorInternals.test_pattern_specificity_prefers_literals" [SAssert (CEq (XMoreSpecific (u "**.channels.*.bindings") (u "**.channels.*.*")) (XVal (VBool true)))];
t "validators/test_unified_references_validator.py::TestUnifiedReferencesValidatorInternals.test_expected_type_prefers_specific_pattern" [SLet 0 (XExpectedIn [((u "**.channels.*.*"), ["Message"]); ((u "**.channels.*.bindings"), ["ChannelBindingsObject"])] (u "spec.channels.sample.bindings"));
  SAssert (CEq (XVar 0) (XVal (VList [VStr (u "ChannelBindingsObject")])))];
t "validators/test_unified_references_validator.py::TestUnifiedReferencesValidatorInternals.test_get_expected_type_raises_for_unknown_path" [SRaises [SDo (XExpected (u "spec.unknown.path"))] [(u "Unknown reference type")]];
t "validators/test_unified_references_validator.py::TestUnifiedReferencesValidatorInternals.test_get_expected_type_with_escaped_dot" [SLet 0 (XExpected (u "spec.channels.foo\.bar"));
  SAssert (CEq (XVar 0) (XVal (VList [VStr (u "Channel")])))];
t "validators/test_unified_references_validator.py::TestUnifiedReferencesValidatorInternals.test_type_compatibility_union" [SAssert (CEq (XCompatible "Schema" ["Schema"; "MultiFormatSchema"]) (XVal (VBool true)))];
t "validators/test_unified_references_validator.py::TestUnifiedReferencesValidatorInternals.test_type_compatibility_exact" [SAssert (CEq (XCompatible "Schema" ["Schema"]) (XVal (VBool true)))];
t "validators/test_unified_references_validator.py::TestUnifiedReferencesValidatorInternals.test_type_compatibility_incompatible_type" [SAssert (CNot (CEq (XCompatible "Schema" ["Message"]) (XVal (VBool true))))];
t "validators/test_unified_references_validator.py::TestUnifiedReferencesValidatorInternals.test_validate_reference_adds_ref" [SLet 0 (XNew "AsyncAPI3" (XVal (VDict [((u "asyncapi"), (VStr (u "3.0.0"))); ((u "info"), (VDict [((u "title"), (VStr (u "Test API"))); ((u "version"), (VStr (u "1.0.0")))])); ((u "channels"), (VDict [((u "test"), (VDict [((u "address"), (VStr (u "test")))]))]))])));
  SLet 1 (XNew "Reference" (XVal (VDict [((u "ref"), (VStr (u "#/channels/test")))])));
  SDo (XCheckRef (XVar 0) (XVar 1) (u "spec.channels.test"))];
t "validators/test_unified_references_validator.py::TestUnifiedReferencesValidatorInternals.test_validate_reference_skips_already_validated" [SLet 0 (XNew "AsyncAPI3" (XVal (VDict [((u "asyncapi"), (VStr (u "3.0.0"))); ((u "info"), (VDict [((u "title"), (VStr (u "Test API"))); ((u "version"), (VStr (u "1.0.0")))])); ((u "channels"), (VDict [((u "test"), (VDict [((u "address"), (VStr (u "test")))]))]))])));
  SLet 1 (XNew "Reference" (XVal (VDict [((u "ref"), (VStr (u "#/channels/test")))])));
  SDo (XCheckRef (XVar 0) (XVar 1) (u "spec.channels.test"))];
t "validators/test_unified_references_validator.py::TestUnifiedReferencesValidatorInternals.test_validate_reference_cached_ref_still_validates" [SLet 0 (XNew "AsyncAPI3" (XVal (VDict [((u "asyncapi"), (VStr (u "3.0.0"))); ((u "info"), (VDict [((u "title"), (VStr (u "Test API"))); ((u "version"), (VStr (u "1.0.0")))])); ((u "channels"), (VDict [((u "test"), (VDict [((u "address"), (VStr (u "test")))]))]))])));
  SLet 1 (XNew "Reference" (XVal (VDict [((u "ref"), (VStr (u "#/channels/test")))])));
  SRaises [SDo (XCheckRef (XVar 0) (XVar 1) (u "spec.messages"))] [(u "expected")]];
t "validators/test_unified_references_validator.py::TestUnifiedReferencesValidatorInternals.test_validate_reference_external_ref" [SLet 0 (XNew "AsyncAPI3" (XVal (VDict [((u "asyncapi"), (VStr (u "3.0.0"))); ((u "info"), (VDict [((u "title"), (VStr (u "Test API"))); ((u "version"), (VStr (u "1.0.0")))])); ((u "channels"), (VDict [((u "test"), (VDict [((u "address"), (VStr (u "test")))]))]))])));
  SLet 1 (XNew "Reference" (XVal (VDict [((u "ref"), (VStr (u "https://example.com/ref")))])));
  SDo (XCheckRef (XVar 0) (XVar 1) (u "spec.channels.test"))];
t "validators/test_unified_references_validator.py::TestUnifiedReferencesValidatorInternals.test_validate_reference_invalid_reference_error" [SLet 0 (XNew "AsyncAPI3" (XVal (VDict [((u "asyncapi"), (VStr (u "3.0.0"))); ((u "info"), (VDict [((u "title"), (VStr (u "Test API"))); ((u "version"), (VStr (u "1.0.0")))])); ((u "channels"), (VDict [((u "test"), (VDict [((u "address"), (VStr (u "test")))]))]))])));
  SLet 1 (XNew "Reference" (XVal (VDict [((u "ref"), (VStr (u "#/channels/missing")))])));
  SRaises [SDo (XCheckRef (XVar 0) (XVar 1) (u "spec.channels.missing"))] [(u "Invalid reference")]];
t "validators/test_unified_references_validator.py::TestUnifiedReferencesValidatorInternals.test_validate_reference_type_mismatch_error" [SLet 0 (XNew "AsyncAPI3" (XVal (VDict [((u "asyncapi"), (VStr (u "3.0.0"))); ((u "info"), (VDict [((u "title"), (VStr (u "Test API"))); ((u "version"), (VStr (u "1.0.0")))])); ((u "channels"), (VDict [((u "test"), (VDict [((u "address"), (VStr (u "test")))]))]))])));
  SLet 1 (XNew "Reference" (XVal (VDict [((u "ref"), (VStr (u "#/channels/test")))])));
  SRaises [SDo (XCheckRef (XVar 0) (XVar 1) (u "spec.messages"))] [(u "expected")]];
t "validators/test_unified_references_validator.py::TestUnifiedReferencesValidatorInternals.test_validate_references_recursive_reference" [SLet 0 (XNew "AsyncAPI3" (XVal (VDict [((u "asyncapi"), (VStr (u "3.0.0"))); ((u "info"), (VDict [((u "title"), (VStr (u "Test API"))); ((u "version"), (VStr (u "1.0.0")))])); ((u "channels"), (VDict [((u "test"), (VDict [((u "address"), (VStr (u "test")))]))]))])));
  SDo (XCheck (XVar 0) (XNew "Reference" (XVal (VDict [((u "ref"), (VStr (u "#/channels/test")))]))) (u "spec.channels.test"))];
t "validators/test_unified_references_validator.py::TestUnifiedReferencesValidatorInternals.test_validate_references_recursive_mapping" [SLet 0 (XNew "AsyncAPI3" (XVal (VDict [((u "asyncapi"), (VStr (u "3.0.0"))); ((u "info"), (VDict [((u "title"), (VStr (u "Test API"))); ((u "version"), (VStr (u "1.0.0")))])); ((u "channels"), (VDict [((u "test"), (VDict [((u "address"), (VStr (u "test")))]))]))])));
  SDo (XCheck (XVar 0) (XVal (VDict [((u "nested"), (VInt (1)%Z))])) (u "spec.messages"))];
t "validators/test_unified_references_validator.py::TestUnifiedReferencesValidatorInternals.test_validate_references_recursive_other_object" [SLet 0 (XNew "AsyncAPI3" (XVal (VDict [((u "asyncapi"), (VStr (u "3.0.0"))); ((u "info"), (VDict [((u "title"), (VStr (u "Test API"))); ((u "version"), (VStr (u "1.0.0")))])); ((u "channels"), (VDict [((u "test"), (VDict [((u "address"), (VStr (u "test")))]))]))])));
  SDo (XCheck (XVar 0) (XVal (VInt (1)%Z)) (u "spec"))]].
(** 499 tests *)
Definition tests := (part0 ++ part1 ++ part2 ++ part3 ++ part4 ++ part5 ++ part6 ++ part7 ++ part8 ++ part9 ++ part10 ++ part11 ++ part12)%list.
Example validators_tests_pass : failing tests = [] /\ length tests = 499.
Proof. vm_compute. split; reflexivity. Qed.
