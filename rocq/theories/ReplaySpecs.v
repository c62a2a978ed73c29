(** GENERATED by tools/replay.py from tests/fixtures (do not edit): the project's own tests as programs of Replay.v. *)
From Verif Require Import PyStr Regex Value Types Classes State Unified Replay.
Local Open Scope string_scope.
Local Notation t := (@pair string (list stmt)).
Definition part0 : list (string * list stmt) := [
t "fixtures/json_specs/valid/apache_kafka.json" [SDo (XNew "AsyncAPI3" (XVal (VDict [((u "asyncapi"), (VStr (u "3.0.0"))); ((u "info"), (VDict [((u "title"), (VStr (u "Streetlights Kafka API"))); ((u "version"), (VStr (u "1.0.0"))); ((u "description"), (VStr [84; 104; 101; 32; 83; 109; 97; 114; 116; 121; 108; 105; 103; 104; 116; 105; 110; 103; 32; 83; 116; 114; 101; 101; 116; 108; 105; 103; 104; 116; 115; 32; 65; 80; 73; 32; 97; 108; 108; 111; 119; 115; 32; 121; 111; 117; 32; 116; 111; 32; 114; 101; 109; 111; 116; 101; 108; 121; 32; 109; 97; 110; 97; 103; 101; 32; 116; 104; 101; 32; 99; 105; 116; 121; 10; 108; 105; 103; 104; 116; 115; 46; 10; 35; 35; 35; 32; 67; 104; 101; 99; 107; 32; 111; 117; 116; 32; 105; 116; 115; 32; 97; 119; 101; 115; 111; 109; 101; 32; 102; 101; 97; 116; 117; 114; 101; 115; 58; 10; 10; 42; 32; 84; 117; 114; 110; 32; 97; 32; 115; 112; 101; 99; 105; 102; 105; 99; 32; 115; 116; 114; 101; 101; 116; 108; 105; 103; 104; 116; 32; 111; 110; 47; 111; 102; 102; 32; 127747; 32; 32; 10; 42; 32; 68; 105; 109; 32; 97; 32; 115; 112; 101; 99; 105; 102; 105; 99; 32; 115; 116; 114; 101; 101; 116; 108; 105; 103; 104; 116; 32; 128526; 10; 42; 32; 82; 101; 99; 101; 105; 118; 101; 32; 114; 101; 97; 108; 45; 116; 105; 109; 101; 32; 105; 110; 102; 111; 114; 109; 97; 116; 105; 111; 110; 32; 97; 98; 111; 117; 116; 32; 101; 110; 118; 105; 114; 111; 110; 109; 101; 110; 116; 97; 108; 32; 108; 105; 103; 104; 116; 105; 110; 103; 32; 99; 111; 110; 100; 105; 116; 105; 111; 110; 115; 32; 128200]%N)); ((u "license"), (VDict [((u "name"), (VStr (u "Apache 2.0"))); ((u "url"), (VStr (u "https://www.apache.org/licenses/LICENSE-2.0")))]))])); ((u "defaultContentType"), (VStr (u "application/json"))); ((u "servers"), (VDict [((u "scram-connections"), (VDict [((u "host"), (VStr (u "test.mykafkacluster.org:18092"))); ((u "protocol"), (VStr (u "kafka-secure"))); ((u "description"), (VStr (u "Test broker secured with scramSha256"))); ((u "security"), (VList [(VDict [((u "$ref"), (VStr (u "#/components/securitySchemes/saslScram")))])])); ((u "tags"), (VList [(VDict [((u "name"), (VStr (u "env:test-scram"))); ((u "description"), (VStr (u "This environment is meant for running internal tests through scramSha256")))]); (VDict [((u "name"), (VStr (u "kind:remote"))); ((u "description"), (VStr (u "This server is a remote server. Not exposed by the application")))]); (VDict [((u "name"), (VStr (u "visibility:private"))); ((u "description"), (VStr (u "This resource is private and only available to certain users")))])]))])); ((u "mtls-connections"), (VDict [((u "host"), (VStr (u "test.mykafkacluster.org:28092"))); ((u "protocol"), (VStr (u "kafka-secure"))); ((u "description"), (VStr (u "Test broker secured with X509"))); ((u "security"), (VList [(VDict [((u "$ref"), (VStr (u "#/components/securitySchemes/certs")))])])); ((u "tags"), (VList [(VDict [((u "name"), (VStr (u "env:test-mtls"))); ((u "description"), (VStr (u "This environment is meant for running internal tests through mtls")))]); (VDict [((u "name"), (VStr (u "kind:remote"))); ((u "description"), (VStr (u "This server is a remote server. Not exposed by the application")))]); (VDict [((u "name"), (VStr (u "visibility:private"))); ((u "description"), (VStr (u "This resource is private and only available to certain users")))])]))]))])); ((u "channels"), (VDict [((u "lightingMeasured"), (VDict [((u "address"), (VStr (u "smartylighting.streetlights.1.0.event.{streetlightId}.lighting.measured"))); ((u "messages"), (VDict [((u "lightMeasured"), (VDict [((u "$ref"), (VStr (u "#/components/messages/lightMeasured")))]))])); ((u "description"), (VStr (u "The topic on which measured values may be produced and consumed."))); ((u "parameters"), (VDict [((u "streetlightId"), (VDict [((u "$ref"), (VStr (u "#/components/parameters/streetlightId")))]))]))])); ((u "lightTurnOn"), (VDict [((u "address"), (VStr (u "smartylighting.streetlights.1.0.action.{streetlightId}.turn.on"))); ((u "messages"), (VDict [((u "turnOn"), (VDict [((u "$ref"), (VStr (u "#/components/messages/turnOnOff")))]))])); ((u "parameters"), (VDict [((u "streetlightId"), (VDict [((u "$ref"), (VStr (u "#/components/parameters/streetlightId")))]))]))])); ((u "lightTurnOff"), (VDict [((u "address"), (VStr (u "smartylighting.streetlights.1.0.action.{streetlightId}.turn.off"))); ((u "messages"), (VDict [((u "turnOff"), (VDict [((u "$ref"), (VStr (u "#/components/messages/turnOnOff")))]))])); ((u "parameters"), (VDict [((u "streetlightId"), (VDict [((u "$ref"), (VStr (u "#/components/parameters/streetlightId")))]))]))])); ((u "lightsDim"), (VDict [((u "address"), (VStr (u "smartylighting.streetlights.1.0.action.{streetlightId}.dim"))); ((u "messages"), (VDict [((u "dimLight"), (VDict [((u "$ref"), (VStr (u "#/components/messages/dimLight")))]))])); ((u "parameters"), (VDict [((u "streetlightId"), (VDict [((u "$ref"), (VStr (u "#/components/parameters/streetlightId")))]))]))]))])); ((u "operations"), (VDict [((u "receiveLightMeasurement"), (VDict [((u "action"), (VStr (u "receive"))); ((u "channel"), (VDict [((u "$ref"), (VStr (u "#/channels/lightingMeasured")))])); ((u "summary"), (VStr (u "Inform about environmental lighting conditions of a particular streetlight."))); ((u "traits"), (VList [(VDict [((u "$ref"), (VStr (u "#/components/operationTraits/kafka")))])])); ((u "messages"), (VList [(VDict [((u "$ref"), (VStr (u "#/channels/lightingMeasured/messages/lightMeasured")))])]))])); ((u "turnOn"), (VDict [((u "action"), (VStr (u "send"))); ((u "channel"), (VDict [((u "$ref"), (VStr (u "#/channels/lightTurnOn")))])); ((u "traits"), (VList [(VDict [((u "$ref"), (VStr (u "#/components/operationTraits/kafka")))])])); ((u "messages"), (VList [(VDict [((u "$ref"), (VStr (u "#/channels/lightTurnOn/messages/turnOn")))])]))])); ((u "turnOff"), (VDict [((u "action"), (VStr (u "send"))); ((u "channel"), (VDict [((u "$ref"), (VStr (u "#/channels/lightTurnOff")))])); ((u "traits"), (VList [(VDict [((u "$ref"), (VStr (u "#/components/operationTraits/kafka")))])])); ((u "messages"), (VList [(VDict [((u "$ref"), (VStr (u "#/channels/lightTurnOff/messages/turnOff")))])]))])); ((u "dimLight"), (VDict [((u "action"), (VStr (u "send"))); ((u "channel"), (VDict [((u "$ref"), (VStr (u "#/channels/lightsDim")))])); ((u "traits"), (VList [(VDict [((u "$ref"), (VStr (u "#/components/operationTraits/kafka")))])])); ((u "messages"), (VList [(VDict [((u "$ref"), (VStr (u "#/channels/lightsDim/messages/dimLight")))])]))]))])); ((u "components"), (VDict [((u "messages"), (VDict [((u "lightMeasured"), (VDict [((u "name"), (VStr (u "lightMeasured"))); ((u "title"), (VStr (u "Light measured"))); ((u "summary"), (VStr (u "Inform about environmental lighting conditions of a particular streetlight."))); ((u "contentType"), (VStr (u "application/json"))); ((u "traits"), (VList [(VDict [((u "$ref"), (VStr (u "#/components/messageTraits/commonHeaders")))])])); ((u "payload"), (VDict [((u "$ref"), (VStr (u "#/components/schemas/lightMeasuredPayload")))]))])); ((u "turnOnOff"), (VDict [((u "name"), (VStr (u "turnOnOff"))); ((u "title"), (VStr (u "Turn on/off"))); ((u "summary"), (VStr (u "Command a particular streetlight to turn the lights on or off."))); ((u "traits"), (VList [(VDict [((u "$ref"), (VStr (u "#/components/messageTraits/commonHeaders")))])])); ((u "payload"), (VDict [((u "$ref"), (VStr (u "#/components/schemas/turnOnOffPayload")))]))])); ((u "dimLight"), (VDict [((u "name"), (VStr (u "dimLight"))); ((u "title"), (VStr (u "Dim light"))); ((u "summary"), (VStr (u "Command a particular streetlight to dim the lights."))); ((u "traits"), (VList [(VDict [((u "$ref"), (VStr (u "#/components/messageTraits/commonHeaders")))])])); ((u "payload"), (VDict [((u "$ref"), (VStr (u "#/components/schemas/dimLightPayload")))]))]))])); ((u "schemas"), (VDict [((u "lightMeasuredPayload"), (VDict [((u "type"), (VStr (u "object"))); ((u "properties"), (VDict [((u "lumens"), (VDict [((u "type"), (VStr (u "integer"))); ((u "minimum"), (VInt (0)%Z)); ((u "description"), (VStr (u "Light intensity measured in lumens.")))])); ((u "sentAt"), (VDict [((u "$ref"), (VStr (u "#/components/schemas/sentAt")))]))]))])); ((u "turnOnOffPayload"), (VDict [((u "type"), (VStr (u "object"))); ((u "properties"), (VDict [((u "command"), (VDict [((u "type"), (VStr (u "string"))); ((u "enum"), (VList [(VStr (u "on")); (VStr (u "off"))])); ((u "description"), (VStr (u "Whether to turn on or off the light.")))])); ((u "sentAt"), (VDict [((u "$ref"), (VStr (u "#/components/schemas/sentAt")))]))]))])); ((u "dimLightPayload"), (VDict [((u "type"), (VStr (u "object"))); ((u "properties"), (VDict [((u "percentage"), (VDict [((u "type"), (VStr (u "integer"))); ((u "description"), (VStr (u "Percentage to which the light should be dimmed to."))); ((u "minimum"), (VInt (0)%Z)); ((u "maximum"), (VInt (100)%Z))])); ((u "sentAt"), (VDict [((u "$ref"), (VStr (u "#/components/schemas/sentAt")))]))]))])); ((u "sentAt"), (VDict [((u "type"), (VStr (u "string"))); ((u "format"), (VStr (u "date-time"))); ((u "description"), (VStr (u "Date and time when the message was sent.")))]))])); ((u "securitySchemes"), (VDict [((u "saslScram"), (VDict [((u "type"), (VStr (u "scramSha256"))); ((u "description"), (VStr (u "Provide your username and password for SASL/SCRAM authentication")))])); ((u "certs"), (VDict [((u "type"), (VStr (u "X509"))); ((u "description"), (VStr (u "Download the certificate files from service provider")))]))])); ((u "parameters"), (VDict [((u "streetlightId"), (VDict [((u "description"), (VStr (u "The ID of the streetlight.")))]))])); ((u "messageTraits"), (VDict [((u "commonHeaders"), (VDict [((u "headers"), (VDict [((u "type"), (VStr (u "object"))); ((u "properties"), (VDict [((u "my-app-header"), (VDict [((u "type"), (VStr (u "integer"))); ((u "minimum"), (VInt (0)%Z)); ((u "maximum"), (VInt (100)%Z))]))]))]))]))])); ((u "operationTraits"), (VDict [((u "kafka"), (VDict [((u "bindings"), (VDict [((u "kafka"), (VDict [((u "clientId"), (VDict [((u "type"), (VStr (u "string"))); ((u "enum"), (VList [(VStr (u "my-app-id"))]))]))]))]))]))]))]))])))];
t "fixtures/json_specs/valid/gitter.json" [SDo (XNew "AsyncAPI3" (XVal (VDict [((u "asyncapi"), (VStr (u "3.0.0"))); ((u "id"), (VStr (u "tag:stream.gitter.im,2022:api"))); ((u "info"), (VDict [((u "title"), (VStr (u "Gitter Streaming API"))); ((u "version"), (VStr (u "1.0.0")))])); ((u "servers"), (VDict [((u "production"), (VDict [((u "host"), (VStr (u "stream.gitter.im"))); ((u "pathname"), (VStr (u "/v1"))); ((u "protocol"), (VStr (u "https"))); ((u "protocolVersion"), (VStr (u "1.1"))); ((u "security"), (VList [(VDict [((u "$ref"), (VStr (u "#/components/securitySchemes/httpBearerToken")))])]))]))])); ((u "channels"), (VDict [((u "rooms"), (VDict [((u "address"), (VStr (u "/rooms/{roomId}/{resource}"))); ((u "messages"), (VDict [((u "chatMessage"), (VDict [((u "$ref"), (VStr (u "#/components/messages/chatMessage")))])); ((u "heartbeat"), (VDict [((u "$ref"), (VStr (u "#/components/messages/heartbeat")))]))])); ((u "parameters"), (VDict [((u "roomId"), (VDict [((u "description"), (VStr (u "Id of the Gitter room."))); ((u "examples"), (VList [(VStr (u "53307860c3599d1de448e19d"))]))])); ((u "resource"), (VDict [((u "enum"), (VList [(VStr (u "chatMessages")); (VStr (u "events"))])); ((u "description"), (VStr (u "The resource to consume.")))]))]))]))])); ((u "operations"), (VDict [((u "sendRoomInfo"), (VDict [((u "action"), (VStr (u "send"))); ((u "channel"), (VDict [((u "$ref"), (VStr (u "#/channels/rooms")))])); ((u "bindings"), (VDict [((u "http"), (VDict [((u "method"), (VStr (u "POST")))]))])); ((u "messages"), (VList [(VDict [((u "$ref"), (VStr (u "#/channels/rooms/messages/chatMessage")))]); (VDict [((u "$ref"), (VStr (u "#/channels/rooms/messages/heartbeat")))])]))]))])); ((u "components"), (VDict [((u "securitySchemes"), (VDict [((u "httpBearerToken"), (VDict [((u "type"), (VStr (u "http"))); ((u "scheme"), (VStr (u "bearer")))]))])); ((u "messages"), (VDict [((u "chatMessage"), (VDict [((u "summary"), (VStr (u "A message represents an individual chat message sent to a room. They are a sub-resource of a room."))); ((u "payload"), (VDict [((u "schemaFormat"), (VStr (u "application/schema+yaml;version=draft-07"))); ((u "schema"), (VDict [((u "type"), (VStr (u "object"))); ((u "properties"), (VDict [((u "id"), (VDict [((u "type"), (VStr (u "string"))); ((u "description"), (VStr (u "ID of the message.")))])); ((u "text"), (VDict [((u "type"), (VStr (u "string"))); ((u "description"), (VStr (u "Original message in plain-text/markdown.")))])); ((u "html"), (VDict [((u "type"), (VStr (u "string"))); ((u "description"), (VStr (u "HTML formatted message.")))])); ((u "sent"), (VDict [((u "type"), (VStr (u "string"))); ((u "format"), (VStr (u "date-time"))); ((u "description"), (VStr (u "ISO formatted date of the message.")))])); ((u "fromUser"), (VDict [((u "type"), (VStr (u "object"))); ((u "description"), (VStr (u "User that sent the message."))); ((u "properties"), (VDict [((u "id"), (VDict [((u "type"), (VStr (u "string"))); ((u "description"), (VStr (u "Gitter User ID.")))])); ((u "username"), (VDict [((u "type"), (VStr (u "string"))); ((u "description"), (VStr (u "Gitter/GitHub username.")))])); ((u "displayName"), (VDict [((u "type"), (VStr (u "string"))); ((u "description"), (VStr (u "Gitter/GitHub user real name.")))])); ((u "url"), (VDict [((u "type"), (VStr (u "string"))); ((u "description"), (VStr (u "Path to the user on Gitter.")))])); ((u "avatarUrl"), (VDict [((u "type"), (VStr (u "string"))); ((u "format"), (VStr (u "uri"))); ((u "description"), (VStr (u "User avatar URI.")))])); ((u "avatarUrlSmall"), (VDict [((u "type"), (VStr (u "string"))); ((u "format"), (VStr (u "uri"))); ((u "description"), (VStr (u "User avatar URI (small).")))])); ((u "avatarUrlMedium"), (VDict [((u "type"), (VStr (u "string"))); ((u "format"), (VStr (u "uri"))); ((u "description"), (VStr (u "User avatar URI (medium).")))])); ((u "v"), (VDict [((u "type"), (VStr (u "number"))); ((u "description"), (VStr (u "Version.")))])); ((u "gv"), (VDict [((u "type"), (VStr (u "string"))); ((u "description"), (VStr (u "Stands for ""Gravatar version"" and is used for cache busting.")))]))]))])); ((u "unread"), (VDict [((u "type"), (VStr (u "boolean"))); ((u "description"), (VStr (u "Boolean that indicates if the current user has read the message.")))])); ((u "readBy"), (VDict [((u "type"), (VStr (u "number"))); ((u "description"), (VStr (u "Number of users that have read the message.")))])); ((u "urls"), (VDict [((u "type"), (VStr (u "array"))); ((u "description"), (VStr (u "List of URLs present in the message."))); ((u "items"), (VDict [((u "type"), (VStr (u "string"))); ((u "format"), (VStr (u "uri")))]))])); ((u "mentions"), (VDict [((u "type"), (VStr (u "array"))); ((u "description"), (VStr (u "List of @Mentions in the message."))); ((u "items"), (VDict [((u "type"), (VStr (u "object"))); ((u "properties"), (VDict [((u "screenName"), (VDict [((u "type"), (VStr (u "string")))])); ((u "userId"), (VDict [((u "type"), (VStr (u "string")))])); ((u "userIds"), (VDict [((u "type"), (VStr (u "array"))); ((u "items"), (VDict [((u "type"), (VStr (u "string")))]))]))]))]))])); ((u "issues"), (VDict [((u "type"), (VStr (u "array"))); ((u "description"), (VStr (u "List of #Issues referenced in the message."))); ((u "items"), (VDict [((u "type"), (VStr (u "object"))); ((u "properties"), (VDict [((u "number"), (VDict [((u "type"), (VStr (u "string")))]))]))]))])); ((u "meta"), (VDict [((u "type"), (VStr (u "array"))); ((u "description"), (VStr (u "Metadata. This is currently not used for anything."))); ((u "items"), (VDict []))])); ((u "v"), (VDict [((u "type"), (VStr (u "number"))); ((u "description"), (VStr (u "Version.")))])); ((u "gv"), (VDict [((u "type"), (VStr (u "string"))); ((u "description"), (VStr (u "Stands for ""Gravatar version"" and is used for cache busting.")))]))]))]))])); ((u "bindings"), (VDict [((u "http"), (VDict [((u "headers"), (VDict [((u "type"), (VStr (u "object"))); ((u "properties"), (VDict [((u "Transfer-Encoding"), (VDict [((u "type"), (VStr (u "string"))); ((u "const"), (VStr (u "chunked")))])); ((u "Trailer"), (VDict [((u "type"), (VStr (u "string"))); ((u "const"), (VStr (u "\r\n")))]))]))]))]))]))])); ((u "heartbeat"), (VDict [((u "summary"), (VStr (u "Its purpose is to keep the connection alive."))); ((u "payload"), (VDict [((u "schemaFormat"), (VStr (u "application/schema+yaml;version=draft-07"))); ((u "schema"), (VDict [((u "type"), (VStr (u "string"))); ((u "enum"), (VList [(VStr [13; 10]%N)]))]))])); ((u "bindings"), (VDict [((u "http"), (VDict [((u "headers"), (VDict [((u "type"), (VStr (u "object"))); ((u "properties"), (VDict [((u "Transfer-Encoding"), (VDict [((u "type"), (VStr (u "string"))); ((u "const"), (VStr (u "chunked")))])); ((u "Trailer"), (VDict [((u "type"), (VStr (u "string"))); ((u "const"), (VStr (u "\r\n")))]))]))]))]))]))]))]))]))])))];
t "fixtures/json_specs/valid/http.json" [SDo (XNew "AsyncAPI3" (XVal (VDict [((u "asyncapi"), (VStr (u "3.0.0"))); ((u "id"), (VStr (u "tag:stream.gitter.im,2022:api"))); ((u "info"), (VDict [((u "title"), (VStr (u "Gitter Streaming API"))); ((u "version"), (VStr (u "1.0.0")))])); ((u "servers"), (VDict [((u "production"), (VDict [((u "host"), (VStr (u "stream.gitter.im"))); ((u "pathname"), (VStr (u "/v1"))); ((u "protocol"), (VStr (u "https"))); ((u "protocolVersion"), (VStr (u "1.1"))); ((u "security"), (VList [(VDict [((u "$ref"), (VStr (u "#/components/securitySchemes/httpBearerToken")))])]))]))])); ((u "channels"), (VDict [((u "rooms"), (VDict [((u "address"), (VStr (u "/rooms/{roomId}/{resource}"))); ((u "messages"), (VDict [((u "chatMessage"), (VDict [((u "$ref"), (VStr (u "#/components/messages/chatMessage")))])); ((u "heartbeat"), (VDict [((u "$ref"), (VStr (u "#/components/messages/heartbeat")))]))])); ((u "parameters"), (VDict [((u "roomId"), (VDict [((u "description"), (VStr (u "Id of the Gitter room."))); ((u "examples"), (VList [(VStr (u "53307860c3599d1de448e19d"))]))])); ((u "resource"), (VDict [((u "enum"), (VList [(VStr (u "chatMessages")); (VStr (u "events"))])); ((u "description"), (VStr (u "The resource to consume.")))]))]))]))])); ((u "operations"), (VDict [((u "sendRoomInfo"), (VDict [((u "action"), (VStr (u "send"))); ((u "channel"), (VDict [((u "$ref"), (VStr (u "#/channels/rooms")))])); ((u "bindings"), (VDict [((u "http"), (VDict [((u "method"), (VStr (u "POST")))]))])); ((u "messages"), (VList [(VDict [((u "$ref"), (VStr (u "#/channels/rooms/messages/chatMessage")))]); (VDict [((u "$ref"), (VStr (u "#/channels/rooms/messages/heartbeat")))])]))]))])); ((u "components"), (VDict [((u "securitySchemes"), (VDict [((u "httpBearerToken"), (VDict [((u "type"), (VStr (u "http"))); ((u "scheme"), (VStr (u "bearer")))]))])); ((u "messages"), (VDict [((u "chatMessage"), (VDict [((u "summary"), (VStr (u "A message represents an individual chat message sent to a room. They are a sub-resource of a room."))); ((u "payload"), (VDict [((u "schemaFormat"), (VStr (u "application/schema+yaml;version=draft-07"))); ((u "schema"), (VDict [((u "type"), (VStr (u "object"))); ((u "properties"), (VDict [((u "id"), (VDict [((u "type"), (VStr (u "string"))); ((u "description"), (VStr (u "ID of the message.")))])); ((u "text"), (VDict [((u "type"), (VStr (u "string"))); ((u "description"), (VStr (u "Original message in plain-text/markdown.")))])); ((u "html"), (VDict [((u "type"), (VStr (u "string"))); ((u "description"), (VStr (u "HTML formatted message.")))])); ((u "sent"), (VDict [((u "type"), (VStr (u "string"))); ((u "format"), (VStr (u "date-time"))); ((u "description"), (VStr (u "ISO formatted date of the message.")))])); ((u "fromUser"), (VDict [((u "type"), (VStr (u "object"))); ((u "description"), (VStr (u "User that sent the message."))); ((u "properties"), (VDict [((u "id"), (VDict [((u "type"), (VStr (u "string"))); ((u "description"), (VStr (u "Gitter User ID.")))])); ((u "username"), (VDict [((u "type"), (VStr (u "string"))); ((u "description"), (VStr (u "Gitter/GitHub username.")))])); ((u "displayName"), (VDict [((u "type"), (VStr (u "string"))); ((u "description"), (VStr (u "Gitter/GitHub user real name.")))])); ((u "url"), (VDict [((u "type"), (VStr (u "string"))); ((u "description"), (VStr (u "Path to the user on Gitter.")))])); ((u "avatarUrl"), (VDict [((u "type"), (VStr (u "string"))); ((u "format"), (VStr (u "uri"))); ((u "description"), (VStr (u "User avatar URI.")))])); ((u "avatarUrlSmall"), (VDict [((u "type"), (VStr (u "string"))); ((u "format"), (VStr (u "uri"))); ((u "description"), (VStr (u "User avatar URI (small).")))])); ((u "avatarUrlMedium"), (VDict [((u "type"), (VStr (u "string"))); ((u "format"), (VStr (u "uri"))); ((u "description"), (VStr (u "User avatar URI (medium).")))])); ((u "v"), (VDict [((u "type"), (VStr (u "number"))); ((u "description"), (VStr (u "Version.")))])); ((u "gv"), (VDict [((u "type"), (VStr (u "string"))); ((u "description"), (VStr (u "Stands for ""Gravatar version"" and is used for cache busting.")))]))]))])); ((u "unread"), (VDict [((u "type"), (VStr (u "boolean"))); ((u "description"), (VStr (u "Boolean that indicates if the current user has read the message.")))])); ((u "readBy"), (VDict [((u "type"), (VStr (u "number"))); ((u "description"), (VStr (u "Number of users that have read the message.")))])); ((u "urls"), (VDict [((u "type"), (VStr (u "array"))); ((u "description"), (VStr (u "List of URLs present in the message."))); ((u "items"), (VDict [((u "type"), (VStr (u "string"))); ((u "format"), (VStr (u "uri")))]))])); ((u "mentions"), (VDict [((u "type"), (VStr (u "array"))); ((u "description"), (VStr (u "List of @Mentions in the message."))); ((u "items"), (VDict [((u "type"), (VStr (u "object"))); ((u "properties"), (VDict [((u "screenName"), (VDict [((u "type"), (VStr (u "string")))])); ((u "userId"), (VDict [((u "type"), (VStr (u "string")))])); ((u "userIds"), (VDict [((u "type"), (VStr (u "array"))); ((u "items"), (VDict [((u "type"), (VStr (u "string")))]))]))]))]))])); ((u "issues"), (VDict [((u "type"), (VStr (u "array"))); ((u "description"), (VStr (u "List of #Issues referenced in the message."))); ((u "items"), (VDict [((u "type"), (VStr (u "object"))); ((u "properties"), (VDict [((u "number"), (VDict [((u "type"), (VStr (u "string")))]))]))]))])); ((u "meta"), (VDict [((u "type"), (VStr (u "array"))); ((u "description"), (VStr (u "Metadata. This is currently not used for anything."))); ((u "items"), (VDict []))])); ((u "v"), (VDict [((u "type"), (VStr (u "number"))); ((u "description"), (VStr (u "Version.")))])); ((u "gv"), (VDict [((u "type"), (VStr (u "string"))); ((u "description"), (VStr (u "Stands for ""Gravatar version"" and is used for cache busting.")))]))]))]))])); ((u "bindings"), (VDict [((u "http"), (VDict [((u "headers"), (VDict [((u "type"), (VStr (u "object"))); ((u "properties"), (VDict [((u "Transfer-Encoding"), (VDict [((u "type"), (VStr (u "string"))); ((u "const"), (VStr (u "chunked")))])); ((u "Trailer"), (VDict [((u "type"), (VStr (u "string"))); ((u "const"), (VStr (u "\r\n")))]))]))]))]))]))])); ((u "heartbeat"), (VDict [((u "summary"), (VStr (u "Its purpose is to keep the connection alive."))); ((u "payload"), (VDict [((u "schemaFormat"), (VStr (u "application/schema+yaml;version=draft-07"))); ((u "schema"), (VDict [((u "type"), (VStr (u "string"))); ((u "enum"), (VList [(VStr [13; 10]%N)]))]))])); ((u "bindings"), (VDict [((u "http"), (VDict [((u "headers"), (VDict [((u "type"), (VStr (u "object"))); ((u "properties"), (VDict [((u "Transfer-Encoding"), (VDict [((u "type"), (VStr (u "string"))); ((u "const"), (VStr (u "chunked")))])); ((u "Trailer"), (VDict [((u "type"), (VStr (u "string"))); ((u "const"), (VStr (u "\r\n")))]))]))]))]))]))]))]))]))])))];
t "fixtures/json_specs/valid/ibm_mq.json" [SDo (XNew "AsyncAPI3" (XVal (VDict [((u "asyncapi"), (VStr (u "3.0.0"))); ((u "info"), (VDict [((u "title"), (VStr (u "Record Label Service"))); ((u "version"), (VStr (u "1.1.0"))); ((u "description"), (VStr (u "This service is in charge of processing music"))); ((u "license"), (VDict [((u "name"), (VStr (u "Apache License 2.0"))); ((u "url"), (VStr (u "https://www.apache.org/licenses/LICENSE-2.0")))]))])); ((u "servers"), (VDict [((u "production"), (VDict [((u "host"), (VStr (u "localhost:1414"))); ((u "pathname"), (VStr (u "/QM1/DEV.APP.SVRCONN"))); ((u "protocol"), (VStr (u "ibmmq-secure"))); ((u "description"), (VStr (u "Production Instance 1"))); ((u "bindings"), (VDict [((u "ibmmq"), (VDict [((u "cipherSpec"), (VStr (u "ANY_TLS12")))]))]))]))])); ((u "channels"), (VDict [((u "songReleased"), (VDict [((u "address"), (VStr (u "song/released"))); ((u "messages"), (VDict [((u "Song"), (VDict [((u "$ref"), (VStr (u "#/components/messages/Song")))]))]))]))])); ((u "operations"), (VDict [((u "receiveSong"), (VDict [((u "action"), (VStr (u "receive"))); ((u "channel"), (VDict [((u "$ref"), (VStr (u "#/channels/songReleased")))])); ((u "messages"), (VList [(VDict [((u "$ref"), (VStr (u "#/channels/songReleased/messages/Song")))])]))])); ((u "sendSong"), (VDict [((u "action"), (VStr (u "send"))); ((u "channel"), (VDict [((u "$ref"), (VStr (u "#/channels/songReleased")))])); ((u "messages"), (VList [(VDict [((u "$ref"), (VStr (u "#/channels/songReleased/messages/Song")))])]))]))])); ((u "components"), (VDict [((u "messages"), (VDict [((u "Song"), (VDict [((u "payload"), (VDict [((u "type"), (VStr (u "object"))); ((u "properties"), (VDict [((u "title"), (VDict [((u "type"), (VStr (u "string"))); ((u "description"), (VStr (u "Song title")))])); ((u "artist"), (VDict [((u "type"), (VStr (u "string"))); ((u "description"), (VStr (u "Song artist")))])); ((u "album"), (VDict [((u "type"), (VStr (u "string"))); ((u "description"), (VStr (u "Song album")))])); ((u "genre"), (VDict [((u "type"), (VStr (u "string"))); ((u "description"), (VStr (u "Primary song genre")))])); ((u "length"), (VDict [((u "type"), (VStr (u "integer"))); ((u "description"), (VStr (u "Track length in seconds")))]))]))]))]))]))]))])))];
t "fixtures/json_specs/valid/kraken.json" [SDo (XNew "AsyncAPI3" (XVal (VDict [((u "asyncapi"), (VStr (u "3.0.0"))); ((u "info"), (VDict [((u "title"), (VStr (u "Kraken Websockets API"))); ((u "version"), (VStr (u "1.8.0"))); ((u "description"), (VStr [87; 101; 98; 83; 111; 99; 107; 101; 116; 115; 32; 65; 80; 73; 32; 111; 102; 102; 101; 114; 115; 32; 114; 101; 97; 108; 45; 116; 105; 109; 101; 32; 109; 97; 114; 107; 101; 116; 32; 100; 97; 116; 97; 32; 117; 112; 100; 97; 116; 101; 115; 46; 32; 87; 101; 98; 83; 111; 99; 107; 101; 116; 115; 32; 105; 115; 32; 97; 32; 98; 105; 100; 105; 114; 101; 99; 116; 105; 111; 110; 97; 108; 32; 112; 114; 111; 116; 111; 99; 111; 108; 32; 111; 102; 102; 101; 114; 105; 110; 103; 32; 102; 97; 115; 116; 101; 115; 116; 32; 114; 101; 97; 108; 45; 116; 105; 109; 101; 32; 100; 97; 116; 97; 44; 32; 104; 101; 108; 112; 105; 110; 103; 32; 121; 111; 117; 32; 98; 117; 105; 108; 100; 32; 114; 101; 97; 108; 45; 116; 105; 109; 101; 32; 97; 112; 112; 108; 105; 99; 97; 116; 105; 111; 110; 115; 46; 32; 84; 104; 101; 32; 112; 117; 98; 108; 105; 99; 32; 109; 101; 115; 115; 97; 103; 101; 32; 116; 121; 112; 101; 115; 32; 112; 114; 101; 115; 101; 110; 116; 101; 100; 32; 98; 101; 108; 111; 119; 32; 100; 111; 32; 110; 111; 116; 32; 114; 101; 113; 117; 105; 114; 101; 32; 97; 117; 116; 104; 101; 110; 116; 105; 99; 97; 116; 105; 111; 110; 46; 32; 80; 114; 105; 118; 97; 116; 101; 45; 100; 97; 116; 97; 32; 109; 101; 115; 115; 97; 103; 101; 115; 32; 99; 97; 110; 32; 98; 101; 32; 115; 117; 98; 115; 99; 114; 105; 98; 101; 100; 32; 111; 110; 32; 97; 32; 115; 101; 112; 97; 114; 97; 116; 101; 32; 97; 117; 116; 104; 101; 110; 116; 105; 99; 97; 116; 101; 100; 32; 101; 110; 100; 112; 111; 105; 110; 116; 46; 32; 10; 10; 35; 35; 35; 32; 71; 101; 110; 101; 114; 97; 108; 32; 67; 111; 110; 115; 105; 100; 101; 114; 97; 116; 105; 111; 110; 115; 10; 10; 45; 32; 84; 76; 83; 32; 119; 105; 116; 104; 32; 83; 78; 73; 32; 40; 83; 101; 114; 118; 101; 114; 32; 78; 97; 109; 101; 32; 73; 110; 100; 105; 99; 97; 116; 105; 111; 110; 41; 32; 105; 115; 32; 114; 101; 113; 117; 105; 114; 101; 100; 32; 105; 110; 32; 111; 114; 100; 101; 114; 32; 116; 111; 32; 101; 115; 116; 97; 98; 108; 105; 115; 104; 32; 97; 32; 75; 114; 97; 107; 101; 110; 32; 87; 101; 98; 83; 111; 99; 107; 101; 116; 115; 32; 65; 80; 73; 32; 99; 111; 110; 110; 101; 99; 116; 105; 111; 110; 46; 32; 83; 101; 101; 32; 67; 108; 111; 117; 100; 102; 108; 97; 114; 101; 39; 115; 32; 91; 87; 104; 97; 116; 32; 105; 115; 32; 83; 78; 73; 63; 93; 40; 104; 116; 116; 112; 115; 58; 47; 47; 119; 119; 119; 46; 99; 108; 111; 117; 100; 102; 108; 97; 114; 101; 46; 99; 111; 109; 47; 108; 101; 97; 114; 110; 105; 110; 103; 47; 115; 115; 108; 47; 119; 104; 97; 116; 45; 105; 115; 45; 115; 110; 105; 47; 41; 32; 103; 117; 105; 100; 101; 32; 102; 111; 114; 32; 109; 111; 114; 101; 32; 100; 101; 116; 97; 105; 108; 115; 46; 10; 45; 32; 65; 108; 108; 32; 109; 101; 115; 115; 97; 103; 101; 115; 32; 115; 101; 110; 116; 32; 97; 110; 100; 32; 114; 101; 99; 101; 105; 118; 101; 100; 32; 118; 105; 97; 32; 87; 101; 98; 83; 111; 99; 107; 101; 116; 115; 32; 97; 114; 101; 32; 101; 110; 99; 111; 100; 101; 100; 32; 105; 110; 32; 74; 83; 79; 78; 32; 102; 111; 114; 109; 97; 116; 10; 45; 32; 65; 108; 108; 32; 100; 101; 99; 105; 109; 97; 108; 32; 102; 105; 101; 108; 100; 115; 32; 40; 105; 110; 99; 108; 117; 100; 105; 110; 103; 32; 116; 105; 109; 101; 115; 116; 97; 109; 112; 115; 41; 32; 97; 114; 101; 32; 113; 117; 111; 116; 101; 100; 32; 116; 111; 32; 112; 114; 101; 115; 101; 114; 118; 101; 32; 112; 114; 101; 99; 105; 115; 105; 111; 110; 46; 10; 45; 32; 84; 105; 109; 101; 115; 116; 97; 109; 112; 115; 32; 115; 104; 111; 117; 108; 100; 32; 110; 111; 116; 32; 98; 101; 32; 99; 111; 110; 115; 105; 100; 101; 114; 101; 100; 32; 117; 110; 105; 113; 117; 101; 32; 97; 110; 100; 32; 110; 111; 116; 32; 98; 101; 32; 99; 111; 110; 115; 105; 100; 101; 114; 101; 100; 32; 97; 115; 32; 97; 108; 105; 97; 115; 101; 115; 32; 102; 111; 114; 32; 116; 114; 97; 110; 115; 97; 99; 116; 105; 111; 110; 32; 73; 68; 115; 46; 32; 65; 108; 115; 111; 44; 32; 116; 104; 101; 32; 103; 114; 97; 110; 117; 108; 97; 114; 105; 116; 121; 32; 111; 102; 32; 116; 105; 109; 101; 115; 116; 97; 109; 112; 115; 32; 105; 115; 32; 110; 111; 116; 32; 114; 101; 112; 114; 101; 115; 101; 110; 116; 97; 116; 105; 118; 101; 32; 111; 102; 32; 116; 114; 97; 110; 115; 97; 99; 116; 105; 111; 110; 32; 114; 97; 116; 101; 115; 46; 10; 45; 32; 65; 116; 32; 108; 101; 97; 115; 116; 32; 111; 110; 101; 32; 112; 114; 105; 118; 97; 116; 101; 32; 109; 101; 115; 115; 97; 103; 101; 32; 115; 104; 111; 117; 108; 100; 32; 98; 101; 32; 115; 117; 98; 115; 99; 114; 105; 98; 101; 100; 32; 116; 111; 32; 107; 101; 101; 112; 32; 116; 104; 101; 32; 97; 117; 116; 104; 101; 110; 116; 105; 99; 97; 116; 101; 100; 32; 99; 108; 105; 101; 110; 116; 32; 99; 111; 110; 110; 101; 99; 116; 105; 111; 110; 32; 111; 112; 101; 110; 46; 10; 45; 32; 80; 108; 101; 97; 115; 101; 32; 117; 115; 101; 32; 82; 69; 83; 84; 32; 65; 80; 73; 32; 101; 110; 100; 112; 111; 105; 110; 116; 32; 91; 65; 115; 115; 101; 116; 80; 97; 105; 114; 115; 93; 40; 104; 116; 116; 112; 115; 58; 47; 47; 119; 119; 119; 46; 107; 114; 97; 107; 101; 110; 46; 99; 111; 109; 47; 102; 101; 97; 116; 117; 114; 101; 115; 47; 97; 112; 105; 35; 103; 101; 116; 45; 116; 114; 97; 100; 97; 98; 108; 101; 45; 112; 97; 105; 114; 115; 41; 32; 116; 111; 32; 102; 101; 116; 99; 104; 32; 116; 104; 101; 32; 108; 105; 115; 116; 32; 111; 102; 32; 112; 97; 105; 114; 115; 32; 119; 104; 105; 99; 104; 32; 99; 97; 110; 32; 98; 101; 32; 115; 117; 98; 115; 99; 114; 105; 98; 101; 100; 32; 118; 105; 97; 32; 87; 101; 98; 83; 111; 99; 107; 101; 116; 115; 32; 65; 80; 73; 46; 32; 70; 111; 114; 32; 101; 120; 97; 109; 112; 108; 101; 44; 32; 102; 105; 101; 108; 100; 32; 39; 119; 115; 110; 97; 109; 101; 39; 32; 103; 105; 118; 101; 115; 32; 116; 104; 101; 32; 115; 117; 112; 112; 111; 114; 116; 101; 100; 32; 112; 97; 105; 114; 115; 32; 110; 97; 109; 101; 32; 119; 104; 105; 99; 104; 32; 99; 97; 110; 32; 98; 101; 32; 117; 115; 101; 100; 32; 116; 111; 32; 115; 117; 98; 115; 99; 114; 105; 98; 101; 46; 10; 45; 32; 67; 108; 111; 117; 100; 102; 108; 97; 114; 101; 32; 105; 109; 112; 111; 115; 101; 115; 32; 97; 32; 99; 111; 110; 110; 101; 99; 116; 105; 111; 110; 47; 114; 101; 45; 99; 111; 110; 110; 101; 99; 116; 105; 111; 110; 32; 114; 97; 116; 101; 32; 108; 105; 109; 105; 116; 32; 40; 112; 101; 114; 32; 73; 80; 32; 97; 100; 100; 114; 101; 115; 115; 41; 32; 111; 102; 32; 97; 112; 112; 114; 111; 120; 105; 109; 97; 116; 101; 108; 121; 32; 49; 53; 48; 32; 97; 116; 116; 101; 109; 112; 116; 115; 32; 112; 101; 114; 32; 114; 111; 108; 108; 105; 110; 103; 32; 49; 48; 32; 109; 105; 110; 117; 116; 101; 115; 46; 32; 73; 102; 32; 116; 104; 105; 115; 32; 105; 115; 32; 101; 120; 99; 101; 101; 100; 101; 100; 44; 32; 116; 104; 101; 32; 73; 80; 32; 105; 115; 32; 98; 97; 110; 110; 101; 100; 32; 102; 111; 114; 32; 49; 48; 32; 109; 105; 110; 117; 116; 101; 115; 46; 10; 45; 32; 82; 101; 99; 111; 109; 109; 101; 110; 100; 101; 100; 32; 114; 101; 99; 111; 110; 110; 101; 99; 116; 105; 111; 110; 32; 98; 101; 104; 97; 118; 105; 111; 117; 114; 32; 105; 115; 32; 116; 111; 32; 40; 49; 41; 32; 97; 116; 116; 101; 109; 112; 116; 32; 114; 101; 99; 111; 110; 110; 101; 99; 116; 105; 111; 110; 32; 105; 110; 115; 116; 97; 110; 116; 108; 121; 32; 117; 112; 32; 116; 111; 32; 97; 32; 104; 97; 110; 100; 102; 117; 108; 32; 111; 102; 32; 116; 105; 109; 101; 115; 32; 105; 102; 32; 116; 104; 101; 32; 119; 101; 98; 115; 111; 99; 107; 101; 116; 32; 105; 115; 32; 100; 114; 111; 112; 112; 101; 100; 32; 114; 97; 110; 100; 111; 109; 108; 121; 32; 100; 117; 114; 105; 110; 103; 32; 110; 111; 114; 109; 97; 108; 32; 111; 112; 101; 114; 97; 116; 105; 111; 110; 32; 98; 117; 116; 32; 40; 50; 41; 32; 97; 102; 116; 101; 114; 32; 109; 97; 105; 110; 116; 101; 110; 97; 110; 99; 101; 32; 111; 114; 32; 101; 120; 116; 101; 110; 100; 101; 100; 32; 100; 111; 119; 110; 116; 105; 109; 101; 44; 32; 97; 116; 116; 101; 109; 112; 116; 32; 116; 111; 32; 114; 101; 99; 111; 110; 110; 101; 99; 116; 32; 110; 111; 32; 109; 111; 114; 101; 32; 113; 117; 105; 99; 107; 108; 121; 32; 116; 104; 97; 110; 32; 111; 110; 99; 101; 32; 101; 118; 101; 114; 121; 32; 53; 32; 115; 101; 99; 111; 110; 100; 115; 46; 32; 84; 104; 101; 114; 101; 32; 105; 115; 32; 110; 111; 32; 97; 100; 118; 97; 110; 116; 97; 103; 101; 32; 116; 111; 32; 114; 101; 99; 111; 110; 110; 101; 99; 116; 105; 110; 103; 32; 109; 111; 114; 101; 32; 114; 97; 112; 105; 100; 108; 121; 32; 97; 102; 116; 101; 114; 32; 109; 97; 105; 110; 116; 101; 110; 97; 110; 99; 101; 32; 100; 117; 114; 105; 110; 103; 32; 99; 97; 110; 99; 101; 108; 95; 111; 110; 108; 121; 32; 109; 111; 100; 101; 46; 10]%N))])); ((u "channels"), (VDict [((u "currencyExchange"), (VDict [((u "address"), (VStr (u "/"))); ((u "messages"), (VDict [((u "ping"), (VDict [((u "$ref"), (VStr (u "#/components/messages/ping")))])); ((u "pong"), (VDict [((u "$ref"), (VStr (u "#/components/messages/pong")))])); ((u "heartbeat"), (VDict [((u "$ref"), (VStr (u "#/components/messages/heartbeat")))])); ((u "systemStatus"), (VDict [((u "$ref"), (VStr (u "#/components/messages/systemStatus")))])); ((u "subscriptionStatus"), (VDict [((u "$ref"), (VStr (u "#/components/messages/subscriptionStatus")))])); ((u "subscribe"), (VDict [((u "$ref"), (VStr (u "#/components/messages/subscribe")))])); ((u "unsubscribe"), (VDict [((u "$ref"), (VStr (u "#/components/messages/unsubscribe")))])); ((u "dummyCurrencyInfo"), (VDict [((u "$ref"), (VStr (u "#/components/messages/dummyCurrencyInfo")))]))]))]))])); ((u "operations"), (VDict [((u "receivePing"), (VDict [((u "action"), (VStr (u "receive"))); ((u "channel"), (VDict [((u "$ref"), (VStr (u "#/channels/currencyExchange")))])); ((u "reply"), (VDict [((u "channel"), (VDict [((u "$ref"), (VStr (u "#/channels/currencyExchange")))])); ((u "messages"), (VList [(VDict [((u "$ref"), (VStr (u "#/channels/currencyExchange/messages/pong")))])]))])); ((u "messages"), (VList [(VDict [((u "$ref"), (VStr (u "#/channels/currencyExchange/messages/ping")))])]))])); ((u "sendHeartbeat"), (VDict [((u "action"), (VStr (u "send"))); ((u "channel"), (VDict [((u "$ref"), (VStr (u "#/channels/currencyExchange")))])); ((u "messages"), (VList [(VDict [((u "$ref"), (VStr (u "#/channels/currencyExchange/messages/heartbeat")))])]))])); ((u "systemStatus"), (VDict [((u "action"), (VStr (u "send"))); ((u "channel"), (VDict [((u "$ref"), (VStr (u "#/channels/currencyExchange")))])); ((u "messages"), (VList [(VDict [((u "$ref"), (VStr (u "#/channels/currencyExchange/messages/systemStatus")))])]))])); ((u "receiveSubscribeRequest"), (VDict [((u "action"), (VStr (u "receive"))); ((u "channel"), (VDict [((u "$ref"), (VStr (u "#/channels/currencyExchange")))])); ((u "reply"), (VDict [((u "channel"), (VDict [((u "$ref"), (VStr (u "#/channels/currencyExchange")))])); ((u "messages"), (VList [(VDict [((u "$ref"), (VStr (u "#/channels/currencyExchange/messages/subscriptionStatus")))]); (VDict [((u "$ref"), (VStr (u "#/channels/currencyExchange/messages/dummyCurrencyInfo")))])]))])); ((u "messages"), (VList [(VDict [((u "$ref"), (VStr (u "#/channels/currencyExchange/messages/subscribe")))])]))])); ((u "receiveUnsubscribeRequest"), (VDict [((u "action"), (VStr (u "receive"))); ((u "channel"), (VDict [((u "$ref"), (VStr (u "#/channels/currencyExchange")))])); ((u "reply"), (VDict [((u "channel"), (VDict [((u "$ref"), (VStr (u "#/channels/currencyExchange")))])); ((u "messages"), (VList [(VDict [((u "$ref"), (VStr (u "#/channels/currencyExchange/messages/subscriptionStatus")))])]))])); ((u "messages"), (VList [(VDict [((u "$ref"), (VStr (u "#/channels/currencyExchange/messages/unsubscribe")))])]))]))])); ((u "components"), (VDict [((u "messages"), (VDict [((u "dummyCurrencyInfo"), (VDict [((u "summary"), (VStr (u "Dummy message with no real life details"))); ((u "description"), (VStr (u "It is here in this example to showcase that there is an additional message that normally is of a complex structure. It represents actually currency exchange value to show a reply to operation receiveSubscribeRequest with more than one possible message."))); ((u "payload"), (VDict [((u "type"), (VStr (u "object"))); ((u "properties"), (VDict [((u "event"), (VDict [((u "type"), (VStr (u "string"))); ((u "const"), (VStr (u "currencyInfo")))])); ((u "reqid"), (VDict [((u "$ref"), (VStr (u "#/components/schemas/reqid")))])); ((u "data"), (VDict [((u "type"), (VStr (u "object")))]))])); ((u "required"), (VList [(VStr (u "event"))]))])); ((u "correlationId"), (VDict [((u "location"), (VStr (u "$message.payload#/reqid")))]))])); ((u "ping"), (VDict [((u "summary"), (VStr (u "Ping server to determine whether connection is alive"))); ((u "description"), (VStr (u "Client can ping server to determine whether connection is alive, server responds with pong. This is an application level ping as opposed to default ping in websockets standard which is server initiated"))); ((u "payload"), (VDict [((u "$ref"), (VStr (u "#/components/schemas/ping")))])); ((u "correlationId"), (VDict [((u "location"), (VStr (u "$message.payload#/reqid")))]))])); ((u "pong"), (VDict [((u "summary"), (VStr (u "Pong is a response to ping message"))); ((u "description"), (VStr (u "Server pong response to a ping to determine whether connection is alive. This is an application level pong as opposed to default pong in websockets standard which is sent by client in response to a ping"))); ((u "payload"), (VDict [((u "$ref"), (VStr (u "#/components/schemas/pong")))])); ((u "correlationId"), (VDict [((u "location"), (VStr (u "$message.payload#/reqid")))]))])); ((u "subscribe"), (VDict [((u "description"), (VStr (u "Subscribe to a topic on a single or multiple currency pairs."))); ((u "payload"), (VDict [((u "$ref"), (VStr (u "#/components/schemas/subscribe")))])); ((u "correlationId"), (VDict [((u "location"), (VStr (u "$message.payload#/reqid")))]))])); ((u "unsubscribe"), (VDict [((u "description"), (VStr (u "Unsubscribe, can specify a channelID or multiple currency pairs."))); ((u "payload"), (VDict [((u "$ref"), (VStr (u "#/components/schemas/unsubscribe")))])); ((u "correlationId"), (VDict [((u "location"), (VStr (u "$message.payload#/reqid")))]))])); ((u "subscriptionStatus"), (VDict [((u "description"), (VStr (u "Subscription status response to subscribe, unsubscribe or exchange initiated unsubscribe."))); ((u "payload"), (VDict [((u "$ref"), (VStr (u "#/components/schemas/subscriptionStatus")))])); ((u "examples"), (VList [(VDict [((u "payload"), (VDict [((u "channelID"), (VInt (10001)%Z)); ((u "channelName"), (VStr (u "ohlc-5"))); ((u "event"), (VStr (u "subscriptionStatus"))); ((u "pair"), (VStr (u "XBT/EUR"))); ((u "reqid"), (VInt (42)%Z)); ((u "status"), (VStr (u "unsubscribed"))); ((u "subscription"), (VDict [((u "interval"), (VInt (5)%Z)); ((u "name"), (VStr (u "ohlc")))]))]))]); (VDict [((u "payload"), (VDict [((u "errorMessage"), (VStr (u "Subscription depth not supported"))); ((u "event"), (VStr (u "subscriptionStatus"))); ((u "pair"), (VStr (u "XBT/USD"))); ((u "status"), (VStr (u "error"))); ((u "subscription"), (VDict [((u "depth"), (VInt (42)%Z)); ((u "name"), (VStr (u "book")))]))]))])]))])); ((u "systemStatus"), (VDict [((u "description"), (VStr (u "Status sent on connection or system status changes."))); ((u "payload"), (VDict [((u "$ref"), (VStr (u "#/components/schemas/systemStatus")))]))])); ((u "heartbeat"), (VDict [((u "description"), (VStr (u "Server heartbeat sent if no subscription traffic within 1 second (approximately)"))); ((u "payload"), (VDict [((u "$ref"), (VStr (u "#/components/schemas/heartbeat")))]))]))])); ((u "schemas"), (VDict [((u "ping"), (VDict [((u "type"), (VStr (u "object"))); ((u "properties"), (VDict [((u "event"), (VDict [((u "type"), (VStr (u "string"))); ((u "const"), (VStr (u "ping")))])); ((u "reqid"), (VDict [((u "$ref"), (VStr (u "#/components/schemas/reqid")))]))])); ((u "required"), (VList [(VStr (u "event"))]))])); ((u "heartbeat"), (VDict [((u "type"), (VStr (u "object"))); ((u "properties"), (VDict [((u "event"), (VDict [((u "type"), (VStr (u "string"))); ((u "const"), (VStr (u "heartbeat")))]))]))])); ((u "pong"), (VDict [((u "type"), (VStr (u "object"))); ((u "properties"), (VDict [((u "event"), (VDict [((u "type"), (VStr (u "string"))); ((u "const"), (VStr (u "pong")))])); ((u "reqid"), (VDict [((u "$ref"), (VStr (u "#/components/schemas/reqid")))]))]))])); ((u "systemStatus"), (VDict [((u "type"), (VStr (u "object"))); ((u "properties"), (VDict [((u "event"), (VDict [((u "type"), (VStr (u "string"))); ((u "const"), (VStr (u "systemStatus")))])); ((u "connectionID"), (VDict [((u "type"), (VStr (u "integer"))); ((u "description"), (VStr (u "The ID of the connection")))])); ((u "status"), (VDict [((u "$ref"), (VStr (u "#/components/schemas/status")))])); ((u "version"), (VDict [((u "type"), (VStr (u "string")))]))]))])); ((u "status"), (VDict [((u "type"), (VStr (u "string"))); ((u "enum"), (VList [(VStr (u "online")); (VStr (u "maintenance")); (VStr (u "cancel_only")); (VStr (u "limit_only")); (VStr (u "post_only"))]))])); ((u "subscribe"), (VDict [((u "type"), (VStr (u "object"))); ((u "properties"), (VDict [((u "event"), (VDict [((u "type"), (VStr (u "string"))); ((u "const"), (VStr (u "subscribe")))])); ((u "reqid"), (VDict [((u "$ref"), (VStr (u "#/components/schemas/reqid")))])); ((u "pair"), (VDict [((u "$ref"), (VStr (u "#/components/schemas/pair")))])); ((u "subscription"), (VDict [((u "type"), (VStr (u "object"))); ((u "properties"), (VDict [((u "depth"), (VDict [((u "$ref"), (VStr (u "#/components/schemas/depth")))])); ((u "interval"), (VDict [((u "$ref"), (VStr (u "#/components/schemas/interval")))])); ((u "name"), (VDict [((u "$ref"), (VStr (u "#/components/schemas/name")))])); ((u "ratecounter"), (VDict [((u "$ref"), (VStr (u "#/components/schemas/ratecounter")))])); ((u "snapshot"), (VDict [((u "$ref"), (VStr (u "#/components/schemas/snapshot")))])); ((u "token"), (VDict [((u "$ref"), (VStr (u "#/components/schemas/token")))]))])); ((u "required"), (VList [(VStr (u "name"))]))]))])); ((u "required"), (VList [(VStr (u "event"))]))])); ((u "unsubscribe"), (VDict [((u "type"), (VStr (u "object"))); ((u "properties"), (VDict [((u "event"), (VDict [((u "type"), (VStr (u "string"))); ((u "const"), (VStr (u "unsubscribe")))])); ((u "reqid"), (VDict [((u "$ref"), (VStr (u "#/components/schemas/reqid")))])); ((u "pair"), (VDict [((u "$ref"), (VStr (u "#/components/schemas/pair")))])); ((u "subscription"), (VDict [((u "type"), (VStr (u "object"))); ((u "properties"), (VDict [((u "depth"), (VDict [((u "$ref"), (VStr (u "#/components/schemas/depth")))])); ((u "interval"), (VDict [((u "$ref"), (VStr (u "#/components/schemas/interval")))])); ((u "name"), (VDict [((u "$ref"), (VStr (u "#/components/schemas/name")))])); ((u "token"), (VDict [((u "$ref"), (VStr (u "#/components/schemas/token")))]))])); ((u "required"), (VList [(VStr (u "name"))]))]))])); ((u "required"), (VList [(VStr (u "event"))]))])); ((u "subscriptionStatus"), (VDict [((u "type"), (VStr (u "object"))); ((u "oneOf"), (VList [(VDict [((u "$ref"), (VStr (u "#/components/schemas/subscriptionStatusError")))]); (VDict [((u "$ref"), (VStr (u "#/components/schemas/subscriptionStatusSuccess")))])]))])); ((u "subscriptionStatusError"), (VDict [((u "allOf"), (VList [(VDict [((u "properties"), (VDict [((u "errorMessage"), (VDict [((u "type"), (VStr (u "string")))]))])); ((u "required"), (VList [(VStr (u "errorMessage"))]))]); (VDict [((u "$ref"), (VStr (u "#/components/schemas/subscriptionStatusCommon")))])]))])); ((u "subscriptionStatusSuccess"), (VDict [((u "allOf"), (VList [(VDict [((u "properties"), (VDict [((u "channelID"), (VDict [((u "type"), (VStr (u "integer"))); ((u "description"), (VStr (u "ChannelID on successful subscription, applicable to public messages only.")))])); ((u "channelName"), (VDict [((u "type"), (VStr (u "string"))); ((u "description"), (VStr (u "Channel Name on successful subscription. For payloads 'ohlc' and 'book', respective interval or depth will be added as suffix.")))]))])); ((u "required"), (VList [(VStr (u "channelID")); (VStr (u "channelName"))]))]); (VDict [((u "$ref"), (VStr (u "#/components/schemas/subscriptionStatusCommon")))])]))])); ((u "subscriptionStatusCommon"), (VDict [((u "type"), (VStr (u "object"))); ((u "required"), (VList [(VStr (u "event"))])); ((u "properties"), (VDict [((u "event"), (VDict [((u "type"), (VStr (u "string"))); ((u "const"), (VStr (u "subscriptionStatus")))])); ((u "reqid"), (VDict [((u "$ref"), (VStr (u "#/components/schemas/reqid")))])); ((u "pair"), (VDict [((u "$ref"), (VStr (u "#/components/schemas/pair")))])); ((u "status"), (VDict [((u "$ref"), (VStr (u "#/components/schemas/status")))])); ((u "subscription"), (VDict [((u "required"), (VList [(VStr (u "name"))])); ((u "type"), (VStr (u "object"))); ((u "properties"), (VDict [((u "depth"), (VDict [((u "$ref"), (VStr (u "#/components/schemas/depth")))])); ((u "interval"), (VDict [((u "$ref"), (VStr (u "#/components/schemas/interval")))])); ((u "maxratecount"), (VDict [((u "$ref"), (VStr (u "#/components/schemas/maxratecount")))])); ((u "name"), (VDict [((u "$ref"), (VStr (u "#/components/schemas/name")))])); ((u "token"), (VDict [((u "$ref"), (VStr (u "#/components/schemas/token")))]))]))]))]))])); ((u "interval"), (VDict [((u "type"), (VStr (u "integer"))); ((u "description"), (VStr (u "Time interval associated with ohlc subscription in minutes."))); ((u "default"), (VInt (1)%Z)); ((u "enum"), (VList [(VInt (1)%Z); (VInt (5)%Z); (VInt (15)%Z); (VInt (30)%Z); (VInt (60)%Z); (VInt (240)%Z); (VInt (1440)%Z); (VInt (10080)%Z); (VInt (21600)%Z)]))])); ((u "name"), (VDict [((u "type"), (VStr (u "string"))); ((u "description"), (VStr (u "The name of the channel you subscribe too."))); ((u "enum"), (VList [(VStr (u "book")); (VStr (u "ohlc")); (VStr (u "openOrders")); (VStr (u "ownTrades")); (VStr (u "spread")); (VStr (u "ticker")); (VStr (u "trade"))]))])); ((u "token"), (VDict [((u "type"), (VStr (u "string"))); ((u "description"), (VStr (u "base64-encoded authentication token for private-data endpoints.")))])); ((u "depth"), (VDict [((u "type"), (VStr (u "integer"))); ((u "default"), (VInt (10)%Z)); ((u "enum"), (VList [(VInt (10)%Z); (VInt (25)%Z); (VInt (100)%Z); (VInt (500)%Z); (VInt (1000)%Z)])); ((u "description"), (VStr (u "Depth associated with book subscription in number of levels each side.")))])); ((u "maxratecount"), (VDict [((u "type"), (VStr (u "integer"))); ((u "description"), (VStr (u "Max rate-limit budget. Compare to the ratecounter field in the openOrders updates to check whether you are approaching the rate limit.")))])); ((u "ratecounter"), (VDict [((u "type"), (VStr (u "boolean"))); ((u "default"), (VBool false)); ((u "description"), (VStr (u "Whether to send rate-limit counter in updates (supported only for openOrders subscriptions)")))])); ((u "snapshot"), (VDict [((u "type"), (VStr (u "boolean"))); ((u "default"), (VBool true)); ((u "description"), (VStr (u "Whether to send historical feed data snapshot upon subscription (supported only for ownTrades subscriptions)")))])); ((u "reqid"), (VDict [((u "type"), (VStr (u "integer"))); ((u "description"), (VStr (u "client originated ID reflected in response message.")))])); ((u "pair"), (VDict [((u "type"), (VStr (u "array"))); ((u "description"), (VStr (u "Array of currency pairs."))); ((u "items"), (VDict [((u "type"), (VStr (u "string"))); ((u "description"), (VStr (u "Format of each pair is ""A/B"", where A and B are ISO 4217-A3 for standardized assets and popular unique symbol if not standardized."))); ((u "pattern"), (VStr (u "[A-Z\s]+\/[A-Z\s]+")))]))]))]))]))])))];
t "fixtures/json_specs/valid/mqtt.json" [SDo (XNew "AsyncAPI3" (XVal (VDict [((u "asyncapi"), (VStr (u "3.0.0"))); ((u "info"), (VDict [((u "title"), (VStr (u "Streetlights MQTT API"))); ((u "version"), (VStr (u "1.0.0"))); ((u "description"), (VStr [84; 104; 101; 32; 83; 109; 97; 114; 116; 121; 108; 105; 103; 104; 116; 105; 110; 103; 32; 83; 116; 114; 101; 101; 116; 108; 105; 103; 104; 116; 115; 32; 65; 80; 73; 32; 97; 108; 108; 111; 119; 115; 32; 121; 111; 117; 32; 116; 111; 32; 114; 101; 109; 111; 116; 101; 108; 121; 32; 109; 97; 110; 97; 103; 101; 32; 116; 104; 101; 32; 99; 105; 116; 121; 10; 108; 105; 103; 104; 116; 115; 46; 10; 35; 35; 35; 32; 67; 104; 101; 99; 107; 32; 111; 117; 116; 32; 105; 116; 115; 32; 97; 119; 101; 115; 111; 109; 101; 32; 102; 101; 97; 116; 117; 114; 101; 115; 58; 10; 10; 42; 32; 84; 117; 114; 110; 32; 97; 32; 115; 112; 101; 99; 105; 102; 105; 99; 32; 115; 116; 114; 101; 101; 116; 108; 105; 103; 104; 116; 32; 111; 110; 47; 111; 102; 102; 32; 127747; 32; 32; 10; 42; 32; 68; 105; 109; 32; 97; 32; 115; 112; 101; 99; 105; 102; 105; 99; 32; 115; 116; 114; 101; 101; 116; 108; 105; 103; 104; 116; 32; 128526; 10; 42; 32; 82; 101; 99; 101; 105; 118; 101; 32; 114; 101; 97; 108; 45; 116; 105; 109; 101; 32; 105; 110; 102; 111; 114; 109; 97; 116; 105; 111; 110; 32; 97; 98; 111; 117; 116; 32; 101; 110; 118; 105; 114; 111; 110; 109; 101; 110; 116; 97; 108; 32; 108; 105; 103; 104; 116; 105; 110; 103; 32; 99; 111; 110; 100; 105; 116; 105; 111; 110; 115; 32; 128200]%N)); ((u "license"), (VDict [((u "name"), (VStr (u "Apache 2.0"))); ((u "url"), (VStr (u "https://www.apache.org/licenses/LICENSE-2.0")))]))])); ((u "defaultContentType"), (VStr (u "application/json"))); ((u "servers"), (VDict [((u "production"), (VDict [((u "host"), (VStr (u "test.mosquitto.org:{port}"))); ((u "protocol"), (VStr (u "mqtt"))); ((u "description"), (VStr (u "Test broker"))); ((u "variables"), (VDict [((u "port"), (VDict [((u "description"), (VStr (u "Secure connection (TLS) is available through port 8883."))); ((u "default"), (VStr (u "1883"))); ((u "enum"), (VList [(VStr (u "1883")); (VStr (u "8883"))]))]))])); ((u "security"), (VList [(VDict [((u "$ref"), (VStr (u "#/components/securitySchemes/apiKey")))]); (VDict [((u "type"), (VStr (u "oauth2"))); ((u "description"), (VStr (u "Flows to support OAuth 2.0"))); ((u "flows"), (VDict [((u "implicit"), (VDict [((u "authorizationUrl"), (VStr (u "https://authserver.example/auth"))); ((u "availableScopes"), (VDict [((u "streetlights:on"), (VStr (u "Ability to switch lights on"))); ((u "streetlights:off"), (VStr (u "Ability to switch lights off"))); ((u "streetlights:dim"), (VStr (u "Ability to dim the lights")))]))])); ((u "password"), (VDict [((u "tokenUrl"), (VStr (u "https://authserver.example/token"))); ((u "availableScopes"), (VDict [((u "streetlights:on"), (VStr (u "Ability to switch lights on"))); ((u "streetlights:off"), (VStr (u "Ability to switch lights off"))); ((u "streetlights:dim"), (VStr (u "Ability to dim the lights")))]))])); ((u "clientCredentials"), (VDict [((u "tokenUrl"), (VStr (u "https://authserver.example/token"))); ((u "availableScopes"), (VDict [((u "streetlights:on"), (VStr (u "Ability to switch lights on"))); ((u "streetlights:off"), (VStr (u "Ability to switch lights off"))); ((u "streetlights:dim"), (VStr (u "Ability to dim the lights")))]))])); ((u "authorizationCode"), (VDict [((u "authorizationUrl"), (VStr (u "https://authserver.example/auth"))); ((u "tokenUrl"), (VStr (u "https://authserver.example/token"))); ((u "refreshUrl"), (VStr (u "https://authserver.example/refresh"))); ((u "availableScopes"), (VDict [((u "streetlights:on"), (VStr (u "Ability to switch lights on"))); ((u "streetlights:off"), (VStr (u "Ability to switch lights off"))); ((u "streetlights:dim"), (VStr (u "Ability to dim the lights")))]))]))])); ((u "scopes"), (VList [(VStr (u "streetlights:on")); (VStr (u "streetlights:off")); (VStr (u "streetlights:dim"))]))]); (VDict [((u "$ref"), (VStr (u "#/components/securitySchemes/openIdConnectWellKnown")))])])); ((u "tags"), (VList [(VDict [((u "name"), (VStr (u "env:production"))); ((u "description"), (VStr (u "This environment is meant for production use case")))]); (VDict [((u "name"), (VStr (u "kind:remote"))); ((u "description"), (VStr (u "This server is a remote server. Not exposed by the application")))]); (VDict [((u "name"), (VStr (u "visibility:public"))); ((u "description"), (VStr (u "This resource is public and available to everyone")))])]))]))])); ((u "channels"), (VDict [((u "lightingMeasured"), (VDict [((u "address"), (VStr (u "smartylighting/streetlights/1/0/event/{streetlightId}/lighting/measured"))); ((u "messages"), (VDict [((u "lightMeasured"), (VDict [((u "$ref"), (VStr (u "#/components/messages/lightMeasured")))]))])); ((u "description"), (VStr (u "The topic on which measured values may be produced and consumed."))); ((u "parameters"), (VDict [((u "streetlightId"), (VDict [((u "$ref"), (VStr (u "#/components/parameters/streetlightId")))]))]))])); ((u "lightTurnOn"), (VDict [((u "address"), (VStr (u "smartylighting/streetlights/1/0/action/{streetlightId}/turn/on"))); ((u "messages"), (VDict [((u "turnOn"), (VDict [((u "$ref"), (VStr (u "#/components/messages/turnOnOff")))]))])); ((u "parameters"), (VDict [((u "streetlightId"), (VDict [((u "$ref"), (VStr (u "#/components/parameters/streetlightId")))]))]))])); ((u "lightTurnOff"), (VDict [((u "address"), (VStr (u "smartylighting/streetlights/1/0/action/{streetlightId}/turn/off"))); ((u "messages"), (VDict [((u "turnOff"), (VDict [((u "$ref"), (VStr (u "#/components/messages/turnOnOff")))]))])); ((u "parameters"), (VDict [((u "streetlightId"), (VDict [((u "$ref"), (VStr (u "#/components/parameters/streetlightId")))]))]))])); ((u "lightsDim"), (VDict [((u "address"), (VStr (u "smartylighting/streetlights/1/0/action/{streetlightId}/dim"))); ((u "messages"), (VDict [((u "dimLight"), (VDict [((u "$ref"), (VStr (u "#/components/messages/dimLight")))]))])); ((u "parameters"), (VDict [((u "streetlightId"), (VDict [((u "$ref"), (VStr (u "#/components/parameters/streetlightId")))]))]))]))])); ((u "operations"), (VDict [((u "receiveLightMeasurement"), (VDict [((u "action"), (VStr (u "receive"))); ((u "channel"), (VDict [((u "$ref"), (VStr (u "#/channels/lightingMeasured")))])); ((u "summary"), (VStr (u "Inform about environmental lighting conditions of a particular streetlight."))); ((u "traits"), (VList [(VDict [((u "$ref"), (VStr (u "#/components/operationTraits/mqtt")))])])); ((u "messages"), (VList [(VDict [((u "$ref"), (VStr (u "#/channels/lightingMeasured/messages/lightMeasured")))])]))])); ((u "turnOn"), (VDict [((u "action"), (VStr (u "send"))); ((u "channel"), (VDict [((u "$ref"), (VStr (u "#/channels/lightTurnOn")))])); ((u "traits"), (VList [(VDict [((u "$ref"), (VStr (u "#/components/operationTraits/mqtt")))])])); ((u "messages"), (VList [(VDict [((u "$ref"), (VStr (u "#/channels/lightTurnOn/messages/turnOn")))])]))])); ((u "turnOff"), (VDict [((u "action"), (VStr (u "send"))); ((u "channel"), (VDict [((u "$ref"), (VStr (u "#/channels/lightTurnOff")))])); ((u "traits"), (VList [(VDict [((u "$ref"), (VStr (u "#/components/operationTraits/mqtt")))])])); ((u "messages"), (VList [(VDict [((u "$ref"), (VStr (u "#/channels/lightTurnOff/messages/turnOff")))])]))])); ((u "dimLight"), (VDict [((u "action"), (VStr (u "send"))); ((u "channel"), (VDict [((u "$ref"), (VStr (u "#/channels/lightsDim")))])); ((u "traits"), (VList [(VDict [((u "$ref"), (VStr (u "#/components/operationTraits/mqtt")))])])); ((u "messages"), (VList [(VDict [((u "$ref"), (VStr (u "#/channels/lightsDim/messages/dimLight")))])]))]))])); ((u "components"), (VDict [((u "messages"), (VDict [((u "lightMeasured"), (VDict [((u "name"), (VStr (u "lightMeasured"))); ((u "title"), (VStr (u "Light measured"))); ((u "summary"), (VStr (u "Inform about environmental lighting conditions of a particular streetlight."))); ((u "contentType"), (VStr (u "application/json"))); ((u "traits"), (VList [(VDict [((u "$ref"), (VStr (u "#/components/messageTraits/commonHeaders")))])])); ((u "payload"), (VDict [((u "$ref"), (VStr (u "#/components/schemas/lightMeasuredPayload")))]))])); ((u "turnOnOff"), (VDict [((u "name"), (VStr (u "turnOnOff"))); ((u "title"), (VStr (u "Turn on/off"))); ((u "summary"), (VStr (u "Command a particular streetlight to turn the lights on or off."))); ((u "traits"), (VList [(VDict [((u "$ref"), (VStr (u "#/components/messageTraits/commonHeaders")))])])); ((u "payload"), (VDict [((u "$ref"), (VStr (u "#/components/schemas/turnOnOffPayload")))]))])); ((u "dimLight"), (VDict [((u "name"), (VStr (u "dimLight"))); ((u "title"), (VStr (u "Dim light"))); ((u "summary"), (VStr (u "Command a particular streetlight to dim the lights."))); ((u "traits"), (VList [(VDict [((u "$ref"), (VStr (u "#/components/messageTraits/commonHeaders")))])])); ((u "payload"), (VDict [((u "$ref"), (VStr (u "#/components/schemas/dimLightPayload")))]))]))])); ((u "schemas"), (VDict [((u "lightMeasuredPayload"), (VDict [((u "type"), (VStr (u "object"))); ((u "properties"), (VDict [((u "lumens"), (VDict [((u "type"), (VStr (u "integer"))); ((u "minimum"), (VInt (0)%Z)); ((u "description"), (VStr (u "Light intensity measured in lumens.")))])); ((u "sentAt"), (VDict [((u "$ref"), (VStr (u "#/components/schemas/sentAt")))]))]))])); ((u "turnOnOffPayload"), (VDict [((u "type"), (VStr (u "object"))); ((u "properties"), (VDict [((u "command"), (VDict [((u "type"), (VStr (u "string"))); ((u "enum"), (VList [(VStr (u "on")); (VStr (u "off"))])); ((u "description"), (VStr (u "Whether to turn on or off the light.")))])); ((u "sentAt"), (VDict [((u "$ref"), (VStr (u "#/components/schemas/sentAt")))]))]))])); ((u "dimLightPayload"), (VDict [((u "type"), (VStr (u "object"))); ((u "properties"), (VDict [((u "percentage"), (VDict [((u "type"), (VStr (u "integer"))); ((u "description"), (VStr (u "Percentage to which the light should be dimmed to."))); ((u "minimum"), (VInt (0)%Z)); ((u "maximum"), (VInt (100)%Z))])); ((u "sentAt"), (VDict [((u "$ref"), (VStr (u "#/components/schemas/sentAt")))]))]))])); ((u "sentAt"), (VDict [((u "type"), (VStr (u "string"))); ((u "format"), (VStr (u "date-time"))); ((u "description"), (VStr (u "Date and time when the message was sent.")))]))])); ((u "securitySchemes"), (VDict [((u "apiKey"), (VDict [((u "type"), (VStr (u "apiKey"))); ((u "in"), (VStr (u "user"))); ((u "description"), (VStr (u "Provide your API key as the user and leave the password empty.")))])); ((u "supportedOauthFlows"), (VDict [((u "type"), (VStr (u "oauth2"))); ((u "description"), (VStr (u "Flows to support OAuth 2.0"))); ((u "flows"), (VDict [((u "implicit"), (VDict [((u "authorizationUrl"), (VStr (u "https://authserver.example/auth"))); ((u "availableScopes"), (VDict [((u "streetlights:on"), (VStr (u "Ability to switch lights on"))); ((u "streetlights:off"), (VStr (u "Ability to switch lights off"))); ((u "streetlights:dim"), (VStr (u "Ability to dim the lights")))]))])); ((u "password"), (VDict [((u "tokenUrl"), (VStr (u "https://authserver.example/token"))); ((u "availableScopes"), (VDict [((u "streetlights:on"), (VStr (u "Ability to switch lights on"))); ((u "streetlights:off"), (VStr (u "Ability to switch lights off"))); ((u "streetlights:dim"), (VStr (u "Ability to dim the lights")))]))])); ((u "clientCredentials"), (VDict [((u "tokenUrl"), (VStr (u "https://authserver.example/token"))); ((u "availableScopes"), (VDict [((u "streetlights:on"), (VStr (u "Ability to switch lights on"))); ((u "streetlights:off"), (VStr (u "Ability to switch lights off"))); ((u "streetlights:dim"), (VStr (u "Ability to dim the lights")))]))])); ((u "authorizationCode"), (VDict [((u "authorizationUrl"), (VStr (u "https://authserver.example/auth"))); ((u "tokenUrl"), (VStr (u "https://authserver.example/token"))); ((u "refreshUrl"), (VStr (u "https://authserver.example/refresh"))); ((u "availableScopes"), (VDict [((u "streetlights:on"), (VStr (u "Ability to switch lights on"))); ((u "streetlights:off"), (VStr (u "Ability to switch lights off"))); ((u "streetlights:dim"), (VStr (u "Ability to dim the lights")))]))]))]))])); ((u "openIdConnectWellKnown"), (VDict [((u "type"), (VStr (u "openIdConnect"))); ((u "openIdConnectUrl"), (VStr (u "https://authserver.example/.well-known")))]))])); ((u "parameters"), (VDict [((u "streetlightId"), (VDict [((u "description"), (VStr (u "The ID of the streetlight.")))]))])); ((u "messageTraits"), (VDict [((u "commonHeaders"), (VDict [((u "headers"), (VDict [((u "type"), (VStr (u "object"))); ((u "properties"), (VDict [((u "my-app-header"), (VDict [((u "type"), (VStr (u "integer"))); ((u "minimum"), (VInt (0)%Z)); ((u "maximum"), (VInt (100)%Z))]))]))]))]))])); ((u "operationTraits"), (VDict [((u "mqtt"), (VDict [((u "bindings"), (VDict [((u "mqtt"), (VDict [((u "qos"), (VInt (1)%Z))]))]))]))]))]))])))];
t "fixtures/json_specs/valid/simple.json" [SDo (XNew "AsyncAPI3" (XVal (VDict [((u "asyncapi"), (VStr (u "3.0.0"))); ((u "info"), (VDict [((u "title"), (VStr (u "Account Service"))); ((u "version"), (VStr (u "1.0.0"))); ((u "description"), (VStr (u "This service is in charge of processing user signups")))])); ((u "channels"), (VDict [((u "userSignedup"), (VDict [((u "address"), (VStr (u "user/signedup"))); ((u "messages"), (VDict [((u "UserSignedUp"), (VDict [((u "$ref"), (VStr (u "#/components/messages/UserSignedUp")))]))]))]))])); ((u "operations"), (VDict [((u "sendUserSignedup"), (VDict [((u "action"), (VStr (u "send"))); ((u "channel"), (VDict [((u "$ref"), (VStr (u "#/channels/userSignedup")))])); ((u "messages"), (VList [(VDict [((u "$ref"), (VStr (u "#/channels/userSignedup/messages/UserSignedUp")))])]))]))])); ((u "components"), (VDict [((u "messages"), (VDict [((u "UserSignedUp"), (VDict [((u "payload"), (VDict [((u "type"), (VStr (u "object"))); ((u "properties"), (VDict [((u "displayName"), (VDict [((u "type"), (VStr (u "string"))); ((u "description"), (VStr (u "Name of the user")))])); ((u "email"), (VDict [((u "type"), (VStr (u "string"))); ((u "format"), (VStr (u "email"))); ((u "description"), (VStr (u "Email of the user")))]))]))]))]))]))]))])))];
t "fixtures/json_specs/valid/slack.json" [SDo (XNew "AsyncAPI3" (XVal (VDict [((u "asyncapi"), (VStr (u "3.0.0"))); ((u "id"), (VStr (u "wss://wss-primary.slack.com/websocket"))); ((u "info"), (VDict [((u "title"), (VStr (u "Slack Real Time Messaging API"))); ((u "version"), (VStr (u "1.0.0")))])); ((u "servers"), (VDict [((u "production"), (VDict [((u "host"), (VStr (u "slack.com"))); ((u "pathname"), (VStr (u "/api/rtm.connect"))); ((u "protocol"), (VStr (u "https"))); ((u "protocolVersion"), (VStr (u "1.1"))); ((u "security"), (VList [(VDict [((u "$ref"), (VStr (u "#/components/securitySchemes/token")))])]))]))])); ((u "channels"), (VDict [((u "root"), (VDict [((u "address"), (VStr (u "/"))); ((u "messages"), (VDict [((u "outgoingMessage"), (VDict [((u "$ref"), (VStr (u "#/components/messages/outgoingMessage")))])); ((u "hello"), (VDict [((u "$ref"), (VStr (u "#/components/messages/hello")))])); ((u "connectionError"), (VDict [((u "$ref"), (VStr (u "#/components/messages/connectionError")))])); ((u "accountsChanged"), (VDict [((u "$ref"), (VStr (u "#/components/messages/accountsChanged")))])); ((u "botAdded"), (VDict [((u "$ref"), (VStr (u "#/components/messages/botAdded")))])); ((u "botChanged"), (VDict [((u "$ref"), (VStr (u "#/components/messages/botChanged")))])); ((u "channelArchive"), (VDict [((u "$ref"), (VStr (u "#/components/messages/channelArchive")))])); ((u "channelCreated"), (VDict [((u "$ref"), (VStr (u "#/components/messages/channelCreated")))])); ((u "channelDeleted"), (VDict [((u "$ref"), (VStr (u "#/components/messages/channelDeleted")))])); ((u "channelHistoryChanged"), (VDict [((u "$ref"), (VStr (u "#/components/messages/channelHistoryChanged")))])); ((u "channelJoined"), (VDict [((u "$ref"), (VStr (u "#/components/messages/channelJoined")))])); ((u "channelLeft"), (VDict [((u "$ref"), (VStr (u "#/components/messages/channelLeft")))])); ((u "channelMarked"), (VDict [((u "$ref"), (VStr (u "#/components/messages/channelMarked")))])); ((u "channelRename"), (VDict [((u "$ref"), (VStr (u "#/components/messages/channelRename")))])); ((u "channelUnarchive"), (VDict [((u "$ref"), (VStr (u "#/components/messages/channelUnarchive")))])); ((u "commandsChanged"), (VDict [((u "$ref"), (VStr (u "#/components/messages/commandsChanged")))])); ((u "dndUpdated"), (VDict [((u "$ref"), (VStr (u "#/components/messages/dndUpdated")))])); ((u "dndUpdatedUser"), (VDict [((u "$ref"), (VStr (u "#/components/messages/dndUpdatedUser")))])); ((u "emailDomainChanged"), (VDict [((u "$ref"), (VStr (u "#/components/messages/emailDomainChanged")))])); ((u "emojiRemoved"), (VDict [((u "$ref"), (VStr (u "#/components/messages/emojiRemoved")))])); ((u "emojiAdded"), (VDict [((u "$ref"), (VStr (u "#/components/messages/emojiAdded")))])); ((u "fileChange"), (VDict [((u "$ref"), (VStr (u "#/components/messages/fileChange")))])); ((u "fileCommentAdded"), (VDict [((u "$ref"), (VStr (u "#/components/messages/fileCommentAdded")))])); ((u "fileCommentDeleted"), (VDict [((u "$ref"), (VStr (u "#/components/messages/fileCommentDeleted")))])); ((u "fileCommentEdited"), (VDict [((u "$ref"), (VStr (u "#/components/messages/fileCommentEdited")))])); ((u "fileCreated"), (VDict [((u "$ref"), (VStr (u "#/components/messages/fileCreated")))])); ((u "fileDeleted"), (VDict [((u "$ref"), (VStr (u "#/components/messages/fileDeleted")))])); ((u "filePublic"), (VDict [((u "$ref"), (VStr (u "#/components/messages/filePublic")))])); ((u "fileShared"), (VDict [((u "$ref"), (VStr (u "#/components/messages/fileShared")))])); ((u "fileUnshared"), (VDict [((u "$ref"), (VStr (u "#/components/messages/fileUnshared")))])); ((u "goodbye"), (VDict [((u "$ref"), (VStr (u "#/components/messages/goodbye")))])); ((u "groupArchive"), (VDict [((u "$ref"), (VStr (u "#/components/messages/groupArchive")))])); ((u "groupClose"), (VDict [((u "$ref"), (VStr (u "#/components/messages/groupClose")))])); ((u "groupHistoryChanged"), (VDict [((u "$ref"), (VStr (u "#/components/messages/groupHistoryChanged")))])); ((u "groupJoined"), (VDict [((u "$ref"), (VStr (u "#/components/messages/groupJoined")))])); ((u "groupLeft"), (VDict [((u "$ref"), (VStr (u "#/components/messages/groupLeft")))])); ((u "groupMarked"), (VDict [((u "$ref"), (VStr (u "#/components/messages/groupMarked")))])); ((u "groupOpen"), (VDict [((u "$ref"), (VStr (u "#/components/messages/groupOpen")))])); ((u "groupRename"), (VDict [((u "$ref"), (VStr (u "#/components/messages/groupRename")))])); ((u "groupUnarchive"), (VDict [((u "$ref"), (VStr (u "#/components/messages/groupUnarchive")))])); ((u "imClose"), (VDict [((u "$ref"), (VStr (u "#/components/messages/imClose")))])); ((u "imCreated"), (VDict [((u "$ref"), (VStr (u "#/components/messages/imCreated")))])); ((u "imMarked"), (VDict [((u "$ref"), (VStr (u "#/components/messages/imMarked")))])); ((u "imOpen"), (VDict [((u "$ref"), (VStr (u "#/components/messages/imOpen")))])); ((u "manualPresenceChange"), (VDict [((u "$ref"), (VStr (u "#/components/messages/manualPresenceChange")))])); ((u "memberJoinedChannel"), (VDict [((u "$ref"), (VStr (u "#/components/messages/memberJoinedChannel")))])); ((u "message"), (VDict [((u "$ref"), (VStr (u "#/components/messages/message")))]))]))]))])); ((u "operations"), (VDict [((u "receiveOutgoingMessage"), (VDict [((u "action"), (VStr (u "receive"))); ((u "channel"), (VDict [((u "$ref"), (VStr (u "#/channels/root")))])); ((u "messages"), (VList [(VDict [((u "$ref"), (VStr (u "#/channels/root/messages/outgoingMessage")))])]))])); ((u "sendMessages"), (VDict [((u "action"), (VStr (u "send"))); ((u "channel"), (VDict [((u "$ref"), (VStr (u "#/channels/root")))])); ((u "messages"), (VList [(VDict [((u "$ref"), (VStr (u "#/channels/root/messages/hello")))]); (VDict [((u "$ref"), (VStr (u "#/channels/root/messages/connectionError")))]); (VDict [((u "$ref"), (VStr (u "#/channels/root/messages/accountsChanged")))]); (VDict [((u "$ref"), (VStr (u "#/channels/root/messages/botAdded")))]); (VDict [((u "$ref"), (VStr (u "#/channels/root/messages/botChanged")))]); (VDict [((u "$ref"), (VStr (u "#/channels/root/messages/channelArchive")))]); (VDict [((u "$ref"), (VStr (u "#/channels/root/messages/channelCreated")))]); (VDict [((u "$ref"), (VStr (u "#/channels/root/messages/channelDeleted")))]); (VDict [((u "$ref"), (VStr (u "#/channels/root/messages/channelHistoryChanged")))]); (VDict [((u "$ref"), (VStr (u "#/channels/root/messages/channelJoined")))]); (VDict [((u "$ref"), (VStr (u "#/channels/root/messages/channelLeft")))]); (VDict [((u "$ref"), (VStr (u "#/channels/root/messages/channelMarked")))]); (VDict [((u "$ref"), (VStr (u "#/channels/root/messages/channelRename")))]); (VDict [((u "$ref"), (VStr (u "#/channels/root/messages/channelUnarchive")))]); (VDict [((u "$ref"), (VStr (u "#/channels/root/messages/commandsChanged")))]); (VDict [((u "$ref"), (VStr (u "#/channels/root/messages/dndUpdated")))]); (VDict [((u "$ref"), (VStr (u "#/channels/root/messages/dndUpdatedUser")))]); (VDict [((u "$ref"), (VStr (u "#/channels/root/messages/emailDomainChanged")))]); (VDict [((u "$ref"), (VStr (u "#/channels/root/messages/emojiRemoved")))]); (VDict [((u "$ref"), (VStr (u "#/channels/root/messages/emojiAdded")))]); (VDict [((u "$ref"), (VStr (u "#/channels/root/messages/fileChange")))]); (VDict [((u "$ref"), (VStr (u "#/channels/root/messages/fileCommentAdded")))]); (VDict [((u "$ref"), (VStr (u "#/channels/root/messages/fileCommentDeleted")))]); (VDict [((u "$ref"), (VStr (u "#/channels/root/messages/fileCommentEdited")))]); (VDict [((u "$ref"), (VStr (u "#/channels/root/messages/fileCreated")))]); (VDict [((u "$ref"), (VStr (u "#/channels/root/messages/fileDeleted")))]); (VDict [((u "$ref"), (VStr (u "#/channels/root/messages/filePublic")))]); (VDict [((u "$ref"), (VStr (u "#/channels/root/messages/fileShared")))]); (VDict [((u "$ref"), (VStr (u "#/channels/root/messages/fileUnshared")))]); (VDict [((u "$ref"), (VStr (u "#/channels/root/messages/goodbye")))]); (VDict [((u "$ref"), (VStr (u "#/channels/root/messages/groupArchive")))]); (VDict [((u "$ref"), (VStr (u "#/channels/root/messages/groupClose")))]); (VDict [((u "$ref"), (VStr (u "#/channels/root/messages/groupHistoryChanged")))]); (VDict [((u "$ref"), (VStr (u "#/channels/root/messages/groupJoined")))]); (VDict [((u "$ref"), (VStr (u "#/channels/root/messages/groupLeft")))]); (VDict [((u "$ref"), (VStr (u "#/channels/root/messages/groupMarked")))]); (VDict [((u "$ref"), (VStr (u "#/channels/root/messages/groupOpen")))]); (VDict [((u "$ref"), (VStr (u "#/channels/root/messages/groupRename")))]); (VDict [((u "$ref"), (VStr (u "#/channels/root/messages/groupUnarchive")))]); (VDict [((u "$ref"), (VStr (u "#/channels/root/messages/imClose")))]); (VDict [((u "$ref"), (VStr (u "#/channels/root/messages/imCreated")))]); (VDict [((u "$ref"), (VStr (u "#/channels/root/messages/imMarked")))]); (VDict [((u "$ref"), (VStr (u "#/channels/root/messages/imOpen")))]); (VDict [((u "$ref"), (VStr (u "#/channels/root/messages/manualPresenceChange")))]); (VDict [((u "$ref"), (VStr (u "#/channels/root/messages/memberJoinedChannel")))]); (VDict [((u "$ref"), (VStr (u "#/channels/root/messages/message")))])]))]))])); ((u "components"), (VDict [((u "securitySchemes"), (VDict [((u "token"), (VDict [((u "type"), (VStr (u "httpApiKey"))); ((u "name"), (VStr (u "token"))); ((u "in"), (VStr (u "query")))]))])); ((u "schemas"), (VDict [((u "attachment"), (VDict [((u "type"), (VStr (u "object"))); ((u "properties"), (VDict [((u "fallback"), (VDict [((u "type"), (VStr (u "string")))])); ((u "color"), (VDict [((u "type"), (VStr (u "string")))])); ((u "pretext"), (VDict [((u "type"), (VStr (u "string")))])); ((u "author_name"), (VDict [((u "type"), (VStr (u "string")))])); ((u "author_link"), (VDict [((u "type"), (VStr (u "string"))); ((u "format"), (VStr (u "uri")))])); ((u "author_icon"), (VDict [((u "type"), (VStr (u "string"))); ((u "format"), (VStr (u "uri")))])); ((u "title"), (VDict [((u "type"), (VStr (u "string")))])); ((u "title_link"), (VDict [((u "type"), (VStr (u "string"))); ((u "format"), (VStr (u "uri")))])); ((u "text"), (VDict [((u "type"), (VStr (u "string")))])); ((u "fields"), (VDict [((u "type"), (VStr (u "array"))); ((u "items"), (VDict [((u "type"), (VStr (u "object"))); ((u "properties"), (VDict [((u "title"), (VDict [((u "type"), (VStr (u "string")))])); ((u "value"), (VDict [((u "type"), (VStr (u "string")))])); ((u "short"), (VDict [((u "type"), (VStr (u "boolean")))]))]))]))])); ((u "image_url"), (VDict [((u "type"), (VStr (u "string"))); ((u "format"), (VStr (u "uri")))])); ((u "thumb_url"), (VDict [((u "type"), (VStr (u "string"))); ((u "format"), (VStr (u "uri")))])); ((u "footer"), (VDict [((u "type"), (VStr (u "string")))])); ((u "footer_icon"), (VDict [((u "type"), (VStr (u "string"))); ((u "format"), (VStr (u "uri")))])); ((u "ts"), (VDict [((u "type"), (VStr (u "number")))]))]))]))])); ((u "messages"), (VDict [((u "hello"), (VDict [((u "summary"), (VStr (u "First event received upon connection."))); ((u "payload"), (VDict [((u "type"), (VStr (u "object"))); ((u "properties"), (VDict [((u "type"), (VDict [((u "type"), (VStr (u "string"))); ((u "enum"), (VList [(VStr (u "hello"))]))]))]))]))])); ((u "connectionError"), (VDict [((u "summary"), (VStr (u "Event received when a connection error happens."))); ((u "payload"), (VDict [((u "type"), (VStr (u "object"))); ((u "properties"), (VDict [((u "type"), (VDict [((u "type"), (VStr (u "string"))); ((u "enum"), (VList [(VStr (u "error"))]))])); ((u "error"), (VDict [((u "type"), (VStr (u "object"))); ((u "properties"), (VDict [((u "code"), (VDict [((u "type"), (VStr (u "number")))])); ((u "msg"), (VDict [((u "type"), (VStr (u "string")))]))]))]))]))]))])); ((u "accountsChanged"), (VDict [((u "summary"), (VStr (u "The list of accounts a user is signed into has changed."))); ((u "payload"), (VDict [((u "type"), (VStr (u "object"))); ((u "properties"), (VDict [((u "type"), (VDict [((u "type"), (VStr (u "string"))); ((u "enum"), (VList [(VStr (u "accounts_changed"))]))]))]))]))])); ((u "botAdded"), (VDict [((u "summary"), (VStr (u "A bot user was added."))); ((u "payload"), (VDict [((u "type"), (VStr (u "object"))); ((u "properties"), (VDict [((u "type"), (VDict [((u "type"), (VStr (u "string"))); ((u "enum"), (VList [(VStr (u "bot_added"))]))])); ((u "bot"), (VDict [((u "type"), (VStr (u "object"))); ((u "properties"), (VDict [((u "id"), (VDict [((u "type"), (VStr (u "string")))])); ((u "app_id"), (VDict [((u "type"), (VStr (u "string")))])); ((u "name"), (VDict [((u "type"), (VStr (u "string")))])); ((u "icons"), (VDict [((u "type"), (VStr (u "object"))); ((u "additionalProperties"), (VDict [((u "type"), (VStr (u "string")))]))]))]))]))]))]))])); ((u "botChanged"), (VDict [((u "summary"), (VStr (u "A bot user was changed."))); ((u "payload"), (VDict [((u "type"), (VStr (u "object"))); ((u "properties"), (VDict [((u "type"), (VDict [((u "type"), (VStr (u "string"))); ((u "enum"), (VList [(VStr (u "bot_added"))]))])); ((u "bot"), (VDict [((u "type"), (VStr (u "object"))); ((u "properties"), (VDict [((u "id"), (VDict [((u "type"), (VStr (u "string")))])); ((u "app_id"), (VDict [((u "type"), (VStr (u "string")))])); ((u "name"), (VDict [((u "type"), (VStr (u "string")))])); ((u "icons"), (VDict [((u "type"), (VStr (u "object"))); ((u "additionalProperties"), (VDict [((u "type"), (VStr (u "string")))]))]))]))]))]))]))])); ((u "channelArchive"), (VDict [((u "summary"), (VStr (u "A channel was archived."))); ((u "payload"), (VDict [((u "type"), (VStr (u "object"))); ((u "properties"), (VDict [((u "type"), (VDict [((u "type"), (VStr (u "string"))); ((u "enum"), (VList [(VStr (u "channel_archive"))]))])); ((u "channel"), (VDict [((u "type"), (VStr (u "string")))])); ((u "user"), (VDict [((u "type"), (VStr (u "string")))]))]))]))])); ((u "channelCreated"), (VDict [((u "summary"), (VStr (u "A channel was created."))); ((u "payload"), (VDict [((u "type"), (VStr (u "object"))); ((u "properties"), (VDict [((u "type"), (VDict [((u "type"), (VStr (u "string"))); ((u "enum"), (VList [(VStr (u "channel_created"))]))])); ((u "channel"), (VDict [((u "type"), (VStr (u "object"))); ((u "properties"), (VDict [((u "id"), (VDict [((u "type"), (VStr (u "string")))])); ((u "name"), (VDict [((u "type"), (VStr (u "string")))])); ((u "created"), (VDict [((u "type"), (VStr (u "number")))])); ((u "creator"), (VDict [((u "type"), (VStr (u "string")))]))]))]))]))]))])); ((u "channelDeleted"), (VDict [((u "summary"), (VStr (u "A channel was deleted."))); ((u "payload"), (VDict [((u "type"), (VStr (u "object"))); ((u "properties"), (VDict [((u "type"), (VDict [((u "type"), (VStr (u "string"))); ((u "enum"), (VList [(VStr (u "channel_deleted"))]))])); ((u "channel"), (VDict [((u "type"), (VStr (u "string")))]))]))]))])); ((u "channelHistoryChanged"), (VDict [((u "summary"), (VStr (u "Bulk updates were made to a channel's history."))); ((u "payload"), (VDict [((u "type"), (VStr (u "object"))); ((u "properties"), (VDict [((u "type"), (VDict [((u "type"), (VStr (u "string"))); ((u "enum"), (VList [(VStr (u "channel_history_changed"))]))])); ((u "latest"), (VDict [((u "type"), (VStr (u "string")))])); ((u "ts"), (VDict [((u "type"), (VStr (u "string")))])); ((u "event_ts"), (VDict [((u "type"), (VStr (u "string")))]))]))]))])); ((u "channelJoined"), (VDict [((u "summary"), (VStr (u "You joined a channel."))); ((u "payload"), (VDict [((u "type"), (VStr (u "object"))); ((u "properties"), (VDict [((u "type"), (VDict [((u "type"), (VStr (u "string"))); ((u "enum"), (VList [(VStr (u "channel_joined"))]))])); ((u "channel"), (VDict [((u "type"), (VStr (u "object"))); ((u "properties"), (VDict [((u "id"), (VDict [((u "type"), (VStr (u "string")))])); ((u "name"), (VDict [((u "type"), (VStr (u "string")))])); ((u "created"), (VDict [((u "type"), (VStr (u "number")))])); ((u "creator"), (VDict [((u "type"), (VStr (u "string")))]))]))]))]))]))])); ((u "channelLeft"), (VDict [((u "summary"), (VStr (u "You left a channel."))); ((u "payload"), (VDict [((u "type"), (VStr (u "object"))); ((u "properties"), (VDict [((u "type"), (VDict [((u "type"), (VStr (u "string"))); ((u "enum"), (VList [(VStr (u "channel_left"))]))])); ((u "channel"), (VDict [((u "type"), (VStr (u "string")))]))]))]))])); ((u "channelMarked"), (VDict [((u "summary"), (VStr (u "Your channel read marker was updated."))); ((u "payload"), (VDict [((u "type"), (VStr (u "object"))); ((u "properties"), (VDict [((u "type"), (VDict [((u "type"), (VStr (u "string"))); ((u "enum"), (VList [(VStr (u "channel_marked"))]))])); ((u "channel"), (VDict [((u "type"), (VStr (u "string")))])); ((u "ts"), (VDict [((u "type"), (VStr (u "string")))]))]))]))])); ((u "channelRename"), (VDict [((u "summary"), (VStr (u "A channel was renamed."))); ((u "payload"), (VDict [((u "type"), (VStr (u "object"))); ((u "properties"), (VDict [((u "type"), (VDict [((u "type"), (VStr (u "string"))); ((u "enum"), (VList [(VStr (u "channel_rename"))]))])); ((u "channel"), (VDict [((u "type"), (VStr (u "object"))); ((u "properties"), (VDict [((u "id"), (VDict [((u "type"), (VStr (u "string")))])); ((u "name"), (VDict [((u "type"), (VStr (u "string")))])); ((u "created"), (VDict [((u "type"), (VStr (u "number")))]))]))]))]))]))])); ((u "channelUnarchive"), (VDict [((u "summary"), (VStr (u "A channel was unarchived."))); ((u "payload"), (VDict [((u "type"), (VStr (u "object"))); ((u "properties"), (VDict [((u "type"), (VDict [((u "type"), (VStr (u "string"))); ((u "enum"), (VList [(VStr (u "channel_unarchive"))]))])); ((u "channel"), (VDict [((u "type"), (VStr (u "string")))])); ((u "user"), (VDict [((u "type"), (VStr (u "string")))]))]))]))])); ((u "commandsChanged"), (VDict [((u "summary"), (VStr (u "A slash command has been added or changed."))); ((u "payload"), (VDict [((u "type"), (VStr (u "object"))); ((u "properties"), (VDict [((u "type"), (VDict [((u "type"), (VStr (u "string"))); ((u "enum"), (VList [(VStr (u "commands_changed"))]))])); ((u "event_ts"), (VDict [((u "type"), (VStr (u "string")))]))]))]))])); ((u "dndUpdated"), (VDict [((u "summary"), (VStr (u "Do not Disturb settings changed for the current user."))); ((u "payload"), (VDict [((u "type"), (VStr (u "object"))); ((u "properties"), (VDict [((u "type"), (VDict [((u "type"), (VStr (u "string"))); ((u "enum"), (VList [(VStr (u "dnd_updated"))]))])); ((u "user"), (VDict [((u "type"), (VStr (u "string")))])); ((u "dnd_status"), (VDict [((u "type"), (VStr (u "object"))); ((u "properties"), (VDict [((u "dnd_enabled"), (VDict [((u "type"), (VStr (u "boolean")))])); ((u "next_dnd_start_ts"), (VDict [((u "type"), (VStr (u "number")))])); ((u "next_dnd_end_ts"), (VDict [((u "type"), (VStr (u "number")))])); ((u "snooze_enabled"), (VDict [((u "type"), (VStr (u "boolean")))])); ((u "snooze_endtime"), (VDict [((u "type"), (VStr (u "number")))]))]))]))]))]))])); ((u "dndUpdatedUser"), (VDict [((u "summary"), (VStr (u "Do not Disturb settings changed for a member."))); ((u "payload"), (VDict [((u "type"), (VStr (u "object"))); ((u "properties"), (VDict [((u "type"), (VDict [((u "type"), (VStr (u "string"))); ((u "enum"), (VList [(VStr (u "dnd_updated_user"))]))])); ((u "user"), (VDict [((u "type"), (VStr (u "string")))])); ((u "dnd_status"), (VDict [((u "type"), (VStr (u "object"))); ((u "properties"), (VDict [((u "dnd_enabled"), (VDict [((u "type"), (VStr (u "boolean")))])); ((u "next_dnd_start_ts"), (VDict [((u "type"), (VStr (u "number")))])); ((u "next_dnd_end_ts"), (VDict [((u "type"), (VStr (u "number")))]))]))]))]))]))])); ((u "emailDomainChanged"), (VDict [((u "summary"), (VStr (u "The workspace email domain has changed."))); ((u "payload"), (VDict [((u "type"), (VStr (u "object"))); ((u "properties"), (VDict [((u "type"), (VDict [((u "type"), (VStr (u "string"))); ((u "enum"), (VList [(VStr (u "email_domain_changed"))]))])); ((u "email_domain"), (VDict [((u "type"), (VStr (u "string")))])); ((u "event_ts"), (VDict [((u "type"), (VStr (u "string")))]))]))]))])); ((u "emojiRemoved"), (VDict [((u "summary"), (VStr (u "A custom emoji has been removed."))); ((u "payload"), (VDict [((u "type"), (VStr (u "object"))); ((u "properties"), (VDict [((u "type"), (VDict [((u "type"), (VStr (u "string"))); ((u "enum"), (VList [(VStr (u "emoji_changed"))]))])); ((u "subtype"), (VDict [((u "type"), (VStr (u "string"))); ((u "enum"), (VList [(VStr (u "remove"))]))])); ((u "names"), (VDict [((u "type"), (VStr (u "array"))); ((u "items"), (VDict [((u "type"), (VStr (u "string")))]))])); ((u "event_ts"), (VDict [((u "type"), (VStr (u "string")))]))]))]))])); ((u "emojiAdded"), (VDict [((u "summary"), (VStr (u "A custom emoji has been added."))); ((u "payload"), (VDict [((u "type"), (VStr (u "object"))); ((u "properties"), (VDict [((u "type"), (VDict [((u "type"), (VStr (u "string"))); ((u "enum"), (VList [(VStr (u "emoji_changed"))]))])); ((u "subtype"), (VDict [((u "type"), (VStr (u "string"))); ((u "enum"), (VList [(VStr (u "add"))]))])); ((u "name"), (VDict [((u "type"), (VStr (u "string")))])); ((u "value"), (VDict [((u "type"), (VStr (u "string"))); ((u "format"), (VStr (u "uri")))])); ((u "event_ts"), (VDict [((u "type"), (VStr (u "string")))]))]))]))])); ((u "fileChange"), (VDict [((u "summary"), (VStr (u "A file was changed."))); ((u "payload"), (VDict [((u "type"), (VStr (u "object"))); ((u "properties"), (VDict [((u "type"), (VDict [((u "type"), (VStr (u "string"))); ((u "enum"), (VList [(VStr (u "file_change"))]))])); ((u "file_id"), (VDict [((u "type"), (VStr (u "string")))])); ((u "file"), (VDict [((u "type"), (VStr (u "object"))); ((u "properties"), (VDict [((u "id"), (VDict [((u "type"), (VStr (u "string")))]))]))]))]))]))])); ((u "fileCommentAdded"), (VDict [((u "summary"), (VStr (u "A file comment was added."))); ((u "payload"), (VDict [((u "type"), (VStr (u "object"))); ((u "properties"), (VDict [((u "type"), (VDict [((u "type"), (VStr (u "string"))); ((u "enum"), (VList [(VStr (u "file_comment_added"))]))])); ((u "comment"), (VDict [])); ((u "file_id"), (VDict [((u "type"), (VStr (u "string")))])); ((u "file"), (VDict [((u "type"), (VStr (u "object"))); ((u "properties"), (VDict [((u "id"), (VDict [((u "type"), (VStr (u "string")))]))]))]))]))]))])); ((u "fileCommentDeleted"), (VDict [((u "summary"), (VStr (u "A file comment was deleted."))); ((u "payload"), (VDict [((u "type"), (VStr (u "object"))); ((u "properties"), (VDict [((u "type"), (VDict [((u "type"), (VStr (u "string"))); ((u "enum"), (VList [(VStr (u "file_comment_deleted"))]))])); ((u "comment"), (VDict [((u "type"), (VStr (u "string")))])); ((u "file_id"), (VDict [((u "type"), (VStr (u "string")))])); ((u "file"), (VDict [((u "type"), (VStr (u "object"))); ((u "properties"), (VDict [((u "id"), (VDict [((u "type"), (VStr (u "string")))]))]))]))]))]))])); ((u "fileCommentEdited"), (VDict [((u "summary"), (VStr (u "A file comment was edited."))); ((u "payload"), (VDict [((u "type"), (VStr (u "object"))); ((u "properties"), (VDict [((u "type"), (VDict [((u "type"), (VStr (u "string"))); ((u "enum"), (VList [(VStr (u "file_comment_edited"))]))])); ((u "comment"), (VDict [])); ((u "file_id"), (VDict [((u "type"), (VStr (u "string")))])); ((u "file"), (VDict [((u "type"), (VStr (u "object"))); ((u "properties"), (VDict [((u "id"), (VDict [((u "type"), (VStr (u "string")))]))]))]))]))]))])); ((u "fileCreated"), (VDict [((u "summary"), (VStr (u "A file was created."))); ((u "payload"), (VDict [((u "type"), (VStr (u "object"))); ((u "properties"), (VDict [((u "type"), (VDict [((u "type"), (VStr (u "string"))); ((u "enum"), (VList [(VStr (u "file_created"))]))])); ((u "file_id"), (VDict [((u "type"), (VStr (u "string")))])); ((u "file"), (VDict [((u "type"), (VStr (u "object"))); ((u "properties"), (VDict [((u "id"), (VDict [((u "type"), (VStr (u "string")))]))]))]))]))]))])); ((u "fileDeleted"), (VDict [((u "summary"), (VStr (u "A file was deleted."))); ((u "payload"), (VDict [((u "type"), (VStr (u "object"))); ((u "properties"), (VDict [((u "type"), (VDict [((u "type"), (VStr (u "string"))); ((u "enum"), (VList [(VStr (u "file_deleted"))]))])); ((u "file_id"), (VDict [((u "type"), (VStr (u "string")))])); ((u "event_ts"), (VDict [((u "type"), (VStr (u "string")))]))]))]))])); ((u "filePublic"), (VDict [((u "summary"), (VStr (u "A file was made public."))); ((u "payload"), (VDict [((u "type"), (VStr (u "object"))); ((u "properties"), (VDict [((u "type"), (VDict [((u "type"), (VStr (u "string"))); ((u "enum"), (VList [(VStr (u "file_public"))]))])); ((u "file_id"), (VDict [((u "type"), (VStr (u "string")))])); ((u "file"), (VDict [((u "type"), (VStr (u "object"))); ((u "properties"), (VDict [((u "id"), (VDict [((u "type"), (VStr (u "string")))]))]))]))]))]))])); ((u "fileShared"), (VDict [((u "summary"), (VStr (u "A file was shared."))); ((u "payload"), (VDict [((u "type"), (VStr (u "object"))); ((u "properties"), (VDict [((u "type"), (VDict [((u "type"), (VStr (u "string"))); ((u "enum"), (VList [(VStr (u "file_shared"))]))])); ((u "file_id"), (VDict [((u "type"), (VStr (u "string")))])); ((u "file"), (VDict [((u "type"), (VStr (u "object"))); ((u "properties"), (VDict [((u "id"), (VDict [((u "type"), (VStr (u "string")))]))]))]))]))]))])); ((u "fileUnshared"), (VDict [((u "summary"), (VStr (u "A file was unshared."))); ((u "payload"), (VDict [((u "type"), (VStr (u "object"))); ((u "properties"), (VDict [((u "type"), (VDict [((u "type"), (VStr (u "string"))); ((u "enum"), (VList [(VStr (u "file_unshared"))]))])); ((u "file_id"), (VDict [((u "type"), (VStr (u "string")))])); ((u "file"), (VDict [((u "type"), (VStr (u "object"))); ((u "properties"), (VDict [((u "id"), (VDict [((u "type"), (VStr (u "string")))]))]))]))]))]))])); ((u "goodbye"), (VDict [((u "summary"), (VStr (u "The server intends to close the connection soon."))); ((u "payload"), (VDict [((u "type"), (VStr (u "object"))); ((u "properties"), (VDict [((u "type"), (VDict [((u "type"), (VStr (u "string"))); ((u "enum"), (VList [(VStr (u "goodbye"))]))]))]))]))])); ((u "groupArchive"), (VDict [((u "summary"), (VStr (u "A private channel was archived."))); ((u "payload"), (VDict [((u "type"), (VStr (u "object"))); ((u "properties"), (VDict [((u "type"), (VDict [((u "type"), (VStr (u "string"))); ((u "enum"), (VList [(VStr (u "group_archive"))]))])); ((u "channel"), (VDict [((u "type"), (VStr (u "string")))]))]))]))])); ((u "groupClose"), (VDict [((u "summary"), (VStr (u "You closed a private channel."))); ((u "payload"), (VDict [((u "type"), (VStr (u "object"))); ((u "properties"), (VDict [((u "type"), (VDict [((u "type"), (VStr (u "string"))); ((u "enum"), (VList [(VStr (u "group_close"))]))])); ((u "user"), (VDict [((u "type"), (VStr (u "string")))])); ((u "channel"), (VDict [((u "type"), (VStr (u "string")))]))]))]))])); ((u "groupHistoryChanged"), (VDict [((u "summary"), (VStr (u "Bulk updates were made to a private channel's history."))); ((u "payload"), (VDict [((u "type"), (VStr (u "object"))); ((u "properties"), (VDict [((u "type"), (VDict [((u "type"), (VStr (u "string"))); ((u "enum"), (VList [(VStr (u "group_history_changed"))]))])); ((u "latest"), (VDict [((u "type"), (VStr (u "string")))])); ((u "ts"), (VDict [((u "type"), (VStr (u "string")))])); ((u "event_ts"), (VDict [((u "type"), (VStr (u "string")))]))]))]))])); ((u "groupJoined"), (VDict [((u "summary"), (VStr (u "You joined a private channel."))); ((u "payload"), (VDict [((u "type"), (VStr (u "object"))); ((u "properties"), (VDict [((u "type"), (VDict [((u "type"), (VStr (u "string"))); ((u "enum"), (VList [(VStr (u "group_joined"))]))])); ((u "channel"), (VDict [((u "type"), (VStr (u "object"))); ((u "properties"), (VDict [((u "id"), (VDict [((u "type"), (VStr (u "string")))])); ((u "name"), (VDict [((u "type"), (VStr (u "string")))])); ((u "created"), (VDict [((u "type"), (VStr (u "number")))])); ((u "creator"), (VDict [((u "type"), (VStr (u "string")))]))]))]))]))]))])); ((u "groupLeft"), (VDict [((u "summary"), (VStr (u "You left a private channel."))); ((u "payload"), (VDict [((u "type"), (VStr (u "object"))); ((u "properties"), (VDict [((u "type"), (VDict [((u "type"), (VStr (u "string"))); ((u "enum"), (VList [(VStr (u "group_left"))]))])); ((u "channel"), (VDict [((u "type"), (VStr (u "string")))]))]))]))])); ((u "groupMarked"), (VDict [((u "summary"), (VStr (u "A private channel read marker was updated."))); ((u "payload"), (VDict [((u "type"), (VStr (u "object"))); ((u "properties"), (VDict [((u "type"), (VDict [((u "type"), (VStr (u "string"))); ((u "enum"), (VList [(VStr (u "group_marked"))]))])); ((u "channel"), (VDict [((u "type"), (VStr (u "string")))])); ((u "ts"), (VDict [((u "type"), (VStr (u "string")))]))]))]))])); ((u "groupOpen"), (VDict [((u "summary"), (VStr (u "You opened a private channel."))); ((u "payload"), (VDict [((u "type"), (VStr (u "object"))); ((u "properties"), (VDict [((u "type"), (VDict [((u "type"), (VStr (u "string"))); ((u "enum"), (VList [(VStr (u "group_open"))]))])); ((u "user"), (VDict [((u "type"), (VStr (u "string")))])); ((u "channel"), (VDict [((u "type"), (VStr (u "string")))]))]))]))])); ((u "groupRename"), (VDict [((u "summary"), (VStr (u "A private channel was renamed."))); ((u "payload"), (VDict [((u "type"), (VStr (u "object"))); ((u "properties"), (VDict [((u "type"), (VDict [((u "type"), (VStr (u "string"))); ((u "enum"), (VList [(VStr (u "group_rename"))]))])); ((u "channel"), (VDict [((u "type"), (VStr (u "object"))); ((u "properties"), (VDict [((u "id"), (VDict [((u "type"), (VStr (u "string")))])); ((u "name"), (VDict [((u "type"), (VStr (u "string")))])); ((u "created"), (VDict [((u "type"), (VStr (u "number")))]))]))]))]))]))])); ((u "groupUnarchive"), (VDict [((u "summary"), (VStr (u "A private channel was unarchived."))); ((u "payload"), (VDict [((u "type"), (VStr (u "object"))); ((u "properties"), (VDict [((u "type"), (VDict [((u "type"), (VStr (u "string"))); ((u "enum"), (VList [(VStr (u "group_unarchive"))]))])); ((u "channel"), (VDict [((u "type"), (VStr (u "string")))])); ((u "user"), (VDict [((u "type"), (VStr (u "string")))]))]))]))])); ((u "imClose"), (VDict [((u "summary"), (VStr (u "You closed a DM."))); ((u "payload"), (VDict [((u "type"), (VStr (u "object"))); ((u "properties"), (VDict [((u "type"), (VDict [((u "type"), (VStr (u "string"))); ((u "enum"), (VList [(VStr (u "im_close"))]))])); ((u "channel"), (VDict [((u "type"), (VStr (u "string")))])); ((u "user"), (VDict [((u "type"), (VStr (u "string")))]))]))]))])); ((u "imCreated"), (VDict [((u "summary"), (VStr (u "A DM was created."))); ((u "payload"), (VDict [((u "type"), (VStr (u "object"))); ((u "properties"), (VDict [((u "type"), (VDict [((u "type"), (VStr (u "string"))); ((u "enum"), (VList [(VStr (u "im_created"))]))])); ((u "channel"), (VDict [((u "type"), (VStr (u "object"))); ((u "properties"), (VDict [((u "id"), (VDict [((u "type"), (VStr (u "string")))])); ((u "name"), (VDict [((u "type"), (VStr (u "string")))])); ((u "created"), (VDict [((u "type"), (VStr (u "number")))])); ((u "creator"), (VDict [((u "type"), (VStr (u "string")))]))]))])); ((u "user"), (VDict [((u "type"), (VStr (u "string")))]))]))]))])); ((u "imMarked"), (VDict [((u "summary"), (VStr (u "A direct message read marker was updated."))); ((u "payload"), (VDict [((u "type"), (VStr (u "object"))); ((u "properties"), (VDict [((u "type"), (VDict [((u "type"), (VStr (u "string"))); ((u "enum"), (VList [(VStr (u "im_marked"))]))])); ((u "channel"), (VDict [((u "type"), (VStr (u "string")))])); ((u "ts"), (VDict [((u "type"), (VStr (u "string")))]))]))]))])); ((u "imOpen"), (VDict [((u "summary"), (VStr (u "You opened a DM."))); ((u "payload"), (VDict [((u "type"), (VStr (u "object"))); ((u "properties"), (VDict [((u "type"), (VDict [((u "type"), (VStr (u "string"))); ((u "enum"), (VList [(VStr (u "im_open"))]))])); ((u "channel"), (VDict [((u "type"), (VStr (u "string")))])); ((u "user"), (VDict [((u "type"), (VStr (u "string")))]))]))]))])); ((u "manualPresenceChange"), (VDict [((u "summary"), (VStr (u "You manually updated your presence."))); ((u "payload"), (VDict [((u "type"), (VStr (u "object"))); ((u "properties"), (VDict [((u "type"), (VDict [((u "type"), (VStr (u "string"))); ((u "enum"), (VList [(VStr (u "manual_presence_change"))]))])); ((u "presence"), (VDict [((u "type"), (VStr (u "string")))]))]))]))])); ((u "memberJoinedChannel"), (VDict [((u "summary"), (VStr (u "A user joined a public or private channel."))); ((u "payload"), (VDict [((u "type"), (VStr (u "object"))); ((u "properties"), (VDict [((u "type"), (VDict [((u "type"), (VStr (u "string"))); ((u "enum"), (VList [(VStr (u "member_joined_channel"))]))])); ((u "user"), (VDict [((u "type"), (VStr (u "string")))])); ((u "channel"), (VDict [((u "type"), (VStr (u "string")))])); ((u "channel_type"), (VDict [((u "type"), (VStr (u "string"))); ((u "enum"), (VList [(VStr (u "C")); (VStr (u "G"))]))])); ((u "team"), (VDict [((u "type"), (VStr (u "string")))])); ((u "inviter"), (VDict [((u "type"), (VStr (u "string")))]))]))]))])); ((u "memberLeftChannel"), (VDict [((u "summary"), (VStr (u "A user left a public or private channel."))); ((u "payload"), (VDict [((u "type"), (VStr (u "object"))); ((u "properties"), (VDict [((u "type"), (VDict [((u "type"), (VStr (u "string"))); ((u "enum"), (VList [(VStr (u "member_left_channel"))]))])); ((u "user"), (VDict [((u "type"), (VStr (u "string")))])); ((u "channel"), (VDict [((u "type"), (VStr (u "string")))])); ((u "channel_type"), (VDict [((u "type"), (VStr (u "string"))); ((u "enum"), (VList [(VStr (u "C")); (VStr (u "G"))]))])); ((u "team"), (VDict [((u "type"), (VStr (u "string")))]))]))]))])); ((u "message"), (VDict [((u "summary"), (VStr (u "A message was sent to a channel."))); ((u "payload"), (VDict [((u "type"), (VStr (u "object"))); ((u "properties"), (VDict [((u "type"), (VDict [((u "type"), (VStr (u "string"))); ((u "enum"), (VList [(VStr (u "message"))]))])); ((u "user"), (VDict [((u "type"), (VStr (u "string")))])); ((u "channel"), (VDict [((u "type"), (VStr (u "string")))])); ((u "text"), (VDict [((u "type"), (VStr (u "string")))])); ((u "ts"), (VDict [((u "type"), (VStr (u "string")))])); ((u "attachments"), (VDict [((u "type"), (VStr (u "array"))); ((u "items"), (VDict [((u "$ref"), (VStr (u "#/components/schemas/attachment")))]))])); ((u "edited"), (VDict [((u "type"), (VStr (u "object"))); ((u "properties"), (VDict [((u "user"), (VDict [((u "type"), (VStr (u "string")))])); ((u "ts"), (VDict [((u "type"), (VStr (u "string")))]))]))]))]))]))])); ((u "outgoingMessage"), (VDict [((u "summary"), (VStr (u "A message was sent to a channel."))); ((u "payload"), (VDict [((u "type"), (VStr (u "object"))); ((u "properties"), (VDict [((u "id"), (VDict [((u "type"), (VStr (u "number")))])); ((u "type"), (VDict [((u "type"), (VStr (u "string"))); ((u "enum"), (VList [(VStr (u "message"))]))])); ((u "channel"), (VDict [((u "type"), (VStr (u "string")))])); ((u "text"), (VDict [((u "type"), (VStr (u "string")))]))]))]))]))]))]))])))];
t "fixtures/json_specs/valid/websockets.json" [SDo (XNew "AsyncAPI3" (XVal (VDict [((u "asyncapi"), (VStr (u "3.0.0"))); ((u "info"), (VDict [((u "title"), (VStr (u "Gemini Market Data Websocket API"))); ((u "version"), (VStr (u "1.0.0"))); ((u "description"), (VStr [77; 97; 114; 107; 101; 116; 32; 100; 97; 116; 97; 32; 105; 115; 32; 97; 32; 112; 117; 98; 108; 105; 99; 32; 65; 80; 73; 32; 116; 104; 97; 116; 32; 115; 116; 114; 101; 97; 109; 115; 32; 97; 108; 108; 32; 116; 104; 101; 32; 109; 97; 114; 107; 101; 116; 32; 100; 97; 116; 97; 32; 111; 110; 32; 97; 32; 103; 105; 118; 101; 110; 10; 115; 121; 109; 98; 111; 108; 46; 10; 10; 10; 89; 111; 117; 32; 99; 97; 110; 32; 113; 117; 105; 99; 107; 108; 121; 32; 112; 108; 97; 121; 32; 119; 105; 116; 104; 32; 116; 104; 101; 32; 65; 80; 73; 32; 117; 115; 105; 110; 103; 10; 91; 119; 101; 98; 115; 111; 99; 97; 116; 93; 40; 104; 116; 116; 112; 115; 58; 47; 47; 103; 105; 116; 104; 117; 98; 46; 99; 111; 109; 47; 118; 105; 47; 119; 101; 98; 115; 111; 99; 97; 116; 35; 105; 110; 115; 116; 97; 108; 108; 97; 116; 105; 111; 110; 41; 32; 108; 105; 107; 101; 32; 116; 104; 105; 115; 58; 10; 10; 96; 96; 96; 98; 97; 115; 104; 10; 10; 119; 101; 98; 115; 111; 99; 97; 116; 32; 119; 115; 115; 58; 47; 47; 97; 112; 105; 46; 103; 101; 109; 105; 110; 105; 46; 99; 111; 109; 47; 118; 49; 47; 109; 97; 114; 107; 101; 116; 100; 97; 116; 97; 47; 98; 116; 99; 117; 115; 100; 63; 104; 101; 97; 114; 116; 98; 101; 97; 116; 61; 116; 114; 117; 101; 32; 45; 83; 10; 10; 96; 96; 96]%N)); ((u "contact"), (VDict [((u "name"), (VStr (u "Gemini"))); ((u "url"), (VStr (u "https://www.gemini.com/")))])); ((u "externalDocs"), (VDict [((u "url"), (VStr (u "https://docs.sandbox.gemini.com/websocket-api/#market-data")))]))])); ((u "servers"), (VDict [((u "public"), (VDict [((u "host"), (VStr (u "api.gemini.com"))); ((u "protocol"), (VStr (u "wss")))]))])); ((u "channels"), (VDict [((u "marketDataV1"), (VDict [((u "address"), (VStr (u "/v1/marketdata/{symbol}"))); ((u "messages"), (VDict [((u "marketData"), (VDict [((u "$ref"), (VStr (u "#/components/messages/marketData")))]))])); ((u "parameters"), (VDict [((u "symbol"), (VDict [((u "enum"), (VList [(VStr (u "btcusd")); (VStr (u "ethbtc")); (VStr (u "ethusd")); (VStr (u "zecusd")); (VStr (u "zecbtc")); (VStr (u "zeceth")); (VStr (u "zecbch")); (VStr (u "zecltc")); (VStr (u "bchusd")); (VStr (u "bchbtc")); (VStr (u "bcheth")); (VStr (u "ltcusd")); (VStr (u "ltcbtc")); (VStr (u "ltceth")); (VStr (u "ltcbch")); (VStr (u "batusd")); (VStr (u "daiusd")); (VStr (u "linkusd")); (VStr (u "oxtusd")); (VStr (u "batbtc")); (VStr (u "linkbtc")); (VStr (u "oxtbtc")); (VStr (u "bateth")); (VStr (u "linketh")); (VStr (u "oxteth")); (VStr (u "ampusd")); (VStr (u "compusd")); (VStr (u "paxgusd")); (VStr (u "mkrusd")); (VStr (u "zrxusd")); (VStr (u "kncusd")); (VStr (u "manausd")); (VStr (u "storjusd")); (VStr (u "snxusd")); (VStr (u "crvusd")); (VStr (u "balusd")); (VStr (u "uniusd")); (VStr (u "renusd")); (VStr (u "umausd")); (VStr (u "yfiusd")); (VStr (u "btcdai")); (VStr (u "ethdai")); (VStr (u "aaveusd")); (VStr (u "filusd")); (VStr (u "btceur")); (VStr (u "btcgbp")); (VStr (u "etheur")); (VStr (u "ethgbp")); (VStr (u "btcsgd")); (VStr (u "ethsgd")); (VStr (u "sklusd")); (VStr (u "grtusd")); (VStr (u "bntusd")); (VStr (u "1inchusd")); (VStr (u "enjusd")); (VStr (u "lrcusd")); (VStr (u "sandusd")); (VStr (u "cubeusd")); (VStr (u "lptusd")); (VStr (u "bondusd")); (VStr (u "maticusd")); (VStr (u "injusd")); (VStr (u "sushiusd"))])); ((u "description"), (VStr [83; 121; 109; 98; 111; 108; 115; 32; 97; 114; 101; 32; 102; 111; 114; 109; 97; 116; 116; 101; 100; 32; 97; 115; 32; 67; 67; 89; 49; 67; 67; 89; 50; 32; 119; 104; 101; 114; 101; 32; 112; 114; 105; 99; 101; 115; 32; 97; 114; 101; 32; 105; 110; 32; 67; 67; 89; 50; 32; 97; 110; 100; 10; 113; 117; 97; 110; 116; 105; 116; 105; 101; 115; 32; 97; 114; 101; 32; 105; 110; 32; 67; 67; 89; 49; 46; 32; 84; 111; 32; 114; 101; 97; 100; 32; 109; 111; 114; 101; 32; 99; 108; 105; 99; 107; 10; 91; 104; 101; 114; 101; 93; 40; 104; 116; 116; 112; 115; 58; 47; 47; 100; 111; 99; 115; 46; 115; 97; 110; 100; 98; 111; 120; 46; 103; 101; 109; 105; 110; 105; 46; 99; 111; 109; 47; 119; 101; 98; 115; 111; 99; 107; 101; 116; 45; 97; 112; 105; 47; 35; 115; 121; 109; 98; 111; 108; 115; 45; 97; 110; 100; 45; 109; 105; 110; 105; 109; 117; 109; 115; 41; 46]%N))]))])); ((u "bindings"), (VDict [((u "ws"), (VDict [((u "bindingVersion"), (VStr (u "0.1.0"))); ((u "query"), (VDict [((u "type"), (VStr (u "object"))); ((u "description"), (VStr [84; 104; 101; 32; 115; 101; 109; 97; 110; 116; 105; 99; 115; 32; 111; 102; 32; 101; 110; 116; 114; 121; 32; 116; 121; 112; 101; 32; 102; 105; 108; 116; 101; 114; 105; 110; 103; 32; 105; 115; 58; 10; 10; 10; 73; 102; 32; 97; 110; 121; 32; 101; 110; 116; 114; 121; 32; 116; 121; 112; 101; 32; 105; 115; 32; 115; 112; 101; 99; 105; 102; 105; 101; 100; 32; 97; 115; 32; 116; 114; 117; 101; 32; 111; 114; 32; 102; 97; 108; 115; 101; 44; 32; 97; 108; 108; 32; 111; 102; 32; 116; 104; 101; 109; 32; 109; 117; 115; 116; 32; 98; 101; 10; 101; 120; 112; 108; 105; 99; 105; 116; 108; 121; 32; 102; 108; 97; 103; 103; 101; 100; 32; 116; 114; 117; 101; 32; 116; 111; 32; 115; 104; 111; 119; 32; 117; 112; 32; 105; 110; 32; 116; 104; 101; 32; 114; 101; 115; 112; 111; 110; 115; 101; 10; 10; 73; 102; 32; 110; 111; 32; 101; 110; 116; 114; 121; 32; 116; 121; 112; 101; 115; 32; 102; 105; 108; 116; 101; 114; 105; 110; 103; 32; 112; 97; 114; 97; 109; 101; 116; 101; 114; 115; 32; 97; 114; 101; 32; 105; 110; 99; 108; 117; 100; 101; 100; 32; 105; 110; 32; 116; 104; 101; 32; 117; 114; 108; 44; 32; 116; 104; 101; 110; 10; 97; 108; 108; 32; 101; 110; 116; 114; 121; 32; 116; 121; 112; 101; 115; 32; 119; 105; 108; 108; 32; 97; 112; 112; 101; 97; 114; 32; 105; 110; 32; 116; 104; 101; 32; 114; 101; 115; 112; 111; 110; 115; 101; 10; 10; 10; 78; 79; 84; 69; 58; 32; 116; 111; 112; 95; 111; 102; 95; 98; 111; 111; 107; 32; 104; 97; 115; 32; 110; 111; 32; 109; 101; 97; 110; 105; 110; 103; 32; 97; 110; 100; 32; 105; 110; 105; 116; 105; 97; 108; 32; 98; 111; 111; 107; 32; 101; 118; 101; 110; 116; 115; 32; 97; 114; 101; 32; 101; 109; 112; 116; 121; 10; 119; 104; 101; 110; 32; 111; 110; 108; 121; 32; 116; 114; 97; 100; 101; 115; 32; 105; 115; 32; 115; 112; 101; 99; 105; 102; 105; 101; 100]%N)); ((u "properties"), (VDict [((u "heartbeat"), (VDict [((u "type"), (VStr (u "boolean"))); ((u "default"), (VBool false)); ((u "description"), (VStr [79; 112; 116; 105; 111; 110; 97; 108; 108; 121; 32; 97; 100; 100; 32; 116; 104; 105; 115; 32; 112; 97; 114; 97; 109; 101; 116; 101; 114; 32; 97; 110; 100; 32; 115; 101; 116; 32; 116; 111; 32; 116; 114; 117; 101; 32; 116; 111; 32; 114; 101; 99; 101; 105; 118; 101; 32; 97; 10; 104; 101; 97; 114; 116; 98; 101; 97; 116; 32; 101; 118; 101; 114; 121; 32; 53; 32; 115; 101; 99; 111; 110; 100; 115]%N))])); ((u "top_of_book"), (VDict [((u "type"), (VStr (u "boolean"))); ((u "default"), (VBool false)); ((u "description"), (VStr [73; 102; 32; 97; 98; 115; 101; 110; 116; 32; 111; 114; 32; 102; 97; 108; 115; 101; 44; 32; 114; 101; 99; 101; 105; 118; 101; 32; 102; 117; 108; 108; 32; 111; 114; 100; 101; 114; 32; 98; 111; 111; 107; 32; 100; 101; 112; 116; 104; 59; 32; 105; 102; 32; 112; 114; 101; 115; 101; 110; 116; 10; 97; 110; 100; 32; 116; 114; 117; 101; 44; 32; 114; 101; 99; 101; 105; 118; 101; 32; 116; 111; 112; 32; 111; 102; 32; 98; 111; 111; 107; 32; 111; 110; 108; 121; 46; 32; 79; 110; 108; 121; 32; 97; 112; 112; 108; 105; 101; 115; 32; 116; 111; 32; 98; 105; 100; 115; 32; 97; 110; 100; 10; 111; 102; 102; 101; 114; 115; 46]%N))])); ((u "bids"), (VDict [((u "type"), (VStr (u "boolean"))); ((u "default"), (VBool true)); ((u "description"), (VStr (u "Include bids in change events")))])); ((u "offers"), (VDict [((u "type"), (VStr (u "boolean"))); ((u "default"), (VBool true)); ((u "description"), (VStr (u "Include asks in change events")))])); ((u "trades"), (VDict [((u "type"), (VStr (u "boolean"))); ((u "default"), (VBool true)); ((u "description"), (VStr (u "Include trade events")))])); ((u "auctions"), (VDict [((u "type"), (VStr (u "boolean"))); ((u "default"), (VBool true)); ((u "description"), (VStr (u "Include auction events")))]))]))]))]))]))]))])); ((u "operations"), (VDict [((u "sendMarketData"), (VDict [((u "action"), (VStr (u "send"))); ((u "channel"), (VDict [((u "$ref"), (VStr (u "#/channels/marketDataV1")))])); ((u "summary"), (VStr (u "Receive market updates on a given symbol"))); ((u "messages"), (VList [(VDict [((u "$ref"), (VStr (u "#/channels/marketDataV1/messages/marketData")))])]))]))])); ((u "components"), (VDict [((u "messages"), (VDict [((u "marketData"), (VDict [((u "summary"), (VStr (u "Message with marked data information."))); ((u "description"), (VStr [84; 104; 101; 32; 105; 110; 105; 116; 105; 97; 108; 32; 114; 101; 115; 112; 111; 110; 115; 101; 32; 109; 101; 115; 115; 97; 103; 101; 32; 119; 105; 108; 108; 32; 115; 104; 111; 119; 32; 116; 104; 101; 32; 101; 120; 105; 115; 116; 105; 110; 103; 32; 115; 116; 97; 116; 101; 32; 111; 102; 32; 116; 104; 101; 32; 111; 114; 100; 101; 114; 10; 98; 111; 111; 107; 46; 32; 83; 117; 98; 115; 101; 113; 117; 101; 110; 116; 32; 109; 101; 115; 115; 97; 103; 101; 115; 32; 119; 105; 108; 108; 32; 115; 104; 111; 119; 32; 97; 108; 108; 32; 101; 120; 101; 99; 117; 116; 101; 100; 32; 116; 114; 97; 100; 101; 115; 44; 32; 97; 115; 32; 119; 101; 108; 108; 32; 97; 115; 32; 97; 108; 108; 10; 111; 116; 104; 101; 114; 32; 99; 104; 97; 110; 103; 101; 115; 32; 116; 111; 32; 116; 104; 101; 32; 111; 114; 100; 101; 114; 32; 98; 111; 111; 107; 32; 102; 114; 111; 109; 32; 111; 114; 100; 101; 114; 115; 32; 112; 108; 97; 99; 101; 100; 32; 111; 114; 32; 99; 97; 110; 99; 101; 108; 101; 100; 46]%N)); ((u "payload"), (VDict [((u "$ref"), (VStr (u "#/components/schemas/market")))])); ((u "examples"), (VList [(VDict [((u "name"), (VStr (u "updateMessage"))); ((u "summary"), (VStr (u "Example of an update message that contains a change in price information."))); ((u "payload"), (VDict [((u "type"), (VStr (u "update"))); ((u "eventId"), (VInt (36902233362)%Z)); ((u "timestamp"), (VStr (u "1619769673"))); ((u "timestampms"), (VStr (u "1619769673527"))); ((u "socket_sequence"), (VInt (661)%Z)); ((u "events"), (VList [(VDict [((u "type"), (VStr (u "change"))); ((u "side"), (VStr (u "bid"))); ((u "price"), (VStr (u "54350.40"))); ((u "remaining"), (VStr (u "0.002"))); ((u "delta"), (VStr (u "0.002"))); ((u "reason"), (VStr (u "place")))])]))]))]); (VDict [((u "name"), (VStr (u "heartbeatMessage"))); ((u "summary"), (VStr (u "Example of additional heartbeat message when you enable them."))); ((u "payload"), (VDict [((u "type"), (VStr (u "heartbeat"))); ((u "socket_sequence"), (VInt (1656)%Z))]))])]))]))])); ((u "schemas"), (VDict [((u "market"), (VDict [((u "type"), (VStr (u "object"))); ((u "oneOf"), (VList [(VDict [((u "$ref"), (VStr (u "#/components/schemas/heartbeat")))]); (VDict [((u "$ref"), (VStr (u "#/components/schemas/update")))])]))])); ((u "heartbeat"), (VDict [((u "allOf"), (VList [(VDict [((u "properties"), (VDict [((u "type"), (VDict [((u "type"), (VStr (u "string"))); ((u "const"), (VStr (u "heartbeat")))]))])); ((u "required"), (VList [(VStr (u "type"))]))]); (VDict [((u "$ref"), (VStr (u "#/components/schemas/default")))])]))])); ((u "update"), (VDict [((u "allOf"), (VList [(VDict [((u "properties"), (VDict [((u "type"), (VDict [((u "type"), (VStr (u "string"))); ((u "const"), (VStr (u "update")))])); ((u "eventId"), (VDict [((u "type"), (VStr (u "integer"))); ((u "description"), (VStr [65; 32; 109; 111; 110; 111; 116; 111; 110; 105; 99; 97; 108; 108; 121; 32; 105; 110; 99; 114; 101; 97; 115; 105; 110; 103; 32; 115; 101; 113; 117; 101; 110; 99; 101; 32; 110; 117; 109; 98; 101; 114; 32; 105; 110; 100; 105; 99; 97; 116; 105; 110; 103; 32; 119; 104; 101; 110; 32; 116; 104; 105; 115; 10; 99; 104; 97; 110; 103; 101; 32; 111; 99; 99; 117; 114; 114; 101; 100; 46; 32; 84; 104; 101; 115; 101; 32; 110; 117; 109; 98; 101; 114; 115; 32; 97; 114; 101; 32; 112; 101; 114; 115; 105; 115; 116; 101; 110; 116; 32; 97; 110; 100; 32; 99; 111; 110; 115; 105; 115; 116; 101; 110; 116; 10; 98; 101; 116; 119; 101; 101; 110; 32; 109; 97; 114; 107; 101; 116; 32; 100; 97; 116; 97; 32; 99; 111; 110; 110; 101; 99; 116; 105; 111; 110; 115; 46]%N))])); ((u "events"), (VDict [((u "$ref"), (VStr (u "#/components/schemas/events")))])); ((u "timestamp"), (VDict [((u "type"), (VStr (u "string"))); ((u "format"), (VStr (u "date-time"))); ((u "description"), (VStr [84; 104; 101; 32; 116; 105; 109; 101; 115; 116; 97; 109; 112; 32; 105; 110; 32; 115; 101; 99; 111; 110; 100; 115; 32; 102; 111; 114; 32; 116; 104; 105; 115; 32; 103; 114; 111; 117; 112; 32; 111; 102; 32; 101; 118; 101; 110; 116; 115; 32; 40; 105; 110; 99; 108; 117; 100; 101; 100; 32; 102; 111; 114; 10; 99; 111; 109; 112; 97; 116; 105; 98; 105; 108; 105; 116; 121; 32; 114; 101; 97; 115; 111; 110; 115; 41; 46; 32; 87; 101; 32; 114; 101; 99; 111; 109; 109; 101; 110; 100; 32; 117; 115; 105; 110; 103; 32; 116; 104; 101; 32; 116; 105; 109; 101; 115; 116; 97; 109; 112; 109; 115; 32; 102; 105; 101; 108; 100; 10; 105; 110; 115; 116; 101; 97; 100; 46]%N))])); ((u "timestampms"), (VDict [((u "type"), (VStr (u "string"))); ((u "format"), (VStr (u "time"))); ((u "description"), (VStr (u "The timestamp in milliseconds for this group of events.")))]))])); ((u "required"), (VList [(VStr (u "type")); (VStr (u "eventId")); (VStr (u "events")); (VStr (u "timestamp")); (VStr (u "timestampms"))]))]); (VDict [((u "$ref"), (VStr (u "#/components/schemas/default")))])]))])); ((u "default"), (VDict [((u "type"), (VStr (u "object"))); ((u "description"), (VStr [84; 104; 105; 115; 32; 111; 98; 106; 101; 99; 116; 32; 105; 115; 32; 97; 108; 119; 97; 121; 115; 32; 112; 97; 114; 116; 32; 111; 102; 32; 116; 104; 101; 32; 112; 97; 121; 108; 111; 97; 100; 46; 32; 73; 110; 32; 99; 97; 115; 101; 32; 111; 102; 32; 116; 121; 112; 101; 61; 104; 101; 97; 114; 116; 98; 101; 97; 116; 44; 10; 116; 104; 101; 115; 101; 32; 97; 114; 101; 32; 116; 104; 101; 32; 111; 110; 108; 121; 32; 102; 105; 101; 108; 100; 115; 46]%N)); ((u "required"), (VList [(VStr (u "type")); (VStr (u "socket_sequence"))])); ((u "properties"), (VDict [((u "socket_sequence"), (VDict [((u "type"), (VStr (u "integer"))); ((u "description"), (VStr [122; 101; 114; 111; 45; 105; 110; 100; 101; 120; 101; 100; 32; 109; 111; 110; 111; 116; 111; 110; 105; 99; 32; 105; 110; 99; 114; 101; 97; 115; 105; 110; 103; 32; 115; 101; 113; 117; 101; 110; 99; 101; 32; 110; 117; 109; 98; 101; 114; 32; 97; 116; 116; 97; 99; 104; 101; 100; 32; 116; 111; 32; 101; 97; 99; 104; 10; 109; 101; 115; 115; 97; 103; 101; 32; 115; 101; 110; 116; 32; 45; 32; 105; 102; 32; 116; 104; 101; 114; 101; 32; 105; 115; 32; 97; 32; 103; 97; 112; 32; 105; 110; 32; 116; 104; 105; 115; 32; 115; 101; 113; 117; 101; 110; 99; 101; 44; 32; 121; 111; 117; 32; 104; 97; 118; 101; 32; 109; 105; 115; 115; 101; 100; 32; 97; 10; 109; 101; 115; 115; 97; 103; 101; 46; 32; 73; 102; 32; 121; 111; 117; 32; 99; 104; 111; 111; 115; 101; 32; 116; 111; 32; 101; 110; 97; 98; 108; 101; 32; 104; 101; 97; 114; 116; 98; 101; 97; 116; 115; 44; 32; 116; 104; 101; 110; 32; 104; 101; 97; 114; 116; 98; 101; 97; 116; 32; 97; 110; 100; 10; 117; 112; 100; 97; 116; 101; 32; 109; 101; 115; 115; 97; 103; 101; 115; 32; 119; 105; 108; 108; 32; 115; 104; 97; 114; 101; 32; 97; 32; 115; 105; 110; 103; 108; 101; 32; 105; 110; 99; 114; 101; 97; 115; 105; 110; 103; 32; 115; 101; 113; 117; 101; 110; 99; 101; 46; 32; 83; 101; 101; 10; 91; 83; 101; 113; 117; 101; 110; 99; 101; 10; 78; 117; 109; 98; 101; 114; 115; 93; 40; 104; 116; 116; 112; 115; 58; 47; 47; 100; 111; 99; 115; 46; 115; 97; 110; 100; 98; 111; 120; 46; 103; 101; 109; 105; 110; 105; 46; 99; 111; 109; 47; 119; 101; 98; 115; 111; 99; 107; 101; 116; 45; 97; 112; 105; 47; 35; 115; 101; 113; 117; 101; 110; 99; 101; 45; 110; 117; 109; 98; 101; 114; 115; 41; 10; 102; 111; 114; 32; 109; 111; 114; 101; 32; 105; 110; 102; 111; 114; 109; 97; 116; 105; 111; 110; 46]%N))]))]))])); ((u "events"), (VDict [((u "type"), (VStr (u "array"))); ((u "description"), (VStr [69; 105; 116; 104; 101; 114; 32; 97; 32; 99; 104; 97; 110; 103; 101; 32; 116; 111; 32; 116; 104; 101; 32; 111; 114; 100; 101; 114; 32; 98; 111; 111; 107; 44; 32; 111; 114; 32; 116; 104; 101; 32; 105; 110; 100; 105; 99; 97; 116; 105; 111; 110; 32; 116; 104; 97; 116; 32; 97; 32; 116; 114; 97; 100; 101; 32; 104; 97; 115; 10; 111; 99; 99; 117; 114; 114; 101; 100; 46]%N)); ((u "items"), (VDict [((u "type"), (VStr (u "object"))); ((u "additionalProperties"), (VBool false)); ((u "properties"), (VDict [((u "type"), (VDict [((u "type"), (VStr (u "string"))); ((u "enum"), (VList [(VStr (u "trade")); (VStr (u "change")); (VStr (u "auction, block_trade"))]))])); ((u "price"), (VDict [((u "type"), (VStr (u "number"))); ((u "multipleOf"), (VInt (1)%Z)); ((u "description"), (VStr (u "The price of this order book entry.")))])); ((u "side"), (VDict [((u "type"), (VStr (u "string"))); ((u "enum"), (VList [(VStr (u "bid")); (VStr (u "side"))]))])); ((u "reason"), (VDict [((u "type"), (VStr (u "string"))); ((u "enum"), (VList [(VStr (u "place")); (VStr (u "trade")); (VStr (u "cancel")); (VStr (u "initial"))])); ((u "description"), (VStr [73; 110; 100; 105; 99; 97; 116; 101; 115; 32; 119; 104; 121; 32; 116; 104; 101; 32; 99; 104; 97; 110; 103; 101; 32; 104; 97; 115; 32; 111; 99; 99; 117; 114; 114; 101; 100; 46; 32; 105; 110; 105; 116; 105; 97; 108; 32; 105; 115; 32; 102; 111; 114; 32; 116; 104; 101; 32; 105; 110; 105; 116; 105; 97; 108; 10; 114; 101; 115; 112; 111; 110; 115; 101; 32; 109; 101; 115; 115; 97; 103; 101; 44; 32; 119; 104; 105; 99; 104; 32; 119; 105; 108; 108; 32; 115; 104; 111; 119; 32; 116; 104; 101; 32; 101; 110; 116; 105; 114; 101; 32; 101; 120; 105; 115; 116; 105; 110; 103; 32; 115; 116; 97; 116; 101; 32; 111; 102; 32; 116; 104; 101; 10; 111; 114; 100; 101; 114; 32; 98; 111; 111; 107; 46]%N))])); ((u "remaining"), (VDict [((u "type"), (VStr (u "number"))); ((u "multipleOf"), (VInt (1)%Z)); ((u "description"), (VStr [84; 104; 101; 32; 113; 117; 97; 110; 116; 105; 116; 121; 32; 114; 101; 109; 97; 105; 110; 105; 110; 103; 32; 97; 116; 32; 116; 104; 97; 116; 32; 112; 114; 105; 99; 101; 32; 108; 101; 118; 101; 108; 32; 97; 102; 116; 101; 114; 32; 116; 104; 105; 115; 32; 99; 104; 97; 110; 103; 101; 10; 111; 99; 99; 117; 114; 114; 101; 100; 46; 32; 77; 97; 121; 32; 98; 101; 32; 122; 101; 114; 111; 32; 105; 102; 32; 97; 108; 108; 32; 111; 114; 100; 101; 114; 115; 32; 97; 116; 32; 116; 104; 105; 115; 32; 112; 114; 105; 99; 101; 32; 108; 101; 118; 101; 108; 32; 104; 97; 118; 101; 32; 98; 101; 101; 110; 10; 102; 105; 108; 108; 101; 100; 32; 111; 114; 32; 99; 97; 110; 99; 101; 108; 101; 100; 46]%N))])); ((u "delta"), (VDict [((u "type"), (VStr (u "number"))); ((u "multipleOf"), (VInt (1)%Z)); ((u "description"), (VStr [84; 104; 101; 32; 113; 117; 97; 110; 116; 105; 116; 121; 32; 99; 104; 97; 110; 103; 101; 100; 46; 32; 77; 97; 121; 32; 98; 101; 32; 110; 101; 103; 97; 116; 105; 118; 101; 44; 32; 105; 102; 32; 97; 110; 32; 111; 114; 100; 101; 114; 32; 105; 115; 32; 102; 105; 108; 108; 101; 100; 32; 111; 114; 10; 99; 97; 110; 99; 101; 108; 101; 100; 46; 32; 70; 111; 114; 32; 105; 110; 105; 116; 105; 97; 108; 32; 109; 101; 115; 115; 97; 103; 101; 115; 44; 32; 100; 101; 108; 116; 97; 32; 119; 105; 108; 108; 32; 101; 113; 117; 97; 108; 32; 114; 101; 109; 97; 105; 110; 105; 110; 103; 46]%N))]))]))]))]))]))]))])))];
t "fixtures/yaml_specs/valid/single_file/anyof-asyncapi.yml" [SDo (XNew "AsyncAPI3" (XVal (VDict [((u "asyncapi"), (VStr (u "3.0.0"))); ((u "info"), (VDict [((u "title"), (VStr (u "AnyOf example"))); ((u "version"), (VStr (u "1.0.0")))])); ((u "channels"), (VDict [((u "test"), (VDict [((u "address"), (VStr (u "test"))); ((u "messages"), (VDict [((u "testMessages"), (VDict [((u "$ref"), (VStr (u "#/components/messages/testMessages")))]))]))]))])); ((u "operations"), (VDict [((u "test"), (VDict [((u "action"), (VStr (u "receive"))); ((u "channel"), (VDict [((u "$ref"), (VStr (u "#/channels/test")))])); ((u "messages"), (VList [(VDict [((u "$ref"), (VStr (u "#/channels/test/messages/testMessages")))])]))]))])); ((u "components"), (VDict [((u "messages"), (VDict [((u "testMessages"), (VDict [((u "payload"), (VDict [((u "anyOf"), (VList [(VDict [((u "$ref"), (VStr (u "#/components/schemas/objectWithKey")))]); (VDict [((u "$ref"), (VStr (u "#/components/schemas/objectWithKey2")))])]))]))]))])); ((u "schemas"), (VDict [((u "objectWithKey"), (VDict [((u "type"), (VStr (u "object"))); ((u "properties"), (VDict [((u "key"), (VDict [((u "type"), (VStr (u "string"))); ((u "additionalProperties"), (VBool false))]))]))])); ((u "objectWithKey2"), (VDict [((u "type"), (VStr (u "object"))); ((u "properties"), (VDict [((u "key2"), (VDict [((u "type"), (VStr (u "string")))]))]))]))]))]))])))];
t "fixtures/yaml_specs/valid/single_file/application-headers-asyncapi.yml" [SDo (XNew "AsyncAPI3" (XVal (VDict [((u "asyncapi"), (VStr (u "3.0.0"))); ((u "info"), (VDict [((u "title"), (VStr (u "Application Headers example"))); ((u "version"), (VStr (u "1.0.0"))); ((u "description"), (VStr (u "A cut of the Streetlights API to test application header changes supporting"))); ((u "license"), (VDict [((u "name"), (VStr (u "Apache 2.0"))); ((u "url"), (VStr (u "https://www.apache.org/licenses/LICENSE-2.0")))]))])); ((u "defaultContentType"), (VStr (u "application/json"))); ((u "servers"), (VDict [((u "production"), (VDict [((u "host"), (VStr (u "test.mosquitto.org:{port}"))); ((u "protocol"), (VStr (u "mqtt"))); ((u "description"), (VStr (u "Test broker"))); ((u "variables"), (VDict [((u "port"), (VDict [((u "description"), (VStr (u "Secure connection (TLS) is available through port 8883."))); ((u "default"), (VStr (u "1883"))); ((u "enum"), (VList [(VStr (u "1883")); (VStr (u "8883"))]))]))]))]))])); ((u "channels"), (VDict [((u "lightingMeasured"), (VDict [((u "address"), (VStr (u "smartylighting/streetlights/1/0/event/{streetlightId}/lighting/measured"))); ((u "messages"), (VDict [((u "lightMeasured"), (VDict [((u "$ref"), (VStr (u "#/components/messages/lightMeasured")))]))])); ((u "parameters"), (VDict [((u "streetlightId"), (VDict [((u "$ref"), (VStr (u "#/components/parameters/streetlightId")))]))]))]))])); ((u "operations"), (VDict [((u "receiveLightMeasurement"), (VDict [((u "action"), (VStr (u "receive"))); ((u "channel"), (VDict [((u "$ref"), (VStr (u "#/channels/lightingMeasured")))])); ((u "summary"), (VStr (u "Inform about environmental lighting conditions of a particular streetlight."))); ((u "messages"), (VList [(VDict [((u "$ref"), (VStr (u "#/channels/lightingMeasured/messages/lightMeasured")))])]))]))])); ((u "components"), (VDict [((u "messages"), (VDict [((u "lightMeasured"), (VDict [((u "name"), (VStr (u "lightMeasured"))); ((u "title"), (VStr (u "Light measured"))); ((u "summary"), (VStr (u "Inform about environmental lighting conditions of a particular streetlight."))); ((u "correlationId"), (VDict [((u "location"), (VStr (u "$message.header#/MQMD/CorrelId")))])); ((u "contentType"), (VStr (u "application/json"))); ((u "headers"), (VDict [((u "type"), (VStr (u "object"))); ((u "properties"), (VDict [((u "MQMD"), (VDict [((u "type"), (VStr (u "object"))); ((u "properties"), (VDict [((u "CorrelId"), (VDict [((u "type"), (VStr (u "string"))); ((u "minLength"), (VInt (24)%Z)); ((u "maxLength"), (VInt (24)%Z)); ((u "format"), (VStr (u "binary")))]))]))])); ((u "applicationInstanceId"), (VDict [((u "$ref"), (VStr (u "#/components/schemas/applicationInstanceId")))]))]))])); ((u "payload"), (VDict [((u "$ref"), (VStr (u "#/components/schemas/lightMeasuredPayload")))]))]))])); ((u "schemas"), (VDict [((u "lightMeasuredPayload"), (VDict [((u "type"), (VStr (u "object"))); ((u "properties"), (VDict [((u "lumens"), (VDict [((u "type"), (VStr (u "integer"))); ((u "minimum"), (VInt (0)%Z)); ((u "description"), (VStr (u "Light intensity measured in lumens.")))])); ((u "sentAt"), (VDict [((u "$ref"), (VStr (u "#/components/schemas/sentAt")))]))]))])); ((u "sentAt"), (VDict [((u "type"), (VStr (u "string"))); ((u "format"), (VStr (u "date-time"))); ((u "description"), (VStr (u "Date and time when the message was sent.")))])); ((u "applicationInstanceId"), (VDict [((u "description"), (VStr (u "Unique identifier for a given instance of the publishing application"))); ((u "type"), (VStr (u "string")))]))])); ((u "parameters"), (VDict [((u "streetlightId"), (VDict [((u "description"), (VStr (u "The ID of the streetlight.")))]))]))]))])))];
t "fixtures/yaml_specs/valid/single_file/correlation-id-asyncapi.yml" [SDo (XNew "AsyncAPI3" (XVal (VDict [((u "asyncapi"), (VStr (u "3.0.0"))); ((u "info"), (VDict [((u "title"), (VStr (u "Correlation ID Example"))); ((u "version"), (VStr (u "1.0.0"))); ((u "description"), (VStr (u "A cut of the Streetlights API to test Correlation ID"))); ((u "license"), (VDict [((u "name"), (VStr (u "Apache 2.0"))); ((u "url"), (VStr (u "https://www.apache.org/licenses/LICENSE-2.0")))]))])); ((u "defaultContentType"), (VStr (u "application/json"))); ((u "servers"), (VDict [((u "production"), (VDict [((u "host"), (VStr (u "test.mosquitto.org:{port}"))); ((u "protocol"), (VStr (u "mqtt"))); ((u "description"), (VStr (u "Test broker"))); ((u "variables"), (VDict [((u "port"), (VDict [((u "description"), (VStr (u "Secure connection (TLS) is available through port 8883."))); ((u "default"), (VStr (u "1883"))); ((u "enum"), (VList [(VStr (u "1883")); (VStr (u "8883"))]))]))])); ((u "security"), (VList [(VDict [((u "$ref"), (VStr (u "#/components/securitySchemes/apiKey")))]); (VDict [((u "type"), (VStr (u "oauth2"))); ((u "description"), (VStr (u "Flows to support OAuth 2.0"))); ((u "flows"), (VDict [((u "implicit"), (VDict [((u "authorizationUrl"), (VStr (u "https://authserver.example/auth"))); ((u "availableScopes"), (VDict [((u "streetlights:on"), (VStr (u "Ability to switch lights on"))); ((u "streetlights:off"), (VStr (u "Ability to switch lights off"))); ((u "streetlights:dim"), (VStr (u "Ability to dim the lights")))]))])); ((u "password"), (VDict [((u "tokenUrl"), (VStr (u "https://authserver.example/token"))); ((u "availableScopes"), (VDict [((u "streetlights:on"), (VStr (u "Ability to switch lights on"))); ((u "streetlights:off"), (VStr (u "Ability to switch lights off"))); ((u "streetlights:dim"), (VStr (u "Ability to dim the lights")))]))])); ((u "clientCredentials"), (VDict [((u "tokenUrl"), (VStr (u "https://authserver.example/token"))); ((u "availableScopes"), (VDict [((u "streetlights:on"), (VStr (u "Ability to switch lights on"))); ((u "streetlights:off"), (VStr (u "Ability to switch lights off"))); ((u "streetlights:dim"), (VStr (u "Ability to dim the lights")))]))])); ((u "authorizationCode"), (VDict [((u "authorizationUrl"), (VStr (u "https://authserver.example/auth"))); ((u "tokenUrl"), (VStr (u "https://authserver.example/token"))); ((u "refreshUrl"), (VStr (u "https://authserver.example/refresh"))); ((u "availableScopes"), (VDict [((u "streetlights:on"), (VStr (u "Ability to switch lights on"))); ((u "streetlights:off"), (VStr (u "Ability to switch lights off"))); ((u "streetlights:dim"), (VStr (u "Ability to dim the lights")))]))]))])); ((u "scopes"), (VList [(VStr (u "streetlights:on")); (VStr (u "streetlights:off")); (VStr (u "streetlights:dim"))]))]); (VDict [((u "$ref"), (VStr (u "#/components/securitySchemes/openIdConnectWellKnown")))])]))]))])); ((u "channels"), (VDict [((u "lightingMeasured"), (VDict [((u "address"), (VStr (u "smartylighting/streetlights/1/0/event/{streetlightId}/lighting/measured"))); ((u "messages"), (VDict [((u "lightMeasured"), (VDict [((u "$ref"), (VStr (u "#/components/messages/lightMeasured")))]))])); ((u "parameters"), (VDict [((u "streetlightId"), (VDict [((u "$ref"), (VStr (u "#/components/parameters/streetlightId")))]))]))])); ((u "lightsDim"), (VDict [((u "address"), (VStr (u "smartylighting/streetlights/1/0/action/{streetlightId}/dim"))); ((u "messages"), (VDict [((u "dimLight"), (VDict [((u "$ref"), (VStr (u "#/components/messages/dimLight")))]))])); ((u "parameters"), (VDict [((u "streetlightId"), (VDict [((u "$ref"), (VStr (u "#/components/parameters/streetlightId")))]))]))]))])); ((u "operations"), (VDict [((u "receiveLightMeasurement"), (VDict [((u "action"), (VStr (u "receive"))); ((u "channel"), (VDict [((u "$ref"), (VStr (u "#/channels/lightingMeasured")))])); ((u "summary"), (VStr (u "Inform about environmental lighting conditions of a particular streetlight."))); ((u "messages"), (VList [(VDict [((u "$ref"), (VStr (u "#/channels/lightingMeasured/messages/lightMeasured")))])]))])); ((u "dimLight"), (VDict [((u "action"), (VStr (u "send"))); ((u "channel"), (VDict [((u "$ref"), (VStr (u "#/channels/lightsDim")))])); ((u "messages"), (VList [(VDict [((u "$ref"), (VStr (u "#/channels/lightsDim/messages/dimLight")))])]))]))])); ((u "components"), (VDict [((u "messages"), (VDict [((u "lightMeasured"), (VDict [((u "name"), (VStr (u "lightMeasured"))); ((u "title"), (VStr (u "Light measured"))); ((u "summary"), (VStr (u "Inform about environmental lighting conditions of a particular streetlight."))); ((u "correlationId"), (VDict [((u "location"), (VStr (u "$message.header#/MQMD/CorrelId")))])); ((u "contentType"), (VStr (u "application/json"))); ((u "payload"), (VDict [((u "$ref"), (VStr (u "#/components/schemas/lightMeasuredPayload")))]))])); ((u "dimLight"), (VDict [((u "name"), (VStr (u "dimLight"))); ((u "title"), (VStr (u "Dim light"))); ((u "summary"), (VStr (u "Command a particular streetlight to dim the lights."))); ((u "correlationId"), (VDict [((u "$ref"), (VStr (u "#/components/correlationIds/sentAtCorrelator")))])); ((u "payload"), (VDict [((u "$ref"), (VStr (u "#/components/schemas/dimLightPayload")))]))]))])); ((u "schemas"), (VDict [((u "lightMeasuredPayload"), (VDict [((u "type"), (VStr (u "object"))); ((u "properties"), (VDict [((u "lumens"), (VDict [((u "type"), (VStr (u "integer"))); ((u "minimum"), (VInt (0)%Z)); ((u "description"), (VStr (u "Light intensity measured in lumens.")))])); ((u "sentAt"), (VDict [((u "$ref"), (VStr (u "#/components/schemas/sentAt")))]))]))])); ((u "dimLightPayload"), (VDict [((u "type"), (VStr (u "object"))); ((u "properties"), (VDict [((u "percentage"), (VDict [((u "type"), (VStr (u "integer"))); ((u "description"), (VStr (u "Percentage to which the light should be dimmed to."))); ((u "minimum"), (VInt (0)%Z)); ((u "maximum"), (VInt (100)%Z))])); ((u "sentAt"), (VDict [((u "$ref"), (VStr (u "#/components/schemas/sentAt")))]))]))])); ((u "sentAt"), (VDict [((u "type"), (VStr (u "string"))); ((u "format"), (VStr (u "date-time"))); ((u "description"), (VStr (u "Date and time when the message was sent.")))]))])); ((u "parameters"), (VDict [((u "streetlightId"), (VDict [((u "description"), (VStr (u "The ID of the streetlight.")))]))])); ((u "correlationIds"), (VDict [((u "sentAtCorrelator"), (VDict [((u "description"), (VStr (u "Data from message payload used as correlation ID"))); ((u "location"), (VStr (u "$message.payload#/sentAt")))]))])); ((u "securitySchemes"), (VDict [((u "apiKey"), (VDict [((u "type"), (VStr (u "apiKey"))); ((u "in"), (VStr (u "user"))); ((u "description"), (VStr (u "Provide your API key as the user and leave the password empty.")))])); ((u "supportedOauthFlows"), (VDict [((u "type"), (VStr (u "oauth2"))); ((u "description"), (VStr (u "Flows to support OAuth 2.0"))); ((u "flows"), (VDict [((u "implicit"), (VDict [((u "authorizationUrl"), (VStr (u "https://authserver.example/auth"))); ((u "availableScopes"), (VDict [((u "streetlights:on"), (VStr (u "Ability to switch lights on"))); ((u "streetlights:off"), (VStr (u "Ability to switch lights off"))); ((u "streetlights:dim"), (VStr (u "Ability to dim the lights")))]))])); ((u "password"), (VDict [((u "tokenUrl"), (VStr (u "https://authserver.example/token"))); ((u "availableScopes"), (VDict [((u "streetlights:on"), (VStr (u "Ability to switch lights on"))); ((u "streetlights:off"), (VStr (u "Ability to switch lights off"))); ((u "streetlights:dim"), (VStr (u "Ability to dim the lights")))]))])); ((u "clientCredentials"), (VDict [((u "tokenUrl"), (VStr (u "https://authserver.example/token"))); ((u "availableScopes"), (VDict [((u "streetlights:on"), (VStr (u "Ability to switch lights on"))); ((u "streetlights:off"), (VStr (u "Ability to switch lights off"))); ((u "streetlights:dim"), (VStr (u "Ability to dim the lights")))]))])); ((u "authorizationCode"), (VDict [((u "authorizationUrl"), (VStr (u "https://authserver.example/auth"))); ((u "tokenUrl"), (VStr (u "https://authserver.example/token"))); ((u "refreshUrl"), (VStr (u "https://authserver.example/refresh"))); ((u "availableScopes"), (VDict [((u "streetlights:on"), (VStr (u "Ability to switch lights on"))); ((u "streetlights:off"), (VStr (u "Ability to switch lights off"))); ((u "streetlights:dim"), (VStr (u "Ability to dim the lights")))]))]))]))])); ((u "openIdConnectWellKnown"), (VDict [((u "type"), (VStr (u "openIdConnect"))); ((u "openIdConnectUrl"), (VStr (u "https://authserver.example/.well-known")))]))]))]))])))];
t "fixtures/yaml_specs/valid/single_file/gitter-streaming-asyncapi.yml" [SDo (XNew "AsyncAPI3" (XVal (VDict [((u "asyncapi"), (VStr (u "3.0.0"))); ((u "id"), (VStr (u "tag:stream.gitter.im,2022:api"))); ((u "info"), (VDict [((u "title"), (VStr (u "Gitter Streaming API"))); ((u "version"), (VStr (u "1.0.0")))])); ((u "servers"), (VDict [((u "production"), (VDict [((u "host"), (VStr (u "stream.gitter.im"))); ((u "pathname"), (VStr (u "/v1"))); ((u "protocol"), (VStr (u "https"))); ((u "protocolVersion"), (VStr (u "1.1"))); ((u "security"), (VList [(VDict [((u "$ref"), (VStr (u "#/components/securitySchemes/httpBearerToken")))])]))]))])); ((u "channels"), (VDict [((u "rooms"), (VDict [((u "address"), (VStr (u "/rooms/{roomId}/{resource}"))); ((u "messages"), (VDict [((u "chatMessage"), (VDict [((u "$ref"), (VStr (u "#/components/messages/chatMessage")))])); ((u "heartbeat"), (VDict [((u "$ref"), (VStr (u "#/components/messages/heartbeat")))]))])); ((u "parameters"), (VDict [((u "roomId"), (VDict [((u "description"), (VStr (u "Id of the Gitter room."))); ((u "examples"), (VList [(VStr (u "53307860c3599d1de448e19d"))]))])); ((u "resource"), (VDict [((u "enum"), (VList [(VStr (u "chatMessages")); (VStr (u "events"))])); ((u "description"), (VStr (u "The resource to consume.")))]))]))]))])); ((u "operations"), (VDict [((u "sendRoomInfo"), (VDict [((u "action"), (VStr (u "send"))); ((u "channel"), (VDict [((u "$ref"), (VStr (u "#/channels/rooms")))])); ((u "bindings"), (VDict [((u "http"), (VDict [((u "method"), (VStr (u "POST")))]))])); ((u "messages"), (VList [(VDict [((u "$ref"), (VStr (u "#/channels/rooms/messages/chatMessage")))]); (VDict [((u "$ref"), (VStr (u "#/channels/rooms/messages/heartbeat")))])]))]))])); ((u "components"), (VDict [((u "securitySchemes"), (VDict [((u "httpBearerToken"), (VDict [((u "type"), (VStr (u "http"))); ((u "scheme"), (VStr (u "bearer")))]))])); ((u "messages"), (VDict [((u "chatMessage"), (VDict [((u "summary"), (VStr (u "A message represents an individual chat message sent to a room. They are a sub-resource of a room."))); ((u "payload"), (VDict [((u "schemaFormat"), (VStr (u "application/schema+yaml;version=draft-07"))); ((u "schema"), (VDict [((u "type"), (VStr (u "object"))); ((u "properties"), (VDict [((u "id"), (VDict [((u "type"), (VStr (u "string"))); ((u "description"), (VStr (u "ID of the message.")))])); ((u "text"), (VDict [((u "type"), (VStr (u "string"))); ((u "description"), (VStr (u "Original message in plain-text/markdown.")))])); ((u "html"), (VDict [((u "type"), (VStr (u "string"))); ((u "description"), (VStr (u "HTML formatted message.")))])); ((u "sent"), (VDict [((u "type"), (VStr (u "string"))); ((u "format"), (VStr (u "date-time"))); ((u "description"), (VStr (u "ISO formatted date of the message.")))])); ((u "fromUser"), (VDict [((u "type"), (VStr (u "object"))); ((u "description"), (VStr (u "User that sent the message."))); ((u "properties"), (VDict [((u "id"), (VDict [((u "type"), (VStr (u "string"))); ((u "description"), (VStr (u "Gitter User ID.")))])); ((u "username"), (VDict [((u "type"), (VStr (u "string"))); ((u "description"), (VStr (u "Gitter/GitHub username.")))])); ((u "displayName"), (VDict [((u "type"), (VStr (u "string"))); ((u "description"), (VStr (u "Gitter/GitHub user real name.")))])); ((u "url"), (VDict [((u "type"), (VStr (u "string"))); ((u "description"), (VStr (u "Path to the user on Gitter.")))])); ((u "avatarUrl"), (VDict [((u "type"), (VStr (u "string"))); ((u "format"), (VStr (u "uri"))); ((u "description"), (VStr (u "User avatar URI.")))])); ((u "avatarUrlSmall"), (VDict [((u "type"), (VStr (u "string"))); ((u "format"), (VStr (u "uri"))); ((u "description"), (VStr (u "User avatar URI (small).")))])); ((u "avatarUrlMedium"), (VDict [((u "type"), (VStr (u "string"))); ((u "format"), (VStr (u "uri"))); ((u "description"), (VStr (u "User avatar URI (medium).")))])); ((u "v"), (VDict [((u "type"), (VStr (u "number"))); ((u "description"), (VStr (u "Version.")))])); ((u "gv"), (VDict [((u "type"), (VStr (u "string"))); ((u "description"), (VStr (u "Stands for ""Gravatar version"" and is used for cache busting.")))]))]))])); ((u "unread"), (VDict [((u "type"), (VStr (u "boolean"))); ((u "description"), (VStr (u "Boolean that indicates if the current user has read the message.")))])); ((u "readBy"), (VDict [((u "type"), (VStr (u "number"))); ((u "description"), (VStr (u "Number of users that have read the message.")))])); ((u "urls"), (VDict [((u "type"), (VStr (u "array"))); ((u "description"), (VStr (u "List of URLs present in the message."))); ((u "items"), (VDict [((u "type"), (VStr (u "string"))); ((u "format"), (VStr (u "uri")))]))])); ((u "mentions"), (VDict [((u "type"), (VStr (u "array"))); ((u "description"), (VStr (u "List of @Mentions in the message."))); ((u "items"), (VDict [((u "type"), (VStr (u "object"))); ((u "properties"), (VDict [((u "screenName"), (VDict [((u "type"), (VStr (u "string")))])); ((u "userId"), (VDict [((u "type"), (VStr (u "string")))])); ((u "userIds"), (VDict [((u "type"), (VStr (u "array"))); ((u "items"), (VDict [((u "type"), (VStr (u "string")))]))]))]))]))])); ((u "issues"), (VDict [((u "type"), (VStr (u "array"))); ((u "description"), (VStr (u "List of #Issues referenced in the message."))); ((u "items"), (VDict [((u "type"), (VStr (u "object"))); ((u "properties"), (VDict [((u "number"), (VDict [((u "type"), (VStr (u "string")))]))]))]))])); ((u "meta"), (VDict [((u "type"), (VStr (u "array"))); ((u "description"), (VStr (u "Metadata. This is currently not used for anything."))); ((u "items"), (VDict []))])); ((u "v"), (VDict [((u "type"), (VStr (u "number"))); ((u "description"), (VStr (u "Version.")))])); ((u "gv"), (VDict [((u "type"), (VStr (u "string"))); ((u "description"), (VStr (u "Stands for ""Gravatar version"" and is used for cache busting.")))]))]))]))])); ((u "bindings"), (VDict [((u "http"), (VDict [((u "headers"), (VDict [((u "type"), (VStr (u "object"))); ((u "properties"), (VDict [((u "Transfer-Encoding"), (VDict [((u "type"), (VStr (u "string"))); ((u "const"), (VStr (u "chunked")))])); ((u "Trailer"), (VDict [((u "type"), (VStr (u "string"))); ((u "const"), (VStr (u "\r\n")))]))]))]))]))]))])); ((u "heartbeat"), (VDict [((u "summary"), (VStr (u "Its purpose is to keep the connection alive."))); ((u "payload"), (VDict [((u "schemaFormat"), (VStr (u "application/schema+yaml;version=draft-07"))); ((u "schema"), (VDict [((u "type"), (VStr (u "string"))); ((u "enum"), (VList [(VStr [13; 10]%N)]))]))])); ((u "bindings"), (VDict [((u "http"), (VDict [((u "headers"), (VDict [((u "type"), (VStr (u "object"))); ((u "properties"), (VDict [((u "Transfer-Encoding"), (VDict [((u "type"), (VStr (u "string"))); ((u "const"), (VStr (u "chunked")))])); ((u "Trailer"), (VDict [((u "type"), (VStr (u "string"))); ((u "const"), (VStr (u "\r\n")))]))]))]))]))]))]))]))]))])))];
t "fixtures/yaml_specs/valid/single_file/http.yaml" [SDo (XNew "AsyncAPI3" (XVal (VDict [((u "asyncapi"), (VStr (u "3.0.0"))); ((u "id"), (VStr (u "tag:stream.gitter.im,2022:api"))); ((u "info"), (VDict [((u "title"), (VStr (u "Gitter Streaming API"))); ((u "version"), (VStr (u "1.0.0")))])); ((u "servers"), (VDict [((u "production"), (VDict [((u "host"), (VStr (u "stream.gitter.im"))); ((u "pathname"), (VStr (u "/v1"))); ((u "protocol"), (VStr (u "https"))); ((u "protocolVersion"), (VStr (u "1.1"))); ((u "security"), (VList [(VDict [((u "$ref"), (VStr (u "#/components/securitySchemes/httpBearerToken")))])]))]))])); ((u "channels"), (VDict [((u "rooms"), (VDict [((u "address"), (VStr (u "/rooms/{roomId}/{resource}"))); ((u "messages"), (VDict [((u "chatMessage"), (VDict [((u "$ref"), (VStr (u "#/components/messages/chatMessage")))])); ((u "heartbeat"), (VDict [((u "$ref"), (VStr (u "#/components/messages/heartbeat")))]))])); ((u "parameters"), (VDict [((u "roomId"), (VDict [((u "description"), (VStr (u "Id of the Gitter room."))); ((u "examples"), (VList [(VStr (u "53307860c3599d1de448e19d"))]))])); ((u "resource"), (VDict [((u "enum"), (VList [(VStr (u "chatMessages")); (VStr (u "events"))])); ((u "description"), (VStr (u "The resource to consume.")))]))]))]))])); ((u "operations"), (VDict [((u "sendRoomInfo"), (VDict [((u "action"), (VStr (u "send"))); ((u "channel"), (VDict [((u "$ref"), (VStr (u "#/channels/rooms")))])); ((u "bindings"), (VDict [((u "http"), (VDict [((u "method"), (VStr (u "POST")))]))])); ((u "messages"), (VList [(VDict [((u "$ref"), (VStr (u "#/channels/rooms/messages/chatMessage")))]); (VDict [((u "$ref"), (VStr (u "#/channels/rooms/messages/heartbeat")))])]))]))])); ((u "components"), (VDict [((u "securitySchemes"), (VDict [((u "httpBearerToken"), (VDict [((u "type"), (VStr (u "http"))); ((u "scheme"), (VStr (u "bearer")))]))])); ((u "messages"), (VDict [((u "chatMessage"), (VDict [((u "summary"), (VStr (u "A message represents an individual chat message sent to a room. They are a sub-resource of a room."))); ((u "payload"), (VDict [((u "schemaFormat"), (VStr (u "application/schema+yaml;version=draft-07"))); ((u "schema"), (VDict [((u "type"), (VStr (u "object"))); ((u "properties"), (VDict [((u "id"), (VDict [((u "type"), (VStr (u "string"))); ((u "description"), (VStr (u "ID of the message.")))])); ((u "text"), (VDict [((u "type"), (VStr (u "string"))); ((u "description"), (VStr (u "Original message in plain-text/markdown.")))])); ((u "html"), (VDict [((u "type"), (VStr (u "string"))); ((u "description"), (VStr (u "HTML formatted message.")))])); ((u "sent"), (VDict [((u "type"), (VStr (u "string"))); ((u "format"), (VStr (u "date-time"))); ((u "description"), (VStr (u "ISO formatted date of the message.")))])); ((u "fromUser"), (VDict [((u "type"), (VStr (u "object"))); ((u "description"), (VStr (u "User that sent the message."))); ((u "properties"), (VDict [((u "id"), (VDict [((u "type"), (VStr (u "string"))); ((u "description"), (VStr (u "Gitter User ID.")))])); ((u "username"), (VDict [((u "type"), (VStr (u "string"))); ((u "description"), (VStr (u "Gitter/GitHub username.")))])); ((u "displayName"), (VDict [((u "type"), (VStr (u "string"))); ((u "description"), (VStr (u "Gitter/GitHub user real name.")))])); ((u "url"), (VDict [((u "type"), (VStr (u "string"))); ((u "description"), (VStr (u "Path to the user on Gitter.")))])); ((u "avatarUrl"), (VDict [((u "type"), (VStr (u "string"))); ((u "format"), (VStr (u "uri"))); ((u "description"), (VStr (u "User avatar URI.")))])); ((u "avatarUrlSmall"), (VDict [((u "type"), (VStr (u "string"))); ((u "format"), (VStr (u "uri"))); ((u "description"), (VStr (u "User avatar URI (small).")))])); ((u "avatarUrlMedium"), (VDict [((u "type"), (VStr (u "string"))); ((u "format"), (VStr (u "uri"))); ((u "description"), (VStr (u "User avatar URI (medium).")))])); ((u "v"), (VDict [((u "type"), (VStr (u "number"))); ((u "description"), (VStr (u "Version.")))])); ((u "gv"), (VDict [((u "type"), (VStr (u "string"))); ((u "description"), (VStr (u "Stands for ""Gravatar version"" and is used for cache busting.")))]))]))])); ((u "unread"), (VDict [((u "type"), (VStr (u "boolean"))); ((u "description"), (VStr (u "Boolean that indicates if the current user has read the message.")))])); ((u "readBy"), (VDict [((u "type"), (VStr (u "number"))); ((u "description"), (VStr (u "Number of users that have read the message.")))])); ((u "urls"), (VDict [((u "type"), (VStr (u "array"))); ((u "description"), (VStr (u "List of URLs present in the message."))); ((u "items"), (VDict [((u "type"), (VStr (u "string"))); ((u "format"), (VStr (u "uri")))]))])); ((u "mentions"), (VDict [((u "type"), (VStr (u "array"))); ((u "description"), (VStr (u "List of @Mentions in the message."))); ((u "items"), (VDict [((u "type"), (VStr (u "object"))); ((u "properties"), (VDict [((u "screenName"), (VDict [((u "type"), (VStr (u "string")))])); ((u "userId"), (VDict [((u "type"), (VStr (u "string")))])); ((u "userIds"), (VDict [((u "type"), (VStr (u "array"))); ((u "items"), (VDict [((u "type"), (VStr (u "string")))]))]))]))]))])); ((u "issues"), (VDict [((u "type"), (VStr (u "array"))); ((u "description"), (VStr (u "List of #Issues referenced in the message."))); ((u "items"), (VDict [((u "type"), (VStr (u "object"))); ((u "properties"), (VDict [((u "number"), (VDict [((u "type"), (VStr (u "string")))]))]))]))])); ((u "meta"), (VDict [((u "type"), (VStr (u "array"))); ((u "description"), (VStr (u "Metadata. This is currently not used for anything."))); ((u "items"), (VDict []))])); ((u "v"), (VDict [((u "type"), (VStr (u "number"))); ((u "description"), (VStr (u "Version.")))])); ((u "gv"), (VDict [((u "type"), (VStr (u "string"))); ((u "description"), (VStr (u "Stands for ""Gravatar version"" and is used for cache busting.")))]))]))]))])); ((u "bindings"), (VDict [((u "http"), (VDict [((u "headers"), (VDict [((u "type"), (VStr (u "object"))); ((u "properties"), (VDict [((u "Transfer-Encoding"), (VDict [((u "type"), (VStr (u "string"))); ((u "const"), (VStr (u "chunked")))])); ((u "Trailer"), (VDict [((u "type"), (VStr (u "string"))); ((u "const"), (VStr (u "\r\n")))]))]))]))]))]))])); ((u "heartbeat"), (VDict [((u "summary"), (VStr (u "Its purpose is to keep the connection alive."))); ((u "payload"), (VDict [((u "schemaFormat"), (VStr (u "application/schema+yaml;version=draft-07"))); ((u "schema"), (VDict [((u "type"), (VStr (u "string"))); ((u "enum"), (VList [(VStr [13; 10]%N)]))]))])); ((u "bindings"), (VDict [((u "http"), (VDict [((u "headers"), (VDict [((u "type"), (VStr (u "object"))); ((u "properties"), (VDict [((u "Transfer-Encoding"), (VDict [((u "type"), (VStr (u "string"))); ((u "const"), (VStr (u "chunked")))])); ((u "Trailer"), (VDict [((u "type"), (VStr (u "string"))); ((u "const"), (VStr (u "\r\n")))]))]))]))]))]))]))]))]))])))];
t "fixtures/yaml_specs/valid/single_file/ibm_mq.yaml" [SDo (XNew "AsyncAPI3" (XVal (VDict [((u "asyncapi"), (VStr (u "3.0.0"))); ((u "info"), (VDict [((u "title"), (VStr (u "Record Label Service"))); ((u "version"), (VStr (u "1.1.0"))); ((u "description"), (VStr (u "This service is in charge of processing music"))); ((u "license"), (VDict [((u "name"), (VStr (u "Apache License 2.0"))); ((u "url"), (VStr (u "https://www.apache.org/licenses/LICENSE-2.0")))]))])); ((u "servers"), (VDict [((u "production"), (VDict [((u "host"), (VStr (u "localhost:1414"))); ((u "pathname"), (VStr (u "/QM1/DEV.APP.SVRCONN"))); ((u "protocol"), (VStr (u "ibmmq-secure"))); ((u "description"), (VStr (u "Production Instance 1"))); ((u "bindings"), (VDict [((u "ibmmq"), (VDict [((u "cipherSpec"), (VStr (u "ANY_TLS12")))]))]))]))])); ((u "channels"), (VDict [((u "songReleased"), (VDict [((u "address"), (VStr (u "song/released"))); ((u "messages"), (VDict [((u "Song"), (VDict [((u "$ref"), (VStr (u "#/components/messages/Song")))]))]))]))])); ((u "operations"), (VDict [((u "receiveSong"), (VDict [((u "action"), (VStr (u "receive"))); ((u "channel"), (VDict [((u "$ref"), (VStr (u "#/channels/songReleased")))])); ((u "messages"), (VList [(VDict [((u "$ref"), (VStr (u "#/channels/songReleased/messages/Song")))])]))])); ((u "sendSong"), (VDict [((u "action"), (VStr (u "send"))); ((u "channel"), (VDict [((u "$ref"), (VStr (u "#/channels/songReleased")))])); ((u "messages"), (VList [(VDict [((u "$ref"), (VStr (u "#/channels/songReleased/messages/Song")))])]))]))])); ((u "components"), (VDict [((u "messages"), (VDict [((u "Song"), (VDict [((u "payload"), (VDict [((u "type"), (VStr (u "object"))); ((u "properties"), (VDict [((u "title"), (VDict [((u "type"), (VStr (u "string"))); ((u "description"), (VStr (u "Song title")))])); ((u "artist"), (VDict [((u "type"), (VStr (u "string"))); ((u "description"), (VStr (u "Song artist")))])); ((u "album"), (VDict [((u "type"), (VStr (u "string"))); ((u "description"), (VStr (u "Song album")))])); ((u "genre"), (VDict [((u "type"), (VStr (u "string"))); ((u "description"), (VStr (u "Primary song genre")))])); ((u "length"), (VDict [((u "type"), (VStr (u "integer"))); ((u "description"), (VStr (u "Track length in seconds")))]))]))]))]))]))]))])))];
t "fixtures/yaml_specs/valid/single_file/kraken-websocket-request-reply-message-filter-in-reply-asyncapi.yml" [SDo (XNew "AsyncAPI3" (XVal (VDict [((u "asyncapi"), (VStr (u "3.0.0"))); ((u "info"), (VDict [((u "title"), (VStr (u "Kraken Websockets API"))); ((u "version"), (VStr (u "1.8.0"))); ((u "description"), (VStr [87; 101; 98; 83; 111; 99; 107; 101; 116; 115; 32; 65; 80; 73; 32; 111; 102; 102; 101; 114; 115; 32; 114; 101; 97; 108; 45; 116; 105; 109; 101; 32; 109; 97; 114; 107; 101; 116; 32; 100; 97; 116; 97; 32; 117; 112; 100; 97; 116; 101; 115; 46; 32; 87; 101; 98; 83; 111; 99; 107; 101; 116; 115; 32; 105; 115; 32; 97; 32; 98; 105; 100; 105; 114; 101; 99; 116; 105; 111; 110; 97; 108; 32; 112; 114; 111; 116; 111; 99; 111; 108; 32; 111; 102; 102; 101; 114; 105; 110; 103; 32; 102; 97; 115; 116; 101; 115; 116; 32; 114; 101; 97; 108; 45; 116; 105; 109; 101; 32; 100; 97; 116; 97; 44; 32; 104; 101; 108; 112; 105; 110; 103; 32; 121; 111; 117; 32; 98; 117; 105; 108; 100; 32; 114; 101; 97; 108; 45; 116; 105; 109; 101; 32; 97; 112; 112; 108; 105; 99; 97; 116; 105; 111; 110; 115; 46; 32; 84; 104; 101; 32; 112; 117; 98; 108; 105; 99; 32; 109; 101; 115; 115; 97; 103; 101; 32; 116; 121; 112; 101; 115; 32; 112; 114; 101; 115; 101; 110; 116; 101; 100; 32; 98; 101; 108; 111; 119; 32; 100; 111; 32; 110; 111; 116; 32; 114; 101; 113; 117; 105; 114; 101; 32; 97; 117; 116; 104; 101; 110; 116; 105; 99; 97; 116; 105; 111; 110; 46; 32; 80; 114; 105; 118; 97; 116; 101; 45; 100; 97; 116; 97; 32; 109; 101; 115; 115; 97; 103; 101; 115; 32; 99; 97; 110; 32; 98; 101; 32; 115; 117; 98; 115; 99; 114; 105; 98; 101; 100; 32; 111; 110; 32; 97; 32; 115; 101; 112; 97; 114; 97; 116; 101; 32; 97; 117; 116; 104; 101; 110; 116; 105; 99; 97; 116; 101; 100; 32; 101; 110; 100; 112; 111; 105; 110; 116; 46; 10; 10; 35; 35; 35; 32; 71; 101; 110; 101; 114; 97; 108; 32; 67; 111; 110; 115; 105; 100; 101; 114; 97; 116; 105; 111; 110; 115; 10; 10; 45; 32; 84; 76; 83; 32; 119; 105; 116; 104; 32; 83; 78; 73; 32; 40; 83; 101; 114; 118; 101; 114; 32; 78; 97; 109; 101; 32; 73; 110; 100; 105; 99; 97; 116; 105; 111; 110; 41; 32; 105; 115; 32; 114; 101; 113; 117; 105; 114; 101; 100; 32; 105; 110; 32; 111; 114; 100; 101; 114; 32; 116; 111; 32; 101; 115; 116; 97; 98; 108; 105; 115; 104; 32; 97; 32; 75; 114; 97; 107; 101; 110; 32; 87; 101; 98; 83; 111; 99; 107; 101; 116; 115; 32; 65; 80; 73; 32; 99; 111; 110; 110; 101; 99; 116; 105; 111; 110; 46; 32; 83; 101; 101; 32; 67; 108; 111; 117; 100; 102; 108; 97; 114; 101; 39; 115; 32; 91; 87; 104; 97; 116; 32; 105; 115; 32; 83; 78; 73; 63; 93; 40; 104; 116; 116; 112; 115; 58; 47; 47; 119; 119; 119; 46; 99; 108; 111; 117; 100; 102; 108; 97; 114; 101; 46; 99; 111; 109; 47; 108; 101; 97; 114; 110; 105; 110; 103; 47; 115; 115; 108; 47; 119; 104; 97; 116; 45; 105; 115; 45; 115; 110; 105; 47; 41; 32; 103; 117; 105; 100; 101; 32; 102; 111; 114; 32; 109; 111; 114; 101; 32; 100; 101; 116; 97; 105; 108; 115; 46; 10; 45; 32; 65; 108; 108; 32; 109; 101; 115; 115; 97; 103; 101; 115; 32; 115; 101; 110; 116; 32; 97; 110; 100; 32; 114; 101; 99; 101; 105; 118; 101; 100; 32; 118; 105; 97; 32; 87; 101; 98; 83; 111; 99; 107; 101; 116; 115; 32; 97; 114; 101; 32; 101; 110; 99; 111; 100; 101; 100; 32; 105; 110; 32; 74; 83; 79; 78; 32; 102; 111; 114; 109; 97; 116; 10; 45; 32; 65; 108; 108; 32; 100; 101; 99; 105; 109; 97; 108; 32; 102; 105; 101; 108; 100; 115; 32; 40; 105; 110; 99; 108; 117; 100; 105; 110; 103; 32; 116; 105; 109; 101; 115; 116; 97; 109; 112; 115; 41; 32; 97; 114; 101; 32; 113; 117; 111; 116; 101; 100; 32; 116; 111; 32; 112; 114; 101; 115; 101; 114; 118; 101; 32; 112; 114; 101; 99; 105; 115; 105; 111; 110; 46; 10; 45; 32; 84; 105; 109; 101; 115; 116; 97; 109; 112; 115; 32; 115; 104; 111; 117; 108; 100; 32; 110; 111; 116; 32; 98; 101; 32; 99; 111; 110; 115; 105; 100; 101; 114; 101; 100; 32; 117; 110; 105; 113; 117; 101; 32; 97; 110; 100; 32; 110; 111; 116; 32; 98; 101; 32; 99; 111; 110; 115; 105; 100; 101; 114; 101; 100; 32; 97; 115; 32; 97; 108; 105; 97; 115; 101; 115; 32; 102; 111; 114; 32; 116; 114; 97; 110; 115; 97; 99; 116; 105; 111; 110; 32; 73; 68; 115; 46; 32; 65; 108; 115; 111; 44; 32; 116; 104; 101; 32; 103; 114; 97; 110; 117; 108; 97; 114; 105; 116; 121; 32; 111; 102; 32; 116; 105; 109; 101; 115; 116; 97; 109; 112; 115; 32; 105; 115; 32; 110; 111; 116; 32; 114; 101; 112; 114; 101; 115; 101; 110; 116; 97; 116; 105; 118; 101; 32; 111; 102; 32; 116; 114; 97; 110; 115; 97; 99; 116; 105; 111; 110; 32; 114; 97; 116; 101; 115; 46; 10; 45; 32; 65; 116; 32; 108; 101; 97; 115; 116; 32; 111; 110; 101; 32; 112; 114; 105; 118; 97; 116; 101; 32; 109; 101; 115; 115; 97; 103; 101; 32; 115; 104; 111; 117; 108; 100; 32; 98; 101; 32; 115; 117; 98; 115; 99; 114; 105; 98; 101; 100; 32; 116; 111; 32; 107; 101; 101; 112; 32; 116; 104; 101; 32; 97; 117; 116; 104; 101; 110; 116; 105; 99; 97; 116; 101; 100; 32; 99; 108; 105; 101; 110; 116; 32; 99; 111; 110; 110; 101; 99; 116; 105; 111; 110; 32; 111; 112; 101; 110; 46; 10; 45; 32; 80; 108; 101; 97; 115; 101; 32; 117; 115; 101; 32; 82; 69; 83; 84; 32; 65; 80; 73; 32; 101; 110; 100; 112; 111; 105; 110; 116; 32; 91; 65; 115; 115; 101; 116; 80; 97; 105; 114; 115; 93; 40; 104; 116; 116; 112; 115; 58; 47; 47; 119; 119; 119; 46; 107; 114; 97; 107; 101; 110; 46; 99; 111; 109; 47; 102; 101; 97; 116; 117; 114; 101; 115; 47; 97; 112; 105; 35; 103; 101; 116; 45; 116; 114; 97; 100; 97; 98; 108; 101; 45; 112; 97; 105; 114; 115; 41; 32; 116; 111; 32; 102; 101; 116; 99; 104; 32; 116; 104; 101; 32; 108; 105; 115; 116; 32; 111; 102; 32; 112; 97; 105; 114; 115; 32; 119; 104; 105; 99; 104; 32; 99; 97; 110; 32; 98; 101; 32; 115; 117; 98; 115; 99; 114; 105; 98; 101; 100; 32; 118; 105; 97; 32; 87; 101; 98; 83; 111; 99; 107; 101; 116; 115; 32; 65; 80; 73; 46; 32; 70; 111; 114; 32; 101; 120; 97; 109; 112; 108; 101; 44; 32; 102; 105; 101; 108; 100; 32; 39; 119; 115; 110; 97; 109; 101; 39; 32; 103; 105; 118; 101; 115; 32; 116; 104; 101; 32; 115; 117; 112; 112; 111; 114; 116; 101; 100; 32; 112; 97; 105; 114; 115; 32; 110; 97; 109; 101; 32; 119; 104; 105; 99; 104; 32; 99; 97; 110; 32; 98; 101; 32; 117; 115; 101; 100; 32; 116; 111; 32; 115; 117; 98; 115; 99; 114; 105; 98; 101; 46; 10; 45; 32; 67; 108; 111; 117; 100; 102; 108; 97; 114; 101; 32; 105; 109; 112; 111; 115; 101; 115; 32; 97; 32; 99; 111; 110; 110; 101; 99; 116; 105; 111; 110; 47; 114; 101; 45; 99; 111; 110; 110; 101; 99; 116; 105; 111; 110; 32; 114; 97; 116; 101; 32; 108; 105; 109; 105; 116; 32; 40; 112; 101; 114; 32; 73; 80; 32; 97; 100; 100; 114; 101; 115; 115; 41; 32; 111; 102; 32; 97; 112; 112; 114; 111; 120; 105; 109; 97; 116; 101; 108; 121; 32; 49; 53; 48; 32; 97; 116; 116; 101; 109; 112; 116; 115; 32; 112; 101; 114; 32; 114; 111; 108; 108; 105; 110; 103; 32; 49; 48; 32; 109; 105; 110; 117; 116; 101; 115; 46; 32; 73; 102; 32; 116; 104; 105; 115; 32; 105; 115; 32; 101; 120; 99; 101; 101; 100; 101; 100; 44; 32; 116; 104; 101; 32; 73; 80; 32; 105; 115; 32; 98; 97; 110; 110; 101; 100; 32; 102; 111; 114; 32; 49; 48; 32; 109; 105; 110; 117; 116; 101; 115; 46; 10; 45; 32; 82; 101; 99; 111; 109; 109; 101; 110; 100; 101; 100; 32; 114; 101; 99; 111; 110; 110; 101; 99; 116; 105; 111; 110; 32; 98; 101; 104; 97; 118; 105; 111; 117; 114; 32; 105; 115; 32; 116; 111; 32; 40; 49; 41; 32; 97; 116; 116; 101; 109; 112; 116; 32; 114; 101; 99; 111; 110; 110; 101; 99; 116; 105; 111; 110; 32; 105; 110; 115; 116; 97; 110; 116; 108; 121; 32; 117; 112; 32; 116; 111; 32; 97; 32; 104; 97; 110; 100; 102; 117; 108; 32; 111; 102; 32; 116; 105; 109; 101; 115; 32; 105; 102; 32; 116; 104; 101; 32; 119; 101; 98; 115; 111; 99; 107; 101; 116; 32; 105; 115; 32; 100; 114; 111; 112; 112; 101; 100; 32; 114; 97; 110; 100; 111; 109; 108; 121; 32; 100; 117; 114; 105; 110; 103; 32; 110; 111; 114; 109; 97; 108; 32; 111; 112; 101; 114; 97; 116; 105; 111; 110; 32; 98; 117; 116; 32; 40; 50; 41; 32; 97; 102; 116; 101; 114; 32; 109; 97; 105; 110; 116; 101; 110; 97; 110; 99; 101; 32; 111; 114; 32; 101; 120; 116; 101; 110; 100; 101; 100; 32; 100; 111; 119; 110; 116; 105; 109; 101; 44; 32; 97; 116; 116; 101; 109; 112; 116; 32; 116; 111; 32; 114; 101; 99; 111; 110; 110; 101; 99; 116; 32; 110; 111; 32; 109; 111; 114; 101; 32; 113; 117; 105; 99; 107; 108; 121; 32; 116; 104; 97; 110; 32; 111; 110; 99; 101; 32; 101; 118; 101; 114; 121; 32; 53; 32; 115; 101; 99; 111; 110; 100; 115; 46; 32; 84; 104; 101; 114; 101; 32; 105; 115; 32; 110; 111; 32; 97; 100; 118; 97; 110; 116; 97; 103; 101; 32; 116; 111; 32; 114; 101; 99; 111; 110; 110; 101; 99; 116; 105; 110; 103; 32; 109; 111; 114; 101; 32; 114; 97; 112; 105; 100; 108; 121; 32; 97; 102; 116; 101; 114; 32; 109; 97; 105; 110; 116; 101; 110; 97; 110; 99; 101; 32; 100; 117; 114; 105; 110; 103; 32; 99; 97; 110; 99; 101; 108; 95; 111; 110; 108; 121; 32; 109; 111; 100; 101; 46; 10]%N))])); ((u "channels"), (VDict [((u "currencyExchange"), (VDict [((u "address"), (VStr (u "/"))); ((u "messages"), (VDict [((u "ping"), (VDict [((u "$ref"), (VStr (u "#/components/messages/ping")))])); ((u "pong"), (VDict [((u "$ref"), (VStr (u "#/components/messages/pong")))])); ((u "heartbeat"), (VDict [((u "$ref"), (VStr (u "#/components/messages/heartbeat")))])); ((u "systemStatus"), (VDict [((u "$ref"), (VStr (u "#/components/messages/systemStatus")))])); ((u "subscriptionStatus"), (VDict [((u "$ref"), (VStr (u "#/components/messages/subscriptionStatus")))])); ((u "subscribe"), (VDict [((u "$ref"), (VStr (u "#/components/messages/subscribe")))])); ((u "unsubscribe"), (VDict [((u "$ref"), (VStr (u "#/components/messages/unsubscribe")))])); ((u "dummyCurrencyInfo"), (VDict [((u "$ref"), (VStr (u "#/components/messages/dummyCurrencyInfo")))]))]))]))])); ((u "operations"), (VDict [((u "receivePing"), (VDict [((u "action"), (VStr (u "receive"))); ((u "channel"), (VDict [((u "$ref"), (VStr (u "#/channels/currencyExchange")))])); ((u "reply"), (VDict [((u "channel"), (VDict [((u "$ref"), (VStr (u "#/channels/currencyExchange")))])); ((u "messages"), (VList [(VDict [((u "$ref"), (VStr (u "#/channels/currencyExchange/messages/pong")))])]))])); ((u "messages"), (VList [(VDict [((u "$ref"), (VStr (u "#/channels/currencyExchange/messages/ping")))])]))])); ((u "sendHeartbeat"), (VDict [((u "action"), (VStr (u "send"))); ((u "channel"), (VDict [((u "$ref"), (VStr (u "#/channels/currencyExchange")))])); ((u "messages"), (VList [(VDict [((u "$ref"), (VStr (u "#/channels/currencyExchange/messages/heartbeat")))])]))])); ((u "systemStatus"), (VDict [((u "action"), (VStr (u "send"))); ((u "channel"), (VDict [((u "$ref"), (VStr (u "#/channels/currencyExchange")))])); ((u "messages"), (VList [(VDict [((u "$ref"), (VStr (u "#/channels/currencyExchange/messages/systemStatus")))])]))])); ((u "receiveSubscribeRequest"), (VDict [((u "action"), (VStr (u "receive"))); ((u "channel"), (VDict [((u "$ref"), (VStr (u "#/channels/currencyExchange")))])); ((u "reply"), (VDict [((u "channel"), (VDict [((u "$ref"), (VStr (u "#/channels/currencyExchange")))])); ((u "messages"), (VList [(VDict [((u "$ref"), (VStr (u "#/channels/currencyExchange/messages/subscriptionStatus")))]); (VDict [((u "$ref"), (VStr (u "#/channels/currencyExchange/messages/dummyCurrencyInfo")))])]))])); ((u "messages"), (VList [(VDict [((u "$ref"), (VStr (u "#/channels/currencyExchange/messages/subscribe")))])]))])); ((u "receiveUnsubscribeRequest"), (VDict [((u "action"), (VStr (u "receive"))); ((u "channel"), (VDict [((u "$ref"), (VStr (u "#/channels/currencyExchange")))])); ((u "reply"), (VDict [((u "channel"), (VDict [((u "$ref"), (VStr (u "#/channels/currencyExchange")))])); ((u "messages"), (VList [(VDict [((u "$ref"), (VStr (u "#/channels/currencyExchange/messages/subscriptionStatus")))])]))])); ((u "messages"), (VList [(VDict [((u "$ref"), (VStr (u "#/channels/currencyExchange/messages/unsubscribe")))])]))]))])); ((u "components"), (VDict [((u "messages"), (VDict [((u "dummyCurrencyInfo"), (VDict [((u "summary"), (VStr (u "Dummy message with no real life details"))); ((u "description"), (VStr (u "It is here in this example to showcase that there is an additional message that normally is of a complex structure. It represents actually currency exchange value to show a reply to operation receiveSubscribeRequest with more than one possible message."))); ((u "payload"), (VDict [((u "type"), (VStr (u "object"))); ((u "properties"), (VDict [((u "event"), (VDict [((u "type"), (VStr (u "string"))); ((u "const"), (VStr (u "currencyInfo")))])); ((u "reqid"), (VDict [((u "$ref"), (VStr (u "#/components/schemas/reqid")))])); ((u "data"), (VDict [((u "type"), (VStr (u "object")))]))])); ((u "required"), (VList [(VStr (u "event"))]))])); ((u "correlationId"), (VDict [((u "location"), (VStr (u "$message.payload#/reqid")))]))])); ((u "ping"), (VDict [((u "summary"), (VStr (u "Ping server to determine whether connection is alive"))); ((u "description"), (VStr (u "Client can ping server to determine whether connection is alive, server responds with pong. This is an application level ping as opposed to default ping in websockets standard which is server initiated"))); ((u "payload"), (VDict [((u "$ref"), (VStr (u "#/components/schemas/ping")))])); ((u "correlationId"), (VDict [((u "location"), (VStr (u "$message.payload#/reqid")))]))])); ((u "pong"), (VDict [((u "summary"), (VStr (u "Pong is a response to ping message"))); ((u "description"), (VStr (u "Server pong response to a ping to determine whether connection is alive. This is an application level pong as opposed to default pong in websockets standard which is sent by client in response to a ping"))); ((u "payload"), (VDict [((u "$ref"), (VStr (u "#/components/schemas/pong")))])); ((u "correlationId"), (VDict [((u "location"), (VStr (u "$message.payload#/reqid")))]))])); ((u "subscribe"), (VDict [((u "description"), (VStr (u "Subscribe to a topic on a single or multiple currency pairs."))); ((u "payload"), (VDict [((u "$ref"), (VStr (u "#/components/schemas/subscribe")))])); ((u "correlationId"), (VDict [((u "location"), (VStr (u "$message.payload#/reqid")))]))])); ((u "unsubscribe"), (VDict [((u "description"), (VStr (u "Unsubscribe, can specify a channelID or multiple currency pairs."))); ((u "payload"), (VDict [((u "$ref"), (VStr (u "#/components/schemas/unsubscribe")))])); ((u "correlationId"), (VDict [((u "location"), (VStr (u "$message.payload#/reqid")))]))])); ((u "subscriptionStatus"), (VDict [((u "description"), (VStr (u "Subscription status response to subscribe, unsubscribe or exchange initiated unsubscribe."))); ((u "payload"), (VDict [((u "$ref"), (VStr (u "#/components/schemas/subscriptionStatus")))])); ((u "examples"), (VList [(VDict [((u "payload"), (VDict [((u "channelID"), (VInt (10001)%Z)); ((u "channelName"), (VStr (u "ohlc-5"))); ((u "event"), (VStr (u "subscriptionStatus"))); ((u "pair"), (VStr (u "XBT/EUR"))); ((u "reqid"), (VInt (42)%Z)); ((u "status"), (VStr (u "unsubscribed"))); ((u "subscription"), (VDict [((u "interval"), (VInt (5)%Z)); ((u "name"), (VStr (u "ohlc")))]))]))]); (VDict [((u "payload"), (VDict [((u "errorMessage"), (VStr (u "Subscription depth not supported"))); ((u "event"), (VStr (u "subscriptionStatus"))); ((u "pair"), (VStr (u "XBT/USD"))); ((u "status"), (VStr (u "error"))); ((u "subscription"), (VDict [((u "depth"), (VInt (42)%Z)); ((u "name"), (VStr (u "book")))]))]))])]))])); ((u "systemStatus"), (VDict [((u "description"), (VStr (u "Status sent on connection or system status changes."))); ((u "payload"), (VDict [((u "$ref"), (VStr (u "#/components/schemas/systemStatus")))]))])); ((u "heartbeat"), (VDict [((u "description"), (VStr (u "Server heartbeat sent if no subscription traffic within 1 second (approximately)"))); ((u "payload"), (VDict [((u "$ref"), (VStr (u "#/components/schemas/heartbeat")))]))]))])); ((u "schemas"), (VDict [((u "ping"), (VDict [((u "type"), (VStr (u "object"))); ((u "properties"), (VDict [((u "event"), (VDict [((u "type"), (VStr (u "string"))); ((u "const"), (VStr (u "ping")))])); ((u "reqid"), (VDict [((u "$ref"), (VStr (u "#/components/schemas/reqid")))]))])); ((u "required"), (VList [(VStr (u "event"))]))])); ((u "heartbeat"), (VDict [((u "type"), (VStr (u "object"))); ((u "properties"), (VDict [((u "event"), (VDict [((u "type"), (VStr (u "string"))); ((u "const"), (VStr (u "heartbeat")))]))]))])); ((u "pong"), (VDict [((u "type"), (VStr (u "object"))); ((u "properties"), (VDict [((u "event"), (VDict [((u "type"), (VStr (u "string"))); ((u "const"), (VStr (u "pong")))])); ((u "reqid"), (VDict [((u "$ref"), (VStr (u "#/components/schemas/reqid")))]))]))])); ((u "systemStatus"), (VDict [((u "type"), (VStr (u "object"))); ((u "properties"), (VDict [((u "event"), (VDict [((u "type"), (VStr (u "string"))); ((u "const"), (VStr (u "systemStatus")))])); ((u "connectionID"), (VDict [((u "type"), (VStr (u "integer"))); ((u "description"), (VStr (u "The ID of the connection")))])); ((u "status"), (VDict [((u "$ref"), (VStr (u "#/components/schemas/status")))])); ((u "version"), (VDict [((u "type"), (VStr (u "string")))]))]))])); ((u "status"), (VDict [((u "type"), (VStr (u "string"))); ((u "enum"), (VList [(VStr (u "online")); (VStr (u "maintenance")); (VStr (u "cancel_only")); (VStr (u "limit_only")); (VStr (u "post_only"))]))])); ((u "subscribe"), (VDict [((u "type"), (VStr (u "object"))); ((u "properties"), (VDict [((u "event"), (VDict [((u "type"), (VStr (u "string"))); ((u "const"), (VStr (u "subscribe")))])); ((u "reqid"), (VDict [((u "$ref"), (VStr (u "#/components/schemas/reqid")))])); ((u "pair"), (VDict [((u "$ref"), (VStr (u "#/components/schemas/pair")))])); ((u "subscription"), (VDict [((u "type"), (VStr (u "object"))); ((u "properties"), (VDict [((u "depth"), (VDict [((u "$ref"), (VStr (u "#/components/schemas/depth")))])); ((u "interval"), (VDict [((u "$ref"), (VStr (u "#/components/schemas/interval")))])); ((u "name"), (VDict [((u "$ref"), (VStr (u "#/components/schemas/name")))])); ((u "ratecounter"), (VDict [((u "$ref"), (VStr (u "#/components/schemas/ratecounter")))])); ((u "snapshot"), (VDict [((u "$ref"), (VStr (u "#/components/schemas/snapshot")))])); ((u "token"), (VDict [((u "$ref"), (VStr (u "#/components/schemas/token")))]))])); ((u "required"), (VList [(VStr (u "name"))]))]))])); ((u "required"), (VList [(VStr (u "event"))]))])); ((u "unsubscribe"), (VDict [((u "type"), (VStr (u "object"))); ((u "properties"), (VDict [((u "event"), (VDict [((u "type"), (VStr (u "string"))); ((u "const"), (VStr (u "unsubscribe")))])); ((u "reqid"), (VDict [((u "$ref"), (VStr (u "#/components/schemas/reqid")))])); ((u "pair"), (VDict [((u "$ref"), (VStr (u "#/components/schemas/pair")))])); ((u "subscription"), (VDict [((u "type"), (VStr (u "object"))); ((u "properties"), (VDict [((u "depth"), (VDict [((u "$ref"), (VStr (u "#/components/schemas/depth")))])); ((u "interval"), (VDict [((u "$ref"), (VStr (u "#/components/schemas/interval")))])); ((u "name"), (VDict [((u "$ref"), (VStr (u "#/components/schemas/name")))])); ((u "token"), (VDict [((u "$ref"), (VStr (u "#/components/schemas/token")))]))])); ((u "required"), (VList [(VStr (u "name"))]))]))])); ((u "required"), (VList [(VStr (u "event"))]))])); ((u "subscriptionStatus"), (VDict [((u "type"), (VStr (u "object"))); ((u "oneOf"), (VList [(VDict [((u "$ref"), (VStr (u "#/components/schemas/subscriptionStatusError")))]); (VDict [((u "$ref"), (VStr (u "#/components/schemas/subscriptionStatusSuccess")))])]))])); ((u "subscriptionStatusError"), (VDict [((u "allOf"), (VList [(VDict [((u "properties"), (VDict [((u "errorMessage"), (VDict [((u "type"), (VStr (u "string")))]))])); ((u "required"), (VList [(VStr (u "errorMessage"))]))]); (VDict [((u "$ref"), (VStr (u "#/components/schemas/subscriptionStatusCommon")))])]))])); ((u "subscriptionStatusSuccess"), (VDict [((u "allOf"), (VList [(VDict [((u "properties"), (VDict [((u "channelID"), (VDict [((u "type"), (VStr (u "integer"))); ((u "description"), (VStr (u "ChannelID on successful subscription, applicable to public messages only.")))])); ((u "channelName"), (VDict [((u "type"), (VStr (u "string"))); ((u "description"), (VStr (u "Channel Name on successful subscription. For payloads 'ohlc' and 'book', respective interval or depth will be added as suffix.")))]))])); ((u "required"), (VList [(VStr (u "channelID")); (VStr (u "channelName"))]))]); (VDict [((u "$ref"), (VStr (u "#/components/schemas/subscriptionStatusCommon")))])]))])); ((u "subscriptionStatusCommon"), (VDict [((u "type"), (VStr (u "object"))); ((u "required"), (VList [(VStr (u "event"))])); ((u "properties"), (VDict [((u "event"), (VDict [((u "type"), (VStr (u "string"))); ((u "const"), (VStr (u "subscriptionStatus")))])); ((u "reqid"), (VDict [((u "$ref"), (VStr (u "#/components/schemas/reqid")))])); ((u "pair"), (VDict [((u "$ref"), (VStr (u "#/components/schemas/pair")))])); ((u "status"), (VDict [((u "$ref"), (VStr (u "#/components/schemas/status")))])); ((u "subscription"), (VDict [((u "required"), (VList [(VStr (u "name"))])); ((u "type"), (VStr (u "object"))); ((u "properties"), (VDict [((u "depth"), (VDict [((u "$ref"), (VStr (u "#/components/schemas/depth")))])); ((u "interval"), (VDict [((u "$ref"), (VStr (u "#/components/schemas/interval")))])); ((u "maxratecount"), (VDict [((u "$ref"), (VStr (u "#/components/schemas/maxratecount")))])); ((u "name"), (VDict [((u "$ref"), (VStr (u "#/components/schemas/name")))])); ((u "token"), (VDict [((u "$ref"), (VStr (u "#/components/schemas/token")))]))]))]))]))])); ((u "interval"), (VDict [((u "type"), (VStr (u "integer"))); ((u "description"), (VStr (u "Time interval associated with ohlc subscription in minutes."))); ((u "default"), (VInt (1)%Z)); ((u "enum"), (VList [(VInt (1)%Z); (VInt (5)%Z); (VInt (15)%Z); (VInt (30)%Z); (VInt (60)%Z); (VInt (240)%Z); (VInt (1440)%Z); (VInt (10080)%Z); (VInt (21600)%Z)]))])); ((u "name"), (VDict [((u "type"), (VStr (u "string"))); ((u "description"), (VStr (u "The name of the channel you subscribe too."))); ((u "enum"), (VList [(VStr (u "book")); (VStr (u "ohlc")); (VStr (u "openOrders")); (VStr (u "ownTrades")); (VStr (u "spread")); (VStr (u "ticker")); (VStr (u "trade"))]))])); ((u "token"), (VDict [((u "type"), (VStr (u "string"))); ((u "description"), (VStr (u "base64-encoded authentication token for private-data endpoints.")))])); ((u "depth"), (VDict [((u "type"), (VStr (u "integer"))); ((u "default"), (VInt (10)%Z)); ((u "enum"), (VList [(VInt (10)%Z); (VInt (25)%Z); (VInt (100)%Z); (VInt (500)%Z); (VInt (1000)%Z)])); ((u "description"), (VStr (u "Depth associated with book subscription in number of levels each side.")))])); ((u "maxratecount"), (VDict [((u "type"), (VStr (u "integer"))); ((u "description"), (VStr (u "Max rate-limit budget. Compare to the ratecounter field in the openOrders updates to check whether you are approaching the rate limit.")))])); ((u "ratecounter"), (VDict [((u "type"), (VStr (u "boolean"))); ((u "default"), (VBool false)); ((u "description"), (VStr (u "Whether to send rate-limit counter in updates (supported only for openOrders subscriptions)")))])); ((u "snapshot"), (VDict [((u "type"), (VStr (u "boolean"))); ((u "default"), (VBool true)); ((u "description"), (VStr (u "Whether to send historical feed data snapshot upon subscription (supported only for ownTrades subscriptions)")))])); ((u "reqid"), (VDict [((u "type"), (VStr (u "integer"))); ((u "description"), (VStr (u "client originated ID reflected in response message.")))])); ((u "pair"), (VDict [((u "type"), (VStr (u "array"))); ((u "description"), (VStr (u "Array of currency pairs."))); ((u "items"), (VDict [((u "type"), (VStr (u "string"))); ((u "description"), (VStr (u "Format of each pair is ""A/B"", where A and B are ISO 4217-A3 for standardized assets and popular unique symbol if not standardized."))); ((u "pattern"), (VStr (u "[A-Z\s]+\/[A-Z\s]+")))]))]))]))]))])))];
t "fixtures/yaml_specs/valid/single_file/kraken-websocket-request-reply-multiple-channels-asyncapi.yml" [SDo (XNew "AsyncAPI3" (XVal (VDict [((u "asyncapi"), (VStr (u "3.0.0"))); ((u "info"), (VDict [((u "title"), (VStr (u "Kraken Websockets API"))); ((u "version"), (VStr (u "1.8.0"))); ((u "description"), (VStr [87; 101; 98; 83; 111; 99; 107; 101; 116; 115; 32; 65; 80; 73; 32; 111; 102; 102; 101; 114; 115; 32; 114; 101; 97; 108; 45; 116; 105; 109; 101; 32; 109; 97; 114; 107; 101; 116; 32; 100; 97; 116; 97; 32; 117; 112; 100; 97; 116; 101; 115; 46; 32; 87; 101; 98; 83; 111; 99; 107; 101; 116; 115; 32; 105; 115; 32; 97; 32; 98; 105; 100; 105; 114; 101; 99; 116; 105; 111; 110; 97; 108; 32; 112; 114; 111; 116; 111; 99; 111; 108; 32; 111; 102; 102; 101; 114; 105; 110; 103; 32; 102; 97; 115; 116; 101; 115; 116; 32; 114; 101; 97; 108; 45; 116; 105; 109; 101; 32; 100; 97; 116; 97; 44; 32; 104; 101; 108; 112; 105; 110; 103; 32; 121; 111; 117; 32; 98; 117; 105; 108; 100; 32; 114; 101; 97; 108; 45; 116; 105; 109; 101; 32; 97; 112; 112; 108; 105; 99; 97; 116; 105; 111; 110; 115; 46; 32; 84; 104; 101; 32; 112; 117; 98; 108; 105; 99; 32; 109; 101; 115; 115; 97; 103; 101; 32; 116; 121; 112; 101; 115; 32; 112; 114; 101; 115; 101; 110; 116; 101; 100; 32; 98; 101; 108; 111; 119; 32; 100; 111; 32; 110; 111; 116; 32; 114; 101; 113; 117; 105; 114; 101; 32; 97; 117; 116; 104; 101; 110; 116; 105; 99; 97; 116; 105; 111; 110; 46; 32; 80; 114; 105; 118; 97; 116; 101; 45; 100; 97; 116; 97; 32; 109; 101; 115; 115; 97; 103; 101; 115; 32; 99; 97; 110; 32; 98; 101; 32; 115; 117; 98; 115; 99; 114; 105; 98; 101; 100; 32; 111; 110; 32; 97; 32; 115; 101; 112; 97; 114; 97; 116; 101; 32; 97; 117; 116; 104; 101; 110; 116; 105; 99; 97; 116; 101; 100; 32; 101; 110; 100; 112; 111; 105; 110; 116; 46; 10; 10; 35; 35; 35; 32; 71; 101; 110; 101; 114; 97; 108; 32; 67; 111; 110; 115; 105; 100; 101; 114; 97; 116; 105; 111; 110; 115; 10; 10; 45; 32; 84; 76; 83; 32; 119; 105; 116; 104; 32; 83; 78; 73; 32; 40; 83; 101; 114; 118; 101; 114; 32; 78; 97; 109; 101; 32; 73; 110; 100; 105; 99; 97; 116; 105; 111; 110; 41; 32; 105; 115; 32; 114; 101; 113; 117; 105; 114; 101; 100; 32; 105; 110; 32; 111; 114; 100; 101; 114; 32; 116; 111; 32; 101; 115; 116; 97; 98; 108; 105; 115; 104; 32; 97; 32; 75; 114; 97; 107; 101; 110; 32; 87; 101; 98; 83; 111; 99; 107; 101; 116; 115; 32; 65; 80; 73; 32; 99; 111; 110; 110; 101; 99; 116; 105; 111; 110; 46; 32; 83; 101; 101; 32; 67; 108; 111; 117; 100; 102; 108; 97; 114; 101; 39; 115; 32; 91; 87; 104; 97; 116; 32; 105; 115; 32; 83; 78; 73; 63; 93; 40; 104; 116; 116; 112; 115; 58; 47; 47; 119; 119; 119; 46; 99; 108; 111; 117; 100; 102; 108; 97; 114; 101; 46; 99; 111; 109; 47; 108; 101; 97; 114; 110; 105; 110; 103; 47; 115; 115; 108; 47; 119; 104; 97; 116; 45; 105; 115; 45; 115; 110; 105; 47; 41; 32; 103; 117; 105; 100; 101; 32; 102; 111; 114; 32; 109; 111; 114; 101; 32; 100; 101; 116; 97; 105; 108; 115; 46; 10; 45; 32; 65; 108; 108; 32; 109; 101; 115; 115; 97; 103; 101; 115; 32; 115; 101; 110; 116; 32; 97; 110; 100; 32; 114; 101; 99; 101; 105; 118; 101; 100; 32; 118; 105; 97; 32; 87; 101; 98; 83; 111; 99; 107; 101; 116; 115; 32; 97; 114; 101; 32; 101; 110; 99; 111; 100; 101; 100; 32; 105; 110; 32; 74; 83; 79; 78; 32; 102; 111; 114; 109; 97; 116; 10; 45; 32; 65; 108; 108; 32; 100; 101; 99; 105; 109; 97; 108; 32; 102; 105; 101; 108; 100; 115; 32; 40; 105; 110; 99; 108; 117; 100; 105; 110; 103; 32; 116; 105; 109; 101; 115; 116; 97; 109; 112; 115; 41; 32; 97; 114; 101; 32; 113; 117; 111; 116; 101; 100; 32; 116; 111; 32; 112; 114; 101; 115; 101; 114; 118; 101; 32; 112; 114; 101; 99; 105; 115; 105; 111; 110; 46; 10; 45; 32; 84; 105; 109; 101; 115; 116; 97; 109; 112; 115; 32; 115; 104; 111; 117; 108; 100; 32; 110; 111; 116; 32; 98; 101; 32; 99; 111; 110; 115; 105; 100; 101; 114; 101; 100; 32; 117; 110; 105; 113; 117; 101; 32; 97; 110; 100; 32; 110; 111; 116; 32; 98; 101; 32; 99; 111; 110; 115; 105; 100; 101; 114; 101; 100; 32; 97; 115; 32; 97; 108; 105; 97; 115; 101; 115; 32; 102; 111; 114; 32; 116; 114; 97; 110; 115; 97; 99; 116; 105; 111; 110; 32; 73; 68; 115; 46; 32; 65; 108; 115; 111; 44; 32; 116; 104; 101; 32; 103; 114; 97; 110; 117; 108; 97; 114; 105; 116; 121; 32; 111; 102; 32; 116; 105; 109; 101; 115; 116; 97; 109; 112; 115; 32; 105; 115; 32; 110; 111; 116; 32; 114; 101; 112; 114; 101; 115; 101; 110; 116; 97; 116; 105; 118; 101; 32; 111; 102; 32; 116; 114; 97; 110; 115; 97; 99; 116; 105; 111; 110; 32; 114; 97; 116; 101; 115; 46; 10; 45; 32; 65; 116; 32; 108; 101; 97; 115; 116; 32; 111; 110; 101; 32; 112; 114; 105; 118; 97; 116; 101; 32; 109; 101; 115; 115; 97; 103; 101; 32; 115; 104; 111; 117; 108; 100; 32; 98; 101; 32; 115; 117; 98; 115; 99; 114; 105; 98; 101; 100; 32; 116; 111; 32; 107; 101; 101; 112; 32; 116; 104; 101; 32; 97; 117; 116; 104; 101; 110; 116; 105; 99; 97; 116; 101; 100; 32; 99; 108; 105; 101; 110; 116; 32; 99; 111; 110; 110; 101; 99; 116; 105; 111; 110; 32; 111; 112; 101; 110; 46; 10; 45; 32; 80; 108; 101; 97; 115; 101; 32; 117; 115; 101; 32; 82; 69; 83; 84; 32; 65; 80; 73; 32; 101; 110; 100; 112; 111; 105; 110; 116; 32; 91; 65; 115; 115; 101; 116; 80; 97; 105; 114; 115; 93; 40; 104; 116; 116; 112; 115; 58; 47; 47; 119; 119; 119; 46; 107; 114; 97; 107; 101; 110; 46; 99; 111; 109; 47; 102; 101; 97; 116; 117; 114; 101; 115; 47; 97; 112; 105; 35; 103; 101; 116; 45; 116; 114; 97; 100; 97; 98; 108; 101; 45; 112; 97; 105; 114; 115; 41; 32; 116; 111; 32; 102; 101; 116; 99; 104; 32; 116; 104; 101; 32; 108; 105; 115; 116; 32; 111; 102; 32; 112; 97; 105; 114; 115; 32; 119; 104; 105; 99; 104; 32; 99; 97; 110; 32; 98; 101; 32; 115; 117; 98; 115; 99; 114; 105; 98; 101; 100; 32; 118; 105; 97; 32; 87; 101; 98; 83; 111; 99; 107; 101; 116; 115; 32; 65; 80; 73; 46; 32; 70; 111; 114; 32; 101; 120; 97; 109; 112; 108; 101; 44; 32; 102; 105; 101; 108; 100; 32; 39; 119; 115; 110; 97; 109; 101; 39; 32; 103; 105; 118; 101; 115; 32; 116; 104; 101; 32; 115; 117; 112; 112; 111; 114; 116; 101; 100; 32; 112; 97; 105; 114; 115; 32; 110; 97; 109; 101; 32; 119; 104; 105; 99; 104; 32; 99; 97; 110; 32; 98; 101; 32; 117; 115; 101; 100; 32; 116; 111; 32; 115; 117; 98; 115; 99; 114; 105; 98; 101; 46; 10; 45; 32; 67; 108; 111; 117; 100; 102; 108; 97; 114; 101; 32; 105; 109; 112; 111; 115; 101; 115; 32; 97; 32; 99; 111; 110; 110; 101; 99; 116; 105; 111; 110; 47; 114; 101; 45; 99; 111; 110; 110; 101; 99; 116; 105; 111; 110; 32; 114; 97; 116; 101; 32; 108; 105; 109; 105; 116; 32; 40; 112; 101; 114; 32; 73; 80; 32; 97; 100; 100; 114; 101; 115; 115; 41; 32; 111; 102; 32; 97; 112; 112; 114; 111; 120; 105; 109; 97; 116; 101; 108; 121; 32; 49; 53; 48; 32; 97; 116; 116; 101; 109; 112; 116; 115; 32; 112; 101; 114; 32; 114; 111; 108; 108; 105; 110; 103; 32; 49; 48; 32; 109; 105; 110; 117; 116; 101; 115; 46; 32; 73; 102; 32; 116; 104; 105; 115; 32; 105; 115; 32; 101; 120; 99; 101; 101; 100; 101; 100; 44; 32; 116; 104; 101; 32; 73; 80; 32; 105; 115; 32; 98; 97; 110; 110; 101; 100; 32; 102; 111; 114; 32; 49; 48; 32; 109; 105; 110; 117; 116; 101; 115; 46; 10; 45; 32; 82; 101; 99; 111; 109; 109; 101; 110; 100; 101; 100; 32; 114; 101; 99; 111; 110; 110; 101; 99; 116; 105; 111; 110; 32; 98; 101; 104; 97; 118; 105; 111; 117; 114; 32; 105; 115; 32; 116; 111; 32; 40; 49; 41; 32; 97; 116; 116; 101; 109; 112; 116; 32; 114; 101; 99; 111; 110; 110; 101; 99; 116; 105; 111; 110; 32; 105; 110; 115; 116; 97; 110; 116; 108; 121; 32; 117; 112; 32; 116; 111; 32; 97; 32; 104; 97; 110; 100; 102; 117; 108; 32; 111; 102; 32; 116; 105; 109; 101; 115; 32; 105; 102; 32; 116; 104; 101; 32; 119; 101; 98; 115; 111; 99; 107; 101; 116; 32; 105; 115; 32; 100; 114; 111; 112; 112; 101; 100; 32; 114; 97; 110; 100; 111; 109; 108; 121; 32; 100; 117; 114; 105; 110; 103; 32; 110; 111; 114; 109; 97; 108; 32; 111; 112; 101; 114; 97; 116; 105; 111; 110; 32; 98; 117; 116; 32; 40; 50; 41; 32; 97; 102; 116; 101; 114; 32; 109; 97; 105; 110; 116; 101; 110; 97; 110; 99; 101; 32; 111; 114; 32; 101; 120; 116; 101; 110; 100; 101; 100; 32; 100; 111; 119; 110; 116; 105; 109; 101; 44; 32; 97; 116; 116; 101; 109; 112; 116; 32; 116; 111; 32; 114; 101; 99; 111; 110; 110; 101; 99; 116; 32; 110; 111; 32; 109; 111; 114; 101; 32; 113; 117; 105; 99; 107; 108; 121; 32; 116; 104; 97; 110; 32; 111; 110; 99; 101; 32; 101; 118; 101; 114; 121; 32; 53; 32; 115; 101; 99; 111; 110; 100; 115; 46; 32; 84; 104; 101; 114; 101; 32; 105; 115; 32; 110; 111; 32; 97; 100; 118; 97; 110; 116; 97; 103; 101; 32; 116; 111; 32; 114; 101; 99; 111; 110; 110; 101; 99; 116; 105; 110; 103; 32; 109; 111; 114; 101; 32; 114; 97; 112; 105; 100; 108; 121; 32; 97; 102; 116; 101; 114; 32; 109; 97; 105; 110; 116; 101; 110; 97; 110; 99; 101; 32; 100; 117; 114; 105; 110; 103; 32; 99; 97; 110; 99; 101; 108; 95; 111; 110; 108; 121; 32; 109; 111; 100; 101; 46; 10]%N))])); ((u "channels"), (VDict [((u "ping"), (VDict [((u "address"), (VStr (u "/"))); ((u "messages"), (VDict [((u "ping"), (VDict [((u "$ref"), (VStr (u "#/components/messages/ping")))]))]))])); ((u "pong"), (VDict [((u "address"), (VStr (u "/"))); ((u "messages"), (VDict [((u "pong"), (VDict [((u "$ref"), (VStr (u "#/components/messages/pong")))]))]))])); ((u "heartbeat"), (VDict [((u "address"), (VStr (u "/"))); ((u "messages"), (VDict [((u "heartbeat"), (VDict [((u "$ref"), (VStr (u "#/components/messages/heartbeat")))]))]))])); ((u "systemStatus"), (VDict [((u "address"), (VStr (u "/"))); ((u "messages"), (VDict [((u "systemStatus"), (VDict [((u "$ref"), (VStr (u "#/components/messages/systemStatus")))]))]))])); ((u "currencyInfo"), (VDict [((u "address"), (VStr (u "/"))); ((u "messages"), (VDict [((u "subscriptionStatus"), (VDict [((u "$ref"), (VStr (u "#/components/messages/subscriptionStatus")))])); ((u "dummyCurrencyInfo"), (VDict [((u "$ref"), (VStr (u "#/components/messages/dummyCurrencyInfo")))]))]))])); ((u "subscribe"), (VDict [((u "address"), (VStr (u "/"))); ((u "messages"), (VDict [((u "subscribe"), (VDict [((u "$ref"), (VStr (u "#/components/messages/subscribe")))]))]))])); ((u "unsubscribe"), (VDict [((u "address"), (VStr (u "/"))); ((u "messages"), (VDict [((u "unsubscribe"), (VDict [((u "$ref"), (VStr (u "#/components/messages/unsubscribe")))]))]))]))])); ((u "operations"), (VDict [((u "receivePing"), (VDict [((u "action"), (VStr (u "receive"))); ((u "channel"), (VDict [((u "$ref"), (VStr (u "#/channels/ping")))])); ((u "reply"), (VDict [((u "channel"), (VDict [((u "$ref"), (VStr (u "#/channels/pong")))]))]))])); ((u "heartbeat"), (VDict [((u "action"), (VStr (u "send"))); ((u "channel"), (VDict [((u "$ref"), (VStr (u "#/channels/heartbeat")))]))])); ((u "systemStatus"), (VDict [((u "action"), (VStr (u "send"))); ((u "channel"), (VDict [((u "$ref"), (VStr (u "#/channels/systemStatus")))]))])); ((u "subscribe"), (VDict [((u "action"), (VStr (u "receive"))); ((u "channel"), (VDict [((u "$ref"), (VStr (u "#/channels/subscribe")))])); ((u "reply"), (VDict [((u "channel"), (VDict [((u "$ref"), (VStr (u "#/channels/currencyInfo")))]))]))])); ((u "unsubscribe"), (VDict [((u "action"), (VStr (u "receive"))); ((u "channel"), (VDict [((u "$ref"), (VStr (u "#/channels/unsubscribe")))])); ((u "reply"), (VDict [((u "channel"), (VDict [((u "$ref"), (VStr (u "#/channels/currencyInfo")))])); ((u "messages"), (VList [(VDict [((u "$ref"), (VStr (u "#/channels/currencyInfo/messages/subscriptionStatus")))])]))]))]))])); ((u "components"), (VDict [((u "messages"), (VDict [((u "dummyCurrencyInfo"), (VDict [((u "summary"), (VStr (u "Dummy message with no real life details"))); ((u "description"), (VStr (u "It is here in this example to showcase that there is an additional message that normally is of a complex structure. It represents actually currency exchange value to show a reply to operation receiveSubscribeRequest with more than one possible message."))); ((u "payload"), (VDict [((u "type"), (VStr (u "object"))); ((u "properties"), (VDict [((u "event"), (VDict [((u "type"), (VStr (u "string"))); ((u "const"), (VStr (u "currencyInfo")))])); ((u "reqid"), (VDict [((u "$ref"), (VStr (u "#/components/schemas/reqid")))])); ((u "data"), (VDict [((u "type"), (VStr (u "object")))]))])); ((u "required"), (VList [(VStr (u "event"))]))])); ((u "correlationId"), (VDict [((u "location"), (VStr (u "$message.payload#/reqid")))]))])); ((u "ping"), (VDict [((u "summary"), (VStr (u "Ping server to determine whether connection is alive"))); ((u "description"), (VStr (u "Client can ping server to determine whether connection is alive, server responds with pong. This is an application level ping as opposed to default ping in websockets standard which is server initiated"))); ((u "payload"), (VDict [((u "$ref"), (VStr (u "#/components/schemas/ping")))])); ((u "correlationId"), (VDict [((u "location"), (VStr (u "$message.payload#/reqid")))]))])); ((u "pong"), (VDict [((u "summary"), (VStr (u "Pong is a response to ping message"))); ((u "description"), (VStr (u "Server pong response to a ping to determine whether connection is alive. This is an application level pong as opposed to default pong in websockets standard which is sent by client in response to a ping"))); ((u "payload"), (VDict [((u "$ref"), (VStr (u "#/components/schemas/pong")))])); ((u "correlationId"), (VDict [((u "location"), (VStr (u "$message.payload#/reqid")))]))])); ((u "subscribe"), (VDict [((u "description"), (VStr (u "Subscribe to a topic on a single or multiple currency pairs."))); ((u "payload"), (VDict [((u "$ref"), (VStr (u "#/components/schemas/subscribe")))])); ((u "correlationId"), (VDict [((u "location"), (VStr (u "$message.payload#/reqid")))]))])); ((u "unsubscribe"), (VDict [((u "description"), (VStr (u "Unsubscribe, can specify a channelID or multiple currency pairs."))); ((u "payload"), (VDict [((u "$ref"), (VStr (u "#/components/schemas/unsubscribe")))])); ((u "correlationId"), (VDict [((u "location"), (VStr (u "$message.payload#/reqid")))]))])); ((u "subscriptionStatus"), (VDict [((u "description"), (VStr (u "Subscription status response to subscribe, unsubscribe or exchange initiated unsubscribe."))); ((u "payload"), (VDict [((u "$ref"), (VStr (u "#/components/schemas/subscriptionStatus")))])); ((u "examples"), (VList [(VDict [((u "payload"), (VDict [((u "channelID"), (VInt (10001)%Z)); ((u "channelName"), (VStr (u "ohlc-5"))); ((u "event"), (VStr (u "subscriptionStatus"))); ((u "pair"), (VStr (u "XBT/EUR"))); ((u "reqid"), (VInt (42)%Z)); ((u "status"), (VStr (u "unsubscribed"))); ((u "subscription"), (VDict [((u "interval"), (VInt (5)%Z)); ((u "name"), (VStr (u "ohlc")))]))]))]); (VDict [((u "payload"), (VDict [((u "errorMessage"), (VStr (u "Subscription depth not supported"))); ((u "event"), (VStr (u "subscriptionStatus"))); ((u "pair"), (VStr (u "XBT/USD"))); ((u "status"), (VStr (u "error"))); ((u "subscription"), (VDict [((u "depth"), (VInt (42)%Z)); ((u "name"), (VStr (u "book")))]))]))])]))])); ((u "systemStatus"), (VDict [((u "description"), (VStr (u "Status sent on connection or system status changes."))); ((u "payload"), (VDict [((u "$ref"), (VStr (u "#/components/schemas/systemStatus")))]))])); ((u "heartbeat"), (VDict [((u "description"), (VStr (u "Server heartbeat sent if no subscription traffic within 1 second (approximately)"))); ((u "payload"), (VDict [((u "$ref"), (VStr (u "#/components/schemas/heartbeat")))]))]))])); ((u "schemas"), (VDict [((u "ping"), (VDict [((u "type"), (VStr (u "object"))); ((u "properties"), (VDict [((u "event"), (VDict [((u "type"), (VStr (u "string"))); ((u "const"), (VStr (u "ping")))])); ((u "reqid"), (VDict [((u "$ref"), (VStr (u "#/components/schemas/reqid")))]))])); ((u "required"), (VList [(VStr (u "event"))]))])); ((u "heartbeat"), (VDict [((u "type"), (VStr (u "object"))); ((u "properties"), (VDict [((u "event"), (VDict [((u "type"), (VStr (u "string"))); ((u "const"), (VStr (u "heartbeat")))]))]))])); ((u "pong"), (VDict [((u "type"), (VStr (u "object"))); ((u "properties"), (VDict [((u "event"), (VDict [((u "type"), (VStr (u "string"))); ((u "const"), (VStr (u "pong")))])); ((u "reqid"), (VDict [((u "$ref"), (VStr (u "#/components/schemas/reqid")))]))]))])); ((u "systemStatus"), (VDict [((u "type"), (VStr (u "object"))); ((u "properties"), (VDict [((u "event"), (VDict [((u "type"), (VStr (u "string"))); ((u "const"), (VStr (u "systemStatus")))])); ((u "connectionID"), (VDict [((u "type"), (VStr (u "integer"))); ((u "description"), (VStr (u "The ID of the connection")))])); ((u "status"), (VDict [((u "$ref"), (VStr (u "#/components/schemas/status")))])); ((u "version"), (VDict [((u "type"), (VStr (u "string")))]))]))])); ((u "status"), (VDict [((u "type"), (VStr (u "string"))); ((u "enum"), (VList [(VStr (u "online")); (VStr (u "maintenance")); (VStr (u "cancel_only")); (VStr (u "limit_only")); (VStr (u "post_only"))]))])); ((u "subscribe"), (VDict [((u "type"), (VStr (u "object"))); ((u "properties"), (VDict [((u "event"), (VDict [((u "type"), (VStr (u "string"))); ((u "const"), (VStr (u "subscribe")))])); ((u "reqid"), (VDict [((u "$ref"), (VStr (u "#/components/schemas/reqid")))])); ((u "pair"), (VDict [((u "$ref"), (VStr (u "#/components/schemas/pair")))])); ((u "subscription"), (VDict [((u "type"), (VStr (u "object"))); ((u "properties"), (VDict [((u "depth"), (VDict [((u "$ref"), (VStr (u "#/components/schemas/depth")))])); ((u "interval"), (VDict [((u "$ref"), (VStr (u "#/components/schemas/interval")))])); ((u "name"), (VDict [((u "$ref"), (VStr (u "#/components/schemas/name")))])); ((u "ratecounter"), (VDict [((u "$ref"), (VStr (u "#/components/schemas/ratecounter")))])); ((u "snapshot"), (VDict [((u "$ref"), (VStr (u "#/components/schemas/snapshot")))])); ((u "token"), (VDict [((u "$ref"), (VStr (u "#/components/schemas/token")))]))])); ((u "required"), (VList [(VStr (u "name"))]))]))])); ((u "required"), (VList [(VStr (u "event"))]))])); ((u "unsubscribe"), (VDict [((u "type"), (VStr (u "object"))); ((u "properties"), (VDict [((u "event"), (VDict [((u "type"), (VStr (u "string"))); ((u "const"), (VStr (u "unsubscribe")))])); ((u "reqid"), (VDict [((u "$ref"), (VStr (u "#/components/schemas/reqid")))])); ((u "pair"), (VDict [((u "$ref"), (VStr (u "#/components/schemas/pair")))])); ((u "subscription"), (VDict [((u "type"), (VStr (u "object"))); ((u "properties"), (VDict [((u "depth"), (VDict [((u "$ref"), (VStr (u "#/components/schemas/depth")))])); ((u "interval"), (VDict [((u "$ref"), (VStr (u "#/components/schemas/interval")))])); ((u "name"), (VDict [((u "$ref"), (VStr (u "#/components/schemas/name")))])); ((u "token"), (VDict [((u "$ref"), (VStr (u "#/components/schemas/token")))]))])); ((u "required"), (VList [(VStr (u "name"))]))]))])); ((u "required"), (VList [(VStr (u "event"))]))])); ((u "subscriptionStatus"), (VDict [((u "type"), (VStr (u "object"))); ((u "oneOf"), (VList [(VDict [((u "$ref"), (VStr (u "#/components/schemas/subscriptionStatusError")))]); (VDict [((u "$ref"), (VStr (u "#/components/schemas/subscriptionStatusSuccess")))])]))])); ((u "subscriptionStatusError"), (VDict [((u "allOf"), (VList [(VDict [((u "properties"), (VDict [((u "errorMessage"), (VDict [((u "type"), (VStr (u "string")))]))])); ((u "required"), (VList [(VStr (u "errorMessage"))]))]); (VDict [((u "$ref"), (VStr (u "#/components/schemas/subscriptionStatusCommon")))])]))])); ((u "subscriptionStatusSuccess"), (VDict [((u "allOf"), (VList [(VDict [((u "properties"), (VDict [((u "channelID"), (VDict [((u "type"), (VStr (u "integer"))); ((u "description"), (VStr (u "ChannelID on successful subscription, applicable to public messages only.")))])); ((u "channelName"), (VDict [((u "type"), (VStr (u "string"))); ((u "description"), (VStr (u "Channel Name on successful subscription. For payloads 'ohlc' and 'book', respective interval or depth will be added as suffix.")))]))])); ((u "required"), (VList [(VStr (u "channelID")); (VStr (u "channelName"))]))]); (VDict [((u "$ref"), (VStr (u "#/components/schemas/subscriptionStatusCommon")))])]))])); ((u "subscriptionStatusCommon"), (VDict [((u "type"), (VStr (u "object"))); ((u "required"), (VList [(VStr (u "event"))])); ((u "properties"), (VDict [((u "event"), (VDict [((u "type"), (VStr (u "string"))); ((u "const"), (VStr (u "subscriptionStatus")))])); ((u "reqid"), (VDict [((u "$ref"), (VStr (u "#/components/schemas/reqid")))])); ((u "pair"), (VDict [((u "$ref"), (VStr (u "#/components/schemas/pair")))])); ((u "status"), (VDict [((u "$ref"), (VStr (u "#/components/schemas/status")))])); ((u "subscription"), (VDict [((u "required"), (VList [(VStr (u "name"))])); ((u "type"), (VStr (u "object"))); ((u "properties"), (VDict [((u "depth"), (VDict [((u "$ref"), (VStr (u "#/components/schemas/depth")))])); ((u "interval"), (VDict [((u "$ref"), (VStr (u "#/components/schemas/interval")))])); ((u "maxratecount"), (VDict [((u "$ref"), (VStr (u "#/components/schemas/maxratecount")))])); ((u "name"), (VDict [((u "$ref"), (VStr (u "#/components/schemas/name")))])); ((u "token"), (VDict [((u "$ref"), (VStr (u "#/components/schemas/token")))]))]))]))]))])); ((u "interval"), (VDict [((u "type"), (VStr (u "integer"))); ((u "description"), (VStr (u "Time interval associated with ohlc subscription in minutes."))); ((u "default"), (VInt (1)%Z)); ((u "enum"), (VList [(VInt (1)%Z); (VInt (5)%Z); (VInt (15)%Z); (VInt (30)%Z); (VInt (60)%Z); (VInt (240)%Z); (VInt (1440)%Z); (VInt (10080)%Z); (VInt (21600)%Z)]))])); ((u "name"), (VDict [((u "type"), (VStr (u "string"))); ((u "description"), (VStr (u "The name of the channel you subscribe too."))); ((u "enum"), (VList [(VStr (u "book")); (VStr (u "ohlc")); (VStr (u "openOrders")); (VStr (u "ownTrades")); (VStr (u "spread")); (VStr (u "ticker")); (VStr (u "trade"))]))])); ((u "token"), (VDict [((u "type"), (VStr (u "string"))); ((u "description"), (VStr (u "base64-encoded authentication token for private-data endpoints.")))])); ((u "depth"), (VDict [((u "type"), (VStr (u "integer"))); ((u "default"), (VInt (10)%Z)); ((u "enum"), (VList [(VInt (10)%Z); (VInt (25)%Z); (VInt (100)%Z); (VInt (500)%Z); (VInt (1000)%Z)])); ((u "description"), (VStr (u "Depth associated with book subscription in number of levels each side.")))])); ((u "maxratecount"), (VDict [((u "type"), (VStr (u "integer"))); ((u "description"), (VStr (u "Max rate-limit budget. Compare to the ratecounter field in the openOrders updates to check whether you are approaching the rate limit.")))])); ((u "ratecounter"), (VDict [((u "type"), (VStr (u "boolean"))); ((u "default"), (VBool false)); ((u "description"), (VStr (u "Whether to send rate-limit counter in updates (supported only for openOrders subscriptions)")))])); ((u "snapshot"), (VDict [((u "type"), (VStr (u "boolean"))); ((u "default"), (VBool true)); ((u "description"), (VStr (u "Whether to send historical feed data snapshot upon subscription (supported only for ownTrades subscriptions)")))])); ((u "reqid"), (VDict [((u "type"), (VStr (u "integer"))); ((u "description"), (VStr (u "client originated ID reflected in response message.")))])); ((u "pair"), (VDict [((u "type"), (VStr (u "array"))); ((u "description"), (VStr (u "Array of currency pairs."))); ((u "items"), (VDict [((u "type"), (VStr (u "string"))); ((u "description"), (VStr (u "Format of each pair is ""A/B"", where A and B are ISO 4217-A3 for standardized assets and popular unique symbol if not standardized."))); ((u "pattern"), (VStr (u "[A-Z\s]+\/[A-Z\s]+")))]))]))]))]))])))];
t "fixtures/yaml_specs/valid/single_file/mercure-asyncapi.yml" [SDo (XNew "AsyncAPI3" (XVal (VDict [((u "asyncapi"), (VStr (u "3.0.0"))); ((u "info"), (VDict [((u "title"), (VStr (u "Mercure Hub Example"))); ((u "version"), (VStr (u "1.0.0"))); ((u "description"), (VStr (u "This example demonstrates how to define a Mercure hub.")))])); ((u "defaultContentType"), (VStr (u "application/ld+json"))); ((u "servers"), (VDict [((u "production"), (VDict [((u "host"), (VStr (u "demo.mercure.rocks"))); ((u "pathname"), (VStr (u "/.well-known/mercure"))); ((u "protocol"), (VStr (u "mercure")))]))])); ((u "channels"), (VDict [((u "books"), (VDict [((u "address"), (VStr (u "https://example.com/books/{id}"))); ((u "messages"), (VDict [((u "book"), (VDict [((u "$ref"), (VStr (u "#/components/messages/book")))]))])); ((u "description"), (VStr (u "Every time a resource of type `http://schema.org/Book` is created or modified, a JSON-LD representation of the new version of this resource must be pushed in this Mercure topic."))); ((u "parameters"), (VDict [((u "id"), (VDict [((u "description"), (VStr (u "ID of the book")))]))]))]))])); ((u "operations"), (VDict [((u "ReceiveBooksInfo"), (VDict [((u "action"), (VStr (u "receive"))); ((u "channel"), (VDict [((u "$ref"), (VStr (u "#/channels/books")))])); ((u "messages"), (VList [(VDict [((u "$ref"), (VStr (u "#/channels/books/messages/book")))])]))])); ((u "SendBooksInfo"), (VDict [((u "action"), (VStr (u "send"))); ((u "channel"), (VDict [((u "$ref"), (VStr (u "#/channels/books")))])); ((u "messages"), (VList [(VDict [((u "$ref"), (VStr (u "#/channels/books/messages/book")))])]))]))])); ((u "components"), (VDict [((u "messages"), (VDict [((u "book"), (VDict [((u "summary"), (VStr (u "The content of a book resource."))); ((u "externalDocs"), (VDict [((u "url"), (VStr (u "https://schema.org/Book")))])); ((u "payload"), (VDict [((u "type"), (VStr (u "object"))); ((u "properties"), (VDict [((u "@id"), (VDict [((u "type"), (VStr (u "string"))); ((u "format"), (VStr (u "iri-reference")))])); ((u "@type"), (VDict [((u "type"), (VStr (u "string"))); ((u "format"), (VStr (u "iri-reference")))])); ((u "name"), (VDict [((u "type"), (VStr (u "string")))])); ((u "isbn"), (VDict [((u "type"), (VStr (u "string")))])); ((u "abstract"), (VDict [((u "type"), (VStr (u "string")))]))]))]))]))]))]))])))];
t "fixtures/yaml_specs/valid/single_file/not-asyncapi.yml" [SDo (XNew "AsyncAPI3" (XVal (VDict [((u "asyncapi"), (VStr (u "3.0.0"))); ((u "info"), (VDict [((u "title"), (VStr (u "Not example"))); ((u "version"), (VStr (u "1.0.0")))])); ((u "channels"), (VDict [((u "test"), (VDict [((u "address"), (VStr (u "test"))); ((u "messages"), (VDict [((u "testMessages"), (VDict [((u "$ref"), (VStr (u "#/components/messages/testMessages")))]))]))]))])); ((u "operations"), (VDict [((u "onTestMsg"), (VDict [((u "action"), (VStr (u "receive"))); ((u "channel"), (VDict [((u "$ref"), (VStr (u "#/channels/test")))])); ((u "messages"), (VList [(VDict [((u "$ref"), (VStr (u "#/channels/test/messages/testMessages")))])]))]))])); ((u "components"), (VDict [((u "messages"), (VDict [((u "testMessages"), (VDict [((u "payload"), (VDict [((u "$ref"), (VStr (u "#/components/schemas/testSchema")))]))]))])); ((u "schemas"), (VDict [((u "testSchema"), (VDict [((u "type"), (VStr (u "object"))); ((u "properties"), (VDict [((u "key"), (VDict [((u "not"), (VDict [((u "type"), (VStr (u "integer")))]))]))]))]))]))]))])))];
t "fixtures/yaml_specs/valid/single_file/oneof-asyncapi.yml" [SDo (XNew "AsyncAPI3" (XVal (VDict [((u "asyncapi"), (VStr (u "3.0.0"))); ((u "info"), (VDict [((u "title"), (VStr (u "OneOf example"))); ((u "version"), (VStr (u "1.0.0")))])); ((u "channels"), (VDict [((u "test"), (VDict [((u "address"), (VStr (u "test"))); ((u "messages"), (VDict [((u "testMessages"), (VDict [((u "$ref"), (VStr (u "#/components/messages/testMessages")))]))]))])); ((u "test2"), (VDict [((u "address"), (VStr (u "test2"))); ((u "messages"), (VDict [((u "objectWithKey"), (VDict [((u "payload"), (VDict [((u "$ref"), (VStr (u "#/components/schemas/objectWithKey")))]))])); ((u "objectWithKey2"), (VDict [((u "payload"), (VDict [((u "$ref"), (VStr (u "#/components/schemas/objectWithKey2")))]))]))]))]))])); ((u "operations"), (VDict [((u "onTestMsg"), (VDict [((u "action"), (VStr (u "receive"))); ((u "channel"), (VDict [((u "$ref"), (VStr (u "#/channels/test")))])); ((u "messages"), (VList [(VDict [((u "$ref"), (VStr (u "#/channels/test/messages/testMessages")))])]))])); ((u "sendTest"), (VDict [((u "action"), (VStr (u "send"))); ((u "channel"), (VDict [((u "$ref"), (VStr (u "#/channels/test2")))])); ((u "messages"), (VList [(VDict [((u "$ref"), (VStr (u "#/channels/test2/messages/objectWithKey")))]); (VDict [((u "$ref"), (VStr (u "#/channels/test2/messages/objectWithKey2")))])]))]))])); ((u "components"), (VDict [((u "messages"), (VDict [((u "testMessages"), (VDict [((u "payload"), (VDict [((u "oneOf"), (VList [(VDict [((u "$ref"), (VStr (u "#/components/schemas/objectWithKey")))]); (VDict [((u "$ref"), (VStr (u "#/components/schemas/objectWithKey2")))])]))]))])); ((u "testMessage1"), (VDict [((u "payload"), (VDict [((u "$ref"), (VStr (u "#/components/schemas/objectWithKey")))]))])); ((u "testMessage2"), (VDict [((u "payload"), (VDict [((u "$ref"), (VStr (u "#/components/schemas/objectWithKey2")))]))]))])); ((u "schemas"), (VDict [((u "objectWithKey"), (VDict [((u "type"), (VStr (u "object"))); ((u "properties"), (VDict [((u "key"), (VDict [((u "type"), (VStr (u "string")))]))]))])); ((u "objectWithKey2"), (VDict [((u "type"), (VStr (u "object"))); ((u "properties"), (VDict [((u "key2"), (VDict [((u "type"), (VStr (u "string")))]))]))]))]))]))])))];
t "fixtures/yaml_specs/valid/single_file/operation-security-asyncapi.yml" [SDo (XNew "AsyncAPI3" (XVal (VDict [((u "asyncapi"), (VStr (u "3.0.0"))); ((u "info"), (VDict [((u "title"), (VStr (u "Notifications"))); ((u "version"), (VStr (u "1.0.0"))); ((u "description"), (VStr (u "This contract defines HTTP Push notification for  application authorization revocation topic")))])); ((u "channels"), (VDict [((u "authRevoke"), (VDict [((u "address"), (VStr (u "AUTHORIZATION_REVOCATION"))); ((u "messages"), (VDict [((u "message"), (VDict [((u "$ref"), (VStr (u "#/components/messages/message")))]))]))]))])); ((u "operations"), (VDict [((u "sendAuthRevoke"), (VDict [((u "action"), (VStr (u "send"))); ((u "channel"), (VDict [((u "$ref"), (VStr (u "#/channels/authRevoke")))])); ((u "security"), (VList [(VDict [((u "type"), (VStr (u "oauth2"))); ((u "description"), (VStr (u "The oauth security descriptions"))); ((u "flows"), (VDict [((u "clientCredentials"), (VDict [((u "tokenUrl"), (VStr (u "https://example.com/api/oauth/dialog"))); ((u "availableScopes"), (VDict [((u "subscribe:auth_revocations"), (VStr (u "Scope required for authorization revocation topic")))]))]))])); ((u "scopes"), (VList [(VStr (u "subscribe:auth_revocations"))]))])])); ((u "bindings"), (VDict [((u "http"), (VDict [((u "method"), (VStr (u "POST")))]))])); ((u "messages"), (VList [(VDict [((u "$ref"), (VStr (u "#/channels/authRevoke/messages/message")))])]))]))])); ((u "components"), (VDict [((u "messages"), (VDict [((u "message"), (VDict [((u "headers"), (VDict [((u "type"), (VStr (u "object"))); ((u "properties"), (VDict [((u "X-SIGNATURE"), (VDict [((u "description"), (VStr (u "ECC message signature"))); ((u "type"), (VStr (u "string")))])); ((u "Content-Type"), (VDict [((u "type"), (VStr (u "string"))); ((u "enum"), (VList [(VStr (u "application/json"))]))]))]))])); ((u "payload"), (VDict [((u "type"), (VStr (u "object"))); ((u "properties"), (VDict [((u "metadata"), (VDict [((u "$ref"), (VStr (u "#/components/schemas/MetaData")))])); ((u "notification"), (VDict [((u "$ref"), (VStr (u "#/components/schemas/Notification")))]))]))]))]))])); ((u "schemas"), (VDict [((u "MetaData"), (VDict [((u "type"), (VStr (u "object"))); ((u "properties"), (VDict [((u "topic"), (VDict [((u "type"), (VStr (u "string"))); ((u "description"), (VStr (u "Topic subscribed to.")))])); ((u "schemaVersion"), (VDict [((u "type"), (VStr (u "string"))); ((u "description"), (VStr (u "The schema for this topic.")))])); ((u "deprecated"), (VDict [((u "type"), (VStr (u "boolean"))); ((u "description"), (VStr (u "If this is a deprecated schema or topic."))); ((u "default"), (VStr (u "false")))]))]))])); ((u "Notification"), (VDict [((u "type"), (VStr (u "object"))); ((u "properties"), (VDict [((u "notificationId"), (VDict [((u "type"), (VStr (u "string"))); ((u "description"), (VStr (u "The notification Id.")))])); ((u "eventDate"), (VDict [((u "type"), (VStr (u "string"))); ((u "description"), (VStr (u "The event date associated with this notification in UTC.")))])); ((u "publishDate"), (VDict [((u "type"), (VStr (u "string"))); ((u "description"), (VStr (u "The message publish date in UTC.")))])); ((u "publishAttemptCount"), (VDict [((u "type"), (VStr (u "integer"))); ((u "description"), (VStr (u "The number of attempts made to publish this message.")))])); ((u "data"), (VDict [((u "$ref"), (VStr (u "#/components/schemas/AuthorizationRevocationData")))]))]))])); ((u "AuthorizationRevocationData"), (VDict [((u "type"), (VStr (u "object"))); ((u "description"), (VStr (u "The Authorization Revocation payload."))); ((u "properties"), (VDict [((u "username"), (VDict [((u "type"), (VStr (u "string"))); ((u "description"), (VStr (u "The username for the user.")))])); ((u "userId"), (VDict [((u "type"), (VStr (u "string"))); ((u "description"), (VStr (u "The immutable public userId for the user")))])); ((u "eiasToken"), (VDict [((u "type"), (VStr (u "string"))); ((u "description"), (VStr (u "The legacy eiasToken specific to the user")))])); ((u "revokeReason"), (VDict [((u "type"), (VStr (u "string"))); ((u "enum"), (VList [(VStr (u "REVOKED_BY_APP")); (VStr (u "REVOKED_BY_USER")); (VStr (u "REVOKED_BY_ADMIN")); (VStr (u "PASSWORD_CHANGE"))])); ((u "description"), (VStr (u "The reason for authorization revocation")))])); ((u "revocationDate"), (VDict [((u "type"), (VStr (u "string"))); ((u "description"), (VStr (u "Date and time when the authorization was revoked")))]))]))]))])); ((u "securitySchemes"), (VDict [((u "petstore_auth"), (VDict [((u "type"), (VStr (u "oauth2"))); ((u "description"), (VStr (u "The oauth security descriptions"))); ((u "flows"), (VDict [((u "clientCredentials"), (VDict [((u "tokenUrl"), (VStr (u "https://example.com/api/oauth/dialog"))); ((u "availableScopes"), (VDict [((u "subscribe:auth_revocations"), (VStr (u "Scope required for authorization revocation topic")))]))]))]))]))]))]))])))];
t "fixtures/yaml_specs/valid/single_file/rpc-client-asyncapi.yml" [SDo (XNew "AsyncAPI3" (XVal (VDict [((u "asyncapi"), (VStr (u "3.0.0"))); ((u "id"), (VStr (u "urn:example:rpcclient"))); ((u "info"), (VDict [((u "title"), (VStr (u "RPC Client Example"))); ((u "version"), (VStr (u "1.0.0"))); ((u "description"), (VStr (u "This example demonstrates how to define an RPC client.")))])); ((u "defaultContentType"), (VStr (u "application/json"))); ((u "servers"), (VDict [((u "production"), (VDict [((u "host"), (VStr (u "rabbitmq.example.org"))); ((u "protocol"), (VStr (u "amqp")))]))])); ((u "channels"), (VDict [((u "queue"), (VDict [((u "address"), (VStr (u "{queue}"))); ((u "messages"), (VDict [((u "receiveSumResult"), (VDict [((u "correlationId"), (VDict [((u "location"), (VStr (u "$message.header#/correlation_id")))])); ((u "payload"), (VDict [((u "type"), (VStr (u "object"))); ((u "properties"), (VDict [((u "result"), (VDict [((u "type"), (VStr (u "number"))); ((u "examples"), (VList [(VInt (7)%Z)]))]))]))]))]))])); ((u "parameters"), (VDict [((u "queue"), (VDict []))])); ((u "bindings"), (VDict [((u "amqp"), (VDict [((u "is"), (VStr (u "queue"))); ((u "queue"), (VDict [((u "exclusive"), (VBool true))]))]))]))])); ((u "rpc_queue"), (VDict [((u "address"), (VStr (u "rpc_queue"))); ((u "messages"), (VDict [((u "requestSum"), (VDict [((u "correlationId"), (VDict [((u "location"), (VStr (u "$message.header#/correlation_id")))])); ((u "payload"), (VDict [((u "type"), (VStr (u "object"))); ((u "properties"), (VDict [((u "numbers"), (VDict [((u "type"), (VStr (u "array"))); ((u "items"), (VDict [((u "type"), (VStr (u "number")))])); ((u "examples"), (VList [(VList [(VInt (4)%Z); (VInt (3)%Z)])]))]))]))]))]))])); ((u "bindings"), (VDict [((u "amqp"), (VDict [((u "is"), (VStr (u "queue"))); ((u "queue"), (VDict [((u "durable"), (VBool false))]))]))]))]))])); ((u "operations"), (VDict [((u "receiveSumResult"), (VDict [((u "action"), (VStr (u "receive"))); ((u "channel"), (VDict [((u "$ref"), (VStr (u "#/channels/queue")))])); ((u "bindings"), (VDict [((u "amqp"), (VDict [((u "ack"), (VBool false))]))])); ((u "messages"), (VList [(VDict [((u "$ref"), (VStr (u "#/channels/queue/messages/receiveSumResult")))])]))])); ((u "requestSum"), (VDict [((u "action"), (VStr (u "send"))); ((u "channel"), (VDict [((u "$ref"), (VStr (u "#/channels/rpc_queue")))])); ((u "bindings"), (VDict [((u "amqp"), (VDict [((u "ack"), (VBool true))]))])); ((u "messages"), (VList [(VDict [((u "$ref"), (VStr (u "#/channels/rpc_queue/messages/requestSum")))])]))]))]))])))];
t "fixtures/yaml_specs/valid/single_file/rpc-server-asyncapi.yml" [SDo (XNew "AsyncAPI3" (XVal (VDict [((u "asyncapi"), (VStr (u "3.0.0"))); ((u "id"), (VStr (u "urn:example:rpcserver"))); ((u "info"), (VDict [((u "title"), (VStr (u "RPC Server Example"))); ((u "version"), (VStr (u "1.0.0"))); ((u "description"), (VStr (u "This example demonstrates how to define an RPC server.")))])); ((u "defaultContentType"), (VStr (u "application/json"))); ((u "servers"), (VDict [((u "production"), (VDict [((u "host"), (VStr (u "rabbitmq.example.org"))); ((u "protocol"), (VStr (u "amqp")))]))])); ((u "channels"), (VDict [((u "queue"), (VDict [((u "address"), (VStr (u "{queue}"))); ((u "messages"), (VDict [((u "sendSumResult"), (VDict [((u "correlationId"), (VDict [((u "location"), (VStr (u "$message.header#/correlation_id")))])); ((u "payload"), (VDict [((u "type"), (VStr (u "object"))); ((u "properties"), (VDict [((u "result"), (VDict [((u "type"), (VStr (u "number"))); ((u "examples"), (VList [(VInt (7)%Z)]))]))]))]))]))])); ((u "parameters"), (VDict [((u "queue"), (VDict []))])); ((u "bindings"), (VDict [((u "amqp"), (VDict [((u "is"), (VStr (u "queue"))); ((u "queue"), (VDict [((u "exclusive"), (VBool true))]))]))]))])); ((u "rpc_queue"), (VDict [((u "address"), (VStr (u "rpc_queue"))); ((u "messages"), (VDict [((u "sum"), (VDict [((u "correlationId"), (VDict [((u "location"), (VStr (u "$message.header#/correlation_id")))])); ((u "payload"), (VDict [((u "type"), (VStr (u "object"))); ((u "properties"), (VDict [((u "numbers"), (VDict [((u "type"), (VStr (u "array"))); ((u "items"), (VDict [((u "type"), (VStr (u "number")))])); ((u "examples"), (VList [(VList [(VInt (4)%Z); (VInt (3)%Z)])]))]))]))]))]))])); ((u "bindings"), (VDict [((u "amqp"), (VDict [((u "is"), (VStr (u "queue"))); ((u "queue"), (VDict [((u "durable"), (VBool false))]))]))]))]))])); ((u "operations"), (VDict [((u "sendSumResult"), (VDict [((u "action"), (VStr (u "send"))); ((u "channel"), (VDict [((u "$ref"), (VStr (u "#/channels/queue")))])); ((u "bindings"), (VDict [((u "amqp"), (VDict [((u "ack"), (VBool true))]))])); ((u "messages"), (VList [(VDict [((u "$ref"), (VStr (u "#/channels/queue/messages/sendSumResult")))])]))])); ((u "sum"), (VDict [((u "action"), (VStr (u "receive"))); ((u "channel"), (VDict [((u "$ref"), (VStr (u "#/channels/rpc_queue")))])); ((u "messages"), (VList [(VDict [((u "$ref"), (VStr (u "#/channels/rpc_queue/messages/sum")))])]))]))]))])))];
t "fixtures/yaml_specs/valid/single_file/simple-asyncapi.yml" [SDo (XNew "AsyncAPI3" (XVal (VDict [((u "asyncapi"), (VStr (u "3.0.0"))); ((u "info"), (VDict [((u "title"), (VStr (u "Account Service"))); ((u "version"), (VStr (u "1.0.0"))); ((u "description"), (VStr (u "This service is in charge of processing user signups")))])); ((u "channels"), (VDict [((u "userSignedup"), (VDict [((u "address"), (VStr (u "user/signedup"))); ((u "messages"), (VDict [((u "UserSignedUp"), (VDict [((u "$ref"), (VStr (u "#/components/messages/UserSignedUp")))]))]))]))])); ((u "operations"), (VDict [((u "sendUserSignedup"), (VDict [((u "action"), (VStr (u "send"))); ((u "channel"), (VDict [((u "$ref"), (VStr (u "#/channels/userSignedup")))])); ((u "messages"), (VList [(VDict [((u "$ref"), (VStr (u "#/channels/userSignedup/messages/UserSignedUp")))])]))]))])); ((u "components"), (VDict [((u "messages"), (VDict [((u "UserSignedUp"), (VDict [((u "payload"), (VDict [((u "type"), (VStr (u "object"))); ((u "properties"), (VDict [((u "displayName"), (VDict [((u "type"), (VStr (u "string"))); ((u "description"), (VStr (u "Name of the user")))])); ((u "email"), (VDict [((u "type"), (VStr (u "string"))); ((u "format"), (VStr (u "email"))); ((u "description"), (VStr (u "Email of the user")))]))]))]))]))]))]))])))];
t "fixtures/yaml_specs/valid/single_file/slack-rtm-asyncapi.yml" [SDo (XNew "AsyncAPI3" (XVal (VDict [((u "asyncapi"), (VStr (u "3.0.0"))); ((u "id"), (VStr (u "wss://wss-primary.slack.com/websocket"))); ((u "info"), (VDict [((u "title"), (VStr (u "Slack Real Time Messaging API"))); ((u "version"), (VStr (u "1.0.0")))])); ((u "servers"), (VDict [((u "production"), (VDict [((u "host"), (VStr (u "slack.com"))); ((u "pathname"), (VStr (u "/api/rtm.connect"))); ((u "protocol"), (VStr (u "https"))); ((u "protocolVersion"), (VStr (u "1.1"))); ((u "security"), (VList [(VDict [((u "$ref"), (VStr (u "#/components/securitySchemes/token")))])]))]))])); ((u "channels"), (VDict [((u "root"), (VDict [((u "address"), (VStr (u "/"))); ((u "messages"), (VDict [((u "outgoingMessage"), (VDict [((u "$ref"), (VStr (u "#/components/messages/outgoingMessage")))])); ((u "hello"), (VDict [((u "$ref"), (VStr (u "#/components/messages/hello")))])); ((u "connectionError"), (VDict [((u "$ref"), (VStr (u "#/components/messages/connectionError")))])); ((u "accountsChanged"), (VDict [((u "$ref"), (VStr (u "#/components/messages/accountsChanged")))])); ((u "botAdded"), (VDict [((u "$ref"), (VStr (u "#/components/messages/botAdded")))])); ((u "botChanged"), (VDict [((u "$ref"), (VStr (u "#/components/messages/botChanged")))])); ((u "channelArchive"), (VDict [((u "$ref"), (VStr (u "#/components/messages/channelArchive")))])); ((u "channelCreated"), (VDict [((u "$ref"), (VStr (u "#/components/messages/channelCreated")))])); ((u "channelDeleted"), (VDict [((u "$ref"), (VStr (u "#/components/messages/channelDeleted")))])); ((u "channelHistoryChanged"), (VDict [((u "$ref"), (VStr (u "#/components/messages/channelHistoryChanged")))])); ((u "channelJoined"), (VDict [((u "$ref"), (VStr (u "#/components/messages/channelJoined")))])); ((u "channelLeft"), (VDict [((u "$ref"), (VStr (u "#/components/messages/channelLeft")))])); ((u "channelMarked"), (VDict [((u "$ref"), (VStr (u "#/components/messages/channelMarked")))])); ((u "channelRename"), (VDict [((u "$ref"), (VStr (u "#/components/messages/channelRename")))])); ((u "channelUnarchive"), (VDict [((u "$ref"), (VStr (u "#/components/messages/channelUnarchive")))])); ((u "commandsChanged"), (VDict [((u "$ref"), (VStr (u "#/components/messages/commandsChanged")))])); ((u "dndUpdated"), (VDict [((u "$ref"), (VStr (u "#/components/messages/dndUpdated")))])); ((u "dndUpdatedUser"), (VDict [((u "$ref"), (VStr (u "#/components/messages/dndUpdatedUser")))])); ((u "emailDomainChanged"), (VDict [((u "$ref"), (VStr (u "#/components/messages/emailDomainChanged")))])); ((u "emojiRemoved"), (VDict [((u "$ref"), (VStr (u "#/components/messages/emojiRemoved")))])); ((u "emojiAdded"), (VDict [((u "$ref"), (VStr (u "#/components/messages/emojiAdded")))])); ((u "fileChange"), (VDict [((u "$ref"), (VStr (u "#/components/messages/fileChange")))])); ((u "fileCommentAdded"), (VDict [((u "$ref"), (VStr (u "#/components/messages/fileCommentAdded")))])); ((u "fileCommentDeleted"), (VDict [((u "$ref"), (VStr (u "#/components/messages/fileCommentDeleted")))])); ((u "fileCommentEdited"), (VDict [((u "$ref"), (VStr (u "#/components/messages/fileCommentEdited")))])); ((u "fileCreated"), (VDict [((u "$ref"), (VStr (u "#/components/messages/fileCreated")))])); ((u "fileDeleted"), (VDict [((u "$ref"), (VStr (u "#/components/messages/fileDeleted")))])); ((u "filePublic"), (VDict [((u "$ref"), (VStr (u "#/components/messages/filePublic")))])); ((u "fileShared"), (VDict [((u "$ref"), (VStr (u "#/components/messages/fileShared")))])); ((u "fileUnshared"), (VDict [((u "$ref"), (VStr (u "#/components/messages/fileUnshared")))])); ((u "goodbye"), (VDict [((u "$ref"), (VStr (u "#/components/messages/goodbye")))])); ((u "groupArchive"), (VDict [((u "$ref"), (VStr (u "#/components/messages/groupArchive")))])); ((u "groupClose"), (VDict [((u "$ref"), (VStr (u "#/components/messages/groupClose")))])); ((u "groupHistoryChanged"), (VDict [((u "$ref"), (VStr (u "#/components/messages/groupHistoryChanged")))])); ((u "groupJoined"), (VDict [((u "$ref"), (VStr (u "#/components/messages/groupJoined")))])); ((u "groupLeft"), (VDict [((u "$ref"), (VStr (u "#/components/messages/groupLeft")))])); ((u "groupMarked"), (VDict [((u "$ref"), (VStr (u "#/components/messages/groupMarked")))])); ((u "groupOpen"), (VDict [((u "$ref"), (VStr (u "#/components/messages/groupOpen")))])); ((u "groupRename"), (VDict [((u "$ref"), (VStr (u "#/components/messages/groupRename")))])); ((u "groupUnarchive"), (VDict [((u "$ref"), (VStr (u "#/components/messages/groupUnarchive")))])); ((u "imClose"), (VDict [((u "$ref"), (VStr (u "#/components/messages/imClose")))])); ((u "imCreated"), (VDict [((u "$ref"), (VStr (u "#/components/messages/imCreated")))])); ((u "imMarked"), (VDict [((u "$ref"), (VStr (u "#/components/messages/imMarked")))])); ((u "imOpen"), (VDict [((u "$ref"), (VStr (u "#/components/messages/imOpen")))])); ((u "manualPresenceChange"), (VDict [((u "$ref"), (VStr (u "#/components/messages/manualPresenceChange")))])); ((u "memberJoinedChannel"), (VDict [((u "$ref"), (VStr (u "#/components/messages/memberJoinedChannel")))])); ((u "message"), (VDict [((u "$ref"), (VStr (u "#/components/messages/message")))]))]))]))])); ((u "operations"), (VDict [((u "receiveOutgoingMessage"), (VDict [((u "action"), (VStr (u "receive"))); ((u "channel"), (VDict [((u "$ref"), (VStr (u "#/channels/root")))])); ((u "messages"), (VList [(VDict [((u "$ref"), (VStr (u "#/channels/root/messages/outgoingMessage")))])]))])); ((u "sendMessages"), (VDict [((u "action"), (VStr (u "send"))); ((u "channel"), (VDict [((u "$ref"), (VStr (u "#/channels/root")))])); ((u "messages"), (VList [(VDict [((u "$ref"), (VStr (u "#/channels/root/messages/hello")))]); (VDict [((u "$ref"), (VStr (u "#/channels/root/messages/connectionError")))]); (VDict [((u "$ref"), (VStr (u "#/channels/root/messages/accountsChanged")))]); (VDict [((u "$ref"), (VStr (u "#/channels/root/messages/botAdded")))]); (VDict [((u "$ref"), (VStr (u "#/channels/root/messages/botChanged")))]); (VDict [((u "$ref"), (VStr (u "#/channels/root/messages/channelArchive")))]); (VDict [((u "$ref"), (VStr (u "#/channels/root/messages/channelCreated")))]); (VDict [((u "$ref"), (VStr (u "#/channels/root/messages/channelDeleted")))]); (VDict [((u "$ref"), (VStr (u "#/channels/root/messages/channelHistoryChanged")))]); (VDict [((u "$ref"), (VStr (u "#/channels/root/messages/channelJoined")))]); (VDict [((u "$ref"), (VStr (u "#/channels/root/messages/channelLeft")))]); (VDict [((u "$ref"), (VStr (u "#/channels/root/messages/channelMarked")))]); (VDict [((u "$ref"), (VStr (u "#/channels/root/messages/channelRename")))]); (VDict [((u "$ref"), (VStr (u "#/channels/root/messages/channelUnarchive")))]); (VDict [((u "$ref"), (VStr (u "#/channels/root/messages/commandsChanged")))]); (VDict [((u "$ref"), (VStr (u "#/channels/root/messages/dndUpdated")))]); (VDict [((u "$ref"), (VStr (u "#/channels/root/messages/dndUpdatedUser")))]); (VDict [((u "$ref"), (VStr (u "#/channels/root/messages/emailDomainChanged")))]); (VDict [((u "$ref"), (VStr (u "#/channels/root/messages/emojiRemoved")))]); (VDict [((u "$ref"), (VStr (u "#/channels/root/messages/emojiAdded")))]); (VDict [((u "$ref"), (VStr (u "#/channels/root/messages/fileChange")))]); (VDict [((u "$ref"), (VStr (u "#/channels/root/messages/fileCommentAdded")))]); (VDict [((u "$ref"), (VStr (u "#/channels/root/messages/fileCommentDeleted")))]); (VDict [((u "$ref"), (VStr (u "#/channels/root/messages/fileCommentEdited")))]); (VDict [((u "$ref"), (VStr (u "#/channels/root/messages/fileCreated")))]); (VDict [((u "$ref"), (VStr (u "#/channels/root/messages/fileDeleted")))]); (VDict [((u "$ref"), (VStr (u "#/channels/root/messages/filePublic")))]); (VDict [((u "$ref"), (VStr (u "#/channels/root/messages/fileShared")))]); (VDict [((u "$ref"), (VStr (u "#/channels/root/messages/fileUnshared")))]); (VDict [((u "$ref"), (VStr (u "#/channels/root/messages/goodbye")))]); (VDict [((u "$ref"), (VStr (u "#/channels/root/messages/groupArchive")))]); (VDict [((u "$ref"), (VStr (u "#/channels/root/messages/groupClose")))]); (VDict [((u "$ref"), (VStr (u "#/channels/root/messages/groupHistoryChanged")))]); (VDict [((u "$ref"), (VStr (u "#/channels/root/messages/groupJoined")))]); (VDict [((u "$ref"), (VStr (u "#/channels/root/messages/groupLeft")))]); (VDict [((u "$ref"), (VStr (u "#/channels/root/messages/groupMarked")))]); (VDict [((u "$ref"), (VStr (u "#/channels/root/messages/groupOpen")))]); (VDict [((u "$ref"), (VStr (u "#/channels/root/messages/groupRename")))]); (VDict [((u "$ref"), (VStr (u "#/channels/root/messages/groupUnarchive")))]); (VDict [((u "$ref"), (VStr (u "#/channels/root/messages/imClose")))]); (VDict [((u "$ref"), (VStr (u "#/channels/root/messages/imCreated")))]); (VDict [((u "$ref"), (VStr (u "#/channels/root/messages/imMarked")))]); (VDict [((u "$ref"), (VStr (u "#/channels/root/messages/imOpen")))]); (VDict [((u "$ref"), (VStr (u "#/channels/root/messages/manualPresenceChange")))]); (VDict [((u "$ref"), (VStr (u "#/channels/root/messages/memberJoinedChannel")))]); (VDict [((u "$ref"), (VStr (u "#/channels/root/messages/message")))])]))]))])); ((u "components"), (VDict [((u "securitySchemes"), (VDict [((u "token"), (VDict [((u "type"), (VStr (u "httpApiKey"))); ((u "name"), (VStr (u "token"))); ((u "in"), (VStr (u "query")))]))])); ((u "schemas"), (VDict [((u "attachment"), (VDict [((u "type"), (VStr (u "object"))); ((u "properties"), (VDict [((u "fallback"), (VDict [((u "type"), (VStr (u "string")))])); ((u "color"), (VDict [((u "type"), (VStr (u "string")))])); ((u "pretext"), (VDict [((u "type"), (VStr (u "string")))])); ((u "author_name"), (VDict [((u "type"), (VStr (u "string")))])); ((u "author_link"), (VDict [((u "type"), (VStr (u "string"))); ((u "format"), (VStr (u "uri")))])); ((u "author_icon"), (VDict [((u "type"), (VStr (u "string"))); ((u "format"), (VStr (u "uri")))])); ((u "title"), (VDict [((u "type"), (VStr (u "string")))])); ((u "title_link"), (VDict [((u "type"), (VStr (u "string"))); ((u "format"), (VStr (u "uri")))])); ((u "text"), (VDict [((u "type"), (VStr (u "string")))])); ((u "fields"), (VDict [((u "type"), (VStr (u "array"))); ((u "items"), (VDict [((u "type"), (VStr (u "object"))); ((u "properties"), (VDict [((u "title"), (VDict [((u "type"), (VStr (u "string")))])); ((u "value"), (VDict [((u "type"), (VStr (u "string")))])); ((u "short"), (VDict [((u "type"), (VStr (u "boolean")))]))]))]))])); ((u "image_url"), (VDict [((u "type"), (VStr (u "string"))); ((u "format"), (VStr (u "uri")))])); ((u "thumb_url"), (VDict [((u "type"), (VStr (u "string"))); ((u "format"), (VStr (u "uri")))])); ((u "footer"), (VDict [((u "type"), (VStr (u "string")))])); ((u "footer_icon"), (VDict [((u "type"), (VStr (u "string"))); ((u "format"), (VStr (u "uri")))])); ((u "ts"), (VDict [((u "type"), (VStr (u "number")))]))]))]))])); ((u "messages"), (VDict [((u "hello"), (VDict [((u "summary"), (VStr (u "First event received upon connection."))); ((u "payload"), (VDict [((u "type"), (VStr (u "object"))); ((u "properties"), (VDict [((u "type"), (VDict [((u "type"), (VStr (u "string"))); ((u "enum"), (VList [(VStr (u "hello"))]))]))]))]))])); ((u "connectionError"), (VDict [((u "summary"), (VStr (u "Event received when a connection error happens."))); ((u "payload"), (VDict [((u "type"), (VStr (u "object"))); ((u "properties"), (VDict [((u "type"), (VDict [((u "type"), (VStr (u "string"))); ((u "enum"), (VList [(VStr (u "error"))]))])); ((u "error"), (VDict [((u "type"), (VStr (u "object"))); ((u "properties"), (VDict [((u "code"), (VDict [((u "type"), (VStr (u "number")))])); ((u "msg"), (VDict [((u "type"), (VStr (u "string")))]))]))]))]))]))])); ((u "accountsChanged"), (VDict [((u "summary"), (VStr (u "The list of accounts a user is signed into has changed."))); ((u "payload"), (VDict [((u "type"), (VStr (u "object"))); ((u "properties"), (VDict [((u "type"), (VDict [((u "type"), (VStr (u "string"))); ((u "enum"), (VList [(VStr (u "accounts_changed"))]))]))]))]))])); ((u "botAdded"), (VDict [((u "summary"), (VStr (u "A bot user was added."))); ((u "payload"), (VDict [((u "type"), (VStr (u "object"))); ((u "properties"), (VDict [((u "type"), (VDict [((u "type"), (VStr (u "string"))); ((u "enum"), (VList [(VStr (u "bot_added"))]))])); ((u "bot"), (VDict [((u "type"), (VStr (u "object"))); ((u "properties"), (VDict [((u "id"), (VDict [((u "type"), (VStr (u "string")))])); ((u "app_id"), (VDict [((u "type"), (VStr (u "string")))])); ((u "name"), (VDict [((u "type"), (VStr (u "string")))])); ((u "icons"), (VDict [((u "type"), (VStr (u "object"))); ((u "additionalProperties"), (VDict [((u "type"), (VStr (u "string")))]))]))]))]))]))]))])); ((u "botChanged"), (VDict [((u "summary"), (VStr (u "A bot user was changed."))); ((u "payload"), (VDict [((u "type"), (VStr (u "object"))); ((u "properties"), (VDict [((u "type"), (VDict [((u "type"), (VStr (u "string"))); ((u "enum"), (VList [(VStr (u "bot_added"))]))])); ((u "bot"), (VDict [((u "type"), (VStr (u "object"))); ((u "properties"), (VDict [((u "id"), (VDict [((u "type"), (VStr (u "string")))])); ((u "app_id"), (VDict [((u "type"), (VStr (u "string")))])); ((u "name"), (VDict [((u "type"), (VStr (u "string")))])); ((u "icons"), (VDict [((u "type"), (VStr (u "object"))); ((u "additionalProperties"), (VDict [((u "type"), (VStr (u "string")))]))]))]))]))]))]))])); ((u "channelArchive"), (VDict [((u "summary"), (VStr (u "A channel was archived."))); ((u "payload"), (VDict [((u "type"), (VStr (u "object"))); ((u "properties"), (VDict [((u "type"), (VDict [((u "type"), (VStr (u "string"))); ((u "enum"), (VList [(VStr (u "channel_archive"))]))])); ((u "channel"), (VDict [((u "type"), (VStr (u "string")))])); ((u "user"), (VDict [((u "type"), (VStr (u "string")))]))]))]))])); ((u "channelCreated"), (VDict [((u "summary"), (VStr (u "A channel was created."))); ((u "payload"), (VDict [((u "type"), (VStr (u "object"))); ((u "properties"), (VDict [((u "type"), (VDict [((u "type"), (VStr (u "string"))); ((u "enum"), (VList [(VStr (u "channel_created"))]))])); ((u "channel"), (VDict [((u "type"), (VStr (u "object"))); ((u "properties"), (VDict [((u "id"), (VDict [((u "type"), (VStr (u "string")))])); ((u "name"), (VDict [((u "type"), (VStr (u "string")))])); ((u "created"), (VDict [((u "type"), (VStr (u "number")))])); ((u "creator"), (VDict [((u "type"), (VStr (u "string")))]))]))]))]))]))])); ((u "channelDeleted"), (VDict [((u "summary"), (VStr (u "A channel was deleted."))); ((u "payload"), (VDict [((u "type"), (VStr (u "object"))); ((u "properties"), (VDict [((u "type"), (VDict [((u "type"), (VStr (u "string"))); ((u "enum"), (VList [(VStr (u "channel_deleted"))]))])); ((u "channel"), (VDict [((u "type"), (VStr (u "string")))]))]))]))])); ((u "channelHistoryChanged"), (VDict [((u "summary"), (VStr (u "Bulk updates were made to a channel's history."))); ((u "payload"), (VDict [((u "type"), (VStr (u "object"))); ((u "properties"), (VDict [((u "type"), (VDict [((u "type"), (VStr (u "string"))); ((u "enum"), (VList [(VStr (u "channel_history_changed"))]))])); ((u "latest"), (VDict [((u "type"), (VStr (u "string")))])); ((u "ts"), (VDict [((u "type"), (VStr (u "string")))])); ((u "event_ts"), (VDict [((u "type"), (VStr (u "string")))]))]))]))])); ((u "channelJoined"), (VDict [((u "summary"), (VStr (u "You joined a channel."))); ((u "payload"), (VDict [((u "type"), (VStr (u "object"))); ((u "properties"), (VDict [((u "type"), (VDict [((u "type"), (VStr (u "string"))); ((u "enum"), (VList [(VStr (u "channel_joined"))]))])); ((u "channel"), (VDict [((u "type"), (VStr (u "object"))); ((u "properties"), (VDict [((u "id"), (VDict [((u "type"), (VStr (u "string")))])); ((u "name"), (VDict [((u "type"), (VStr (u "string")))])); ((u "created"), (VDict [((u "type"), (VStr (u "number")))])); ((u "creator"), (VDict [((u "type"), (VStr (u "string")))]))]))]))]))]))])); ((u "channelLeft"), (VDict [((u "summary"), (VStr (u "You left a channel."))); ((u "payload"), (VDict [((u "type"), (VStr (u "object"))); ((u "properties"), (VDict [((u "type"), (VDict [((u "type"), (VStr (u "string"))); ((u "enum"), (VList [(VStr (u "channel_left"))]))])); ((u "channel"), (VDict [((u "type"), (VStr (u "string")))]))]))]))])); ((u "channelMarked"), (VDict [((u "summary"), (VStr (u "Your channel read marker was updated."))); ((u "payload"), (VDict [((u "type"), (VStr (u "object"))); ((u "properties"), (VDict [((u "type"), (VDict [((u "type"), (VStr (u "string"))); ((u "enum"), (VList [(VStr (u "channel_marked"))]))])); ((u "channel"), (VDict [((u "type"), (VStr (u "string")))])); ((u "ts"), (VDict [((u "type"), (VStr (u "string")))]))]))]))])); ((u "channelRename"), (VDict [((u "summary"), (VStr (u "A channel was renamed."))); ((u "payload"), (VDict [((u "type"), (VStr (u "object"))); ((u "properties"), (VDict [((u "type"), (VDict [((u "type"), (VStr (u "string"))); ((u "enum"), (VList [(VStr (u "channel_rename"))]))])); ((u "channel"), (VDict [((u "type"), (VStr (u "object"))); ((u "properties"), (VDict [((u "id"), (VDict [((u "type"), (VStr (u "string")))])); ((u "name"), (VDict [((u "type"), (VStr (u "string")))])); ((u "created"), (VDict [((u "type"), (VStr (u "number")))]))]))]))]))]))])); ((u "channelUnarchive"), (VDict [((u "summary"), (VStr (u "A channel was unarchived."))); ((u "payload"), (VDict [((u "type"), (VStr (u "object"))); ((u "properties"), (VDict [((u "type"), (VDict [((u "type"), (VStr (u "string"))); ((u "enum"), (VList [(VStr (u "channel_unarchive"))]))])); ((u "channel"), (VDict [((u "type"), (VStr (u "string")))])); ((u "user"), (VDict [((u "type"), (VStr (u "string")))]))]))]))])); ((u "commandsChanged"), (VDict [((u "summary"), (VStr (u "A slash command has been added or changed."))); ((u "payload"), (VDict [((u "type"), (VStr (u "object"))); ((u "properties"), (VDict [((u "type"), (VDict [((u "type"), (VStr (u "string"))); ((u "enum"), (VList [(VStr (u "commands_changed"))]))])); ((u "event_ts"), (VDict [((u "type"), (VStr (u "string")))]))]))]))])); ((u "dndUpdated"), (VDict [((u "summary"), (VStr (u "Do not Disturb settings changed for the current user."))); ((u "payload"), (VDict [((u "type"), (VStr (u "object"))); ((u "properties"), (VDict [((u "type"), (VDict [((u "type"), (VStr (u "string"))); ((u "enum"), (VList [(VStr (u "dnd_updated"))]))])); ((u "user"), (VDict [((u "type"), (VStr (u "string")))])); ((u "dnd_status"), (VDict [((u "type"), (VStr (u "object"))); ((u "properties"), (VDict [((u "dnd_enabled"), (VDict [((u "type"), (VStr (u "boolean")))])); ((u "next_dnd_start_ts"), (VDict [((u "type"), (VStr (u "number")))])); ((u "next_dnd_end_ts"), (VDict [((u "type"), (VStr (u "number")))])); ((u "snooze_enabled"), (VDict [((u "type"), (VStr (u "boolean")))])); ((u "snooze_endtime"), (VDict [((u "type"), (VStr (u "number")))]))]))]))]))]))])); ((u "dndUpdatedUser"), (VDict [((u "summary"), (VStr (u "Do not Disturb settings changed for a member."))); ((u "payload"), (VDict [((u "type"), (VStr (u "object"))); ((u "properties"), (VDict [((u "type"), (VDict [((u "type"), (VStr (u "string"))); ((u "enum"), (VList [(VStr (u "dnd_updated_user"))]))])); ((u "user"), (VDict [((u "type"), (VStr (u "string")))])); ((u "dnd_status"), (VDict [((u "type"), (VStr (u "object"))); ((u "properties"), (VDict [((u "dnd_enabled"), (VDict [((u "type"), (VStr (u "boolean")))])); ((u "next_dnd_start_ts"), (VDict [((u "type"), (VStr (u "number")))])); ((u "next_dnd_end_ts"), (VDict [((u "type"), (VStr (u "number")))]))]))]))]))]))])); ((u "emailDomainChanged"), (VDict [((u "summary"), (VStr (u "The workspace email domain has changed."))); ((u "payload"), (VDict [((u "type"), (VStr (u "object"))); ((u "properties"), (VDict [((u "type"), (VDict [((u "type"), (VStr (u "string"))); ((u "enum"), (VList [(VStr (u "email_domain_changed"))]))])); ((u "email_domain"), (VDict [((u "type"), (VStr (u "string")))])); ((u "event_ts"), (VDict [((u "type"), (VStr (u "string")))]))]))]))])); ((u "emojiRemoved"), (VDict [((u "summary"), (VStr (u "A custom emoji has been removed."))); ((u "payload"), (VDict [((u "type"), (VStr (u "object"))); ((u "properties"), (VDict [((u "type"), (VDict [((u "type"), (VStr (u "string"))); ((u "enum"), (VList [(VStr (u "emoji_changed"))]))])); ((u "subtype"), (VDict [((u "type"), (VStr (u "string"))); ((u "enum"), (VList [(VStr (u "remove"))]))])); ((u "names"), (VDict [((u "type"), (VStr (u "array"))); ((u "items"), (VDict [((u "type"), (VStr (u "string")))]))])); ((u "event_ts"), (VDict [((u "type"), (VStr (u "string")))]))]))]))])); ((u "emojiAdded"), (VDict [((u "summary"), (VStr (u "A custom emoji has been added."))); ((u "payload"), (VDict [((u "type"), (VStr (u "object"))); ((u "properties"), (VDict [((u "type"), (VDict [((u "type"), (VStr (u "string"))); ((u "enum"), (VList [(VStr (u "emoji_changed"))]))])); ((u "subtype"), (VDict [((u "type"), (VStr (u "string"))); ((u "enum"), (VList [(VStr (u "add"))]))])); ((u "name"), (VDict [((u "type"), (VStr (u "string")))])); ((u "value"), (VDict [((u "type"), (VStr (u "string"))); ((u "format"), (VStr (u "uri")))])); ((u "event_ts"), (VDict [((u "type"), (VStr (u "string")))]))]))]))])); ((u "fileChange"), (VDict [((u "summary"), (VStr (u "A file was changed."))); ((u "payload"), (VDict [((u "type"), (VStr (u "object"))); ((u "properties"), (VDict [((u "type"), (VDict [((u "type"), (VStr (u "string"))); ((u "enum"), (VList [(VStr (u "file_change"))]))])); ((u "file_id"), (VDict [((u "type"), (VStr (u "string")))])); ((u "file"), (VDict [((u "type"), (VStr (u "object"))); ((u "properties"), (VDict [((u "id"), (VDict [((u "type"), (VStr (u "string")))]))]))]))]))]))])); ((u "fileCommentAdded"), (VDict [((u "summary"), (VStr (u "A file comment was added."))); ((u "payload"), (VDict [((u "type"), (VStr (u "object"))); ((u "properties"), (VDict [((u "type"), (VDict [((u "type"), (VStr (u "string"))); ((u "enum"), (VList [(VStr (u "file_comment_added"))]))])); ((u "comment"), (VDict [])); ((u "file_id"), (VDict [((u "type"), (VStr (u "string")))])); ((u "file"), (VDict [((u "type"), (VStr (u "object"))); ((u "properties"), (VDict [((u "id"), (VDict [((u "type"), (VStr (u "string")))]))]))]))]))]))])); ((u "fileCommentDeleted"), (VDict [((u "summary"), (VStr (u "A file comment was deleted."))); ((u "payload"), (VDict [((u "type"), (VStr (u "object"))); ((u "properties"), (VDict [((u "type"), (VDict [((u "type"), (VStr (u "string"))); ((u "enum"), (VList [(VStr (u "file_comment_deleted"))]))])); ((u "comment"), (VDict [((u "type"), (VStr (u "string")))])); ((u "file_id"), (VDict [((u "type"), (VStr (u "string")))])); ((u "file"), (VDict [((u "type"), (VStr (u "object"))); ((u "properties"), (VDict [((u "id"), (VDict [((u "type"), (VStr (u "string")))]))]))]))]))]))])); ((u "fileCommentEdited"), (VDict [((u "summary"), (VStr (u "A file comment was edited."))); ((u "payload"), (VDict [((u "type"), (VStr (u "object"))); ((u "properties"), (VDict [((u "type"), (VDict [((u "type"), (VStr (u "string"))); ((u "enum"), (VList [(VStr (u "file_comment_edited"))]))])); ((u "comment"), (VDict [])); ((u "file_id"), (VDict [((u "type"), (VStr (u "string")))])); ((u "file"), (VDict [((u "type"), (VStr (u "object"))); ((u "properties"), (VDict [((u "id"), (VDict [((u "type"), (VStr (u "string")))]))]))]))]))]))])); ((u "fileCreated"), (VDict [((u "summary"), (VStr (u "A file was created."))); ((u "payload"), (VDict [((u "type"), (VStr (u "object"))); ((u "properties"), (VDict [((u "type"), (VDict [((u "type"), (VStr (u "string"))); ((u "enum"), (VList [(VStr (u "file_created"))]))])); ((u "file_id"), (VDict [((u "type"), (VStr (u "string")))])); ((u "file"), (VDict [((u "type"), (VStr (u "object"))); ((u "properties"), (VDict [((u "id"), (VDict [((u "type"), (VStr (u "string")))]))]))]))]))]))])); ((u "fileDeleted"), (VDict [((u "summary"), (VStr (u "A file was deleted."))); ((u "payload"), (VDict [((u "type"), (VStr (u "object"))); ((u "properties"), (VDict [((u "type"), (VDict [((u "type"), (VStr (u "string"))); ((u "enum"), (VList [(VStr (u "file_deleted"))]))])); ((u "file_id"), (VDict [((u "type"), (VStr (u "string")))])); ((u "event_ts"), (VDict [((u "type"), (VStr (u "string")))]))]))]))])); ((u "filePublic"), (VDict [((u "summary"), (VStr (u "A file was made public."))); ((u "payload"), (VDict [((u "type"), (VStr (u "object"))); ((u "properties"), (VDict [((u "type"), (VDict [((u "type"), (VStr (u "string"))); ((u "enum"), (VList [(VStr (u "file_public"))]))])); ((u "file_id"), (VDict [((u "type"), (VStr (u "string")))])); ((u "file"), (VDict [((u "type"), (VStr (u "object"))); ((u "properties"), (VDict [((u "id"), (VDict [((u "type"), (VStr (u "string")))]))]))]))]))]))])); ((u "fileShared"), (VDict [((u "summary"), (VStr (u "A file was shared."))); ((u "payload"), (VDict [((u "type"), (VStr (u "object"))); ((u "properties"), (VDict [((u "type"), (VDict [((u "type"), (VStr (u "string"))); ((u "enum"), (VList [(VStr (u "file_shared"))]))])); ((u "file_id"), (VDict [((u "type"), (VStr (u "string")))])); ((u "file"), (VDict [((u "type"), (VStr (u "object"))); ((u "properties"), (VDict [((u "id"), (VDict [((u "type"), (VStr (u "string")))]))]))]))]))]))])); ((u "fileUnshared"), (VDict [((u "summary"), (VStr (u "A file was unshared."))); ((u "payload"), (VDict [((u "type"), (VStr (u "object"))); ((u "properties"), (VDict [((u "type"), (VDict [((u "type"), (VStr (u "string"))); ((u "enum"), (VList [(VStr (u "file_unshared"))]))])); ((u "file_id"), (VDict [((u "type"), (VStr (u "string")))])); ((u "file"), (VDict [((u "type"), (VStr (u "object"))); ((u "properties"), (VDict [((u "id"), (VDict [((u "type"), (VStr (u "string")))]))]))]))]))]))])); ((u "goodbye"), (VDict [((u "summary"), (VStr (u "The server intends to close the connection soon."))); ((u "payload"), (VDict [((u "type"), (VStr (u "object"))); ((u "properties"), (VDict [((u "type"), (VDict [((u "type"), (VStr (u "string"))); ((u "enum"), (VList [(VStr (u "goodbye"))]))]))]))]))])); ((u "groupArchive"), (VDict [((u "summary"), (VStr (u "A private channel was archived."))); ((u "payload"), (VDict [((u "type"), (VStr (u "object"))); ((u "properties"), (VDict [((u "type"), (VDict [((u "type"), (VStr (u "string"))); ((u "enum"), (VList [(VStr (u "group_archive"))]))])); ((u "channel"), (VDict [((u "type"), (VStr (u "string")))]))]))]))])); ((u "groupClose"), (VDict [((u "summary"), (VStr (u "You closed a private channel."))); ((u "payload"), (VDict [((u "type"), (VStr (u "object"))); ((u "properties"), (VDict [((u "type"), (VDict [((u "type"), (VStr (u "string"))); ((u "enum"), (VList [(VStr (u "group_close"))]))])); ((u "user"), (VDict [((u "type"), (VStr (u "string")))])); ((u "channel"), (VDict [((u "type"), (VStr (u "string")))]))]))]))])); ((u "groupHistoryChanged"), (VDict [((u "summary"), (VStr (u "Bulk updates were made to a private channel's history."))); ((u "payload"), (VDict [((u "type"), (VStr (u "object"))); ((u "properties"), (VDict [((u "type"), (VDict [((u "type"), (VStr (u "string"))); ((u "enum"), (VList [(VStr (u "group_history_changed"))]))])); ((u "latest"), (VDict [((u "type"), (VStr (u "string")))])); ((u "ts"), (VDict [((u "type"), (VStr (u "string")))])); ((u "event_ts"), (VDict [((u "type"), (VStr (u "string")))]))]))]))])); ((u "groupJoined"), (VDict [((u "summary"), (VStr (u "You joined a private channel."))); ((u "payload"), (VDict [((u "type"), (VStr (u "object"))); ((u "properties"), (VDict [((u "type"), (VDict [((u "type"), (VStr (u "string"))); ((u "enum"), (VList [(VStr (u "group_joined"))]))])); ((u "channel"), (VDict [((u "type"), (VStr (u "object"))); ((u "properties"), (VDict [((u "id"), (VDict [((u "type"), (VStr (u "string")))])); ((u "name"), (VDict [((u "type"), (VStr (u "string")))])); ((u "created"), (VDict [((u "type"), (VStr (u "number")))])); ((u "creator"), (VDict [((u "type"), (VStr (u "string")))]))]))]))]))]))])); ((u "groupLeft"), (VDict [((u "summary"), (VStr (u "You left a private channel."))); ((u "payload"), (VDict [((u "type"), (VStr (u "object"))); ((u "properties"), (VDict [((u "type"), (VDict [((u "type"), (VStr (u "string"))); ((u "enum"), (VList [(VStr (u "group_left"))]))])); ((u "channel"), (VDict [((u "type"), (VStr (u "string")))]))]))]))])); ((u "groupMarked"), (VDict [((u "summary"), (VStr (u "A private channel read marker was updated."))); ((u "payload"), (VDict [((u "type"), (VStr (u "object"))); ((u "properties"), (VDict [((u "type"), (VDict [((u "type"), (VStr (u "string"))); ((u "enum"), (VList [(VStr (u "group_marked"))]))])); ((u "channel"), (VDict [((u "type"), (VStr (u "string")))])); ((u "ts"), (VDict [((u "type"), (VStr (u "string")))]))]))]))])); ((u "groupOpen"), (VDict [((u "summary"), (VStr (u "You opened a private channel."))); ((u "payload"), (VDict [((u "type"), (VStr (u "object"))); ((u "properties"), (VDict [((u "type"), (VDict [((u "type"), (VStr (u "string"))); ((u "enum"), (VList [(VStr (u "group_open"))]))])); ((u "user"), (VDict [((u "type"), (VStr (u "string")))])); ((u "channel"), (VDict [((u "type"), (VStr (u "string")))]))]))]))])); ((u "groupRename"), (VDict [((u "summary"), (VStr (u "A private channel was renamed."))); ((u "payload"), (VDict [((u "type"), (VStr (u "object"))); ((u "properties"), (VDict [((u "type"), (VDict [((u "type"), (VStr (u "string"))); ((u "enum"), (VList [(VStr (u "group_rename"))]))])); ((u "channel"), (VDict [((u "type"), (VStr (u "object"))); ((u "properties"), (VDict [((u "id"), (VDict [((u "type"), (VStr (u "string")))])); ((u "name"), (VDict [((u "type"), (VStr (u "string")))])); ((u "created"), (VDict [((u "type"), (VStr (u "number")))]))]))]))]))]))])); ((u "groupUnarchive"), (VDict [((u "summary"), (VStr (u "A private channel was unarchived."))); ((u "payload"), (VDict [((u "type"), (VStr (u "object"))); ((u "properties"), (VDict [((u "type"), (VDict [((u "type"), (VStr (u "string"))); ((u "enum"), (VList [(VStr (u "group_unarchive"))]))])); ((u "channel"), (VDict [((u "type"), (VStr (u "string")))])); ((u "user"), (VDict [((u "type"), (VStr (u "string")))]))]))]))])); ((u "imClose"), (VDict [((u "summary"), (VStr (u "You closed a DM."))); ((u "payload"), (VDict [((u "type"), (VStr (u "object"))); ((u "properties"), (VDict [((u "type"), (VDict [((u "type"), (VStr (u "string"))); ((u "enum"), (VList [(VStr (u "im_close"))]))])); ((u "channel"), (VDict [((u "type"), (VStr (u "string")))])); ((u "user"), (VDict [((u "type"), (VStr (u "string")))]))]))]))])); ((u "imCreated"), (VDict [((u "summary"), (VStr (u "A DM was created."))); ((u "payload"), (VDict [((u "type"), (VStr (u "object"))); ((u "properties"), (VDict [((u "type"), (VDict [((u "type"), (VStr (u "string"))); ((u "enum"), (VList [(VStr (u "im_created"))]))])); ((u "channel"), (VDict [((u "type"), (VStr (u "object"))); ((u "properties"), (VDict [((u "id"), (VDict [((u "type"), (VStr (u "string")))])); ((u "name"), (VDict [((u "type"), (VStr (u "string")))])); ((u "created"), (VDict [((u "type"), (VStr (u "number")))])); ((u "creator"), (VDict [((u "type"), (VStr (u "string")))]))]))])); ((u "user"), (VDict [((u "type"), (VStr (u "string")))]))]))]))])); ((u "imMarked"), (VDict [((u "summary"), (VStr (u "A direct message read marker was updated."))); ((u "payload"), (VDict [((u "type"), (VStr (u "object"))); ((u "properties"), (VDict [((u "type"), (VDict [((u "type"), (VStr (u "string"))); ((u "enum"), (VList [(VStr (u "im_marked"))]))])); ((u "channel"), (VDict [((u "type"), (VStr (u "string")))])); ((u "ts"), (VDict [((u "type"), (VStr (u "string")))]))]))]))])); ((u "imOpen"), (VDict [((u "summary"), (VStr (u "You opened a DM."))); ((u "payload"), (VDict [((u "type"), (VStr (u "object"))); ((u "properties"), (VDict [((u "type"), (VDict [((u "type"), (VStr (u "string"))); ((u "enum"), (VList [(VStr (u "im_open"))]))])); ((u "channel"), (VDict [((u "type"), (VStr (u "string")))])); ((u "user"), (VDict [((u "type"), (VStr (u "string")))]))]))]))])); ((u "manualPresenceChange"), (VDict [((u "summary"), (VStr (u "You manually updated your presence."))); ((u "payload"), (VDict [((u "type"), (VStr (u "object"))); ((u "properties"), (VDict [((u "type"), (VDict [((u "type"), (VStr (u "string"))); ((u "enum"), (VList [(VStr (u "manual_presence_change"))]))])); ((u "presence"), (VDict [((u "type"), (VStr (u "string")))]))]))]))])); ((u "memberJoinedChannel"), (VDict [((u "summary"), (VStr (u "A user joined a public or private channel."))); ((u "payload"), (VDict [((u "type"), (VStr (u "object"))); ((u "properties"), (VDict [((u "type"), (VDict [((u "type"), (VStr (u "string"))); ((u "enum"), (VList [(VStr (u "member_joined_channel"))]))])); ((u "user"), (VDict [((u "type"), (VStr (u "string")))])); ((u "channel"), (VDict [((u "type"), (VStr (u "string")))])); ((u "channel_type"), (VDict [((u "type"), (VStr (u "string"))); ((u "enum"), (VList [(VStr (u "C")); (VStr (u "G"))]))])); ((u "team"), (VDict [((u "type"), (VStr (u "string")))])); ((u "inviter"), (VDict [((u "type"), (VStr (u "string")))]))]))]))])); ((u "memberLeftChannel"), (VDict [((u "summary"), (VStr (u "A user left a public or private channel."))); ((u "payload"), (VDict [((u "type"), (VStr (u "object"))); ((u "properties"), (VDict [((u "type"), (VDict [((u "type"), (VStr (u "string"))); ((u "enum"), (VList [(VStr (u "member_left_channel"))]))])); ((u "user"), (VDict [((u "type"), (VStr (u "string")))])); ((u "channel"), (VDict [((u "type"), (VStr (u "string")))])); ((u "channel_type"), (VDict [((u "type"), (VStr (u "string"))); ((u "enum"), (VList [(VStr (u "C")); (VStr (u "G"))]))])); ((u "team"), (VDict [((u "type"), (VStr (u "string")))]))]))]))])); ((u "message"), (VDict [((u "summary"), (VStr (u "A message was sent to a channel."))); ((u "payload"), (VDict [((u "type"), (VStr (u "object"))); ((u "properties"), (VDict [((u "type"), (VDict [((u "type"), (VStr (u "string"))); ((u "enum"), (VList [(VStr (u "message"))]))])); ((u "user"), (VDict [((u "type"), (VStr (u "string")))])); ((u "channel"), (VDict [((u "type"), (VStr (u "string")))])); ((u "text"), (VDict [((u "type"), (VStr (u "string")))])); ((u "ts"), (VDict [((u "type"), (VStr (u "string")))])); ((u "attachments"), (VDict [((u "type"), (VStr (u "array"))); ((u "items"), (VDict [((u "$ref"), (VStr (u "#/components/schemas/attachment")))]))])); ((u "edited"), (VDict [((u "type"), (VStr (u "object"))); ((u "properties"), (VDict [((u "user"), (VDict [((u "type"), (VStr (u "string")))])); ((u "ts"), (VDict [((u "type"), (VStr (u "string")))]))]))]))]))]))])); ((u "outgoingMessage"), (VDict [((u "summary"), (VStr (u "A message was sent to a channel."))); ((u "payload"), (VDict [((u "type"), (VStr (u "object"))); ((u "properties"), (VDict [((u "id"), (VDict [((u "type"), (VStr (u "number")))])); ((u "type"), (VDict [((u "type"), (VStr (u "string"))); ((u "enum"), (VList [(VStr (u "message"))]))])); ((u "channel"), (VDict [((u "type"), (VStr (u "string")))])); ((u "text"), (VDict [((u "type"), (VStr (u "string")))]))]))]))]))]))]))])))];
t "fixtures/yaml_specs/valid/single_file/streetlights-kafka-asyncapi.yml" [SDo (XNew "AsyncAPI3" (XVal (VDict [((u "asyncapi"), (VStr (u "3.0.0"))); ((u "info"), (VDict [((u "title"), (VStr (u "Streetlights Kafka API"))); ((u "version"), (VStr (u "1.0.0"))); ((u "description"), (VStr [84; 104; 101; 32; 83; 109; 97; 114; 116; 121; 108; 105; 103; 104; 116; 105; 110; 103; 32; 83; 116; 114; 101; 101; 116; 108; 105; 103; 104; 116; 115; 32; 65; 80; 73; 32; 97; 108; 108; 111; 119; 115; 32; 121; 111; 117; 32; 116; 111; 32; 114; 101; 109; 111; 116; 101; 108; 121; 32; 109; 97; 110; 97; 103; 101; 32; 116; 104; 101; 32; 99; 105; 116; 121; 32; 108; 105; 103; 104; 116; 115; 46; 10; 10; 35; 35; 35; 32; 67; 104; 101; 99; 107; 32; 111; 117; 116; 32; 105; 116; 115; 32; 97; 119; 101; 115; 111; 109; 101; 32; 102; 101; 97; 116; 117; 114; 101; 115; 58; 10; 10; 42; 32; 84; 117; 114; 110; 32; 97; 32; 115; 112; 101; 99; 105; 102; 105; 99; 32; 115; 116; 114; 101; 101; 116; 108; 105; 103; 104; 116; 32; 111; 110; 47; 111; 102; 102; 32; 127747; 10; 42; 32; 68; 105; 109; 32; 97; 32; 115; 112; 101; 99; 105; 102; 105; 99; 32; 115; 116; 114; 101; 101; 116; 108; 105; 103; 104; 116; 32; 128526; 10; 42; 32; 82; 101; 99; 101; 105; 118; 101; 32; 114; 101; 97; 108; 45; 116; 105; 109; 101; 32; 105; 110; 102; 111; 114; 109; 97; 116; 105; 111; 110; 32; 97; 98; 111; 117; 116; 32; 101; 110; 118; 105; 114; 111; 110; 109; 101; 110; 116; 97; 108; 32; 108; 105; 103; 104; 116; 105; 110; 103; 32; 99; 111; 110; 100; 105; 116; 105; 111; 110; 115; 32; 128200; 10]%N)); ((u "license"), (VDict [((u "name"), (VStr (u "Apache 2.0"))); ((u "url"), (VStr (u "https://www.apache.org/licenses/LICENSE-2.0")))]))])); ((u "defaultContentType"), (VStr (u "application/json"))); ((u "servers"), (VDict [((u "scram-connections"), (VDict [((u "host"), (VStr (u "test.mykafkacluster.org:18092"))); ((u "protocol"), (VStr (u "kafka-secure"))); ((u "description"), (VStr (u "Test broker secured with scramSha256"))); ((u "security"), (VList [(VDict [((u "$ref"), (VStr (u "#/components/securitySchemes/saslScram")))])])); ((u "tags"), (VList [(VDict [((u "name"), (VStr (u "env:test-scram"))); ((u "description"), (VStr (u "This environment is meant for running internal tests through scramSha256")))]); (VDict [((u "name"), (VStr (u "kind:remote"))); ((u "description"), (VStr (u "This server is a remote server. Not exposed by the application")))]); (VDict [((u "name"), (VStr (u "visibility:private"))); ((u "description"), (VStr (u "This resource is private and only available to certain users")))])]))])); ((u "mtls-connections"), (VDict [((u "host"), (VStr (u "test.mykafkacluster.org:28092"))); ((u "protocol"), (VStr (u "kafka-secure"))); ((u "description"), (VStr (u "Test broker secured with X509"))); ((u "security"), (VList [(VDict [((u "$ref"), (VStr (u "#/components/securitySchemes/certs")))])])); ((u "tags"), (VList [(VDict [((u "name"), (VStr (u "env:test-mtls"))); ((u "description"), (VStr (u "This environment is meant for running internal tests through mtls")))]); (VDict [((u "name"), (VStr (u "kind:remote"))); ((u "description"), (VStr (u "This server is a remote server. Not exposed by the application")))]); (VDict [((u "name"), (VStr (u "visibility:private"))); ((u "description"), (VStr (u "This resource is private and only available to certain users")))])]))]))])); ((u "channels"), (VDict [((u "lightingMeasured"), (VDict [((u "address"), (VStr (u "smartylighting.streetlights.1.0.event.{streetlightId}.lighting.measured"))); ((u "messages"), (VDict [((u "lightMeasured"), (VDict [((u "$ref"), (VStr (u "#/components/messages/lightMeasured")))]))])); ((u "description"), (VStr (u "The topic on which measured values may be produced and consumed."))); ((u "parameters"), (VDict [((u "streetlightId"), (VDict [((u "$ref"), (VStr (u "#/components/parameters/streetlightId")))]))]))])); ((u "lightTurnOn"), (VDict [((u "address"), (VStr (u "smartylighting.streetlights.1.0.action.{streetlightId}.turn.on"))); ((u "messages"), (VDict [((u "turnOn"), (VDict [((u "$ref"), (VStr (u "#/components/messages/turnOnOff")))]))])); ((u "parameters"), (VDict [((u "streetlightId"), (VDict [((u "$ref"), (VStr (u "#/components/parameters/streetlightId")))]))]))])); ((u "lightTurnOff"), (VDict [((u "address"), (VStr (u "smartylighting.streetlights.1.0.action.{streetlightId}.turn.off"))); ((u "messages"), (VDict [((u "turnOff"), (VDict [((u "$ref"), (VStr (u "#/components/messages/turnOnOff")))]))])); ((u "parameters"), (VDict [((u "streetlightId"), (VDict [((u "$ref"), (VStr (u "#/components/parameters/streetlightId")))]))]))])); ((u "lightsDim"), (VDict [((u "address"), (VStr (u "smartylighting.streetlights.1.0.action.{streetlightId}.dim"))); ((u "messages"), (VDict [((u "dimLight"), (VDict [((u "$ref"), (VStr (u "#/components/messages/dimLight")))]))])); ((u "parameters"), (VDict [((u "streetlightId"), (VDict [((u "$ref"), (VStr (u "#/components/parameters/streetlightId")))]))]))]))])); ((u "operations"), (VDict [((u "receiveLightMeasurement"), (VDict [((u "action"), (VStr (u "receive"))); ((u "channel"), (VDict [((u "$ref"), (VStr (u "#/channels/lightingMeasured")))])); ((u "summary"), (VStr (u "Inform about environmental lighting conditions of a particular streetlight."))); ((u "traits"), (VList [(VDict [((u "$ref"), (VStr (u "#/components/operationTraits/kafka")))])])); ((u "messages"), (VList [(VDict [((u "$ref"), (VStr (u "#/channels/lightingMeasured/messages/lightMeasured")))])]))])); ((u "turnOn"), (VDict [((u "action"), (VStr (u "send"))); ((u "channel"), (VDict [((u "$ref"), (VStr (u "#/channels/lightTurnOn")))])); ((u "traits"), (VList [(VDict [((u "$ref"), (VStr (u "#/components/operationTraits/kafka")))])])); ((u "messages"), (VList [(VDict [((u "$ref"), (VStr (u "#/channels/lightTurnOn/messages/turnOn")))])]))])); ((u "turnOff"), (VDict [((u "action"), (VStr (u "send"))); ((u "channel"), (VDict [((u "$ref"), (VStr (u "#/channels/lightTurnOff")))])); ((u "traits"), (VList [(VDict [((u "$ref"), (VStr (u "#/components/operationTraits/kafka")))])])); ((u "messages"), (VList [(VDict [((u "$ref"), (VStr (u "#/channels/lightTurnOff/messages/turnOff")))])]))])); ((u "dimLight"), (VDict [((u "action"), (VStr (u "send"))); ((u "channel"), (VDict [((u "$ref"), (VStr (u "#/channels/lightsDim")))])); ((u "traits"), (VList [(VDict [((u "$ref"), (VStr (u "#/components/operationTraits/kafka")))])])); ((u "messages"), (VList [(VDict [((u "$ref"), (VStr (u "#/channels/lightsDim/messages/dimLight")))])]))]))])); ((u "components"), (VDict [((u "messages"), (VDict [((u "lightMeasured"), (VDict [((u "name"), (VStr (u "lightMeasured"))); ((u "title"), (VStr (u "Light measured"))); ((u "summary"), (VStr (u "Inform about environmental lighting conditions of a particular streetlight."))); ((u "contentType"), (VStr (u "application/json"))); ((u "traits"), (VList [(VDict [((u "$ref"), (VStr (u "#/components/messageTraits/commonHeaders")))])])); ((u "payload"), (VDict [((u "$ref"), (VStr (u "#/components/schemas/lightMeasuredPayload")))]))])); ((u "turnOnOff"), (VDict [((u "name"), (VStr (u "turnOnOff"))); ((u "title"), (VStr (u "Turn on/off"))); ((u "summary"), (VStr (u "Command a particular streetlight to turn the lights on or off."))); ((u "traits"), (VList [(VDict [((u "$ref"), (VStr (u "#/components/messageTraits/commonHeaders")))])])); ((u "payload"), (VDict [((u "$ref"), (VStr (u "#/components/schemas/turnOnOffPayload")))]))])); ((u "dimLight"), (VDict [((u "name"), (VStr (u "dimLight"))); ((u "title"), (VStr (u "Dim light"))); ((u "summary"), (VStr (u "Command a particular streetlight to dim the lights."))); ((u "traits"), (VList [(VDict [((u "$ref"), (VStr (u "#/components/messageTraits/commonHeaders")))])])); ((u "payload"), (VDict [((u "$ref"), (VStr (u "#/components/schemas/dimLightPayload")))]))]))])); ((u "schemas"), (VDict [((u "lightMeasuredPayload"), (VDict [((u "type"), (VStr (u "object"))); ((u "properties"), (VDict [((u "lumens"), (VDict [((u "type"), (VStr (u "integer"))); ((u "minimum"), (VInt (0)%Z)); ((u "description"), (VStr (u "Light intensity measured in lumens.")))])); ((u "sentAt"), (VDict [((u "$ref"), (VStr (u "#/components/schemas/sentAt")))]))]))])); ((u "turnOnOffPayload"), (VDict [((u "type"), (VStr (u "object"))); ((u "properties"), (VDict [((u "command"), (VDict [((u "type"), (VStr (u "string"))); ((u "enum"), (VList [(VStr (u "on")); (VStr (u "off"))])); ((u "description"), (VStr (u "Whether to turn on or off the light.")))])); ((u "sentAt"), (VDict [((u "$ref"), (VStr (u "#/components/schemas/sentAt")))]))]))])); ((u "dimLightPayload"), (VDict [((u "type"), (VStr (u "object"))); ((u "properties"), (VDict [((u "percentage"), (VDict [((u "type"), (VStr (u "integer"))); ((u "description"), (VStr (u "Percentage to which the light should be dimmed to."))); ((u "minimum"), (VInt (0)%Z)); ((u "maximum"), (VInt (100)%Z))])); ((u "sentAt"), (VDict [((u "$ref"), (VStr (u "#/components/schemas/sentAt")))]))]))])); ((u "sentAt"), (VDict [((u "type"), (VStr (u "string"))); ((u "format"), (VStr (u "date-time"))); ((u "description"), (VStr (u "Date and time when the message was sent.")))]))])); ((u "securitySchemes"), (VDict [((u "saslScram"), (VDict [((u "type"), (VStr (u "scramSha256"))); ((u "description"), (VStr (u "Provide your username and password for SASL/SCRAM authentication")))])); ((u "certs"), (VDict [((u "type"), (VStr (u "X509"))); ((u "description"), (VStr (u "Download the certificate files from service provider")))]))])); ((u "parameters"), (VDict [((u "streetlightId"), (VDict [((u "description"), (VStr (u "The ID of the streetlight.")))]))])); ((u "messageTraits"), (VDict [((u "commonHeaders"), (VDict [((u "headers"), (VDict [((u "type"), (VStr (u "object"))); ((u "properties"), (VDict [((u "my-app-header"), (VDict [((u "type"), (VStr (u "integer"))); ((u "minimum"), (VInt (0)%Z)); ((u "maximum"), (VInt (100)%Z))]))]))]))]))])); ((u "operationTraits"), (VDict [((u "kafka"), (VDict [((u "bindings"), (VDict [((u "kafka"), (VDict [((u "clientId"), (VDict [((u "type"), (VStr (u "string"))); ((u "enum"), (VList [(VStr (u "my-app-id"))]))]))]))]))]))]))]))])))];
t "fixtures/yaml_specs/valid/single_file/streetlights-mqtt-asyncapi.yml" [SDo (XNew "AsyncAPI3" (XVal (VDict [((u "asyncapi"), (VStr (u "3.0.0"))); ((u "info"), (VDict [((u "title"), (VStr (u "Streetlights MQTT API"))); ((u "version"), (VStr (u "1.0.0"))); ((u "description"), (VStr [84; 104; 101; 32; 83; 109; 97; 114; 116; 121; 108; 105; 103; 104; 116; 105; 110; 103; 32; 83; 116; 114; 101; 101; 116; 108; 105; 103; 104; 116; 115; 32; 65; 80; 73; 32; 97; 108; 108; 111; 119; 115; 32; 121; 111; 117; 32; 116; 111; 32; 114; 101; 109; 111; 116; 101; 108; 121; 32; 109; 97; 110; 97; 103; 101; 32; 116; 104; 101; 32; 99; 105; 116; 121; 32; 108; 105; 103; 104; 116; 115; 46; 10; 10; 35; 35; 35; 32; 67; 104; 101; 99; 107; 32; 111; 117; 116; 32; 105; 116; 115; 32; 97; 119; 101; 115; 111; 109; 101; 32; 102; 101; 97; 116; 117; 114; 101; 115; 58; 10; 10; 42; 32; 84; 117; 114; 110; 32; 97; 32; 115; 112; 101; 99; 105; 102; 105; 99; 32; 115; 116; 114; 101; 101; 116; 108; 105; 103; 104; 116; 32; 111; 110; 47; 111; 102; 102; 32; 127747; 10; 42; 32; 68; 105; 109; 32; 97; 32; 115; 112; 101; 99; 105; 102; 105; 99; 32; 115; 116; 114; 101; 101; 116; 108; 105; 103; 104; 116; 32; 128526; 10; 42; 32; 82; 101; 99; 101; 105; 118; 101; 32; 114; 101; 97; 108; 45; 116; 105; 109; 101; 32; 105; 110; 102; 111; 114; 109; 97; 116; 105; 111; 110; 32; 97; 98; 111; 117; 116; 32; 101; 110; 118; 105; 114; 111; 110; 109; 101; 110; 116; 97; 108; 32; 108; 105; 103; 104; 116; 105; 110; 103; 32; 99; 111; 110; 100; 105; 116; 105; 111; 110; 115; 32; 128200; 10]%N)); ((u "license"), (VDict [((u "name"), (VStr (u "Apache 2.0"))); ((u "url"), (VStr (u "https://www.apache.org/licenses/LICENSE-2.0")))]))])); ((u "defaultContentType"), (VStr (u "application/json"))); ((u "servers"), (VDict [((u "production"), (VDict [((u "host"), (VStr (u "test.mosquitto.org:{port}"))); ((u "protocol"), (VStr (u "mqtt"))); ((u "description"), (VStr (u "Test broker"))); ((u "variables"), (VDict [((u "port"), (VDict [((u "description"), (VStr (u "Secure connection (TLS) is available through port 8883."))); ((u "default"), (VStr (u "1883"))); ((u "enum"), (VList [(VStr (u "1883")); (VStr (u "8883"))]))]))])); ((u "security"), (VList [(VDict [((u "$ref"), (VStr (u "#/components/securitySchemes/apiKey")))]); (VDict [((u "type"), (VStr (u "oauth2"))); ((u "description"), (VStr (u "Flows to support OAuth 2.0"))); ((u "flows"), (VDict [((u "implicit"), (VDict [((u "authorizationUrl"), (VStr (u "https://authserver.example/auth"))); ((u "availableScopes"), (VDict [((u "streetlights:on"), (VStr (u "Ability to switch lights on"))); ((u "streetlights:off"), (VStr (u "Ability to switch lights off"))); ((u "streetlights:dim"), (VStr (u "Ability to dim the lights")))]))])); ((u "password"), (VDict [((u "tokenUrl"), (VStr (u "https://authserver.example/token"))); ((u "availableScopes"), (VDict [((u "streetlights:on"), (VStr (u "Ability to switch lights on"))); ((u "streetlights:off"), (VStr (u "Ability to switch lights off"))); ((u "streetlights:dim"), (VStr (u "Ability to dim the lights")))]))])); ((u "clientCredentials"), (VDict [((u "tokenUrl"), (VStr (u "https://authserver.example/token"))); ((u "availableScopes"), (VDict [((u "streetlights:on"), (VStr (u "Ability to switch lights on"))); ((u "streetlights:off"), (VStr (u "Ability to switch lights off"))); ((u "streetlights:dim"), (VStr (u "Ability to dim the lights")))]))])); ((u "authorizationCode"), (VDict [((u "authorizationUrl"), (VStr (u "https://authserver.example/auth"))); ((u "tokenUrl"), (VStr (u "https://authserver.example/token"))); ((u "refreshUrl"), (VStr (u "https://authserver.example/refresh"))); ((u "availableScopes"), (VDict [((u "streetlights:on"), (VStr (u "Ability to switch lights on"))); ((u "streetlights:off"), (VStr (u "Ability to switch lights off"))); ((u "streetlights:dim"), (VStr (u "Ability to dim the lights")))]))]))])); ((u "scopes"), (VList [(VStr (u "streetlights:on")); (VStr (u "streetlights:off")); (VStr (u "streetlights:dim"))]))]); (VDict [((u "$ref"), (VStr (u "#/components/securitySchemes/openIdConnectWellKnown")))])])); ((u "tags"), (VList [(VDict [((u "name"), (VStr (u "env:production"))); ((u "description"), (VStr (u "This environment is meant for production use case")))]); (VDict [((u "name"), (VStr (u "kind:remote"))); ((u "description"), (VStr (u "This server is a remote server. Not exposed by the application")))]); (VDict [((u "name"), (VStr (u "visibility:public"))); ((u "description"), (VStr (u "This resource is public and available to everyone")))])]))]))])); ((u "channels"), (VDict [((u "lightingMeasured"), (VDict [((u "address"), (VStr (u "smartylighting/streetlights/1/0/event/{streetlightId}/lighting/measured"))); ((u "messages"), (VDict [((u "lightMeasured"), (VDict [((u "$ref"), (VStr (u "#/components/messages/lightMeasured")))]))])); ((u "description"), (VStr (u "The topic on which measured values may be produced and consumed."))); ((u "parameters"), (VDict [((u "streetlightId"), (VDict [((u "$ref"), (VStr (u "#/components/parameters/streetlightId")))]))]))])); ((u "lightTurnOn"), (VDict [((u "address"), (VStr (u "smartylighting/streetlights/1/0/action/{streetlightId}/turn/on"))); ((u "messages"), (VDict [((u "turnOn"), (VDict [((u "$ref"), (VStr (u "#/components/messages/turnOnOff")))]))])); ((u "parameters"), (VDict [((u "streetlightId"), (VDict [((u "$ref"), (VStr (u "#/components/parameters/streetlightId")))]))]))])); ((u "lightTurnOff"), (VDict [((u "address"), (VStr (u "smartylighting/streetlights/1/0/action/{streetlightId}/turn/off"))); ((u "messages"), (VDict [((u "turnOff"), (VDict [((u "$ref"), (VStr (u "#/components/messages/turnOnOff")))]))])); ((u "parameters"), (VDict [((u "streetlightId"), (VDict [((u "$ref"), (VStr (u "#/components/parameters/streetlightId")))]))]))])); ((u "lightsDim"), (VDict [((u "address"), (VStr (u "smartylighting/streetlights/1/0/action/{streetlightId}/dim"))); ((u "messages"), (VDict [((u "dimLight"), (VDict [((u "$ref"), (VStr (u "#/components/messages/dimLight")))]))])); ((u "parameters"), (VDict [((u "streetlightId"), (VDict [((u "$ref"), (VStr (u "#/components/parameters/streetlightId")))]))]))]))])); ((u "operations"), (VDict [((u "receiveLightMeasurement"), (VDict [((u "action"), (VStr (u "receive"))); ((u "channel"), (VDict [((u "$ref"), (VStr (u "#/channels/lightingMeasured")))])); ((u "summary"), (VStr (u "Inform about environmental lighting conditions of a particular streetlight."))); ((u "traits"), (VList [(VDict [((u "$ref"), (VStr (u "#/components/operationTraits/mqtt")))])])); ((u "messages"), (VList [(VDict [((u "$ref"), (VStr (u "#/channels/lightingMeasured/messages/lightMeasured")))])]))])); ((u "turnOn"), (VDict [((u "action"), (VStr (u "send"))); ((u "channel"), (VDict [((u "$ref"), (VStr (u "#/channels/lightTurnOn")))])); ((u "traits"), (VList [(VDict [((u "$ref"), (VStr (u "#/components/operationTraits/mqtt")))])])); ((u "messages"), (VList [(VDict [((u "$ref"), (VStr (u "#/channels/lightTurnOn/messages/turnOn")))])]))])); ((u "turnOff"), (VDict [((u "action"), (VStr (u "send"))); ((u "channel"), (VDict [((u "$ref"), (VStr (u "#/channels/lightTurnOff")))])); ((u "traits"), (VList [(VDict [((u "$ref"), (VStr (u "#/components/operationTraits/mqtt")))])])); ((u "messages"), (VList [(VDict [((u "$ref"), (VStr (u "#/channels/lightTurnOff/messages/turnOff")))])]))])); ((u "dimLight"), (VDict [((u "action"), (VStr (u "send"))); ((u "channel"), (VDict [((u "$ref"), (VStr (u "#/channels/lightsDim")))])); ((u "traits"), (VList [(VDict [((u "$ref"), (VStr (u "#/components/operationTraits/mqtt")))])])); ((u "messages"), (VList [(VDict [((u "$ref"), (VStr (u "#/channels/lightsDim/messages/dimLight")))])]))]))])); ((u "components"), (VDict [((u "messages"), (VDict [((u "lightMeasured"), (VDict [((u "name"), (VStr (u "lightMeasured"))); ((u "title"), (VStr (u "Light measured"))); ((u "summary"), (VStr (u "Inform about environmental lighting conditions of a particular streetlight."))); ((u "contentType"), (VStr (u "application/json"))); ((u "traits"), (VList [(VDict [((u "$ref"), (VStr (u "#/components/messageTraits/commonHeaders")))])])); ((u "payload"), (VDict [((u "$ref"), (VStr (u "#/components/schemas/lightMeasuredPayload")))]))])); ((u "turnOnOff"), (VDict [((u "name"), (VStr (u "turnOnOff"))); ((u "title"), (VStr (u "Turn on/off"))); ((u "summary"), (VStr (u "Command a particular streetlight to turn the lights on or off."))); ((u "traits"), (VList [(VDict [((u "$ref"), (VStr (u "#/components/messageTraits/commonHeaders")))])])); ((u "payload"), (VDict [((u "$ref"), (VStr (u "#/components/schemas/turnOnOffPayload")))]))])); ((u "dimLight"), (VDict [((u "name"), (VStr (u "dimLight"))); ((u "title"), (VStr (u "Dim light"))); ((u "summary"), (VStr (u "Command a particular streetlight to dim the lights."))); ((u "traits"), (VList [(VDict [((u "$ref"), (VStr (u "#/components/messageTraits/commonHeaders")))])])); ((u "payload"), (VDict [((u "$ref"), (VStr (u "#/components/schemas/dimLightPayload")))]))]))])); ((u "schemas"), (VDict [((u "lightMeasuredPayload"), (VDict [((u "type"), (VStr (u "object"))); ((u "properties"), (VDict [((u "lumens"), (VDict [((u "type"), (VStr (u "integer"))); ((u "minimum"), (VInt (0)%Z)); ((u "description"), (VStr (u "Light intensity measured in lumens.")))])); ((u "sentAt"), (VDict [((u "$ref"), (VStr (u "#/components/schemas/sentAt")))]))]))])); ((u "turnOnOffPayload"), (VDict [((u "type"), (VStr (u "object"))); ((u "properties"), (VDict [((u "command"), (VDict [((u "type"), (VStr (u "string"))); ((u "enum"), (VList [(VStr (u "on")); (VStr (u "off"))])); ((u "description"), (VStr (u "Whether to turn on or off the light.")))])); ((u "sentAt"), (VDict [((u "$ref"), (VStr (u "#/components/schemas/sentAt")))]))]))])); ((u "dimLightPayload"), (VDict [((u "type"), (VStr (u "object"))); ((u "properties"), (VDict [((u "percentage"), (VDict [((u "type"), (VStr (u "integer"))); ((u "description"), (VStr (u "Percentage to which the light should be dimmed to."))); ((u "minimum"), (VInt (0)%Z)); ((u "maximum"), (VInt (100)%Z))])); ((u "sentAt"), (VDict [((u "$ref"), (VStr (u "#/components/schemas/sentAt")))]))]))])); ((u "sentAt"), (VDict [((u "type"), (VStr (u "string"))); ((u "format"), (VStr (u "date-time"))); ((u "description"), (VStr (u "Date and time when the message was sent.")))]))])); ((u "securitySchemes"), (VDict [((u "apiKey"), (VDict [((u "type"), (VStr (u "apiKey"))); ((u "in"), (VStr (u "user"))); ((u "description"), (VStr (u "Provide your API key as the user and leave the password empty.")))])); ((u "supportedOauthFlows"), (VDict [((u "type"), (VStr (u "oauth2"))); ((u "description"), (VStr (u "Flows to support OAuth 2.0"))); ((u "flows"), (VDict [((u "implicit"), (VDict [((u "authorizationUrl"), (VStr (u "https://authserver.example/auth"))); ((u "availableScopes"), (VDict [((u "streetlights:on"), (VStr (u "Ability to switch lights on"))); ((u "streetlights:off"), (VStr (u "Ability to switch lights off"))); ((u "streetlights:dim"), (VStr (u "Ability to dim the lights")))]))])); ((u "password"), (VDict [((u "tokenUrl"), (VStr (u "https://authserver.example/token"))); ((u "availableScopes"), (VDict [((u "streetlights:on"), (VStr (u "Ability to switch lights on"))); ((u "streetlights:off"), (VStr (u "Ability to switch lights off"))); ((u "streetlights:dim"), (VStr (u "Ability to dim the lights")))]))])); ((u "clientCredentials"), (VDict [((u "tokenUrl"), (VStr (u "https://authserver.example/token"))); ((u "availableScopes"), (VDict [((u "streetlights:on"), (VStr (u "Ability to switch lights on"))); ((u "streetlights:off"), (VStr (u "Ability to switch lights off"))); ((u "streetlights:dim"), (VStr (u "Ability to dim the lights")))]))])); ((u "authorizationCode"), (VDict [((u "authorizationUrl"), (VStr (u "https://authserver.example/auth"))); ((u "tokenUrl"), (VStr (u "https://authserver.example/token"))); ((u "refreshUrl"), (VStr (u "https://authserver.example/refresh"))); ((u "availableScopes"), (VDict [((u "streetlights:on"), (VStr (u "Ability to switch lights on"))); ((u "streetlights:off"), (VStr (u "Ability to switch lights off"))); ((u "streetlights:dim"), (VStr (u "Ability to dim the lights")))]))]))]))])); ((u "openIdConnectWellKnown"), (VDict [((u "type"), (VStr (u "openIdConnect"))); ((u "openIdConnectUrl"), (VStr (u "https://authserver.example/.well-known")))]))])); ((u "parameters"), (VDict [((u "streetlightId"), (VDict [((u "description"), (VStr (u "The ID of the streetlight.")))]))])); ((u "messageTraits"), (VDict [((u "commonHeaders"), (VDict [((u "headers"), (VDict [((u "type"), (VStr (u "object"))); ((u "properties"), (VDict [((u "my-app-header"), (VDict [((u "type"), (VStr (u "integer"))); ((u "minimum"), (VInt (0)%Z)); ((u "maximum"), (VInt (100)%Z))]))]))]))]))])); ((u "operationTraits"), (VDict [((u "mqtt"), (VDict [((u "bindings"), (VDict [((u "mqtt"), (VDict [((u "qos"), (VInt (1)%Z))]))]))]))]))]))])))];
t "fixtures/yaml_specs/valid/single_file/streetlights-operation-security-asyncapi.yml" [SDo (XNew "AsyncAPI3" (XVal (VDict [((u "asyncapi"), (VStr (u "3.0.0"))); ((u "info"), (VDict [((u "title"), (VStr (u "Streetlights Kafka API"))); ((u "version"), (VStr (u "1.0.0"))); ((u "description"), (VStr [84; 104; 101; 32; 83; 109; 97; 114; 116; 121; 108; 105; 103; 104; 116; 105; 110; 103; 32; 83; 116; 114; 101; 101; 116; 108; 105; 103; 104; 116; 115; 32; 65; 80; 73; 32; 97; 108; 108; 111; 119; 115; 32; 121; 111; 117; 32; 116; 111; 32; 114; 101; 109; 111; 116; 101; 108; 121; 32; 109; 97; 110; 97; 103; 101; 32; 116; 104; 101; 32; 99; 105; 116; 121; 32; 108; 105; 103; 104; 116; 115; 46; 10; 10; 35; 35; 35; 32; 67; 104; 101; 99; 107; 32; 111; 117; 116; 32; 105; 116; 115; 32; 97; 119; 101; 115; 111; 109; 101; 32; 102; 101; 97; 116; 117; 114; 101; 115; 58; 10; 10; 42; 32; 84; 117; 114; 110; 32; 97; 32; 115; 112; 101; 99; 105; 102; 105; 99; 32; 115; 116; 114; 101; 101; 116; 108; 105; 103; 104; 116; 32; 111; 110; 47; 111; 102; 102; 32; 127747; 10; 42; 32; 68; 105; 109; 32; 97; 32; 115; 112; 101; 99; 105; 102; 105; 99; 32; 115; 116; 114; 101; 101; 116; 108; 105; 103; 104; 116; 32; 128526; 10; 42; 32; 82; 101; 99; 101; 105; 118; 101; 32; 114; 101; 97; 108; 45; 116; 105; 109; 101; 32; 105; 110; 102; 111; 114; 109; 97; 116; 105; 111; 110; 32; 97; 98; 111; 117; 116; 32; 101; 110; 118; 105; 114; 111; 110; 109; 101; 110; 116; 97; 108; 32; 108; 105; 103; 104; 116; 105; 110; 103; 32; 99; 111; 110; 100; 105; 116; 105; 111; 110; 115; 32; 128200; 10]%N)); ((u "license"), (VDict [((u "name"), (VStr (u "Apache 2.0"))); ((u "url"), (VStr (u "https://www.apache.org/licenses/LICENSE-2.0")))]))])); ((u "defaultContentType"), (VStr (u "application/json"))); ((u "servers"), (VDict [((u "test"), (VDict [((u "host"), (VStr (u "test.mykafkacluster.org:8092"))); ((u "protocol"), (VStr (u "kafka-secure"))); ((u "description"), (VStr (u "Test broker"))); ((u "security"), (VList [(VDict [((u "$ref"), (VStr (u "#/components/securitySchemes/saslScram")))])]))])); ((u "test_oauth"), (VDict [((u "host"), (VStr (u "test.mykafkacluster.org:8093"))); ((u "protocol"), (VStr (u "kafka-secure"))); ((u "description"), (VStr (u "Test port for oauth"))); ((u "security"), (VList [(VDict [((u "type"), (VStr (u "oauth2"))); ((u "description"), (VStr (u "The oauth security descriptions"))); ((u "flows"), (VDict [((u "clientCredentials"), (VDict [((u "tokenUrl"), (VStr (u "https://example.com/api/oauth/dialog"))); ((u "availableScopes"), (VDict [((u "streetlights:read"), (VStr (u "Scope required for subscribing to channel"))); ((u "streetlights:write"), (VStr (u "Scope required for publishing to channel")))]))]))])); ((u "scopes"), (VList [(VStr (u "streetlights:write")); (VStr (u "streetlights:read"))]))])]))]))])); ((u "channels"), (VDict [((u "lightingMeasured"), (VDict [((u "address"), (VStr (u "smartylighting.streetlights.1.0.event.{streetlightId}.lighting.measured"))); ((u "messages"), (VDict [((u "lightMeasured"), (VDict [((u "$ref"), (VStr (u "#/components/messages/lightMeasured")))]))])); ((u "description"), (VStr (u "The topic on which measured values may be produced and consumed."))); ((u "servers"), (VList [(VDict [((u "$ref"), (VStr (u "#/servers/test")))])])); ((u "parameters"), (VDict [((u "streetlightId"), (VDict [((u "$ref"), (VStr (u "#/components/parameters/streetlightId")))]))]))])); ((u "lightTurnOn"), (VDict [((u "address"), (VStr (u "smartylighting.streetlights.1.0.action.{streetlightId}.turn.on"))); ((u "messages"), (VDict [((u "turnOn"), (VDict [((u "$ref"), (VStr (u "#/components/messages/turnOnOff")))]))])); ((u "servers"), (VList [(VDict [((u "$ref"), (VStr (u "#/servers/test_oauth")))])])); ((u "parameters"), (VDict [((u "streetlightId"), (VDict [((u "$ref"), (VStr (u "#/components/parameters/streetlightId")))]))]))])); ((u "lightTurnOff"), (VDict [((u "address"), (VStr (u "smartylighting.streetlights.1.0.action.{streetlightId}.turn.off"))); ((u "messages"), (VDict [((u "turnOff"), (VDict [((u "$ref"), (VStr (u "#/components/messages/turnOnOff")))]))])); ((u "servers"), (VList [(VDict [((u "$ref"), (VStr (u "#/servers/test_oauth")))])])); ((u "parameters"), (VDict [((u "streetlightId"), (VDict [((u "$ref"), (VStr (u "#/components/parameters/streetlightId")))]))]))])); ((u "lightsDim"), (VDict [((u "address"), (VStr (u "smartylighting.streetlights.1.0.action.{streetlightId}.dim"))); ((u "messages"), (VDict [((u "dimLight"), (VDict [((u "$ref"), (VStr (u "#/components/messages/dimLight")))]))])); ((u "servers"), (VList [(VDict [((u "$ref"), (VStr (u "#/servers/test_oauth")))])])); ((u "parameters"), (VDict [((u "streetlightId"), (VDict [((u "$ref"), (VStr (u "#/components/parameters/streetlightId")))]))]))]))])); ((u "operations"), (VDict [((u "receiveLightMeasurement"), (VDict [((u "action"), (VStr (u "receive"))); ((u "channel"), (VDict [((u "$ref"), (VStr (u "#/channels/lightingMeasured")))])); ((u "summary"), (VStr (u "Inform about environmental lighting conditions of a particular streetlight."))); ((u "traits"), (VList [(VDict [((u "$ref"), (VStr (u "#/components/operationTraits/kafka")))])])); ((u "messages"), (VList [(VDict [((u "$ref"), (VStr (u "#/channels/lightingMeasured/messages/lightMeasured")))])]))])); ((u "turnOn"), (VDict [((u "action"), (VStr (u "send"))); ((u "channel"), (VDict [((u "$ref"), (VStr (u "#/channels/lightTurnOn")))])); ((u "security"), (VList [(VDict [((u "type"), (VStr (u "oauth2"))); ((u "description"), (VStr (u "The oauth security descriptions"))); ((u "flows"), (VDict [((u "clientCredentials"), (VDict [((u "tokenUrl"), (VStr (u "https://example.com/api/oauth/dialog"))); ((u "availableScopes"), (VDict [((u "streetlights:read"), (VStr (u "Scope required for subscribing to channel"))); ((u "streetlights:write"), (VStr (u "Scope required for publishing to channel")))]))]))])); ((u "scopes"), (VList [(VStr (u "streetlights:read"))]))])])); ((u "traits"), (VList [(VDict [((u "$ref"), (VStr (u "#/components/operationTraits/kafka")))])])); ((u "messages"), (VList [(VDict [((u "$ref"), (VStr (u "#/channels/lightTurnOn/messages/turnOn")))])]))])); ((u "turnOff"), (VDict [((u "action"), (VStr (u "send"))); ((u "channel"), (VDict [((u "$ref"), (VStr (u "#/channels/lightTurnOff")))])); ((u "security"), (VList [(VDict [((u "type"), (VStr (u "oauth2"))); ((u "description"), (VStr (u "The oauth security descriptions"))); ((u "flows"), (VDict [((u "clientCredentials"), (VDict [((u "tokenUrl"), (VStr (u "https://example.com/api/oauth/dialog"))); ((u "availableScopes"), (VDict [((u "streetlights:read"), (VStr (u "Scope required for subscribing to channel"))); ((u "streetlights:write"), (VStr (u "Scope required for publishing to channel")))]))]))])); ((u "scopes"), (VList [(VStr (u "streetlights:read"))]))])])); ((u "traits"), (VList [(VDict [((u "$ref"), (VStr (u "#/components/operationTraits/kafka")))])])); ((u "messages"), (VList [(VDict [((u "$ref"), (VStr (u "#/channels/lightTurnOff/messages/turnOff")))])]))])); ((u "dimLight"), (VDict [((u "action"), (VStr (u "send"))); ((u "channel"), (VDict [((u "$ref"), (VStr (u "#/channels/lightsDim")))])); ((u "security"), (VList [(VDict [((u "type"), (VStr (u "oauth2"))); ((u "description"), (VStr (u "The oauth security descriptions"))); ((u "flows"), (VDict [((u "clientCredentials"), (VDict [((u "tokenUrl"), (VStr (u "https://example.com/api/oauth/dialog"))); ((u "availableScopes"), (VDict [((u "streetlights:read"), (VStr (u "Scope required for subscribing to channel"))); ((u "streetlights:write"), (VStr (u "Scope required for publishing to channel")))]))]))])); ((u "scopes"), (VList [(VStr (u "streetlights:read"))]))])])); ((u "traits"), (VList [(VDict [((u "$ref"), (VStr (u "#/components/operationTraits/kafka")))])])); ((u "messages"), (VList [(VDict [((u "$ref"), (VStr (u "#/channels/lightsDim/messages/dimLight")))])]))]))])); ((u "components"), (VDict [((u "messages"), (VDict [((u "lightMeasured"), (VDict [((u "name"), (VStr (u "lightMeasured"))); ((u "title"), (VStr (u "Light measured"))); ((u "summary"), (VStr (u "Inform about environmental lighting conditions of a particular streetlight."))); ((u "contentType"), (VStr (u "application/json"))); ((u "traits"), (VList [(VDict [((u "$ref"), (VStr (u "#/components/messageTraits/commonHeaders")))])])); ((u "payload"), (VDict [((u "$ref"), (VStr (u "#/components/schemas/lightMeasuredPayload")))]))])); ((u "turnOnOff"), (VDict [((u "name"), (VStr (u "turnOnOff"))); ((u "title"), (VStr (u "Turn on/off"))); ((u "summary"), (VStr (u "Command a particular streetlight to turn the lights on or off."))); ((u "traits"), (VList [(VDict [((u "$ref"), (VStr (u "#/components/messageTraits/commonHeaders")))])])); ((u "payload"), (VDict [((u "$ref"), (VStr (u "#/components/schemas/turnOnOffPayload")))]))])); ((u "dimLight"), (VDict [((u "name"), (VStr (u "dimLight"))); ((u "title"), (VStr (u "Dim light"))); ((u "summary"), (VStr (u "Command a particular streetlight to dim the lights."))); ((u "traits"), (VList [(VDict [((u "$ref"), (VStr (u "#/components/messageTraits/commonHeaders")))])])); ((u "payload"), (VDict [((u "$ref"), (VStr (u "#/components/schemas/dimLightPayload")))]))]))])); ((u "schemas"), (VDict [((u "lightMeasuredPayload"), (VDict [((u "type"), (VStr (u "object"))); ((u "properties"), (VDict [((u "lumens"), (VDict [((u "type"), (VStr (u "integer"))); ((u "minimum"), (VInt (0)%Z)); ((u "description"), (VStr (u "Light intensity measured in lumens.")))])); ((u "sentAt"), (VDict [((u "$ref"), (VStr (u "#/components/schemas/sentAt")))]))]))])); ((u "turnOnOffPayload"), (VDict [((u "type"), (VStr (u "object"))); ((u "properties"), (VDict [((u "command"), (VDict [((u "type"), (VStr (u "string"))); ((u "enum"), (VList [(VStr (u "on")); (VStr (u "off"))])); ((u "description"), (VStr (u "Whether to turn on or off the light.")))])); ((u "sentAt"), (VDict [((u "$ref"), (VStr (u "#/components/schemas/sentAt")))]))]))])); ((u "dimLightPayload"), (VDict [((u "type"), (VStr (u "object"))); ((u "properties"), (VDict [((u "percentage"), (VDict [((u "type"), (VStr (u "integer"))); ((u "description"), (VStr (u "Percentage to which the light should be dimmed to."))); ((u "minimum"), (VInt (0)%Z)); ((u "maximum"), (VInt (100)%Z))])); ((u "sentAt"), (VDict [((u "$ref"), (VStr (u "#/components/schemas/sentAt")))]))]))])); ((u "sentAt"), (VDict [((u "type"), (VStr (u "string"))); ((u "format"), (VStr (u "date-time"))); ((u "description"), (VStr (u "Date and time when the message was sent.")))]))])); ((u "securitySchemes"), (VDict [((u "saslScram"), (VDict [((u "type"), (VStr (u "scramSha256"))); ((u "description"), (VStr (u "Provide your username and password for SASL/SCRAM authentication")))])); ((u "streetlights_auth"), (VDict [((u "type"), (VStr (u "oauth2"))); ((u "description"), (VStr (u "The oauth security descriptions"))); ((u "flows"), (VDict [((u "clientCredentials"), (VDict [((u "tokenUrl"), (VStr (u "https://example.com/api/oauth/dialog"))); ((u "availableScopes"), (VDict [((u "streetlights:read"), (VStr (u "Scope required for subscribing to channel"))); ((u "streetlights:write"), (VStr (u "Scope required for publishing to channel")))]))]))]))]))])); ((u "parameters"), (VDict [((u "streetlightId"), (VDict [((u "description"), (VStr (u "The ID of the streetlight.")))]))])); ((u "messageTraits"), (VDict [((u "commonHeaders"), (VDict [((u "headers"), (VDict [((u "type"), (VStr (u "object"))); ((u "properties"), (VDict [((u "my-app-header"), (VDict [((u "type"), (VStr (u "integer"))); ((u "minimum"), (VInt (0)%Z)); ((u "maximum"), (VInt (100)%Z))]))]))]))]))])); ((u "operationTraits"), (VDict [((u "kafka"), (VDict [((u "bindings"), (VDict [((u "kafka"), (VDict [((u "clientId"), (VDict [((u "type"), (VStr (u "string"))); ((u "enum"), (VList [(VStr (u "my-app-id"))]))]))]))]))]))]))]))])))];
t "fixtures/yaml_specs/valid/single_file/websocket-gemini-asyncapi.yml" [SDo (XNew "AsyncAPI3" (XVal (VDict [((u "asyncapi"), (VStr (u "3.0.0"))); ((u "info"), (VDict [((u "title"), (VStr (u "Gemini Market Data Websocket API"))); ((u "version"), (VStr (u "1.0.0"))); ((u "description"), (VStr [77; 97; 114; 107; 101; 116; 32; 100; 97; 116; 97; 32; 105; 115; 32; 97; 32; 112; 117; 98; 108; 105; 99; 32; 65; 80; 73; 32; 116; 104; 97; 116; 32; 115; 116; 114; 101; 97; 109; 115; 32; 97; 108; 108; 32; 116; 104; 101; 32; 109; 97; 114; 107; 101; 116; 32; 100; 97; 116; 97; 32; 111; 110; 32; 97; 32; 103; 105; 118; 101; 110; 32; 115; 121; 109; 98; 111; 108; 46; 10; 10; 89; 111; 117; 32; 99; 97; 110; 32; 113; 117; 105; 99; 107; 108; 121; 32; 112; 108; 97; 121; 32; 119; 105; 116; 104; 32; 116; 104; 101; 32; 65; 80; 73; 32; 117; 115; 105; 110; 103; 32; 91; 119; 101; 98; 115; 111; 99; 97; 116; 93; 40; 104; 116; 116; 112; 115; 58; 47; 47; 103; 105; 116; 104; 117; 98; 46; 99; 111; 109; 47; 118; 105; 47; 119; 101; 98; 115; 111; 99; 97; 116; 35; 105; 110; 115; 116; 97; 108; 108; 97; 116; 105; 111; 110; 41; 32; 108; 105; 107; 101; 32; 116; 104; 105; 115; 58; 10; 96; 96; 96; 98; 97; 115; 104; 10; 119; 101; 98; 115; 111; 99; 97; 116; 32; 119; 115; 115; 58; 47; 47; 97; 112; 105; 46; 103; 101; 109; 105; 110; 105; 46; 99; 111; 109; 47; 118; 49; 47; 109; 97; 114; 107; 101; 116; 100; 97; 116; 97; 47; 98; 116; 99; 117; 115; 100; 63; 104; 101; 97; 114; 116; 98; 101; 97; 116; 61; 116; 114; 117; 101; 32; 45; 83; 10; 96; 96; 96; 10]%N)); ((u "contact"), (VDict [((u "name"), (VStr (u "Gemini"))); ((u "url"), (VStr (u "https://www.gemini.com/")))])); ((u "externalDocs"), (VDict [((u "url"), (VStr (u "https://docs.sandbox.gemini.com/websocket-api/#market-data")))]))])); ((u "servers"), (VDict [((u "public"), (VDict [((u "host"), (VStr (u "api.gemini.com"))); ((u "protocol"), (VStr (u "wss")))]))])); ((u "channels"), (VDict [((u "marketDataV1"), (VDict [((u "address"), (VStr (u "/v1/marketdata/{symbol}"))); ((u "messages"), (VDict [((u "marketData"), (VDict [((u "$ref"), (VStr (u "#/components/messages/marketData")))]))])); ((u "parameters"), (VDict [((u "symbol"), (VDict [((u "enum"), (VList [(VStr (u "btcusd")); (VStr (u "ethbtc")); (VStr (u "ethusd")); (VStr (u "zecusd")); (VStr (u "zecbtc")); (VStr (u "zeceth")); (VStr (u "zecbch")); (VStr (u "zecltc")); (VStr (u "bchusd")); (VStr (u "bchbtc")); (VStr (u "bcheth")); (VStr (u "ltcusd")); (VStr (u "ltcbtc")); (VStr (u "ltceth")); (VStr (u "ltcbch")); (VStr (u "batusd")); (VStr (u "daiusd")); (VStr (u "linkusd")); (VStr (u "oxtusd")); (VStr (u "batbtc")); (VStr (u "linkbtc")); (VStr (u "oxtbtc")); (VStr (u "bateth")); (VStr (u "linketh")); (VStr (u "oxteth")); (VStr (u "ampusd")); (VStr (u "compusd")); (VStr (u "paxgusd")); (VStr (u "mkrusd")); (VStr (u "zrxusd")); (VStr (u "kncusd")); (VStr (u "manausd")); (VStr (u "storjusd")); (VStr (u "snxusd")); (VStr (u "crvusd")); (VStr (u "balusd")); (VStr (u "uniusd")); (VStr (u "renusd")); (VStr (u "umausd")); (VStr (u "yfiusd")); (VStr (u "btcdai")); (VStr (u "ethdai")); (VStr (u "aaveusd")); (VStr (u "filusd")); (VStr (u "btceur")); (VStr (u "btcgbp")); (VStr (u "etheur")); (VStr (u "ethgbp")); (VStr (u "btcsgd")); (VStr (u "ethsgd")); (VStr (u "sklusd")); (VStr (u "grtusd")); (VStr (u "bntusd")); (VStr (u "1inchusd")); (VStr (u "enjusd")); (VStr (u "lrcusd")); (VStr (u "sandusd")); (VStr (u "cubeusd")); (VStr (u "lptusd")); (VStr (u "bondusd")); (VStr (u "maticusd")); (VStr (u "injusd")); (VStr (u "sushiusd"))])); ((u "description"), (VStr [83; 121; 109; 98; 111; 108; 115; 32; 97; 114; 101; 32; 102; 111; 114; 109; 97; 116; 116; 101; 100; 32; 97; 115; 32; 67; 67; 89; 49; 67; 67; 89; 50; 32; 119; 104; 101; 114; 101; 32; 112; 114; 105; 99; 101; 115; 32; 97; 114; 101; 32; 105; 110; 32; 67; 67; 89; 50; 32; 97; 110; 100; 32; 113; 117; 97; 110; 116; 105; 116; 105; 101; 115; 32; 97; 114; 101; 32; 105; 110; 32; 67; 67; 89; 49; 46; 32; 84; 111; 32; 114; 101; 97; 100; 32; 109; 111; 114; 101; 32; 99; 108; 105; 99; 107; 32; 91; 104; 101; 114; 101; 93; 40; 104; 116; 116; 112; 115; 58; 47; 47; 100; 111; 99; 115; 46; 115; 97; 110; 100; 98; 111; 120; 46; 103; 101; 109; 105; 110; 105; 46; 99; 111; 109; 47; 119; 101; 98; 115; 111; 99; 107; 101; 116; 45; 97; 112; 105; 47; 35; 115; 121; 109; 98; 111; 108; 115; 45; 97; 110; 100; 45; 109; 105; 110; 105; 109; 117; 109; 115; 41; 46; 10]%N))]))])); ((u "bindings"), (VDict [((u "ws"), (VDict [((u "bindingVersion"), (VStr (u "0.1.0"))); ((u "query"), (VDict [((u "type"), (VStr (u "object"))); ((u "description"), (VStr [84; 104; 101; 32; 115; 101; 109; 97; 110; 116; 105; 99; 115; 32; 111; 102; 32; 101; 110; 116; 114; 121; 32; 116; 121; 112; 101; 32; 102; 105; 108; 116; 101; 114; 105; 110; 103; 32; 105; 115; 58; 10; 10; 73; 102; 32; 97; 110; 121; 32; 101; 110; 116; 114; 121; 32; 116; 121; 112; 101; 32; 105; 115; 32; 115; 112; 101; 99; 105; 102; 105; 101; 100; 32; 97; 115; 32; 116; 114; 117; 101; 32; 111; 114; 32; 102; 97; 108; 115; 101; 44; 32; 97; 108; 108; 32; 111; 102; 32; 116; 104; 101; 109; 32; 109; 117; 115; 116; 32; 98; 101; 32; 101; 120; 112; 108; 105; 99; 105; 116; 108; 121; 32; 102; 108; 97; 103; 103; 101; 100; 32; 116; 114; 117; 101; 32; 116; 111; 32; 115; 104; 111; 119; 32; 117; 112; 32; 105; 110; 32; 116; 104; 101; 32; 114; 101; 115; 112; 111; 110; 115; 101; 10; 73; 102; 32; 110; 111; 32; 101; 110; 116; 114; 121; 32; 116; 121; 112; 101; 115; 32; 102; 105; 108; 116; 101; 114; 105; 110; 103; 32; 112; 97; 114; 97; 109; 101; 116; 101; 114; 115; 32; 97; 114; 101; 32; 105; 110; 99; 108; 117; 100; 101; 100; 32; 105; 110; 32; 116; 104; 101; 32; 117; 114; 108; 44; 32; 116; 104; 101; 110; 32; 97; 108; 108; 32; 101; 110; 116; 114; 121; 32; 116; 121; 112; 101; 115; 32; 119; 105; 108; 108; 32; 97; 112; 112; 101; 97; 114; 32; 105; 110; 32; 116; 104; 101; 32; 114; 101; 115; 112; 111; 110; 115; 101; 10; 10; 78; 79; 84; 69; 58; 32; 116; 111; 112; 95; 111; 102; 95; 98; 111; 111; 107; 32; 104; 97; 115; 32; 110; 111; 32; 109; 101; 97; 110; 105; 110; 103; 32; 97; 110; 100; 32; 105; 110; 105; 116; 105; 97; 108; 32; 98; 111; 111; 107; 32; 101; 118; 101; 110; 116; 115; 32; 97; 114; 101; 32; 101; 109; 112; 116; 121; 32; 119; 104; 101; 110; 32; 111; 110; 108; 121; 32; 116; 114; 97; 100; 101; 115; 32; 105; 115; 32; 115; 112; 101; 99; 105; 102; 105; 101; 100; 10]%N)); ((u "properties"), (VDict [((u "heartbeat"), (VDict [((u "type"), (VStr (u "boolean"))); ((u "default"), (VBool false)); ((u "description"), (VStr (u "Optionally add this parameter and set to true to receive a heartbeat every 5 seconds")))])); ((u "top_of_book"), (VDict [((u "type"), (VStr (u "boolean"))); ((u "default"), (VBool false)); ((u "description"), (VStr (u "If absent or false, receive full order book depth; if present and true, receive top of book only. Only applies to bids and offers.")))])); ((u "bids"), (VDict [((u "type"), (VStr (u "boolean"))); ((u "default"), (VBool true)); ((u "description"), (VStr (u "Include bids in change events")))])); ((u "offers"), (VDict [((u "type"), (VStr (u "boolean"))); ((u "default"), (VBool true)); ((u "description"), (VStr (u "Include asks in change events")))])); ((u "trades"), (VDict [((u "type"), (VStr (u "boolean"))); ((u "default"), (VBool true)); ((u "description"), (VStr (u "Include trade events")))])); ((u "auctions"), (VDict [((u "type"), (VStr (u "boolean"))); ((u "default"), (VBool true)); ((u "description"), (VStr (u "Include auction events")))]))]))]))]))]))]))])); ((u "operations"), (VDict [((u "sendMarketData"), (VDict [((u "action"), (VStr (u "send"))); ((u "channel"), (VDict [((u "$ref"), (VStr (u "#/channels/marketDataV1")))])); ((u "summary"), (VStr (u "Receive market updates on a given symbol"))); ((u "messages"), (VList [(VDict [((u "$ref"), (VStr (u "#/channels/marketDataV1/messages/marketData")))])]))]))])); ((u "components"), (VDict [((u "messages"), (VDict [((u "marketData"), (VDict [((u "summary"), (VStr (u "Message with marked data information."))); ((u "description"), (VStr [84; 104; 101; 32; 105; 110; 105; 116; 105; 97; 108; 32; 114; 101; 115; 112; 111; 110; 115; 101; 32; 109; 101; 115; 115; 97; 103; 101; 32; 119; 105; 108; 108; 32; 115; 104; 111; 119; 32; 116; 104; 101; 32; 101; 120; 105; 115; 116; 105; 110; 103; 32; 115; 116; 97; 116; 101; 32; 111; 102; 32; 116; 104; 101; 32; 111; 114; 100; 101; 114; 32; 98; 111; 111; 107; 46; 32; 83; 117; 98; 115; 101; 113; 117; 101; 110; 116; 32; 109; 101; 115; 115; 97; 103; 101; 115; 32; 119; 105; 108; 108; 32; 115; 104; 111; 119; 32; 97; 108; 108; 32; 101; 120; 101; 99; 117; 116; 101; 100; 32; 116; 114; 97; 100; 101; 115; 44; 32; 97; 115; 32; 119; 101; 108; 108; 32; 97; 115; 32; 97; 108; 108; 32; 111; 116; 104; 101; 114; 32; 99; 104; 97; 110; 103; 101; 115; 32; 116; 111; 32; 116; 104; 101; 32; 111; 114; 100; 101; 114; 32; 98; 111; 111; 107; 32; 102; 114; 111; 109; 32; 111; 114; 100; 101; 114; 115; 32; 112; 108; 97; 99; 101; 100; 32; 111; 114; 32; 99; 97; 110; 99; 101; 108; 101; 100; 46; 10]%N)); ((u "payload"), (VDict [((u "$ref"), (VStr (u "#/components/schemas/market")))])); ((u "examples"), (VList [(VDict [((u "name"), (VStr (u "updateMessage"))); ((u "summary"), (VStr (u "Example of an update message that contains a change in price information."))); ((u "payload"), (VDict [((u "type"), (VStr (u "update"))); ((u "eventId"), (VInt (36902233362)%Z)); ((u "timestamp"), (VInt (1619769673)%Z)); ((u "timestampms"), (VInt (1619769673527)%Z)); ((u "socket_sequence"), (VInt (661)%Z)); ((u "events"), (VList [(VDict [((u "type"), (VStr (u "change"))); ((u "side"), (VStr (u "bid"))); ((u "price"), (VFloat (u "54350.4"))); ((u "remaining"), (VFloat (u "0.002"))); ((u "delta"), (VFloat (u "0.002"))); ((u "reason"), (VStr (u "place")))])]))]))]); (VDict [((u "name"), (VStr (u "heartbeatMessage"))); ((u "summary"), (VStr (u "Example of additional heartbeat message when you enable them."))); ((u "payload"), (VDict [((u "type"), (VStr (u "heartbeat"))); ((u "socket_sequence"), (VInt (1656)%Z))]))])]))]))])); ((u "schemas"), (VDict [((u "market"), (VDict [((u "type"), (VStr (u "object"))); ((u "oneOf"), (VList [(VDict [((u "$ref"), (VStr (u "#/components/schemas/heartbeat")))]); (VDict [((u "$ref"), (VStr (u "#/components/schemas/update")))])]))])); ((u "heartbeat"), (VDict [((u "allOf"), (VList [(VDict [((u "properties"), (VDict [((u "type"), (VDict [((u "type"), (VStr (u "string"))); ((u "const"), (VStr (u "heartbeat")))]))])); ((u "required"), (VList [(VStr (u "type"))]))]); (VDict [((u "$ref"), (VStr (u "#/components/schemas/default")))])]))])); ((u "update"), (VDict [((u "allOf"), (VList [(VDict [((u "properties"), (VDict [((u "type"), (VDict [((u "type"), (VStr (u "string"))); ((u "const"), (VStr (u "update")))])); ((u "eventId"), (VDict [((u "type"), (VStr (u "integer"))); ((u "description"), (VStr (u "A monotonically increasing sequence number indicating when this change occurred. These numbers are persistent and consistent between market data connections.")))])); ((u "events"), (VDict [((u "$ref"), (VStr (u "#/components/schemas/events")))])); ((u "timestamp"), (VDict [((u "type"), (VStr (u "number"))); ((u "description"), (VStr (u "The timestamp in seconds for this group of events (included for compatibility reasons). We recommend using the timestampms field instead.")))])); ((u "timestampms"), (VDict [((u "type"), (VStr (u "number"))); ((u "description"), (VStr (u "The timestamp in milliseconds for this group of events.")))]))])); ((u "required"), (VList [(VStr (u "type")); (VStr (u "eventId")); (VStr (u "events")); (VStr (u "timestamp")); (VStr (u "timestampms"))]))]); (VDict [((u "$ref"), (VStr (u "#/components/schemas/default")))])]))])); ((u "default"), (VDict [((u "type"), (VStr (u "object"))); ((u "description"), (VStr (u "This object is always part of the payload. In case of type=heartbeat, these are the only fields."))); ((u "required"), (VList [(VStr (u "type")); (VStr (u "socket_sequence"))])); ((u "properties"), (VDict [((u "socket_sequence"), (VDict [((u "type"), (VStr (u "integer"))); ((u "description"), (VStr (u "zero-indexed monotonic increasing sequence number attached to each message sent - if there is a gap in this sequence, you have missed a message. If you choose to enable heartbeats, then heartbeat and update messages will share a single increasing sequence. See [Sequence Numbers](https://docs.sandbox.gemini.com/websocket-api/#sequence-numbers) for more information.")))]))]))])); ((u "events"), (VDict [((u "type"), (VStr (u "array"))); ((u "description"), (VStr (u "Either a change to the order book, or the indication that a trade has occurred."))); ((u "items"), (VDict [((u "type"), (VStr (u "object"))); ((u "additionalProperties"), (VBool false)); ((u "properties"), (VDict [((u "type"), (VDict [((u "type"), (VStr (u "string"))); ((u "enum"), (VList [(VStr (u "trade")); (VStr (u "change")); (VStr (u "auction, block_trade"))]))])); ((u "price"), (VDict [((u "type"), (VStr (u "number"))); ((u "multipleOf"), (VFloat (u "0.01"))); ((u "description"), (VStr (u "The price of this order book entry.")))])); ((u "side"), (VDict [((u "type"), (VStr (u "string"))); ((u "enum"), (VList [(VStr (u "bid")); (VStr (u "side"))]))])); ((u "reason"), (VDict [((u "type"), (VStr (u "string"))); ((u "enum"), (VList [(VStr (u "place")); (VStr (u "trade")); (VStr (u "cancel")); (VStr (u "initial"))])); ((u "description"), (VStr (u "Indicates why the change has occurred. initial is for the initial response message, which will show the entire existing state of the order book.")))])); ((u "remaining"), (VDict [((u "type"), (VStr (u "number"))); ((u "description"), (VStr (u "The quantity remaining at that price level after this change occurred. May be zero if all orders at this price level have been filled or canceled.")))])); ((u "delta"), (VDict [((u "type"), (VStr (u "number"))); ((u "description"), (VStr (u "The quantity changed. May be negative, if an order is filled or canceled. For initial messages, delta will equal remaining.")))]))]))]))]))]))]))])))];
t "fixtures/yaml_specs/valid/multi_files/backend/asyncapi.yaml" [SDo (XNew "AsyncAPI3" (XVal (VDict [((u "asyncapi"), (VStr (u "3.0.0"))); ((u "info"), (VDict [((u "title"), (VStr (u "Website Backend"))); ((u "version"), (VStr (u "1.0.0")))])); ((u "servers"), (VDict [((u "websiteWebSocketServer"), (VDict [((u "$ref"), (VStr (u "../common/servers.yaml#/websiteWebSocketServer")))])); ((u "mosquitto"), (VDict [((u "host"), (VStr (u "test.mosquitto.org"))); ((u "protocol"), (VStr (u "mqtt"))); ((u "tags"), (VList [(VDict [((u "name"), (VStr (u "env:production"))); ((u "description"), (VStr (u "This environment is meant for production use case")))]); (VDict [((u "name"), (VStr (u "kind:remote"))); ((u "description"), (VStr (u "This server is a remote server. Not exposed by the application")))]); (VDict [((u "name"), (VStr (u "visibility:public"))); ((u "description"), (VStr (u "This resource is public and available to everyone")))])])); ((u "bindings"), (VDict [((u "mqtt"), (VDict [((u "clientId"), (VStr (u "websocketServer")))]))]))]))])); ((u "channels"), (VDict [((u "notifyAllCommentLiked"), (VDict [((u "address"), (VStr (u "comment/liked"))); ((u "messages"), (VDict [((u "commentLiked"), (VDict [((u "$ref"), (VStr (u "../common/messages.yaml#/commentLiked")))]))])); ((u "description"), (VStr (u "Notify all the services that a comment has been liked."))); ((u "servers"), (VList [(VDict [((u "$ref"), (VStr (u "#/servers/mosquitto")))])]))])); ((u "newLikeComment"), (VDict [((u "address"), (VStr (u "like/comment"))); ((u "messages"), (VDict [((u "likeComment"), (VDict [((u "$ref"), (VStr (u "../common/messages.yaml#/likeComment")))]))])); ((u "description"), (VStr (u "When a comment like is received from the frontend."))); ((u "servers"), (VList [(VDict [((u "$ref"), (VStr (u "#/servers/websiteWebSocketServer")))])]))])); ((u "commentsCountChange"), (VDict [((u "address"), (VStr (u "comment/{commentId}/changed"))); ((u "messages"), (VDict [((u "commentChanged"), (VDict [((u "$ref"), (VStr (u "../common/messages.yaml#/commentChanged")))]))])); ((u "description"), (VStr (u "When an event from the broker arrives telling us to update the comment likes count on the frontend."))); ((u "servers"), (VList [(VDict [((u "$ref"), (VStr (u "#/servers/mosquitto")))])])); ((u "parameters"), (VDict [((u "commentId"), (VDict [((u "$ref"), (VStr (u "../common/parameters.yaml#/commentId")))]))]))])); ((u "updateCommentsCount"), (VDict [((u "address"), (VStr (u "update/comment/likes"))); ((u "messages"), (VDict [((u "updateCommentLikes"), (VDict [((u "$ref"), (VStr (u "../common/messages.yaml#/updateCommentLikes")))]))])); ((u "description"), (VStr (u "Update comment likes count in the frontend."))); ((u "servers"), (VList [(VDict [((u "$ref"), (VStr (u "#/servers/websiteWebSocketServer")))])]))]))])); ((u "operations"), (VDict [((u "sendCommentLiked"), (VDict [((u "action"), (VStr (u "send"))); ((u "channel"), (VDict [((u "$ref"), (VStr (u "#/channels/notifyAllCommentLiked")))])); ((u "messages"), (VList [(VDict [((u "$ref"), (VStr (u "#/channels/notifyAllCommentLiked/messages/commentLiked")))])]))])); ((u "receiveCommentLike"), (VDict [((u "action"), (VStr (u "receive"))); ((u "channel"), (VDict [((u "$ref"), (VStr (u "#/channels/newLikeComment")))])); ((u "messages"), (VList [(VDict [((u "$ref"), (VStr (u "#/channels/newLikeComment/messages/likeComment")))])]))])); ((u "receiveCommentChange"), (VDict [((u "action"), (VStr (u "receive"))); ((u "channel"), (VDict [((u "$ref"), (VStr (u "#/channels/commentsCountChange")))])); ((u "messages"), (VList [(VDict [((u "$ref"), (VStr (u "#/channels/commentsCountChange/messages/commentChanged")))])]))])); ((u "sendCommentLikeUpdate"), (VDict [((u "action"), (VStr (u "send"))); ((u "channel"), (VDict [((u "$ref"), (VStr (u "#/channels/updateCommentsCount")))])); ((u "messages"), (VList [(VDict [((u "$ref"), (VStr (u "#/channels/updateCommentsCount/messages/updateCommentLikes")))])]))]))]))])))];
t "fixtures/yaml_specs/valid/multi_files/comments-service/asyncapi.yaml" [SDo (XNew "AsyncAPI3" (XVal (VDict [((u "asyncapi"), (VStr (u "3.0.0"))); ((u "info"), (VDict [((u "title"), (VStr (u "Comments Service"))); ((u "version"), (VStr (u "1.0.0"))); ((u "description"), (VStr (u "This service is in charge of processing all the events related to comments.")))])); ((u "servers"), (VDict [((u "mosquitto"), (VDict [((u "host"), (VStr (u "test.mosquitto.org"))); ((u "protocol"), (VStr (u "mqtt"))); ((u "tags"), (VList [(VDict [((u "name"), (VStr (u "env:production"))); ((u "description"), (VStr (u "This environment is meant for production use case")))]); (VDict [((u "name"), (VStr (u "kind:remote"))); ((u "description"), (VStr (u "This server is a remote server. Not exposed by the application")))]); (VDict [((u "name"), (VStr (u "visibility:public"))); ((u "description"), (VStr (u "This resource is public and available to everyone")))])])); ((u "bindings"), (VDict [((u "mqtt"), (VDict [((u "clientId"), (VStr (u "comment-service")))]))]))]))])); ((u "channels"), (VDict [((u "commentLiked"), (VDict [((u "address"), (VStr (u "comment/liked"))); ((u "messages"), (VDict [((u "commentLiked"), (VDict [((u "$ref"), (VStr (u "../common/messages.yaml#/commentLiked")))]))])); ((u "description"), (VStr (u "Updates the likes count in the database and sends the new count to the broker.")))])); ((u "commentCountChange"), (VDict [((u "address"), (VStr (u "comment/{commentId}/changed"))); ((u "messages"), (VDict [((u "commentChanged"), (VDict [((u "$ref"), (VStr (u "../common/messages.yaml#/commentChanged")))]))])); ((u "description"), (VStr (u "Sends the new count to the broker after it has been updated in the database."))); ((u "parameters"), (VDict [((u "commentId"), (VDict [((u "$ref"), (VStr (u "../common/parameters.yaml#/commentId")))]))]))]))])); ((u "operations"), (VDict [((u "receiveCommentLiked"), (VDict [((u "action"), (VStr (u "receive"))); ((u "channel"), (VDict [((u "$ref"), (VStr (u "#/channels/commentLiked")))])); ((u "messages"), (VList [(VDict [((u "$ref"), (VStr (u "#/channels/commentLiked/messages/commentLiked")))])]))])); ((u "sendCommentChange"), (VDict [((u "action"), (VStr (u "send"))); ((u "channel"), (VDict [((u "$ref"), (VStr (u "#/channels/commentCountChange")))])); ((u "messages"), (VList [(VDict [((u "$ref"), (VStr (u "#/channels/commentCountChange/messages/commentChanged")))])]))]))]))])))];
t "fixtures/yaml_specs/valid/multi_files/frontend/asyncapi.yaml" [SDo (XNew "AsyncAPI3" (XVal (VDict [((u "asyncapi"), (VStr (u "3.0.0"))); ((u "info"), (VDict [((u "title"), (VStr (u "Website WebSocket Client"))); ((u "version"), (VStr (u "1.0.0")))])); ((u "servers"), (VDict [((u "websiteWebSocketServer"), (VDict [((u "$ref"), (VStr (u "../common/servers.yaml#/websiteWebSocketServer")))]))])); ((u "channels"), (VDict [((u "likeComment"), (VDict [((u "address"), (VStr (u "like/comment"))); ((u "messages"), (VDict [((u "likeComment"), (VDict [((u "$ref"), (VStr (u "../common/messages.yaml#/likeComment")))]))])); ((u "description"), (VStr (u "Notify the backend that a comment has been liked.")))])); ((u "updateCommentLike"), (VDict [((u "address"), (VStr (u "update/comment/likes"))); ((u "messages"), (VDict [((u "updateCommentLikes"), (VDict [((u "$ref"), (VStr (u "../common/messages.yaml#/updateCommentLikes")))]))])); ((u "description"), (VStr (u "Update the UI when the comment likes count is updated.")))]))])); ((u "operations"), (VDict [((u "sendLikeComment"), (VDict [((u "action"), (VStr (u "send"))); ((u "channel"), (VDict [((u "$ref"), (VStr (u "#/channels/likeComment")))])); ((u "messages"), (VList [(VDict [((u "$ref"), (VStr (u "#/channels/likeComment/messages/likeComment")))])]))])); ((u "receiveUpdateCommentLiked"), (VDict [((u "action"), (VStr (u "receive"))); ((u "channel"), (VDict [((u "$ref"), (VStr (u "#/channels/updateCommentLike")))])); ((u "messages"), (VList [(VDict [((u "$ref"), (VStr (u "#/channels/updateCommentLike/messages/updateCommentLikes")))])]))]))]))])))];
t "fixtures/yaml_specs/valid/multi_files/notification-service/asyncapi.yaml" [SDo (XNew "AsyncAPI3" (XVal (VDict [((u "asyncapi"), (VStr (u "3.0.0"))); ((u "info"), (VDict [((u "title"), (VStr (u "Notifications Service"))); ((u "version"), (VStr (u "1.0.0")))])); ((u "servers"), (VDict [((u "mosquitto"), (VDict [((u "host"), (VStr (u "test.mosquitto.org"))); ((u "protocol"), (VStr (u "mqtt"))); ((u "tags"), (VList [(VDict [((u "name"), (VStr (u "env:production"))); ((u "description"), (VStr (u "This environment is meant for production use case")))]); (VDict [((u "name"), (VStr (u "kind:remote"))); ((u "description"), (VStr (u "This server is a remote server. Not exposed by the application")))]); (VDict [((u "name"), (VStr (u "visibility:public"))); ((u "description"), (VStr (u "This resource is public and available to everyone")))])])); ((u "bindings"), (VDict [((u "mqtt"), (VDict [((u "clientId"), (VStr (u "notification-service")))]))]))]))])); ((u "channels"), (VDict [((u "commentLiked"), (VDict [((u "address"), (VStr (u "comment/liked"))); ((u "messages"), (VDict [((u "commentLiked"), (VDict [((u "$ref"), (VStr (u "../common/messages.yaml#/commentLiked")))]))])); ((u "description"), (VStr (u "When a ""comment has been liked"" message is received, it sends an SMS or push notification to the author.")))]))])); ((u "operations"), (VDict [((u "receiveCommentLiked"), (VDict [((u "action"), (VStr (u "receive"))); ((u "channel"), (VDict [((u "$ref"), (VStr (u "#/channels/commentLiked")))])); ((u "messages"), (VList [(VDict [((u "$ref"), (VStr (u "#/channels/commentLiked/messages/commentLiked")))])]))]))]))])))];
t "fixtures/yaml_specs/valid/multi_files/public-api/asyncapi.yaml" [SDo (XNew "AsyncAPI3" (XVal (VDict [((u "asyncapi"), (VStr (u "3.0.0"))); ((u "info"), (VDict [((u "title"), (VStr (u "Public API"))); ((u "version"), (VStr (u "1.0.0"))); ((u "description"), (VStr (u "Public API for others to interact with the system")))])); ((u "servers"), (VDict [((u "mosquitto"), (VDict [((u "host"), (VStr (u "test.mosquitto.org"))); ((u "protocol"), (VStr (u "mqtt"))); ((u "tags"), (VList [(VDict [((u "name"), (VStr (u "env:production"))); ((u "description"), (VStr (u "This environment is meant for production use case")))]); (VDict [((u "name"), (VStr (u "kind:remote"))); ((u "description"), (VStr (u "This server is a remote server. Not exposed by the application")))]); (VDict [((u "name"), (VStr (u "visibility:public"))); ((u "description"), (VStr (u "This resource is public and available to everyone")))])])); ((u "bindings"), (VDict [((u "mqtt"), (VDict [((u "clientId"), (VStr (u "public-api")))]))]))]))])); ((u "channels"), (VDict [((u "commentLiked"), (VDict [((u "address"), (VStr (u "comment/liked"))); ((u "messages"), (VDict [((u "commentLiked"), (VDict [((u "$ref"), (VStr (u "../common/messages.yaml#/commentLiked")))]))])); ((u "description"), (VStr (u "Others are publishing to you, whenever a comment is liked, for you to do react to such an event.")))]))])); ((u "operations"), (VDict [((u "receiveCommentLiked"), (VDict [((u "action"), (VStr (u "receive"))); ((u "channel"), (VDict [((u "$ref"), (VStr (u "#/channels/commentLiked")))])); ((u "messages"), (VList [(VDict [((u "$ref"), (VStr (u "#/channels/commentLiked/messages/commentLiked")))])]))]))]))])))]].
(** 34 tests *)
Definition tests := (part0)%list.
Example specs_accepted : failing tests = [] /\ length tests = 34.
Proof. vm_compute. split; reflexivity. Qed.
