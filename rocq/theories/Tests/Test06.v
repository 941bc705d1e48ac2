(** Generated by tools/mktests.py: the tests of /repo/tests/test_06_oidc.py on the model. *)
From Coq Require Import List NArith ZArith QArith Bool String.
From Verif Require Import Base.Ustr Base.Percent Model.Cls Model.Value Model.Pspec Model.Tables Model.Json Model.Message Model.Env Model.Verify
  Model.Jose Model.Dispatch Model.Serializers Model.RequestObject Model.IdentityAssurance Model.Calendar Model.TimeUtil Model.Config Tests.TestKit.
Import ListNotations.
Open Scope list_scope.
Open Scope N_scope.

(** the clock of the tests and their key jars: key 7 for the owners *)
Definition now : Z := 1600000000.
Definition rub : ustr := u "https://alpha.cloud.nds.rub.de".
Definition pass : ustr := u "https://sso.qa.7pass.ctf.prosiebensat1.com".
Definition made_of (r : res value) (l : list ustr) : bool := match r with Ok (VMsg _ d) => same (dkeys d) l | _ => false end.
Definition is_link (r : res value) : bool := match r with Ok (VList (VMsg c _ :: _)) => if cls_eq_dec c C_oidc_Link then true else false | _ => false end.
Definition dict_keys (r : res value) (l : list ustr) : bool := match r with Ok (VDict d) => same (dkeys d) l | _ => false end.
Definition read (k : deserk) (f : sfmt) (r : res value) : res value := do v <- r ; l_deser the_lib k v f.
Definition packer_of (owners : list ustr) : packer := {| k_pack := fun iss alg _ lifetime payload owner recv =>
  if umem owner owners then
    do t <- json_dumps (VDict (payload ++ [(u "iss", VStr iss); (u "iat", VInt now); (u "aud", VList [VStr recv])])) ; Ok (toy_sign t alg 7)
  else Err ECrypto |}.
Definition mess_up (s : ustr) : ustr := match s with a :: k :: r => a :: (k + 1) :: r | _ => s end.

(** test_06_oidc.py:84-87 *)
Example test_openidschema :
  all [
  no (match (read_json (cdef C_oidc_OpenIDSchema) (u "{""middle_name"":null, ""updated_at"":""20170328081544"", ""sub"":""abc""}")) with Ok d => verify no_env (args []) None C_oidc_OpenIDSchema d | Err e => ([], Err e) end)] = true.
Proof. vm_compute. reflexivity. Qed.

(** test_06_oidc.py:96-98 *)
Example test_openidschema_from_json :
  all [
  raises EValueError (read_json (cdef C_oidc_OpenIDSchema) (u "{""middle_name"":""fo"", ""updated_at"":""20170328081544Z"", ""sub"":""abc""}"));
  raises EValueError (read_json (cdef C_oidc_OpenIDSchema) (u "{""middle_name"":true, ""updated_at"":""20170328081544"", ""sub"":""abc""}"));
  raises EValueError (read_json (cdef C_oidc_OpenIDSchema) (u "{""middle_name"":""fo"", ""updated_at"":false, ""sub"":""abc""}"));
  raises EValueError (read_json (cdef C_oidc_OpenIDSchema) (u "{""middle_name"":""fo"", ""updated_at"":""20170328081544Z"", ""sub"":true}"))] = true.
Proof. vm_compute. reflexivity. Qed.

(** test_06_oidc.py:109-110 *)
Example test_claim_booleans :
  all [
  is_ok (read_json (cdef C_oidc_OpenIDSchema) (u "{""email_verified"":false, ""email"":""foo@example.com"", ""sub"":""abc""}"));
  is_ok (read_json (cdef C_oidc_OpenIDSchema) (u "{""email_verified"":true, ""email"":""foo@example.com"", ""sub"":""abc""}"));
  is_ok (read_json (cdef C_oidc_OpenIDSchema) (u "{""phone_number_verified"":false, ""phone_number"":""+1 555 200000"", ""sub"":""abc""}"));
  is_ok (read_json (cdef C_oidc_OpenIDSchema) (u "{""phone_number_verified"":true, ""phone_number"":""+1 555 20000"", ""sub"":""abc""}"))] = true.
Proof. vm_compute. reflexivity. Qed.

(** test_06_oidc.py:121-123 *)
Example test_claim_not_booleans :
  all [
  raises EValueError (read_json (cdef C_oidc_OpenIDSchema) (u "{""email_verified"":""Not"", ""email"":""foo@example.com"", ""sub"":""abc""}"));
  raises EValueError (read_json (cdef C_oidc_OpenIDSchema) (u "{""email_verified"":""Sure"", ""email"":""foo@example.com"", ""sub"":""abc""}"));
  raises EValueError (read_json (cdef C_oidc_OpenIDSchema) (u "{""phone_number_verified"":""Not"", ""phone_number"":""+1 555 200000"", ""sub"":""abc""}"));
  raises EValueError (read_json (cdef C_oidc_OpenIDSchema) (u "{""phone_number_verified"":""Sure"", ""phone_number"":""+1 555 20000"", ""sub"":""abc""}"))] = true.
Proof. vm_compute. reflexivity. Qed.

(** test_06_oidc.py:126-143 *)
Example test_claims_deser :
  all [
  made_of (read (DeOneOf C_oidc_Claims) Fjson (Ok (VStr (u "{""userinfo"": {""given_name"": {""essential"": true}, ""nickname"": null, ""email"": {""essential"": true}, ""email_verified"": {""essential"": true}, ""picture"": null, ""http://example.info/claims/groups"": null}, ""id_token"": {""auth_time"": {""essential"": true}, ""acr"": {""values"": [""urn:mace:incommon:iap:silver""]}}}")))) [(u "userinfo"); (u "id_token")]] = true.
Proof. vm_compute. reflexivity. Qed.

(** test_06_oidc.py:146-157 *)
Example test_claims_deser_dict :
  all [
  made_of (read (DeOneOf C_oidc_Claims) Fjson (do x <- (do m <- (construct (cdef C_oidc_Claims) [((u "name"), (VDict [((u "essential"), (VBool true))])); ((u "nickname"), VNone); ((u "email"), (VDict [((u "essential"), (VBool true))])); ((u "email_verified"), (VDict [((u "essential"), (VBool true))])); ((u "picture"), VNone)]) ; to_json (cdef C_oidc_Claims) m) ; Ok (VStr x))) [(u "name"); (u "nickname"); (u "email"); (u "email_verified"); (u "picture")];
  made_of (read (DeOneOf C_oidc_Claims) Fdict (do m <- (construct (cdef C_oidc_Claims) [((u "name"), (VDict [((u "essential"), (VBool true))])); ((u "nickname"), VNone); ((u "email"), (VDict [((u "essential"), (VBool true))])); ((u "email_verified"), (VDict [((u "essential"), (VBool true))])); ((u "picture"), VNone)]) ; do x <- to_dict (cdef C_oidc_Claims) m ; Ok (VDict x))) [(u "name"); (u "nickname"); (u "email"); (u "email_verified"); (u "picture")]] = true.
Proof. vm_compute. reflexivity. Qed.

(** test_06_oidc.py:160-168 *)
Example test_address_deser :
  all [
  made_of (read (DeOneOf C_oidc_AddressClaim) Fjson (do x <- (do m <- (construct (cdef C_oidc_AddressClaim) [((u "street_address"), (VStr (u "Kasamark 114"))); ((u "locality"), (VStr (u "Umea"))); ((u "country"), (VStr (u "Sweden")))]) ; to_json (cdef C_oidc_AddressClaim) m) ; Ok (VStr x))) [(u "street_address"); (u "locality"); (u "country")];
  made_of (read (DeOneOf C_oidc_AddressClaim) Fjson (do m <- (construct (cdef C_oidc_AddressClaim) [((u "street_address"), (VStr (u "Kasamark 114"))); ((u "locality"), (VStr (u "Umea"))); ((u "country"), (VStr (u "Sweden")))]) ; do x <- to_dict (cdef C_oidc_AddressClaim) m ; Ok (VDict x))) [(u "street_address"); (u "locality"); (u "country")]] = true.
Proof. vm_compute. reflexivity. Qed.

(** test_06_oidc.py:171-178 *)
Example test_msg_ser_json :
  all [
  made_of (read (DeOneOf C_oidc_AddressClaim) Fjson (do v <- (do m <- (construct (cdef C_oidc_AddressClaim) [((u "street_address"), (VStr (u "Kasamark 114"))); ((u "locality"), (VStr (u "Umea"))); ((u "country"), (VStr (u "Sweden")))]) ; Ok (VMsg C_oidc_AddressClaim m)) ; msg_ser_json v (u "json") 0)) [(u "street_address"); (u "locality"); (u "country")]] = true.
Proof. vm_compute. reflexivity. Qed.

(** test_06_oidc.py:181-188 *)
Example test_msg_ser_json_from_dict :
  all [
  made_of (read (DeOneOf C_oidc_AddressClaim) Fjson (do v <- (Ok (VDict [((u "street_address"), (VStr (u "Kasamark 114"))); ((u "locality"), (VStr (u "Umea"))); ((u "country"), (VStr (u "Sweden")))])) ; msg_ser_json v (u "json") 0)) [(u "street_address"); (u "locality"); (u "country")]] = true.
Proof. vm_compute. reflexivity. Qed.

(** test_06_oidc.py:191-198 *)
Example test_msg_ser_json_to_dict :
  all [
  made_of (read (DeOneOf C_oidc_AddressClaim) Fdict (do v <- (do m <- (construct (cdef C_oidc_AddressClaim) [((u "street_address"), (VStr (u "Kasamark 114"))); ((u "locality"), (VStr (u "Umea"))); ((u "country"), (VStr (u "Sweden")))]) ; Ok (VMsg C_oidc_AddressClaim m)) ; msg_ser_json v (u "dict") 0)) [(u "street_address"); (u "locality"); (u "country")]] = true.
Proof. vm_compute. reflexivity. Qed.

(** test_06_oidc.py:201-209 *)
Example test_msg_ser_dict_to_dict :
  all [
  made_of (read (DeOneOf C_oidc_AddressClaim) Fdict (do v <- (Ok (VDict [((u "street_address"), (VStr (u "Kasamark 114"))); ((u "locality"), (VStr (u "Umea"))); ((u "country"), (VStr (u "Sweden")))])) ; msg_ser_json v (u "dict") 0)) [(u "street_address"); (u "locality"); (u "country")]] = true.
Proof. vm_compute. reflexivity. Qed.

(** test_06_oidc.py:212-219 *)
Example test_msg_ser_urlencoded :
  all [
  made_of (read (DeOneOf C_oidc_AddressClaim) Furl (do v <- (do m <- (construct (cdef C_oidc_AddressClaim) [((u "street_address"), (VStr (u "Kasamark 114"))); ((u "locality"), (VStr (u "Umea"))); ((u "country"), (VStr (u "Sweden")))]) ; do x <- to_dict (cdef C_oidc_AddressClaim) m ; Ok (VDict x)) ; msg_ser v (u "urlencoded") 0)) [(u "street_address"); (u "locality"); (u "country")]] = true.
Proof. vm_compute. reflexivity. Qed.

(** test_06_oidc.py:222-229 *)
Example test_msg_ser_dict :
  all [
  made_of (read (DeOneOf C_oidc_AddressClaim) Fdict (do v <- (do m <- (construct (cdef C_oidc_AddressClaim) [((u "street_address"), (VStr (u "Kasamark 114"))); ((u "locality"), (VStr (u "Umea"))); ((u "country"), (VStr (u "Sweden")))]) ; do x <- to_dict (cdef C_oidc_AddressClaim) m ; Ok (VDict x)) ; msg_ser v (u "dict") 0)) [(u "street_address"); (u "locality"); (u "country")]] = true.
Proof. vm_compute. reflexivity. Qed.

(** test_06_oidc.py:232-241 *)
Example test_msg_ser_from_dict :
  all [
  made_of (read (DeOneOf C_oidc_AddressClaim) Fdict (do v <- (Ok (VDict [((u "street_address"), (VStr (u "Kasamark 114"))); ((u "locality"), (VStr (u "Umea"))); ((u "country"), (VStr (u "Sweden")))])) ; msg_ser v (u "dict") 0)) [(u "street_address"); (u "locality"); (u "country")]] = true.
Proof. vm_compute. reflexivity. Qed.

(** test_06_oidc.py:244-250 *)
Example test_claims_ser_json :
  all [
  made_of (read (DeOneOf C_oidc_Claims) Fjson (do v <- (do m <- (construct (cdef C_oidc_Claims) [((u "name"), (VDict [((u "essential"), (VBool true))])); ((u "nickname"), VNone); ((u "email"), (VDict [((u "essential"), (VBool true))])); ((u "email_verified"), (VDict [((u "essential"), (VBool true))])); ((u "picture"), VNone)]) ; Ok (VMsg C_oidc_Claims m)) ; claims_ser v (u "json") 0)) [(u "name"); (u "nickname"); (u "email"); (u "email_verified"); (u "picture")]] = true.
Proof. vm_compute. reflexivity. Qed.

(** test_06_oidc.py:253-263 *)
Example test_claims_ser_from_dict_to_json :
  all [
  keys_are (do v <- (do v <- (Ok (VDict [((u "name"), (VDict [((u "essential"), (VBool true))])); ((u "nickname"), VNone); ((u "email"), (VDict [((u "essential"), (VBool true))])); ((u "email_verified"), (VDict [((u "essential"), (VBool true))])); ((u "picture"), VNone)])) ; claims_ser v (u "json") 0) ; match v with VStr x => read_json (cdef C_oidc_Claims) x | _ => Err ETypeError end) [(u "name"); (u "nickname"); (u "email"); (u "email_verified"); (u "picture")]] = true.
Proof. vm_compute. reflexivity. Qed.

(** test_06_oidc.py:266-276 *)
Example test_claims_ser_from_dict_to_urlencoded :
  all [
  keys_are (do v <- (do v <- (Ok (VDict [((u "name"), (VDict [((u "essential"), (VBool true))])); ((u "nickname"), VNone); ((u "email"), (VDict [((u "essential"), (VBool true))])); ((u "email_verified"), (VDict [((u "essential"), (VBool true))])); ((u "picture"), VNone)])) ; claims_ser v (u "urlencoded") 0) ; match v with VStr x => read_url (cdef C_oidc_Claims) x | _ => Err ETypeError end) [(u "name"); (u "nickname"); (u "email"); (u "email_verified"); (u "picture")]] = true.
Proof. vm_compute. reflexivity. Qed.

(** test_06_oidc.py:279-289 *)
Example test_claims_ser_from_dict_to_dict :
  all [
  keys_are (do v <- (do v <- (Ok (VDict [((u "name"), (VDict [((u "essential"), (VBool true))])); ((u "nickname"), VNone); ((u "email"), (VDict [((u "essential"), (VBool true))])); ((u "email_verified"), (VDict [((u "essential"), (VBool true))])); ((u "picture"), VNone)])) ; claims_ser v (u "dict") 0) ; match v with VDict x => construct (cdef C_oidc_Claims) x | _ => Err ETypeError end) [(u "name"); (u "nickname"); (u "email"); (u "email_verified"); (u "picture")]] = true.
Proof. vm_compute. reflexivity. Qed.

(** test_06_oidc.py:292-300 *)
Example test_claims_ser_from_dict_to_foo :
  all [
  raises EOidcMsgError (do v <- (Ok (VDict [((u "name"), (VDict [((u "essential"), (VBool true))])); ((u "nickname"), VNone); ((u "email"), (VDict [((u "essential"), (VBool true))])); ((u "email_verified"), (VDict [((u "essential"), (VBool true))])); ((u "picture"), VNone)])) ; claims_ser v (u "foo") 0)] = true.
Proof. vm_compute. reflexivity. Qed.

(** test_06_oidc.py:303-311 *)
Example test_claims_ser_wrong_type :
  all [
  raises EMessageException (do v <- (Ok (VStr (u "{""name"": {""essential"": true}, ""nickname"": null, ""email"": {""essential"": true}, ""email_verified"": {""essential"": true}, ""picture"": null}"))) ; claims_ser v (u "dict") 0)] = true.
Proof. vm_compute. reflexivity. Qed.

(** test_06_oidc.py:314-321 *)
Example test_discovery_request :
  all [
  keys_are (read_json (cdef C_oidc_DiscoveryRequest) (u "{""rel"": ""http://openid.net/specs/connect/1.0/issuer"", ""resource"": ""diana@localhost""}")) [(u "rel"); (u "resource")]] = true.
Proof. vm_compute. reflexivity. Qed.

(** test_06_oidc.py:324-330 *)
Example test_discovery_response :
  all [
  keys_are (do l <- (do m <- (construct (cdef C_oidc_Link) [((u "href"), (VStr (u "https://example.com/op"))); ((u "rel"), (VStr (u "http://openid.net/specs/connect/1.0/issuer")))]) ; Ok (VMsg C_oidc_Link m)) ; construct (cdef C_oidc_JRD) [(u "subject", (VStr (u "diana@localhost"))); (u "links", VList [l])]) [(u "subject"); (u "links")]] = true.
Proof. vm_compute. reflexivity. Qed.

(** test_06_oidc.py:333-338 *)
Example test_link_ser1 :
  all [
  dict_keys (do v <- (do v <- (do m <- (construct (cdef C_oidc_Link) [((u "href"), (VStr (u "https://example.com/op"))); ((u "rel"), (VStr (u "http://openid.net/specs/connect/1.0/issuer")))]) ; Ok (VMsg C_oidc_Link m)) ; link_ser v (u "json") 0) ; match v with VStr x => json_loads x | _ => Err ETypeError end) [(u "href"); (u "rel")]] = true.
Proof. vm_compute. reflexivity. Qed.

(** test_06_oidc.py:341-353 *)
Example test_link_ser_dict :
  all [
  dict_keys (do v <- (do v <- (Ok (VDict [((u "href"), (VStr (u "https://example.com/op"))); ((u "rel"), (VStr (u "http://openid.net/specs/connect/1.0/issuer")))])) ; link_ser v (u "json") 0) ; match v with VStr x => json_loads x | _ => Err ETypeError end) [(u "href"); (u "rel")];
  match (do v <- (Ok (VDict [((u "href"), (VStr (u "https://example.com/op"))); ((u "rel"), (VStr (u "http://openid.net/specs/connect/1.0/issuer")))])) ; link_ser v (u "urlencoded") 0) with Ok (VStr x) => truthy (VStr x) && same (map fst (parse_qs x)) [(u "href"); (u "rel")] | _ => false end] = true.
Proof. vm_compute. reflexivity. Qed.

(** test_06_oidc.py:357-399 *)
Example TestProviderConfigurationResponse_test_deserialize :
  all [
  raises EMissingRequiredAttribute (snd (match (read_json (cdef C_oidc_ProviderConfigurationResponse) (u "{""authorization_endpoint"": ""https://server.example.com/connect/authorize"", ""issuer"": ""https://server.example.com"", ""token_endpoint"": ""https://server.example.com/connect/token"", ""token_endpoint_auth_methods_supported"": [""client_secret_basic"", ""private_key_jwt""], ""userinfo_endpoint"": ""https://server.example.com/connect/user"", ""check_id_endpoint"": ""https://server.example.com/connect/check_id"", ""refresh_session_endpoint"": ""https://server.example.com/connect/refresh_session"", ""end_session_endpoint"": ""https://server.example.com/connect/end_session"", ""jwk_url"": ""https://server.example.com/jwk.json"", ""registration_endpoint"": ""https://server.example.com/connect/register"", ""scopes_supported"": [""openid"", ""profile"", ""email"", ""address"", ""phone""], ""response_types_supported"": [""code"", ""code id_token"", ""token id_token""], ""acrs_supported"": [""1"", ""2"", ""http://id.incommon.org/assurance/bronze""], ""user_id_types_supported"": [""public"", ""pairwise""], ""userinfo_algs_supported"": [""HS256"", ""RS256"", ""A128CBC"", ""A128KW"", ""RSA1_5""], ""id_token_algs_supported"": [""HS256"", ""RS256"", ""A128CBC"", ""A128KW"", ""RSA1_5""], ""request_object_algs_supported"": [""HS256"", ""RS256"", ""A128CBC"", ""A128KW"", ""RSA1_5""]}")) with Ok d => verify no_env (args []) None C_oidc_ProviderConfigurationResponse d | Err e => ([], Err e) end));
  item_is (read_json (cdef C_oidc_ProviderConfigurationResponse) (u "{""authorization_endpoint"": ""https://server.example.com/connect/authorize"", ""issuer"": ""https://server.example.com"", ""token_endpoint"": ""https://server.example.com/connect/token"", ""token_endpoint_auth_methods_supported"": [""client_secret_basic"", ""private_key_jwt""], ""userinfo_endpoint"": ""https://server.example.com/connect/user"", ""check_id_endpoint"": ""https://server.example.com/connect/check_id"", ""refresh_session_endpoint"": ""https://server.example.com/connect/refresh_session"", ""end_session_endpoint"": ""https://server.example.com/connect/end_session"", ""jwk_url"": ""https://server.example.com/jwk.json"", ""registration_endpoint"": ""https://server.example.com/connect/register"", ""scopes_supported"": [""openid"", ""profile"", ""email"", ""address"", ""phone""], ""response_types_supported"": [""code"", ""code id_token"", ""token id_token""], ""acrs_supported"": [""1"", ""2"", ""http://id.incommon.org/assurance/bronze""], ""user_id_types_supported"": [""public"", ""pairwise""], ""userinfo_algs_supported"": [""HS256"", ""RS256"", ""A128CBC"", ""A128KW"", ""RSA1_5""], ""id_token_algs_supported"": [""HS256"", ""RS256"", ""A128CBC"", ""A128KW"", ""RSA1_5""], ""request_object_algs_supported"": [""HS256"", ""RS256"", ""A128CBC"", ""A128KW"", ""RSA1_5""]}")) (u "user_id_types_supported") (VList [(VStr (u "public")); (VStr (u "pairwise"))]);
  item_is (read_json (cdef C_oidc_ProviderConfigurationResponse) (u "{""authorization_endpoint"": ""https://server.example.com/connect/authorize"", ""issuer"": ""https://server.example.com"", ""token_endpoint"": ""https://server.example.com/connect/token"", ""token_endpoint_auth_methods_supported"": [""client_secret_basic"", ""private_key_jwt""], ""userinfo_endpoint"": ""https://server.example.com/connect/user"", ""check_id_endpoint"": ""https://server.example.com/connect/check_id"", ""refresh_session_endpoint"": ""https://server.example.com/connect/refresh_session"", ""end_session_endpoint"": ""https://server.example.com/connect/end_session"", ""jwk_url"": ""https://server.example.com/jwk.json"", ""registration_endpoint"": ""https://server.example.com/connect/register"", ""scopes_supported"": [""openid"", ""profile"", ""email"", ""address"", ""phone""], ""response_types_supported"": [""code"", ""code id_token"", ""token id_token""], ""acrs_supported"": [""1"", ""2"", ""http://id.incommon.org/assurance/bronze""], ""user_id_types_supported"": [""public"", ""pairwise""], ""userinfo_algs_supported"": [""HS256"", ""RS256"", ""A128CBC"", ""A128KW"", ""RSA1_5""], ""id_token_algs_supported"": [""HS256"", ""RS256"", ""A128CBC"", ""A128KW"", ""RSA1_5""], ""request_object_algs_supported"": [""HS256"", ""RS256"", ""A128CBC"", ""A128KW"", ""RSA1_5""]}")) (u "acrs_supported") (VList [(VStr (u "1")); (VStr (u "2")); (VStr (u "http://id.incommon.org/assurance/bronze"))])] = true.
Proof. vm_compute. reflexivity. Qed.

(** test_06_oidc.py:401-462 *)
Example TestProviderConfigurationResponse_test_example_response :
  all [
  yes (match (read_json (cdef C_oidc_ProviderConfigurationResponse) (u "{""version"": ""3.0"", ""issuer"": ""https://server.example.com"", ""authorization_endpoint"": ""https://server.example.com/connect/authorize"", ""token_endpoint"": ""https://server.example.com/connect/token"", ""token_endpoint_auth_methods_supported"": [""client_secret_basic"", ""private_key_jwt""], ""token_endpoint_alg_values_supported"": [""RS256"", ""ES256""], ""userinfo_endpoint"": ""https://server.example.com/connect/userinfo"", ""check_session_iframe"": ""https://server.example.com/connect/check_session"", ""end_session_endpoint"": ""https://server.example.com/connect/end_session"", ""jwks_uri"": ""https://server.example.com/jwks.json"", ""registration_endpoint"": ""https://server.example.com/connect/register"", ""scopes_supported"": [""openid"", ""profile"", ""email"", ""address"", ""phone"", ""offline_access""], ""response_types_supported"": [""code"", ""code id_token"", ""id_token"", ""token id_token""], ""acr_values_supported"": [""urn:mace:incommon:iap:silver"", ""urn:mace:incommon:iap:bronze""], ""subject_types_supported"": [""public"", ""pairwise""], ""userinfo_signing_alg_values_supported"": [""RS256"", ""ES256"", ""HS256""], ""userinfo_encryption_alg_values_supported"": [""RSA1_5"", ""A128KW""], ""userinfo_encryption_enc_values_supported"": [""A128CBC+HS256"", ""A128GCM""], ""id_token_signing_alg_values_supported"": [""RS256"", ""ES256"", ""HS256""], ""id_token_encryption_alg_values_supported"": [""RSA1_5"", ""A128KW""], ""id_token_encryption_enc_values_supported"": [""A128CBC+HS256"", ""A128GCM""], ""request_object_signing_alg_values_supported"": [""none"", ""RS256"", ""ES256""], ""display_values_supported"": [""page"", ""popup""], ""claim_types_supported"": [""normal"", ""distributed""], ""claims_supported"": [""sub"", ""iss"", ""auth_time"", ""acr"", ""name"", ""given_name"", ""family_name"", ""nickname"", ""profile"", ""picture"", ""website"", ""email"", ""email_verified"", ""locale"", ""zoneinfo"", ""http://example.info/claims/groups""], ""claims_parameter_supported"": true, ""service_documentation"": ""http://server.example.com/connect/service_documentation.html"", ""ui_locales_supported"": [""en-US"", ""en-GB"", ""en-CA"", ""fr-FR"", ""fr-CA""]}")) with Ok d => verify no_env (args []) None C_oidc_ProviderConfigurationResponse d | Err e => ([], Err e) end);
  keys_are (keep (match (read_json (cdef C_oidc_ProviderConfigurationResponse) (u "{""version"": ""3.0"", ""issuer"": ""https://server.example.com"", ""authorization_endpoint"": ""https://server.example.com/connect/authorize"", ""token_endpoint"": ""https://server.example.com/connect/token"", ""token_endpoint_auth_methods_supported"": [""client_secret_basic"", ""private_key_jwt""], ""token_endpoint_alg_values_supported"": [""RS256"", ""ES256""], ""userinfo_endpoint"": ""https://server.example.com/connect/userinfo"", ""check_session_iframe"": ""https://server.example.com/connect/check_session"", ""end_session_endpoint"": ""https://server.example.com/connect/end_session"", ""jwks_uri"": ""https://server.example.com/jwks.json"", ""registration_endpoint"": ""https://server.example.com/connect/register"", ""scopes_supported"": [""openid"", ""profile"", ""email"", ""address"", ""phone"", ""offline_access""], ""response_types_supported"": [""code"", ""code id_token"", ""id_token"", ""token id_token""], ""acr_values_supported"": [""urn:mace:incommon:iap:silver"", ""urn:mace:incommon:iap:bronze""], ""subject_types_supported"": [""public"", ""pairwise""], ""userinfo_signing_alg_values_supported"": [""RS256"", ""ES256"", ""HS256""], ""userinfo_encryption_alg_values_supported"": [""RSA1_5"", ""A128KW""], ""userinfo_encryption_enc_values_supported"": [""A128CBC+HS256"", ""A128GCM""], ""id_token_signing_alg_values_supported"": [""RS256"", ""ES256"", ""HS256""], ""id_token_encryption_alg_values_supported"": [""RSA1_5"", ""A128KW""], ""id_token_encryption_enc_values_supported"": [""A128CBC+HS256"", ""A128GCM""], ""request_object_signing_alg_values_supported"": [""none"", ""RS256"", ""ES256""], ""display_values_supported"": [""page"", ""popup""], ""claim_types_supported"": [""normal"", ""distributed""], ""claims_supported"": [""sub"", ""iss"", ""auth_time"", ""acr"", ""name"", ""given_name"", ""family_name"", ""nickname"", ""profile"", ""picture"", ""website"", ""email"", ""email_verified"", ""locale"", ""zoneinfo"", ""http://example.info/claims/groups""], ""claims_parameter_supported"": true, ""service_documentation"": ""http://server.example.com/connect/service_documentation.html"", ""ui_locales_supported"": [""en-US"", ""en-GB"", ""en-CA"", ""fr-FR"", ""fr-CA""]}")) with Ok d => verify no_env (args []) None C_oidc_ProviderConfigurationResponse d | Err e => ([], Err e) end)) [(u "version"); (u "issuer"); (u "authorization_endpoint"); (u "token_endpoint"); (u "token_endpoint_auth_methods_supported"); (u "token_endpoint_alg_values_supported"); (u "userinfo_endpoint"); (u "check_session_iframe"); (u "end_session_endpoint"); (u "jwks_uri"); (u "registration_endpoint"); (u "scopes_supported"); (u "response_types_supported"); (u "acr_values_supported"); (u "subject_types_supported"); (u "userinfo_signing_alg_values_supported"); (u "userinfo_encryption_alg_values_supported"); (u "userinfo_encryption_enc_values_supported"); (u "id_token_signing_alg_values_supported"); (u "id_token_encryption_alg_values_supported"); (u "id_token_encryption_enc_values_supported"); (u "request_object_signing_alg_values_supported"); (u "display_values_supported"); (u "claim_types_supported"); (u "claims_supported"); (u "claims_parameter_supported"); (u "service_documentation"); (u "ui_locales_supported"); (u "grant_types_supported"); (u "request_parameter_supported"); (u "request_uri_parameter_supported"); (u "require_request_uri_registration")]] = true.
Proof. vm_compute. reflexivity. Qed.

(** test_06_oidc.py:472-485 *)
Example TestProviderConfigurationResponse_test_required_parameters :
  all [
  raises EMissingRequiredAttribute (snd (match (construct (cdef C_oidc_ProviderConfigurationResponse) [((u "authorization_endpoint"), (VStr (u "https://server.example.com/connect/authorize"))); ((u "jwks_uri"), (VStr (u "https://server.example.com/jwks.json"))); ((u "response_types_supported"), (VList [(VStr (u "code")); (VStr (u "code id_token")); (VStr (u "id_token")); (VStr (u "token id_token"))])); ((u "subject_types_supported"), (VList [(VStr (u "public")); (VStr (u "pairwise"))])); ((u "id_token_signing_alg_values_supported"), (VList [(VStr (u "RS256")); (VStr (u "ES256")); (VStr (u "HS256"))]))]) with Ok d => verify no_env (args []) None C_oidc_ProviderConfigurationResponse d | Err e => ([], Err e) end));
  raises EMissingRequiredAttribute (snd (match (construct (cdef C_oidc_ProviderConfigurationResponse) [((u "issuer"), (VStr (u "https://server.example.com"))); ((u "jwks_uri"), (VStr (u "https://server.example.com/jwks.json"))); ((u "response_types_supported"), (VList [(VStr (u "code")); (VStr (u "code id_token")); (VStr (u "id_token")); (VStr (u "token id_token"))])); ((u "subject_types_supported"), (VList [(VStr (u "public")); (VStr (u "pairwise"))])); ((u "id_token_signing_alg_values_supported"), (VList [(VStr (u "RS256")); (VStr (u "ES256")); (VStr (u "HS256"))]))]) with Ok d => verify no_env (args []) None C_oidc_ProviderConfigurationResponse d | Err e => ([], Err e) end));
  raises EMissingRequiredAttribute (snd (match (construct (cdef C_oidc_ProviderConfigurationResponse) [((u "issuer"), (VStr (u "https://server.example.com"))); ((u "authorization_endpoint"), (VStr (u "https://server.example.com/connect/authorize"))); ((u "response_types_supported"), (VList [(VStr (u "code")); (VStr (u "code id_token")); (VStr (u "id_token")); (VStr (u "token id_token"))])); ((u "subject_types_supported"), (VList [(VStr (u "public")); (VStr (u "pairwise"))])); ((u "id_token_signing_alg_values_supported"), (VList [(VStr (u "RS256")); (VStr (u "ES256")); (VStr (u "HS256"))]))]) with Ok d => verify no_env (args []) None C_oidc_ProviderConfigurationResponse d | Err e => ([], Err e) end));
  raises EMissingRequiredAttribute (snd (match (construct (cdef C_oidc_ProviderConfigurationResponse) [((u "issuer"), (VStr (u "https://server.example.com"))); ((u "authorization_endpoint"), (VStr (u "https://server.example.com/connect/authorize"))); ((u "jwks_uri"), (VStr (u "https://server.example.com/jwks.json"))); ((u "subject_types_supported"), (VList [(VStr (u "public")); (VStr (u "pairwise"))])); ((u "id_token_signing_alg_values_supported"), (VList [(VStr (u "RS256")); (VStr (u "ES256")); (VStr (u "HS256"))]))]) with Ok d => verify no_env (args []) None C_oidc_ProviderConfigurationResponse d | Err e => ([], Err e) end));
  raises EMissingRequiredAttribute (snd (match (construct (cdef C_oidc_ProviderConfigurationResponse) [((u "issuer"), (VStr (u "https://server.example.com"))); ((u "authorization_endpoint"), (VStr (u "https://server.example.com/connect/authorize"))); ((u "jwks_uri"), (VStr (u "https://server.example.com/jwks.json"))); ((u "response_types_supported"), (VList [(VStr (u "code")); (VStr (u "code id_token")); (VStr (u "id_token")); (VStr (u "token id_token"))])); ((u "id_token_signing_alg_values_supported"), (VList [(VStr (u "RS256")); (VStr (u "ES256")); (VStr (u "HS256"))]))]) with Ok d => verify no_env (args []) None C_oidc_ProviderConfigurationResponse d | Err e => ([], Err e) end));
  raises EMissingRequiredAttribute (snd (match (construct (cdef C_oidc_ProviderConfigurationResponse) [((u "issuer"), (VStr (u "https://server.example.com"))); ((u "authorization_endpoint"), (VStr (u "https://server.example.com/connect/authorize"))); ((u "jwks_uri"), (VStr (u "https://server.example.com/jwks.json"))); ((u "response_types_supported"), (VList [(VStr (u "code")); (VStr (u "code id_token")); (VStr (u "id_token")); (VStr (u "token id_token"))])); ((u "subject_types_supported"), (VList [(VStr (u "public")); (VStr (u "pairwise"))]))]) with Ok d => verify no_env (args []) None C_oidc_ProviderConfigurationResponse d | Err e => ([], Err e) end))] = true.
Proof. vm_compute. reflexivity. Qed.

(** test_06_oidc.py:487-499 *)
Example TestProviderConfigurationResponse_test_token_endpoint_is_not_required_for_implicit_flow_only :
  all [
  yes (match (construct (cdef C_oidc_ProviderConfigurationResponse) [((u "issuer"), (VStr (u "https://server.example.com"))); ((u "authorization_endpoint"), (VStr (u "https://server.example.com/connect/authorize"))); ((u "jwks_uri"), (VStr (u "https://server.example.com/jwks.json"))); ((u "response_types_supported"), (VList [(VStr (u "id_token")); (VStr (u "token id_token"))])); ((u "subject_types_supported"), (VList [(VStr (u "public")); (VStr (u "pairwise"))])); ((u "id_token_signing_alg_values_supported"), (VList [(VStr (u "RS256")); (VStr (u "ES256")); (VStr (u "HS256"))]))]) with Ok d => verify no_env (args []) None C_oidc_ProviderConfigurationResponse d | Err e => ([], Err e) end)] = true.
Proof. vm_compute. reflexivity. Qed.

(** test_06_oidc.py:501-514 *)
Example TestProviderConfigurationResponse_test_token_endpoint_is_required_for_other_than_implicit_flow_only :
  all [
  raises EMissingRequiredAttribute (snd (match (construct (cdef C_oidc_ProviderConfigurationResponse) [((u "issuer"), (VStr (u "https://server.example.com"))); ((u "authorization_endpoint"), (VStr (u "https://server.example.com/connect/authorize"))); ((u "jwks_uri"), (VStr (u "https://server.example.com/jwks.json"))); ((u "response_types_supported"), (VList [(VStr (u "code")); (VStr (u "id_token"))])); ((u "subject_types_supported"), (VList [(VStr (u "public")); (VStr (u "pairwise"))])); ((u "id_token_signing_alg_values_supported"), (VList [(VStr (u "RS256")); (VStr (u "ES256")); (VStr (u "HS256"))]))]) with Ok d => verify no_env (args []) None C_oidc_ProviderConfigurationResponse d | Err e => ([], Err e) end))] = true.
Proof. vm_compute. reflexivity. Qed.

(** test_06_oidc.py:518-541 *)
Example TestRegistrationRequest_test_deserialize :
  all [
  yes (match (read_json (cdef C_oidc_RegistrationRequest) (u "{""application_type"": ""web"", ""redirect_uris"": [""https://client.example.org/callback"", ""https://client.example.org/callback2""], ""client_name"": ""My Example"", ""client_name#ja-Jpan-JP"": ""\u30af\u30e9\u30a4\u30a2\u30f3\u30c8\u540d"", ""logo_uri"": ""https://client.example.org/logo.png"", ""subject_type"": ""pairwise"", ""sector_identifier_uri"": ""https://other.example.net/file_of_redirect_uris.json"", ""token_endpoint_auth_method"": ""client_secret_basic"", ""jwks_uri"": ""https://client.example.org/my_public_keys.jwks"", ""userinfo_encrypted_response_alg"": ""RSA1_5"", ""userinfo_encrypted_response_enc"": ""A128CBC+HS256"", ""contacts"": [""ve7jtb@example.org"", ""mary@example.org""], ""request_uris"": [""https://client.example.org/rf.txt#qpXaRLh_n93TTR9F252ValdatUQvQiJi5BDub2BeznA""]}")) with Ok d => verify no_env (args []) None C_oidc_RegistrationRequest d | Err e => ([], Err e) end);
  keys_are (keep (match (read_json (cdef C_oidc_RegistrationRequest) (u "{""application_type"": ""web"", ""redirect_uris"": [""https://client.example.org/callback"", ""https://client.example.org/callback2""], ""client_name"": ""My Example"", ""client_name#ja-Jpan-JP"": ""\u30af\u30e9\u30a4\u30a2\u30f3\u30c8\u540d"", ""logo_uri"": ""https://client.example.org/logo.png"", ""subject_type"": ""pairwise"", ""sector_identifier_uri"": ""https://other.example.net/file_of_redirect_uris.json"", ""token_endpoint_auth_method"": ""client_secret_basic"", ""jwks_uri"": ""https://client.example.org/my_public_keys.jwks"", ""userinfo_encrypted_response_alg"": ""RSA1_5"", ""userinfo_encrypted_response_enc"": ""A128CBC+HS256"", ""contacts"": [""ve7jtb@example.org"", ""mary@example.org""], ""request_uris"": [""https://client.example.org/rf.txt#qpXaRLh_n93TTR9F252ValdatUQvQiJi5BDub2BeznA""]}")) with Ok d => verify no_env (args []) None C_oidc_RegistrationRequest d | Err e => ([], Err e) end)) [(u "application_type"); (u "redirect_uris"); (u "client_name"); (u "client_name#ja-Jpan-JP"); (u "logo_uri"); (u "subject_type"); (u "sector_identifier_uri"); (u "token_endpoint_auth_method"); (u "jwks_uri"); (u "userinfo_encrypted_response_alg"); (u "userinfo_encrypted_response_enc"); (u "contacts"); (u "request_uris"); (u "response_types")]] = true.
Proof. vm_compute. reflexivity. Qed.

(** test_06_oidc.py:543-562 *)
Example TestRegistrationRequest_test_registration_request :
  all [
  yes (match (construct (cdef C_oidc_RegistrationRequest) [((u "operation"), (VStr (u "register"))); ((u "default_max_age"), (VInt (10))); ((u "require_auth_time"), (VBool true)); ((u "default_acr"), (VStr (u "foo"))); ((u "application_type"), (VStr (u "web"))); ((u "redirect_uris"), (VList [(VStr (u "https://example.com/authz_cb"))]))]) with Ok d => verify no_env (args []) None C_oidc_RegistrationRequest d | Err e => ([], Err e) end);
  value_is (do x <- (do m <- (keep (match (construct (cdef C_oidc_RegistrationRequest) [((u "operation"), (VStr (u "register"))); ((u "default_max_age"), (VInt (10))); ((u "require_auth_time"), (VBool true)); ((u "default_acr"), (VStr (u "foo"))); ((u "application_type"), (VStr (u "web"))); ((u "redirect_uris"), (VList [(VStr (u "https://example.com/authz_cb"))]))]) with Ok d => verify no_env (args []) None C_oidc_RegistrationRequest d | Err e => ([], Err e) end)) ; to_json (cdef C_oidc_RegistrationRequest) m) ; json_loads x) (VDict [((u "operation"), (VStr (u "register"))); ((u "default_max_age"), (VInt (10))); ((u "require_auth_time"), (VBool true)); ((u "default_acr"), (VStr (u "foo"))); ((u "application_type"), (VStr (u "web"))); ((u "redirect_uris"), (VList [(VStr (u "https://example.com/authz_cb"))])); ((u "response_types"), (VList [(VStr (u "code"))]))]);
  same_query (do m <- (keep (match (construct (cdef C_oidc_RegistrationRequest) [((u "operation"), (VStr (u "register"))); ((u "default_max_age"), (VInt (10))); ((u "require_auth_time"), (VBool true)); ((u "default_acr"), (VStr (u "foo"))); ((u "application_type"), (VStr (u "web"))); ((u "redirect_uris"), (VList [(VStr (u "https://example.com/authz_cb"))]))]) with Ok d => verify no_env (args []) None C_oidc_RegistrationRequest d | Err e => ([], Err e) end)) ; url (cdef C_oidc_RegistrationRequest) m) (u "operation=register&default_max_age=10&require_auth_time=True&default_acr=foo&application_type=web&redirect_uris=https%3A%2F%2Fexample.com%2Fauthz_cb&response_types=code")] = true.
Proof. vm_compute. reflexivity. Qed.

(** test_06_oidc.py:569-575 *)
Example TestRegistrationRequest_test_registration_request_with_coupled_encryption_params :
  all [
  raises EMissingRequiredAttribute (snd (match (construct (cdef C_oidc_RegistrationRequest) [((u "redirect_uris"), (VList [(VStr (u "https://example.com/authz_cb"))])); ((u "request_object_encryption_enc"), (VStr (u "RS256")))]) with Ok d => verify no_env (args []) None C_oidc_RegistrationRequest d | Err e => ([], Err e) end));
  raises EMissingRequiredAttribute (snd (match (construct (cdef C_oidc_RegistrationRequest) [((u "redirect_uris"), (VList [(VStr (u "https://example.com/authz_cb"))])); ((u "id_token_encrypted_response_enc"), (VStr (u "RS256")))]) with Ok d => verify no_env (args []) None C_oidc_RegistrationRequest d | Err e => ([], Err e) end));
  raises EMissingRequiredAttribute (snd (match (construct (cdef C_oidc_RegistrationRequest) [((u "redirect_uris"), (VList [(VStr (u "https://example.com/authz_cb"))])); ((u "userinfo_encrypted_response_enc"), (VStr (u "RS256")))]) with Ok d => verify no_env (args []) None C_oidc_RegistrationRequest d | Err e => ([], Err e) end))] = true.
Proof. vm_compute. reflexivity. Qed.

(** test_06_oidc.py:577-588 *)
Example TestRegistrationRequest_test_deser :
  all [
  made_of (read (DeOneOf C_oidc_RegistrationRequest) Furl (do x <- (do m <- (construct (cdef C_oidc_RegistrationRequest) [((u "operation"), (VStr (u "register"))); ((u "default_max_age"), (VInt (10))); ((u "require_auth_time"), (VBool true)); ((u "default_acr"), (VStr (u "foo"))); ((u "application_type"), (VStr (u "web"))); ((u "redirect_uris"), (VList [(VStr (u "https://example.com/authz_cb"))]))]) ; url (cdef C_oidc_RegistrationRequest) m) ; Ok (VStr x))) [(u "operation"); (u "default_max_age"); (u "require_auth_time"); (u "default_acr"); (u "application_type"); (u "redirect_uris"); (u "response_types")]] = true.
Proof. vm_compute. reflexivity. Qed.

(** test_06_oidc.py:590-602 *)
Example TestRegistrationRequest_test_deser_dict :
  all [
  made_of (read (DeOneOf C_oidc_RegistrationRequest) Fdict (Ok (VDict [((u "operation"), (VStr (u "register"))); ((u "default_max_age"), (VInt (10))); ((u "require_auth_time"), (VBool true)); ((u "default_acr"), (VStr (u "foo"))); ((u "application_type"), (VStr (u "web"))); ((u "redirect_uris"), (VList [(VStr (u "https://example.com/authz_cb"))]))]))) [(u "operation"); (u "default_max_age"); (u "require_auth_time"); (u "default_acr"); (u "application_type"); (u "redirect_uris"); (u "response_types")]] = true.
Proof. vm_compute. reflexivity. Qed.

(** test_06_oidc.py:604-616 *)
Example TestRegistrationRequest_test_deser_dict_json :
  all [
  made_of (read (DeOneOf C_oidc_RegistrationRequest) Fjson (Ok (VDict [((u "operation"), (VStr (u "register"))); ((u "default_max_age"), (VInt (10))); ((u "require_auth_time"), (VBool true)); ((u "default_acr"), (VStr (u "foo"))); ((u "application_type"), (VStr (u "web"))); ((u "redirect_uris"), (VList [(VStr (u "https://example.com/authz_cb"))]))]))) [(u "operation"); (u "default_max_age"); (u "require_auth_time"); (u "default_acr"); (u "application_type"); (u "redirect_uris"); (u "response_types")]] = true.
Proof. vm_compute. reflexivity. Qed.

(** test_06_oidc.py:620-650 *)
Example TestRegistrationResponse_test_deserialize :
  all [
  yes (match (read_json (cdef C_oidc_RegistrationResponse) (u "{""client_id"": ""s6BhdRkqt3"", ""client_secret"": ""ZJYCqe3GGRvdrudKyZS0XhGv_Z45DuKhCUk0gBR1vZk"", ""client_secret_expires_at"": 1577858400, ""registration_access_token"": ""this.is.an.access.token.value.ffx83"", ""registration_client_uri"": ""https://server.example.com/connect/register?client_id=s6BhdRkqt3"", ""token_endpoint_auth_method"": ""client_secret_basic"", ""application_type"": ""web"", ""redirect_uris"": [""https://client.example.org/callback"", ""https://client.example.org/callback2""], ""client_name"": ""My Example"", ""client_name#ja-Jpan-JP"": ""\u30af\u30e9\u30a4\u30a2\u30f3\u30c8\u540d"", ""logo_uri"": ""https://client.example.org/logo.png"", ""subject_type"": ""pairwise"", ""sector_identifier_uri"": ""https://other.example.net/file_of_redirect_uris.json"", ""jwks_uri"": ""https://client.example.org/my_public_keys.jwks"", ""userinfo_encrypted_response_alg"": ""RSA1_5"", ""userinfo_encrypted_response_enc"": ""A128CBC+HS256"", ""contacts"": [""ve7jtb@example.org"", ""mary@example.org""], ""request_uris"": [""https://client.example.org/rf.txt#qpXaRLh_n93TTR9F252ValdatUQvQiJi5BDub2BeznA""]}")) with Ok d => verify no_env (args []) None C_oidc_RegistrationResponse d | Err e => ([], Err e) end);
  keys_are (keep (match (read_json (cdef C_oidc_RegistrationResponse) (u "{""client_id"": ""s6BhdRkqt3"", ""client_secret"": ""ZJYCqe3GGRvdrudKyZS0XhGv_Z45DuKhCUk0gBR1vZk"", ""client_secret_expires_at"": 1577858400, ""registration_access_token"": ""this.is.an.access.token.value.ffx83"", ""registration_client_uri"": ""https://server.example.com/connect/register?client_id=s6BhdRkqt3"", ""token_endpoint_auth_method"": ""client_secret_basic"", ""application_type"": ""web"", ""redirect_uris"": [""https://client.example.org/callback"", ""https://client.example.org/callback2""], ""client_name"": ""My Example"", ""client_name#ja-Jpan-JP"": ""\u30af\u30e9\u30a4\u30a2\u30f3\u30c8\u540d"", ""logo_uri"": ""https://client.example.org/logo.png"", ""subject_type"": ""pairwise"", ""sector_identifier_uri"": ""https://other.example.net/file_of_redirect_uris.json"", ""jwks_uri"": ""https://client.example.org/my_public_keys.jwks"", ""userinfo_encrypted_response_alg"": ""RSA1_5"", ""userinfo_encrypted_response_enc"": ""A128CBC+HS256"", ""contacts"": [""ve7jtb@example.org"", ""mary@example.org""], ""request_uris"": [""https://client.example.org/rf.txt#qpXaRLh_n93TTR9F252ValdatUQvQiJi5BDub2BeznA""]}")) with Ok d => verify no_env (args []) None C_oidc_RegistrationResponse d | Err e => ([], Err e) end)) [(u "client_id"); (u "client_secret"); (u "client_secret_expires_at"); (u "registration_access_token"); (u "registration_client_uri"); (u "token_endpoint_auth_method"); (u "application_type"); (u "redirect_uris"); (u "client_name"); (u "client_name#ja-Jpan-JP"); (u "logo_uri"); (u "subject_type"); (u "sector_identifier_uri"); (u "jwks_uri"); (u "userinfo_encrypted_response_alg"); (u "userinfo_encrypted_response_enc"); (u "contacts"); (u "request_uris")]] = true.
Proof. vm_compute. reflexivity. Qed.

(** test_06_oidc.py:654-667 *)
Example TestAuthorizationRequest_test_deserialize :
  all [
  keys_are (read_url (cdef C_oidc_AuthorizationRequest) (u "response_type=token%20id_token&client_id=0acf77d4-b486-4c99-bd76-074ed6a64ddf&redirect_uri=https%3A%2F%2Fclient.example.com%2Fcb&scope=openid%20profile&state=af0ifjsldkj&nonce=n-0S6_WzA2Mj")) [(u "nonce"); (u "state"); (u "redirect_uri"); (u "response_type"); (u "client_id"); (u "scope")];
  item_is (read_url (cdef C_oidc_AuthorizationRequest) (u "response_type=token%20id_token&client_id=0acf77d4-b486-4c99-bd76-074ed6a64ddf&redirect_uri=https%3A%2F%2Fclient.example.com%2Fcb&scope=openid%20profile&state=af0ifjsldkj&nonce=n-0S6_WzA2Mj")) (u "response_type") (VList [(VStr (u "token")); (VStr (u "id_token"))]);
  item_is (read_url (cdef C_oidc_AuthorizationRequest) (u "response_type=token%20id_token&client_id=0acf77d4-b486-4c99-bd76-074ed6a64ddf&redirect_uri=https%3A%2F%2Fclient.example.com%2Fcb&scope=openid%20profile&state=af0ifjsldkj&nonce=n-0S6_WzA2Mj")) (u "scope") (VList [(VStr (u "openid")); (VStr (u "profile"))])] = true.
Proof. vm_compute. reflexivity. Qed.

(** test_06_oidc.py:669-677 *)
Example TestAuthorizationRequest_test_verify_no_scopes :
  all [
  raises EMissingRequiredAttribute (snd (match (construct (cdef C_oidc_AuthorizationRequest) [((u "client_id"), (VStr (u "foobar"))); ((u "redirect_uri"), (VStr (u "http://foobar.example.com/oaclient"))); ((u "response_type"), (VStr (u "code")))]) with Ok d => verify no_env (args []) None C_oidc_AuthorizationRequest d | Err e => ([], Err e) end))] = true.
Proof. vm_compute. reflexivity. Qed.

(** test_06_oidc.py:679-694 *)
Example TestAuthorizationRequest_test_verify_nonce :
  all [
  raises EMissingRequiredAttribute (snd (match (construct (cdef C_oidc_AuthorizationRequest) [((u "client_id"), (VStr (u "foobar"))); ((u "redirect_uri"), (VStr (u "http://foobar.example.com/oaclient"))); ((u "response_type"), (VList [(VStr (u "code")); (VStr (u "id_token"))])); ((u "scope"), (VStr (u "openid")))]) with Ok d => verify no_env (args []) None C_oidc_AuthorizationRequest d | Err e => ([], Err e) end));
  yes (match (do m <- (construct (cdef C_oidc_AuthorizationRequest) [((u "client_id"), (VStr (u "foobar"))); ((u "redirect_uri"), (VStr (u "http://foobar.example.com/oaclient"))); ((u "response_type"), (VList [(VStr (u "code")); (VStr (u "id_token"))])); ((u "scope"), (VStr (u "openid")))]) ; keep (setitem (cdef C_oidc_AuthorizationRequest) m (u "nonce") (VStr (u "abcdefgh")))) with Ok d => verify no_env (args []) None C_oidc_AuthorizationRequest d | Err e => ([], Err e) end);
  raises EValueError (snd (match (do m <- (construct (cdef C_oidc_AuthorizationRequest) [((u "client_id"), (VStr (u "foobar"))); ((u "redirect_uri"), (VStr (u "http://foobar.example.com/oaclient"))); ((u "response_type"), (VList [(VStr (u "code")); (VStr (u "id_token"))])); ((u "scope"), (VStr (u "openid")))]) ; keep (setitem (cdef C_oidc_AuthorizationRequest) m (u "nonce") (VStr (u "abcdefgh")))) with Ok d => verify no_env (args [((u "nonce"), (VStr (u "12345678")))]) None C_oidc_AuthorizationRequest d | Err e => ([], Err e) end))] = true.
Proof. vm_compute. reflexivity. Qed.

(** test_06_oidc.py:696-728 *)
Example TestAuthorizationRequest_test_claims :
  all [
  yes (match (construct (cdef C_oidc_AuthorizationRequest) [((u "client_id"), (VStr (u "foobar"))); ((u "redirect_uri"), (VStr (u "http://foobar.example.com/oaclient"))); ((u "response_type"), (VStr (u "code"))); ((u "scope"), (VStr (u "openid"))); ((u "claims"), (VDict [((u "userinfo"), (VDict [((u "given_name"), (VDict [((u "essential"), (VBool true))])); ((u "nickname"), VNone); ((u "email"), (VDict [((u "essential"), (VBool true))])); ((u "email_verified"), (VDict [((u "essential"), (VBool true))])); ((u "picture"), VNone); ((u "http://example.info/claims/groups"), VNone)])); ((u "id_token"), (VDict [((u "auth_time"), (VDict [((u "essential"), (VBool true))])); ((u "acr"), (VDict [((u "values"), (VList [(VStr (u "urn:mace:incommon:iap:silver"))]))]))]))]))]) with Ok d => verify no_env (args []) None C_oidc_AuthorizationRequest d | Err e => ([], Err e) end);
  yes (match (do x <- (do m <- (construct (cdef C_oidc_AuthorizationRequest) [((u "client_id"), (VStr (u "foobar"))); ((u "redirect_uri"), (VStr (u "http://foobar.example.com/oaclient"))); ((u "response_type"), (VStr (u "code"))); ((u "scope"), (VStr (u "openid"))); ((u "claims"), (VDict [((u "userinfo"), (VDict [((u "given_name"), (VDict [((u "essential"), (VBool true))])); ((u "nickname"), VNone); ((u "email"), (VDict [((u "essential"), (VBool true))])); ((u "email_verified"), (VDict [((u "essential"), (VBool true))])); ((u "picture"), VNone); ((u "http://example.info/claims/groups"), VNone)])); ((u "id_token"), (VDict [((u "auth_time"), (VDict [((u "essential"), (VBool true))])); ((u "acr"), (VDict [((u "values"), (VList [(VStr (u "urn:mace:incommon:iap:silver"))]))]))]))]))]) ; url (cdef C_oidc_AuthorizationRequest) m) ; read_url (cdef C_oidc_AuthorizationRequest) x) with Ok d => verify no_env (args []) None C_oidc_AuthorizationRequest d | Err e => ([], Err e) end);
  yes (match (do x <- (do m <- (construct (cdef C_oidc_AuthorizationRequest) [((u "client_id"), (VStr (u "foobar"))); ((u "redirect_uri"), (VStr (u "http://foobar.example.com/oaclient"))); ((u "response_type"), (VStr (u "code"))); ((u "scope"), (VStr (u "openid"))); ((u "claims"), (VDict [((u "userinfo"), (VDict [((u "given_name"), (VDict [((u "essential"), (VBool true))])); ((u "nickname"), VNone); ((u "email"), (VDict [((u "essential"), (VBool true))])); ((u "email_verified"), (VDict [((u "essential"), (VBool true))])); ((u "picture"), VNone); ((u "http://example.info/claims/groups"), VNone)])); ((u "id_token"), (VDict [((u "auth_time"), (VDict [((u "essential"), (VBool true))])); ((u "acr"), (VDict [((u "values"), (VList [(VStr (u "urn:mace:incommon:iap:silver"))]))]))]))]))]) ; to_json (cdef C_oidc_AuthorizationRequest) m) ; read_json (cdef C_oidc_AuthorizationRequest) x) with Ok d => verify no_env (args []) None C_oidc_AuthorizationRequest d | Err e => ([], Err e) end)] = true.
Proof. vm_compute. reflexivity. Qed.

(** test_06_oidc.py:730-752 *)
Example TestAuthorizationRequest_test_request :
  all [
  yes (match (do m <- (construct (cdef C_oidc_AuthorizationRequest) [((u "client_id"), (VStr (u "foobar"))); ((u "redirect_uri"), (VStr (u "http://foobar.example.com/oaclient"))); ((u "response_type"), (VStr (u "code"))); ((u "scope"), (VStr (u "openid"))); ((u "nonce"), (VStr (u "some value"))); ((u "extra"), (VStr (u "attribute")))]) ; do j <- make_openid_request (packer_of [[]; u "foobar"]) (cdef C_oidc_AuthorizationRequest) m (u "foobar") (u "HS256") (u "barfoo") false 0 ; do m <- keep (setitem (cdef C_oidc_AuthorizationRequest) m (u "request") (VStr j)) ; do m <- keep (delitem m (u "nonce")) ; do m <- keep (delitem m (u "extra")) ; keep (setitem (cdef C_oidc_AuthorizationRequest) m (u "scope") (VList [(VStr (u "openid")); (VStr (u "email"))]))) with Ok d => verify (kj_env now [[]; u "foobar"]) (jargs []) None C_oidc_AuthorizationRequest d | Err e => ([], Err e) end);
  has (keep (match (do m <- (construct (cdef C_oidc_AuthorizationRequest) [((u "client_id"), (VStr (u "foobar"))); ((u "redirect_uri"), (VStr (u "http://foobar.example.com/oaclient"))); ((u "response_type"), (VStr (u "code"))); ((u "scope"), (VStr (u "openid"))); ((u "nonce"), (VStr (u "some value"))); ((u "extra"), (VStr (u "attribute")))]) ; do j <- make_openid_request (packer_of [[]; u "foobar"]) (cdef C_oidc_AuthorizationRequest) m (u "foobar") (u "HS256") (u "barfoo") false 0 ; do m <- keep (setitem (cdef C_oidc_AuthorizationRequest) m (u "request") (VStr j)) ; do m <- keep (delitem m (u "nonce")) ; do m <- keep (delitem m (u "extra")) ; keep (setitem (cdef C_oidc_AuthorizationRequest) m (u "scope") (VList [(VStr (u "openid")); (VStr (u "email"))]))) with Ok d => verify (kj_env now [[]; u "foobar"]) (jargs []) None C_oidc_AuthorizationRequest d | Err e => ([], Err e) end)) (u "extra");
  has (keep (match (do m <- (construct (cdef C_oidc_AuthorizationRequest) [((u "client_id"), (VStr (u "foobar"))); ((u "redirect_uri"), (VStr (u "http://foobar.example.com/oaclient"))); ((u "response_type"), (VStr (u "code"))); ((u "scope"), (VStr (u "openid"))); ((u "nonce"), (VStr (u "some value"))); ((u "extra"), (VStr (u "attribute")))]) ; do j <- make_openid_request (packer_of [[]; u "foobar"]) (cdef C_oidc_AuthorizationRequest) m (u "foobar") (u "HS256") (u "barfoo") false 0 ; do m <- keep (setitem (cdef C_oidc_AuthorizationRequest) m (u "request") (VStr j)) ; do m <- keep (delitem m (u "nonce")) ; do m <- keep (delitem m (u "extra")) ; keep (setitem (cdef C_oidc_AuthorizationRequest) m (u "scope") (VList [(VStr (u "openid")); (VStr (u "email"))]))) with Ok d => verify (kj_env now [[]; u "foobar"]) (jargs []) None C_oidc_AuthorizationRequest d | Err e => ([], Err e) end)) (u "nonce");
  item_is (keep (match (do m <- (construct (cdef C_oidc_AuthorizationRequest) [((u "client_id"), (VStr (u "foobar"))); ((u "redirect_uri"), (VStr (u "http://foobar.example.com/oaclient"))); ((u "response_type"), (VStr (u "code"))); ((u "scope"), (VStr (u "openid"))); ((u "nonce"), (VStr (u "some value"))); ((u "extra"), (VStr (u "attribute")))]) ; do j <- make_openid_request (packer_of [[]; u "foobar"]) (cdef C_oidc_AuthorizationRequest) m (u "foobar") (u "HS256") (u "barfoo") false 0 ; do m <- keep (setitem (cdef C_oidc_AuthorizationRequest) m (u "request") (VStr j)) ; do m <- keep (delitem m (u "nonce")) ; do m <- keep (delitem m (u "extra")) ; keep (setitem (cdef C_oidc_AuthorizationRequest) m (u "scope") (VList [(VStr (u "openid")); (VStr (u "email"))]))) with Ok d => verify (kj_env now [[]; u "foobar"]) (jargs []) None C_oidc_AuthorizationRequest d | Err e => ([], Err e) end)) (u "scope") (VList [(VStr (u "openid"))])] = true.
Proof. vm_compute. reflexivity. Qed.

(** test_06_oidc.py:756-774 *)
Example TestAccessTokenResponse_test_ok_idtoken :
  all [
  yes (match (do j <- (do m <- (construct (cdef C_oidc_IdToken) [((u "nonce"), (VStr (u "KUEYfRM2VzKDaaKD"))); ((u "sub"), (VStr (u "EndUserSubject"))); ((u "iss"), (VStr (u "https://alpha.cloud.nds.rub.de"))); ((u "aud"), (VStr (u "TestClient")))]) ; snd (to_jwt signer (kj_env now [[]; rub]) C_oidc_IdToken m [7] (u "HS256") (VInt 300))) ; construct (cdef C_oidc_AccessTokenResponse) ((u "id_token", VStr j) :: [((u "access_token"), (VStr (u "accessTok"))); ((u "token_type"), (VStr (u "Bearer"))); ((u "expires_in"), (VInt (3600)))])) with Ok d => verify (kj_env now [[]; rub]) (jargs []) None C_oidc_AccessTokenResponse d | Err e => ([], Err e) end)] = true.
Proof. vm_compute. reflexivity. Qed.

(** test_06_oidc.py:776-800 *)
Example TestAccessTokenResponse_test_faulty_idtoken :
  all [
  raises ECrypto (snd (match (do j <- (do j <- (do m <- (construct (cdef C_oidc_IdToken) [((u "nonce"), (VStr (u "KUEYfRM2VzKDaaKD"))); ((u "sub"), (VStr (u "EndUserSubject"))); ((u "iss"), (VStr (u "https://alpha.cloud.nds.rub.de"))); ((u "aud"), (VStr (u "TestClient")))]) ; snd (to_jwt signer (kj_env now [[]; rub]) C_oidc_IdToken m [7] (u "HS256") (VInt 300))) ; Ok (mess_up j)) ; construct (cdef C_oidc_AccessTokenResponse) ((u "id_token", VStr j) :: [((u "access_token"), (VStr (u "accessTok"))); ((u "token_type"), (VStr (u "Bearer"))); ((u "expires_in"), (VInt (3600)))])) with Ok d => verify (kj_env now [[]; rub]) (jargs []) None C_oidc_AccessTokenResponse d | Err e => ([], Err e) end))] = true.
Proof. vm_compute. reflexivity. Qed.

(** test_06_oidc.py:802-822 *)
Example TestAccessTokenResponse_test_wrong_alg :
  all [
  raises ECrypto (snd (match (do j <- (do m <- (construct (cdef C_oidc_IdToken) [((u "nonce"), (VStr (u "KUEYfRM2VzKDaaKD"))); ((u "sub"), (VStr (u "EndUserSubject"))); ((u "iss"), (VStr (u "https://alpha.cloud.nds.rub.de"))); ((u "aud"), (VStr (u "TestClient")))]) ; snd (to_jwt signer (kj_env now [[]; rub]) C_oidc_IdToken m [7] (u "HS256") (VInt 300))) ; construct (cdef C_oidc_AccessTokenResponse) ((u "id_token", VStr j) :: [((u "access_token"), (VStr (u "accessTok"))); ((u "token_type"), (VStr (u "Bearer"))); ((u "expires_in"), (VInt (3600)))])) with Ok d => verify (kj_env now [[]; rub]) (jargs [((u "sigalg"), (VStr (u "HS512")))]) None C_oidc_AccessTokenResponse d | Err e => ([], Err e) end))] = true.
Proof. vm_compute. reflexivity. Qed.

(** test_06_oidc.py:825-850 *)
Example test_at_hash :
  all [
  yes (match (do j <- (do m <- (construct (cdef C_oidc_IdToken) [((u "nonce"), (VStr (u "KUEYfRM2VzKDaaKD"))); ((u "sub"), (VStr (u "EndUserSubject"))); ((u "iss"), (VStr (u "https://alpha.cloud.nds.rub.de"))); ((u "aud"), (VStr (u "TestClient"))); ((u "access_token"), (VStr (u "accessTok")))]) ; snd (to_jwt signer (kj_env now [[]; rub]) C_oidc_IdToken m [7] (u "HS256") (VInt 3600))) ; construct (cdef C_oidc_AuthorizationResponse) ((u "id_token", VStr j) :: [((u "token_type"), (VStr (u "Bearer"))); ((u "expires_in"), (VInt (3600))); ((u "access_token"), (VStr (u "accessTok")))])) with Ok d => verify (kj_env now [[]; rub]) (jargs [((u "sigalg"), (VStr (u "HS256")))]) None C_oidc_AuthorizationResponse d | Err e => ([], Err e) end);
  has (inner (keep (match (do j <- (do m <- (construct (cdef C_oidc_IdToken) [((u "nonce"), (VStr (u "KUEYfRM2VzKDaaKD"))); ((u "sub"), (VStr (u "EndUserSubject"))); ((u "iss"), (VStr (u "https://alpha.cloud.nds.rub.de"))); ((u "aud"), (VStr (u "TestClient"))); ((u "access_token"), (VStr (u "accessTok")))]) ; snd (to_jwt signer (kj_env now [[]; rub]) C_oidc_IdToken m [7] (u "HS256") (VInt 3600))) ; construct (cdef C_oidc_AuthorizationResponse) ((u "id_token", VStr j) :: [((u "token_type"), (VStr (u "Bearer"))); ((u "expires_in"), (VInt (3600))); ((u "access_token"), (VStr (u "accessTok")))])) with Ok d => verify (kj_env now [[]; rub]) (jargs [((u "sigalg"), (VStr (u "HS256")))]) None C_oidc_AuthorizationResponse d | Err e => ([], Err e) end)) (verified_claim_name (u "id_token"))) (u "at_hash")] = true.
Proof. vm_compute. reflexivity. Qed.

(** test_06_oidc.py:853-879 *)
Example test_c_hash :
  all [
  runs (match (do j <- (do m <- (construct (cdef C_oidc_IdToken) [((u "nonce"), (VStr (u "KUEYfRM2VzKDaaKD"))); ((u "sub"), (VStr (u "EndUserSubject"))); ((u "iss"), (VStr (u "https://alpha.cloud.nds.rub.de"))); ((u "aud"), (VStr (u "TestClient"))); ((u "code"), (VStr (u "grant")))]) ; snd (to_jwt signer (kj_env now [[]; rub]) C_oidc_IdToken m [7] (u "HS256") (VInt 3600))) ; construct (cdef C_oidc_AuthorizationResponse) ((u "id_token", VStr j) :: [((u "token_type"), (VStr (u "Bearer"))); ((u "expires_in"), (VInt (3600))); ((u "code"), (VStr (u "grant")))])) with Ok d => verify (kj_env now [[]; rub]) (jargs [((u "sigalg"), (VStr (u "HS256")))]) None C_oidc_AuthorizationResponse d | Err e => ([], Err e) end);
  has (inner (keep (match (do j <- (do m <- (construct (cdef C_oidc_IdToken) [((u "nonce"), (VStr (u "KUEYfRM2VzKDaaKD"))); ((u "sub"), (VStr (u "EndUserSubject"))); ((u "iss"), (VStr (u "https://alpha.cloud.nds.rub.de"))); ((u "aud"), (VStr (u "TestClient"))); ((u "code"), (VStr (u "grant")))]) ; snd (to_jwt signer (kj_env now [[]; rub]) C_oidc_IdToken m [7] (u "HS256") (VInt 3600))) ; construct (cdef C_oidc_AuthorizationResponse) ((u "id_token", VStr j) :: [((u "token_type"), (VStr (u "Bearer"))); ((u "expires_in"), (VInt (3600))); ((u "code"), (VStr (u "grant")))])) with Ok d => verify (kj_env now [[]; rub]) (jargs [((u "sigalg"), (VStr (u "HS256")))]) None C_oidc_AuthorizationResponse d | Err e => ([], Err e) end)) (verified_claim_name (u "id_token"))) (u "c_hash")] = true.
Proof. vm_compute. reflexivity. Qed.

(** test_06_oidc.py:882-909 *)
Example test_missing_c_hash :
  all [
  raises EMissingRequiredAttribute (snd (match (do j <- (do m <- (construct (cdef C_oidc_IdToken) [((u "nonce"), (VStr (u "KUEYfRM2VzKDaaKD"))); ((u "sub"), (VStr (u "EndUserSubject"))); ((u "iss"), (VStr (u "https://alpha.cloud.nds.rub.de"))); ((u "aud"), (VStr (u "TestClient")))]) ; snd (to_jwt signer (kj_env now [[]; rub]) C_oidc_IdToken m [7] (u "HS256") (VInt 3600))) ; construct (cdef C_oidc_AuthorizationResponse) ((u "id_token", VStr j) :: [((u "token_type"), (VStr (u "Bearer"))); ((u "expires_in"), (VInt (3600))); ((u "code"), (VStr (u "grant")))])) with Ok d => verify (kj_env now [[]; rub]) (jargs [((u "sigalg"), (VStr (u "HS256")))]) None C_oidc_AuthorizationResponse d | Err e => ([], Err e) end))] = true.
Proof. vm_compute. reflexivity. Qed.

(** test_06_oidc.py:912-929 *)
Example test_id_token :
  all [
  runs (match (construct (cdef C_oidc_IdToken) [((u "sub"), (VStr (u "553df2bcf909104751cfd8b2"))); ((u "aud"), (VList [(VStr (u "5542958437706128204e0000")); (VStr (u "554295ce3770612820620000"))])); ((u "auth_time"), (VInt (1441364872))); ((u "azp"), (VStr (u "554295ce3770612820620000"))); ((u "at_hash"), (VStr (u "L4Ign7TCAD_EppRbHAuCyw"))); ((u "iat"), (VInt (1600000000))); ((u "exp"), (VInt (1600003600))); ((u "iss"), (VStr (u "https://sso.qa.7pass.ctf.prosiebensat1.com")))]) with Ok d => verify no_env (args []) None C_oidc_IdToken d | Err e => ([], Err e) end)] = true.
Proof. vm_compute. reflexivity. Qed.

(** test_06_oidc.py:933-937 *)
Example TestAccessTokenRequest_test_example :
  all [
  yes (match (read_url (cdef C_oidc_AccessTokenRequest) (u "grant_type=authorization_code&code=SplxlOBeZQQYbYS6WxSbIA&redirect_uri=https%3A%2F%2Fclient.example.org%2Fcb")) with Ok d => verify no_env (args []) None C_oidc_AccessTokenRequest d | Err e => ([], Err e) end)] = true.
Proof. vm_compute. reflexivity. Qed.

(** test_06_oidc.py:941-949 *)
Example TestAuthnToken_test_example :
  all [
  yes (match (construct (cdef C_oidc_AuthnToken) [((u "iss"), (VStr (u "https://example.com"))); ((u "sub"), (VStr (u "https://example,org"))); ((u "aud"), (VList [(VStr (u "https://example.org/token"))])); ((u "jti"), (VStr (u "abcdefghijkl"))); ((u "exp"), (VInt (1600003600)))]) with Ok d => verify no_env (args []) None C_oidc_AuthnToken d | Err e => ([], Err e) end)] = true.
Proof. vm_compute. reflexivity. Qed.

(** test_06_oidc.py:953-955 *)
Example TestAuthorizationErrorResponse_test_allowed_err :
  all [
  yes (match (construct (cdef C_oidc_AuthorizationErrorResponse) [((u "error"), (VStr (u "interaction_required")))]) with Ok d => verify no_env (args []) None C_oidc_AuthorizationErrorResponse d | Err e => ([], Err e) end)] = true.
Proof. vm_compute. reflexivity. Qed.

(** test_06_oidc.py:957-960 *)
Example TestAuthorizationErrorResponse_test_not_allowed_err :
  all [
  raises ENotAllowedValue (snd (match (construct (cdef C_oidc_AuthorizationErrorResponse) [((u "error"), (VStr (u "other_error")))]) with Ok d => verify no_env (args []) None C_oidc_AuthorizationErrorResponse d | Err e => ([], Err e) end))] = true.
Proof. vm_compute. reflexivity. Qed.

(** test_06_oidc.py:966-968 *)
Example test_birthdate :
  all [
  runs (match (construct (cdef C_oidc_OpenIDSchema) [((u "birthdate"), (VStr (u "1971-11-23"))); ((u "sub"), (VStr (u "jarvis")))]) with Ok d => verify no_env (args []) None C_oidc_OpenIDSchema d | Err e => ([], Err e) end);
  runs (match (construct (cdef C_oidc_OpenIDSchema) [((u "birthdate"), (VStr (u "0000-11-23"))); ((u "sub"), (VStr (u "jarvis")))]) with Ok d => verify no_env (args []) None C_oidc_OpenIDSchema d | Err e => ([], Err e) end);
  runs (match (construct (cdef C_oidc_OpenIDSchema) [((u "birthdate"), (VStr (u "1971"))); ((u "sub"), (VStr (u "jarvis")))]) with Ok d => verify no_env (args []) None C_oidc_OpenIDSchema d | Err e => ([], Err e) end)] = true.
Proof. vm_compute. reflexivity. Qed.

(** test_06_oidc.py:971-975 *)
Example test_factory :
  all [
  made (oidc_factory (u "DiscoveryRequest") [((u "resource"), (VStr (u "local@domain"))); ((u "rel"), (VStr (u "http://openid.net/specs/connect/1.0/issuer")))]) C_oidc_DiscoveryRequest;
  keys_are (content (oidc_factory (u "DiscoveryRequest") [((u "resource"), (VStr (u "local@domain"))); ((u "rel"), (VStr (u "http://openid.net/specs/connect/1.0/issuer")))])) [(u "resource"); (u "rel")]] = true.
Proof. vm_compute. reflexivity. Qed.

(** test_06_oidc.py:978-981 *)
Example test_factory_chain :
  all [
  made (oidc_factory (u "ResponseMessage") [((u "error"), (VStr (u "some_error")))]) C_oauth2_ResponseMessage;
  keys_are (content (oidc_factory (u "ResponseMessage") [((u "error"), (VStr (u "some_error")))])) [(u "error")]] = true.
Proof. vm_compute. reflexivity. Qed.

(** test_06_oidc.py:984-995 *)
Example test_dict_deser :
  all [
  value_is (l_deser the_lib DeDict (VDict [((u "foo"), (VStr (u "bar")))]) Fdict) (VStr (u "{""foo"": ""bar""}"));
  value_is (read DeDict Fdict (l_deser the_lib DeDict (VDict [((u "foo"), (VStr (u "bar")))]) Fdict)) (VStr (u "{""foo"": ""bar""}"))] = true.
Proof. vm_compute. reflexivity. Qed.

(** test_06_oidc.py:998-1005 *)
Example test_claims_match :
  all [
  match claims_match (VList [(VStr (u "val"))]) None with Ok x => Bool.eqb x true | _ => false end;
  match claims_match (VStr (u "val")) (Some [((u "value"), (VStr (u "val")))]) with Ok x => Bool.eqb x true | _ => false end;
  match claims_match (VStr (u "val")) (Some [((u "value"), (VStr (u "other")))]) with Ok x => Bool.eqb x false | _ => false end;
  match claims_match (VStr (u "val")) (Some [((u "values"), (VList [(VStr (u "val")); (VStr (u "other"))]))]) with Ok x => Bool.eqb x true | _ => false end;
  match claims_match (VStr (u "val")) (Some [((u "value"), (VStr (u "val"))); ((u "essential"), (VBool true))]) with Ok x => Bool.eqb x true | _ => false end;
  match claims_match (VStr (u "val")) (Some [((u "value"), (VStr (u "other"))); ((u "essential"), (VBool true))]) with Ok x => Bool.eqb x false | _ => false end;
  match claims_match (VStr (u "val")) (Some [((u "essential"), (VBool true))]) with Ok x => Bool.eqb x true | _ => false end] = true.
Proof. vm_compute. reflexivity. Qed.

(** test_06_oidc.py:1008-1011 *)
Example test_factory_2 :
  all [
  made (oidc_factory (u "ROPCAccessTokenRequest") [((u "username"), (VStr (u "me"))); ((u "password"), (VStr (u "text"))); ((u "scope"), (VStr (u "mar")))]) C_oauth2_ROPCAccessTokenRequest] = true.
Proof. vm_compute. reflexivity. Qed.

(** test_06_oidc.py:1014-1020 *)
Example test_link_deser :
  all [
  is_link (do v <- (do v <- (do m <- (construct (cdef C_oidc_Link) [((u "href"), (VStr (u "https://example.com/op"))); ((u "rel"), (VStr (u "http://openid.net/specs/connect/1.0/issuer")))]) ; Ok (VMsg C_oidc_Link m)) ; link_ser v (u "json") 0) ; read DeLink Fjson (Ok (VList [v])))] = true.
Proof. vm_compute. reflexivity. Qed.

(** test_06_oidc.py:1023-1028 *)
Example test_link_deser_dict :
  all [
  is_link (do v <- (do m <- (construct (cdef C_oidc_Link) [((u "href"), (VStr (u "https://example.com/op"))); ((u "rel"), (VStr (u "http://openid.net/specs/connect/1.0/issuer")))]) ; do x <- to_dict (cdef C_oidc_Link) m ; Ok (VDict x)) ; read DeLink Fjson (Ok (VList [v])))] = true.
Proof. vm_compute. reflexivity. Qed.

(** test_06_oidc.py:1031-1042 *)
Example test_proper_path :
  all [
  ueqb (proper_path (u "foo/bar")) (u "./foo/bar/");
  ueqb (proper_path (u "/foo/bar")) (u "./foo/bar/");
  ueqb (proper_path (u "./foo/bar")) (u "./foo/bar/");
  ueqb (proper_path (u "../foo/bar")) (u "./foo/bar/")] = true.
Proof. vm_compute. reflexivity. Qed.

(** test_06_oidc.py:1045-1068 *)
Example test_verify_id_token :
  all [
  yes (match (do j <- (do m <- (construct (cdef C_oidc_IdToken) [((u "sub"), (VStr (u "553df2bcf909104751cfd8b2"))); ((u "aud"), (VList [(VStr (u "5542958437706128204e0000")); (VStr (u "554295ce3770612820620000"))])); ((u "auth_time"), (VInt (1441364872))); ((u "azp"), (VStr (u "554295ce3770612820620000")))]) ; do x <- to_dict (cdef C_oidc_IdToken) m ; Ok (packed now [(u "iss", (VStr (u "https://sso.qa.7pass.ctf.prosiebensat1.com")))] x)) ; construct (cdef C_oidc_AuthorizationResponse) ((u "id_token", VStr j) :: [])) with Ok m => verify_id_token (kj_env now [[]; pass]) 0 (jargs [((u "iss"), (VStr (u "https://sso.qa.7pass.ctf.prosiebensat1.com"))); ((u "client_id"), (VStr (u "554295ce3770612820620000")))]) (cdef C_oidc_AuthorizationResponse) false (u "id_token") m | Err e => ([], Err e) end)] = true.
Proof. vm_compute. reflexivity. Qed.

(** test_06_oidc.py:1071-1093 *)
Example test_verify_id_token_wrong_issuer :
  all [
  raises EValueError (snd (match (do j <- (do m <- (construct (cdef C_oidc_IdToken) [((u "sub"), (VStr (u "553df2bcf909104751cfd8b2"))); ((u "aud"), (VList [(VStr (u "5542958437706128204e0000")); (VStr (u "554295ce3770612820620000"))])); ((u "auth_time"), (VInt (1441364872))); ((u "azp"), (VStr (u "554295ce3770612820620000")))]) ; do x <- to_dict (cdef C_oidc_IdToken) m ; Ok (packed now [(u "iss", (VStr (u "https://example.com/as")))] x)) ; construct (cdef C_oidc_AuthorizationResponse) ((u "id_token", VStr j) :: [])) with Ok m => verify_id_token (kj_env now [[]; pass]) 0 (jargs [((u "iss"), (VStr (u "https://sso.qa.7pass.ctf.prosiebensat1.com"))); ((u "client_id"), (VStr (u "554295ce3770612820620000")))]) (cdef C_oidc_AuthorizationResponse) false (u "id_token") m | Err e => ([], Err e) end))] = true.
Proof. vm_compute. reflexivity. Qed.

(** test_06_oidc.py:1096-1118 *)
Example test_verify_id_token_wrong_aud :
  all [
  raises EValueError (snd (match (do j <- (do m <- (construct (cdef C_oidc_IdToken) [((u "sub"), (VStr (u "553df2bcf909104751cfd8b2"))); ((u "aud"), (VList [(VStr (u "5542958437706128204e0000")); (VStr (u "554295ce3770612820620000"))])); ((u "auth_time"), (VInt (1441364872))); ((u "azp"), (VStr (u "554295ce3770612820620000")))]) ; do x <- to_dict (cdef C_oidc_IdToken) m ; Ok (packed now [(u "iss", (VStr (u "https://example.com/as")))] x)) ; construct (cdef C_oidc_AuthorizationResponse) ((u "id_token", VStr j) :: [])) with Ok m => verify_id_token (kj_env now [[]; pass]) 0 (jargs [((u "iss"), (VStr (u "https://sso.qa.7pass.ctf.prosiebensat1.com"))); ((u "client_id"), (VStr (u "aaaaaaaaaaaaaaaaaaaa")))]) (cdef C_oidc_AuthorizationResponse) false (u "id_token") m | Err e => ([], Err e) end))] = true.
Proof. vm_compute. reflexivity. Qed.

(** test_06_oidc.py:1121-1143 *)
Example test_verify_id_token_mismatch_aud_azp :
  all [
  raises EValueError (snd (match (do j <- (do m <- (construct (cdef C_oidc_IdToken) [((u "sub"), (VStr (u "553df2bcf909104751cfd8b2"))); ((u "aud"), (VList [(VStr (u "5542958437706128204e0000")); (VStr (u "554295ce3770612820620000"))])); ((u "auth_time"), (VInt (1441364872))); ((u "azp"), (VStr (u "aaaaaaaaaaaaaaaaaaaa")))]) ; do x <- to_dict (cdef C_oidc_IdToken) m ; Ok (packed now [(u "iss", (VStr (u "https://example.com/as")))] x)) ; construct (cdef C_oidc_AuthorizationResponse) ((u "id_token", VStr j) :: [])) with Ok m => verify_id_token (kj_env now [[]; pass]) 0 (jargs [((u "iss"), (VStr (u "https://sso.qa.7pass.ctf.prosiebensat1.com"))); ((u "client_id"), (VStr (u "aaaaaaaaaaaaaaaaaaaa")))]) (cdef C_oidc_AuthorizationResponse) false (u "id_token") m | Err e => ([], Err e) end))] = true.
Proof. vm_compute. reflexivity. Qed.

(** test_06_oidc.py:1146-1172 *)
Example test_verify_id_token_c_hash :
  all [
  runs (match (do j <- (do m <- (construct (cdef C_oidc_IdToken) [((u "sub"), (VStr (u "553df2bcf909104751cfd8b2"))); ((u "aud"), (VList [(VStr (u "5542958437706128204e0000")); (VStr (u "554295ce3770612820620000"))])); ((u "auth_time"), (VInt (1441364872))); ((u "azp"), (VStr (u "554295ce3770612820620000"))); ((u "c_hash"), (VStr (u "HS256:AccessCode1")))]) ; do x <- to_dict (cdef C_oidc_IdToken) m ; Ok (packed now [(u "iss", (VStr (u "https://sso.qa.7pass.ctf.prosiebensat1.com")))] x)) ; construct (cdef C_oidc_AuthorizationResponse) ((u "id_token", VStr j) :: [((u "code"), (VStr (u "AccessCode1")))])) with Ok m => verify_id_token (kj_env now [[]; pass]) 0 (jargs [((u "iss"), (VStr (u "https://sso.qa.7pass.ctf.prosiebensat1.com"))); ((u "client_id"), (VStr (u "554295ce3770612820620000")))]) (cdef C_oidc_AuthorizationResponse) true (u "id_token") m | Err e => ([], Err e) end)] = true.
Proof. vm_compute. reflexivity. Qed.

(** test_06_oidc.py:1175-1202 *)
Example test_verify_id_token_c_hash_fail :
  all [
  raises ECHashError (snd (match (do j <- (do m <- (construct (cdef C_oidc_IdToken) [((u "sub"), (VStr (u "553df2bcf909104751cfd8b2"))); ((u "aud"), (VList [(VStr (u "5542958437706128204e0000")); (VStr (u "554295ce3770612820620000"))])); ((u "auth_time"), (VInt (1441364872))); ((u "azp"), (VStr (u "554295ce3770612820620000"))); ((u "c_hash"), (VStr (u "HS256:AccessCode1")))]) ; do x <- to_dict (cdef C_oidc_IdToken) m ; Ok (packed now [(u "iss", (VStr (u "https://sso.qa.7pass.ctf.prosiebensat1.com")))] x)) ; construct (cdef C_oidc_AuthorizationResponse) ((u "id_token", VStr j) :: [((u "code"), (VStr (u "AccessCode289")))])) with Ok m => verify_id_token (kj_env now [[]; pass]) 0 (jargs [((u "iss"), (VStr (u "https://sso.qa.7pass.ctf.prosiebensat1.com"))); ((u "client_id"), (VStr (u "554295ce3770612820620000")))]) (cdef C_oidc_AuthorizationResponse) true (u "id_token") m | Err e => ([], Err e) end))] = true.
Proof. vm_compute. reflexivity. Qed.

(** test_06_oidc.py:1205-1231 *)
Example test_verify_id_token_at_hash :
  all [
  runs (match (do j <- (do m <- (construct (cdef C_oidc_IdToken) [((u "sub"), (VStr (u "553df2bcf909104751cfd8b2"))); ((u "aud"), (VList [(VStr (u "5542958437706128204e0000")); (VStr (u "554295ce3770612820620000"))])); ((u "auth_time"), (VInt (1441364872))); ((u "azp"), (VStr (u "554295ce3770612820620000"))); ((u "at_hash"), (VStr (u "HS256:AccessTokenWhichCouldBeASignedJWT")))]) ; do x <- to_dict (cdef C_oidc_IdToken) m ; Ok (packed now [(u "iss", (VStr (u "https://sso.qa.7pass.ctf.prosiebensat1.com")))] x)) ; construct (cdef C_oidc_AuthorizationResponse) ((u "id_token", VStr j) :: [((u "access_token"), (VStr (u "AccessTokenWhichCouldBeASignedJWT")))])) with Ok m => verify_id_token (kj_env now [[]; pass]) 0 (jargs [((u "iss"), (VStr (u "https://sso.qa.7pass.ctf.prosiebensat1.com"))); ((u "client_id"), (VStr (u "554295ce3770612820620000")))]) (cdef C_oidc_AuthorizationResponse) true (u "id_token") m | Err e => ([], Err e) end)] = true.
Proof. vm_compute. reflexivity. Qed.

(** test_06_oidc.py:1234-1262 *)
Example test_verify_id_token_at_hash_fail :
  all [
  raises EAtHashError (snd (match (do j <- (do m <- (construct (cdef C_oidc_IdToken) [((u "sub"), (VStr (u "553df2bcf909104751cfd8b2"))); ((u "aud"), (VList [(VStr (u "5542958437706128204e0000")); (VStr (u "554295ce3770612820620000"))])); ((u "auth_time"), (VInt (1441364872))); ((u "azp"), (VStr (u "554295ce3770612820620000"))); ((u "at_hash"), (VStr (u "HS256:AccessTokenWhichCouldBeASignedJWT")))]) ; do x <- to_dict (cdef C_oidc_IdToken) m ; Ok (packed now [(u "iss", (VStr (u "https://sso.qa.7pass.ctf.prosiebensat1.com")))] x)) ; construct (cdef C_oidc_AuthorizationResponse) ((u "id_token", VStr j) :: [((u "access_token"), (VStr (u "ACompletelyOtherAccessToken")))])) with Ok m => verify_id_token (kj_env now [[]; pass]) 0 (jargs [((u "iss"), (VStr (u "https://sso.qa.7pass.ctf.prosiebensat1.com"))); ((u "client_id"), (VStr (u "554295ce3770612820620000")))]) (cdef C_oidc_AuthorizationResponse) true (u "id_token") m | Err e => ([], Err e) end))] = true.
Proof. vm_compute. reflexivity. Qed.

(** test_06_oidc.py:1265-1290 *)
Example test_verify_id_token_missing_at_hash :
  all [
  raises EMissingRequiredAttribute (snd (match (do j <- (do m <- (construct (cdef C_oidc_IdToken) [((u "sub"), (VStr (u "553df2bcf909104751cfd8b2"))); ((u "aud"), (VList [(VStr (u "5542958437706128204e0000")); (VStr (u "554295ce3770612820620000"))])); ((u "auth_time"), (VInt (1441364872))); ((u "azp"), (VStr (u "554295ce3770612820620000")))]) ; do x <- to_dict (cdef C_oidc_IdToken) m ; Ok (packed now [(u "iss", (VStr (u "https://sso.qa.7pass.ctf.prosiebensat1.com")))] x)) ; construct (cdef C_oidc_AuthorizationResponse) ((u "id_token", VStr j) :: [((u "access_token"), (VStr (u "AccessTokenWhichCouldBeASignedJWT")))])) with Ok m => verify_id_token (kj_env now [[]; pass]) 0 (jargs [((u "iss"), (VStr (u "https://sso.qa.7pass.ctf.prosiebensat1.com"))); ((u "client_id"), (VStr (u "554295ce3770612820620000")))]) (cdef C_oidc_AuthorizationResponse) true (u "id_token") m | Err e => ([], Err e) end))] = true.
Proof. vm_compute. reflexivity. Qed.

(** test_06_oidc.py:1293-1318 *)
Example test_verify_id_token_missing_c_hash :
  all [
  raises EMissingRequiredAttribute (snd (match (do j <- (do m <- (construct (cdef C_oidc_IdToken) [((u "sub"), (VStr (u "553df2bcf909104751cfd8b2"))); ((u "aud"), (VList [(VStr (u "5542958437706128204e0000")); (VStr (u "554295ce3770612820620000"))])); ((u "auth_time"), (VInt (1441364872))); ((u "azp"), (VStr (u "554295ce3770612820620000")))]) ; do x <- to_dict (cdef C_oidc_IdToken) m ; Ok (packed now [(u "iss", (VStr (u "https://sso.qa.7pass.ctf.prosiebensat1.com")))] x)) ; construct (cdef C_oidc_AuthorizationResponse) ((u "id_token", VStr j) :: [((u "code"), (VStr (u "AccessCode1")))])) with Ok m => verify_id_token (kj_env now [[]; pass]) 0 (jargs [((u "iss"), (VStr (u "https://sso.qa.7pass.ctf.prosiebensat1.com"))); ((u "client_id"), (VStr (u "554295ce3770612820620000")))]) (cdef C_oidc_AuthorizationResponse) true (u "id_token") m | Err e => ([], Err e) end))] = true.
Proof. vm_compute. reflexivity. Qed.

(** test_06_oidc.py:1321-1350 *)
Example test_verify_id_token_at_hash_and_chash :
  all [
  runs (match (do j <- (do m <- (construct (cdef C_oidc_IdToken) [((u "sub"), (VStr (u "553df2bcf909104751cfd8b2"))); ((u "aud"), (VList [(VStr (u "5542958437706128204e0000")); (VStr (u "554295ce3770612820620000"))])); ((u "auth_time"), (VInt (1441364872))); ((u "azp"), (VStr (u "554295ce3770612820620000"))); ((u "at_hash"), (VStr (u "HS256:AccessTokenWhichCouldBeASignedJWT"))); ((u "c_hash"), (VStr (u "HS256:AccessCode1")))]) ; do x <- to_dict (cdef C_oidc_IdToken) m ; Ok (packed now [(u "iss", (VStr (u "https://sso.qa.7pass.ctf.prosiebensat1.com")))] x)) ; construct (cdef C_oidc_AuthorizationResponse) ((u "id_token", VStr j) :: [((u "access_token"), (VStr (u "AccessTokenWhichCouldBeASignedJWT"))); ((u "code"), (VStr (u "AccessCode1")))])) with Ok m => verify_id_token (kj_env now [[]; pass]) 0 (jargs [((u "iss"), (VStr (u "https://sso.qa.7pass.ctf.prosiebensat1.com"))); ((u "client_id"), (VStr (u "554295ce3770612820620000")))]) (cdef C_oidc_AuthorizationResponse) true (u "id_token") m | Err e => ([], Err e) end)] = true.
Proof. vm_compute. reflexivity. Qed.

(** test_06_oidc.py:1353-1374 *)
Example test_verify_id_token_missing_iss :
  all [
  raises EMissingRequiredAttribute (snd (match (do j <- (do m <- (construct (cdef C_oidc_IdToken) [((u "sub"), (VStr (u "553df2bcf909104751cfd8b2"))); ((u "aud"), (VList [(VStr (u "5542958437706128204e0000")); (VStr (u "554295ce3770612820620000"))])); ((u "auth_time"), (VInt (1441364872))); ((u "azp"), (VStr (u "554295ce3770612820620000")))]) ; do x <- to_dict (cdef C_oidc_IdToken) m ; Ok (packed now [] x)) ; construct (cdef C_oidc_AuthorizationResponse) ((u "id_token", VStr j) :: [])) with Ok m => verify_id_token (kj_env now [[]; pass]) 0 (jargs [((u "iss"), (VStr (u "https://sso.qa.7pass.ctf.prosiebensat1.com"))); ((u "client_id"), (VStr (u "554295ce3770612820620000")))]) (cdef C_oidc_AuthorizationResponse) true (u "id_token") m | Err e => ([], Err e) end))] = true.
Proof. vm_compute. reflexivity. Qed.

(** test_06_oidc.py:1377-1399 *)
Example test_verify_id_token_iss_not_in_keyjar :
  all [
  raises EValueError (snd (match (do j <- (do m <- (construct (cdef C_oidc_IdToken) [((u "sub"), (VStr (u "553df2bcf909104751cfd8b2"))); ((u "aud"), (VList [(VStr (u "5542958437706128204e0000")); (VStr (u "554295ce3770612820620000"))])); ((u "auth_time"), (VInt (1441364872))); ((u "azp"), (VStr (u "554295ce3770612820620000")))]) ; do x <- to_dict (cdef C_oidc_IdToken) m ; Ok (packed now [(u "iss", (VStr (u "https://example.com/op")))] x)) ; construct (cdef C_oidc_AuthorizationResponse) ((u "id_token", VStr j) :: [])) with Ok m => verify_id_token (kj_env now [[]; pass]) 0 (jargs [((u "iss"), (VStr (u "https://sso.qa.7pass.ctf.prosiebensat1.com"))); ((u "client_id"), (VStr (u "554295ce3770612820620000")))]) (cdef C_oidc_AuthorizationResponse) true (u "id_token") m | Err e => ([], Err e) end))] = true.
Proof. vm_compute. reflexivity. Qed.

(** test_06_oidc.py:1402-1423 *)
Example test_wrong_sign_alg :
  all [
  raises EUnsupportedAlgorithm (snd (match (do j <- (do m <- (construct (cdef C_oidc_IdToken) [((u "sub"), (VStr (u "553df2bcf909104751cfd8b2"))); ((u "aud"), (VList [(VStr (u "5542958437706128204e0000")); (VStr (u "554295ce3770612820620000"))])); ((u "auth_time"), (VInt (1441364872))); ((u "azp"), (VStr (u "554295ce3770612820620000")))]) ; do x <- to_dict (cdef C_oidc_IdToken) m ; Ok (packed now [(u "iss", (VStr (u "https://example.com/op")))] x)) ; construct (cdef C_oidc_AuthorizationResponse) ((u "id_token", VStr j) :: [])) with Ok m => verify_id_token (kj_env now [[]; (u "554295ce3770612820620000")]) 0 (jargs [((u "allowed_sign_alg"), (VStr (u "RS256"))); ((u "iss"), (VStr (u "https://example.com/op"))); ((u "client_id"), (VStr (u "554295ce3770612820620000")))]) (cdef C_oidc_AuthorizationResponse) true (u "id_token") m | Err e => ([], Err e) end))] = true.
Proof. vm_compute. reflexivity. Qed.

(** test_06_oidc.py:1426-1447 *)
Example test_correct_sign_alg :
  all [
  yes (match (do j <- (do m <- (construct (cdef C_oidc_IdToken) [((u "sub"), (VStr (u "553df2bcf909104751cfd8b2"))); ((u "aud"), (VList [(VStr (u "5542958437706128204e0000")); (VStr (u "554295ce3770612820620000"))])); ((u "auth_time"), (VInt (1441364872))); ((u "azp"), (VStr (u "554295ce3770612820620000")))]) ; do x <- to_dict (cdef C_oidc_IdToken) m ; Ok (packed now [(u "iss", (VStr (u "https://example.com/op")))] x)) ; construct (cdef C_oidc_AuthorizationResponse) ((u "id_token", VStr j) :: [])) with Ok m => verify_id_token (kj_env now [[]; (u "https://example.com/op"); (u "554295ce3770612820620000")]) 0 (jargs [((u "allowed_sign_alg"), (VStr (u "HS256"))); ((u "iss"), (VStr (u "https://example.com/op"))); ((u "client_id"), (VStr (u "554295ce3770612820620000")))]) (cdef C_oidc_AuthorizationResponse) true (u "id_token") m | Err e => ([], Err e) end)] = true.
Proof. vm_compute. reflexivity. Qed.
