(** Generated by tools/mktests.py: the tests of /repo/tests/test_05_oauth2.py on the model. *)
From Coq Require Import List NArith ZArith QArith Bool String.
From Verif Require Import Base.Ustr Base.Percent Model.Cls Model.Value Model.Pspec Model.Tables Model.Json Model.Message Model.Env Model.Verify
  Model.Jose Model.Dispatch Model.Serializers Model.RequestObject Model.IdentityAssurance Model.Calendar Model.TimeUtil Model.Config Tests.TestKit.
Import ListNotations.
Open Scope list_scope.
Open Scope N_scope.


(** test_05_oauth2.py:83-90 *)
Example test_sp_sep_list_deserializer :
  all [
  value_is (l_deser the_lib DeSpSep (VStr (u "foo bar zen")) Furl) (VList [(VStr (u "foo")); (VStr (u "bar")); (VStr (u "zen"))]);
  value_is (l_deser the_lib DeSpSep (VList [(VStr (u "foo bar zen"))]) Furl) (VList [(VStr (u "foo")); (VStr (u "bar")); (VStr (u "zen"))])] = true.
Proof. vm_compute. reflexivity. Qed.

(** test_05_oauth2.py:93-96 *)
Example test_json_serializer :
  all [
  value_is (do x <- json_dumps (VDict [((u "foo"), (VList [(VStr (u "bar")); (VStr (u "stool"))]))]) ; json_loads x) (VDict [((u "foo"), (VList [(VStr (u "bar")); (VStr (u "stool"))]))])] = true.
Proof. vm_compute. reflexivity. Qed.

(** test_05_oauth2.py:99-104 *)
Example test_json_deserializer :
  all [
  value_is (do x <- json_dumps (VDict [((u "foo"), (VList [(VStr (u "bar")); (VStr (u "stool"))]))]) ; l_deser the_lib DeJson (VStr x) Furl) (VDict [((u "foo"), (VList [(VStr (u "bar")); (VStr (u "stool"))]))])] = true.
Proof. vm_compute. reflexivity. Qed.

(** test_05_oauth2.py:108-111 *)
Example TestAuthorizationRequest_test_authz_req_urlencoded :
  all [
  same_query (do m <- (construct (cdef C_oauth2_AuthorizationRequest) [((u "response_type"), (VList [(VStr (u "code"))])); ((u "client_id"), (VStr (u "foobar")))]) ; url (cdef C_oauth2_AuthorizationRequest) m) (u "response_type=code&client_id=foobar")] = true.
Proof. vm_compute. reflexivity. Qed.

(** test_05_oauth2.py:113-122 *)
Example TestAuthorizationRequest_test_urlencoded_with_redirect_uri :
  all [
  same_query (do m <- (construct (cdef C_oauth2_AuthorizationRequest) [((u "response_type"), (VList [(VStr (u "code"))])); ((u "client_id"), (VStr (u "foobar"))); ((u "redirect_uri"), (VStr (u "http://foobar.example.com/oaclient"))); ((u "state"), (VStr (u "cold")))]) ; url (cdef C_oauth2_AuthorizationRequest) m) (u "state=cold&redirect_uri=http%3A%2F%2Ffoobar.example.com%2Foaclient&response_type=code&client_id=foobar")] = true.
Proof. vm_compute. reflexivity. Qed.

(** test_05_oauth2.py:124-134 *)
Example TestAuthorizationRequest_test_urlencoded_resp_type_token :
  all [
  same_query (do m <- (construct (cdef C_oauth2_AuthorizationRequest) [((u "response_type"), (VList [(VStr (u "token"))])); ((u "client_id"), (VStr (u "s6BhdRkqt3"))); ((u "redirect_uri"), (VStr (u "https://client.example.com/cb"))); ((u "state"), (VStr (u "xyz")))]) ; url (cdef C_oauth2_AuthorizationRequest) m) (u "state=xyz&redirect_uri=https%3A%2F%2Fclient.example.com%2Fcb&response_type=token&client_id=s6BhdRkqt3")] = true.
Proof. vm_compute. reflexivity. Qed.

(** test_05_oauth2.py:136-142 *)
Example TestAuthorizationRequest_test_deserialize_urlencoded :
  all [
  match (construct (cdef C_oauth2_AuthorizationRequest) [((u "response_type"), (VList [(VStr (u "code"))])); ((u "client_id"), (VStr (u "foobar")))]), (do x <- (do m <- (construct (cdef C_oauth2_AuthorizationRequest) [((u "response_type"), (VList [(VStr (u "code"))])); ((u "client_id"), (VStr (u "foobar")))]) ; url (cdef C_oauth2_AuthorizationRequest) m) ; read_url (cdef C_oauth2_AuthorizationRequest) x) with Ok a, Ok b => msg_eq (cdef C_oauth2_AuthorizationRequest) (cdef C_oauth2_AuthorizationRequest) a b | _, _ => false end] = true.
Proof. vm_compute. reflexivity. Qed.

(** test_05_oauth2.py:144-153 *)
Example TestAuthorizationRequest_test_urlencoded_with_scope :
  all [
  same_query (do m <- (construct (cdef C_oauth2_AuthorizationRequest) [((u "response_type"), (VList [(VStr (u "code"))])); ((u "client_id"), (VStr (u "foobar"))); ((u "redirect_uri"), (VStr (u "http://foobar.example.com/oaclient"))); ((u "scope"), (VList [(VStr (u "foo")); (VStr (u "bar"))])); ((u "state"), (VStr (u "cold")))]) ; url (cdef C_oauth2_AuthorizationRequest) m) (u "scope=foo+bar&state=cold&redirect_uri=http%3A%2F%2Ffoobar.example.com%2Foaclient&response_type=code&client_id=foobar")] = true.
Proof. vm_compute. reflexivity. Qed.

(** test_05_oauth2.py:155-163 *)
Example TestAuthorizationRequest_test_deserialize_urlencoded_multiple_params :
  all [
  match (construct (cdef C_oauth2_AuthorizationRequest) [((u "response_type"), (VList [(VStr (u "code"))])); ((u "client_id"), (VStr (u "foobar"))); ((u "redirect_uri"), (VStr (u "http://foobar.example.com/oaclient"))); ((u "scope"), (VList [(VStr (u "foo")); (VStr (u "bar"))])); ((u "state"), (VStr (u "cold")))]), (do x <- (do m <- (construct (cdef C_oauth2_AuthorizationRequest) [((u "response_type"), (VList [(VStr (u "code"))])); ((u "client_id"), (VStr (u "foobar"))); ((u "redirect_uri"), (VStr (u "http://foobar.example.com/oaclient"))); ((u "scope"), (VList [(VStr (u "foo")); (VStr (u "bar"))])); ((u "state"), (VStr (u "cold")))]) ; url (cdef C_oauth2_AuthorizationRequest) m) ; read_url (cdef C_oauth2_AuthorizationRequest) x) with Ok a, Ok b => msg_eq (cdef C_oauth2_AuthorizationRequest) (cdef C_oauth2_AuthorizationRequest) a b | _, _ => false end] = true.
Proof. vm_compute. reflexivity. Qed.

(** test_05_oauth2.py:165-168 *)
Example TestAuthorizationRequest_test_urlencoded_missing_required :
  all [
  raises EMissingRequiredAttribute (snd (match (construct (cdef C_oauth2_AuthorizationRequest) [((u "response_type"), (VList [(VStr (u "code"))]))]) with Ok d => verify no_env (args []) None C_oauth2_AuthorizationRequest d | Err e => ([], Err e) end))] = true.
Proof. vm_compute. reflexivity. Qed.

(** test_05_oauth2.py:170-178 *)
Example TestAuthorizationRequest_test_urlencoded_invalid_scope :
  all [
  raises EDecodeError (construct (cdef C_oauth2_AuthorizationRequest) [((u "response_type"), (VList [(VInt (10))])); ((u "client_id"), (VStr (u "foobar"))); ((u "redirect_uri"), (VStr (u "http://foobar.example.com/oaclient"))); ((u "scope"), (VList [(VStr (u "foo")); (VStr (u "bar"))])); ((u "state"), (VStr (u "cold")))])] = true.
Proof. vm_compute. reflexivity. Qed.

(** test_05_oauth2.py:180-186 *)
Example TestAuthorizationRequest_test_urlencoded_deserialize_state :
  all [
  item_is (read_url (cdef C_oauth2_AuthorizationRequest) (u "scope=foo+bar&state=-11&redirect_uri=http%3A%2F%2Ffoobar.example.com%2Foaclient&response_type=code&client_id=foobar")) (u "state") (VStr (u "-11"))] = true.
Proof. vm_compute. reflexivity. Qed.

(** test_05_oauth2.py:188-195 *)
Example TestAuthorizationRequest_test_urlencoded_deserialize_response_type :
  all [
  item_is (read_url (cdef C_oauth2_AuthorizationRequest) (u "scope=openid&state=id-6a3fc96caa7fd5cb1c7d00ed66937134&redirect_uri=http%3A%2F%2Flocalhost%3A8087authz&response_type=code&client_id=a1b2c3")) (u "scope") (VList [(VStr (u "openid"))]);
  item_is (read_url (cdef C_oauth2_AuthorizationRequest) (u "scope=openid&state=id-6a3fc96caa7fd5cb1c7d00ed66937134&redirect_uri=http%3A%2F%2Flocalhost%3A8087authz&response_type=code&client_id=a1b2c3")) (u "response_type") (VList [(VStr (u "code"))])] = true.
Proof. vm_compute. reflexivity. Qed.

(** test_05_oauth2.py:197-206 *)
Example TestAuthorizationRequest_test_req_json_serialize :
  all [
  value_is (do x <- (do m <- (construct (cdef C_oauth2_AuthorizationRequest) [((u "response_type"), (VList [(VStr (u "code"))])); ((u "client_id"), (VStr (u "foobar")))]) ; to_json (cdef C_oauth2_AuthorizationRequest) m) ; json_loads x) (VDict [((u "response_type"), (VStr (u "code"))); ((u "client_id"), (VStr (u "foobar")))])] = true.
Proof. vm_compute. reflexivity. Qed.

(** test_05_oauth2.py:208-221 *)
Example TestAuthorizationRequest_test_json_multiple_params :
  all [
  value_is (do x <- (do m <- (construct (cdef C_oauth2_AuthorizationRequest) [((u "response_type"), (VList [(VStr (u "code"))])); ((u "client_id"), (VStr (u "foobar"))); ((u "redirect_uri"), (VStr (u "http://foobar.example.com/oaclient"))); ((u "state"), (VStr (u "cold")))]) ; to_json (cdef C_oauth2_AuthorizationRequest) m) ; json_loads x) (VDict [((u "response_type"), (VStr (u "code"))); ((u "client_id"), (VStr (u "foobar"))); ((u "redirect_uri"), (VStr (u "http://foobar.example.com/oaclient"))); ((u "state"), (VStr (u "cold")))])] = true.
Proof. vm_compute. reflexivity. Qed.

(** test_05_oauth2.py:223-236 *)
Example TestAuthorizationRequest_test_json_resp_type_token :
  all [
  value_is (do x <- (do m <- (construct (cdef C_oauth2_AuthorizationRequest) [((u "response_type"), (VList [(VStr (u "token"))])); ((u "client_id"), (VStr (u "s6BhdRkqt3"))); ((u "redirect_uri"), (VStr (u "https://client.example.com/cb"))); ((u "state"), (VStr (u "xyz")))]) ; to_json (cdef C_oauth2_AuthorizationRequest) m) ; json_loads x) (VDict [((u "response_type"), (VStr (u "token"))); ((u "client_id"), (VStr (u "s6BhdRkqt3"))); ((u "redirect_uri"), (VStr (u "https://client.example.com/cb"))); ((u "state"), (VStr (u "xyz")))])] = true.
Proof. vm_compute. reflexivity. Qed.

(** test_05_oauth2.py:238-244 *)
Example TestAuthorizationRequest_test_json_serialize_deserialize :
  all [
  match (construct (cdef C_oauth2_AuthorizationRequest) [((u "response_type"), (VList [(VStr (u "code"))])); ((u "client_id"), (VStr (u "foobar")))]), (do x <- (do m <- (construct (cdef C_oauth2_AuthorizationRequest) [((u "response_type"), (VList [(VStr (u "code"))])); ((u "client_id"), (VStr (u "foobar")))]) ; to_json (cdef C_oauth2_AuthorizationRequest) m) ; read_json (cdef C_oauth2_AuthorizationRequest) x) with Ok a, Ok b => msg_eq (cdef C_oauth2_AuthorizationRequest) (cdef C_oauth2_AuthorizationRequest) a b | _, _ => false end] = true.
Proof. vm_compute. reflexivity. Qed.

(** test_05_oauth2.py:246-250 *)
Example TestAuthorizationRequest_test_verify :
  all [
  yes (match (read_url (cdef C_oauth2_AuthorizationRequest) (u "redirect_uri=http%3A%2F%2Flocalhost%3A8080%2Fauthz&response_type=code&client_id=0123456789")) with Ok d => verify no_env (args []) None C_oauth2_AuthorizationRequest d | Err e => ([], Err e) end)] = true.
Proof. vm_compute. reflexivity. Qed.

(** test_05_oauth2.py:252-267 *)
Example TestAuthorizationRequest_test_load_dict :
  all [
  item_is (construct (cdef C_oauth2_AuthorizationRequest) [((u "scope"), (VList [(VStr (u "openid"))])); ((u "state"), (VStr (u "id-6da9ca0cc23959f5f33e8becd9b08cae"))); ((u "redirect_uri"), (VStr (u "http://localhost:8087authz"))); ((u "response_type"), (VList [(VStr (u "code"))])); ((u "client_id"), (VStr (u "a1b2c3")))]) (u "scope") (VList [(VStr (u "openid"))]);
  item_is (construct (cdef C_oauth2_AuthorizationRequest) [((u "scope"), (VList [(VStr (u "openid"))])); ((u "state"), (VStr (u "id-6da9ca0cc23959f5f33e8becd9b08cae"))); ((u "redirect_uri"), (VStr (u "http://localhost:8087authz"))); ((u "response_type"), (VList [(VStr (u "code"))])); ((u "client_id"), (VStr (u "a1b2c3")))]) (u "state") (VStr (u "id-6da9ca0cc23959f5f33e8becd9b08cae"));
  item_is (construct (cdef C_oauth2_AuthorizationRequest) [((u "scope"), (VList [(VStr (u "openid"))])); ((u "state"), (VStr (u "id-6da9ca0cc23959f5f33e8becd9b08cae"))); ((u "redirect_uri"), (VStr (u "http://localhost:8087authz"))); ((u "response_type"), (VList [(VStr (u "code"))])); ((u "client_id"), (VStr (u "a1b2c3")))]) (u "redirect_uri") (VStr (u "http://localhost:8087authz"));
  item_is (construct (cdef C_oauth2_AuthorizationRequest) [((u "scope"), (VList [(VStr (u "openid"))])); ((u "state"), (VStr (u "id-6da9ca0cc23959f5f33e8becd9b08cae"))); ((u "redirect_uri"), (VStr (u "http://localhost:8087authz"))); ((u "response_type"), (VList [(VStr (u "code"))])); ((u "client_id"), (VStr (u "a1b2c3")))]) (u "response_type") (VList [(VStr (u "code"))]);
  item_is (construct (cdef C_oauth2_AuthorizationRequest) [((u "scope"), (VList [(VStr (u "openid"))])); ((u "state"), (VStr (u "id-6da9ca0cc23959f5f33e8becd9b08cae"))); ((u "redirect_uri"), (VStr (u "http://localhost:8087authz"))); ((u "response_type"), (VList [(VStr (u "code"))])); ((u "client_id"), (VStr (u "a1b2c3")))]) (u "client_id") (VStr (u "a1b2c3"))] = true.
Proof. vm_compute. reflexivity. Qed.

(** test_05_oauth2.py:269-286 *)
Example TestAuthorizationRequest_test_json_serizalize_deserialize_multiple_params :
  all [
  item_is (do x <- (do m <- (construct (cdef C_oauth2_AuthorizationRequest) [((u "scope"), (VList [(VStr (u "openid"))])); ((u "state"), (VStr (u "id-b0be8bb64118c3ec5f70093a1174b039"))); ((u "redirect_uri"), (VStr (u "http://localhost:8087authz"))); ((u "response_type"), (VList [(VStr (u "code"))])); ((u "client_id"), (VStr (u "a1b2c3")))]) ; to_json (cdef C_oauth2_AuthorizationRequest) m) ; read_json (cdef C_oauth2_AuthorizationRequest) x) (u "scope") (VList [(VStr (u "openid"))]);
  item_is (do x <- (do m <- (construct (cdef C_oauth2_AuthorizationRequest) [((u "scope"), (VList [(VStr (u "openid"))])); ((u "state"), (VStr (u "id-b0be8bb64118c3ec5f70093a1174b039"))); ((u "redirect_uri"), (VStr (u "http://localhost:8087authz"))); ((u "response_type"), (VList [(VStr (u "code"))])); ((u "client_id"), (VStr (u "a1b2c3")))]) ; to_json (cdef C_oauth2_AuthorizationRequest) m) ; read_json (cdef C_oauth2_AuthorizationRequest) x) (u "state") (VStr (u "id-b0be8bb64118c3ec5f70093a1174b039"));
  item_is (do x <- (do m <- (construct (cdef C_oauth2_AuthorizationRequest) [((u "scope"), (VList [(VStr (u "openid"))])); ((u "state"), (VStr (u "id-b0be8bb64118c3ec5f70093a1174b039"))); ((u "redirect_uri"), (VStr (u "http://localhost:8087authz"))); ((u "response_type"), (VList [(VStr (u "code"))])); ((u "client_id"), (VStr (u "a1b2c3")))]) ; to_json (cdef C_oauth2_AuthorizationRequest) m) ; read_json (cdef C_oauth2_AuthorizationRequest) x) (u "redirect_uri") (VStr (u "http://localhost:8087authz"));
  item_is (do x <- (do m <- (construct (cdef C_oauth2_AuthorizationRequest) [((u "scope"), (VList [(VStr (u "openid"))])); ((u "state"), (VStr (u "id-b0be8bb64118c3ec5f70093a1174b039"))); ((u "redirect_uri"), (VStr (u "http://localhost:8087authz"))); ((u "response_type"), (VList [(VStr (u "code"))])); ((u "client_id"), (VStr (u "a1b2c3")))]) ; to_json (cdef C_oauth2_AuthorizationRequest) m) ; read_json (cdef C_oauth2_AuthorizationRequest) x) (u "response_type") (VList [(VStr (u "code"))]);
  item_is (do x <- (do m <- (construct (cdef C_oauth2_AuthorizationRequest) [((u "scope"), (VList [(VStr (u "openid"))])); ((u "state"), (VStr (u "id-b0be8bb64118c3ec5f70093a1174b039"))); ((u "redirect_uri"), (VStr (u "http://localhost:8087authz"))); ((u "response_type"), (VList [(VStr (u "code"))])); ((u "client_id"), (VStr (u "a1b2c3")))]) ; to_json (cdef C_oauth2_AuthorizationRequest) m) ; read_json (cdef C_oauth2_AuthorizationRequest) x) (u "client_id") (VStr (u "a1b2c3"))] = true.
Proof. vm_compute. reflexivity. Qed.

(** test_05_oauth2.py:288-300 *)
Example TestAuthorizationRequest_test_multiple_response_types_urlencoded :
  all [
  same_splits (do m <- (construct (cdef C_oauth2_AuthorizationRequest) [((u "response_type"), (VList [(VStr (u "code")); (VStr (u "token"))])); ((u "client_id"), (VStr (u "foobar")))]) ; url (cdef C_oauth2_AuthorizationRequest) m) (u "response_type=code+token&client_id=foobar");
  keys_are (do x <- (do m <- (construct (cdef C_oauth2_AuthorizationRequest) [((u "response_type"), (VList [(VStr (u "code")); (VStr (u "token"))])); ((u "client_id"), (VStr (u "foobar")))]) ; url (cdef C_oauth2_AuthorizationRequest) m) ; read_url (cdef C_oauth2_AuthorizationRequest) x) [(u "response_type"); (u "client_id")];
  item_is (do x <- (do m <- (construct (cdef C_oauth2_AuthorizationRequest) [((u "response_type"), (VList [(VStr (u "code")); (VStr (u "token"))])); ((u "client_id"), (VStr (u "foobar")))]) ; url (cdef C_oauth2_AuthorizationRequest) m) ; read_url (cdef C_oauth2_AuthorizationRequest) x) (u "response_type") (VList [(VStr (u "code")); (VStr (u "token"))]);
  item_is (do x <- (do m <- (construct (cdef C_oauth2_AuthorizationRequest) [((u "response_type"), (VList [(VStr (u "code")); (VStr (u "token"))])); ((u "client_id"), (VStr (u "foobar")))]) ; url (cdef C_oauth2_AuthorizationRequest) m) ; read_url (cdef C_oauth2_AuthorizationRequest) x) (u "client_id") (VStr (u "foobar"))] = true.
Proof. vm_compute. reflexivity. Qed.

(** test_05_oauth2.py:318-331 *)
Example TestAuthorizationRequest_test_multiple_response_types_json :
  all [
  value_is (do x <- (do m <- (construct (cdef C_oauth2_AuthorizationRequest) [((u "response_type"), (VList [(VStr (u "code")); (VStr (u "token"))])); ((u "client_id"), (VStr (u "foobar")))]) ; to_json (cdef C_oauth2_AuthorizationRequest) m) ; json_loads x) (VDict [((u "response_type"), (VStr (u "code token"))); ((u "client_id"), (VStr (u "foobar")))]);
  keys_are (do x <- (do m <- (construct (cdef C_oauth2_AuthorizationRequest) [((u "response_type"), (VList [(VStr (u "code")); (VStr (u "token"))])); ((u "client_id"), (VStr (u "foobar")))]) ; to_json (cdef C_oauth2_AuthorizationRequest) m) ; read_json (cdef C_oauth2_AuthorizationRequest) x) [(u "response_type"); (u "client_id")];
  item_is (do x <- (do m <- (construct (cdef C_oauth2_AuthorizationRequest) [((u "response_type"), (VList [(VStr (u "code")); (VStr (u "token"))])); ((u "client_id"), (VStr (u "foobar")))]) ; to_json (cdef C_oauth2_AuthorizationRequest) m) ; read_json (cdef C_oauth2_AuthorizationRequest) x) (u "response_type") (VList [(VStr (u "code")); (VStr (u "token"))]);
  item_is (do x <- (do m <- (construct (cdef C_oauth2_AuthorizationRequest) [((u "response_type"), (VList [(VStr (u "code")); (VStr (u "token"))])); ((u "client_id"), (VStr (u "foobar")))]) ; to_json (cdef C_oauth2_AuthorizationRequest) m) ; read_json (cdef C_oauth2_AuthorizationRequest) x) (u "client_id") (VStr (u "foobar"))] = true.
Proof. vm_compute. reflexivity. Qed.

(** test_05_oauth2.py:302-316 *)
Example TestAuthorizationRequest_test_multiple_scopes_urlencoded :
  all [
  same_splits (do m <- (construct (cdef C_oauth2_AuthorizationRequest) [((u "response_type"), (VList [(VStr (u "code")); (VStr (u "token"))])); ((u "client_id"), (VStr (u "foobar"))); ((u "scope"), (VList [(VStr (u "openid")); (VStr (u "foxtrot"))]))]) ; url (cdef C_oauth2_AuthorizationRequest) m) (u "scope=openid+foxtrot&response_type=code+token&client_id=foobar");
  keys_are (do x <- (do m <- (construct (cdef C_oauth2_AuthorizationRequest) [((u "response_type"), (VList [(VStr (u "code")); (VStr (u "token"))])); ((u "client_id"), (VStr (u "foobar"))); ((u "scope"), (VList [(VStr (u "openid")); (VStr (u "foxtrot"))]))]) ; url (cdef C_oauth2_AuthorizationRequest) m) ; read_url (cdef C_oauth2_AuthorizationRequest) x) [(u "response_type"); (u "client_id"); (u "scope")];
  item_is (do x <- (do m <- (construct (cdef C_oauth2_AuthorizationRequest) [((u "response_type"), (VList [(VStr (u "code")); (VStr (u "token"))])); ((u "client_id"), (VStr (u "foobar"))); ((u "scope"), (VList [(VStr (u "openid")); (VStr (u "foxtrot"))]))]) ; url (cdef C_oauth2_AuthorizationRequest) m) ; read_url (cdef C_oauth2_AuthorizationRequest) x) (u "response_type") (VList [(VStr (u "code")); (VStr (u "token"))]);
  item_is (do x <- (do m <- (construct (cdef C_oauth2_AuthorizationRequest) [((u "response_type"), (VList [(VStr (u "code")); (VStr (u "token"))])); ((u "client_id"), (VStr (u "foobar"))); ((u "scope"), (VList [(VStr (u "openid")); (VStr (u "foxtrot"))]))]) ; url (cdef C_oauth2_AuthorizationRequest) m) ; read_url (cdef C_oauth2_AuthorizationRequest) x) (u "client_id") (VStr (u "foobar"));
  item_is (do x <- (do m <- (construct (cdef C_oauth2_AuthorizationRequest) [((u "response_type"), (VList [(VStr (u "code")); (VStr (u "token"))])); ((u "client_id"), (VStr (u "foobar"))); ((u "scope"), (VList [(VStr (u "openid")); (VStr (u "foxtrot"))]))]) ; url (cdef C_oauth2_AuthorizationRequest) m) ; read_url (cdef C_oauth2_AuthorizationRequest) x) (u "scope") (VList [(VStr (u "openid")); (VStr (u "foxtrot"))])] = true.
Proof. vm_compute. reflexivity. Qed.

(** test_05_oauth2.py:333-349 *)
Example TestAuthorizationRequest_test_multiple_scopes_json :
  all [
  value_is (do x <- (do m <- (construct (cdef C_oauth2_AuthorizationRequest) [((u "response_type"), (VList [(VStr (u "code")); (VStr (u "token"))])); ((u "client_id"), (VStr (u "foobar"))); ((u "scope"), (VList [(VStr (u "openid")); (VStr (u "foxtrot"))]))]) ; to_json (cdef C_oauth2_AuthorizationRequest) m) ; json_loads x) (VDict [((u "response_type"), (VStr (u "code token"))); ((u "client_id"), (VStr (u "foobar"))); ((u "scope"), (VStr (u "openid foxtrot")))]);
  keys_are (do x <- (do m <- (construct (cdef C_oauth2_AuthorizationRequest) [((u "response_type"), (VList [(VStr (u "code")); (VStr (u "token"))])); ((u "client_id"), (VStr (u "foobar"))); ((u "scope"), (VList [(VStr (u "openid")); (VStr (u "foxtrot"))]))]) ; to_json (cdef C_oauth2_AuthorizationRequest) m) ; read_json (cdef C_oauth2_AuthorizationRequest) x) [(u "response_type"); (u "client_id"); (u "scope")];
  item_is (do x <- (do m <- (construct (cdef C_oauth2_AuthorizationRequest) [((u "response_type"), (VList [(VStr (u "code")); (VStr (u "token"))])); ((u "client_id"), (VStr (u "foobar"))); ((u "scope"), (VList [(VStr (u "openid")); (VStr (u "foxtrot"))]))]) ; to_json (cdef C_oauth2_AuthorizationRequest) m) ; read_json (cdef C_oauth2_AuthorizationRequest) x) (u "response_type") (VList [(VStr (u "code")); (VStr (u "token"))]);
  item_is (do x <- (do m <- (construct (cdef C_oauth2_AuthorizationRequest) [((u "response_type"), (VList [(VStr (u "code")); (VStr (u "token"))])); ((u "client_id"), (VStr (u "foobar"))); ((u "scope"), (VList [(VStr (u "openid")); (VStr (u "foxtrot"))]))]) ; to_json (cdef C_oauth2_AuthorizationRequest) m) ; read_json (cdef C_oauth2_AuthorizationRequest) x) (u "client_id") (VStr (u "foobar"));
  item_is (do x <- (do m <- (construct (cdef C_oauth2_AuthorizationRequest) [((u "response_type"), (VList [(VStr (u "code")); (VStr (u "token"))])); ((u "client_id"), (VStr (u "foobar"))); ((u "scope"), (VList [(VStr (u "openid")); (VStr (u "foxtrot"))]))]) ; to_json (cdef C_oauth2_AuthorizationRequest) m) ; read_json (cdef C_oauth2_AuthorizationRequest) x) (u "scope") (VList [(VStr (u "openid")); (VStr (u "foxtrot"))])] = true.
Proof. vm_compute. reflexivity. Qed.

(** test_05_oauth2.py:353-357 *)
Example TestAuthorizationErrorResponse_test_init :
  all [
  item_is (construct (cdef C_oauth2_AuthorizationErrorResponse) [((u "error"), (VStr (u "access_denied"))); ((u "state"), (VStr (u "xyz")))]) (u "error") (VStr (u "access_denied"));
  item_is (construct (cdef C_oauth2_AuthorizationErrorResponse) [((u "error"), (VStr (u "access_denied"))); ((u "state"), (VStr (u "xyz")))]) (u "state") (VStr (u "xyz"))] = true.
Proof. vm_compute. reflexivity. Qed.

(** test_05_oauth2.py:359-366 *)
Example TestAuthorizationErrorResponse_test_extra_params :
  all [
  item_is (construct (cdef C_oauth2_AuthorizationErrorResponse) [((u "error"), (VStr (u "access_denied"))); ((u "error_description"), (VStr (u "brewers has a four game series"))); ((u "foo"), (VStr (u "bar")))]) (u "error") (VStr (u "access_denied"));
  item_is (construct (cdef C_oauth2_AuthorizationErrorResponse) [((u "error"), (VStr (u "access_denied"))); ((u "error_description"), (VStr (u "brewers has a four game series"))); ((u "foo"), (VStr (u "bar")))]) (u "error_description") (VStr (u "brewers has a four game series"));
  item_is (construct (cdef C_oauth2_AuthorizationErrorResponse) [((u "error"), (VStr (u "access_denied"))); ((u "error_description"), (VStr (u "brewers has a four game series"))); ((u "foo"), (VStr (u "bar")))]) (u "foo") (VStr (u "bar"))] = true.
Proof. vm_compute. reflexivity. Qed.

(** test_05_oauth2.py:370-374 *)
Example TestTokenErrorResponse_test_init :
  all [
  item_is (construct (cdef C_oauth2_TokenErrorResponse) [((u "error"), (VStr (u "access_denied"))); ((u "state"), (VStr (u "xyz")))]) (u "error") (VStr (u "access_denied"));
  item_is (construct (cdef C_oauth2_TokenErrorResponse) [((u "error"), (VStr (u "access_denied"))); ((u "state"), (VStr (u "xyz")))]) (u "state") (VStr (u "xyz"))] = true.
Proof. vm_compute. reflexivity. Qed.

(** test_05_oauth2.py:376-384 *)
Example TestTokenErrorResponse_test_extra_params :
  all [
  item_is (construct (cdef C_oauth2_TokenErrorResponse) [((u "error"), (VStr (u "access_denied"))); ((u "error_description"), (VStr (u "brewers has a four game series"))); ((u "foo"), (VStr (u "bar")))]) (u "error") (VStr (u "access_denied"));
  item_is (construct (cdef C_oauth2_TokenErrorResponse) [((u "error"), (VStr (u "access_denied"))); ((u "error_description"), (VStr (u "brewers has a four game series"))); ((u "foo"), (VStr (u "bar")))]) (u "error_description") (VStr (u "brewers has a four game series"));
  item_is (construct (cdef C_oauth2_TokenErrorResponse) [((u "error"), (VStr (u "access_denied"))); ((u "error_description"), (VStr (u "brewers has a four game series"))); ((u "foo"), (VStr (u "bar")))]) (u "foo") (VStr (u "bar"))] = true.
Proof. vm_compute. reflexivity. Qed.

(** test_05_oauth2.py:388-399 *)
Example TestAccessTokenResponse_test_json_serialize :
  all [
  value_is (do x <- (do m <- (construct (cdef C_oauth2_AccessTokenResponse) [((u "access_token"), (VStr (u "SlAV32hkKG"))); ((u "token_type"), (VStr (u "Bearer"))); ((u "expires_in"), (VInt (3600)))]) ; to_json (cdef C_oauth2_AccessTokenResponse) m) ; json_loads x) (VDict [((u "access_token"), (VStr (u "SlAV32hkKG"))); ((u "token_type"), (VStr (u "Bearer"))); ((u "expires_in"), (VInt (3600)))])] = true.
Proof. vm_compute. reflexivity. Qed.

(** test_05_oauth2.py:401-413 *)
Example TestAccessTokenResponse_test_multiple_scope :
  all [
  item_is (construct (cdef C_oauth2_AccessTokenResponse) [((u "access_token"), (VStr (u "2YotnFZFEjr1zCsicMWpAA"))); ((u "token_type"), (VStr (u "example"))); ((u "expires_in"), (VInt (3600))); ((u "refresh_token"), (VStr (u "tGzv3JOkF0XG5Qx2TlKWIA"))); ((u "example_parameter"), (VStr (u "example_value"))); ((u "scope"), (VList [(VStr (u "inner")); (VStr (u "outer"))]))]) (u "scope") (VList [(VStr (u "inner")); (VStr (u "outer"))]);
  contains (do m <- (construct (cdef C_oauth2_AccessTokenResponse) [((u "access_token"), (VStr (u "2YotnFZFEjr1zCsicMWpAA"))); ((u "token_type"), (VStr (u "example"))); ((u "expires_in"), (VInt (3600))); ((u "refresh_token"), (VStr (u "tGzv3JOkF0XG5Qx2TlKWIA"))); ((u "example_parameter"), (VStr (u "example_value"))); ((u "scope"), (VList [(VStr (u "inner")); (VStr (u "outer"))]))]) ; url (cdef C_oauth2_AccessTokenResponse) m) (u "inner+outer")] = true.
Proof. vm_compute. reflexivity. Qed.

(** test_05_oauth2.py:415-452 *)
Example TestAccessTokenResponse_test_to_urlencoded_extended_omit :
  all [
  same_query (do m <- (construct (cdef C_oauth2_AccessTokenResponse) [((u "access_token"), (VStr (u "2YotnFZFEjr1zCsicMWpAA"))); ((u "token_type"), (VStr (u "example"))); ((u "expires_in"), (VInt (3600))); ((u "refresh_token"), (VStr (u "tGzv3JOkF0XG5Qx2TlKWIA"))); ((u "example_parameter"), (VStr (u "example_value"))); ((u "scope"), (VList [(VStr (u "inner")); (VStr (u "outer"))])); ((u "extra"), (VList [(VStr (u "local")); (VStr (u "external"))])); ((u "level"), (VInt (3)))]) ; url (cdef C_oauth2_AccessTokenResponse) m) (u "scope=inner+outer&level=3&expires_in=3600&token_type=example&extra=local&extra=external&refresh_token=tGzv3JOkF0XG5Qx2TlKWIA&access_token=2YotnFZFEjr1zCsicMWpAA&example_parameter=example_value");
  same_query (do m <- (do m <- (construct (cdef C_oauth2_AccessTokenResponse) [((u "access_token"), (VStr (u "2YotnFZFEjr1zCsicMWpAA"))); ((u "token_type"), (VStr (u "example"))); ((u "expires_in"), (VInt (3600))); ((u "refresh_token"), (VStr (u "tGzv3JOkF0XG5Qx2TlKWIA"))); ((u "example_parameter"), (VStr (u "example_value"))); ((u "scope"), (VList [(VStr (u "inner")); (VStr (u "outer"))])); ((u "extra"), (VList [(VStr (u "local")); (VStr (u "external"))])); ((u "level"), (VInt (3)))]) ; keep (delitem m (u "extra"))) ; url (cdef C_oauth2_AccessTokenResponse) m) (u "access_token=2YotnFZFEjr1zCsicMWpAA&refresh_token=tGzv3JOkF0XG5Qx2TlKWIA&level=3&example_parameter=example_value&token_type=example&expires_in=3600&scope=inner+outer");
  match (do m <- (construct (cdef C_oauth2_AccessTokenResponse) [((u "access_token"), (VStr (u "2YotnFZFEjr1zCsicMWpAA"))); ((u "token_type"), (VStr (u "example"))); ((u "expires_in"), (VInt (3600))); ((u "refresh_token"), (VStr (u "tGzv3JOkF0XG5Qx2TlKWIA"))); ((u "example_parameter"), (VStr (u "example_value"))); ((u "scope"), (VList [(VStr (u "inner")); (VStr (u "outer"))])); ((u "extra"), (VList [(VStr (u "local")); (VStr (u "external"))])); ((u "level"), (VInt (3)))]) ; url (cdef C_oauth2_AccessTokenResponse) m), (do m <- (do m <- (construct (cdef C_oauth2_AccessTokenResponse) [((u "access_token"), (VStr (u "2YotnFZFEjr1zCsicMWpAA"))); ((u "token_type"), (VStr (u "example"))); ((u "expires_in"), (VInt (3600))); ((u "refresh_token"), (VStr (u "tGzv3JOkF0XG5Qx2TlKWIA"))); ((u "example_parameter"), (VStr (u "example_value"))); ((u "scope"), (VList [(VStr (u "inner")); (VStr (u "outer"))])); ((u "extra"), (VList [(VStr (u "local")); (VStr (u "external"))])); ((u "level"), (VInt (3)))]) ; keep (delitem m (u "extra"))) ; url (cdef C_oauth2_AccessTokenResponse) m) with Ok a, Ok b => Nat.eqb (List.length a) (List.length b + 27) | _, _ => false end;
  keys_are (do x <- (do m <- (construct (cdef C_oauth2_AccessTokenResponse) [((u "access_token"), (VStr (u "2YotnFZFEjr1zCsicMWpAA"))); ((u "token_type"), (VStr (u "example"))); ((u "expires_in"), (VInt (3600))); ((u "refresh_token"), (VStr (u "tGzv3JOkF0XG5Qx2TlKWIA"))); ((u "example_parameter"), (VStr (u "example_value"))); ((u "scope"), (VList [(VStr (u "inner")); (VStr (u "outer"))])); ((u "extra"), (VList [(VStr (u "local")); (VStr (u "external"))])); ((u "level"), (VInt (3)))]) ; url (cdef C_oauth2_AccessTokenResponse) m) ; read_url (cdef C_oauth2_AccessTokenResponse) x) [(u "access_token"); (u "token_type"); (u "expires_in"); (u "refresh_token"); (u "example_parameter"); (u "scope"); (u "extra"); (u "level")];
  keys_are (do x <- (do m <- (do m <- (construct (cdef C_oauth2_AccessTokenResponse) [((u "access_token"), (VStr (u "2YotnFZFEjr1zCsicMWpAA"))); ((u "token_type"), (VStr (u "example"))); ((u "expires_in"), (VInt (3600))); ((u "refresh_token"), (VStr (u "tGzv3JOkF0XG5Qx2TlKWIA"))); ((u "example_parameter"), (VStr (u "example_value"))); ((u "scope"), (VList [(VStr (u "inner")); (VStr (u "outer"))])); ((u "extra"), (VList [(VStr (u "local")); (VStr (u "external"))])); ((u "level"), (VInt (3)))]) ; keep (delitem m (u "extra"))) ; url (cdef C_oauth2_AccessTokenResponse) m) ; read_url (cdef C_oauth2_AccessTokenResponse) x) [(u "access_token"); (u "token_type"); (u "expires_in"); (u "refresh_token"); (u "example_parameter"); (u "scope"); (u "level")]] = true.
Proof. vm_compute. reflexivity. Qed.

(** test_05_oauth2.py:456-468 *)
Example TestAccessTokenRequest_test_extra :
  all [
  same_query (do m <- (construct (cdef C_oauth2_AccessTokenRequest) [((u "grant_type"), (VStr (u "authorization_code"))); ((u "code"), (VStr (u "SplxlOBeZQQYbYS6WxSbIA"))); ((u "redirect_uri"), (VStr (u "https://client.example.com/cb"))); ((u "extra"), (VStr (u "foo")))]) ; url (cdef C_oauth2_AccessTokenRequest) m) (u "code=SplxlOBeZQQYbYS6WxSbIA&redirect_uri=https%3A%2F%2Fclient.example.com%2Fcb&grant_type=authorization_code&extra=foo");
  match (construct (cdef C_oauth2_AccessTokenRequest) [((u "grant_type"), (VStr (u "authorization_code"))); ((u "code"), (VStr (u "SplxlOBeZQQYbYS6WxSbIA"))); ((u "redirect_uri"), (VStr (u "https://client.example.com/cb"))); ((u "extra"), (VStr (u "foo")))]), (do x <- (do m <- (construct (cdef C_oauth2_AccessTokenRequest) [((u "grant_type"), (VStr (u "authorization_code"))); ((u "code"), (VStr (u "SplxlOBeZQQYbYS6WxSbIA"))); ((u "redirect_uri"), (VStr (u "https://client.example.com/cb"))); ((u "extra"), (VStr (u "foo")))]) ; url (cdef C_oauth2_AccessTokenRequest) m) ; read_url (cdef C_oauth2_AccessTokenRequest) x) with Ok a, Ok b => msg_eq (cdef C_oauth2_AccessTokenRequest) (cdef C_oauth2_AccessTokenRequest) a b | _, _ => false end] = true.
Proof. vm_compute. reflexivity. Qed.

(** test_05_oauth2.py:472-478 *)
Example TestAuthorizationResponse_test_init :
  all [
  item_is (construct (cdef C_oauth2_AuthorizationResponse) [((u "code"), (VStr (u "SplxlOBeZQQYbYS6WxSbIA"))); ((u "state"), (VStr (u "Fun_state"))); ((u "extra"), (VStr (u "foo")))]) (u "code") (VStr (u "SplxlOBeZQQYbYS6WxSbIA"));
  item_is (construct (cdef C_oauth2_AuthorizationResponse) [((u "code"), (VStr (u "SplxlOBeZQQYbYS6WxSbIA"))); ((u "state"), (VStr (u "Fun_state"))); ((u "extra"), (VStr (u "foo")))]) (u "state") (VStr (u "Fun_state"));
  item_is (construct (cdef C_oauth2_AuthorizationResponse) [((u "code"), (VStr (u "SplxlOBeZQQYbYS6WxSbIA"))); ((u "state"), (VStr (u "Fun_state"))); ((u "extra"), (VStr (u "foo")))]) (u "extra") (VStr (u "foo"))] = true.
Proof. vm_compute. reflexivity. Qed.

(** test_05_oauth2.py:482-488 *)
Example TestROPCAccessTokenRequest_test_init :
  all [
  item_is (construct (cdef C_oauth2_ROPCAccessTokenRequest) [((u "grant_type"), (VStr (u "password"))); ((u "username"), (VStr (u "johndoe"))); ((u "password"), (VStr (u "A3ddj3w")))]) (u "grant_type") (VStr (u "password"));
  item_is (construct (cdef C_oauth2_ROPCAccessTokenRequest) [((u "grant_type"), (VStr (u "password"))); ((u "username"), (VStr (u "johndoe"))); ((u "password"), (VStr (u "A3ddj3w")))]) (u "username") (VStr (u "johndoe"));
  item_is (construct (cdef C_oauth2_ROPCAccessTokenRequest) [((u "grant_type"), (VStr (u "password"))); ((u "username"), (VStr (u "johndoe"))); ((u "password"), (VStr (u "A3ddj3w")))]) (u "password") (VStr (u "A3ddj3w"))] = true.
Proof. vm_compute. reflexivity. Qed.

(** test_05_oauth2.py:492-495 *)
Example TestCCAccessTokenRequest_test_init :
  all [
  item_is (construct (cdef C_oauth2_CCAccessTokenRequest) [((u "scope"), (VStr (u "/foo")))]) (u "grant_type") (VStr (u "client_credentials"));
  item_is (construct (cdef C_oauth2_CCAccessTokenRequest) [((u "scope"), (VStr (u "/foo")))]) (u "scope") (VList [(VStr (u "/foo"))])] = true.
Proof. vm_compute. reflexivity. Qed.

(** test_05_oauth2.py:499-506 *)
Example TestRefreshAccessTokenRequest_test_init :
  all [
  item_is (construct (cdef C_oauth2_RefreshAccessTokenRequest) [((u "refresh_token"), (VStr (u "ababababab"))); ((u "client_id"), (VStr (u "Client_id")))]) (u "grant_type") (VStr (u "refresh_token"));
  item_is (construct (cdef C_oauth2_RefreshAccessTokenRequest) [((u "refresh_token"), (VStr (u "ababababab"))); ((u "client_id"), (VStr (u "Client_id")))]) (u "refresh_token") (VStr (u "ababababab"));
  item_is (construct (cdef C_oauth2_RefreshAccessTokenRequest) [((u "refresh_token"), (VStr (u "ababababab"))); ((u "client_id"), (VStr (u "Client_id")))]) (u "client_id") (VStr (u "Client_id"));
  yes (match (construct (cdef C_oauth2_RefreshAccessTokenRequest) [((u "refresh_token"), (VStr (u "ababababab"))); ((u "client_id"), (VStr (u "Client_id")))]) with Ok d => verify no_env (args []) None C_oauth2_RefreshAccessTokenRequest d | Err e => ([], Err e) end)] = true.
Proof. vm_compute. reflexivity. Qed.

(** test_05_oauth2.py:510-526 *)
Example TestTokenExchangeRequest_test_init :
  all [
  item_is (construct (cdef C_oauth2_TokenExchangeRequest) [((u "grant_type"), (VStr (u "urn:ietf:params:oauth:grant-type:token-exchange"))); ((u "subject_token"), (VStr (u "ababababab"))); ((u "subject_token_type"), (VStr (u "urn:ietf:params:oauth:token-type:access_token")))]) (u "grant_type") (VStr (u "urn:ietf:params:oauth:grant-type:token-exchange"));
  item_is (construct (cdef C_oauth2_TokenExchangeRequest) [((u "grant_type"), (VStr (u "urn:ietf:params:oauth:grant-type:token-exchange"))); ((u "subject_token"), (VStr (u "ababababab"))); ((u "subject_token_type"), (VStr (u "urn:ietf:params:oauth:token-type:access_token")))]) (u "subject_token") (VStr (u "ababababab"));
  item_is (construct (cdef C_oauth2_TokenExchangeRequest) [((u "grant_type"), (VStr (u "urn:ietf:params:oauth:grant-type:token-exchange"))); ((u "subject_token"), (VStr (u "ababababab"))); ((u "subject_token_type"), (VStr (u "urn:ietf:params:oauth:token-type:access_token")))]) (u "subject_token_type") (VStr (u "urn:ietf:params:oauth:token-type:access_token"));
  yes (match (construct (cdef C_oauth2_TokenExchangeRequest) [((u "grant_type"), (VStr (u "urn:ietf:params:oauth:grant-type:token-exchange"))); ((u "subject_token"), (VStr (u "ababababab"))); ((u "subject_token_type"), (VStr (u "urn:ietf:params:oauth:token-type:access_token")))]) with Ok d => verify no_env (args []) None C_oauth2_TokenExchangeRequest d | Err e => ([], Err e) end)] = true.
Proof. vm_compute. reflexivity. Qed.

(** test_05_oauth2.py:530-545 *)
Example TestTokenExchangeResponse_test_init :
  all [
  item_is (construct (cdef C_oauth2_TokenExchangeResponse) [((u "access_token"), (VStr (u "bababababa"))); ((u "issued_token_type"), (VStr (u "urn:ietf:params:oauth:token-type:access_token"))); ((u "token_type"), (VStr (u "Bearer"))); ((u "expires_in"), (VInt (60)))]) (u "access_token") (VStr (u "bababababa"));
  item_is (construct (cdef C_oauth2_TokenExchangeResponse) [((u "access_token"), (VStr (u "bababababa"))); ((u "issued_token_type"), (VStr (u "urn:ietf:params:oauth:token-type:access_token"))); ((u "token_type"), (VStr (u "Bearer"))); ((u "expires_in"), (VInt (60)))]) (u "issued_token_type") (VStr (u "urn:ietf:params:oauth:token-type:access_token"));
  item_is (construct (cdef C_oauth2_TokenExchangeResponse) [((u "access_token"), (VStr (u "bababababa"))); ((u "issued_token_type"), (VStr (u "urn:ietf:params:oauth:token-type:access_token"))); ((u "token_type"), (VStr (u "Bearer"))); ((u "expires_in"), (VInt (60)))]) (u "token_type") (VStr (u "Bearer"));
  item_is (construct (cdef C_oauth2_TokenExchangeResponse) [((u "access_token"), (VStr (u "bababababa"))); ((u "issued_token_type"), (VStr (u "urn:ietf:params:oauth:token-type:access_token"))); ((u "token_type"), (VStr (u "Bearer"))); ((u "expires_in"), (VInt (60)))]) (u "expires_in") (VInt (60));
  yes (match (construct (cdef C_oauth2_TokenExchangeResponse) [((u "access_token"), (VStr (u "bababababa"))); ((u "issued_token_type"), (VStr (u "urn:ietf:params:oauth:token-type:access_token"))); ((u "token_type"), (VStr (u "Bearer"))); ((u "expires_in"), (VInt (60)))]) with Ok d => verify no_env (args []) None C_oauth2_TokenExchangeResponse d | Err e => ([], Err e) end)] = true.
Proof. vm_compute. reflexivity. Qed.

(** test_05_oauth2.py:549-561 *)
Example TestResponseMessage_error_test_error_message :
  all [
  negb (contains (do m <- (do m <- (construct (cdef C_oauth2_ResponseMessage) [((u "error"), (VStr (u "invalid_request"))); ((u "error_description"), (VStr (u "Something was missing"))); ((u "error_uri"), (VStr (u "http://example.com/error_message.html")))]) ; keep (delitem m (u "error_uri"))) ; url (cdef C_oauth2_ResponseMessage) m) (u "error_message"));
  contains (do m <- (construct (cdef C_oauth2_ResponseMessage) [((u "error"), (VStr (u "invalid_request"))); ((u "error_description"), (VStr (u "Something was missing"))); ((u "error_uri"), (VStr (u "http://example.com/error_message.html")))]) ; url (cdef C_oauth2_ResponseMessage) m) (u "error_message");
  match (do m <- (construct (cdef C_oauth2_ResponseMessage) [((u "error"), (VStr (u "invalid_request"))); ((u "error_description"), (VStr (u "Something was missing"))); ((u "error_uri"), (VStr (u "http://example.com/error_message.html")))]) ; keep (delitem m (u "error_uri"))) with Ok m => is_error_message m | _ => false end] = true.
Proof. vm_compute. reflexivity. Qed.

(** test_05_oauth2.py:563-566 *)
Example TestResponseMessage_error_test_auth_error_message :
  all [
  match (construct (cdef C_oauth2_AuthorizationResponse) [((u "error"), (VStr (u "invalid_request"))); ((u "error_description"), (VStr (u "Something was missing")))]) with Ok m => is_error_message m | _ => false end] = true.
Proof. vm_compute. reflexivity. Qed.

(** test_05_oauth2.py:569-572 *)
Example test_factory :
  all [
  made (oauth2_factory (u "ResponseMessage") [((u "error"), (VStr (u "some_error")))]) C_oauth2_ResponseMessage;
  keys_are (content (oauth2_factory (u "ResponseMessage") [((u "error"), (VStr (u "some_error")))])) [(u "error")]] = true.
Proof. vm_compute. reflexivity. Qed.

(** test_05_oauth2.py:575-579 *)
Example test_factory_auth_response :
  all [
  made (oauth2_factory (u "AuthorizationResponse") [((u "client_id"), (VStr (u "client1"))); ((u "iss"), (VStr (u "Issuer"))); ((u "code"), (VStr (u "1234567")))]) C_oauth2_AuthorizationResponse;
  yes (match (content (oauth2_factory (u "AuthorizationResponse") [((u "client_id"), (VStr (u "client1"))); ((u "iss"), (VStr (u "Issuer"))); ((u "code"), (VStr (u "1234567")))])) with Ok d => verify no_env (args [((u "client_id"), (VStr (u "client1"))); ((u "iss"), (VStr (u "Issuer")))]) None C_oauth2_AuthorizationResponse d | Err e => ([], Err e) end)] = true.
Proof. vm_compute. reflexivity. Qed.

(** test_05_oauth2.py:582-586 *)
Example test_set_default :
  all [
  keys_are (construct (cdef C_oauth2_AccessTokenRequest) [((u "set_defaults"), (VBool false))]) [];
  has (do m <- (construct (cdef C_oauth2_AccessTokenRequest) [((u "set_defaults"), (VBool false))]) ; Ok (set_defaults (cdef C_oauth2_AccessTokenRequest) m)) (u "grant_type")] = true.
Proof. vm_compute. reflexivity. Qed.
