(** Generated by tools/mktests.py: the tests of /repo/tests/test_07_session.py on the model. *)
From Coq Require Import List NArith ZArith QArith Bool String.
From Verif Require Import Base.Ustr Base.Percent Model.Cls Model.Value Model.Pspec Model.Tables Model.Json Model.Message Model.Env Model.Verify
  Model.Jose Model.Dispatch Model.Serializers Model.RequestObject Model.IdentityAssurance Model.Calendar Model.TimeUtil Model.Config Tests.TestKit.
Import ListNotations.
Open Scope list_scope.
Open Scope N_scope.

Definition now : Z := 1600000000.
Definition iss : ustr := u "https://example.com".
(** IDTOKEN.to_jwt(key, "HS256", lifetime=300), test_07_session.py:28-30; iat is a floating-point number *)
Definition hint : res ustr :=
  do m <- construct (cdef C_oidc_IdToken) [(u "iss", VStr iss); (u "sub", VStr (u "sub")); (u "aud", VStr (u "client_1")); (u "exp", VInt (now + 300));
    (u "nonce", VStr (u "N0nce")); (u "iat", VFlt (6400000001 # 4))] ;
  snd (to_jwt signer (kj_env now []) C_oidc_IdToken m [7] (u "HS256") (VInt 300)).

(** test_07_session.py:63-64 *)
Example TestEndSessionResponse_test_example :
  all [
  is_ok (construct (cdef C_session_EndSessionResponse) [])] = true.
Proof. vm_compute. reflexivity. Qed.

(** test_07_session.py:68-88 *)
Example TestEndSessionRequest_test_example :
  all [
  runs (match (do x <- (do m <- (do h <- hint ; construct (cdef C_session_EndSessionRequest) ((u "id_token_hint", VStr h) :: [((u "redirect_url"), (VStr (u "http://example.org/jqauthz"))); ((u "state"), (VStr (u "state0")))])) ; url (cdef C_session_EndSessionRequest) m) ; read_url (cdef C_session_EndSessionRequest) x) with Ok d => verify (kj_env now [[]; iss; u "client_1"]) (jargs []) None C_session_EndSessionRequest d | Err e => ([], Err e) end);
  keys_are (keep (match (do x <- (do m <- (do h <- hint ; construct (cdef C_session_EndSessionRequest) ((u "id_token_hint", VStr h) :: [((u "redirect_url"), (VStr (u "http://example.org/jqauthz"))); ((u "state"), (VStr (u "state0")))])) ; url (cdef C_session_EndSessionRequest) m) ; read_url (cdef C_session_EndSessionRequest) x) with Ok d => verify (kj_env now [[]; iss; u "client_1"]) (jargs []) None C_session_EndSessionRequest d | Err e => ([], Err e) end)) [(u "__verified_id_token_hint"); (u "id_token_hint"); (u "redirect_url"); (u "state")];
  item_is (keep (match (do x <- (do m <- (do h <- hint ; construct (cdef C_session_EndSessionRequest) ((u "id_token_hint", VStr h) :: [((u "redirect_url"), (VStr (u "http://example.org/jqauthz"))); ((u "state"), (VStr (u "state0")))])) ; url (cdef C_session_EndSessionRequest) m) ; read_url (cdef C_session_EndSessionRequest) x) with Ok d => verify (kj_env now [[]; iss; u "client_1"]) (jargs []) None C_session_EndSessionRequest d | Err e => ([], Err e) end)) (u "state") (VStr (u "state0"));
  item_is (inner (keep (match (do x <- (do m <- (do h <- hint ; construct (cdef C_session_EndSessionRequest) ((u "id_token_hint", VStr h) :: [((u "redirect_url"), (VStr (u "http://example.org/jqauthz"))); ((u "state"), (VStr (u "state0")))])) ; url (cdef C_session_EndSessionRequest) m) ; read_url (cdef C_session_EndSessionRequest) x) with Ok d => verify (kj_env now [[]; iss; u "client_1"]) (jargs []) None C_session_EndSessionRequest d | Err e => ([], Err e) end)) (u "__verified_id_token_hint")) (u "aud") (VList [(VStr (u "client_1"))])] = true.
Proof. vm_compute. reflexivity. Qed.

(** test_07_session.py:92-100 *)
Example TestCheckSessionRequest_test_example :
  all [
  raises EValueError (snd (match (do h <- hint ; construct (cdef C_session_CheckSessionRequest) [(u "id_token", VStr h)]) with Ok d => verify (kj_env now [[]]) (jargs []) None C_session_CheckSessionRequest d | Err e => ([], Err e) end))] = true.
Proof. vm_compute. reflexivity. Qed.

(** test_07_session.py:103-110 *)
Example TestCheckSessionRequest_test_example_1 :
  all [
  yes (match (do h <- hint ; construct (cdef C_session_CheckSessionRequest) [(u "id_token", VStr h)]) with Ok d => verify (kj_env now [iss]) (jargs []) None C_session_CheckSessionRequest d | Err e => ([], Err e) end)] = true.
Proof. vm_compute. reflexivity. Qed.

(** test_07_session.py:114-133 *)
Example TestClaimsRequest_test_example :
  all [
  runs (match (do a <- (construct (cdef C_oidc_Claims) [((u "name"), (VDict [((u "essential"), (VBool true))])); ((u "nickname"), VNone); ((u "email"), (VDict [((u "essential"), (VBool true))])); ((u "verified"), (VDict [((u "essential"), (VBool true))])); ((u "picture"), VNone)]) ; do b <- (construct (cdef C_oidc_Claims) [((u "auth_time"), VNone); ((u "acr"), (VDict [((u "values"), (VList [(VStr (u "2"))]))]))]) ; construct (cdef C_oidc_ClaimsRequest) [(u "userinfo", VMsg C_oidc_Claims a); (u "id_token", VMsg C_oidc_Claims b)]) with Ok d => verify no_env (args []) None C_oidc_ClaimsRequest d | Err e => ([], Err e) end);
  runs (match (do x <- (do m <- (do a <- (construct (cdef C_oidc_Claims) [((u "name"), (VDict [((u "essential"), (VBool true))])); ((u "nickname"), VNone); ((u "email"), (VDict [((u "essential"), (VBool true))])); ((u "verified"), (VDict [((u "essential"), (VBool true))])); ((u "picture"), VNone)]) ; do b <- (construct (cdef C_oidc_Claims) [((u "auth_time"), VNone); ((u "acr"), (VDict [((u "values"), (VList [(VStr (u "2"))]))]))]) ; construct (cdef C_oidc_ClaimsRequest) [(u "userinfo", VMsg C_oidc_Claims a); (u "id_token", VMsg C_oidc_Claims b)]) ; url (cdef C_oidc_ClaimsRequest) m) ; read_url (cdef C_oidc_ClaimsRequest) x) with Ok d => verify no_env (args []) None C_oidc_ClaimsRequest d | Err e => ([], Err e) end);
  runs (match (do x <- (do m <- (do a <- (construct (cdef C_oidc_Claims) [((u "name"), (VDict [((u "essential"), (VBool true))])); ((u "nickname"), VNone); ((u "email"), (VDict [((u "essential"), (VBool true))])); ((u "verified"), (VDict [((u "essential"), (VBool true))])); ((u "picture"), VNone)]) ; do b <- (construct (cdef C_oidc_Claims) [((u "auth_time"), VNone); ((u "acr"), (VDict [((u "values"), (VList [(VStr (u "2"))]))]))]) ; construct (cdef C_oidc_ClaimsRequest) [(u "userinfo", VMsg C_oidc_Claims a); (u "id_token", VMsg C_oidc_Claims b)]) ; to_json (cdef C_oidc_ClaimsRequest) m) ; read_json (cdef C_oidc_ClaimsRequest) x) with Ok d => verify no_env (args []) None C_oidc_ClaimsRequest d | Err e => ([], Err e) end)] = true.
Proof. vm_compute. reflexivity. Qed.

(** test_07_session.py:136-149 *)
Example test_logout_token_1 :
  all [
  yes (match (construct (cdef C_session_LogoutToken) [((u "iss"), (VStr (u "https://example.com"))); ((u "sub"), (VStr (u "248289761001"))); ((u "aud"), (VList [(VStr (u "client_1"))])); ((u "iat"), (VInt (1600000000))); ((u "jti"), (VStr (u "bWJq"))); ((u "sid"), (VStr (u "08a5019c-17e1-4977-8f42-65a12843ea02"))); ((u "events"), (VDict [((u "http://schemas.openid.net/event/backchannel-logout"), (VDict []))]))]) with Ok d => verify no_env (args []) None C_session_LogoutToken d | Err e => ([], Err e) end)] = true.
Proof. vm_compute. reflexivity. Qed.

(** test_07_session.py:152-164 *)
Example test_logout_token_2 :
  all [
  yes (match (construct (cdef C_session_LogoutToken) [((u "iss"), (VStr (u "https://example.com"))); ((u "sub"), (VStr (u "248289761001"))); ((u "aud"), (VList [(VStr (u "client_1"))])); ((u "iat"), (VInt (1600000000))); ((u "jti"), (VStr (u "bWJq"))); ((u "events"), (VDict [((u "http://schemas.openid.net/event/backchannel-logout"), (VDict []))]))]) with Ok d => verify no_env (args []) None C_session_LogoutToken d | Err e => ([], Err e) end)] = true.
Proof. vm_compute. reflexivity. Qed.

(** test_07_session.py:167-179 *)
Example test_logout_token_3 :
  all [
  yes (match (construct (cdef C_session_LogoutToken) [((u "iss"), (VStr (u "https://example.com"))); ((u "aud"), (VList [(VStr (u "client_1"))])); ((u "iat"), (VInt (1600000000))); ((u "jti"), (VStr (u "bWJq"))); ((u "sid"), (VStr (u "08a5019c-17e1-4977-8f42-65a12843ea02"))); ((u "events"), (VDict [((u "http://schemas.openid.net/event/backchannel-logout"), (VDict []))]))]) with Ok d => verify no_env (args []) None C_session_LogoutToken d | Err e => ([], Err e) end)] = true.
Proof. vm_compute. reflexivity. Qed.

(** test_07_session.py:182-194 *)
Example test_logout_token_4 :
  all [
  raises EValueError (snd (match (construct (cdef C_session_LogoutToken) [((u "iss"), (VStr (u "https://example.com"))); ((u "aud"), (VList [(VStr (u "client_1"))])); ((u "iat"), (VInt (1600000000))); ((u "jti"), (VStr (u "bWJq"))); ((u "events"), (VDict [((u "http://schemas.openid.net/event/backchannel-logout"), (VDict []))]))]) with Ok d => verify no_env (args []) None C_session_LogoutToken d | Err e => ([], Err e) end))] = true.
Proof. vm_compute. reflexivity. Qed.

(** test_07_session.py:197-209 *)
Example test_logout_token_5 :
  all [
  raises EValueError (snd (match (construct (cdef C_session_LogoutToken) [((u "iss"), (VStr (u "https://example.com"))); ((u "aud"), (VList [(VStr (u "client_1"))])); ((u "iat"), (VInt (1600000000))); ((u "jti"), (VStr (u "bWJq"))); ((u "events"), (VDict [((u "http://schemas.openid.net/event/backchannel-logout"), (VDict [((u "foo"), (VStr (u "bar")))]))]))]) with Ok d => verify no_env (args []) None C_session_LogoutToken d | Err e => ([], Err e) end))] = true.
Proof. vm_compute. reflexivity. Qed.

(** test_07_session.py:212-224 *)
Example test_logout_token_6 :
  all [
  raises EValueError (snd (match (construct (cdef C_session_LogoutToken) [((u "iss"), (VStr (u "https://example.com"))); ((u "aud"), (VList [(VStr (u "client_1"))])); ((u "iat"), (VInt (1600000000))); ((u "jti"), (VStr (u "bWJq"))); ((u "events"), (VDict [((u "http://schemas.openid.net/event/foo"), (VDict []))]))]) with Ok d => verify no_env (args []) None C_session_LogoutToken d | Err e => ([], Err e) end))] = true.
Proof. vm_compute. reflexivity. Qed.

(** test_07_session.py:227-240 *)
Example test_logout_token_7 :
  all [
  raises EValueError (snd (match (construct (cdef C_session_LogoutToken) [((u "iss"), (VStr (u "https://example.com"))); ((u "aud"), (VList [(VStr (u "client_1"))])); ((u "iat"), (VInt (1600000000))); ((u "jti"), (VStr (u "bWJq"))); ((u "events"), (VDict [((u "http://schemas.openid.net/event/backchannel-logout"), (VDict [])); ((u "http://schemas.openid.net/event/foo"), (VDict []))]))]) with Ok d => verify no_env (args []) None C_session_LogoutToken d | Err e => ([], Err e) end))] = true.
Proof. vm_compute. reflexivity. Qed.

(** test_07_session.py:243-257 *)
Example test_logout_token_with_nonce :
  all [
  raises EMessageException (snd (match (construct (cdef C_session_LogoutToken) [((u "iss"), (VStr (u "https://example.com"))); ((u "aud"), (VList [(VStr (u "client_1"))])); ((u "iat"), (VInt (1600000000))); ((u "jti"), (VStr (u "bWJq"))); ((u "sid"), (VStr (u "08a5019c-17e1-4977-8f42-65a12843ea02"))); ((u "events"), (VDict [((u "http://schemas.openid.net/event/backchannel-logout"), (VDict []))])); ((u "nonce"), (VStr (u "1234567890")))]) with Ok d => verify no_env (args []) None C_session_LogoutToken d | Err e => ([], Err e) end))] = true.
Proof. vm_compute. reflexivity. Qed.

(** test_07_session.py:260-276 *)
Example test_logout_token_wrong_iat :
  all [
  raises EValueError (snd (match (construct (cdef C_session_LogoutToken) [((u "iss"), (VStr (u "https://example.com"))); ((u "aud"), (VList [(VStr (u "client_1"))])); ((u "iat"), (VInt (1600000010))); ((u "jti"), (VStr (u "bWJq"))); ((u "sid"), (VStr (u "08a5019c-17e1-4977-8f42-65a12843ea02"))); ((u "events"), (VDict [((u "http://schemas.openid.net/event/backchannel-logout"), (VDict []))]))]) with Ok d => verify no_env (args []) None C_session_LogoutToken d | Err e => ([], Err e) end));
  runs (match (construct (cdef C_session_LogoutToken) [((u "iss"), (VStr (u "https://example.com"))); ((u "aud"), (VList [(VStr (u "client_1"))])); ((u "iat"), (VInt (1600000010))); ((u "jti"), (VStr (u "bWJq"))); ((u "sid"), (VStr (u "08a5019c-17e1-4977-8f42-65a12843ea02"))); ((u "events"), (VDict [((u "http://schemas.openid.net/event/backchannel-logout"), (VDict []))]))]) with Ok d => verify no_env (args [((u "skew"), (VInt (60)))]) None C_session_LogoutToken d | Err e => ([], Err e) end)] = true.
Proof. vm_compute. reflexivity. Qed.

(** test_07_session.py:279-294 *)
Example test_logout_token_wrong_aud :
  all [
  raises ENotForMe (snd (match (construct (cdef C_session_LogoutToken) [((u "iss"), (VStr (u "https://example.com"))); ((u "aud"), (VList [(VStr (u "client_1"))])); ((u "iat"), (VInt (1600000000))); ((u "jti"), (VStr (u "bWJq"))); ((u "sid"), (VStr (u "08a5019c-17e1-4977-8f42-65a12843ea02"))); ((u "events"), (VDict [((u "http://schemas.openid.net/event/backchannel-logout"), (VDict []))]))]) with Ok d => verify no_env (args [((u "aud"), (VStr (u "deep_purple")))]) None C_session_LogoutToken d | Err e => ([], Err e) end));
  runs (match (construct (cdef C_session_LogoutToken) [((u "iss"), (VStr (u "https://example.com"))); ((u "aud"), (VList [(VStr (u "client_1"))])); ((u "iat"), (VInt (1600000000))); ((u "jti"), (VStr (u "bWJq"))); ((u "sid"), (VStr (u "08a5019c-17e1-4977-8f42-65a12843ea02"))); ((u "events"), (VDict [((u "http://schemas.openid.net/event/backchannel-logout"), (VDict []))]))]) with Ok d => verify no_env (args [((u "aud"), (VStr (u "client_1")))]) None C_session_LogoutToken d | Err e => ([], Err e) end)] = true.
Proof. vm_compute. reflexivity. Qed.

(** test_07_session.py:297-312 *)
Example test_logout_token_wrong_iss :
  all [
  raises ENotForMe (snd (match (construct (cdef C_session_LogoutToken) [((u "iss"), (VStr (u "https://example.com"))); ((u "aud"), (VList [(VStr (u "client_1"))])); ((u "iat"), (VInt (1600000000))); ((u "jti"), (VStr (u "bWJq"))); ((u "sid"), (VStr (u "08a5019c-17e1-4977-8f42-65a12843ea02"))); ((u "events"), (VDict [((u "http://schemas.openid.net/event/backchannel-logout"), (VDict []))]))]) with Ok d => verify no_env (args [((u "iss"), (VStr (u "deep_purple")))]) None C_session_LogoutToken d | Err e => ([], Err e) end));
  runs (match (construct (cdef C_session_LogoutToken) [((u "iss"), (VStr (u "https://example.com"))); ((u "aud"), (VList [(VStr (u "client_1"))])); ((u "iat"), (VInt (1600000000))); ((u "jti"), (VStr (u "bWJq"))); ((u "sid"), (VStr (u "08a5019c-17e1-4977-8f42-65a12843ea02"))); ((u "events"), (VDict [((u "http://schemas.openid.net/event/backchannel-logout"), (VDict []))]))]) with Ok d => verify no_env (args [((u "iss"), (VStr (u "https://example.com")))]) None C_session_LogoutToken d | Err e => ([], Err e) end)] = true.
Proof. vm_compute. reflexivity. Qed.

(** test_07_session.py:315-342 *)
Example test_back_channel_logout_request :
  all [
  has (do m <- (construct (cdef C_session_LogoutToken) [((u "iss"), (VStr (u "https://example.com"))); ((u "aud"), (VList [(VStr (u "client_1"))])); ((u "iat"), (VInt (1600000000))); ((u "jti"), (VStr (u "bWJq"))); ((u "sid"), (VStr (u "08a5019c-17e1-4977-8f42-65a12843ea02"))); ((u "events"), (VDict [((u "http://schemas.openid.net/event/backchannel-logout"), (VDict []))]))]) ; do t <- to_json (cdef C_session_LogoutToken) m ; do r <- construct (cdef C_session_BackChannelLogoutRequest) [(u "logout_token", VStr (toy_sign t (u "ES256") 7))] ; do q <- url (cdef C_session_BackChannelLogoutRequest) r ; read_url (cdef C_session_BackChannelLogoutRequest) q) (u "logout_token");
  yes (match (do m <- (construct (cdef C_session_LogoutToken) [((u "iss"), (VStr (u "https://example.com"))); ((u "aud"), (VList [(VStr (u "client_1"))])); ((u "iat"), (VInt (1600000000))); ((u "jti"), (VStr (u "bWJq"))); ((u "sid"), (VStr (u "08a5019c-17e1-4977-8f42-65a12843ea02"))); ((u "events"), (VDict [((u "http://schemas.openid.net/event/backchannel-logout"), (VDict []))]))]) ; do t <- to_json (cdef C_session_LogoutToken) m ; do r <- construct (cdef C_session_BackChannelLogoutRequest) [(u "logout_token", VStr (toy_sign t (u "ES256") 7))] ; do q <- url (cdef C_session_BackChannelLogoutRequest) r ; read_url (cdef C_session_BackChannelLogoutRequest) q) with Ok d => verify (kj_env now [iss; u "client_1"]) (jargs [((u "iss"), (VStr (u "https://example.com"))); ((u "aud"), (VStr (u "client_1"))); ((u "skew"), (VInt (30)))]) None C_session_BackChannelLogoutRequest d | Err e => ([], Err e) end);
  keys_are (keep (match (do m <- (construct (cdef C_session_LogoutToken) [((u "iss"), (VStr (u "https://example.com"))); ((u "aud"), (VList [(VStr (u "client_1"))])); ((u "iat"), (VInt (1600000000))); ((u "jti"), (VStr (u "bWJq"))); ((u "sid"), (VStr (u "08a5019c-17e1-4977-8f42-65a12843ea02"))); ((u "events"), (VDict [((u "http://schemas.openid.net/event/backchannel-logout"), (VDict []))]))]) ; do t <- to_json (cdef C_session_LogoutToken) m ; do r <- construct (cdef C_session_BackChannelLogoutRequest) [(u "logout_token", VStr (toy_sign t (u "ES256") 7))] ; do q <- url (cdef C_session_BackChannelLogoutRequest) r ; read_url (cdef C_session_BackChannelLogoutRequest) q) with Ok d => verify (kj_env now [iss; u "client_1"]) (jargs [((u "iss"), (VStr (u "https://example.com"))); ((u "aud"), (VStr (u "client_1"))); ((u "skew"), (VInt (30)))]) None C_session_BackChannelLogoutRequest d | Err e => ([], Err e) end)) [(u "logout_token"); (u "__verified_logout_token")]] = true.
Proof. vm_compute. reflexivity. Qed.
