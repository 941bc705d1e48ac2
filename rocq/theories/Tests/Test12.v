(** Generated by tools/mktests.py: the tests of /repo/tests/test_12_context.py on the model. *)
From Coq Require Import List NArith ZArith QArith Bool String.
From Verif Require Import Base.Ustr Base.Percent Model.Cls Model.Value Model.Pspec Model.Tables Model.Json Model.Message Model.Env Model.Verify
  Model.Jose Model.Dispatch Model.Serializers Model.RequestObject Model.IdentityAssurance Model.Calendar Model.TimeUtil Model.Config Tests.TestKit.
Import ListNotations.
Open Scope list_scope.
Open Scope N_scope.

From Verif Require Import Model.Tenants Model.KeyContext Proofs.KeyContextSamples.
(** the key jar of a context, with the toy key jars of Proofs/KeyContextSamples.v *)
Definition keyjar_of (conf : dict value) (entity_id : ustr) : res (dict (list N)) :=
  do x <- ctx_init toy_jar None conf entity_id ; match dget x (u "keyjar") with Some (AJar k) => Ok k | _ => Err EKeyError end.
Definition owners (r : res (dict (list N))) (l : list ustr) : bool := match r with Ok k => same (dkeys k) l | _ => false end.
Definition keys_of_type (r : res (dict (list N))) (t : N) (o : ustr) : nat := match r with Ok k => List.length (filter (N.eqb t) (tj_keys k o)) | _ => 9%nat end.

(** test_12_context.py:34-36 *)
Example test_context :
  all [
  is_ok (keyjar_of [] (u ""))] = true.
Proof. vm_compute. reflexivity. Qed.

(** test_12_context.py:66-68 *)
Example TestContext_test_context_with_entity_id_no_keys :
  all [
  owners (keyjar_of [((u "issuer"), (VStr (u "https://example.com"))); ((u "db_conf"), (VDict [((u "keyjar"), (VDict [((u "handler"), (VStr (u "oidcmsg.storage.abfile.LabeledAbstractFileSystem"))); ((u "fdir"), (VStr (u "db/keyjar"))); ((u "key_conv"), (VStr (u "oidcmsg.storage.converter.QPKey"))); ((u "value_conv"), (VStr (u "cryptojwt.serialize.item.KeyIssuer"))); ((u "label"), (VStr (u "foo")))])); ((u "default"), (VDict [((u "handler"), (VStr (u "oidcmsg.storage.abfile.AbstractFileSystem"))); ((u "fdir"), (VStr (u "db"))); ((u "key_conv"), (VStr (u "oidcmsg.storage.converter.QPKey"))); ((u "value_conv"), (VStr (u "oidcmsg.storage.converter.JSON")))]))]))] (u "https://example.com")) []] = true.
Proof. vm_compute. reflexivity. Qed.

(** test_12_context.py:70-75 *)
Example TestContext_test_context_with_entity_id_and_keys :
  all [
  owners (keyjar_of [((u "issuer"), (VStr (u "https://example.com"))); ((u "db_conf"), (VDict [((u "keyjar"), (VDict [((u "handler"), (VStr (u "oidcmsg.storage.abfile.LabeledAbstractFileSystem"))); ((u "fdir"), (VStr (u "db/keyjar"))); ((u "key_conv"), (VStr (u "oidcmsg.storage.converter.QPKey"))); ((u "value_conv"), (VStr (u "cryptojwt.serialize.item.KeyIssuer"))); ((u "label"), (VStr (u "foo")))])); ((u "default"), (VDict [((u "handler"), (VStr (u "oidcmsg.storage.abfile.AbstractFileSystem"))); ((u "fdir"), (VStr (u "db"))); ((u "key_conv"), (VStr (u "oidcmsg.storage.converter.QPKey"))); ((u "value_conv"), (VStr (u "oidcmsg.storage.converter.JSON")))]))])); ((u "keys"), (VDict [((u "key_defs"), (VList [(VDict [((u "type"), (VStr (u "EC"))); ((u "crv"), (VStr (u "P-256"))); ((u "use"), (VList [(VStr (u "sig"))]))]); (VDict [((u "type"), (VStr (u "EC"))); ((u "crv"), (VStr (u "P-256"))); ((u "use"), (VList [(VStr (u "enc"))]))])]))]))] (u "https://example.com")) [(u ""); (u "https://example.com")]] = true.
Proof. vm_compute. reflexivity. Qed.

(** test_12_context.py:77-86 *)
Example TestContext_test_context_with_entity_id_and_jwks :
  all [
  owners (keyjar_of [((u "issuer"), (VStr (u "https://example.com"))); ((u "db_conf"), (VDict [((u "keyjar"), (VDict [((u "handler"), (VStr (u "oidcmsg.storage.abfile.LabeledAbstractFileSystem"))); ((u "fdir"), (VStr (u "db/keyjar"))); ((u "key_conv"), (VStr (u "oidcmsg.storage.converter.QPKey"))); ((u "value_conv"), (VStr (u "cryptojwt.serialize.item.KeyIssuer"))); ((u "label"), (VStr (u "foo")))])); ((u "default"), (VDict [((u "handler"), (VStr (u "oidcmsg.storage.abfile.AbstractFileSystem"))); ((u "fdir"), (VStr (u "db"))); ((u "key_conv"), (VStr (u "oidcmsg.storage.converter.QPKey"))); ((u "value_conv"), (VStr (u "oidcmsg.storage.converter.JSON")))]))])); ((u "jwks"), (VDict [((u "keys"), (VList [(VDict [((u "n"), (VStr (u "zkpUgEgXICI54blf6iWiD2RbMDCOO1jV0VSff1MFFnujM4othfMsad7H1kRo50YM5S_X9TdvrpdOfpz5aBaKFhT6Ziv0nhtcekq1eRl8mjBlvGKCE5XGk-0LFSDwvqgkJoFYInq7bu0a4JEzKs5AyJY75YlGh879k1Uu2Sv3ZZOunfV1O1Orta-NvS-aG_jN5cstVbCGWE20H0vFVrJKNx0Zf-u-aA-syM4uX7wdWgQ-owoEMHge0GmGgzso2lwOYf_4znanLwEuO3p5aabEaFoKNR4K6GjQcjBcYmDEE4CtfRU9AEmhcD1kleiTB9TjPWkgDmT9MXsGxBHf3AKT5w"))); ((u "e"), (VStr (u "AQAB"))); ((u "kty"), (VStr (u "RSA"))); ((u "kid"), (VStr (u "rsa1")))]); (VDict [((u "k"), (VStr (u "YTEyZjBlMDgxMGI4YWU4Y2JjZDFiYTFlZTBjYzljNDU3YWM0ZWNiNzhmNmFlYTNkNTY0NzMzYjE"))); ((u "kty"), (VStr (u "oct")))])]))]))] (u "https://example.com")) [(u ""); (u "https://example.com")];
  Nat.eqb (keys_of_type (keyjar_of [((u "issuer"), (VStr (u "https://example.com"))); ((u "db_conf"), (VDict [((u "keyjar"), (VDict [((u "handler"), (VStr (u "oidcmsg.storage.abfile.LabeledAbstractFileSystem"))); ((u "fdir"), (VStr (u "db/keyjar"))); ((u "key_conv"), (VStr (u "oidcmsg.storage.converter.QPKey"))); ((u "value_conv"), (VStr (u "cryptojwt.serialize.item.KeyIssuer"))); ((u "label"), (VStr (u "foo")))])); ((u "default"), (VDict [((u "handler"), (VStr (u "oidcmsg.storage.abfile.AbstractFileSystem"))); ((u "fdir"), (VStr (u "db"))); ((u "key_conv"), (VStr (u "oidcmsg.storage.converter.QPKey"))); ((u "value_conv"), (VStr (u "oidcmsg.storage.converter.JSON")))]))])); ((u "jwks"), (VDict [((u "keys"), (VList [(VDict [((u "n"), (VStr (u "zkpUgEgXICI54blf6iWiD2RbMDCOO1jV0VSff1MFFnujM4othfMsad7H1kRo50YM5S_X9TdvrpdOfpz5aBaKFhT6Ziv0nhtcekq1eRl8mjBlvGKCE5XGk-0LFSDwvqgkJoFYInq7bu0a4JEzKs5AyJY75YlGh879k1Uu2Sv3ZZOunfV1O1Orta-NvS-aG_jN5cstVbCGWE20H0vFVrJKNx0Zf-u-aA-syM4uX7wdWgQ-owoEMHge0GmGgzso2lwOYf_4znanLwEuO3p5aabEaFoKNR4K6GjQcjBcYmDEE4CtfRU9AEmhcD1kleiTB9TjPWkgDmT9MXsGxBHf3AKT5w"))); ((u "e"), (VStr (u "AQAB"))); ((u "kty"), (VStr (u "RSA"))); ((u "kid"), (VStr (u "rsa1")))]); (VDict [((u "k"), (VStr (u "YTEyZjBlMDgxMGI4YWU4Y2JjZDFiYTFlZTBjYzljNDU3YWM0ZWNiNzhmNmFlYTNkNTY0NzMzYjE"))); ((u "kty"), (VStr (u "oct")))])]))]))] (u "https://example.com")) 1 (u "")) 1;
  Nat.eqb (keys_of_type (keyjar_of [((u "issuer"), (VStr (u "https://example.com"))); ((u "db_conf"), (VDict [((u "keyjar"), (VDict [((u "handler"), (VStr (u "oidcmsg.storage.abfile.LabeledAbstractFileSystem"))); ((u "fdir"), (VStr (u "db/keyjar"))); ((u "key_conv"), (VStr (u "oidcmsg.storage.converter.QPKey"))); ((u "value_conv"), (VStr (u "cryptojwt.serialize.item.KeyIssuer"))); ((u "label"), (VStr (u "foo")))])); ((u "default"), (VDict [((u "handler"), (VStr (u "oidcmsg.storage.abfile.AbstractFileSystem"))); ((u "fdir"), (VStr (u "db"))); ((u "key_conv"), (VStr (u "oidcmsg.storage.converter.QPKey"))); ((u "value_conv"), (VStr (u "oidcmsg.storage.converter.JSON")))]))])); ((u "jwks"), (VDict [((u "keys"), (VList [(VDict [((u "n"), (VStr (u "zkpUgEgXICI54blf6iWiD2RbMDCOO1jV0VSff1MFFnujM4othfMsad7H1kRo50YM5S_X9TdvrpdOfpz5aBaKFhT6Ziv0nhtcekq1eRl8mjBlvGKCE5XGk-0LFSDwvqgkJoFYInq7bu0a4JEzKs5AyJY75YlGh879k1Uu2Sv3ZZOunfV1O1Orta-NvS-aG_jN5cstVbCGWE20H0vFVrJKNx0Zf-u-aA-syM4uX7wdWgQ-owoEMHge0GmGgzso2lwOYf_4znanLwEuO3p5aabEaFoKNR4K6GjQcjBcYmDEE4CtfRU9AEmhcD1kleiTB9TjPWkgDmT9MXsGxBHf3AKT5w"))); ((u "e"), (VStr (u "AQAB"))); ((u "kty"), (VStr (u "RSA"))); ((u "kid"), (VStr (u "rsa1")))]); (VDict [((u "k"), (VStr (u "YTEyZjBlMDgxMGI4YWU4Y2JjZDFiYTFlZTBjYzljNDU3YWM0ZWNiNzhmNmFlYTNkNTY0NzMzYjE"))); ((u "kty"), (VStr (u "oct")))])]))]))] (u "https://example.com")) 1 (u "https://example.com")) 1;
  Nat.eqb (keys_of_type (keyjar_of [((u "issuer"), (VStr (u "https://example.com"))); ((u "db_conf"), (VDict [((u "keyjar"), (VDict [((u "handler"), (VStr (u "oidcmsg.storage.abfile.LabeledAbstractFileSystem"))); ((u "fdir"), (VStr (u "db/keyjar"))); ((u "key_conv"), (VStr (u "oidcmsg.storage.converter.QPKey"))); ((u "value_conv"), (VStr (u "cryptojwt.serialize.item.KeyIssuer"))); ((u "label"), (VStr (u "foo")))])); ((u "default"), (VDict [((u "handler"), (VStr (u "oidcmsg.storage.abfile.AbstractFileSystem"))); ((u "fdir"), (VStr (u "db"))); ((u "key_conv"), (VStr (u "oidcmsg.storage.converter.QPKey"))); ((u "value_conv"), (VStr (u "oidcmsg.storage.converter.JSON")))]))])); ((u "jwks"), (VDict [((u "keys"), (VList [(VDict [((u "n"), (VStr (u "zkpUgEgXICI54blf6iWiD2RbMDCOO1jV0VSff1MFFnujM4othfMsad7H1kRo50YM5S_X9TdvrpdOfpz5aBaKFhT6Ziv0nhtcekq1eRl8mjBlvGKCE5XGk-0LFSDwvqgkJoFYInq7bu0a4JEzKs5AyJY75YlGh879k1Uu2Sv3ZZOunfV1O1Orta-NvS-aG_jN5cstVbCGWE20H0vFVrJKNx0Zf-u-aA-syM4uX7wdWgQ-owoEMHge0GmGgzso2lwOYf_4znanLwEuO3p5aabEaFoKNR4K6GjQcjBcYmDEE4CtfRU9AEmhcD1kleiTB9TjPWkgDmT9MXsGxBHf3AKT5w"))); ((u "e"), (VStr (u "AQAB"))); ((u "kty"), (VStr (u "RSA"))); ((u "kid"), (VStr (u "rsa1")))]); (VDict [((u "k"), (VStr (u "YTEyZjBlMDgxMGI4YWU4Y2JjZDFiYTFlZTBjYzljNDU3YWM0ZWNiNzhmNmFlYTNkNTY0NzMzYjE"))); ((u "kty"), (VStr (u "oct")))])]))]))] (u "https://example.com")) 2 (u "")) 1;
  Nat.eqb (keys_of_type (keyjar_of [((u "issuer"), (VStr (u "https://example.com"))); ((u "db_conf"), (VDict [((u "keyjar"), (VDict [((u "handler"), (VStr (u "oidcmsg.storage.abfile.LabeledAbstractFileSystem"))); ((u "fdir"), (VStr (u "db/keyjar"))); ((u "key_conv"), (VStr (u "oidcmsg.storage.converter.QPKey"))); ((u "value_conv"), (VStr (u "cryptojwt.serialize.item.KeyIssuer"))); ((u "label"), (VStr (u "foo")))])); ((u "default"), (VDict [((u "handler"), (VStr (u "oidcmsg.storage.abfile.AbstractFileSystem"))); ((u "fdir"), (VStr (u "db"))); ((u "key_conv"), (VStr (u "oidcmsg.storage.converter.QPKey"))); ((u "value_conv"), (VStr (u "oidcmsg.storage.converter.JSON")))]))])); ((u "jwks"), (VDict [((u "keys"), (VList [(VDict [((u "n"), (VStr (u "zkpUgEgXICI54blf6iWiD2RbMDCOO1jV0VSff1MFFnujM4othfMsad7H1kRo50YM5S_X9TdvrpdOfpz5aBaKFhT6Ziv0nhtcekq1eRl8mjBlvGKCE5XGk-0LFSDwvqgkJoFYInq7bu0a4JEzKs5AyJY75YlGh879k1Uu2Sv3ZZOunfV1O1Orta-NvS-aG_jN5cstVbCGWE20H0vFVrJKNx0Zf-u-aA-syM4uX7wdWgQ-owoEMHge0GmGgzso2lwOYf_4znanLwEuO3p5aabEaFoKNR4K6GjQcjBcYmDEE4CtfRU9AEmhcD1kleiTB9TjPWkgDmT9MXsGxBHf3AKT5w"))); ((u "e"), (VStr (u "AQAB"))); ((u "kty"), (VStr (u "RSA"))); ((u "kid"), (VStr (u "rsa1")))]); (VDict [((u "k"), (VStr (u "YTEyZjBlMDgxMGI4YWU4Y2JjZDFiYTFlZTBjYzljNDU3YWM0ZWNiNzhmNmFlYTNkNTY0NzMzYjE"))); ((u "kty"), (VStr (u "oct")))])]))]))] (u "https://example.com")) 2 (u "https://example.com")) 1] = true.
Proof. vm_compute. reflexivity. Qed.
