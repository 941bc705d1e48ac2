(** Generated by tools/mktests.py: the tests of /repo/tests/test_10_identity_assurance.py on the model. *)
From Coq Require Import List NArith ZArith QArith Bool String.
From Verif Require Import Base.Ustr Base.Percent Model.Cls Model.Value Model.Pspec Model.Tables Model.Json Model.Message Model.Env Model.Verify
  Model.Jose Model.Dispatch Model.Serializers Model.RequestObject Model.IdentityAssurance Model.Calendar Model.TimeUtil Model.Config Tests.TestKit.
Import ListNotations.
Open Scope list_scope.
Open Scope N_scope.


(** test_10_identity_assurance.py:15-21 *)
Example test_time_stamp :
  all [
  match (do s <- to_iso_at 1600000000 false 0 ; from_iso_time s) with Ok z => (z =? 1600000000)%Z | _ => false end] = true.
Proof. vm_compute. reflexivity. Qed.

(** test_10_identity_assurance.py:24-42 *)
Example test_verification_element :
  all [
  match (do m <- (construct (cdef C_ida_VerificationElement) [((u "trust_framework"), (VStr (u "TrustAreUs"))); ((u "time"), (VFlt (6400000001 # 4)))]) ; to_dict (cdef C_ida_VerificationElement) m), (do m <- (construct (cdef C_ida_VerificationElement) [((u "trust_framework"), (VStr (u "TrustAreUs")))]) ; do m <- keep (setitem (cdef C_ida_VerificationElement) m (u "time") (VFlt (6400000001 # 4))) ; to_dict (cdef C_ida_VerificationElement) m) with Ok a, Ok b => py_eq (VDict a) (VDict b) | _, _ => false end;
  match (do d <- (do m <- (construct (cdef C_ida_VerificationElement) [((u "trust_framework"), (VStr (u "TrustAreUs"))); ((u "time"), (VFlt (6400000001 # 4)))]) ; to_dict (cdef C_ida_VerificationElement) m) ; read_dict (cdef C_ida_VerificationElement) (VDict d)) with Ok m => truthy (VDict m) | _ => false end;
  contains (do m <- (do m <- (construct (cdef C_ida_VerificationElement) [((u "trust_framework"), (VStr (u "TrustAreUs")))]) ; keep (setitem (cdef C_ida_VerificationElement) m (u "time") (VStr (u "2020-01-11T11:00:00+0100")))) ; url (cdef C_ida_VerificationElement) m) (u "2020-01-11T11%3A00%3A00%2B0100")] = true.
Proof. vm_compute. reflexivity. Qed.

(** test_10_identity_assurance.py:45-59 *)
Example test_verified_claims :
  all [
  has (construct (cdef C_oidc_Claims) [((u "userinfo"), (VDict [((u "verified_claims"), (VDict [((u "claims"), (VDict [((u "given_name"), VNone); ((u "family_name"), VNone); ((u "birthdate"), VNone)]))]))]))]) (u "userinfo")] = true.
Proof. vm_compute. reflexivity. Qed.

(** test_10_identity_assurance.py:62-85 *)
Example test_verfication_element_from_dict :
  all [
  match (construct (cdef C_ida_VerifiedClaims) [((u "verification"), (VDict [((u "trust_framework"), (VStr (u "eidas_ial_substantial")))])); ((u "claims"), (VDict [((u "given_name"), (VStr (u "Max"))); ((u "family_name"), (VStr (u "Meier"))); ((u "birthdate"), (VStr (u "1956-01-28"))); ((u "place_of_birth"), (VDict [((u "country"), (VStr (u "DE"))); ((u "locality"), (VStr (u "Musterstadt")))])); ((u "nationality"), (VStr (u "DE"))); ((u "address"), (VDict [((u "locality"), (VStr (u "Maxstadt"))); ((u "postal_code"), (VStr (u "12344"))); ((u "country"), (VStr (u "DE"))); ((u "street_address"), (VStr [65; 110; 32; 100; 101; 114; 32; 83; 97; 110; 100; 100; 252; 110; 101; 32; 50; 50]))]))]))]) with Ok m => truthy (VDict m) | _ => false end] = true.
Proof. vm_compute. reflexivity. Qed.

(** test_10_identity_assurance.py:88-134 *)
Example test_userinfo_response :
  all [
  keys_are (construct (cdef C_ida_VerifiedClaims) [((u "verification"), (VDict [((u "trust_framework"), (VStr (u "de_aml"))); ((u "time"), (VStr (u "2012-04-23T18:25:43.511+01"))); ((u "verification_process"), (VStr (u "676q3636461467647q8498785747q487"))); ((u "evidence"), (VList [(VDict [((u "type"), (VStr (u "id_document"))); ((u "method"), (VStr (u "pipp"))); ((u "document"), (VDict [((u "type"), (VStr (u "idcard"))); ((u "issuer"), (VDict [((u "name"), (VStr (u "Stadt Augsburg"))); ((u "country"), (VStr (u "DE")))])); ((u "number"), (VStr (u "53554554"))); ((u "date_of_issuance"), (VStr (u "2012-04-23"))); ((u "date_of_expiry"), (VStr (u "2022-04-22")))]))])]))])); ((u "claims"), (VDict [((u "given_name"), (VStr (u "Max"))); ((u "family_name"), (VStr (u "Meier"))); ((u "birthdate"), (VStr (u "1956-01-28")))]))]) [(u "verification"); (u "claims")];
  class_is (construct (cdef C_ida_VerifiedClaims) [((u "verification"), (VDict [((u "trust_framework"), (VStr (u "de_aml"))); ((u "time"), (VStr (u "2012-04-23T18:25:43.511+01"))); ((u "verification_process"), (VStr (u "676q3636461467647q8498785747q487"))); ((u "evidence"), (VList [(VDict [((u "type"), (VStr (u "id_document"))); ((u "method"), (VStr (u "pipp"))); ((u "document"), (VDict [((u "type"), (VStr (u "idcard"))); ((u "issuer"), (VDict [((u "name"), (VStr (u "Stadt Augsburg"))); ((u "country"), (VStr (u "DE")))])); ((u "number"), (VStr (u "53554554"))); ((u "date_of_issuance"), (VStr (u "2012-04-23"))); ((u "date_of_expiry"), (VStr (u "2022-04-22")))]))])]))])); ((u "claims"), (VDict [((u "given_name"), (VStr (u "Max"))); ((u "family_name"), (VStr (u "Meier"))); ((u "birthdate"), (VStr (u "1956-01-28")))]))]) (u "verification") C_ida_VerificationElement;
  keys_are (inner (construct (cdef C_ida_VerifiedClaims) [((u "verification"), (VDict [((u "trust_framework"), (VStr (u "de_aml"))); ((u "time"), (VStr (u "2012-04-23T18:25:43.511+01"))); ((u "verification_process"), (VStr (u "676q3636461467647q8498785747q487"))); ((u "evidence"), (VList [(VDict [((u "type"), (VStr (u "id_document"))); ((u "method"), (VStr (u "pipp"))); ((u "document"), (VDict [((u "type"), (VStr (u "idcard"))); ((u "issuer"), (VDict [((u "name"), (VStr (u "Stadt Augsburg"))); ((u "country"), (VStr (u "DE")))])); ((u "number"), (VStr (u "53554554"))); ((u "date_of_issuance"), (VStr (u "2012-04-23"))); ((u "date_of_expiry"), (VStr (u "2022-04-22")))]))])]))])); ((u "claims"), (VDict [((u "given_name"), (VStr (u "Max"))); ((u "family_name"), (VStr (u "Meier"))); ((u "birthdate"), (VStr (u "1956-01-28")))]))]) (u "verification")) [(u "trust_framework"); (u "time"); (u "verification_process"); (u "evidence")];
  length_is (inner (construct (cdef C_ida_VerifiedClaims) [((u "verification"), (VDict [((u "trust_framework"), (VStr (u "de_aml"))); ((u "time"), (VStr (u "2012-04-23T18:25:43.511+01"))); ((u "verification_process"), (VStr (u "676q3636461467647q8498785747q487"))); ((u "evidence"), (VList [(VDict [((u "type"), (VStr (u "id_document"))); ((u "method"), (VStr (u "pipp"))); ((u "document"), (VDict [((u "type"), (VStr (u "idcard"))); ((u "issuer"), (VDict [((u "name"), (VStr (u "Stadt Augsburg"))); ((u "country"), (VStr (u "DE")))])); ((u "number"), (VStr (u "53554554"))); ((u "date_of_issuance"), (VStr (u "2012-04-23"))); ((u "date_of_expiry"), (VStr (u "2022-04-22")))]))])]))])); ((u "claims"), (VDict [((u "given_name"), (VStr (u "Max"))); ((u "family_name"), (VStr (u "Meier"))); ((u "birthdate"), (VStr (u "1956-01-28")))]))]) (u "verification")) (u "evidence") 1;
  item_is (nth_inner 0 (inner (construct (cdef C_ida_VerifiedClaims) [((u "verification"), (VDict [((u "trust_framework"), (VStr (u "de_aml"))); ((u "time"), (VStr (u "2012-04-23T18:25:43.511+01"))); ((u "verification_process"), (VStr (u "676q3636461467647q8498785747q487"))); ((u "evidence"), (VList [(VDict [((u "type"), (VStr (u "id_document"))); ((u "method"), (VStr (u "pipp"))); ((u "document"), (VDict [((u "type"), (VStr (u "idcard"))); ((u "issuer"), (VDict [((u "name"), (VStr (u "Stadt Augsburg"))); ((u "country"), (VStr (u "DE")))])); ((u "number"), (VStr (u "53554554"))); ((u "date_of_issuance"), (VStr (u "2012-04-23"))); ((u "date_of_expiry"), (VStr (u "2022-04-22")))]))])]))])); ((u "claims"), (VDict [((u "given_name"), (VStr (u "Max"))); ((u "family_name"), (VStr (u "Meier"))); ((u "birthdate"), (VStr (u "1956-01-28")))]))]) (u "verification")) (u "evidence")) (u "type") (VStr (u "id_document"))] = true.
Proof. vm_compute. reflexivity. Qed.

(** test_10_identity_assurance.py:137-152 *)
Example test_userinfo_claims_request_5_1_1 :
  all [
  runs (match (construct (cdef C_ida_IDAClaimsRequest) [((u "verified_claims"), (VDict [((u "claims"), (VDict [((u "given_name"), VNone); ((u "family_name"), VNone); ((u "birthdate"), VNone)]))]))]) with Ok d => verify no_env (args []) None C_ida_IDAClaimsRequest d | Err e => ([], Err e) end);
  class_is (keep (match (construct (cdef C_ida_IDAClaimsRequest) [((u "verified_claims"), (VDict [((u "claims"), (VDict [((u "given_name"), VNone); ((u "family_name"), VNone); ((u "birthdate"), VNone)]))]))]) with Ok d => verify no_env (args []) None C_ida_IDAClaimsRequest d | Err e => ([], Err e) end)) (u "verified_claims") C_ida_VerifiedClaimsRequest;
  truthy (VDict (fst (match (construct (cdef C_ida_IDAClaimsRequest) [((u "verified_claims"), (VDict [((u "claims"), (VDict [((u "given_name"), VNone); ((u "family_name"), VNone); ((u "birthdate"), VNone)]))]))]) with Ok d => verify no_env (args []) None C_ida_IDAClaimsRequest d | Err e => ([], Err e) end)))] = true.
Proof. vm_compute. reflexivity. Qed.

(** test_10_identity_assurance.py:155-170 *)
Example test_userinfo_claims_request_5_1_2 :
  all [
  runs (match (construct (cdef C_ida_IDAClaimsRequest) [((u "verified_claims"), (VDict [((u "claims"), (VDict [((u "given_name"), (VDict [((u "essential"), (VBool true))])); ((u "family_name"), (VDict [((u "essential"), (VBool true))])); ((u "birthdate"), VNone)]))]))]) with Ok d => verify no_env (args []) None C_ida_IDAClaimsRequest d | Err e => ([], Err e) end);
  class_is (keep (match (construct (cdef C_ida_IDAClaimsRequest) [((u "verified_claims"), (VDict [((u "claims"), (VDict [((u "given_name"), (VDict [((u "essential"), (VBool true))])); ((u "family_name"), (VDict [((u "essential"), (VBool true))])); ((u "birthdate"), VNone)]))]))]) with Ok d => verify no_env (args []) None C_ida_IDAClaimsRequest d | Err e => ([], Err e) end)) (u "verified_claims") C_ida_VerifiedClaimsRequest;
  truthy (VDict (fst (match (construct (cdef C_ida_IDAClaimsRequest) [((u "verified_claims"), (VDict [((u "claims"), (VDict [((u "given_name"), (VDict [((u "essential"), (VBool true))])); ((u "family_name"), (VDict [((u "essential"), (VBool true))])); ((u "birthdate"), VNone)]))]))]) with Ok d => verify no_env (args []) None C_ida_IDAClaimsRequest d | Err e => ([], Err e) end)))] = true.
Proof. vm_compute. reflexivity. Qed.

(** test_10_identity_assurance.py:173-195 *)
Example test_userinfo_claims_request_5_1_3 :
  all [
  runs (match (construct (cdef C_ida_IDAClaimsRequest) [((u "verified_claims"), (VDict [((u "claims"), (VDict [((u "given_name"), (VDict [((u "essential"), (VBool true)); ((u "purpose"), (VStr (u "To make communication look more personal")))])); ((u "family_name"), (VDict [((u "essential"), (VBool true))])); ((u "birthdate"), (VDict [((u "purpose"), (VStr (u "To send you best wishes on your birthday")))]))]))]))]) with Ok d => verify no_env (args []) None C_ida_IDAClaimsRequest d | Err e => ([], Err e) end);
  class_is (keep (match (construct (cdef C_ida_IDAClaimsRequest) [((u "verified_claims"), (VDict [((u "claims"), (VDict [((u "given_name"), (VDict [((u "essential"), (VBool true)); ((u "purpose"), (VStr (u "To make communication look more personal")))])); ((u "family_name"), (VDict [((u "essential"), (VBool true))])); ((u "birthdate"), (VDict [((u "purpose"), (VStr (u "To send you best wishes on your birthday")))]))]))]))]) with Ok d => verify no_env (args []) None C_ida_IDAClaimsRequest d | Err e => ([], Err e) end)) (u "verified_claims") C_ida_VerifiedClaimsRequest;
  truthy (VDict (fst (match (construct (cdef C_ida_IDAClaimsRequest) [((u "verified_claims"), (VDict [((u "claims"), (VDict [((u "given_name"), (VDict [((u "essential"), (VBool true)); ((u "purpose"), (VStr (u "To make communication look more personal")))])); ((u "family_name"), (VDict [((u "essential"), (VBool true))])); ((u "birthdate"), (VDict [((u "purpose"), (VStr (u "To send you best wishes on your birthday")))]))]))]))]) with Ok d => verify no_env (args []) None C_ida_IDAClaimsRequest d | Err e => ([], Err e) end)))] = true.
Proof. vm_compute. reflexivity. Qed.

(** test_10_identity_assurance.py:198-209 *)
Example test_userinfo_claims_request_5_1_4 :
  all [
  runs (match (construct (cdef C_ida_IDAClaimsRequest) [((u "verified_claims"), (VDict [((u "claims"), VNone)]))]) with Ok d => verify no_env (args []) None C_ida_IDAClaimsRequest d | Err e => ([], Err e) end);
  class_is (keep (match (construct (cdef C_ida_IDAClaimsRequest) [((u "verified_claims"), (VDict [((u "claims"), VNone)]))]) with Ok d => verify no_env (args []) None C_ida_IDAClaimsRequest d | Err e => ([], Err e) end)) (u "verified_claims") C_ida_VerifiedClaimsRequest;
  truthy (VDict (fst (match (construct (cdef C_ida_IDAClaimsRequest) [((u "verified_claims"), (VDict [((u "claims"), VNone)]))]) with Ok d => verify no_env (args []) None C_ida_IDAClaimsRequest d | Err e => ([], Err e) end)))] = true.
Proof. vm_compute. reflexivity. Qed.

(** test_10_identity_assurance.py:274-308 *)
Example test_userinfo_claims_request_5_3_1 :
  all [
  runs (match (construct (cdef C_ida_IDAClaimsRequest) [((u "verified_claims"), (VDict [((u "verification"), (VDict [((u "trust_framework"), (VDict [((u "value"), (VStr (u "de_aml")))])); ((u "evidence"), (VList [(VDict [((u "type"), (VDict [((u "value"), (VStr (u "id_document")))])); ((u "method"), (VDict [((u "value"), (VStr (u "pipp")))])); ((u "document"), (VDict [((u "type"), (VDict [((u "values"), (VList [(VStr (u "idcard")); (VStr (u "passport"))]))]))]))])]))])); ((u "claims"), VNone)]))]) with Ok d => verify no_env (args []) None C_ida_IDAClaimsRequest d | Err e => ([], Err e) end);
  truthy (VDict (fst (match (construct (cdef C_ida_IDAClaimsRequest) [((u "verified_claims"), (VDict [((u "verification"), (VDict [((u "trust_framework"), (VDict [((u "value"), (VStr (u "de_aml")))])); ((u "evidence"), (VList [(VDict [((u "type"), (VDict [((u "value"), (VStr (u "id_document")))])); ((u "method"), (VDict [((u "value"), (VStr (u "pipp")))])); ((u "document"), (VDict [((u "type"), (VDict [((u "values"), (VList [(VStr (u "idcard")); (VStr (u "passport"))]))]))]))])]))])); ((u "claims"), VNone)]))]) with Ok d => verify no_env (args []) None C_ida_IDAClaimsRequest d | Err e => ([], Err e) end)))] = true.
Proof. vm_compute. reflexivity. Qed.

(** test_10_identity_assurance.py:311-327 *)
Example test_userinfo_claims_request_5_3_2 :
  all [
  runs (match (construct (cdef C_ida_IDAClaimsRequest) [((u "verified_claims"), (VDict [((u "verification"), (VDict [((u "date"), (VDict [((u "max_age"), (VInt (63113852)))]))])); ((u "claims"), VNone)]))]) with Ok d => verify no_env (args []) None C_ida_IDAClaimsRequest d | Err e => ([], Err e) end);
  truthy (VDict (fst (match (construct (cdef C_ida_IDAClaimsRequest) [((u "verified_claims"), (VDict [((u "verification"), (VDict [((u "date"), (VDict [((u "max_age"), (VInt (63113852)))]))])); ((u "claims"), VNone)]))]) with Ok d => verify no_env (args []) None C_ida_IDAClaimsRequest d | Err e => ([], Err e) end)))] = true.
Proof. vm_compute. reflexivity. Qed.

(** test_10_identity_assurance.py:212-225 *)
Example test_userinfo_claims_request_5_2_1 :
  all [
  runs (match (construct (cdef C_ida_IDAClaimsRequest) [((u "verified_claims"), (VDict [((u "verification"), (VDict [((u "time"), VNone); ((u "evidence"), VNone)])); ((u "claims"), VNone)]))]) with Ok d => verify no_env (args []) None C_ida_IDAClaimsRequest d | Err e => ([], Err e) end);
  truthy (VDict (fst (match (construct (cdef C_ida_IDAClaimsRequest) [((u "verified_claims"), (VDict [((u "verification"), (VDict [((u "time"), VNone); ((u "evidence"), VNone)])); ((u "claims"), VNone)]))]) with Ok d => verify no_env (args []) None C_ida_IDAClaimsRequest d | Err e => ([], Err e) end)))] = true.
Proof. vm_compute. reflexivity. Qed.

(** test_10_identity_assurance.py:228-246 *)
Example test_userinfo_claims_request_5_2_2 :
  all [
  runs (match (construct (cdef C_ida_IDAClaimsRequest) [((u "verified_claims"), (VDict [((u "verification"), (VDict [((u "time"), VNone); ((u "evidence"), (VList [(VDict [((u "method"), VNone); ((u "document"), VNone)])]))])); ((u "claims"), VNone)]))]) with Ok d => verify no_env (args []) None C_ida_IDAClaimsRequest d | Err e => ([], Err e) end);
  truthy (VDict (fst (match (construct (cdef C_ida_IDAClaimsRequest) [((u "verified_claims"), (VDict [((u "verification"), (VDict [((u "time"), VNone); ((u "evidence"), (VList [(VDict [((u "method"), VNone); ((u "document"), VNone)])]))])); ((u "claims"), VNone)]))]) with Ok d => verify no_env (args []) None C_ida_IDAClaimsRequest d | Err e => ([], Err e) end)))] = true.
Proof. vm_compute. reflexivity. Qed.

(** test_10_identity_assurance.py:249-271 *)
Example test_userinfo_claims_request_5_2_3 :
  all [
  runs (match (construct (cdef C_ida_IDAClaimsRequest) [((u "verified_claims"), (VDict [((u "verification"), (VDict [((u "time"), VNone); ((u "evidence"), (VList [(VDict [((u "method"), VNone); ((u "document"), (VDict [((u "issuer"), VNone); ((u "number"), VNone); ((u "date_of_issuance"), VNone)]))])]))])); ((u "claims"), VNone)]))]) with Ok d => verify no_env (args []) None C_ida_IDAClaimsRequest d | Err e => ([], Err e) end);
  truthy (VDict (fst (match (construct (cdef C_ida_IDAClaimsRequest) [((u "verified_claims"), (VDict [((u "verification"), (VDict [((u "time"), VNone); ((u "evidence"), (VList [(VDict [((u "method"), VNone); ((u "document"), (VDict [((u "issuer"), VNone); ((u "number"), VNone); ((u "date_of_issuance"), VNone)]))])]))])); ((u "claims"), VNone)]))]) with Ok d => verify no_env (args []) None C_ida_IDAClaimsRequest d | Err e => ([], Err e) end)))] = true.
Proof. vm_compute. reflexivity. Qed.

(** test_10_identity_assurance.py:330-376 *)
Example test_example_6_1 :
  all [
  runs (match (construct (cdef C_ida_VerifiedClaims) [((u "verification"), (VDict [((u "trust_framework"), (VStr (u "de_aml"))); ((u "time"), (VStr (u "2012-04-23T18:25:43.511+01"))); ((u "verification_process"), (VStr (u "676q3636461467647q8498785747q487"))); ((u "evidence"), (VList [(VDict [((u "type"), (VStr (u "id_document"))); ((u "method"), (VStr (u "pipp"))); ((u "document"), (VDict [((u "type"), (VStr (u "idcard"))); ((u "issuer"), (VDict [((u "name"), (VStr (u "Stadt Augsburg"))); ((u "country"), (VStr (u "DE")))])); ((u "number"), (VStr (u "53554554"))); ((u "date_of_issuance"), (VStr (u "2012-04-23"))); ((u "date_of_expiry"), (VStr (u "2022-04-22")))]))])]))])); ((u "claims"), (VDict [((u "given_name"), (VStr (u "Max"))); ((u "family_name"), (VStr (u "Meier"))); ((u "birthdate"), (VStr (u "1956-01-28"))); ((u "place_of_birth"), (VDict [((u "country"), (VStr (u "DE"))); ((u "locality"), (VStr (u "Musterstadt")))])); ((u "nationality"), (VStr (u "DE"))); ((u "address"), (VDict [((u "locality"), (VStr (u "Maxstadt"))); ((u "postal_code"), (VStr (u "12344"))); ((u "country"), (VStr (u "DE"))); ((u "street_address"), (VStr [65; 110; 32; 100; 101; 114; 32; 83; 97; 110; 100; 100; 252; 110; 101; 32; 50; 50]))]))]))]) with Ok d => verify no_env (args []) None C_ida_VerifiedClaims d | Err e => ([], Err e) end);
  item_is (inner (keep (match (construct (cdef C_ida_VerifiedClaims) [((u "verification"), (VDict [((u "trust_framework"), (VStr (u "de_aml"))); ((u "time"), (VStr (u "2012-04-23T18:25:43.511+01"))); ((u "verification_process"), (VStr (u "676q3636461467647q8498785747q487"))); ((u "evidence"), (VList [(VDict [((u "type"), (VStr (u "id_document"))); ((u "method"), (VStr (u "pipp"))); ((u "document"), (VDict [((u "type"), (VStr (u "idcard"))); ((u "issuer"), (VDict [((u "name"), (VStr (u "Stadt Augsburg"))); ((u "country"), (VStr (u "DE")))])); ((u "number"), (VStr (u "53554554"))); ((u "date_of_issuance"), (VStr (u "2012-04-23"))); ((u "date_of_expiry"), (VStr (u "2022-04-22")))]))])]))])); ((u "claims"), (VDict [((u "given_name"), (VStr (u "Max"))); ((u "family_name"), (VStr (u "Meier"))); ((u "birthdate"), (VStr (u "1956-01-28"))); ((u "place_of_birth"), (VDict [((u "country"), (VStr (u "DE"))); ((u "locality"), (VStr (u "Musterstadt")))])); ((u "nationality"), (VStr (u "DE"))); ((u "address"), (VDict [((u "locality"), (VStr (u "Maxstadt"))); ((u "postal_code"), (VStr (u "12344"))); ((u "country"), (VStr (u "DE"))); ((u "street_address"), (VStr [65; 110; 32; 100; 101; 114; 32; 83; 97; 110; 100; 100; 252; 110; 101; 32; 50; 50]))]))]))]) with Ok d => verify no_env (args []) None C_ida_VerifiedClaims d | Err e => ([], Err e) end)) (u "verification")) (u "trust_framework") (VStr (u "de_aml"));
  item_is (nth_inner 0 (inner (keep (match (construct (cdef C_ida_VerifiedClaims) [((u "verification"), (VDict [((u "trust_framework"), (VStr (u "de_aml"))); ((u "time"), (VStr (u "2012-04-23T18:25:43.511+01"))); ((u "verification_process"), (VStr (u "676q3636461467647q8498785747q487"))); ((u "evidence"), (VList [(VDict [((u "type"), (VStr (u "id_document"))); ((u "method"), (VStr (u "pipp"))); ((u "document"), (VDict [((u "type"), (VStr (u "idcard"))); ((u "issuer"), (VDict [((u "name"), (VStr (u "Stadt Augsburg"))); ((u "country"), (VStr (u "DE")))])); ((u "number"), (VStr (u "53554554"))); ((u "date_of_issuance"), (VStr (u "2012-04-23"))); ((u "date_of_expiry"), (VStr (u "2022-04-22")))]))])]))])); ((u "claims"), (VDict [((u "given_name"), (VStr (u "Max"))); ((u "family_name"), (VStr (u "Meier"))); ((u "birthdate"), (VStr (u "1956-01-28"))); ((u "place_of_birth"), (VDict [((u "country"), (VStr (u "DE"))); ((u "locality"), (VStr (u "Musterstadt")))])); ((u "nationality"), (VStr (u "DE"))); ((u "address"), (VDict [((u "locality"), (VStr (u "Maxstadt"))); ((u "postal_code"), (VStr (u "12344"))); ((u "country"), (VStr (u "DE"))); ((u "street_address"), (VStr [65; 110; 32; 100; 101; 114; 32; 83; 97; 110; 100; 100; 252; 110; 101; 32; 50; 50]))]))]))]) with Ok d => verify no_env (args []) None C_ida_VerifiedClaims d | Err e => ([], Err e) end)) (u "verification")) (u "evidence")) (u "type") (VStr (u "id_document"))] = true.
Proof. vm_compute. reflexivity. Qed.

(** test_10_identity_assurance.py:379-438 *)
Example test_example_6_2 :
  all [
  runs (match (construct (cdef C_ida_VerifiedClaims) [((u "verification"), (VDict [((u "trust_framework"), (VStr (u "de_aml"))); ((u "time"), (VStr (u "2012-04-23T18:25:43.511+01"))); ((u "verification_process"), (VStr (u "676q3636461467647q8498785747q487"))); ((u "evidence"), (VList [(VDict [((u "type"), (VStr (u "id_document"))); ((u "method"), (VStr (u "pipp"))); ((u "document"), (VDict [((u "document_type"), (VStr (u "de_erp_replacement_idcard"))); ((u "issuer"), (VDict [((u "name"), (VStr (u "Stadt Augsburg"))); ((u "country"), (VStr (u "DE")))])); ((u "number"), (VStr (u "53554554"))); ((u "date_of_issuance"), (VStr (u "2012-04-23"))); ((u "date_of_expiry"), (VStr (u "2022-04-22")))]))]); (VDict [((u "type"), (VStr (u "utility_bill"))); ((u "provider"), (VDict [((u "name"), (VStr (u "Stadtwerke Musterstadt"))); ((u "country"), (VStr (u "DE"))); ((u "region"), (VStr [84; 104; 252; 114; 105; 110; 103; 101; 110])); ((u "street_address"), (VStr (u "Energiestrasse 33")))])); ((u "date"), (VStr (u "2013-01-31")))])]))])); ((u "claims"), (VDict [((u "given_name"), (VStr (u "Max"))); ((u "family_name"), (VStr (u "Meier"))); ((u "birthdate"), (VStr (u "1956-01-28"))); ((u "place_of_birth"), (VDict [((u "country"), (VStr (u "DE"))); ((u "locality"), (VStr (u "Musterstadt")))])); ((u "nationality"), (VStr (u "DE"))); ((u "address"), (VDict [((u "locality"), (VStr (u "Maxstadt"))); ((u "postal_code"), (VStr (u "12344"))); ((u "country"), (VStr (u "DE"))); ((u "street_address"), (VStr [65; 110; 32; 100; 101; 114; 32; 83; 97; 110; 100; 100; 252; 110; 101; 32; 50; 50]))]))]))]) with Ok d => verify no_env (args []) None C_ida_VerifiedClaims d | Err e => ([], Err e) end);
  item_is (inner (keep (match (construct (cdef C_ida_VerifiedClaims) [((u "verification"), (VDict [((u "trust_framework"), (VStr (u "de_aml"))); ((u "time"), (VStr (u "2012-04-23T18:25:43.511+01"))); ((u "verification_process"), (VStr (u "676q3636461467647q8498785747q487"))); ((u "evidence"), (VList [(VDict [((u "type"), (VStr (u "id_document"))); ((u "method"), (VStr (u "pipp"))); ((u "document"), (VDict [((u "document_type"), (VStr (u "de_erp_replacement_idcard"))); ((u "issuer"), (VDict [((u "name"), (VStr (u "Stadt Augsburg"))); ((u "country"), (VStr (u "DE")))])); ((u "number"), (VStr (u "53554554"))); ((u "date_of_issuance"), (VStr (u "2012-04-23"))); ((u "date_of_expiry"), (VStr (u "2022-04-22")))]))]); (VDict [((u "type"), (VStr (u "utility_bill"))); ((u "provider"), (VDict [((u "name"), (VStr (u "Stadtwerke Musterstadt"))); ((u "country"), (VStr (u "DE"))); ((u "region"), (VStr [84; 104; 252; 114; 105; 110; 103; 101; 110])); ((u "street_address"), (VStr (u "Energiestrasse 33")))])); ((u "date"), (VStr (u "2013-01-31")))])]))])); ((u "claims"), (VDict [((u "given_name"), (VStr (u "Max"))); ((u "family_name"), (VStr (u "Meier"))); ((u "birthdate"), (VStr (u "1956-01-28"))); ((u "place_of_birth"), (VDict [((u "country"), (VStr (u "DE"))); ((u "locality"), (VStr (u "Musterstadt")))])); ((u "nationality"), (VStr (u "DE"))); ((u "address"), (VDict [((u "locality"), (VStr (u "Maxstadt"))); ((u "postal_code"), (VStr (u "12344"))); ((u "country"), (VStr (u "DE"))); ((u "street_address"), (VStr [65; 110; 32; 100; 101; 114; 32; 83; 97; 110; 100; 100; 252; 110; 101; 32; 50; 50]))]))]))]) with Ok d => verify no_env (args []) None C_ida_VerifiedClaims d | Err e => ([], Err e) end)) (u "verification")) (u "trust_framework") (VStr (u "de_aml"));
  length_is (inner (keep (match (construct (cdef C_ida_VerifiedClaims) [((u "verification"), (VDict [((u "trust_framework"), (VStr (u "de_aml"))); ((u "time"), (VStr (u "2012-04-23T18:25:43.511+01"))); ((u "verification_process"), (VStr (u "676q3636461467647q8498785747q487"))); ((u "evidence"), (VList [(VDict [((u "type"), (VStr (u "id_document"))); ((u "method"), (VStr (u "pipp"))); ((u "document"), (VDict [((u "document_type"), (VStr (u "de_erp_replacement_idcard"))); ((u "issuer"), (VDict [((u "name"), (VStr (u "Stadt Augsburg"))); ((u "country"), (VStr (u "DE")))])); ((u "number"), (VStr (u "53554554"))); ((u "date_of_issuance"), (VStr (u "2012-04-23"))); ((u "date_of_expiry"), (VStr (u "2022-04-22")))]))]); (VDict [((u "type"), (VStr (u "utility_bill"))); ((u "provider"), (VDict [((u "name"), (VStr (u "Stadtwerke Musterstadt"))); ((u "country"), (VStr (u "DE"))); ((u "region"), (VStr [84; 104; 252; 114; 105; 110; 103; 101; 110])); ((u "street_address"), (VStr (u "Energiestrasse 33")))])); ((u "date"), (VStr (u "2013-01-31")))])]))])); ((u "claims"), (VDict [((u "given_name"), (VStr (u "Max"))); ((u "family_name"), (VStr (u "Meier"))); ((u "birthdate"), (VStr (u "1956-01-28"))); ((u "place_of_birth"), (VDict [((u "country"), (VStr (u "DE"))); ((u "locality"), (VStr (u "Musterstadt")))])); ((u "nationality"), (VStr (u "DE"))); ((u "address"), (VDict [((u "locality"), (VStr (u "Maxstadt"))); ((u "postal_code"), (VStr (u "12344"))); ((u "country"), (VStr (u "DE"))); ((u "street_address"), (VStr [65; 110; 32; 100; 101; 114; 32; 83; 97; 110; 100; 100; 252; 110; 101; 32; 50; 50]))]))]))]) with Ok d => verify no_env (args []) None C_ida_VerifiedClaims d | Err e => ([], Err e) end)) (u "verification")) (u "evidence") 2;
  item_is (nth_inner 0 (inner (keep (match (construct (cdef C_ida_VerifiedClaims) [((u "verification"), (VDict [((u "trust_framework"), (VStr (u "de_aml"))); ((u "time"), (VStr (u "2012-04-23T18:25:43.511+01"))); ((u "verification_process"), (VStr (u "676q3636461467647q8498785747q487"))); ((u "evidence"), (VList [(VDict [((u "type"), (VStr (u "id_document"))); ((u "method"), (VStr (u "pipp"))); ((u "document"), (VDict [((u "document_type"), (VStr (u "de_erp_replacement_idcard"))); ((u "issuer"), (VDict [((u "name"), (VStr (u "Stadt Augsburg"))); ((u "country"), (VStr (u "DE")))])); ((u "number"), (VStr (u "53554554"))); ((u "date_of_issuance"), (VStr (u "2012-04-23"))); ((u "date_of_expiry"), (VStr (u "2022-04-22")))]))]); (VDict [((u "type"), (VStr (u "utility_bill"))); ((u "provider"), (VDict [((u "name"), (VStr (u "Stadtwerke Musterstadt"))); ((u "country"), (VStr (u "DE"))); ((u "region"), (VStr [84; 104; 252; 114; 105; 110; 103; 101; 110])); ((u "street_address"), (VStr (u "Energiestrasse 33")))])); ((u "date"), (VStr (u "2013-01-31")))])]))])); ((u "claims"), (VDict [((u "given_name"), (VStr (u "Max"))); ((u "family_name"), (VStr (u "Meier"))); ((u "birthdate"), (VStr (u "1956-01-28"))); ((u "place_of_birth"), (VDict [((u "country"), (VStr (u "DE"))); ((u "locality"), (VStr (u "Musterstadt")))])); ((u "nationality"), (VStr (u "DE"))); ((u "address"), (VDict [((u "locality"), (VStr (u "Maxstadt"))); ((u "postal_code"), (VStr (u "12344"))); ((u "country"), (VStr (u "DE"))); ((u "street_address"), (VStr [65; 110; 32; 100; 101; 114; 32; 83; 97; 110; 100; 100; 252; 110; 101; 32; 50; 50]))]))]))]) with Ok d => verify no_env (args []) None C_ida_VerifiedClaims d | Err e => ([], Err e) end)) (u "verification")) (u "evidence")) (u "type") (VStr (u "id_document"));
  item_is (nth_inner 1 (inner (keep (match (construct (cdef C_ida_VerifiedClaims) [((u "verification"), (VDict [((u "trust_framework"), (VStr (u "de_aml"))); ((u "time"), (VStr (u "2012-04-23T18:25:43.511+01"))); ((u "verification_process"), (VStr (u "676q3636461467647q8498785747q487"))); ((u "evidence"), (VList [(VDict [((u "type"), (VStr (u "id_document"))); ((u "method"), (VStr (u "pipp"))); ((u "document"), (VDict [((u "document_type"), (VStr (u "de_erp_replacement_idcard"))); ((u "issuer"), (VDict [((u "name"), (VStr (u "Stadt Augsburg"))); ((u "country"), (VStr (u "DE")))])); ((u "number"), (VStr (u "53554554"))); ((u "date_of_issuance"), (VStr (u "2012-04-23"))); ((u "date_of_expiry"), (VStr (u "2022-04-22")))]))]); (VDict [((u "type"), (VStr (u "utility_bill"))); ((u "provider"), (VDict [((u "name"), (VStr (u "Stadtwerke Musterstadt"))); ((u "country"), (VStr (u "DE"))); ((u "region"), (VStr [84; 104; 252; 114; 105; 110; 103; 101; 110])); ((u "street_address"), (VStr (u "Energiestrasse 33")))])); ((u "date"), (VStr (u "2013-01-31")))])]))])); ((u "claims"), (VDict [((u "given_name"), (VStr (u "Max"))); ((u "family_name"), (VStr (u "Meier"))); ((u "birthdate"), (VStr (u "1956-01-28"))); ((u "place_of_birth"), (VDict [((u "country"), (VStr (u "DE"))); ((u "locality"), (VStr (u "Musterstadt")))])); ((u "nationality"), (VStr (u "DE"))); ((u "address"), (VDict [((u "locality"), (VStr (u "Maxstadt"))); ((u "postal_code"), (VStr (u "12344"))); ((u "country"), (VStr (u "DE"))); ((u "street_address"), (VStr [65; 110; 32; 100; 101; 114; 32; 83; 97; 110; 100; 100; 252; 110; 101; 32; 50; 50]))]))]))]) with Ok d => verify no_env (args []) None C_ida_VerifiedClaims d | Err e => ([], Err e) end)) (u "verification")) (u "evidence")) (u "type") (VStr (u "utility_bill"))] = true.
Proof. vm_compute. reflexivity. Qed.

(** test_10_identity_assurance.py:441-468 *)
Example test_example_6_3 :
  all [
  runs (match (construct (cdef C_ida_VerifiedClaims) [((u "verification"), (VDict [((u "trust_framework"), (VStr (u "eidas_ial_substantial")))])); ((u "claims"), (VDict [((u "given_name"), (VStr (u "Max"))); ((u "family_name"), (VStr (u "Meier"))); ((u "birthdate"), (VStr (u "1956-01-28"))); ((u "place_of_birth"), (VDict [((u "country"), (VStr (u "DE"))); ((u "locality"), (VStr (u "Musterstadt")))])); ((u "nationality"), (VStr (u "DE"))); ((u "address"), (VDict [((u "locality"), (VStr (u "Maxstadt"))); ((u "postal_code"), (VStr (u "12344"))); ((u "country"), (VStr (u "DE"))); ((u "street_address"), (VStr [65; 110; 32; 100; 101; 114; 32; 83; 97; 110; 100; 100; 252; 110; 101; 32; 50; 50]))]))]))]) with Ok d => verify no_env (args []) None C_ida_VerifiedClaims d | Err e => ([], Err e) end);
  item_is (inner (keep (match (construct (cdef C_ida_VerifiedClaims) [((u "verification"), (VDict [((u "trust_framework"), (VStr (u "eidas_ial_substantial")))])); ((u "claims"), (VDict [((u "given_name"), (VStr (u "Max"))); ((u "family_name"), (VStr (u "Meier"))); ((u "birthdate"), (VStr (u "1956-01-28"))); ((u "place_of_birth"), (VDict [((u "country"), (VStr (u "DE"))); ((u "locality"), (VStr (u "Musterstadt")))])); ((u "nationality"), (VStr (u "DE"))); ((u "address"), (VDict [((u "locality"), (VStr (u "Maxstadt"))); ((u "postal_code"), (VStr (u "12344"))); ((u "country"), (VStr (u "DE"))); ((u "street_address"), (VStr [65; 110; 32; 100; 101; 114; 32; 83; 97; 110; 100; 100; 252; 110; 101; 32; 50; 50]))]))]))]) with Ok d => verify no_env (args []) None C_ida_VerifiedClaims d | Err e => ([], Err e) end)) (u "verification")) (u "trust_framework") (VStr (u "eidas_ial_substantial"))] = true.
Proof. vm_compute. reflexivity. Qed.

(** test_10_identity_assurance.py:471-508 *)
Example test_example_6_4_2 :
  all [
  runs (match (construct (cdef C_ida_VerifiedClaims) [((u "verification"), (VDict [((u "trust_framework"), (VStr (u "de_aml"))); ((u "time"), (VStr (u "2012-04-23T18:25:43.511+01"))); ((u "verification_process"), (VStr (u "676q3636461467647q8498785747q487"))); ((u "evidence"), (VList [(VDict [((u "type"), (VStr (u "id_document"))); ((u "method"), (VStr (u "pipp"))); ((u "document"), (VDict [((u "type"), (VStr (u "idcard"))); ((u "issuer"), (VDict [((u "name"), (VStr (u "Stadt Augsburg"))); ((u "country"), (VStr (u "DE")))])); ((u "number"), (VStr (u "53554554"))); ((u "date_of_issuance"), (VStr (u "2012-04-23"))); ((u "date_of_expiry"), (VStr (u "2022-04-22")))]))])]))])); ((u "claims"), (VDict [((u "given_name"), (VStr (u "Max"))); ((u "family_name"), (VStr (u "Meier"))); ((u "birthdate"), (VStr (u "1956-01-28")))]))]) with Ok d => verify no_env (args []) None C_ida_VerifiedClaims d | Err e => ([], Err e) end);
  item_is (inner (keep (match (construct (cdef C_ida_VerifiedClaims) [((u "verification"), (VDict [((u "trust_framework"), (VStr (u "de_aml"))); ((u "time"), (VStr (u "2012-04-23T18:25:43.511+01"))); ((u "verification_process"), (VStr (u "676q3636461467647q8498785747q487"))); ((u "evidence"), (VList [(VDict [((u "type"), (VStr (u "id_document"))); ((u "method"), (VStr (u "pipp"))); ((u "document"), (VDict [((u "type"), (VStr (u "idcard"))); ((u "issuer"), (VDict [((u "name"), (VStr (u "Stadt Augsburg"))); ((u "country"), (VStr (u "DE")))])); ((u "number"), (VStr (u "53554554"))); ((u "date_of_issuance"), (VStr (u "2012-04-23"))); ((u "date_of_expiry"), (VStr (u "2022-04-22")))]))])]))])); ((u "claims"), (VDict [((u "given_name"), (VStr (u "Max"))); ((u "family_name"), (VStr (u "Meier"))); ((u "birthdate"), (VStr (u "1956-01-28")))]))]) with Ok d => verify no_env (args []) None C_ida_VerifiedClaims d | Err e => ([], Err e) end)) (u "verification")) (u "trust_framework") (VStr (u "de_aml"))] = true.
Proof. vm_compute. reflexivity. Qed.

(** test_10_identity_assurance.py:511-521 *)
Example test_construct_5_2_1 :
  all [
  match (do a <- cc_set (cdef C_ida_VerificationElement) [] (u "time") (CV VNone) ; do a <- cc_set (cdef C_ida_VerificationElement) a (u "evidence") (CV VNone) ; do b <- cc_set (cdef C_ida_VerifiedClaims) [] (u "verification") (CC C_ida_VerificationElement a) ; do b <- cc_set (cdef C_ida_VerifiedClaims) b (u "claims") (CV VNone) ; cc_to_json b) with Ok s => ueqb s (u "{""verification"": {""time"": null, ""evidence"": null}, ""claims"": null}") | _ => false end] = true.
Proof. vm_compute. reflexivity. Qed.
