(** C103 - C107: messages and ID Tokens written as JWTs and read back. *)
From Coq Require Import List NArith ZArith Bool String.
From Verif Require Import Base.Ustr Model.Cls Model.Value Model.Pspec Model.Tables Model.Json Model.Message Model.Env
  Model.Verify Model.Jose Spec.JsonSpec Spec.MessageSpec Spec.CodecSpec Spec.VerifySpec Spec.RoundTripSpec Spec.JoseSpec
  Proofs.JoseLemmas Proofs.Samples Proofs.RoundTripSamples Proofs.JoseSamples.
Import ListNotations.
Open Scope list_scope.
Open Scope N_scope.

(** C103: what to_jwt signs, from_jwt reads. *)
Theorem C103_jwt_round_trip : forall J E i C d alg keys args vfy tok,
  content canon (cd_param C) d -> covers_defaults C d -> message_to_jwt J C d keys alg = Ok tok ->
  reads_signed J E alg keys -> alg = u "none" \/ vfy = false \/ trusts E i args tok ->
  exists d' h, from_jwt E i C tok true vfy args = Ok (d', Some h) /\ dget h (u "alg") = Some (VStr alg) /\
    forall k, dget d' k = dget d k.
Proof. exact c103. Qed.
Print Assumptions C103_jwt_round_trip.

(** to_jwt fails only where the crypto library does; the text it signs is the JSON form *)
Theorem C103_jwt_written : forall J C d alg keys, content canon (cd_param C) d -> covers_defaults C d ->
  exists text, message_to_jwt J C d keys alg = j_sign J text alg keys /\ Forall printable text /\
    exists d', from_json C (cd_default C) text = (d', Ok tt) /\ forall k, dget d' k = dget d k.
Proof. exact c103_writes. Qed.
Print Assumptions C103_jwt_written.

Example C103_case :
  content canon (cd_param (cdef C_oidc_AuthorizationRequest)) rt_request /\
  covers_defaults (cdef C_oidc_AuthorizationRequest) rt_request /\
  message_to_jwt toy (cdef C_oidc_AuthorizationRequest) rt_request [7] (u "RS256") = Ok rt_token /\
  reads_signed toy (toy_env 1000) (u "RS256") [7] /\ trusts (toy_env 1000) 0 [] rt_token /\
  (exists h, from_jwt (toy_env 1000) 0 (cdef C_oidc_AuthorizationRequest) rt_token true true [] = Ok (rt_request, Some h)) /\
  (* a key that the key jar does not have *)
  from_jwt (toy_env 1000) 0 (cdef C_oidc_AuthorizationRequest)
    (ok_or [] (message_to_jwt toy (cdef C_oidc_AuthorizationRequest) rt_request [8] (u "RS256"))) true true [] = Err ECrypto.
Proof.
  split; [exact rt_request_canon|]. split; [intros k []|]. split; [vm_compute; reflexivity|]. split; [apply toy_reads|].
  split. { set (t := rt_token). vm_compute in t. subst t. apply toy_trusts. discriminate. }
  split; [|vm_compute; reflexivity]. exists [(u "alg", VStr (u "RS256"))]. vm_compute. reflexivity.
Qed.

(** C104: the same with encryption: a signed message that is encrypted afterwards, ... *)
Theorem C104_nested : forall J E i C d alg keys args vfy tok outer,
  content canon (cd_param C) d -> covers_defaults C d -> message_to_jwt J C d keys alg = Ok tok ->
  reads_signed J E alg keys -> alg = u "none" \/ vfy = false \/ trusts E i args tok ->
  decrypts E i args outer tok ->
  exists d' h, from_jwt E i C outer true vfy args = Ok (d', Some h) /\ dget h (u "alg") = Some (VStr alg) /\
    forall k, dget d' k = dget d k.
Proof. exact c104_nested. Qed.
Print Assumptions C104_nested.

(** ... one that is only encrypted, read by from_jwt ... *)
Theorem C104_jwe_from_jwt : forall J E i C d enc alg ekeys args vfy text outer,
  content canon (cd_param C) d -> covers_defaults C d -> to_jwe J C d ekeys enc alg = Ok outer ->
  to_json C d = Ok text -> decrypts E i args outer text -> e_jws E (VStr text) = Ok None ->
  exists d', from_jwt E i C outer true vfy args = Ok (d', None) /\ forall k, dget d' k = dget d k.
Proof. exact c104_from_jwt. Qed.
Print Assumptions C104_jwe_from_jwt.

(** ... and by from_jwe. *)
Theorem C104_jwe_round_trip : forall J C d enc alg ekeys dkeys tok,
  content canon (cd_param C) d -> covers_defaults C d -> to_jwe J C d ekeys enc alg = Ok tok ->
  decryptable J enc alg ekeys dkeys ->
  exists d', from_jwe J C (cd_default C) tok dkeys = (d', Ok tt) /\ forall k, dget d' k = dget d k.
Proof. exact c104_jwe. Qed.
Print Assumptions C104_jwe_round_trip.

Example C104_case :
  let C := cdef C_oidc_AuthorizationRequest in
  to_jwe toy C rt_request [9] (u "A128GCM") (u "RSA-OAEP") = Ok rt_sealed /\
  decryptable toy (u "A128GCM") (u "RSA-OAEP") [9] [9] /\
  from_jwe toy C [] rt_sealed [9] = (rt_request, Ok tt) /\ from_jwe toy C [] rt_sealed [] = ([], Err ECrypto) /\
  (exists text, to_json C rt_request = Ok text /\ rt_sealed = 69 :: text /\ decrypts (toy_env 1000) 0 [] rt_sealed text /\
     e_jws (toy_env 1000) (VStr text) = Ok None) /\
  from_jwt (toy_env 1000) 0 C rt_sealed true true [] = Ok (rt_request, None) /\
  decrypts (toy_env 1000) 0 [] (69 :: rt_token) rt_token /\
  (exists h, from_jwt (toy_env 1000) 0 C (69 :: rt_token) true true [] = Ok (rt_request, Some h)).
Proof.
  cbv zeta. split; [vm_compute; reflexivity|]. split; [apply toy_decryptable; discriminate|].
  split; [vm_compute; reflexivity|]. split; [vm_compute; reflexivity|].
  split. { exists (tl rt_sealed). split; [vm_compute; reflexivity|]. split; [vm_compute; reflexivity|].
           split; [|vm_compute; reflexivity]. apply (toy_decrypts 1000 0 [] (tl rt_sealed)). }
  split; [vm_compute; reflexivity|]. split; [apply toy_decrypts|].
  exists [(u "alg", VStr (u "RS256"))]. vm_compute. reflexivity.
Qed.

(** C105: IdToken.to_jwt, read back: the claims with iat, exp and the hashes. *)
Theorem C105_id_token_round_trip : forall J P E i d d1 alg h keys args vfy z tok,
  content canon (cd_param (cdef C_oidc_IdToken)) d -> z <> 0%Z -> hash_of_alg alg h ->
  (forall k v, In k [u "access_token"; u "code"] -> dget d k = Some v -> hashable P h v) ->
  to_jwt J P C_oidc_IdToken d keys alg (VInt z) = (d1, Ok tok) ->
  reads_signed J E alg keys -> alg = u "none" \/ vfy = false \/ trusts E i args tok ->
  exists idt hdr, from_jwt E i (cdef C_oidc_IdToken) tok true vfy args = Ok (idt, Some hdr) /\
    dget hdr (u "alg") = Some (VStr alg) /\ packed P h z d idt.
Proof. exact c105. Qed.
Print Assumptions C105_id_token_round_trip.

Example C105_case :
  hash_of_alg (u "RS256") (u "HS256") /\
  (forall k v, In k [u "access_token"; u "code"] -> dget honest k = Some v -> hashable (toy_env 1000) (u "HS256") v) /\
  content canon (cd_param (cdef C_oidc_IdToken)) honest /\
  snd (to_jwt toy (toy_env 1000) C_oidc_IdToken honest [7] (u "RS256") (VInt 600)) = Ok honest_token /\
  (exists idt hdr, from_jwt (toy_env 1500) 0 (cdef C_oidc_IdToken) honest_token true true [] = Ok (idt, Some hdr) /\
     dget idt (u "exp") = Some (VInt 1600) /\ dget idt (u "at_hash") = Some (VStr (u "HS256:at"))).
Proof.
  split; [exists (u "RS"), (u "256"); repeat split; left; reflexivity|]. split; [exact honest_hashable|].
  split; [apply honest_ok|]. split; [vm_compute; reflexivity|].
  exists (fst (ok_or ([], None) (from_jwt (toy_env 1500) 0 (cdef C_oidc_IdToken) honest_token true true []))), [(u "alg", VStr (u "RS256"))].
  vm_compute. repeat split; reflexivity.
Qed.

(** C106: an ID Token made by an honest provider is accepted by the client it is for, in every message
    that carries one. *)
Theorem C106_honest_accepted : forall J P E K hdr c d d1 alg h keys z tok msg,
  has_id_token_check c -> msg_fits K c msg -> dget msg (u "id_token") = Some (VStr tok) ->
  (subclass c C_oidc_AuthorizationResponse = true -> hashed_with d msg) ->
  honest_claims d -> meant_for K d -> hash_of_alg alg h ->
  (forall k v, In k [u "access_token"; u "code"] -> dget d k = Some v -> hashable P h v) ->
  to_jwt J P C_oidc_IdToken d keys alg (VInt z) = (d1, Ok tok) ->
  partners J P E K alg keys z d tok ->
  exists msg' idt, verify E K hdr c msg = (msg', Ok true) /\
    dget msg' (u "__verified_id_token") = Some (VMsg C_oidc_IdToken idt) /\ packed P h z d idt.
Proof. exact honest_verified. Qed.
Print Assumptions C106_honest_accepted.

Example C106_case :
  has_id_token_check C_oidc_AuthorizationResponse /\
  msg_fits honest_args C_oidc_AuthorizationResponse (dset honest_response (u "id_token") (VStr honest_token)) /\
  dset honest_response (u "id_token") (VStr honest_token) = honest_response /\
  hashed_with honest honest_response /\ honest_claims honest /\ meant_for honest_args honest /\
  partners toy (toy_env 1000) (toy_env 1500) honest_args (u "RS256") [7] 600 honest honest_token /\
  snd (verify (toy_env 1500) honest_args None C_oidc_AuthorizationResponse honest_response) = Ok true /\
  (* too late *)
  snd (verify (toy_env 1601) honest_args None C_oidc_AuthorizationResponse honest_response) = Err EEXPError /\
  (* another code *)
  snd (verify (toy_env 1500) honest_args None C_oidc_AuthorizationResponse
    (dset honest_response (u "code") (VStr (u "xyz")))) = Err ECHashError.
Proof.
  split; [right; left; reflexivity|]. split; [apply honest_fits|]. split; [vm_compute; reflexivity|].
  split; [exact honest_hashed|]. split; [exact honest_ok|]. split; [exact honest_meant|]. split; [exact honest_partners|].
  vm_compute. repeat split; reflexivity.
Qed.

(** C107: an ID Token that is signed and then encrypted for the client is not accepted, although the
    client can decrypt it and would accept the signed token ... *)
Theorem C107_encrypted_refuted : exists J P E K d d1 tok outer msg,
  honest_claims d /\ meant_for K d /\ hashed_with d msg /\
  to_jwt J P C_oidc_IdToken d [7] (u "RS256") (VInt 600) = (d1, Ok tok) /\
  partners J P E K (u "RS256") [7] 600 d tok /\ (forall i args, decrypts E i args outer tok) /\
  (forall t, msg_fits K C_oidc_AuthorizationResponse (dset msg (u "id_token") (VStr t))) /\
  snd (verify E K None C_oidc_AuthorizationResponse (dset msg (u "id_token") (VStr tok))) = Ok true /\
  snd (verify E K None C_oidc_AuthorizationResponse (dset msg (u "id_token") (VStr outer))) = Err EValueError.
Proof.
  exists toy, (toy_env 1000), (toy_env 1500), honest_args, honest,
    (fst (to_jwt toy (toy_env 1000) C_oidc_IdToken honest [7] (u "RS256") (VInt 600))), honest_token, honest_sealed, honest_response.
  split; [exact honest_ok|]. split; [exact honest_meant|]. split; [exact honest_hashed|]. split; [vm_compute; reflexivity|].
  split; [exact honest_partners|]. split; [intros; apply toy_decrypts|]. split; [exact honest_fits|].
  vm_compute. split; reflexivity.
Qed.
Print Assumptions C107_encrypted_refuted.

(** ... nor is any other text that is not a signed JWT itself. *)
Theorem C107_encrypted_partial : forall E K hdr c msg t, has_id_token_check c -> msg_fits K c msg ->
  dget msg (u "id_token") = Some (VStr t) -> e_jws E (VStr t) = Ok None ->
  snd (verify E K hdr c msg) = Err EValueError.
Proof. exact encrypted_refused. Qed.
Print Assumptions C107_encrypted_partial.

Example C107_case :
  let msg := dset honest_response (u "id_token") (VStr honest_sealed) in
  msg_fits honest_args C_oidc_AuthorizationResponse msg /\ e_jws (toy_env 1500) (VStr honest_sealed) = Ok None.
Proof. split; [apply honest_fits|vm_compute; reflexivity]. Qed.
