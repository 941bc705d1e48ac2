(** What other implementations send. *)
From Coq Require Import List NArith ZArith QArith Bool String.
From Verif Require Import Base.Ustr Model.Cls Model.Value Model.Pspec Model.Tables Model.Json Model.Message Model.Env Model.Verify Model.Jose
  Spec.JsonSpec Spec.MessageSpec Spec.CodecSpec Spec.VerifySpec Spec.RoundTripSpec Spec.JoseSpec Spec.WireSpec Spec.LogoutSpec
  Proofs.WireLemmas Proofs.LogoutLemmas Proofs.Samples Proofs.JoseSamples Proofs.WireSamples.
Import ListNotations.
Open Scope list_scope.
Open Scope N_scope.

(** C124: a JSON document whose members have the types that the class declares is read, and the message
    is written as that document again ... *)
Theorem C124_kept_partial : forall c l t, let C := cdef c in document wire (cd_param C) l -> covers_defaults C (as_message l) ->
  json_loads t = Ok (VDict (as_json l)) ->
  exists d r t', from_json C (cd_default C) t = (d, Ok tt) /\ (forall k, dget d k = dget (as_message l) k) /\
    to_json C d = Ok t' /\ json_loads t' = Ok (VDict r) /\ (forall k, dget r k = dget (as_json l) k) /\
    (cd_default C = [] -> r = as_json l).
Proof. exact c124_kept. Qed.
Print Assumptions C124_kept_partial.

Example C124_case :
  document wire (cd_param (cdef C_oidc_AuthorizationRequest)) wr_request /\ document wire (cd_param (cdef C_oidc_JRD)) wr_jrd /\
  let C := cdef C_oidc_AuthorizationRequest in
  from_dict C [] (VDict (as_json wr_request)) = (as_message wr_request, Ok tt) /\
  to_dict C (as_message wr_request) = Ok (as_json wr_request) /\
  dget (as_json wr_request) (u "claims") = Some (VDict [(u "id_token", VDict [(u "acr", VNone); (u "auth_time", VDict [(u "essential", VBool true)])])]).
Proof.
  split; [exact wr_request_wire|]. split; [exact wr_jrd_wire|]. vm_compute. repeat split; reflexivity.
Qed.

(** ... other usual forms are read, too: an object for a parameter that this library writes as a text, a
    single text for a list ... *)
Theorem C124_read : forall C l t, document tolerated (cd_param C) l -> covers_defaults C (as_message l) ->
  json_loads t = Ok (VDict (as_json l)) ->
  exists d, from_json C (cd_default C) t = (d, Ok tt) /\ forall k, dget d k = dget (as_message l) k.
Proof. exact c124_read. Qed.
Print Assumptions C124_read.

Example C124_read_case : document tolerated (cd_param (cdef C_session_LogoutToken)) lo_members /\
  from_dict (cdef C_session_LogoutToken) [] (VDict (as_json lo_members)) = (lo_dict, Ok tt) /\
  dget (as_json lo_members) (u "aud") = Some (VStr (u "rp")) /\ dget lo_dict (u "aud") = Some (VList [VStr (u "rp")]).
Proof. split; [exact lo_tolerated|]. vm_compute. repeat split; reflexivity. Qed.

(** ... but the object that a logout token has to have as its events is written as a text ... *)
Theorem C124_events_refuted : exists l r, document tolerated (cd_param (cdef C_session_LogoutToken)) l /\
  from_dict (cdef C_session_LogoutToken) [] (VDict (as_json l)) = (as_message l, Ok tt) /\
  to_dict (cdef C_session_LogoutToken) (as_message l) = Ok r /\
  dget (as_json l) (u "events") = Some (VDict [(u "http://schemas.openid.net/event/backchannel-logout", VDict [])]) /\
  dget r (u "events") = Some (VStr (u "{""http://schemas.openid.net/event/backchannel-logout"": {}}")).
Proof.
  exists lo_members, (dset (dset (as_json lo_members) (u "aud") (VList [VStr (u "rp")])) (u "events")
    (VStr (u "{""http://schemas.openid.net/event/backchannel-logout"": {}}"))).
  split; [exact lo_tolerated|]. vm_compute. repeat split; reflexivity.
Qed.
Print Assumptions C124_events_refuted.

(** ... and so is every other value of such a parameter, of any class. *)
Theorem C124_text_partial : forall C d r k s v, to_dict C d = Ok r -> param_spec (cd_param C) k = Some s -> p_ser s = Some SerJson ->
  dget r k = Some v -> exists t, v = VStr t.
Proof. exact c124_text. Qed.
Print Assumptions C124_text_partial.

(** C125: a logout token made by an honest provider with this library is accepted ... *)
Theorem C125_library : forall J P E K hdr d d1 alg keys life tok msg,
  content canon (cd_param (cdef C_session_LogoutToken)) d -> logout_claims_ok d -> logout_for (e_now E) K d ->
  to_jwt J P C_session_LogoutToken d keys alg life = (d1, Ok tok) -> tok <> [] ->
  reads_signed J E alg keys -> can_check E K 0 alg tok ->
  dget msg (u "logout_token") = Some (VStr tok) ->
  exists msg' lt, verify E K hdr C_session_BackChannelLogoutRequest msg = (msg', Ok true) /\
    dget msg' (u "__verified_logout_token") = Some (VMsg C_session_LogoutToken lt) /\ forall k, dget lt k = dget d k.
Proof. exact c125_library. Qed.
Print Assumptions C125_library.

(** ... also when the request goes over the query string ... *)
Theorem C125_query : forall J P E K hdr d d1 alg keys life tok lax,
  let BR := cdef C_session_BackChannelLogoutRequest in
  content canon (cd_param (cdef C_session_LogoutToken)) d -> logout_claims_ok d -> logout_for (e_now E) K d ->
  to_jwt J P C_session_LogoutToken d keys alg life = (d1, Ok tok) -> scalars tok = true -> tok <> [] ->
  reads_signed J E alg keys -> can_check E K 0 alg tok ->
  exists q msg msg' lt, to_urlencoded BR lax [(u "logout_token", VStr tok)] = Ok q /\
    from_urlencoded BR (cd_default BR) q = (msg, Ok tt) /\
    verify E K hdr C_session_BackChannelLogoutRequest msg = (msg', Ok true) /\
    dget msg' (u "__verified_logout_token") = Some (VMsg C_session_LogoutToken lt) /\ forall k, dget lt k = dget d k.
Proof. exact c125_query. Qed.
Print Assumptions C125_query.

(** ... and so is one made by another implementation. *)
Theorem C125_foreign : forall E K hdr l alg h tok msg,
  document tolerated (cd_param (cdef C_session_LogoutToken)) l -> logout_claims_ok (as_message l) -> logout_for (e_now E) K (as_message l) ->
  e_jws E (VStr tok) = Ok (Some {| t_hdr := h; t_body := Ok (VDict (as_json l)) |}) -> not_encrypted E tok -> tok <> [] ->
  dget h (u "alg") = Some (VStr alg) -> can_check E K 0 alg tok ->
  dget msg (u "logout_token") = Some (VStr tok) ->
  exists msg', verify E K hdr C_session_BackChannelLogoutRequest msg = (msg', Ok true) /\
    dget msg' (u "__verified_logout_token") = Some (VMsg C_session_LogoutToken (as_message l)).
Proof. exact c125_foreign. Qed.
Print Assumptions C125_foreign.

Example C125_case :
  content canon (cd_param (cdef C_session_LogoutToken)) lo_dict /\ logout_claims_ok lo_dict /\ logout_for 895 lo_args lo_dict /\
  to_jwt toy (toy_env 0) C_session_LogoutToken lo_dict [7] (u "RS256") (VInt 0) = (lo_dict, Ok lo_token) /\
  reads_signed toy (toy_env 895) (u "RS256") [7] /\ can_check (toy_env 895) lo_args 0 (u "RS256") lo_token /\
  e_jws (toy_env 895) (VStr lo_foreign) = Ok (Some {| t_hdr := [(u "alg", VStr (u "RS256"))]; t_body := Ok (VDict (as_json lo_members)) |}) /\
  can_check (toy_env 895) lo_args 0 (u "RS256") lo_foreign /\
  let run now K t := snd (verify (toy_env now) K None C_session_BackChannelLogoutRequest [(u "logout_token", VStr t)]) in
  run 895%Z lo_args lo_token = Ok true /\ run 895%Z lo_args lo_foreign = Ok true /\
  (* issued in the future; for somebody else; signed with another algorithm; forged *)
  run 889%Z lo_args lo_token = Err EValueError /\
  run 895%Z (with_jar [(u "aud", VStr (u "rp2"))]) lo_token = Err ENotForMe /\
  run 1000%Z (with_jar [(u "allowed_sign_alg", VStr (u "ES256"))]) lo_foreign = Err EUnsupportedAlgorithm /\
  run 895%Z lo_args (83 :: 8 :: skipn 2 lo_foreign) = Err ECrypto.
Proof.
  split; [exact lo_canon|]. split; [exact lo_ok|]. split; [exact lo_for|]. split; [exact lo_made|]. split; [apply toy_reads|].
  split; [apply lo_checks|]. split; [apply lo_foreign_jws|]. split; [apply lo_checks|]. vm_compute. repeat split; reflexivity.
Qed.

(** C126: an ID Token made by another implementation is accepted by the client it is for, in every message
    that carries one. *)
Theorem C126_foreign : forall E K hdr c l alg hs h tok msg,
  has_id_token_check c -> msg_fits K c msg -> dget msg (u "id_token") = Some (VStr tok) ->
  document tolerated (cd_param (cdef C_oidc_IdToken)) l -> id_claims_ok (as_message l) -> meant_for K (as_message l) ->
  timely (e_now E) K (as_message l) ->
  (subclass c C_oidc_AuthorizationResponse = true -> bound_by E hs msg (as_message l)) -> hash_of_alg alg hs ->
  e_jws E (VStr tok) = Ok (Some {| t_hdr := h; t_body := Ok (VDict (as_json l)) |}) -> not_encrypted E tok ->
  dget h (u "alg") = Some (VStr alg) -> alg <> u "none" -> can_check E K 0 alg tok ->
  (forall v, dget (as_message l) (u "iss") = Some v -> e_kj_in E v = Ok true) ->
  exists msg', verify E K hdr c msg = (msg', Ok true) /\
    dget msg' (u "__verified_id_token") = Some (VMsg C_oidc_IdToken (as_message l)).
Proof. exact c126_foreign. Qed.
Print Assumptions C126_foreign.

Example C126_case :
  has_id_token_check C_oidc_AuthorizationResponse /\ msg_fits honest_args C_oidc_AuthorizationResponse id_response /\
  document tolerated (cd_param (cdef C_oidc_IdToken)) id_members /\ id_claims_ok id_dict /\ meant_for honest_args id_dict /\
  timely 1500 honest_args id_dict /\ bound_by (toy_env 1500) (u "HS256") id_response id_dict /\
  e_jws (toy_env 1500) (VStr id_foreign) = Ok (Some {| t_hdr := [(u "alg", VStr (u "RS256"))]; t_body := Ok (VDict (as_json id_members)) |}) /\
  can_check (toy_env 1500) honest_args 0 (u "RS256") id_foreign /\
  let run now m := snd (verify (toy_env now) honest_args None C_oidc_AuthorizationResponse m) in
  run 1500%Z id_response = Ok true /\ run 1601%Z id_response = Err EEXPError /\
  run 1500%Z (dset id_response (u "access_token") (VStr (u "zz1"))) = Err EAtHashError /\
  run 1500%Z (dset id_response (u "code") (VStr (u "c"))) = Err EMissingRequiredAttribute.
Proof.
  split; [right; left; reflexivity|]. split; [exact id_fits|]. split; [exact id_tolerated|]. split; [exact id_ok|]. split; [exact id_meant|].
  split; [exact id_timely|]. split; [exact id_bound|]. split; [apply id_foreign_jws|]. split; [apply id_checks|].
  vm_compute. repeat split; reflexivity.
Qed.

(** C127: an ID Token that is current serves as the hint of a logout request, also one made by another
    implementation ... *)
Theorem C127_current_partial : forall E K hdr l alg h tok msg,
  table_ok (cdef C_session_EndSessionRequest) msg -> dget msg (u "id_token_hint") = Some (VStr tok) ->
  document tolerated (cd_param (cdef C_oidc_IdToken)) l -> id_claims_ok (as_message l) -> meant_for K (as_message l) ->
  timely (e_now E) K (as_message l) ->
  e_jws E (VStr tok) = Ok (Some {| t_hdr := h; t_body := Ok (VDict (as_json l)) |}) -> not_encrypted E tok ->
  dget h (u "alg") = Some (VStr alg) -> alg <> u "none" -> can_check E K 0 alg tok -> can_check E K 1 alg tok ->
  (forall v, dget (as_message l) (u "iss") = Some v -> e_kj_in E v = Ok true) ->
  exists msg', verify E K hdr C_session_EndSessionRequest msg = (msg', Ok true) /\
    dget msg' (u "__verified_id_token_hint") = Some (VMsg C_oidc_IdToken (as_message l)).
Proof. exact c127_current. Qed.
Print Assumptions C127_current_partial.

(** ... but not one that has expired, whatever else the request says ... *)
Theorem C127_expired_partial : forall E K hdr d d' t, verify E K hdr C_session_EndSessionRequest d = (d', Ok true) ->
  dget d (u "id_token_hint") = Some (VStr t) -> not_encrypted E t ->
  exists idt e, decoded E 0 C_oidc_IdToken t idt /\ dget idt (u "exp") = Some e /\ exp_ok (e_now E) K e.
Proof. exact c127_expired. Qed.
Print Assumptions C127_expired_partial.

(** ... although OpenID Connect RP-Initiated Logout 1.0, section 2, asks for that: the very request that
    was accepted is refused later on, for this reason alone. *)
Theorem C127_hint_refuted : exists msg t, dget msg (u "id_token_hint") = Some (VStr t) /\
  (forall now args, passed_on honest_args args -> trusts (toy_env now) 0 args t) /\
  snd (verify (toy_env 1500) honest_args None C_session_EndSessionRequest msg) = Ok true /\
  snd (verify (toy_env 1601) honest_args None C_session_EndSessionRequest msg) = Err EEXPError /\
  forall (now : Z) msg', (1600 < now)%Z -> verify (toy_env now) honest_args None C_session_EndSessionRequest msg <> (msg', Ok true).
Proof.
  exists id_logout, id_foreign. split; [reflexivity|]. split; [intros now args A; apply (cc_trust _ _ _ _ _ (id_checks now 0 _)), A|].
  split; [vm_compute; reflexivity|]. split; [vm_compute; reflexivity|]. exact id_logout_late.
Qed.
Print Assumptions C127_hint_refuted.

Example C127_case :
  table_ok (cdef C_session_EndSessionRequest) id_logout /\ dget id_logout (u "id_token_hint") = Some (VStr id_foreign) /\
  document tolerated (cd_param (cdef C_oidc_IdToken)) id_members /\ id_claims_ok id_dict /\ meant_for honest_args id_dict /\
  timely 1500 honest_args id_dict /\ can_check (toy_env 1500) honest_args 1 (u "RS256") id_foreign.
Proof.
  split; [exact id_logout_ok|]. split; [reflexivity|]. split; [exact id_tolerated|]. split; [exact id_ok|]. split; [exact id_meant|].
  split; [exact id_timely|]. apply id_checks.
Qed.
