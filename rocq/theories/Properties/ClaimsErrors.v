(** C166: which exceptions verify() of requests for verified claims raises. *)
From Coq Require Import List NArith ZArith QArith Bool String.
From Verif Require Import Base.Ustr Model.Cls Model.Value Model.Pspec Model.Tables Model.Json Model.Message Model.IdentityAssurance Model.Env Model.Verify
  Spec.JsonSpec Spec.ErrorSpec Spec.RaiseSpec Spec.IdaSpec Spec.ClaimsErrorSpec
  Proofs.Samples Proofs.RoundTripSamples Proofs.ClaimsErrorLemmas Proofs.ClaimsErrorSamples.
Import ListNotations.
Open Scope list_scope.
Open Scope N_scope.

(** C166: verify_claims_request refuses a request whose parts have the right shapes with ValueError only, ... *)
Theorem C166_requests : forall v c e, v <> VNone -> shaped (TMsg c) v -> verify_claims_request v c = Err e -> e = EValueError.
Proof. exact c166_requests. Qed.
Print Assumptions C166_requests.

(** ... verify() of the messages for it raises exceptions of the library and ValueErrors and leaves them as they are, ... *)
Theorem C166_verify : forall E K hdr d d' e c base,
  In (c, base) [(C_ida_VerificationElementRequest, C_ida_VerificationElement); (C_ida_VerifiedClaimsRequest, C_ida_VerifiedClaims)] ->
  shaped (TMsg base) (VDict d) -> verify E K hdr c d = (d', Err e) -> d' = d /\ (anticipated e \/ e = OutOfModel).
Proof. exact c166_verify. Qed.
Print Assumptions C166_verify.

(** ... and so does verify() of the claims parameter with a request for verified claims that came as JSON. *)
Theorem C166_claims : forall E K hdr d d' e,
  (forall vc, dget d (u "verified_claims") = Some vc -> truthy vc = true ->
     json_value vc /\ shaped (TMsg C_ida_VerifiedClaims) vc /\ forall kws, vc = VDict kws -> dget kws (u "self") = None) ->
  verify E K hdr C_ida_IDAClaimsRequest d = (d', Err e) -> d' = d /\ (anticipated e \/ e = OutOfModel).
Proof. exact c166_claims. Qed.
Print Assumptions C166_claims.

(** Every condition counts: values that are a number, a purpose that is one, evidence that is a text or no list, a member called
    self, and a list of requests are TypeErrors. *)
Theorem C166_conditions : map ce_outcome
    [ce_odd "values" (VInt 5); ce_odd "purpose" (VInt 5); [(u "verification", VDict [(u "evidence", VList [VStr (u "passport")])])];
     [(u "verification", VDict [(u "evidence", VInt 1)])]; [(u "self", VNone)]] =
  [Err ETypeError; Err ETypeError; Err ETypeError; Err ETypeError; Err ETypeError] /\
  snd (verify sample (with_jar []) None C_ida_IDAClaimsRequest [(u "verified_claims", VList [VDict []])]) = Err ETypeError.
Proof. exact ce_conditions. Qed.
Print Assumptions C166_conditions.

(** requests of the right shape, accepted and refused because of a type of evidence that is a number *)
Example C166_case : (forall x, shaped (TMsg C_ida_VerifiedClaims) (VDict (ce_request x))) /\
  verify_claims_request (VDict (ce_request (VStr (u "id_document")))) C_ida_VerifiedClaims = Ok tt /\
  verify_claims_request (VDict (ce_request (VInt 3))) C_ida_VerifiedClaims = Err EValueError /\
  ce_outcome (ce_request (VStr (u "id_document"))) = Ok false /\ ce_outcome (ce_request (VInt 3)) = Err EValueError.
Proof. split; [exact ce_shaped|]. vm_compute. repeat split; reflexivity. Qed.
