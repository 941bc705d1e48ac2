(** C79, C80, C93-C98, C100: identity assurance. *)
From Coq Require Import List NArith ZArith QArith Bool String.
From Verif Require Import Base.Ustr Model.Cls Model.Value Model.Pspec Model.Tables Model.Message Model.Calendar Model.IdentityAssurance
  Model.TimeUtil Spec.MessageSpec Spec.VerifySpec Spec.TimeSpec Spec.IdaSpec Spec.ZoneSpec Proofs.IdaLemmas Proofs.StampLemmas Proofs.ZoneLemmas Proofs.IdaSamples.
Import ListNotations.
Open Scope list_scope.
Open Scope N_scope.

(** C79: exactly the requests described by request_ok pass; all others raise ValueError or TypeError.
    Missing: that a request for a simple claim is None or a dictionary (refuted below). *)
Theorem C79_claims_request_partial : forall v c, (verify_claims_request v c = Ok tt <-> request_ok c v) /\
  forall e, verify_claims_request v c = Err e -> e = EValueError \/ e = ETypeError.
Proof. exact request_good. Qed.
Print Assumptions C79_claims_request_partial.

Example C79_case : verify_claims_request (VDict ida_request_sample) C_ida_VerifiedClaims = Ok tt /\
  verify_claims_request (VDict [(u "verification", VDict [(u "evidence", VList [VDict [(u "type", VDict [(u "value", VInt 3)])]])])])
    C_ida_VerifiedClaims = Err EValueError.
Proof. split; vm_compute; reflexivity. Qed.

(** plain values pass: here a number for a text claim *)
Theorem C79_plain_values_refuted : forall v c k s, In (k, s) (cd_param (cdef c)) -> simple (p_typ s) ->
  (forall d, v <> VDict d) -> member_ok (p_typ s) v /\ claims_value_check v (p_typ s) = Ok tt.
Proof. exact plain_passes. Qed.
Print Assumptions C79_plain_values_refuted.

Example C79_plain_case : verify_claims_request (VDict [(u "claims", VDict [(u "given_name", VInt 42)])]) C_ida_VerifiedClaims = Ok tt.
Proof. vm_compute. reflexivity. Qed.

(** C80: Evidence.verify never returns, whatever the class among Evidence and its subclasses, the
    content and the recursion limit; proper evidence recurses without end. *)
Theorem C80_evidence_refuted :
  (forall fuel c d, exists e, snd (evidence_verify fuel c d) = Err e) /\
  exists d, construct (cdef C_ida_IdDocument) d = Ok id_doc /\ verify_base (cdef C_ida_IdDocument) id_doc = Ok true /\
    dget d (u "type") = Some (VStr (u "id_document")) /\
    forall fuel, evidence_verify fuel C_ida_Evidence d = (d, Err OutOfFuel).
Proof.
  split; [exact evidence_never|]. exists id_evidence. split; [vm_compute; reflexivity|]. split; [vm_compute; reflexivity|].
  split; [vm_compute; reflexivity|exact id_evidence_loops].
Qed.
Print Assumptions C80_evidence_refuted.

(** evidence of an unknown type, and evidence without a type, is rejected with a ValueError and stays
    as it is *)
Theorem C80_unknown_partial : forall fuel c d,
  (dget d (u "type") = None \/
   exists t, dget d (u "type") = Some (VStr t) /\ t <> [] /\ ~ In t [u "id_document"; u "utility_bill"; u "qes"]) ->
  evidence_verify (S fuel) c d = (d, Err EValueError).
Proof.
  intros fuel c d [H|(t & H & H1 & H2)]; [exact (evidence_untyped fuel c d H)|exact (evidence_unknown fuel c d t H H2 H1)].
Qed.
Print Assumptions C80_unknown_partial.

Example C80_case : snd (evidence_verify 1 C_ida_Evidence [(u "type", VStr (u "passport"))]) = Err EValueError /\
  snd (evidence_verify 1 C_ida_Evidence [(u "method", VStr (u "pipp"))]) = Err EValueError.
Proof. split; vm_compute; reflexivity. Qed.

(** C93: time stamps of years 1000 to 9999 other than 0 are read back as they were; the clock has no
    part in it. *)
Theorem C93_time_stamps_partial : forall now z t, gmtime z = Ok t -> (1000 <= tm_year t <= 9999)%Z -> z <> 0%Z ->
  exists s, to_iso_at now false z = Ok s /\ from_iso_time s = Ok z.
Proof. exact stamp_back. Qed.
Print Assumptions C93_time_stamps_partial.

Example C93_case : to_iso_at 5 false 1575187200 = Ok (u "2019-12-01T08:00:00+0000") /\
  from_iso_time (u "2019-12-01T08:00:00+0000") = Ok 1575187200%Z /\ from_iso_time (u "2019-12-01T08:00:00+01:30") = Ok 1575181800%Z.
Proof. vm_compute. repeat split; reflexivity. Qed.

(** 0 is written as the current time, and years below 1000 so that they cannot be read *)
Theorem C93_time_stamps_refuted :
  (forall now t, gmtime now = Ok t -> (1000 <= tm_year t <= 9999)%Z -> now <> 0%Z ->
   exists s, to_iso_at now false 0 = Ok s /\ from_iso_time s = Ok now) /\
  exists z s, to_iso_at 0 false z = Ok s /\ from_iso_time s = Err EValueError.
Proof.
  split; [exact stamp_zero|]. exists (-30620000000)%Z, (u "999-09-09T20:26:40+0000"). split; vm_compute; reflexivity.
Qed.
Print Assumptions C93_time_stamps_refuted.

(** C94: dates of years 1000 to 9999 are read back as the start of the day. *)
Theorem C94_dates : forall now z t, gmtime z = Ok t -> (1000 <= tm_year t <= 9999)%Z -> z <> 0%Z ->
  exists s, to_iso_at now true z = Ok s /\ from_iso_date s = Ok (z - z mod 86400)%Z.
Proof. exact date_back. Qed.
Print Assumptions C94_dates.

Example C94_case : to_iso_at 5 true 1575187200 = Ok (u "2019-12-01") /\ from_iso_date (u "2019-12-01") = Ok (1575187200 - 28800)%Z.
Proof. vm_compute. split; reflexivity. Qed.

(** C95: no message holding a time stamp in the form the tables ask for can be written. *)
Theorem C95_rewrite_refuted : forall c d k p s z, dget (cd_param (cdef c)) k = Some p -> p_ser p = Some SerTime ->
  In (k, VStr s) d -> from_iso_time s = Ok z -> exists e, to_dict (cdef c) d = Err e.
Proof. exact stamp_unwritable. Qed.
Print Assumptions C95_rewrite_refuted.

Example C95_case : let d := [(u "trust_framework", VStr (u "de_aml")); (u "time", VStr (u "2012-04-23T18:25:00+0000"))] in
  construct (cdef C_ida_VerificationElement) d = Ok d /\ verify_base (cdef C_ida_VerificationElement) d = Ok true /\
  to_dict (cdef C_ida_VerificationElement) d = Err EValueError.
Proof. vm_compute. repeat split; reflexivity. Qed.

(** A time stamp that comes in a query string, though, is kept as a number and can be written. *)
Theorem C95_query_partial : forall c k p q s z t, dget (cd_param (cdef c)) k = Some p -> p_ser p = Some SerTime ->
  ~ In 38%N q -> field_gives q k s -> from_iso_time s = Ok z ->
  gmtime z = Ok t -> (1000 <= tm_year t <= 9999)%Z -> z <> 0%Z ->
  from_urlencoded (cdef c) [] q = ([(k, VFlt (inject_Z z))], Ok tt) /\
  exists s', to_dict (cdef c) [(k, VFlt (inject_Z z))] = Ok [(k, VStr s')] /\ from_iso_time s' = Ok z.
Proof. exact stamp_query. Qed.
Print Assumptions C95_query_partial.

Example C95_query_case :
  field_gives (u "time=2012-04-23T18%3A25%3A00%2B0100") (u "time") (u "2012-04-23T18:25:00+0100") /\
  from_iso_time (u "2012-04-23T18:25:00+0100") = Ok 1335201900%Z /\
  to_dict (cdef C_ida_VerificationElement) [(u "time", VFlt (inject_Z 1335201900))] = Ok [(u "time", VStr (u "2012-04-23T17:25:00+0000"))].
Proof.
  split; [|vm_compute; split; reflexivity]. exists (u "time"), (u "2012-04-23T18%3A25%3A00%2B0100"). split; [reflexivity|].
  split; [intro H; cbn in H; repeat (destruct H as [H|H]; [discriminate|]); destruct H|].
  split; [discriminate|]. vm_compute. split; reflexivity.
Qed.

(** C96: after any history of settings a constructor holds of every claim the last one that was
    admissible, and nothing if there was none; to_dict shows just that. *)
Theorem C96_claims_constructor : forall c h k,
  (forall x, latest_of k h (admissible c k) x -> exists v, dget (cc_to_dict (cc_run c [] h)) k = Some v /\ shows x v) /\
  ((forall x, In (k, x) h -> ~ admissible c k x) -> dget (cc_to_dict (cc_run c [] h)) k = None).
Proof. exact constructor_history. Qed.
Print Assumptions C96_claims_constructor.

Example C96_case : let h := [(u "given_name", CV (VStr (u "Max"))); (u "given_name", CV VNone); (u "given_name", CV (VInt 7));
    (u "address", CC C_oidc_AddressClaim [(u "country", CV VNone)]); (u "address", CV (VInt 3)); (u "other", CV (VInt 1))] in
  cc_to_dict (cc_run C_ida_IdentityAssuranceClaims [] h) =
  [(u "given_name", VNone); (u "address", VDict [(u "country", VNone)]); (u "other", VInt 1)].
Proof. vm_compute. reflexivity. Qed.

(** C97: the dictionaries that the documentation names are refused for every claim that is a text, a
    number, a truth value or a list. *)
Theorem C97_dictionaries_refuted : forall c info k s e, dget (cd_param (cdef c)) k = Some s ->
  (simple (p_typ s) \/ exists t, p_typ s = TList t) ->
  cc_set (cdef c) info k (CV (VDict e)) = Err EValueError \/ cc_set (cdef c) info k (CV (VDict e)) = Err ETypeError.
Proof. exact dictionaries_refused. Qed.
Print Assumptions C97_dictionaries_refuted.

Example C97_case : cc_set (cdef C_ida_IdentityAssuranceClaims) [] (u "given_name") (CV (VDict [(u "essential", VBool true)])) = Err EValueError.
Proof. vm_compute. reflexivity. Qed.

(** C98: IDAClaimsRequest.verify replaces a verified_claims dictionary by the request made from it,
    which has been checked, and changes nothing else.  Missing: the lists of them and the ones inside
    of userinfo and id_token (refuted below). *)
Theorem C98_verified_claims_partial : forall d d' b, ida_claims_verify (cdef C_ida_IDAClaimsRequest) d = (d', Ok b) ->
  (forall k, k <> u "verified_claims" -> dget d' k = dget d k) /\
  forall vc, dget d (u "verified_claims") = Some vc -> truthy vc = true ->
  exists kws m, mapping vc kws /\ construct (cdef C_ida_VerifiedClaimsRequest) kws = Ok m /\
    dget d' (u "verified_claims") = Some (VMsg C_ida_VerifiedClaimsRequest m) /\ request_ok C_ida_VerifiedClaims (VDict m).
Proof. exact ida_request. Qed.
Print Assumptions C98_verified_claims_partial.

Example C98_case : exists d, ida_claims_verify (cdef C_ida_IDAClaimsRequest) [(u "verified_claims", VDict ida_request_sample)] = (d, Ok false).
Proof. eexists. vm_compute. reflexivity. Qed.

Theorem C98_verified_claims_refuted :
  (forall d l, dget d (u "verified_claims") = Some (VList l) -> l <> [] -> verify_base (cdef C_ida_IDAClaimsRequest) d = Ok true ->
   ida_claims_verify (cdef C_ida_IDAClaimsRequest) d = (d, Err ETypeError)) /\
  exists vc d, ~ request_ok C_ida_VerifiedClaims vc /\
    ida_claims_verify (cdef C_ida_IDAClaimsRequest) [(u "userinfo", VDict [(u "verified_claims", vc)])] = (d, Ok false).
Proof. split; [exact ida_list|exact nested_unchecked]. Qed.
Print Assumptions C98_verified_claims_refuted.

(** C100: a time stamp with a zone denotes the instant whose local time in that zone it shows. *)
Theorem C100_zones : forall z off t zt, gmtime (z + off)%Z = Ok t -> (1 <= tm_year t <= 9999)%Z -> zone_offset zt off ->
  from_iso_time (iso_base t ++ zt) = Ok z.
Proof. exact zone_instant. Qed.
Print Assumptions C100_zones.

Example C100_case : zone_offset (u "+01:30") 5400%Z /\
  (from_iso_time (u "2019-12-01T08:00:00+01:30") = Ok 1575181800%Z) /\
  (from_iso_time (u "2019-12-01T06:30:00Z") = Ok 1575181800%Z) /\
  (from_iso_time (u "2019-11-30T23:30:00-07:00") = Ok 1575181800%Z).
Proof.
  split; [apply (zone_hm 43 (u ":") 1 30); try (split; reflexivity || discriminate); auto|].
  vm_compute. repeat split; reflexivity.
Qed.
