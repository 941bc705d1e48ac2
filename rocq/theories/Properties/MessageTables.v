(** C04, C05, C06, C08, C09, C10, C18, C22, C23: messages and their parameter tables. *)
From Coq Require Import List NArith ZArith Bool String.
From Verif Require Import Base.Ustr Base.Percent Model.Cls Model.Value Model.Pspec Model.Tables Model.Json Model.Message
  Spec.JsonSpec Spec.MessageSpec Proofs.ValueLemmas Proofs.MessageLemmas Proofs.EncodeLemmas Proofs.TypeLemmas Proofs.Deciders.
Import ListNotations.
Open Scope list_scope.
Open Scope N_scope.

(** C04: verify() returns True exactly for messages that satisfy their table; otherwise it
    raises MissingRequiredAttribute or NotAllowedValue, for a reason. *)
Theorem C04_verify_exact : forall C d,
  (verify_base C d = Ok true <-> (forall a, ~ missing C d a) /\ (forall a, ~ not_allowed C d a)) /\
  (verify_base C d <> Ok false) /\
  (forall e, verify_base C d = Err e ->
     (e = EMissingRequiredAttribute /\ exists a, missing C d a) \/
     (e = ENotAllowedValue /\ exists a, not_allowed C d a)).
Proof. exact c04. Qed.
Print Assumptions C04_verify_exact.

Example C04_case :
  let C := cdef C_oauth2_AuthorizationErrorResponse in
  verify_base C [(u "error", VStr (u "access_denied")); (u "state", VStr (u "s")); (u "error_uri", VStr [])] = Ok true /\
  verify_base C [(u "error", VStr (u "nonsense"))] = Err ENotAllowedValue /\
  verify_base (cdef C_oauth2_AuthorizationRequest) [(u "client_id", VStr (u "c")); (u "response_type", VList [])]
    = Err EMissingRequiredAttribute.
Proof. repeat split; vm_compute; reflexivity. Qed.

(** C05 in full is false: a dictionary given for a string list is stored as it is, and the
    time stamps of identity assurance, declared as strings, hold integers. *)
Theorem C05_refuted : exists C kw d, construct C kw = Ok d /\
  well_typed (cd_param C) (cd_default C) /\ ~ well_typed (cd_param C) d.
Proof.
  exists (cdef C_oidc_IdToken), [(u "aud", VDict [(u "a", VInt 1)])], [(u "aud", VDict [(u "a", VInt 1)])].
  split; [vm_compute; reflexivity|]. split.
  - intros k s v _ _ H. discriminate.
  - intro H. specialize (H (u "aud") sp06 (VDict [(u "a", VInt 1)]) eq_refl).
    assert (Ht : has_type (TList TStr) (VDict [(u "a", VInt 1)])) by (apply H; [right; right; right|..]; (reflexivity || discriminate)).
    inversion Ht.
Qed.
Print Assumptions C05_refuted.

(** C05, partial: missing are dictionaries given for list-valued parameters and string
    parameters with a time deserializer.  Everything else of plain type holds its type
    after from_dict, from_json, construction and item assignment, whether or not the
    call succeeded. *)
Theorem C05_declared_types_partial : forall C,
  (forall d l, well_typed_plain (cd_param C) d -> no_dict_for_list (cd_param C) l ->
     well_typed_plain (cd_param C) (fst (from_dict C d (VDict l)))) /\
  (forall d s l, well_typed_plain (cd_param C) d -> json_loads s = Ok (VDict l) ->
     no_dict_for_list (cd_param C) l -> well_typed_plain (cd_param C) (fst (from_json C d s))) /\
  (forall kw d, well_typed_plain (cd_param C) (cd_default C) -> no_dict_for_list (cd_param C) kw ->
     construct C kw = Ok d -> well_typed_plain (cd_param C) d) /\
  (forall d k v, well_typed_plain (cd_param C) d -> In k (map fst (cd_param C)) ->
     no_dict_for_list (cd_param C) [(k, v)] -> well_typed_plain (cd_param C) (fst (setitem C d k v))).
Proof. exact c05_all. Qed.
Print Assumptions C05_declared_types_partial.

(** In the library the defaults are well typed, and the only parameters of plain type
    the previous theorem does not speak about are those time stamps. *)
Theorem C05_library_coverage_partial : forall c,
  well_typed_plain (cd_param (cdef c)) (cd_default (cdef c)) /\
  forall k s, In (k, s) (cd_param (cdef c)) -> plain_type (p_typ s) ->
    plain_spec s \/ (p_typ s = TStr /\ (p_deser s = Some DeTime \/ p_deser s = Some DeDate)).
Proof. exact c05_lib. Qed.
Print Assumptions C05_library_coverage_partial.

Example C05_case :
  let C := cdef C_oidc_IdToken in
  let kw := [(u "exp", VStr (u " 1_000 ")); (u "aud", VStr (u "a b")); (u "x", VDict [])] in
  no_dict_for_list (cd_param C) kw /\
  construct C kw = Ok [(u "exp", VInt 1000); (u "aud", VList [VStr (u "a"); VStr (u "b")]); (u "x", VDict [])] /\
  construct C [(u "iss", VInt 7)] = Err EValueError /\ construct C [(u "exp", VBool true)] = Err EValueError.
Proof.
  cbv zeta. split; [|repeat split; vm_compute; reflexivity].
  intros k e s t H Hs. repeat (destruct H as [H|H]; [try discriminate; injection H as <- <-; vm_compute in Hs; discriminate|]).
  destruct H.
Qed.

(** C06 in full is false: integers stay texts. *)
Theorem C06_refuted : exists C q d, from_urlencoded C [] q = (d, Ok tt) /\ ~ well_typed (cd_param C) d.
Proof.
  exists (cdef C_oidc_IdToken), (u "exp=5"), [(u "exp", VStr (u "5"))]. split; [vm_compute; reflexivity|].
  intro H. assert (Ht : has_type TInt (VStr (u "5"))).
  { apply (H (u "exp") sp08); [reflexivity| |reflexivity|discriminate]. right; left; reflexivity. }
  inversion Ht.
Qed.
Print Assumptions C06_refuted.

(** C06, partial (integers, booleans and nested messages are missing): string parameters hold
    strings and string-list parameters hold lists of strings after from_urlencoded. *)
Theorem C06_urlencoded_types_partial : forall C d q, text_typed (cd_param C) d ->
  text_typed (cd_param C) (fst (from_urlencoded C d q)).
Proof. exact c06. Qed.
Print Assumptions C06_urlencoded_types_partial.

Example C06_case :
  let C := cdef C_oauth2_AuthorizationRequest in
  text_typed (cd_param C) [] /\
  from_urlencoded C [] (u "scope=a+b%20c&client_id=x%26y") =
    ([(u "scope", VList [VStr (u "a"); VStr (u "b"); VStr (u "c")]); (u "client_id", VStr (u "x&y"))], Ok tt).
Proof. split; [intros k s v _ _ _ H; discriminate|vm_compute; reflexivity]. Qed.

(** C08 in full is false: the JSON text of an empty string is read after the blank test. *)
Theorem C08_refuted : exists C kw d, construct C kw = Ok d /\ no_blanks (cd_default C) /\ ~ no_blanks d.
Proof.
  exists (cdef C_oauth2_SecurityEventToken), [(u "events", VStr [34; 34])], [(u "events", VStr [])].
  split; [vm_compute; reflexivity|]. split; [intros k v H; discriminate|].
  intro H. apply (H (u "events") (VStr [])); [reflexivity|left; reflexivity].
Qed.
Print Assumptions C08_refuted.

(** C08, partial (missing: parameters read as JSON text). *)
Theorem C08_no_blanks_partial : forall C, no_json_specs (cd_param C) ->
  (forall d v, no_blanks d -> no_blanks (fst (from_dict C d v))) /\
  (forall d s, no_blanks d -> no_blanks (fst (from_json C d s))) /\
  (forall kw d, no_blanks (cd_default C) -> construct C kw = Ok d -> no_blanks d).
Proof. exact c08_all. Qed.
Print Assumptions C08_no_blanks_partial.

Theorem C08_library_defaults : forall c, no_blanks (cd_default (cdef c)).
Proof. exact lib_defaults_no_blanks. Qed.
Print Assumptions C08_library_defaults.

Example C08_case :
  let C := cdef C_oidc_RegistrationRequest in
  no_json_specs (cd_param C) /\
  construct C [(u "client_name", VStr []); (u "contacts", VList [VStr []]); (u "x", VStr []); (u "y", VList [])]
    = Ok [(u "application_type", VStr (u "web")); (u "response_types", VList [VStr (u "code")]); (u "y", VList [])].
Proof. split; [apply no_json_specsb_ok|]; vm_compute; reflexivity. Qed.

(** C09: from_dict treats each entry on its own. *)
Theorem C09_entries_independent : forall C d l d', NoDup (map fst l) -> from_dict C d (VDict l) = (d', Ok tt) ->
  forall k,
    (forall v, In (k, v) l -> dget d' k = dget (fst (from_dict C d (VDict [(k, v)]))) k) /\
    (~ In k (map fst l) -> dget d' k = dget d k).
Proof. exact c09. Qed.
Print Assumptions C09_entries_independent.

(** ... and raises exactly if one of the entries alone would raise ... *)
Theorem C09_outcome : forall C d l,
  snd (from_dict C d (VDict l)) = Ok tt <->
  (forall k v, In (k, v) l -> forall d0, snd (from_dict C d0 (VDict [(k, v)])) = Ok tt).
Proof. exact c09_outcome. Qed.
Print Assumptions C09_outcome.

(** ... and the prior content of other keys is irrelevant. *)
Theorem C09_prior_content : forall C d e k v, dget d k = dget e k ->
  dget (fst (from_dict C d (VDict [(k, v)]))) k = dget (fst (from_dict C e (VDict [(k, v)]))) k.
Proof. exact c09_prior. Qed.
Print Assumptions C09_prior_content.

Example C09_case :
  let C := cdef C_oidc_IdToken in
  let l := [(u "exp", VStr (u "5")); (u "aud", VStr (u "x")); (u "iss", VStr [])] in
  NoDup (map fst l) /\
  from_dict C [(u "sub", VStr (u "s")); (u "iss", VStr (u "i"))] (VDict l) =
  ([(u "sub", VStr (u "s")); (u "iss", VStr (u "i")); (u "exp", VInt 5); (u "aud", VList [VStr (u "x")])], Ok tt).
Proof. split; [apply nodupb_ok|]; vm_compute; reflexivity. Qed.

(** C10: undeclared parameters are stored unchanged and are what extra() reports. *)
Theorem C10_from_dict : forall C d l d', NoDup (map fst l) -> from_dict C d (VDict l) = (d', Ok tt) ->
  forall k v, undeclared (cd_param C) k -> In (k, v) l -> ~ blank v -> dget d' k = Some v.
Proof. exact c10_from_dict. Qed.
Print Assumptions C10_from_dict.

Theorem C10_construct : forall C kw d', NoDup (map fst kw) -> construct C kw = Ok d' ->
  forall k v, undeclared (cd_param C) k -> In (k, v) kw -> ~ blank v -> k <> u "set_defaults" ->
    dget d' k = Some v.
Proof. exact c10_construct. Qed.
Print Assumptions C10_construct.

Theorem C10_extra : forall C d k v, NoDup (map fst d) ->
  (dget (extra C d) k = Some v <-> dget d k = Some v /\ ~ In k (map fst (cd_param C))).
Proof. exact c10_extra. Qed.
Print Assumptions C10_extra.

Example C10_case :
  let C := cdef C_oauth2_AuthorizationRequest in
  let x := VList [VNone; VBool true] in
  let d := [(u "client_id", VStr (u "c")); (u "extra#1", x)] in
  undeclared (cd_param C) (u "extra#1") /\ NoDup (map fst d) /\ ~ blank x /\
  construct C d = Ok d /\ extra C d = [(u "extra#1", x)].
Proof.
  cbv zeta. split; [apply undeclared_dget; vm_compute; reflexivity|].
  split; [apply nodupb_ok; vm_compute; reflexivity|]. split; [intros [H|H]; discriminate|].
  split; vm_compute; reflexivity.
Qed.

(** C18 in full is false: entries before the faulty one stay. *)
Theorem C18_refuted : exists C d v e, snd (from_dict C d v) = Err e /\ artefact e = false /\
  fst (from_dict C d v) <> d.
Proof.
  exists (cdef C_oidc_IdToken), [], (VDict [(u "iss", VStr (u "evil")); (u "exp", VStr (u "soon"))]), EValueError.
  repeat split; try (vm_compute; reflexivity). vm_compute. discriminate.
Qed.
Print Assumptions C18_refuted.

(** C18, partial: what a failing (or successful) from_dict changes.  Each key keeps its old
    value or gets the value its own entry gives; nothing else happens. *)
Theorem C18_failed_from_dict_partial : forall C d l k, NoDup (map fst l) ->
  (~ In k (map fst l) -> dget (fst (from_dict C d (VDict l))) k = dget d k) /\
  (forall v, In (k, v) l -> dget (fst (from_dict C d (VDict l))) k = dget d k \/
     dget (fst (from_dict C d (VDict l))) k = dget (fst (from_dict C d (VDict [(k, v)]))) k).
Proof. exact c18_partial. Qed.
Print Assumptions C18_failed_from_dict_partial.

(** C22: a parameter with a language tag is treated like the parameter without. *)
Theorem C22_language_tags : forall C b t v, ~ In 35 b -> In b (map fst (cd_param C)) -> ~ In (tagged b t) (map fst (cd_param C)) ->
  forall d d0, dget d (tagged b t) = dget d0 b ->
  let r1 := from_dict C d (VDict [(tagged b t, v)]) in
  let r2 := from_dict C d0 (VDict [(b, v)]) in
  snd r1 = snd r2 /\ dget (fst r1) (tagged b t) = dget (fst r2) b /\
  (forall k, k <> tagged b t -> dget (fst r1) k = dget d k).
Proof. exact c22_dict. Qed.
Print Assumptions C22_language_tags.

Theorem C22_language_tags_urlencoded : forall C b t vals q1 q2, ~ In 35 b -> In b (map fst (cd_param C)) ->
  ~ In (tagged b t) (map fst (cd_param C)) ->
  parse_qs q1 = [(tagged b t, vals)] -> parse_qs q2 = [(b, vals)] ->
  forall d d0, dget d (tagged b t) = dget d0 b ->
  let r1 := from_urlencoded C d q1 in
  let r2 := from_urlencoded C d0 q2 in
  snd r1 = snd r2 /\ dget (fst r1) (tagged b t) = dget (fst r2) b /\
  (forall k, k <> tagged b t -> dget (fst r1) k = dget d k).
Proof. exact c22_qs. Qed.
Print Assumptions C22_language_tags_urlencoded.

Example C22_case :
  let C := cdef C_oidc_RegistrationRequest in
  In (u "contacts") (map fst (cd_param C)) /\
  from_urlencoded C [] (u "contacts%23fr=a+b") = ([(u "contacts#fr", VList [VStr (u "a"); VStr (u "b")])], Ok tt) /\
  snd (from_dict C [] (VDict [(u "client_name#ja", VInt 1)])) = Err EValueError.
Proof.
  cbv zeta. split; [|split; vm_compute; reflexivity].
  apply dhas_In. vm_compute. reflexivity.
Qed.

(** C23: defaults fill gaps only. *)
Theorem C23_set_defaults : forall C d, NoDup (map fst (cd_default C)) ->
  (forall k v, dget d k = Some v -> dget (set_defaults C d) k = Some v) /\
  (forall k, dget d k = None -> dget (set_defaults C d) k = dget (cd_default C) k).
Proof. exact c23. Qed.
Print Assumptions C23_set_defaults.

Theorem C23_set_defaults_idempotent : forall C d, NoDup (map fst (cd_default C)) ->
  set_defaults C (set_defaults C d) = set_defaults C d.
Proof. exact c23_idem. Qed.
Print Assumptions C23_set_defaults_idempotent.

Theorem C23_construct : forall C kw d', NoDup (map fst kw) -> construct C kw = Ok d' -> ~ In (u "set_defaults") (map fst kw) ->
  forall k,
    (~ In k (map fst kw) -> dget d' k = dget (cd_default C) k) /\
    (forall v, In (k, v) kw -> dget d' k = dget (fst (from_dict C (cd_default C) (VDict [(k, v)]))) k).
Proof. exact c23_construct. Qed.
Print Assumptions C23_construct.

Example C23_case :
  let C := cdef C_oidc_RegistrationRequest in
  NoDup (map fst (cd_default C)) /\ cd_default C <> [] /\
  construct C [(u "application_type", VStr (u "native"))] =
    Ok [(u "application_type", VStr (u "native")); (u "response_types", VList [VStr (u "code")])] /\
  set_defaults C [(u "application_type", VNone)] =
    [(u "application_type", VNone); (u "response_types", VList [VStr (u "code")])].
Proof.
  cbv zeta. split; [apply nodupb_ok; vm_compute; reflexivity|]. split; [discriminate|]. split; vm_compute; reflexivity.
Qed.
