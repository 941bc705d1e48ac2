(** C122: the exceptions of reading a message that somebody sent. *)
From Coq Require Import List NArith ZArith Bool String.
From Verif Require Import Base.Ustr Model.Cls Model.Value Model.Pspec Model.Tables Model.Json Model.Message Spec.ErrorSpec Proofs.ErrorLemmas.
Import ListNotations.
Open Scope list_scope.
Open Scope N_scope.

(** C122: reading a dictionary as a message of any class succeeds or raises ValueError or DecodeError (or needs what is not
    modelled, such as floats) ... *)
Theorem C122_dict : forall c d l d' e, from_dict (cdef c) d (VDict l) = (d', Err e) -> In e [EValueError; EDecodeError; OutOfModel].
Proof. exact dict_exceptions. Qed.
Print Assumptions C122_dict.

(** ... reading a text as JSON may also raise JSONDecodeError, and AttributeError just for documents that are no objects ... *)
Theorem C122_json_partial : forall c d t d' e, from_json (cdef c) d t = (d', Err e) ->
  In e [EJSONDecodeError; EValueError; EDecodeError; OutOfModel] \/
  e = EAttributeError /\ exists v, json_loads t = Ok v /\ forall o, v <> VDict o.
Proof. exact json_exceptions. Qed.
Print Assumptions C122_json_partial.

(** ... and reading any text as a query string raises nothing but the following. *)
Theorem C122_query_partial : forall c d t d' e, from_urlencoded (cdef c) d t = (d', Err e) ->
  In e [EFormatError; ETooManyValues; EJSONDecodeError; EValueError; EDecodeError; EAttributeError; OutOfModel].
Proof. exact query_exceptions. Qed.
Print Assumptions C122_query_partial.

(** A class none of whose parameters is itself a message raises only exceptions of the library and ValueError. *)
Theorem C122_plain : forall c d t d' e, (forall k s, In (k, s) (cd_param (cdef c)) -> ~ holds_message s) ->
  from_urlencoded (cdef c) d t = (d', Err e) -> anticipated e \/ e = OutOfModel.
Proof. exact plain_exceptions. Qed.
Print Assumptions C122_plain.

Example C122_plain_case :
  (forall k s, In (k, s) (cd_param (cdef C_oauth2_AuthorizationRequest)) -> ~ holds_message s) /\
  cd_param (cdef C_oauth2_AuthorizationRequest) <> [] /\
  from_urlencoded (cdef C_oauth2_AuthorizationRequest) [] (u "scope=a+b&state=c&state=d") =
    ([(u "scope", VList [VStr (u "a"); VStr (u "b")])], Err ETooManyValues).
Proof.
  split; [|split; [discriminate|vm_compute; reflexivity]].
  intros k s H. vm_compute in H. repeat (destruct H as [H|H]; [injection H as <- <-; exact (fun f => f)|]). destruct H.
Qed.

(** Every exception of the list is raised by an OpenID Connect authorization request somebody may send; AttributeError is
    none a caller has to expect. *)
Theorem C122_query_refuted : let R := fun q => snd (from_urlencoded (cdef C_oidc_AuthorizationRequest) [] (u q)) in
  R "claims=%5B%5D"%string = Err EAttributeError /\ ~ anticipated EAttributeError /\
  R "state"%string = Err EFormatError /\ R "state=a&state=b"%string = Err ETooManyValues /\ R "claims={"%string = Err EJSONDecodeError /\
  R "claims={%22userinfo%22:true}"%string = Err EValueError /\ R "claims={%22userinfo%22:[1]}"%string = Err EDecodeError.
Proof.
  cbv zeta. split; [vm_compute; reflexivity|]. split; [|repeat split; vm_compute; reflexivity].
  intro H. vm_compute in H. repeat (destruct H as [H|H]; [discriminate|]). exact H.
Qed.
Print Assumptions C122_query_refuted.

Example C122_json_case : let R := fun t => snd (from_json (cdef C_oidc_OpenIDSchema) [] (u t)) in
  R "1"%string = Err EAttributeError /\ R ""%string = Err EJSONDecodeError /\ R "{""updated_at"":""x""}"%string = Err EValueError /\
  R "{""address"":{""locality"":1}}"%string = Err EDecodeError /\ R "{""updated_at"":7}"%string = Ok tt.
Proof. cbv zeta. repeat split; vm_compute; reflexivity. Qed.
