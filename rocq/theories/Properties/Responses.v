(** C24, C25, C26: responses. *)
From Coq Require Import List NArith ZArith Bool String.
From Verif Require Import Base.Ustr Model.Cls Model.Value Model.Pspec Model.Tables Model.Message Model.Env Model.Verify
  Spec.MessageSpec Spec.VerifySpec Proofs.ClassVerify Proofs.Samples.
Import ListNotations.
Open Scope list_scope.
Open Scope N_scope.

(** C24: exactly the descriptions with a character outside ASCII letters, space and '!' give a
    ValueError ... *)
Theorem C24_exact : forall E K hdr d s, table_ok (cdef C_oauth2_ResponseMessage) d ->
  dget d (u "error_description") = Some (VStr s) ->
  (verify E K hdr C_oauth2_ResponseMessage d = (d, Err EValueError) <-> exists c, In c s /\ ~ desc_char c) /\
  (verify E K hdr C_oauth2_ResponseMessage d = (d, Ok true) <-> forall c, In c s -> desc_char c).
Proof. exact c24_class. Qed.
Print Assumptions C24_exact.

(** ... and such a character is fatal for the responses derived from ResponseMessage. *)
Theorem C24_derived : forall E K hdr c d s ch, subclass c C_oauth2_ResponseMessage = true ->
  table_ok (cdef c) d -> dget d (u "error_description") = Some (VStr s) -> In ch s -> ~ desc_char ch ->
  verify E K hdr c d = (d, Err EValueError).
Proof. exact c24_sub. Qed.
Print Assumptions C24_derived.

Example C24_case :
  let d s := [(u "error", VStr (u "e")); (u "error_description", VStr (u s))] in
  table_ok (cdef C_oauth2_ResponseMessage) (d "Bad luck!") /\
  verify sample (with_jar []) None C_oauth2_ResponseMessage (d "Bad luck!") = (d "Bad luck!", Ok true) /\
  verify sample (with_jar []) None C_oauth2_ResponseMessage (d "Bad luck 1") = (d "Bad luck 1", Err EValueError) /\
  subclass C_oidc_IdToken C_oauth2_ResponseMessage = true /\ ~ desc_char 49.
Proof.
  cbv zeta. split; [apply table_by_compute; vm_compute; reflexivity|].
  split; [vm_compute; reflexivity|]. split; [vm_compute; reflexivity|]. split; [vm_compute; reflexivity|].
  intros [[H _]|[[H _]|[H|H]]]; try discriminate; vm_compute in H; apply H; reflexivity.
Qed.

(** C25: not all descriptions RFC 6749 permits are accepted ... *)
Theorem C25_rfc6749_refuted : exists d s, table_ok (cdef C_oauth2_ResponseMessage) d /\
  dget d (u "error_description") = Some (VStr s) /\ (forall c, In c s -> rfc6749_char c) /\
  forall E K hdr, snd (verify E K hdr C_oauth2_ResponseMessage d) = Err EValueError.
Proof.
  exists [(u "error", VStr (u "e")); (u "error_description", VStr (u "No."))], (u "No.").
  split; [apply table_by_compute; vm_compute; reflexivity|]. split; [reflexivity|].
  split; [|intros; vm_compute; reflexivity].
  intros c [<-|[<-|[<-|[]]]]; right; [left|right|left]; split; vm_compute; discriminate.
Qed.
Print Assumptions C25_rfc6749_refuted.

(** ... only those over letters, space and '!'. *)
Theorem C25_accepted_partial : forall E K hdr d s, table_ok (cdef C_oauth2_ResponseMessage) d ->
  dget d (u "error_description") = Some (VStr s) -> (forall c, In c s -> rfc6749_char c) ->
  (verify E K hdr C_oauth2_ResponseMessage d = (d, Ok true) <->
   forall c, In c s -> (65 <= c <= 90) \/ (97 <= c <= 122) \/ c = 32 \/ c = 33).
Proof. exact c25_partial. Qed.
Print Assumptions C25_accepted_partial.

(** C26: client_id and iss of an authorization response agree with the arguments ... *)
Theorem C26_exact : forall E K hdr d,
  verify E K hdr C_oauth2_AuthorizationResponse d = (d, Ok true) <->
  response_ok (cdef C_oauth2_AuthorizationResponse) d /\ agree (dget d (u "client_id")) (kget K (u "client_id")) /\
  agree (dget d (u "iss")) (kget K (u "iss")).
Proof. exact c26_exact. Qed.
Print Assumptions C26_exact.

(** ... in the derived classes, too. *)
Theorem C26_derived : forall E K hdr c d d', subclass c C_oauth2_AuthorizationResponse = true ->
  verify E K hdr c d = (d', Ok true) ->
  response_ok (cdef c) d /\ agree (dget d (u "client_id")) (kget K (u "client_id")) /\
  agree (dget d (u "iss")) (kget K (u "iss")).
Proof. exact c26_sub. Qed.
Print Assumptions C26_derived.

Example C26_case :
  let d := [(u "code", VStr (u "c")); (u "client_id", VStr (u "rp")); (u "iss", VStr (u "https://op"))] in
  let K c i := with_jar [(u "client_id", VStr (u c)); (u "iss", VStr (u i))] in
  let run c i k := snd (verify sample (K c i) None k d) in
  run "rp" "https://op" C_oauth2_AuthorizationResponse = Ok true /\
  run "rp" "https://op" C_oidc_AuthorizationResponse = Ok true /\
  run "other" "https://op" C_oauth2_AuthorizationResponse = Err EVerificationError /\
  run "rp" "https://evil" C_oidc_AuthorizationResponse = Err EVerificationError /\
  subclass C_oidc_AuthorizationResponse C_oauth2_AuthorizationResponse = true.
Proof. vm_compute. repeat split; reflexivity. Qed.
