(** C153: provider metadata in order. *)
From Coq Require Import List NArith Bool String.
From Verif Require Import Base.Ustr Model.Value Spec.VerifySpec.
Import ListNotations.
Open Scope list_scope.
Open Scope N_scope.

(** an https URL with a host and perhaps a path, and nothing else *)
Record issuer_text (s host path : ustr) : Prop := {
  it_text : s = u "https://" ++ host ++ path;
  it_host : forall c, In c host -> 32 < c /\ ~ In c [47; 63; 35];
  it_path : path = [] \/ exists p, path = 47 :: p;
  it_rest : forall c, In c path -> 32 < c /\ ~ In c [63; 35] }.

(** OpenID Connect Discovery, section 3 *)
Record metadata_ok (host : ustr) (d : dict value) : Prop := {
  md_issuer : exists s path, dget d (u "issuer") = Some (VStr s) /\ issuer_text s host path;
  md_scopes : forall v, dget d (u "scopes_supported") = Some v ->
    exists l, v = VList (map VStr l) /\ In (u "openid") l /\ forall s c, In s l -> In c s -> scope_char_but_excl c;
  md_algs : exists l, dget d (u "id_token_signing_alg_values_supported") = Some (VList (map VStr l)) /\ In (u "RS256") l;
  md_types : exists l, dget d (u "response_types_supported") = Some (VList (map VStr l));
  md_endpoint : exists v, dget d (u "token_endpoint") = Some v }.
