(** C155: extra parameters carried over to another message.  C156: where a context keeps data and keys. *)
From Coq Require Import List NArith ZArith Bool String.
From Verif Require Import Base.Ustr Base.Percent Model.Cls Model.Value Model.Pspec Model.Tables Model.Message Model.Env Model.Verify Model.Config Model.Tenants
  Spec.MessageSpec Spec.UnknownSpec Spec.TenantSpec Spec.ContextStorageSpec Proofs.Samples Proofs.ExtrasLemmas.
Import ListNotations.
Open Scope list_scope.
Open Scope N_scope.

(** C155: add_non_standard takes over the parameters that neither class declares, and nothing else; ... *)
Theorem C155_carried : forall C1 C2 d1 d2 k, NoDup (map fst d2) ->
  (In k (map fst (cd_param C1)) \/ In k (map fst (cd_param C2)) \/ dget d2 k = None -> dget (add_non_standard C1 C2 d1 d2) k = dget d1 k) /\
  (~ In k (map fst (cd_param C1)) -> ~ In k (map fst (cd_param C2)) -> forall v, dget d2 k = Some v -> dget (add_non_standard C1 C2 d1 d2) k = Some v).
Proof. exact extras. Qed.
Print Assumptions C155_carried.

Theorem C155_twice : forall C1 C2 d1 d2 k, NoDup (map fst d2) ->
  dget (add_non_standard C1 C2 (add_non_standard C1 C2 d1 d2) d2) k = dget (add_non_standard C1 C2 d1 d2) k.
Proof. exact extras_twice. Qed.
Print Assumptions C155_twice.

(** ... that makes no difference to verify() of the message that gets them. *)
Theorem C155_verify : forall E K hdr c C2 d1 d2, NoDup (map fst d1) -> NoDup (map fst d2) ->
  (forall k v, known c k = true -> ~ In k (map fst (cd_param (cdef c))) -> ~ In k (map fst (cd_param C2)) -> dget d2 k <> Some v) ->
  (forall k v, dget d1 k = Some v \/ dget d2 k = Some v -> known c k = false -> ordinary v) ->
  (subclass c C_oidc_AuthorizationRequest = true -> json_payloads E) ->
  same_outcome c (known c) (verify E K hdr c d1) (verify E K hdr c (add_non_standard (cdef c) C2 d1 d2)).
Proof. exact extras_verify. Qed.
Print Assumptions C155_verify.

Example C155_case :
  let d1 := [(u "grant_type", VStr (u "authorization_code")); (u "code", VStr (u "c")); (u "redirect_uri", VStr (u "https://rp")); (u "x", VInt 1)] in
  let d2 := [(u "code", VStr (u "other")); (u "scope", VStr (u "s")); (u "x", VInt 2); (u "y", VStr (u "z")); (u "client_assertion", VStr (u "t"))] in
  let r := add_non_standard (cdef C_oidc_AccessTokenRequest) (cdef C_oidc_AuthorizationRequest) d1 d2 in
  r = [(u "grant_type", VStr (u "authorization_code")); (u "code", VStr (u "c")); (u "redirect_uri", VStr (u "https://rp")); (u "x", VInt 2); (u "y", VStr (u "z"))] /\
  snd (verify sample (with_jar []) None C_oidc_AccessTokenRequest d1) = Ok true /\ snd (verify sample (with_jar []) None C_oidc_AccessTokenRequest r) = Ok true.
Proof. vm_compute. repeat split; reflexivity. Qed.

(** C156: the data are kept in the storage that the default section names, which is told the issuer, or in memory; ... *)
Theorem C156_data : forall db iss q, sections db -> iss <> [] -> quote_plus iss = Some q ->
  (forall s h, section_for db (u "default") s h -> exists c, ctx_storage (config_of db iss) = Ok (Handler (VStr h) c) /\ given_to s q c) /\
  (dget db (u "default") = None -> ctx_storage (config_of db iss) = Ok (InMemory (u "default"))).
Proof. intros db iss q H1 H2 H3. exact (conj (data_storage db iss q H1 H2 H3) (data_memory db iss q H1 H2 H3)). Qed.
Print Assumptions C156_data.

(** ... the keys in the one that the section for the key jar names, the default section if there is none, or in memory. *)
Theorem C156_keys : forall db iss q, sections db -> iss <> [] -> quote_plus iss = Some q ->
  (forall name s h, name = u "keyjar" \/ name = u "default" /\ dget db (u "keyjar") = None -> section_for db name s h ->
     exists c, ctx_key_storage (config_of db iss) = Ok (Some (Handler (VStr h) c)) /\ given_to s q c) /\
  (dget db (u "keyjar") = None -> dget db (u "default") = None -> ctx_key_storage (config_of db iss) = Ok None).
Proof. intros db iss q H1 H2 H3. exact (conj (key_storage_of db iss q H1 H2 H3) (key_storage_none db iss q H1 H2 H3)). Qed.
Print Assumptions C156_keys.

(** So with a default section only, keys and data are in one and the same storage. *)
Theorem C156_shared : forall db iss q, sections db -> iss <> [] -> quote_plus iss = Some q ->
  forall s h, dget db (u "keyjar") = None -> section_for db (u "default") s h ->
  exists x, ctx_storage (config_of db iss) = Ok x /\ ctx_key_storage (config_of db iss) = Ok (Some x).
Proof. exact key_storage_shared. Qed.
Print Assumptions C156_shared.

(** An empty section means the default, but not for a context with an issuer: there it is an error. *)
Theorem C156_empty : forall db iss q, sections db -> iss <> [] -> quote_plus iss = Some q ->
  forall s h, dget db (u "keyjar") = Some (VDict []) -> section_for db (u "default") s h ->
  ctx_key_storage (config_of db iss) = Err EConfigurationError /\
  ctx_key_storage (config_plain db) = Ok (Some (Handler (VStr h) (ddel s (u "handler")))).
Proof. exact key_storage_empty. Qed.
Print Assumptions C156_empty.

Example C156_case :
  let sec dir := VDict [(u "handler", VStr (u "m.Files")); (u "fdir", VStr (u dir))] in
  let at_dir dir := Handler (VStr (u "m.Files")) [(u "fdir", VStr (u dir)); (u "issuer", VStr (u "https%3A%2F%2Fop"))] in
  let run db := (ctx_storage (config_of db (u "https://op")), ctx_key_storage (config_of db (u "https://op"))) in
  sections [(u "default", sec "db"); (u "keyjar", sec "keys")] /\ quote_plus (u "https://op") = Some (u "https%3A%2F%2Fop") /\
  run [(u "default", sec "db"); (u "keyjar", sec "keys")] = (Ok (at_dir "db"%string), Ok (Some (at_dir "keys"%string))) /\
  run [(u "default", sec "db")] = (Ok (at_dir "db"%string), Ok (Some (at_dir "db"%string))) /\
  run [(u "keyjar", sec "keys")] = (Ok (InMemory (u "default")), Ok (Some (at_dir "keys"%string))) /\
  run [(u "default", sec "db"); (u "keyjar", VDict [])] = (Ok (at_dir "db"%string), Err EConfigurationError).
Proof.
  split.
  - constructor; [cbn [map fst]; repeat (constructor; [cbn [In]; intuition discriminate|]); constructor|].
    intros k v [H|[H|[]]]; injection H as <- <-; right; eexists; reflexivity.
  - vm_compute. repeat split; reflexivity.
Qed.
