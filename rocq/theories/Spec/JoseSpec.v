(** What the crypto library does for an honest producer and consumer. *)
From Coq Require Import List NArith ZArith Bool String.
From Verif Require Import Base.Ustr Base.Utf8 Model.Cls Model.Value Model.Pspec Model.Tables Model.Json Model.Env Model.Jose
  Spec.MessageSpec Spec.VerifySpec Spec.RoundTripSpec.
Import ListNotations.
Open Scope list_scope.
Open Scope N_scope.

(** the consumer's library parses what the producer's signs as a JWS (and not as a JWE) with that
    algorithm in its header and that payload *)
Record reads_signed (J : jose) (E : env) (alg : ustr) (keys : list N) : Prop := {
  rs_jws : forall text tok v, j_sign J text alg keys = Ok tok -> json_loads text = Ok v ->
    exists h, e_jws E (VStr tok) = Ok (Some {| t_hdr := h; t_body := Ok v |}) /\ dget h (u "alg") = Some (VStr alg);
  rs_jwe : forall text tok, j_sign J text alg keys = Ok tok -> not_encrypted E tok }.

(** the consumer's key jar finds keys for the token [t] that its signature is good for *)
Definition trusts (E : env) (i : nat) (args : dict value) (t : ustr) : Prop :=
  forall tok, e_jws E (VStr t) = Ok (Some tok) -> e_kj_true E = true /\
    exists a ks, e_kj_keys E i false tok args = Ok ks /\ ks <> [] /\ demanded_alg args a /\ e_sig E t a ks = Ok tt.

(** [t] decrypts to [inner] on the consumer's side, for the algorithms in the arguments *)
Definition decrypts (E : env) (i : nat) (args : dict value) (t inner : ustr) : Prop :=
  forall a, (forall k, dget a k = if ueqb k (u "alg") then dget args (u "encalg")
                                  else if ueqb k (u "enc") then dget args (u "encenc") else None) ->
    e_jwe E i t a = Ok (Some inner).

(** ... and by from_jwe *)
Definition decryptable (J : jose) (enc alg : ustr) (ekeys dkeys : list N) : Prop :=
  forall text tok, j_encrypt J text enc alg ekeys = Ok tok ->
    exists b, utf8_encode text = Some b /\ j_decrypt J tok dkeys = Ok b.

(** the hash functions give texts *)
Definition hashable (E : env) (h : ustr) (v : value) : Prop :=
  exists s, e_lhash E v h = Ok (VStr s) /\ s <> [] /\ scalars s = true.

(** ** honest ID Tokens *)
(** the claims a provider puts into an ID Token; iat and exp are added by to_jwt *)
Record honest_claims (d : dict value) : Prop := {
  hc_content : content canon (cd_param (cdef C_oidc_IdToken)) d;
  hc_names : forall k, In k [u "iss"; u "sub"; u "aud"] -> exists v, dget d k = Some v /\ ~ empty_value v;
  hc_desc : forall v, dget d (u "error_description") = Some v -> desc_ok v;
  hc_birth : forall v, dget d (u "birthdate") = Some v -> exists s, v = VStr s /\ birthdate_text s }.

(** they are for the consumer with the arguments [K]: provider, audience, authorized party and nonce *)
Record meant_for (K : kwargs) (d : dict value) : Prop := {
  mf_iss : agree (kget K (u "iss")) (dget d (u "iss"));
  mf_aud : forall aud c, dget d (u "aud") = Some aud -> kget K (u "client_id") = Some c -> contains aud c;
  mf_azp : forall aud n, dget d (u "aud") = Some aud -> sized aud n -> (1 < n)%nat ->
    exists a, dget d (u "azp") = Some a /\ contains aud a;
  mf_me : agree (kget K (u "client_id")) (dget d (u "azp"));
  mf_nonce : agree (kget K (u "nonce")) (dget d (u "nonce")) }.

(** [now] is not too late for a token issued at [iat] with the given lifetime *)
Definition in_time (K : kwargs) (now iat lifetime : Z) : Prop :=
  exists s n, arg_int K (u "skew") 0 s /\ arg_int K (u "nonce_storage_time") 14400 n /\
    (now - s <= iat + lifetime)%Z /\ (now - s <= iat + n)%Z.

(** the token that to_jwt makes from the claims [d] at the time [now]: the hashes stand for the token and
    the code *)
Definition packed (E : env) (h : ustr) (lifetime : Z) (d idt : dict value) : Prop :=
  dget idt (u "iat") = Some (VInt (e_now E)) /\ dget idt (u "exp") = Some (VInt (e_now E + lifetime)) /\
  dget idt (u "access_token") = None /\ dget idt (u "code") = None /\
  (forall v, dget d (u "access_token") = Some v -> exists x, e_lhash E v h = Ok x /\ dget idt (u "at_hash") = Some x) /\
  (forall v, dget d (u "code") = Some v -> exists x, e_lhash E v h = Ok x /\ dget idt (u "c_hash") = Some x) /\
  (forall k, ~ In k [u "access_token"; u "code"; u "at_hash"; u "c_hash"; u "iat"; u "exp"] -> dget idt k = dget d k).

(** what consumer ([E], [K]) and provider ([P]) have in common: library, keys, hash function, clock *)
Record partners (J : jose) (P E : env) (K : kwargs) (alg : ustr) (keys : list N) (lifetime : Z) (d : dict value) (tok : ustr) : Prop := {
  pa_reads : reads_signed J E alg keys;
  pa_jar : kw_jar K = true;
  pa_alg : alg <> u "none" /\ forall a, kget K (u "allowed_sign_alg") = Some a -> a = VStr alg;
  pa_trust : forall args, passed_on K args -> trusts E 0 args tok;
  pa_iss : forall v, dget d (u "iss") = Some v -> e_kj_in E v = Ok true;
  pa_hash : forall v h, e_lhash E v h = e_lhash P v h;
  pa_clock : (0 < e_now P)%Z /\ (0 < lifetime)%Z /\ in_time K (e_now E) (e_now P) lifetime }.

(** the access token and the code that come with the ID Token are those it was made for *)
Definition hashed_with (d msg : dict value) : Prop :=
  forall k x, In k [u "access_token"; u "code"] -> dget msg k = Some x -> dget d k = Some x.

(** the message of class [c] that carries the ID Token is in order *)
Record msg_fits (K : kwargs) (c : cls) (msg : dict value) : Prop := {
  ft_table : table_ok (cdef c) msg;
  ft_desc : forall v, subclass c C_oauth2_ResponseMessage = true -> dget msg (u "error_description") = Some v -> desc_ok v;
  ft_client : subclass c C_oidc_AuthorizationResponse = true -> agree (dget msg (u "client_id")) (kget K (u "client_id"));
  ft_iss : subclass c C_oidc_AuthorizationResponse = true -> agree (dget msg (u "iss")) (kget K (u "iss"));
  ft_aud : forall aud i, subclass c C_oidc_AuthorizationResponse = true -> dget msg (u "aud") = Some aud ->
    kget K (u "client_id") = Some i -> contains aud i }.
