(** What the properties of the verify functions mean, without reference to the functions of
    Model/Verify.v.  Used from the models: dictionaries, Python's ==, the environment record and,
    to say what an instance built from a payload is, Message.from_dict. *)
From Coq Require Import List NArith ZArith QArith Bool String.
From Verif Require Import Base.Ustr Model.Cls Model.Value Model.Pspec Model.Tables Model.Json Model.Message Model.Env
  Spec.MessageSpec Spec.FloatSpec.
Import ListNotations.
Open Scope list_scope.
Open Scope N_scope.

(** all required parameters are there, all restricted ones have allowed values *)
Definition table_ok (C : clsdef) (d : dict value) : Prop :=
  (forall a, ~ missing C d a) /\ (forall a, ~ not_allowed C d a).

(** Python's [x in c] is true *)
Definition contains (c x : value) : Prop :=
  match c with
  | VList l => exists y, In y l /\ py_eq y x = true
  | VStr s => exists p a b, x = VStr p /\ s = a ++ p ++ b
  | VDict d | VMsg _ d => exists k, x = VStr k /\ In k (map fst d)
  | _ => False
  end.

(** [c] is a container with [n] elements *)
Inductive sized : value -> nat -> Prop :=
| SzStr : forall s, sized (VStr s) (List.length s)
| SzList : forall l, sized (VList l) (List.length l)
| SzDict : forall d, sized (VDict d) (List.length d)
| SzMsg : forall c d, sized (VMsg c d) (List.length d).

(** if both are there they are equal *)
Definition agree (a b : option value) : Prop :=
  forall x y, a = Some x -> b = Some y -> py_eq x y = true.

(** ** responses *)
Definition desc_char (c : N) : Prop := (65 <= c <= 90) \/ (97 <= c <= 122) \/ c = 32 \/ c = 33.
(** %x20-21 / %x23-5B / %x5D-7E *)
Definition rfc6749_char (c : N) : Prop := (32 <= c <= 33) \/ (35 <= c <= 91) \/ (93 <= c <= 126).
Definition desc_ok (v : value) : Prop :=
  match v with
  | VStr s => forall c, In c s -> desc_char c
  | VList l => forall x, In x l -> exists c, x = VStr [c] /\ desc_char c
  | VDict d | VMsg _ d => forall k, In k (map fst d) -> exists c, k = [c] /\ desc_char c
  | _ => False
  end.
Definition response_ok (C : clsdef) (d : dict value) : Prop :=
  table_ok C d /\ forall v, dget d (u "error_description") = Some v -> desc_ok v.

(** ** dates *)
Definition two_digits (n : N) : ustr := [48 + n / 10; 48 + n mod 10].
Definition year_text (y : N) (t : ustr) : Prop := y <= 9999 /\ t = two_digits (y / 100) ++ two_digits (y mod 100).
(** what strptime takes for a month and a day: also without leading zero *)
Definition month_text (m : N) (t : ustr) : Prop :=
  1 <= m <= 12 /\ (t = two_digits m \/ (m <= 9 /\ t = [48 + m])).
Definition day_text (d : N) (t : ustr) : Prop :=
  1 <= d <= 31 /\ (t = two_digits d \/ (d <= 9 /\ (t = [48 + d] \/ t = [32; 48 + d]))).
(** the Gregorian calendar *)
Definition leap_year (y : N) : Prop := y mod 4 = 0 /\ (y mod 100 <> 0 \/ y mod 400 = 0).
Definition calendar_date (y m d : N) : Prop :=
  1 <= y <= 9999 /\ 1 <= d /\
  ((In m [1; 3; 5; 7; 8; 10; 12] /\ d <= 31) \/ (In m [4; 6; 9; 11] /\ d <= 30) \/
   (m = 2 /\ (d <= 28 \/ (d = 29 /\ leap_year y)))).
(** the three formats as strptime reads them *)
Inductive birthdate_text : ustr -> Prop :=
| BdFull : forall y m d ty tm td, year_text y ty -> month_text m tm -> day_text d td ->
    calendar_date y m d -> birthdate_text (ty ++ [45] ++ tm ++ [45] ++ td)
| BdYear : forall y ty, year_text y ty -> 1 <= y -> birthdate_text ty
| BdNoYear : forall m d tm td, month_text m tm -> day_text d td -> calendar_date 4 m d ->
    birthdate_text (u "0000-" ++ tm ++ [45] ++ td).
(** the formats as OpenID Connect Core has them: fixed width *)
Inductive birthdate_strict : ustr -> Prop :=
| BsFull : forall y m d, y <= 9999 -> calendar_date y m d ->
    birthdate_strict (two_digits (y / 100) ++ two_digits (y mod 100) ++ [45] ++ two_digits m ++ [45] ++ two_digits d)
| BsYear : forall y, 1 <= y <= 9999 -> birthdate_strict (two_digits (y / 100) ++ two_digits (y mod 100))
| BsNoYear : forall m d, calendar_date 4 m d ->
    birthdate_strict (u "0000-" ++ two_digits m ++ [45] ++ two_digits d).

Definition schema_ok (C : clsdef) (d : dict value) : Prop :=
  response_ok C d /\
  forall v, dget d (u "birthdate") = Some v -> exists s, v = VStr s /\ birthdate_text s.
Definition has_null (d : dict value) : Prop := exists k, In (k, VNone) d.

(** ** time and identity rules of tokens *)
(** the integer argument [k], with its default *)
Definition arg_int (K : kwargs) (k : ustr) (default n : Z) : Prop :=
  (kget K k = None /\ n = default) \/ (exists v, kget K k = Some v /\ int_of v = Some n).

(** the argument [k], with its default *)
Definition arg (K : kwargs) (k : ustr) (default : Z) (v : value) : Prop :=
  (kget K k = None /\ v = VInt default) \/ kget K k = Some v.

(** a number as a floating point number *)
Definition as_float (v : value) (q : Q) : Prop :=
  match v with VFlt f => q = f | _ => exists z, int_of v = Some z /\ rounded (inject_Z z) q end.
(** sums and differences: exact for integers, otherwise those of the floating point numbers, rounded *)
Inductive total (a b : value) : Q -> Prop :=
| TotalInt : forall x y, int_of a = Some x -> int_of b = Some y -> total a b (inject_Z (x + y))
| TotalFloat : forall p q r, int_of a = None \/ int_of b = None -> as_float a p -> as_float b q -> rounded (p + q) r -> total a b r.
Inductive difference (a b : value) : Q -> Prop :=
| DifferenceInt : forall x y, int_of a = Some x -> int_of b = Some y -> difference a b (inject_Z (x - y))
| DifferenceFloat : forall p q r, int_of a = None \/ int_of b = None -> as_float a p -> as_float b q -> rounded (p - q) r -> difference a b r.

(** not expired; not issued too long ago; not issued in the future; not too early *)
Definition exp_ok (now : Z) (K : kwargs) (e : value) : Prop :=
  exists s r q, arg K (u "skew") 0 s /\ difference (VInt now) s r /\ num_of e = Some q /\ (r <= q)%Q.
Definition iat_fresh (now : Z) (K : kwargs) (t : value) : Prop :=
  exists s n r x, arg K (u "skew") 0 s /\ arg K (u "nonce_storage_time") 14400 n /\
    difference (VInt now) s r /\ total t n x /\ (r <= x)%Q.
Definition iat_past (now : Z) (K : kwargs) (t : value) : Prop :=
  exists s r q, arg K (u "skew") 0 s /\ total (VInt now) s r /\ num_of t = Some q /\ (q <= r)%Q.
Definition nbf_past (now : Z) (K : kwargs) (t : value) : Prop :=
  exists s r q, arg K (u "skew") 0 s /\ difference (VInt now) s r /\ num_of t = Some q /\ (q <= r)%Q.

Record id_token_rules (now : Z) (K : kwargs) (d : dict value) : Prop := {
  r_iss : agree (kget K (u "iss")) (dget d (u "iss"));
  r_aud : forall aud c, dget d (u "aud") = Some aud -> kget K (u "client_id") = Some c -> contains aud c;
  r_azp : forall aud, dget d (u "aud") = Some aud -> exists n, sized aud n /\
            ((1 < n)%nat -> exists a, dget d (u "azp") = Some a /\ contains aud a);
  r_azp_me : agree (kget K (u "client_id")) (dget d (u "azp"));
  r_exp : exists e, dget d (u "exp") = Some e /\ exp_ok now K e;
  r_iat : exists t, dget d (u "iat") = Some t /\ iat_fresh now K t;
  r_nonce : agree (kget K (u "nonce")) (dget d (u "nonce")) }.

(** rejected because of exp or of the age of iat *)
Definition late (e : exn) : Prop := e = EEXPError \/ e = EIATError.

(** ** decoding *)
(** [req] is the instance of class [c] built from the payload of the JWT [t], possibly after
    decryption, or from the JSON object [t] *)
Definition decoded (E : env) (i : nat) (c : cls) (t : ustr) (req : dict value) : Prop :=
  exists t' payload,
    ((t' = t /\ exists a, e_jwe E i t a = Ok None) \/ exists a, e_jwe E i t a = Ok (Some t')) /\
    ((exists tok, e_jws E (VStr t') = Ok (Some tok) /\ t_body tok = Ok payload) \/
     (e_jws E (VStr t') = Ok None /\ json_loads t' = Ok payload)) /\
    from_dict (cdef c) (cd_default (cdef c)) payload = (req, Ok tt).

(** the text is no encrypted JWT *)
Definition not_encrypted (E : env) (t : ustr) : Prop := forall i a, e_jwe E i t a = Ok None.

(** the token says it is signed *)
Definition signed_tok (tok : token) : Prop := dget (t_hdr tok) (u "alg") <> Some (VStr (u "none")).

(** the crypto library accepted the signature of [t] with keys the key jar gave for it
    (looked up with the arguments [args]), and for the algorithm [args] demand, if they demand one *)
Definition demanded_alg (args : dict value) (alg : value) : Prop :=
  (exists v, dget args (u "sigalg") = Some v /\ ~ empty_value v /\ alg = v) \/
  ((forall v, dget args (u "sigalg") = Some v -> empty_value v) /\ alg = VStr []).
Definition verified_with (E : env) (args : dict value) (t : ustr) (tok : token) : Prop :=
  e_kj_true E = true /\
  exists i refreshed alg keys,
    e_kj_keys E i refreshed tok args = Ok keys /\ demanded_alg args alg /\ e_sig E t alg keys = Ok tt /\
    (refreshed = false -> keys <> []).
Definition signature_verified (E : env) (t : ustr) (tok : token) : Prop := exists args, verified_with E args t tok.

(** the arguments that select algorithm and keys are those the caller gave to verify() *)
Definition passed_on (K : kwargs) (args : dict value) : Prop :=
  forall k, In k [u "sigalg"; u "issuer"; u "allow_missing_kid"; u "no_kid_issuer"; u "trusting"] ->
    dget args k = kget K k.
Definition signature_verified_for (E : env) (K : kwargs) (t : ustr) (tok : token) : Prop :=
  exists args, passed_on K args /\ verified_with E args t tok.

(** the crypto library verifies nothing without keys *)
Definition sig_needs_keys (E : env) : Prop := forall t a, e_sig E t a [] <> Ok tt.

(** the hash function of a signing algorithm: HS and the last three characters *)
Definition hash_of_alg (alg h : ustr) : Prop :=
  exists a b, alg = a ++ b /\ h = u "HS" ++ b /\
    (List.length b = 3%nat \/ (a = [] /\ (List.length b < 3)%nat)).

(** the same arguments, except perhaps the skew *)
Definition same_but_skew (K K' : kwargs) : Prop := forall k, k <> u "skew" -> kget K' k = kget K k.

Record jwt_rules (now : Z) (K : kwargs) (d : dict value) : Prop := {
  j_exp : forall e, dget d (u "exp") = Some e -> exp_ok now K e;
  j_iat : forall t, dget d (u "iat") = Some t -> iat_past now K t;
  j_nbf : forall t, dget d (u "nbf") = Some t -> nbf_past now K t;
  j_aud : forall aud a, dget d (u "aud") = Some aud -> kget K (u "aud") = Some a -> contains aud a;
  j_iss : agree (kget K (u "iss")) (dget d (u "iss")) }.

(** ** accepted ID Tokens *)
(** What has been checked when the text [t], parsed as [tok] with payload [body], is accepted as
    the ID Token [idt] that accompanies the message [msg]. *)
Record id_token_accepted (E : env) (K : kwargs) (check_hash : bool) (msg : dict value)
  (t : ustr) (tok : token) (body : value) (idt : dict value) : Prop := {
  a_schema : schema_ok (cdef C_oidc_IdToken) idt;
  a_rules : id_token_rules (e_now E) K idt;
  (** the signature, unless the caller passed a false value for verify *)
  a_sig : signed_tok tok -> (forall v, kget K (u "verify") = Some v -> ~ empty_value v) -> signature_verified_for E K t tok;
  (** alg none only if the caller asked for it *)
  a_none : dget (t_hdr tok) (u "alg") = Some (VStr (u "none")) ->
    kget K (u "sigalg") = Some (VStr (u "none")) \/
    exists v, kget K (u "allow_sign_alg_none") = Some v /\ v <> VBool false;
  a_alg : forall a, signed_tok tok -> kget K (u "allowed_sign_alg") = Some a ->
    exists alg, dget (t_hdr tok) (u "alg") = Some alg /\ py_eq alg a = true;
  (** a known issuer *)
  a_iss : signed_tok tok -> exists iss,
    ((exists b, body = VDict b /\ dget b (u "iss") = Some iss) \/
     (exists c b, body = VMsg c b /\ dget b (u "iss") = Some iss)) /\ e_kj_in E iss = Ok true;
  (** the hashes bind the other parameters *)
  a_hash : signed_tok tok -> check_hash = true -> exists alg h,
    dget (t_hdr tok) (u "alg") = Some (VStr alg) /\ hash_of_alg alg h /\
    (forall x, dget msg (u "access_token") = Some x -> exists a y,
       dget idt (u "at_hash") = Some a /\ e_lhash E x h = Ok y /\ py_eq a y = true) /\
    (forall x, dget msg (u "code") = Some x -> exists a y,
       dget idt (u "c_hash") = Some a /\ e_lhash E x h = Ok y /\ py_eq a y = true) }.

(** the messages whose verify() checks an id_token *)
Definition has_id_token_check (c : cls) : Prop :=
  subclass c C_oidc_AccessTokenResponse = true \/ subclass c C_oidc_AuthorizationResponse = true \/
  subclass c C_oidc_MessageWithIdToken = true.

(** ** requests *)
(** the signature of the JWT [t] has been verified if there is one *)
Definition signature_checked (E : env) (t : ustr) : Prop :=
  forall tok, not_encrypted E t -> e_jws E (VStr t) = Ok (Some tok) -> signed_tok tok -> signature_verified E t tok.

Record authz_rules (K : kwargs) (d : dict value) : Prop := {
  q_type : exists rt, dget d (u "response_type") = Some rt;
  q_nonce : forall rt, dget d (u "response_type") = Some rt -> contains rt (VStr (u "id_token")) ->
    exists n, dget d (u "nonce") = Some n /\ forall m, kget K (u "nonce") = Some m -> py_eq n m = true;
  q_openid : exists sc, dget d (u "scope") = Some sc /\ contains sc (VStr (u "openid"));
  q_offline : forall sc, dget d (u "scope") = Some sc -> contains sc (VStr (u "offline_access")) ->
    exists p, dget d (u "prompt") = Some p /\ contains p (VStr (u "consent"));
  q_prompt : forall p, dget d (u "prompt") = Some p -> contains p (VStr (u "none")) ->
    exists n, sized p n /\ (n <= 1)%nat }.

(** ** registration *)
Definition enc_prefixes : list ustr :=
  [u "request_object_encryption"; u "id_token_encrypted_response"; u "userinfo_encrypted_response"].
(** what the client may ask for *)
Record registration_ok (d : dict value) : Prop := {
  g_login : forall v, dget d (u "initiate_login_uri") = Some v -> exists s, v = VStr (u "https:" ++ s);
  g_enc : forall p, In p enc_prefixes -> In (p ++ u "_enc") (map fst d) -> In (p ++ u "_alg") (map fst d);
  g_alg : dget d (u "token_endpoint_auth_signing_alg") <> Some (VStr (u "none")) }.
(** the content with missing encryption methods filled in *)
Definition enc_filled (d d' : dict value) : Prop :=
  (forall p, In p enc_prefixes -> dget d' (p ++ u "_enc") =
     match dget d (p ++ u "_enc") with
     | Some v => Some v
     | None => if dhas d (p ++ u "_alg") then Some (VStr (u "A128CBC-HS256")) else None
     end) /\
  (forall k, (forall p, In p enc_prefixes -> k <> p ++ u "_enc") -> dget d' k = dget d k).

(** ** provider configuration *)
(** what [for x in v] runs through *)
Definition element (v x : value) : Prop :=
  match v with
  | VStr s => exists c, In c s /\ x = VStr [c]
  | VList l => In x l
  | VDict d | VMsg _ d => exists k, In k (map fst d) /\ x = VStr k
  | _ => False
  end.
(** a URL as urlparse sees it: without leading blanks and control characters and without
    tabs and newlines inside *)
Inductive url_text : ustr -> ustr -> Prop :=
| UtBlank : forall c s t, c <= 32 -> url_text s t -> url_text (c :: s) t
| UtText : forall s, (forall c r, s = c :: r -> 32 < c) ->
    url_text s (filter (fun c => negb ((c =? 9) || (c =? 10) || (c =? 13))) s).
Definition lower_is (a b : N) : Prop := a = b \/ (65 <= a <= 90 /\ b = a + 32).
Definition https_url (t : ustr) : Prop :=
  exists sch r, t = sch ++ 58 :: r /\ Forall2 lower_is sch (u "https").
(** nothing follows the first '?' but perhaps '#', and nothing follows the first '#' *)
Definition no_query (t : ustr) : Prop := forall a b, t = a ++ 63 :: b -> b = [] \/ b = [35].
Definition no_fragment (t : ustr) : Prop := forall a b, t = a ++ 35 :: b -> b = [].
(** RFC 6749 scope characters %x21 / %x23-5B / %x5D-7E, and those without the first *)
Definition scope_char (c : N) : Prop := c = 33 \/ (35 <= c <= 91) \/ (93 <= c <= 126).
Definition scope_char_but_excl (c : N) : Prop := (35 <= c <= 91) \/ (93 <= c <= 126).

(** ** claims matching *)
Definition claims_hit (v : value) (spec : dict value) : Prop :=
  (exists x, dget spec (u "value") = Some x /\ py_eq v x = true) \/
  (exists x, dget spec (u "values") = Some x /\ contains x v) \/
  (exists x, spec = [(u "essential", x)]).

(** ** hashes *)
(** left_hash returns a text, or None for an unknown hash function, or raises something else
    than KeyError *)
Definition text_hash (E : env) : Prop := forall v h,
  e_lhash E v h <> Err EKeyError /\ forall x, e_lhash E v h = Ok x -> x = VNone \/ exists s, x = VStr s.

(** ** logout tokens *)
Record logout_rules (now : Z) (K : kwargs) (hdr : option (dict value)) (d : dict value) : Prop := {
  l_nonce : dget d (u "nonce") = None;
  l_events : exists ev o, dget d (u "events") = Some ev /\
    (ev = VDict [(u "http://schemas.openid.net/event/backchannel-logout", o)] \/
     exists c, ev = VMsg c [(u "http://schemas.openid.net/event/backchannel-logout", o)]) /\
    py_eq o (VDict []) = true;
  l_who : dget d (u "sub") <> None \/ dget d (u "sid") <> None;
  l_aud : forall aud a, dget d (u "aud") = Some aud -> kget K (u "aud") = Some a -> contains aud a;
  l_iss : agree (kget K (u "iss")) (dget d (u "iss"));
  l_iat : forall t, dget d (u "iat") = Some t -> iat_past now K t;
  l_alg : forall a, kget K (u "allowed_sign_alg") = Some a -> ~ empty_value a ->
    exists h alg, hdr = Some h /\ dget h (u "alg") = Some alg /\ py_eq alg a = true }.
