(** from_jwt and the verify functions of message.py, oauth2, oidc and oidc/session.

    A verify function takes the content of the message and returns the new content and
    the outcome (True, False or an exception).  Class tables enter as [clsdef]. *)
From Coq Require Import List NArith ZArith QArith Bool String.
From Verif Require Import Base.Ustr Model.Cls Model.Value Model.Pspec Model.Tables Model.Json Model.Message Model.Env.
From Verif Require Export Model.Calendar Model.IdentityAssurance.
Import ListNotations.
Open Scope list_scope.
Open Scope N_scope.

(** [a != b]; oidc/__init__.py:770, 795, 829 *)
Definition py_ne (a b : value) : bool := negb (py_eq a b).

(** ** from_jwt, message.py:482-560 *)

(** what from_jwt leaves behind: content, jws_header; message.py:482-560 *)
Definition jwt_res := (dict value * option (dict value))%type.

Section FromJwt.
  Variable E : env.
  (** number of this call, see Model/Env.v *)
  Variable i : nat.

  (** lines 496-517 *)
  Definition jwt_decrypt (txt : ustr) (args : dict value) : res ustr :=
    let algarg := match dget args (u "encalg") with Some v => [(u "alg", v)] | None => [] end ++
                  match dget args (u "encenc") with Some v => [(u "enc", v)] | None => [] end in
    do o <- e_jwe E i txt algarg ;
    Ok (match o with Some t => t | None => txt end).

  (** lines 519-522: the alg argument *)
  Definition jwt_sigalg (args : dict value) : value :=
    match dget args (u "sigalg") with
    | Some v => if truthy v then v else VStr []
    | None => VStr []
    end.

  (** lines 529-553: signature verification *)
  Definition jwt_check (txt : ustr) (tok : token) (vfy : bool) (args : dict value) : res unit :=
    match dget (t_hdr tok) (u "alg") with
    | None => Err EKeyError
    | Some alg =>
        if py_eq alg (VStr (u "none")) then Ok tt
        else if vfy then
          do key <- (if e_kj_true E then e_kj_keys E i false tok args else Ok []) ;
          match key with
          | [] => Err EMissingSigningKey
          | _ =>
              match e_sig E txt (jwt_sigalg args) key with
              | Err ENoSuitableSigningKeys =>
                  if e_kj_true E then
                    do _ <- e_kj_update E i ;
                    do key2 <- e_kj_keys E i true tok args ;
                    e_sig E txt (jwt_sigalg args) key2
                  else Ok tt
              | r => r
              end
          end
        else Ok tt
    end.

  (** the whole function for [cls().from_jwt(txt, keyjar, verify, **args)]; [jar] tells
      whether the positional argument keyjar is there (TypeError otherwise).
      [args] are the further keyword arguments. message.py:482-560 *)
  Definition from_jwt (C : clsdef) (txt : ustr) (jar vfy : bool) (args : dict value) : res jwt_res :=
    if negb jar then Err ETypeError
    else
      do txt <- jwt_decrypt txt args ;
      do o <- e_jws E (VStr txt) ;
      match o with
      | Some tok =>
          do jso <- t_body tok ;
          do _ <- jwt_check txt tok vfy args ;
          do d <- ret_msg (from_dict C (cd_default C) jso) ;
          Ok (d, Some (t_hdr tok))
      | None =>
          do jso <- json_loads txt ;
          do d <- ret_msg (from_dict C (cd_default C) jso) ;
          Ok (d, None)
      end.
End FromJwt.

(** ** oauth2 *)

(** ResponseMessage.verify, oauth2/__init__.py:44-51 *)
Definition response_verify (C : clsdef) (d : dict value) : res bool :=
  do _ <- verify_base C d ;
  match dget d (u "error_description") with
  | None => Ok true
  | Some v =>
      do xs <- py_iter v ;
      do b <- all_error_chars xs ;
      if b then Ok true else Err EValueError
  end.

(** [del self[k]] of a key that is there; [clear] deletes it if it is there;
    oauth2/__init__.py:331-378, oidc/__init__.py:246-256 *)
Definition clear (d : dict value) (k : ustr) : dict value := ddel d k.

(** verified_claim_name, __init__.py:4-8 *)
Definition verified_claim_name (claim : ustr) : ustr := u "__verified" ++ u "_" ++ claim.

(** AuthorizationRequest.merge, oauth2/__init__.py:110-136.  Simplification: the whitelist is a
    list of strings. *)
Inductive treatment := Strict | Lax | Whitelist (l : list ustr) | OtherTreatment.
(** merge, oauth2/__init__.py:110-136 *)
Definition merge (d ro : dict value) (t : treatment) : dict value :=
  let d1 :=
    match t with
    | Strict => filter (fun kv => dhas ro (fst kv)) d
    | Lax | OtherTreatment => d
    | Whitelist [] => d
    | Whitelist l => filter (fun kv => umem (fst kv) l) d
    end in
  dupdate d1 ro.

(** oauth2.AuthorizationResponse.verify, oauth2/__init__.py:154-173 *)
Definition authz_response_verify (K : kwargs) (C : clsdef) (d : dict value) : res bool :=
  do _ <- response_verify C d ;
  do _ <- match dget d (u "client_id"), kget K (u "client_id") with
          | Some a, Some b => if py_ne a b then Err EVerificationError else Ok tt
          | _, _ => Ok tt
          end ;
  do _ <- match dget d (u "iss"), kget K (u "iss") with
          | Some a, Some b => if py_ne a b then Err EVerificationError else Ok tt
          | _, _ => Ok tt
          end ;
  Ok true.

(** the arguments passed on to from_jwt for request objects, oauth2/__init__.py:338-339,
    oidc/__init__.py:447-448 (keyjar is the positional argument) *)
Definition request_args (K : kwargs) : dict value :=
  pick [u "opponent_id"; u "sender"; u "alg"; u "encalg"; u "encenc"] K.

(** lines 333-347 / 362-376 *)
Definition jar_merge (E : env) (K : kwargs) (C : clsdef) (t : treatment) (d : dict value) (r : value)
  : dict value * res bool :=
  let vc := verified_claim_name (u "request") in
  let d1 := clear d vc in
  match (do t <- py_str_e E r ;
         from_jwt E 0 (cdef C_oauth2_AuthorizationRequest) t (kw_jar K) true (request_args K)) with
  | Err e => (d1, Err e)
  | Ok (req, _) =>
      match setitem C (merge d1 req t) vc (VMsg C_oauth2_AuthorizationRequest req) with
      | (d2, Ok _) => (d2, Ok true)
      | (d2, Err e) => (d2, Err e)
      end
  end.

(** JWTSecuredAuthorizationRequest.verify, oauth2/__init__.py:331-351 *)
Definition jar_verify (E : env) (K : kwargs) (C : clsdef) (d : dict value) : dict value * res bool :=
  match dget d (u "request") with
  | Some r => jar_merge E K C Strict d r
  | None => if dhas d (u "request_uri") then (d, Ok true) else (d, Err EMissingAttribute)
  end.

(** PushedAuthorizationRequest.verify, oauth2/__init__.py:360-378 *)
Definition par_verify (E : env) (K : kwargs) (C : clsdef) (d : dict value) : dict value * res bool :=
  match dget d (u "request") with
  | Some r => jar_merge E K C Lax d r
  | None => (d, Ok true)
  end.

(** ** oidc *)

(** ID_TOKEN_VERIFY_ARGS without keyjar and verify, oidc/__init__.py:241-244 *)
Definition id_token_args (K : kwargs) : dict value :=
  pick [u "encalg"; u "encenc"; u "sigalg"; u "issuer"; u "allow_missing_kid"; u "no_kid_issuer";
        u "trusting"; u "skew"; u "nonce_storage_time"; u "client_id";
        u "allow_sign_alg_none"; u "allowed_sign_alg"] K.
(** the [verify] argument as passed on: True unless given; oidc/__init__.py:267-274 *)
Definition verify_arg (K : kwargs) : bool :=
  match kget K (u "verify") with Some v => truthy v | None => true end.

(** clear_verified_claims, oidc/__init__.py:246-256 (CLAIMS_WITH_VERIFIED and the function) *)
Definition clear_verified (d : dict value) : dict value :=
  ddel (ddel (ddel d (verified_claim_name (u "id_token")))
             (verified_claim_name (u "id_token_hint")))
       (verified_claim_name (u "request")).

(** NONCE_STORAGE_TIME, oidc/__init__.py:48 *)
Definition nonce_storage_time : Z := 14400.

(** *** OpenIDSchema *)

(** time.strptime(s, fmt) for the three formats of oidc/__init__.py:574-580: the first match of
    the regular expression must cover the text and denote a date.  Without a year 1900 is used,
    or 1904 for February 29th.  Texts with non-ASCII characters (other digits) are outside the
    model. *)
Definition match_y (s : ustr) : option (N * ustr) := hd_error (p_year s).
(** the format 0000-%m-%d, oidc/__init__.py:580 *)
Definition match_0md (s : ustr) : option (N * N * ustr) :=
  if startswith (u "0000-") s then
    hd_error (List.concat (map (fun mr => let '(m, r) := mr in
      List.concat (map (fun r => map (fun dr => let '(d, r) := dr in (m, d, r)) (p_day r)) (p_lit 45 r)))
        (p_month (skipn 5 s))))
  else None.
(** the format %Y-%m-%d, oidc/__init__.py:574 *)
Definition strptime_ymd (s : ustr) : bool :=
  match match_ymd s with Some (y, m, d, r) => is_nil r && valid_date y m d | None => false end.
(** the format %Y, oidc/__init__.py:577 *)
Definition strptime_y (s : ustr) : bool :=
  match match_y s with Some (y, r) => is_nil r && valid_date y 1 1 | None => false end.
(** the format 0000-%m-%d, oidc/__init__.py:580 *)
Definition strptime_0md (s : ustr) : bool :=
  match match_0md s with
  | Some (m, d, r) => is_nil r && valid_date (if (m =? 2) && (d =? 29) then 1904 else 1900) m d
  | None => false
  end.

(** lines 571-582 *)
Definition birthdate_check (v : value) : res unit :=
  match v with
  | VStr s =>
      if forallb is_ascii s then
        if strptime_ymd s || strptime_y s || strptime_0md s then Ok tt else Err EVerificationError
      else Err OutOfModel
  | _ => Err ETypeError
  end.

(** OpenIDSchema.verify, oidc/__init__.py:568-587 *)
Definition schema_verify (C : clsdef) (d : dict value) : res bool :=
  do _ <- response_verify C d ;
  do _ <- match dget d (u "birthdate") with Some v => birthdate_check v | None => Ok tt end ;
  Ok (negb (existsb (fun kv => match snd kv with VNone => true | _ => false end) d)).

(** *** IdToken *)

(** [if b: raise e], e.g. oidc/__init__.py:770-832 *)
Definition raise_if (b : bool) (e : exn) : res unit := if b then Err e else Ok tt.

(** [x in c] where an exception is not expected to be caught; oidc/__init__.py:779, 995 *)
Definition not_in (x c : value) : res bool := do b <- py_in x c ; Ok (negb b).

(** IdToken.verify, oidc/__init__.py:766-832 (the result of the inherited verify is not used) *)
Definition idtoken_aud (K : kwargs) (d : dict value) : res unit :=
  match dget d (u "aud") with
  | None => Ok tt
  | Some aud =>
      do _ <- match kget K (u "client_id") with
              | Some c => do b <- not_in c aud ; raise_if b ENotForMe
              | None => Ok tt
              end ;
      do n <- py_len aud ;
      if 1 <? n then
        match dget d (u "azp") with
        | Some a => do b <- not_in a aud ; raise_if b EVerificationError
        | None => Err EVerificationError
        end
      else Ok tt
  end.
(** [try: x = kwargs[k] except KeyError: x = default], oidc/__init__.py:802-819 *)
Definition karg (K : kwargs) (k : ustr) (default : value) : value :=
  match kget K k with Some v => v | None => default end.
(** the times of IdToken.verify, oidc/__init__.py:802-826 *)
Definition idtoken_times (E : env) (K : kwargs) (d : dict value) : res unit :=
  let now := VInt (e_now E) in
  let skew := karg K (u "skew") (VInt 0) in
  do _ <- match dget d (u "exp") with
          | None => Err EMissingRequiredAttribute
          | Some e => do x <- py_sub now skew ; do b <- py_gt x e ; raise_if b EEXPError
          end ;
  match dget d (u "iat") with
  | None => Err EMissingRequiredAttribute
  | Some t => do x <- py_add t (karg K (u "nonce_storage_time") (VInt nonce_storage_time)) ;
              do y <- py_sub now skew ;
              do b <- py_lt x y ; raise_if b EIATError
  end.
(** IdToken.verify, oidc/__init__.py:766-832 *)
Definition idtoken_verify (E : env) (K : kwargs) (C : clsdef) (d : dict value) : res bool :=
  do _ <- schema_verify C d ;
  do _ <- match kget K (u "iss"), dget d (u "iss") with
          | Some a, Some b => raise_if (py_ne a b) EIssuerMismatch
          | _, _ => Ok tt
          end ;
  do _ <- idtoken_aud K d ;
  do _ <- match dget d (u "azp"), kget K (u "client_id") with
          | Some a, Some c => raise_if (py_ne c a) ENotForMe
          | _, _ => Ok tt
          end ;
  do _ <- idtoken_times E K d ;
  do _ <- match kget K (u "nonce"), dget d (u "nonce") with
          | Some a, Some b => raise_if (py_ne a b) EValueError
          | _, _ => Ok tt
          end ;
  Ok true.

(** [s[-3:]] *)
Definition last3 (s : ustr) : ustr := skipn (List.length s - 3) s.

(** IdToken.val_hash, oidc/__init__.py:730-739; as_unicode (cryptojwt)
    returns everything but bytes, which are not modelled, as it is *)
Definition val_hash1 (E : env) (C : clsdef) (halg : ustr) (attr hash_attr : ustr) (d : dict value)
  : dict value * res unit :=
  match dget d attr with
  | None => (d, Ok tt)
  | Some v =>
      match e_lhash E v halg with
      | Err EKeyError => (d, Ok tt)
      | Err e => (d, Err e)
      | Ok h => match setitem C d hash_attr h with
                | (d1, Ok _) => (ddel d1 attr, Ok tt)
                | r => r
                end
      end
  end.
(** run a state transformer after another unless that raised; statements in sequence, e.g. oidc/__init__.py:730-752 *)
Definition andthen {S A B} (r : S * res A) (f : S -> A -> S * res B) : S * res B :=
  match r with (s, Ok a) => f s a | (s, Err e) => (s, Err e) end.
(** val_hash, oidc/__init__.py:730-739 *)
Definition val_hash (E : env) (C : clsdef) (alg : ustr) (d : dict value) : dict value * res unit :=
  let halg := u "HS" ++ last3 alg in
  andthen (val_hash1 E C halg (u "access_token") (u "at_hash") d)
    (fun d _ => val_hash1 E C halg (u "code") (u "c_hash") d).

(** IdToken.pack_init, 741-744 *)
Definition pack_init (E : env) (C : clsdef) (lifetime : value) (d : dict value) : dict value * res unit :=
  andthen (setitem C d (u "iat") (VInt (e_now E))) (fun d _ =>
    if truthy lifetime then
      match getitem d (u "iat") with
      | Ok t => match py_add t lifetime with
                | Ok x => setitem C d (u "exp") x
                | Err e => (d, Err e)
                end
      | Err e => (d, Err e)
      end
    else (d, Ok tt)).

(** IdToken.pack, 746-752; [lifetime] is [VInt 0] when not given *)
Definition pack (E : env) (C : clsdef) (alg : ustr) (lifetime : value) (d : dict value) : dict value * res unit :=
  andthen (val_hash E C alg d) (fun d _ => pack_init E C lifetime d).

(** *** verify_id_token, oidc/__init__.py:267-334 *)

(** lines 280-296 on the header of the token: whether it is signed *)
Definition alg_check (K : kwargs) (tok : token) : res bool :=
  match dget (t_hdr tok) (u "alg") with
  | None => Err EKeyError
  | Some alg =>
      if py_eq alg (VStr (u "none")) then
        if py_eq (karg K (u "sigalg") VNone) (VStr (u "none")) then Ok false
        else match karg K (u "allow_sign_alg_none") (VBool false) with
             | VBool false => Err EUnsupportedAlgorithm
             | _ => Ok false
             end
      else
        match kget K (u "allowed_sign_alg") with
        | Some a => if py_ne alg a then Err EUnsupportedAlgorithm else Ok true
        | None => Ok true
        end
  end.

(** lines 298-305 *)
Definition issuer_check (E : env) (K : kwargs) (signed : bool) (body : value) : res unit :=
  if signed && kw_jar K then
    match (do i <- py_item body (u "iss") ; e_kj_in E i) with
    | Ok true => Ok tt
    | Ok false => Err EValueError
    | Err EKeyError => Err EMissingRequiredAttribute
    | Err e => Err e
    end
  else Ok tt.

(** lines 311-329, one of the two hashes *)
Definition hash_check (E : env) (msg idt : dict value) (param hash_attr hfunc : ustr) (e : exn) : res unit :=
  match dget msg param with
  | None => Ok tt
  | Some v =>
      match dget idt (hash_attr) with
      | None => Err EMissingRequiredAttribute
      | Some h => do x <- e_lhash E v hfunc ; raise_if (py_ne h x) e
      end
  end.

(** both hashes, oidc/__init__.py:311-329 *)
Definition hashes_check (E : env) (msg idt : dict value) (hdr : option (dict value)) : res unit :=
  match hdr with
  | None => Err ETypeError
  | Some h =>
      match dget h (u "alg") with
      | None => Err EKeyError
      | Some (VStr alg) =>
          let hfunc := u "HS" ++ last3 alg in
          do _ <- hash_check E msg idt (u "access_token") (u "at_hash") hfunc EAtHashError ;
          hash_check E msg idt (u "code") (u "c_hash") hfunc ECHashError
      | Some _ => Err ETypeError
      end
  end.

(** lines 267-329: the verified ID Token, or None for the return value False.  The second
    argument is the number of this from_jwt call. *)
Definition check_id_token (E : env) (i : nat) (K : kwargs) (check_hash : bool) (claim : ustr) (msg : dict value)
  : res (option (dict value)) :=
  do v <- getitem msg claim ;
  do o <- e_jws E v ;
  match o with
  | None => Err EValueError
  | Some tok =>
      do signed <- alg_check K tok ;
      do body <- t_body tok ;
      do _ <- issuer_check E K signed body ;
      do t <- py_str_e E v ;
      do r <- from_jwt E i (cdef C_oidc_IdToken) t (kw_jar K) (verify_arg K) (id_token_args K) ;
      let (idt, hdr) := r in
      do ok <- idtoken_verify E K (cdef C_oidc_IdToken) idt ;
      if ok then
        do _ <- (if signed && check_hash then hashes_check E msg idt hdr else Ok tt) ;
        Ok (Some idt)
      else Ok None
  end.

(** the whole function; the log message at its end serializes the token (line 332) *)
Definition verify_id_token (E : env) (i : nat) (K : kwargs) (C : clsdef) (check_hash : bool) (claim : ustr)
  (msg : dict value) : dict value * res bool :=
  match check_id_token E i K check_hash claim msg with
  | Err e => (msg, Err e)
  | Ok None => (msg, Ok false)
  | Ok (Some idt) =>
      andthen (setitem C msg (verified_claim_name claim) (VMsg C_oidc_IdToken idt)) (fun msg _ =>
        match to_dict (cdef C_oidc_IdToken) idt with
        | Ok _ => (msg, Ok true)
        | Err e => (msg, Err e)
        end)
  end.

(** [if "id_token" in self: if not verify_id_token(...): return False]; [return True];
    oidc/__init__.py:341-350, 373-387, 838-844 *)
Definition with_id_token (E : env) (K : kwargs) (C : clsdef) (check_hash : bool) (d : dict value)
  : dict value * res bool :=
  if dhas d (u "id_token") then verify_id_token E 0 K C check_hash (u "id_token") d else (d, Ok true).

(** a check that leaves the message alone, then a continuation; a call of super().verify, e.g. oidc/__init__.py:341-350 *)
Definition checked {A} (r : res A) (d : dict value) (f : dict value -> dict value * res bool)
  : dict value * res bool :=
  match r with Ok _ => f d | Err e => (d, Err e) end.

(** oidc.AccessTokenResponse.verify, 341-350 *)
Definition oidc_token_response_verify (E : env) (K : kwargs) (C : clsdef) (d : dict value) : dict value * res bool :=
  checked (response_verify C d) d (fun d => with_id_token E K C false (clear_verified d)).

(** oidc.AuthorizationResponse.verify, 373-387 *)
Definition oidc_authz_response_verify (E : env) (K : kwargs) (C : clsdef) (d : dict value) : dict value * res bool :=
  checked (authz_response_verify K C d) d (fun d =>
    let d1 := clear_verified d in
    match dget d1 (u "aud"), kget K (u "client_id") with
    | Some aud, Some c =>
        match not_in c aud with
        | Err e => (d1, Err e)
        | Ok true => (d1, Ok false)
        | Ok false => with_id_token E K C true d1
        end
    | _, _ => with_id_token E K C true d1
    end).

(** MessageWithIdToken.verify, 838-844; [sup] is the verify of the next class (Message, or
    ResponseMessage for RefreshSessionResponse) *)
Definition mwit_verify (sup : clsdef -> dict value -> res bool) (E : env) (K : kwargs) (C : clsdef) (d : dict value)
  : dict value * res bool :=
  checked (sup C d) d (fun d => with_id_token E K C false d).

(** *** oidc.AuthorizationRequest.verify, 433-513 *)

(** the text of a value in a log message, line 467: a message is converted by to_dict *)
Definition log_text (v : value) : res unit :=
  match v with VMsg _ _ => do _ <- to_dict_v v ; Ok tt | _ => Ok tt end.

(** lines 463-475: compare (log), drop what the request object does not have, update *)
Definition ro_log (d ro : dict value) : res unit :=
  do _ <- mapM (fun kv => match dget d (fst kv) with
                          | Some x => if py_ne x (snd kv) then do _ <- log_text x ; log_text (snd kv) else Ok tt
                          | None => Ok tt
                          end) ro ;
  Ok tt.
(** oidc/__init__.py:463-475 *)
Definition ro_replace (d ro : dict value) : dict value :=
  dupdate (filter (fun kv => dhas ro (fst kv)) d) ro.

(** lines 485-513 *)
Definition request_rules (K : kwargs) (d : dict value) : res bool :=
  match dget d (u "response_type") with
  | None => Err EMissingRequiredAttribute
  | Some rt =>
      do b <- py_in (VStr (u "id_token")) rt ;
      do _ <- (if b then
                 match dget d (u "nonce"), kget K (u "nonce") with
                 | None, _ => Err EMissingRequiredAttribute
                 | Some n, Some m => raise_if (py_ne n m) EValueError
                 | Some _, None => Ok tt
                 end
               else Ok tt) ;
      let scope := get d (u "scope") (VList []) in
      do o <- py_in (VStr (u "openid")) scope ;
      do _ <- raise_if (negb o) EMissingRequiredValue ;
      do off <- py_in (VStr (u "offline_access")) scope ;
      do _ <- (if off then
                 match dget d (u "prompt") with
                 | None => Err EMissingRequiredValue
                 | Some p => do c <- py_in (VStr (u "consent")) p ; raise_if (negb c) EMissingRequiredValue
                 end
               else Ok tt) ;
      do _ <- match dget d (u "prompt") with
              | None => Ok tt
              | Some p => do n <- py_in (VStr (u "none")) p ;
                          if n then do l <- py_len p ; raise_if (1 <? l) EInvalidRequest else Ok tt
              end ;
      Ok true
  end.

(** lines 446-455 *)
Definition authz_args (K : kwargs) (d : dict value) : res (dict value) :=
  if khas K (u "opponent_id") then Ok (request_args K)
  else match dget d (u "client_id") with
       | Some c => Ok (request_args K ++ [(u "opponent_id", c)])
       | None => Err EKeyError
       end.

(** lines 457-478 *)
Definition request_step (E : env) (K : kwargs) (C : clsdef) (args : dict value) (d : dict value)
  : dict value * res unit :=
  match dget d (u "request") with
  | Some (VStr t) =>
      match from_jwt E 0 (cdef C_oidc_OpenIDRequest) t (kw_jar K) true args with
      | Err e => (d, Err e)
      | Ok (ro, _) =>
          match ro_log d ro with
          | Err e => (d, Err e)
          | Ok _ => setitem C (ro_replace d ro) (verified_claim_name (u "request")) (VMsg C_oidc_OpenIDRequest ro)
          end
      end
  | _ => (d, Ok tt)
  end.

(** lines 480-483 *)
Definition hint_step (E : env) (K : kwargs) (C : clsdef) (args : dict value) (d : dict value)
  : dict value * res unit :=
  match dget d (u "id_token_hint") with
  | Some (VStr t) =>
      match from_jwt E 1 (cdef C_oidc_IdToken) t (kw_jar K) true args with
      | Err e => (d, Err e)
      | Ok (idt, _) => setitem C d (u "verified_id_token_hint") (VMsg C_oidc_IdToken idt)
      end
  | _ => (d, Ok tt)
  end.

(** AuthorizationRequest.verify, oidc/__init__.py:433-513 *)
Definition oidc_authz_request_verify (E : env) (K : kwargs) (C : clsdef) (d : dict value) : dict value * res bool :=
  checked (verify_base C d) d (fun d =>
    let d1 := clear_verified d in
    match authz_args K d1 with
    | Err e => (d1, Err e)
    | Ok args =>
        andthen (request_step E K C args d1) (fun d2 _ =>
          andthen (hint_step E K C args d2) (fun d3 _ => (d3, request_rules K d3)))
    end).

(** *** RegistrationRequest.verify, 639-664 *)
Definition enc_default (C : clsdef) (param : ustr) (d : dict value) : dict value * res unit :=
  let alg := param ++ u "_alg" in
  let enc := param ++ u "_enc" in
  andthen (if dhas d alg && negb (dhas d enc) then setitem C d enc (VStr (u "A128CBC-HS256")) else (d, Ok tt))
    (fun d _ => if dhas d enc && negb (dhas d alg) then (d, Err EMissingRequiredAttribute) else (d, Ok tt)).

(** RegistrationRequest.verify, oidc/__init__.py:639-664 *)
Definition registration_verify (C : clsdef) (d : dict value) : dict value * res bool :=
  checked (verify_base C d) d (fun d =>
  checked (match dget d (u "initiate_login_uri") with
           | None => Ok tt
           | Some (VStr s) => raise_if (negb (startswith (u "https:") s)) EValueError
           | Some _ => Err EAttributeError
           end) d (fun d =>
  andthen (enc_default C (u "request_object_encryption") d) (fun d _ =>
  andthen (enc_default C (u "id_token_encrypted_response") d) (fun d _ =>
  andthen (enc_default C (u "userinfo_encrypted_response") d) (fun d _ =>
    (d, match dget d (u "token_endpoint_auth_signing_alg") with
        | Some v => if py_eq v (VStr (u "none")) then Err EValueError else Ok true
        | None => Ok true
        end)))))).

(** RegistrationResponse.verify, 683-699 *)
Definition registration_response_verify (C : clsdef) (d : dict value) : res bool :=
  do _ <- response_verify C d ;
  if xorb (dhas d (u "registration_client_uri")) (dhas d (u "registration_access_token"))
  then Err EVerificationError else Ok true.

(** *** ProviderConfigurationResponse.verify, 913-940 *)

(** the characters in SCOPE_CHARSET, 222-230: the branch for \x21 appends the type [set], so
    the exclamation mark is missing *)
Definition scope_charset : list N :=
  map N.of_nat (seq 35 57) ++ map N.of_nat (seq 93 34).

(** check_char_set, 233-236, of a string *)
Definition check_char_set (s : ustr) (allowed : list N) : res unit :=
  if forallb (fun c => existsb (N.eqb c) allowed) s then Ok tt else Err ENotAllowedValue.

(** the same for any value: iterating a non-text may raise TypeError, and so does formatting
    the message for an element that is no character; oidc/__init__.py:233-236 *)
Definition check_char_set_v (v : value) (allowed : list N) : res unit :=
  match v with
  | VStr s => check_char_set s allowed
  | VNone | VBool _ | VInt _ | VFlt _ => Err ETypeError
  | VList l => fold_right (fun x r => match x with
                                      | VStr [c] => if existsb (N.eqb c) allowed then r else Err ENotAllowedValue
                                      | VInt _ | VBool _ => Err OutOfModel
                                      | _ => Err ETypeError
                                      end) (Ok tt) l
  | VDict d | VMsg _ d =>
      fold_right (fun kv r => match fst kv with
                              | [c] => if existsb (N.eqb c) allowed then r else Err ENotAllowedValue
                              | _ => Err ETypeError
                              end) (Ok tt) d
  end.

(** urllib.parse.urlparse (Python 3.11): scheme, query and fragment.  [e_netloc_ok] stands for
    the checks on the netloc part. *)
Definition c0_or_space (c : N) : bool := c <=? 32.
(** a character of a scheme, urllib.parse of the standard library, used in oidc/__init__.py:922 *)
Definition scheme_char (c : N) : bool := is_alpha c || is_digit c || (c =? 43) || (c =? 45) || (c =? 46).
(** str.lower of an ASCII character, urllib.parse of the standard library, used in oidc/__init__.py:922 *)
Definition lower1 (c : N) : N := if is_upper c then c + 32 else c.
(** the text before a delimiter, urllib.parse of the standard library, used in oidc/__init__.py:922 *)
Definition take_until (f : N -> bool) (s : ustr) : ustr := fst (span (fun c => negb (f c)) s).
(** characters that are dropped, urllib.parse of the standard library, used in oidc/__init__.py:922 *)
Definition url_clean (s : ustr) : ustr :=
  filter (fun c => negb ((c =? 9) || (c =? 10) || (c =? 13))) (lstrip_by c0_or_space s).
(** the scheme, urllib.parse of the standard library, used in oidc/__init__.py:922 *)
Definition url_split_scheme (s : ustr) : ustr * ustr :=
  let '(p, found, rest) := partition1 58 s in
  match p with
  | c :: _ => if found && is_alpha c && forallb scheme_char p then (map lower1 p, rest) else ([], s)
  | [] => ([], s)
  end.
(** the result of urlparse, urllib.parse of the standard library, used in oidc/__init__.py:922 *)
Record url_parts := { up_scheme : ustr; up_query : ustr; up_fragment : ustr }.
(** urllib.parse of the standard library, used in oidc/__init__.py:922 *)
Definition urlparse (E : env) (url : ustr) : res url_parts :=
  let '(scheme, r) := url_split_scheme (url_clean url) in
  let is_netloc_end c := (c =? 47) || (c =? 63) || (c =? 35) in
  let netloc := match r with
                | 47 :: 47 :: t => Some (take_until is_netloc_end t)
                | _ => None
                end in
  if match netloc with Some n => e_netloc_ok E n | None => true end then
    let r1 := match netloc with Some n => skipn (2 + List.length n) r | None => r end in
    let '(r2, _, frag) := partition1 35 r1 in
    let '(_, _, query) := partition1 63 r2 in
    Ok {| up_scheme := scheme; up_query := query; up_fragment := frag |}
  else Err EValueError.

(** [any("code" in rt for rt in v)]; oidc/__init__.py:936-937 *)
Fixpoint any_code (l : list value) : res bool :=
  match l with
  | [] => Ok false
  | x :: r => do b <- py_in (VStr (u "code")) x ; if b then Ok true else any_code r
  end.

(** ProviderConfigurationResponse.verify, 913-940.  [raise MissingRequiredValue] without
    argument is a TypeError (exception.py:4-7 requires one). *)
Definition provider_verify (E : env) (K : kwargs) (C : clsdef) (d : dict value) : res bool :=
  do _ <- response_verify C d ;
  do _ <- match dget d (u "scopes_supported") with
          | None => Ok tt
          | Some v =>
              do b <- py_in (VStr (u "openid")) v ;
              do _ <- raise_if (negb b) ETypeError ;
              do l <- py_iter v ;
              do _ <- mapM (fun s => check_char_set_v s scope_charset) l ;
              Ok tt
          end ;
  do iss <- getitem d (u "issuer") ;
  do parts <- match iss with VStr s => urlparse E s | _ => Err OutOfModel end ;
  do _ <- (if khas K (u "allow_http") then Ok tt
           else raise_if (negb (ueqb (up_scheme parts) (u "https"))) ESchemeError) ;
  do algs <- getitem d (u "id_token_signing_alg_values_supported") ;
  do b <- py_in (VStr (u "RS256")) algs ;
  do _ <- raise_if (negb b) EValueError ;
  do _ <- raise_if (negb (is_nil (up_query parts) && is_nil (up_fragment parts))) EValueError ;
  do rts <- getitem d (u "response_types_supported") ;
  do l <- py_iter rts ;
  do c <- any_code l ;
  if c && negb (dhas d (u "token_endpoint")) then Err EMissingRequiredAttribute else Ok true.

(** *** JsonWebToken.verify, 955-1004 *)
Definition jwt_verify (E : env) (K : kwargs) (C : clsdef) (d : dict value) : res bool :=
  do _ <- verify_base C d ;
  let now := VInt (e_now E) in
  let skew := karg K (u "skew") (VInt 0) in
  do _ <- match dget d (u "exp") with
          | None => Ok tt
          | Some e => do x <- py_sub now skew ; do b <- py_gt x e ; raise_if b EEXPError
          end ;
  do _ <- match dget d (u "iat") with
          | None => Ok tt
          | Some t => do x <- py_add now skew ; do b <- py_gt t x ; raise_if b EEXPError
          end ;
  do _ <- match dget d (u "nbf") with
          | None => Ok tt
          | Some t => do x <- py_sub now skew ; do b <- py_gt t x ; raise_if b EEXPError
          end ;
  do _ <- match dget d (u "aud"), kget K (u "aud") with
          | Some aud, Some a => do b <- not_in a aud ; raise_if b ENotForMe
          | _, _ => Ok tt
          end ;
  do _ <- match kget K (u "iss"), dget d (u "iss") with
          | Some a, Some b => raise_if (py_ne a b) EValueError
          | _, _ => Ok tt
          end ;
  Ok true.

(** *** claims_match, 1185-1220 *)
Fixpoint claims_loop (v : value) (l : dict value) : res bool :=
  match l with
  | [] => Ok false
  | (k, x) :: r =>
      if ueqb k (u "value") then if py_eq v x then Ok true else claims_loop v r
      else if ueqb k (u "values") then do b <- py_in v x ; if b then Ok true else claims_loop v r
      else claims_loop v r
  end.
(** claims_match, oidc/__init__.py:1185-1220 *)
Definition claims_match (v : value) (spec : option (dict value)) : res bool :=
  match spec with
  | None => Ok true
  | Some s =>
      do m <- claims_loop v s ;
      Ok (match s with [(k, _)] => if ueqb k (u "essential") then true else m | _ => m end)
  end.

(** ** oidc/session.py *)

(** EndSessionRequest.verify, 56-78 *)
Definition end_session_verify (E : env) (K : kwargs) (C : clsdef) (d : dict value) : dict value * res bool :=
  checked (verify_base C d) d (fun d =>
    let d1 := clear_verified d in
    match dget d1 (u "id_token_hint") with
    | None => (d1, Ok (negb (dhas d1 (u "post_logout_redirect_uri"))))
    | Some h =>
        match (do t <- py_str_e E h ;
               from_jwt E 0 (cdef C_oidc_IdToken) t (kw_jar K) (verify_arg K) (id_token_args K)) with
        | Err e => (d1, Err e)
        | Ok (idt, _) =>
            andthen (verify_id_token E 1 K C false (u "id_token_hint") d1) (fun d2 ok =>
              if ok then
                andthen (setitem C d2 (verified_claim_name (u "id_token_hint")) (VMsg C_oidc_IdToken idt))
                  (fun d3 _ => (d3, Ok true))
              else (d2, Ok false))
        end
    end).

(** BACK_CHANNEL_LOGOUT_EVENT, 112, 157 *)
Definition logout_event : ustr := u "http://schemas.openid.net/event/backchannel-logout".

(** LogoutToken.verify, 101-154; [hdr] is the attribute jws_header *)
Definition events_check (v : value) : res unit :=
  match v with
  | VDict e | VMsg _ e =>
      match e with
      | [(k, x)] => if ueqb k logout_event then raise_if (py_ne x (VDict [])) EValueError else Err EValueError
      | _ => Err EValueError
      end
  | _ => Err EAttributeError
  end.
(** LogoutToken.verify, oidc/session.py:101-154 *)
Definition logout_token_verify (E : env) (K : kwargs) (C : clsdef) (hdr : option (dict value)) (d : dict value) : res bool :=
  do _ <- verify_base C d ;
  do _ <- raise_if (dhas d (u "nonce")) EMessageException ;
  do ev <- getitem d (u "events") ;
  do _ <- events_check ev ;
  do _ <- raise_if (negb (dhas d (u "sub") || dhas d (u "sid"))) EValueError ;
  do _ <- match kget K (u "aud"), dget d (u "aud") with
          | Some a, Some aud =>
              match not_in a aud with
              | Ok b => raise_if b ENotForMe
              | Err EKeyError => Ok tt
              | Err e => Err e
              end
          | _, _ => Ok tt
          end ;
  do _ <- match kget K (u "iss"), dget d (u "iss") with
          | Some a, Some b => raise_if (py_ne a b) ENotForMe
          | _, _ => Ok tt
          end ;
  do _ <- match dget d (u "iat") with
          | None => Ok tt
          | Some t => do x <- py_add (VInt (e_now E)) (karg K (u "skew") (VInt 0)) ;
                      do b <- py_gt t x ; raise_if b EValueError
          end ;
  match kget K (u "allowed_sign_alg") with
  | Some a =>
      if truthy a then
        match hdr with
        | None => Err ETypeError
        | Some h => match dget h (u "alg") with
                    | None => Err EKeyError
                    | Some g => if py_ne g a then Err EUnsupportedAlgorithm else Ok true
                    end
        end
      else Ok true
  | None => Ok true
  end.

(** BackChannelLogoutRequest.verify, 170-186 *)
Definition backchannel_verify (E : env) (K : kwargs) (C : clsdef) (d : dict value) : dict value * res bool :=
  checked (verify_base C d) d (fun d =>
    match getitem d (u "logout_token") with
    | Err e => (d, Err e)
    | Ok v =>
        match (do t <- py_str_e E v ;
               from_jwt E 0 (cdef C_session_LogoutToken) t (kw_jar K) (verify_arg K) (id_token_args K)) with
        | Err e => (d, Err e)
        | Ok (t, hdr) =>
            match logout_token_verify E K (cdef C_session_LogoutToken) hdr t with
            | Err e => (d, Err e)
            | Ok false => (d, Ok false)
            | Ok true =>
                andthen (setitem C d (verified_claim_name (u "logout_token")) (VMsg C_session_LogoutToken t)) (fun d _ =>
                  match to_dict (cdef C_session_LogoutToken) t with
                  | Ok _ => (d, Ok true)
                  | Err e => (d, Err e)
                  end)
            end
        end
    end).

(** ** device_authorization.AccessTokenRequest.verify, oauth2/device_authorization.py:28-36: there is no return
    statement, so a normal end gives None, which is falsy as False is *)
Definition device_verify (C : clsdef) (d : dict value) : res bool :=
  do _ <- verify_base C d ;
  do _ <- (if dhas d (u "device_code") then
             do _ <- raise_if (negb (dhas d (u "grant_type"))) EMissingRequiredAttribute ;
             raise_if (negb (dhas d (u "client_id"))) EMissingRequiredAttribute
           else Ok tt) ;
  Ok false.

(** ** Dispatch: which verify() runs for an instance of a library class *)

(** the first class of the method resolution order that defines verify(); [hdr] is the
    attribute jws_header of the instance (used by LogoutToken only).
    oauth2/__init__.py, oidc/__init__.py, oidc/session.py, oidc/identity_assurance.py: the 23 definitions of verify. *)
Inductive vkind :=
  | KBase | KResponse | KAuthzResponse | KJar | KPar | KTokenResponse | KOidcAuthzResponse
  | KOidcAuthzRequest | KSchema | KRegistration | KRegistrationResponse | KIdToken | KWithIdToken
  | KProvider | KJwt | KEndSession | KLogoutToken | KBackChannel | KEvidence
  | KVerificationRequest | KVerifiedClaimsRequest | KIdaClaims | KDevice.
(** the classes that define verify: message.py:588, oauth2/__init__.py:44-378, oidc/__init__.py:341-1004, oidc/session.py:56-186, oidc/identity_assurance.py:224-512, oauth2/device_authorization.py:28 *)
Definition own_verify (c : cls) : option vkind :=
  match c with
  | C_Message => Some KBase
  | C_oauth2_ResponseMessage => Some KResponse
  | C_oauth2_AuthorizationResponse => Some KAuthzResponse
  | C_oauth2_JWTSecuredAuthorizationRequest => Some KJar
  | C_oauth2_PushedAuthorizationRequest => Some KPar
  | C_oidc_AccessTokenResponse => Some KTokenResponse
  | C_oidc_AuthorizationResponse => Some KOidcAuthzResponse
  | C_oidc_AuthorizationRequest => Some KOidcAuthzRequest
  | C_oidc_OpenIDSchema => Some KSchema
  | C_oidc_RegistrationRequest => Some KRegistration
  | C_oidc_RegistrationResponse => Some KRegistrationResponse
  | C_oidc_IdToken => Some KIdToken
  | C_oidc_MessageWithIdToken => Some KWithIdToken
  | C_oidc_ProviderConfigurationResponse => Some KProvider
  | C_oidc_JsonWebToken => Some KJwt
  | C_session_EndSessionRequest => Some KEndSession
  | C_session_LogoutToken => Some KLogoutToken
  | C_session_BackChannelLogoutRequest => Some KBackChannel
  | C_ida_Evidence => Some KEvidence
  | C_ida_VerificationElementRequest => Some KVerificationRequest
  | C_ida_VerifiedClaimsRequest => Some KVerifiedClaimsRequest
  | C_ida_IDAClaimsRequest => Some KIdaClaims
  | C_device_AccessTokenRequest => Some KDevice
  | _ => None
  end.
(** method resolution; message.py:588 is the last resort *)
Fixpoint first_verify (l : list cls) : vkind :=
  match l with
  | [] => KBase
  | c :: r => match own_verify c with Some k => k | None => first_verify r end
  end.
(** the verify that runs for an instance of a class, message.py:588-625 and the classes derived from Message *)
Definition vkind_of (c : cls) : vkind := first_verify (cls_mro c).

(** a verify that leaves the message alone; e.g. message.py:588-625 *)
Definition pure (f : dict value -> res bool) (d : dict value) : dict value * res bool := (d, f d).

(** what [super()] is for MessageWithIdToken: the rest of the method resolution order; oidc/__init__.py:838-844 *)
Definition mwit_super (c : cls) : clsdef -> dict value -> res bool :=
  if subclass c C_oauth2_ResponseMessage then response_verify else verify_base.

(** instance.verify( **kwargs ), message.py:588-625 and the classes derived from Message *)
Definition verify (E : env) (K : kwargs) (hdr : option (dict value)) (c : cls) (d : dict value)
  : dict value * res bool :=
  let C := cdef c in
  match vkind_of c with
  | KBase => pure (verify_base C) d
  | KResponse => pure (response_verify C) d
  | KAuthzResponse => pure (authz_response_verify K C) d
  | KJar => jar_verify E K C d
  | KPar => par_verify E K C d
  | KTokenResponse => oidc_token_response_verify E K C d
  | KOidcAuthzResponse => oidc_authz_response_verify E K C d
  | KOidcAuthzRequest => oidc_authz_request_verify E K C d
  | KSchema => pure (schema_verify C) d
  | KRegistration => registration_verify C d
  | KRegistrationResponse => pure (registration_response_verify C) d
  | KIdToken => pure (idtoken_verify E K C) d
  | KWithIdToken => mwit_verify (mwit_super c) E K C d
  | KProvider => pure (provider_verify E K C) d
  | KJwt => pure (jwt_verify E K C) d
  | KEndSession => end_session_verify E K C d
  | KLogoutToken => pure (logout_token_verify E K C hdr) d
  | KBackChannel => backchannel_verify E K C d
  | KEvidence => evidence_verify 1000 c d
  | KVerificationRequest => pure (request_verify C C_ida_VerificationElement) d
  | KVerifiedClaimsRequest => pure (request_verify C C_ida_VerifiedClaims) d
  | KIdaClaims => ida_claims_verify C d
  | KDevice => pure (device_verify C) d
  end.

(** ** Factories *)

(** oauth2.factory, oauth2/__init__.py:395-410, and oidc.factory, oidc/__init__.py:1147-1157,
    up to the construction of the instance: the class found by name.  inspect.getmembers lists
    the names of the module in alphabetical order; the only imported message classes are
    Message (both) and ResponseMessage (oidc, the very class of oauth2).  Classes have
    distinct names within a module, so the order does not matter. *)
Definition by_name (l : list cls) (n : ustr) : option cls := List.find (fun c => ueqb (cls_name c) n) l.

(** inspect.getmembers, oauth2/__init__.py:395-410 *)
Definition oauth2_members : list cls :=
  [C_Message; C_oauth2_ResponseMessage; C_oauth2_AuthorizationErrorResponse; C_oauth2_TokenErrorResponse;
   C_oauth2_AccessTokenRequest; C_oauth2_AuthorizationRequest; C_oauth2_AuthorizationResponse;
   C_oauth2_AccessTokenResponse; C_oauth2_NoneResponse; C_oauth2_ROPCAccessTokenRequest;
   C_oauth2_CCAccessTokenRequest; C_oauth2_RefreshAccessTokenRequest; C_oauth2_ResourceRequest;
   C_oauth2_ASConfigurationResponse; C_oauth2_TokenIntrospectionRequest; C_oauth2_TokenIntrospectionResponse;
   C_oauth2_TokenExchangeRequest; C_oauth2_TokenExchangeResponse; C_oauth2_JWTSecuredAuthorizationRequest;
   C_oauth2_PushedAuthorizationRequest; C_oauth2_SecurityEventToken].
(** inspect.getmembers, oidc/__init__.py:1147-1157 *)
Definition oidc_members : list cls :=
  [C_Message; C_oauth2_ResponseMessage; C_oidc_RefreshAccessTokenRequest; C_oidc_TokenErrorResponse;
   C_oidc_AccessTokenResponse; C_oidc_UserInfoRequest; C_oidc_AuthorizationResponse;
   C_oidc_AuthorizationErrorResponse; C_oidc_AuthorizationRequest; C_oidc_AccessTokenRequest;
   C_oidc_AddressClaim; C_oidc_OpenIDSchema; C_oidc_RegistrationRequest; C_oidc_RegistrationResponse;
   C_oidc_ClientRegistrationErrorResponse; C_oidc_IdToken; C_oidc_MessageWithIdToken; C_oidc_OpenIDRequest;
   C_oidc_ProviderConfigurationResponse; C_oidc_JsonWebToken; C_oidc_AuthnToken; C_oidc_UserInfoErrorResponse;
   C_oidc_DiscoveryRequest; C_oidc_Link; C_oidc_JRD; C_oidc_WebFingerRequest; C_oidc_ResourceRequest;
   C_oidc_Claims; C_oidc_ClaimsRequest].

(** the loop: an AttributeError of the constructor is swallowed; oauth2/__init__.py:395-410, oidc/__init__.py:1147-1157 *)
Definition find_construct (l : list cls) (n : ustr) (kws : dict value) : res (option (cls * dict value)) :=
  match by_name l n with
  | None => Ok None
  | Some c => match construct (cdef c) kws with
              | Ok d => Ok (Some (c, d))
              | Err EAttributeError => Ok None
              | Err e => Err e
              end
  end.
(** factory, oauth2/__init__.py:395-410 *)
Definition oauth2_factory (n : ustr) (kws : dict value) : res (option (cls * dict value)) :=
  find_construct oauth2_members n kws.
(** factory, oidc/__init__.py:1147-1157 *)
Definition oidc_factory (n : ustr) (kws : dict value) : res (option (cls * dict value)) :=
  do o <- find_construct oidc_members n kws ;
  match o with Some r => Ok (Some r) | None => oauth2_factory n kws end.
