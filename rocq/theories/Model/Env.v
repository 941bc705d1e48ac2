(** What the verify functions get from outside: the clock, the crypto library
    (cryptojwt), the key jar, hash function and date checks of the C library. *)
From Coq Require Import List NArith ZArith Bool String.
From Verif Require Import Base.Ustr Model.Cls Model.Value.
Import ListNotations.
Open Scope list_scope.
Open Scope N_scope.

(** a parsed JWS: [jwt.headers] and [jwt.payload()] (which may raise); message.py:519-529, oidc/__init__.py:278-300 *)
Record token := { t_hdr : dict value; t_body : res value }.

(** Arbitrary answers of the environment.  The numeral argument of the key jar
    functions counts the from_jwt calls of one verify() call, so that the key jar may
    answer differently each time; the boolean of [kj_keys] tells whether
    [keyjar.update()] was called before.  Keys are opaque numbers. message.py:482-560, oidc/__init__.py:267-334 *)
Record env := {
  (** [utc_time_sans_frac()], time_util.py: an integer *)
  e_now : Z;
  (** [jws_factory(txt)]: None when txt is no compact JWS.  The alg argument of the
      factory does not influence parsing, only verify_compact. *)
  e_jws : value -> res (option token);
  (** [jwe_factory(txt, **algarg)] and [decrypt(txt, keyjar.get_decrypt_key(""))]: None when
      txt is no JWE, else the decrypted text *)
  e_jwe : nat -> ustr -> dict value -> res (option ustr);
  (** the keyjar argument: truth value, [x in keyjar], [get_jwt_verify_keys(jwt, **kw)], [update()] *)
  e_kj_true : bool;
  e_kj_in : value -> res bool;
  e_kj_keys : nat -> bool -> token -> dict value -> res (list N);
  e_kj_update : nat -> res unit;
  (** [jws_factory(txt, alg).verify_compact(txt, keys)]: returns or raises *)
  e_sig : ustr -> value -> list N -> res unit;
  (** [left_hash(msg, func)] *)
  e_lhash : value -> ustr -> res value;
  (** [str(v)] of containers and floats; of a message it may raise (message.py:562-568) *)
  e_repr : value -> res ustr;
  (** [urlparse] raises ValueError for some netloc parts *)
  e_netloc_ok : ustr -> bool }.

(** the keyword arguments of a verify() call; [keyjar] is kept apart: only whether it was
    given.  Simplification: keyword arguments that collide with named parameters inside
    (msg, check_hash, claim, txt, self) are not given. oidc/__init__.py:267-334, 766-832 *)
Record kwargs := { kw : dict value; kw_jar : bool }.

(** kwargs[k], oidc/__init__.py:267-334 *)
Definition kget (K : kwargs) (k : ustr) : option value := dget (kw K) k.
(** k in kwargs, oidc/__init__.py:291, 454, 923 *)
Definition khas (K : kwargs) (k : ustr) : bool := dhas (kw K) k.

(** [args] of the loops [for arg in [...]: try: args[arg] = kwargs[arg]]; oidc/__init__.py:270-274, 446-452 *)
Definition pick (names : list ustr) (K : kwargs) : dict value :=
  List.concat (map (fun n => match kget K n with Some v => [(n, v)] | None => [] end) names).

(** [str(v)]; message.py:482-560: the token is turned into a text *)
Definition py_str_e (E : env) (v : value) : res ustr :=
  match py_str v with Ok s => Ok s | Err _ => e_repr E v end.

(** [v[k]] with a string key on a value that is no list index: KeyError for a missing
    key, TypeError for non-mappings; oidc/__init__.py:301 *)
Definition py_item (v : value) (k : ustr) : res value :=
  match v with
  | VDict d | VMsg _ d => match dget d k with Some x => Ok x | None => Err EKeyError end
  | _ => Err ETypeError
  end.
