(** Writing JWTs: to_jwt, to_jwe, from_jwe.  The functions of cryptojwt that sign, encrypt and decrypt are
    arguments; reading is from_jwt in Model/Verify.v. *)
From Coq Require Import List NArith ZArith Bool String.
From Verif Require Import Base.Ustr Base.Utf8 Model.Cls Model.Value Model.Pspec Model.Tables Model.Json Model.Message
  Model.Env Model.Verify.
Import ListNotations.
Open Scope list_scope.
Open Scope N_scope.

(** the producing side of cryptojwt; keys are opaque numbers; message.py:468-480, 777-808 *)
Record jose := {
  (** [JWS(text, alg=alg).sign_compact(keys)] *)
  j_sign : ustr -> ustr -> list N -> res ustr;
  (** [JWE(text, enc=enc, alg=alg).encrypt(keys)] *)
  j_encrypt : ustr -> ustr -> ustr -> list N -> res ustr;
  (** [JWE().decrypt(msg, keys)]: bytes *)
  j_decrypt : ustr -> list N -> res (list N) }.

(** Message.to_jwt, message.py:468-480; lev = 0, lifetime is not used there *)
Definition message_to_jwt (J : jose) (C : clsdef) (d : dict value) (keys : list N) (alg : ustr) : res ustr :=
  do t <- to_json C d ; j_sign J t alg keys.

(** IdToken.to_jwt, oidc/__init__.py:762-764: packs (and changes) the instance first *)
Definition idtoken_to_jwt (J : jose) (E : env) (C : clsdef) (d : dict value) (keys : list N) (alg : ustr) (lifetime : value)
  : dict value * res ustr :=
  andthen (pack E C alg lifetime d) (fun d _ => (d, message_to_jwt J C d keys alg)).

(** [m.to_jwt(keys, alg, lifetime=lifetime)] of an instance of [c]: IdToken and its subclasses override it;
    message.py:468-480, oidc/__init__.py:746-764 *)
Definition to_jwt (J : jose) (E : env) (c : cls) (d : dict value) (keys : list N) (alg : ustr) (lifetime : value)
  : dict value * res ustr :=
  if subclass c C_oidc_IdToken then idtoken_to_jwt J E (cdef c) d keys alg lifetime
  else (d, message_to_jwt J (cdef c) d keys alg).

(** Message.to_jwe, message.py:777-792 *)
Definition to_jwe (J : jose) (C : clsdef) (d : dict value) (keys : list N) (enc alg : ustr) : res ustr :=
  do t <- to_json C d ; j_encrypt J t enc alg keys.

(** [b.decode()]: strict UTF-8.  Bytes are valid UTF-8 exactly if decoding with replacement characters
    and encoding again gives them back; UnicodeDecodeError is a ValueError. *)
Definition decode_strict (b : list N) : res ustr :=
  match utf8_encode (utf8_decode b) with
  | Some b' => if list_eq_dec N.eq_dec b b' then Ok (utf8_decode b) else Err EValueError
  | None => Err EValueError
  end.

(** Message.from_jwe, message.py:794-808 *)
Definition from_jwe (J : jose) (C : clsdef) (d : dict value) (msg : ustr) (keys : list N) : dict value * res unit :=
  match (do b <- j_decrypt J msg keys ; decode_strict b) with
  | Ok t => from_json C d t
  | Err e => (d, Err e)
  end.
