(** make_openid_request, oidc/__init__.py:1160-1183. *)
From Coq Require Import List NArith ZArith Bool String.
From Verif Require Import Base.Ustr Model.Cls Model.Value Model.Pspec Model.Message.
Import ListNotations.
Open Scope list_scope.
Open Scope N_scope.

(** cryptojwt's [JWT(key_jar=keys, iss=issuer, sign_alg=alg)] with its attributes [with_jti] and [lifetime]
    (None: not set), and its method [pack(payload, owner, recv)], oidc/__init__.py:1178-1183.
    Simplification: the key jar is part of the oracle. *)
Record packer := {
  k_pack : ustr -> ustr -> bool -> option Z -> dict value -> ustr -> ustr -> res ustr }.

(** oidc/__init__.py:1160-1183; [C] is the class of the message [arq] *)
Definition make_openid_request (P : packer) (C : clsdef) (arq : dict value) (issuer alg recv : ustr) (with_jti : bool) (lifetime : Z)
  : res ustr :=
  do r <- to_dict C arq ;
  k_pack P issuer alg with_jti (if (lifetime =? 0)%Z then None else Some lifetime) r issuer recv.
