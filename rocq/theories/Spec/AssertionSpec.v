(** A client that authenticates with a JWT at the token endpoint (RFC 7523, 2.2 and 3; OpenID Connect Core, 9). *)
From Coq Require Import List NArith ZArith Bool String.
From Verif Require Import Base.Ustr Model.Cls Model.Value Model.Env Spec.FlowSpec.
Import ListNotations.
Open Scope list_scope.
Open Scope N_scope.

(** the claims of the assertion: of the client about itself, for the audiences [auds] *)
Definition assertion (client : ustr) (auds : list ustr) (jti : ustr) (iat exp : Z) : dict value :=
  [(u "iss", VStr client); (u "sub", VStr client); (u "aud", VList (map VStr auds)); (u "jti", VStr jti);
   (u "exp", VInt exp); (u "iat", VInt iat)].
(** exp = 0 would count as missing *)
Record assertion_ok (client : ustr) (auds : list ustr) (jti : ustr) (exp : Z) : Prop := {
  ao_client : text client; ao_jti : text jti; ao_some : auds <> []; ao_auds : forall a, In a auds -> text a; ao_exp : exp <> 0%Z }.
(** the token request that carries it *)
Definition assertion_request (F : flow) (tok : ustr) : dict value :=
  token_request F ++ [(u "client_assertion_type", VStr (u "urn:ietf:params:oauth:client-assertion-type:jwt-bearer"));
                      (u "client_assertion", VStr tok)].
(** what the server [me] calls verify() with for the assertion that [client] presents *)
Definition server_args (me client : ustr) (skew : Z) : kwargs :=
  {| kw := [(u "aud", VStr me); (u "iss", VStr client); (u "skew", VInt skew)]; kw_jar := true |}.
