(** Request objects that are made from an authorization request. *)
From Coq Require Import List NArith ZArith Bool String.
From Verif Require Import Base.Ustr Model.Cls Model.Value Model.Pspec Model.Tables Model.Env Model.RequestObject
  Spec.JsonSpec Spec.MessageSpec Spec.CodecSpec Spec.VerifySpec.
Import ListNotations.
Open Scope list_scope.
Open Scope N_scope.

(** the claims that the JWT class of the crypto library adds to a payload *)
Definition jwt_claims : list ustr := [u "iss"; u "iat"; u "aud"; u "exp"; u "jti"].

(** what the producer's library makes of a payload, the consumer's parses as a JWS (and not as a JWE) with that
    algorithm in its header and a body with the entries of the payload and some of those claims *)
Definition reads_packed (P : packer) (E : env) (issuer alg recv : ustr) (jti : bool) (life : option Z) : Prop :=
  forall r tok, k_pack P issuer alg jti life r issuer recv = Ok tok ->
    not_encrypted E tok /\
    exists h b, e_jws E (VStr tok) = Ok (Some {| t_hdr := h; t_body := Ok (VDict b) |}) /\
      dget h (u "alg") = Some (VStr alg) /\ NoDup (map fst b) /\
      (forall k, ~ In k jwt_claims -> dget b k = dget r k) /\
      (forall k v, In k jwt_claims -> dget b k = Some v -> json_value v /\ ~ blank v) /\
      dget b (u "iss") = Some (VStr issuer).

(** the arguments for finding the keys of a request object: those of the caller; unless the caller names one, the
    client of the request is the opponent *)
Definition request_passed (K : kwargs) (msg args : dict value) : Prop :=
  forall k, dget args k =
    if existsb (ueqb k) [u "opponent_id"; u "sender"; u "alg"; u "encalg"; u "encenc"] then
      match kget K k with
      | Some v => Some v
      | None => if ueqb k (u "opponent_id") then dget msg (u "client_id") else None
      end
    else None.
