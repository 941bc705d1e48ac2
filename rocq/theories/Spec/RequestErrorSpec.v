(** The exceptions of verify() of an authorization request that carries a request object. *)
From Coq Require Import List NArith ZArith Bool String.
From Verif Require Import Base.Ustr Model.Cls Model.Value Model.Json Model.Env Spec.TokenErrorSpec.
Import ListNotations.
Open Scope list_scope.
Open Scope N_scope.

(** an exception of the crypto library or of the key jar, decryption included *)
Definition from_crypto (E : env) (e : exn) : Prop := from_outside E e \/ exists i t a, e_jwe E i t a = Err e.

(** [t'] is what is inside of the encrypted text [t], or [t] itself if it is not encrypted *)
Definition opens (E : env) (t t' : ustr) : Prop := exists i a, e_jwe E i t a = Ok (Some t') \/ e_jwe E i t a = Ok None /\ t' = t.
(** a text with claims inside, signed, plain or encrypted: a header, if there is one, names an algorithm, and the claims are a
    JSON object *)
Definition claims_of (E : env) (t : ustr) (b : value) : Prop :=
  exists t', opens E t t' /\ ((exists tok, e_jws E (VStr t') = Ok (Some tok) /\ t_body tok = Ok b) \/ e_jws E (VStr t') = Ok None /\ json_loads t' = Ok b).
Record readable (E : env) (t : ustr) : Prop := {
  rd_alg : forall t' tok, opens E t t' -> e_jws E (VStr t') = Ok (Some tok) -> exists alg, dget (t_hdr tok) (u "alg") = Some (VStr alg);
  rd_claims : forall b, claims_of E t b -> exists l, b = VDict l /\ json_only (VDict l) = true }.
(** so is an ID Token hint inside of a request object *)
Definition request_readable (E : env) (t : ustr) : Prop :=
  readable E t /\ forall l h, claims_of E t (VDict l) -> In (u "id_token_hint", VStr h) l -> readable E h.
