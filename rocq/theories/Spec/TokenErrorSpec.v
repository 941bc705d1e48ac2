(** The exceptions of verify() of a message that carries tokens. *)
From Coq Require Import List NArith ZArith Bool String.
From Verif Require Import Base.Ustr Model.Cls Model.Value Model.Json Model.Env Spec.VerifySpec.
Import ListNotations.
Open Scope list_scope.
Open Scope N_scope.

(** an exception of the crypto library or of the key jar *)
Inductive from_outside (E : env) (e : exn) : Prop :=
| OutParse : forall v, e_jws E v = Err e -> from_outside E e
| OutPayload : forall v tok, e_jws E v = Ok (Some tok) -> t_body tok = Err e -> from_outside E e
| OutIssuer : forall v, e_kj_in E v = Err e -> from_outside E e
| OutKeys : forall i b tok a, e_kj_keys E i b tok a = Err e -> from_outside E e
| OutUpdate : forall i, e_kj_update E i = Err e -> from_outside E e
| OutSignature : forall t a ks, e_sig E t a ks = Err e -> from_outside E e
| OutHash : forall v f, e_lhash E v f = Err e -> from_outside E e.

(** what a JSON document can hold: no message object anywhere *)
Fixpoint json_only (v : value) : bool :=
  match v with
  | VMsg _ _ => false
  | VList l => forallb json_only l
  | VDict d => forallb (fun kv => json_only (snd kv)) d
  | _ => true
  end.

(** the claims are a JSON object in which the description of an error and the date of birth are not null; if the events of a
    logout token come as a text, it says null, false, zero or nothing, or it is the text of an object *)
Definition claims_fine (c : cls) (b : value) : Prop :=
  exists l, b = VDict l /\ json_only (VDict l) = true /\
    (forall k v, In (k, v) l -> In k [u "error_description"; u "birthdate"] -> v <> VNone) /\
    (forall t x, c = C_session_LogoutToken -> In (u "events", VStr t) l -> json_loads t = Ok x -> truthy x = true -> exists o, x = VDict o).
(** the text of a token that is not encrypted, with an algorithm in its header, if it has one, and such claims *)
Definition well_formed (E : env) (c : cls) (t : ustr) : Prop :=
  not_encrypted E t /\
  (forall tok, e_jws E (VStr t) = Ok (Some tok) ->
     (exists alg, dget (t_hdr tok) (u "alg") = Some (VStr alg)) /\ forall b, t_body tok = Ok b -> claims_fine c b) /\
  (e_jws E (VStr t) = Ok None -> forall b, json_loads t = Ok b -> claims_fine c b).
(** the parameters that hold tokens, and their classes *)
Definition token_parameters : list (ustr * cls) :=
  [(u "id_token", C_oidc_IdToken); (u "id_token_hint", C_oidc_IdToken); (u "logout_token", C_session_LogoutToken)].
Definition tokens_well_formed (E : env) (d : dict value) : Prop :=
  forall k c v, In (k, c) token_parameters -> dget d k = Some v -> exists t, v = VStr t /\ well_formed E c t.
