(** A toy JWT class for the examples: claims are added to the payload, the toy library signs the JSON text. *)
From Coq Require Import List NArith ZArith Bool String Lia.
From Verif Require Import Base.Ustr Base.UstrLemmas Model.Cls Model.Value Model.Pspec Model.Tables Model.Json
  Model.Message Model.Env Model.Verify Model.Jose Model.RequestObject
  Spec.JsonSpec Spec.MessageSpec Spec.CodecSpec Spec.VerifySpec Spec.RoundTripSpec Spec.JoseSpec Spec.RequestObjectSpec
  Proofs.ValueLemmas Proofs.JsonLemmas Proofs.Deciders Proofs.VerifyLemmas Proofs.Samples Proofs.RoundTripSamples Proofs.ResponseLemmas Proofs.RequestObjectLemmas Proofs.JoseSamples.
Import ListNotations.
Open Scope list_scope.
Open Scope N_scope.

Definition toy_claims (issuer : ustr) (jti : bool) (life : option Z) (recv : ustr) : dict value :=
  [(u "iss", VStr issuer); (u "iat", VInt 1000); (u "aud", VList [VStr recv; VStr (u "x")])] ++
  (match life with Some z => [(u "exp", VInt (1000 + z))] | None => [] end) ++
  (if jti then [(u "jti", VStr (u "j1"))] else []).
Definition toy_packer : packer := {|
  k_pack := fun issuer alg jti life r owner recv =>
    let b := toy_claims issuer jti life recv ++ filter (fun kv => negb (existsb (ueqb (fst kv)) jwt_claims)) r in
    if jsonb (VDict b) then do t <- json_dumps (VDict b) ; j_sign toy t alg [7] else Err ETypeError |}.

Lemma in_claims : forall k, existsb (ueqb k) jwt_claims = true <-> In k jwt_claims.
Proof.
  intro k. rewrite existsb_exists. split.
  - intros (x & Hx & E). apply ueqb_eq in E. subst. exact Hx.
  - intro H. exists k. split; [exact H|apply ueqb_refl].
Qed.
Lemma dget_filter_claims : forall (r : dict value) k, dget (filter (fun kv => negb (existsb (ueqb (fst kv)) jwt_claims)) r) k =
  if existsb (ueqb k) jwt_claims then None else dget r k.
Proof.
  intros r k. rewrite (dget_filter (fun k => negb (existsb (ueqb k) jwt_claims))). destruct (existsb (ueqb k) jwt_claims); reflexivity.
Qed.
Lemma toy_packer_reads : forall now issuer alg recv jti life, issuer <> [] ->
  reads_packed toy_packer (toy_env now) issuer alg recv jti life.
Proof.
  intros now issuer alg recv jti life Hi r tok H. cbn [k_pack toy_packer] in H. cbv zeta in H.
  remember (toy_claims issuer jti life recv ++ filter (fun kv : ustr * value => negb (existsb (ueqb (fst kv)) jwt_claims)) r) as b eqn:Eb.
  destruct (jsonb (VDict b)) eqn:Ej; [|discriminate]. apply jsonb_ok in Ej. destruct (json_codec _ Ej) as (t & J1 & _ & J2).
  rewrite J1 in H. cbn [bind] in H. split; [exact (rs_jwe _ _ _ _ (toy_reads now alg [7]) _ _ H)|].
  destruct (rs_jws _ _ _ _ (toy_reads now alg [7]) _ _ _ H J2) as (h & R1 & R2).
  exists h, b. split; [exact R1|]. split; [exact R2|]. inversion Ej as [| | | | |d Hn Hd|]; subst d. split; [exact Hn|].
  assert (G : forall k v, dget (toy_claims issuer jti life recv) k = Some v -> In k jwt_claims /\ ~ blank v).
  { intros k v Hk. apply dget_In in Hk.
    destruct life, jti; cbn [toy_claims app In] in Hk; decompose [or] Hk; try contradiction;
      match goal with E : (_, _) = (k, v) |- _ => injection E as <- <- end;
      (split; [cbn [jwt_claims In]; tauto|intros [E|E]; first [discriminate|injection E as E; congruence]]). }
  assert (Get : forall k, dget b k = match dget (toy_claims issuer jti life recv) k with Some v => Some v
                                     | None => if existsb (ueqb k) jwt_claims then None else dget r k end).
  { intro k. rewrite Eb, dget_app_value, dget_filter_claims. reflexivity. }
  split; [|split].
  - intros k Hk. rewrite Get. destruct (dget (toy_claims issuer jti life recv) k) as [v|] eqn:Ev; [apply G in Ev; tauto|].
    destruct (existsb (ueqb k) jwt_claims) eqn:Ek; [apply in_claims in Ek; tauto|reflexivity].
  - intros k v Hk Hv. split; [apply dget_In in Hv; apply (Hd _ _ Hv)|]. rewrite Get in Hv.
    destruct (dget (toy_claims issuer jti life recv) k) as [w|] eqn:Ew; [injection Hv as <-; apply G in Ew; tauto|].
    apply in_claims in Hk. rewrite Hk in Hv. discriminate.
  - rewrite Get. reflexivity.
Qed.

(** the request of the example, the object made of it, and the message with the object *)
Definition ro_request : dict value :=
  [(u "response_type", VList [VStr (u "code"); VStr (u "id_token")]); (u "client_id", VStr (u "rp"));
   (u "scope", VList [VStr (u "openid"); VStr (u "offline_access")]); (u "redirect_uri", VStr (u "https://rp/cb"));
   (u "nonce", VStr (u "n0")); (u "prompt", VList [VStr (u "consent")]); (u "claims", rt_claims); (u "x", VInt 3)].
Definition ro_args : kwargs := with_jar [(u "nonce", VStr (u "n0"))].
Definition ro_token : ustr :=
  ok_or [] (make_openid_request toy_packer (cdef C_oidc_AuthorizationRequest) ro_request (u "rp") (u "RS256") (u "https://op") true 300).
Definition ro_message : dict value :=
  [(u "response_type", VList [VStr (u "code"); VStr (u "id_token")]); (u "client_id", VStr (u "rp"));
   (u "scope", VList [VStr (u "openid"); VStr (u "offline_access")]); (u "redirect_uri", VStr (u "https://rp/cb"));
   (u "request", VStr ro_token)].
Lemma ro_request_canon : content canon (cd_param (cdef C_oidc_AuthorizationRequest)) ro_request.
Proof.
  split; [apply nodupb_ok; vm_compute; reflexivity|]. intros k v H. each H; (split; [vm_compute; reflexivity|]); try exact rt_claims_canon;
    spec_of_key; apply CnPlain; try is_plain.
  - sp_list [u "code"; u "id_token"].
  - sp_list [u "openid"; u "offline_access"].
  - sp_list [u "consent"].
Qed.
Lemma ro_rules : authz_rules ro_args ro_request.
Proof. apply request_rules_true. vm_compute. reflexivity. Qed.
Lemma ro_trusted : forall args, request_passed ro_args ro_message args -> u "RS256" = u "none" \/ trusts (toy_env 1500) 0 args ro_token.
Proof.
  intros args H. right. set (t := ro_token). vm_compute in t. subst t. apply toy_trusts. intros v Hv. rewrite H in Hv. discriminate.
Qed.
Lemma ro_taken : forall k v, dget ro_message k = Some v -> k = u "request" \/ dget ro_request k = Some v.
Proof.
  intros k v H. apply dget_In in H. each H; try (right; reflexivity). left. reflexivity.
Qed.
