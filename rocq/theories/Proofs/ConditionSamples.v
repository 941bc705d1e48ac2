(** Witnesses for C148 and C149. *)
From Coq Require Import List NArith ZArith Bool String.
From Verif Require Import Base.Ustr Base.UstrLemmas Model.Cls Model.Value Model.Pspec Model.Tables Model.Message Model.Env Model.Verify
  Spec.VerifySpec Spec.ConditionSpec Proofs.ValueLemmas Proofs.VerifyLemmas Proofs.ConditionLemmas Proofs.Samples.
Import ListNotations.
Open Scope list_scope.
Open Scope N_scope.

(** a message of the class with one parameter too few or too many *)
Definition base (c : cls) : dict value :=
  match c with
  | C_oauth2_TokenExchangeRequest => [(u "grant_type", VStr (u "urn:ietf:params:oauth:grant-type:token-exchange")); (u "subject_token", VStr (u "st")); (u "subject_token_type", VStr (u "jwt"))]
  | C_oidc_AccessTokenRequest => [(u "grant_type", VStr (u "authorization_code")); (u "code", VStr (u "c")); (u "redirect_uri", VStr (u "https://rp/cb"))]
  | C_oauth2_TokenIntrospectionRequest => [(u "token", VStr (u "at"))]
  | C_oidc_RegistrationResponse => [(u "client_id", VStr (u "rp")); (u "redirect_uris", VList [VStr (u "https://rp/cb")])]
  | C_oidc_RegistrationRequest => [(u "redirect_uris", VList [VStr (u "https://rp/cb")])]
  | C_oauth2_AuthorizationErrorResponse => []
  | C_oidc_OpenIDSchema => [(u "sub", VStr (u "diana"))]
  | C_oauth2_JWTSecuredAuthorizationRequest => [(u "response_type", VList [VStr (u "code")]); (u "client_id", VStr (u "rp"))]
  | C_oidc_AuthorizationRequest => [(u "response_type", VList [VStr (u "code")]); (u "client_id", VStr (u "rp")); (u "scope", VList [VStr (u "openid")]); (u "redirect_uri", VStr (u "https://rp/cb"))]
  | C_oauth2_AccessTokenResponse => [(u "token_type", VStr (u "Bearer"))]
  | C_oidc_JsonWebToken => [(u "sub", VStr (u "diana"))]
  | C_oauth2_AuthorizationResponse => [(u "code", VStr (u "c")); (u "state", VStr (u "s"))]
  | C_oidc_IdToken => ddel idt_claims (u "nonce")
  | _ => []
  end.
Definition some_value (k : ustr) : value :=
  if ueqb k (u "client_assertion_type") then VStr (u "urn:ietf:params:oauth:client-assertion-type:jwt-bearer")
  else if ueqb k (u "_claim_names") then VMsg C_Message [(u "address", VStr (u "src1"))]
  else if ueqb k (u "jwks") then VDict [(u "keys", VList [])]
  else if ueqb k (u "request") then VStr (u "req.signed")
  else if ueqb k (u "client_secret_expires_at") then VInt 0
  else if ueqb k (u "error") then VStr (u "access_denied")
  else VStr (u "x").

Definition accepted (c : cls) (d : dict value) : bool :=
  match snd (verify sample (with_jar []) None c d) with Ok true => true | _ => false end.
Lemma accepted_true : forall c d, accepted c d = true -> exists d', verify sample (with_jar []) None c d = (d', Ok true).
Proof.
  intros c d H. unfold accepted in H. destruct (verify sample (with_jar []) None c d) as [d' r] eqn:V. cbn [snd] in H.
  destruct r as [[|]|]; try discriminate. exists d'. reflexivity.
Qed.
Definition lone_ok (x : cls * ustr * ustr) : bool :=
  let '(c, a, b) := x in let d := dset (base c) a (some_value a) in
  accepted c d && dhas d a && negb (dhas d b) && forallb (fun kv : ustr * value => dhas d (fst kv)) (fst (verify sample (with_jar []) None c d)).
Definition both_ok (x : cls * ustr * ustr) : bool :=
  let '(c, a, b) := x in let d := dset (dset (base c) a (some_value a)) b (some_value b) in accepted c d && dhas d a && dhas d b.
Definition vain_ok (x : cls * ustr * ustr) : bool :=
  let '(c, a, k) := x in let d := base c in
  match snd (verify sample (with_jar [(a, VStr (u "expected"))]) None c d) with Ok true => negb (dhas d k) | _ => false end.

Lemma names_has : forall (d : dict value) k, In k (names d) <-> dhas d k = true.
Proof.
  intros d k. rewrite names_get. unfold dhas. destruct (dget d k); split; intro H; try reflexivity; try discriminate; congruence.
Qed.
Lemma lone : forall c a b, In (c, a, b) together_not_enforced ->
  exists E K hdr d d', verify E K hdr c d = (d', Ok true) /\ In a (names d) /\ ~ In b (names d) /\ ~ In b (names d').
Proof.
  intros c a b H. assert (A : forallb lone_ok together_not_enforced = true) by (vm_compute; reflexivity).
  rewrite forallb_forall in A. specialize (A _ H). unfold lone_ok in A. cbv zeta in A.
  apply andb_prop in A. destruct A as [A F]. apply andb_prop in A. destruct A as [A Hb]. apply andb_prop in A. destruct A as [A Ha].
  destruct (accepted_true _ _ A) as [d' V]. exists sample, (with_jar []), None, (dset (base c) a (some_value a)), d'.
  split; [exact V|]. rewrite V in F. cbn [fst] in F. apply negb_true_iff in Hb.
  assert (B : ~ In b (names (dset (base c) a (some_value a)))) by (rewrite names_has; congruence).
  split; [apply names_has; exact Ha|]. split; [exact B|].
  intro I. apply B. unfold names in I. apply in_map_iff in I. destruct I as [[k v] [E I]]. cbn [fst] in E. subst k.
  rewrite forallb_forall in F. apply names_has. exact (F _ I).
Qed.
Lemma both : forall c a b, In (c, a, b) apart_not_enforced ->
  exists E K hdr d d', verify E K hdr c d = (d', Ok true) /\ In a (names d) /\ In b (names d).
Proof.
  intros c a b H. assert (A : forallb both_ok apart_not_enforced = true) by (vm_compute; reflexivity).
  rewrite forallb_forall in A. specialize (A _ H). unfold both_ok in A. cbv zeta in A.
  apply andb_prop in A. destruct A as [A Hb]. apply andb_prop in A. destruct A as [A Ha].
  destruct (accepted_true _ _ A) as [d' V]. exists sample, (with_jar []), None, (dset (dset (base c) a (some_value a)) b (some_value b)), d'.
  split; [exact V|]. split; apply names_has; assumption.
Qed.
Lemma vain : forall c a k, In (c, a, k) expects_in_vain ->
  exists E K hdr d d' x, verify E K hdr c d = (d', Ok true) /\ kget K a = Some (VStr x) /\ dget d k = None.
Proof.
  intros c a k H. assert (A : forallb vain_ok expects_in_vain = true) by (vm_compute; reflexivity).
  rewrite forallb_forall in A. specialize (A _ H). unfold vain_ok in A. cbv zeta in A.
  destruct (verify sample (with_jar [(a, VStr (u "expected"))]) None c (base c)) as [d' r] eqn:V. cbn [snd] in A.
  destruct r as [[|]|]; try discriminate. exists sample, (with_jar [(a, VStr (u "expected"))]), None, (base c), d', (u "expected").
  split; [exact V|]. split.
  - unfold kget, with_jar. cbn [kw dget]. rewrite (proj2 (ueqb_eq _ _) eq_refl). reflexivity.
  - apply negb_true_iff in A. unfold dhas in A. destruct (dget (base c) k); [discriminate|reflexivity].
Qed.

(** accepted messages with the parameters of the rules *)
Definition held_ok (x : cls * ustr * ustr) : bool :=
  let '(c, a, b) := x in
  let d := dset (dset (base c) a (some_value a)) b (if ueqb b (u "id_token_hint") then VStr (u "id.signed") else some_value b) in
  accepted c d && negb (match snd (verify sample (with_jar []) None c (ddel d b)) with Ok true => negb (dhas (fst (verify sample (with_jar []) None c (ddel d b))) b) | _ => false end).
