(** Samples of authorization requests with request objects that verify() refuses. *)
From Coq Require Import List NArith ZArith QArith Bool String.
From Verif Require Import Base.Ustr Model.Cls Model.Value Model.Pspec Model.Tables Model.Json Model.Message Model.Env Model.Verify
  Spec.VerifySpec Spec.ErrorSpec Spec.RaiseSpec Spec.TokenErrorSpec Spec.RequestErrorSpec Proofs.Samples Proofs.RaiseLemmas Proofs.RaiseSamples Proofs.TokenErrorLemmas.
Import ListNotations.
Open Scope list_scope.
Open Scope N_scope.

Definition txt (s : string) : value := VStr (u s).
Definition request_claims : dict value :=
  [(u "response_type", txt "code"); (u "client_id", txt "rp"); (u "scope", VList [txt "openid"; txt "email"]); (u "redirect_uri", txt "https://rp/cb")].
(** request objects: in order, with a hint, with parameters of unexpected types, with claims of nothing, without openid,
    without an algorithm in the header, with claims that are a list, and with a hint of that kind *)
Definition request_tokens : list (ustr * token) :=
  [(u "ro.good", tok_of rs256 request_claims);
   (u "ro.hint", tok_of rs256 (request_claims ++ [(u "id_token_hint", txt "id.signed")]));
   (u "ro.odd", tok_of rs256 (dset request_claims (u "response_type") (VInt 5)));
   (u "ro.object", tok_of rs256 (dset request_claims (u "response_type") (VDict [(u "id_token", VNone)])));
   (u "ro.claims", tok_of rs256 (request_claims ++ [(u "claims", VDict [(u "userinfo", VNone)])]));
   (u "ro.closed", tok_of rs256 (dset request_claims (u "scope") (txt "email")));
   (u "ro.forged", tok_of rs256 request_claims);
   (u "ro.noalg", tok_of [] request_claims);
   (u "ro.list", {| t_hdr := rs256; t_body := Ok (VList []) |});
   (u "ro.oddhint", tok_of rs256 (request_claims ++ [(u "id_token_hint", txt "ro.list")]));
   (u "ro.alghint", tok_of rs256 (request_claims ++ [(u "id_token_hint", txt "ro.noalg")]))].
Definition re_env : env := {|
  e_now := e_now sample;
  e_jws := fun v => match v with VStr s => match dget request_tokens s with Some t => Ok (Some t) | None => e_jws sample v end | _ => e_jws sample v end;
  e_jwe := fun _ t _ => if ueqb t (u "enc(ro.good)") then Ok (Some (u "ro.good")) else if ueqb t (u "enc()") then Err ECrypto else Ok None;
  e_kj_true := e_kj_true sample; e_kj_in := e_kj_in sample; e_kj_keys := e_kj_keys sample;
  e_kj_update := e_kj_update sample; e_sig := fun t a k => if ueqb t (u "ro.forged") then Err ECrypto else e_sig sample t a k;
  e_lhash := e_lhash sample; e_repr := e_repr sample; e_netloc_ok := e_netloc_ok sample |}.

Definition re_query (t : string) : ustr :=
  u "response_type=code&client_id=rp&scope=openid&redirect_uri=https://rp/cb&claims=%7B%22userinfo%22%3A%7B%22email%22%3Anull%7D%7D&request=" ++ u t.
Definition re_read (c : cls) (t : string) : dict value := fst (from_urlencoded (cdef c) (cd_default (cdef c)) (re_query t)).
Definition re_outcome (K : kwargs) (c : cls) (t : string) : res bool := snd (verify re_env K None c (re_read c t)).

Lemma readable_by : forall E t t' tok l, (forall i a, e_jwe E i t a = Ok (Some t') \/ e_jwe E i t a = Ok None /\ t' = t) ->
  e_jws E (VStr t') = Ok (Some tok) -> (exists alg, dget (t_hdr tok) (u "alg") = Some (VStr alg)) -> t_body tok = Ok (VDict l) -> json_only (VDict l) = true ->
  readable E t /\ forall l', claims_of E t (VDict l') -> l' = l.
Proof.
  intros E t t' tok l He Hj Ha Hb J.
  assert (O : forall t2, opens E t t2 -> t2 = t').
  { intros t2 (i & a & H). destruct (He i a) as [X|[X Y]]; destruct H as [H|[H Z]]; rewrite X in H; try discriminate; [injection H as <-; reflexivity|congruence]. }
  assert (C : forall b, claims_of E t b -> b = VDict l).
  { intros b (t2 & H2 & H). rewrite (O t2 H2), Hj in H. destruct H as [(tok2 & H & H3)|[H _]]; [|discriminate]. injection H as <-. congruence. }
  split; [split|].
  - intros t2 tok2 H2 H. rewrite (O t2 H2), Hj in H. injection H as <-. exact Ha.
  - intros b Hc. exists l. split; [exact (C b Hc)|exact J].
  - intros l' Hc. specialize (C _ Hc). congruence.
Qed.
Definition in_order : list string := ["ro.good"; "ro.hint"; "ro.odd"; "ro.object"; "ro.claims"; "ro.closed"; "ro.forged"; "enc(ro.good)"]%string.
Lemma re_readable : forall t, In t in_order -> request_readable re_env (u t).
Proof.
  assert (H : readable re_env (u "id.signed")).
  { assert (X : readable re_env (u "id.signed") /\ forall l', claims_of re_env (u "id.signed") (VDict l') -> l' = idt_claims).
    { apply (readable_by _ _ (u "id.signed") (tok_of rs256 idt_claims)); [intros; right; split; reflexivity|vm_compute; reflexivity|eexists; vm_compute; reflexivity|reflexivity|vm_compute; reflexivity]. }
    apply X. }
  assert (B : forall t t' tok l, In t in_order -> (forall i a, e_jwe re_env i (u t) a = Ok (Some t') \/ e_jwe re_env i (u t) a = Ok None /\ t' = u t) ->
    e_jws re_env (VStr t') = Ok (Some tok) -> (exists alg, dget (t_hdr tok) (u "alg") = Some (VStr alg)) -> t_body tok = Ok (VDict l) -> json_only (VDict l) = true ->
    forallb (fun kv : ustr * value => negb (ueqb (fst kv) (u "id_token_hint")) || py_eq (snd kv) (txt "id.signed")) l = true -> request_readable re_env (u t)).
  { intros t t' tok l _ H1 H2 H3 H4 H5 H6. destruct (readable_by re_env (u t) t' tok l H1 H2 H3 H4 H5) as [R1 R2]. split; [exact R1|].
    intros l' h Hc Hin. rewrite (R2 l' Hc) in Hin. rewrite forallb_forall in H6. specialize (H6 _ Hin). cbn [fst snd] in H6. rewrite ueqb_refl in H6. cbn [negb orb] in H6.
    unfold txt in H6. cbn [py_eq] in H6. apply ueqb_eq in H6. rewrite H6. exact H. }
  intros t Ht. pose proof Ht as Hi. unfold in_order in Ht. cbn [In] in Ht.
  repeat (destruct Ht as [<-|Ht];
    [first [eapply B; [exact Hi|intros i a; right; split; [vm_compute; reflexivity|reflexivity]|vm_compute; reflexivity|eexists; vm_compute; reflexivity|vm_compute; reflexivity|vm_compute; reflexivity|vm_compute; reflexivity]
           |eapply B; [exact Hi|intros i a; left; vm_compute; reflexivity|vm_compute; reflexivity|eexists; vm_compute; reflexivity|vm_compute; reflexivity|vm_compute; reflexivity|vm_compute; reflexivity]]|]).
  destruct Ht.
Qed.
Lemma re_requests : forall c t, In c [C_oidc_AuthorizationRequest; C_oauth2_JWTSecuredAuthorizationRequest; C_oauth2_PushedAuthorizationRequest] -> In t in_order ->
  from_urlencoded (cdef c) (cd_default (cdef c)) (re_query t) = (re_read c t, Ok tt) /\ dget (re_read c t) (u "request") = Some (VStr (u t)).
Proof.
  intros c t Hc Ht. cbn [In] in Hc. unfold in_order in Ht. cbn [In] in Ht.
  repeat (destruct Hc as [<-|Hc]; [repeat (destruct Ht as [<-|Ht]; [split; vm_compute; reflexivity|]); destruct Ht|]). destruct Hc.
Qed.
Lemma re_conditions :
  re_outcome {| kw := []; kw_jar := false |} C_oidc_AuthorizationRequest "ro.good" = Err ETypeError /\
  re_outcome {| kw := []; kw_jar := false |} C_oauth2_PushedAuthorizationRequest "ro.good" = Err ETypeError /\
  map (re_outcome (with_jar []) C_oidc_AuthorizationRequest) ["ro.noalg"; "ro.list"; "ro.oddhint"; "ro.alghint"]%string =
    [Err EKeyError; Err EAttributeError; Err EAttributeError; Err EKeyError] /\
  map (re_outcome (with_jar []) C_oauth2_JWTSecuredAuthorizationRequest) ["ro.noalg"; "ro.list"; "ro.oddhint"; "ro.alghint"]%string =
    [Err EKeyError; Err EAttributeError; Ok true; Ok true].
Proof. repeat split; vm_compute; reflexivity. Qed.
