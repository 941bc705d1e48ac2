(** Samples of messages with tokens that verify() refuses. *)
From Coq Require Import List NArith ZArith QArith Bool String.
From Verif Require Import Base.Ustr Model.Cls Model.Value Model.Pspec Model.Tables Model.Json Model.Message Model.Env Model.Verify
  Spec.VerifySpec Spec.ErrorSpec Spec.RaiseSpec Spec.TokenErrorSpec Proofs.Samples Proofs.RaiseLemmas Proofs.RaiseSamples Proofs.TokenErrorLemmas.
Import ListNotations.
Open Scope list_scope.
Open Scope N_scope.

(** further tokens: claims that are null, a list, no object *)
Definition odd_tokens : list (ustr * token) :=
  [(u "no.alg", tok_of [] idt_claims);
   (u "id.list", {| t_hdr := rs256; t_body := Ok (VList []) |});
   (u "id.noexp", tok_of rs256 (dset idt_claims (u "exp") VNone));
   (u "id.noazp", tok_of rs256 (dset (dset idt_claims (u "azp") VNone) (u "aud") (VStr (u "rp and rp2"))));
   (u "id.noerr", tok_of rs256 (dset idt_claims (u "error_description") VNone));
   (u "id.born", tok_of rs256 (dset idt_claims (u "birthdate") VNone));
   (u "lo.noevent", tok_of rs256 (dset logout_claims (u "events") (VStr (u "[1]"))));
   (u "id.audobj", tok_of rs256 (dset idt_claims (u "aud") (VDict [(u "rp", VInt 1)])))].
Definition te_env : env := {|
  e_now := e_now sample;
  e_jws := fun v => match v with VStr s => match dget odd_tokens s with Some t => Ok (Some t) | None => e_jws sample v end | _ => e_jws sample v end;
  e_jwe := e_jwe sample; e_kj_true := e_kj_true sample; e_kj_in := e_kj_in sample; e_kj_keys := e_kj_keys sample;
  e_kj_update := e_kj_update sample; e_sig := e_sig sample; e_lhash := e_lhash sample; e_repr := e_repr sample;
  e_netloc_ok := e_netloc_ok sample |}.
Definition te_outcome (c : cls) (K : kwargs) (d : dict value) : res bool := snd (verify te_env K None c d).
Definition te_logout (t : string) : dict value := [(u "logout_token", VStr (u t))].

Lemma claims_by_compute : forall c l,
  forallb (fun kv => json_only (snd kv)) l = true ->
  forallb (fun kv : ustr * value => negb (umem (fst kv) [u "error_description"; u "birthdate"]) || negb (py_eq (snd kv) VNone)) l = true ->
  forallb (fun kv : ustr * value => negb (ueqb (fst kv) (u "events")) || match snd kv with VStr _ => false | _ => true end) l = true ->
  claims_fine c (VDict l).
Proof.
  intros c l J A B. exists l. split; [reflexivity|]. split; [exact J|]. rewrite forallb_forall in A, B. split.
  - intros k v Hin Hk ->. specialize (A _ Hin). cbn [fst snd] in A. change (py_eq VNone VNone) with true in A. rewrite orb_false_r in A.
    apply negb_true_iff in A. apply umem_In in Hk. congruence.
  - intros t x _ Hin. specialize (B _ Hin). cbn [fst snd] in B. rewrite ueqb_refl in B. discriminate.
Qed.
Lemma sample_fine : forall c t tok l, e_jws sample (VStr t) = Ok (Some tok) -> (exists alg, dget (t_hdr tok) (u "alg") = Some (VStr alg)) -> t_body tok = Ok (VDict l) ->
  claims_fine c (VDict l) -> well_formed sample c t.
Proof.
  intros c t tok l H A B C. split; [apply sample_not_encrypted|]. rewrite H. split; [|discriminate]. intros tok' X. injection X as <-. split; [exact A|].
  intros b Hb. rewrite B in Hb. injection Hb as <-. exact C.
Qed.
Lemma te_response : forall t, In t ["id.signed"; "id.forged"; "id.none"; "id.unknown"]%string -> tokens_well_formed sample (token_response t).
Proof.
  intros t Ht k c v Hk Hv. cbn [In token_parameters] in Hk. destruct Hk as [Hk|[Hk|[Hk|[]]]]; injection Hk as <- <-; [|discriminate|discriminate].
  assert (X : v = VStr (u t)) by (change (Some (VStr (u t)) = Some v) in Hv; congruence). exists (u t). split; [exact X|].
  cbn [In] in Ht. destruct Ht as [<-|[<-|[<-|[<-|[]]]]]; (eapply sample_fine; [vm_compute; reflexivity|eexists; vm_compute; reflexivity|vm_compute; reflexivity|apply claims_by_compute; vm_compute; reflexivity]).
Qed.
Lemma te_usual : usual_args (with_jar [(u "client_id", VStr (u "rp"))]).
Proof.
  split; [|split; [|reflexivity]]; intros k v Hk Hv; cbn [In] in Hk; destruct Hk as [<-|[<-|[]]]; try discriminate. injection Hv as <-. eexists. reflexivity.
Qed.
Lemma te_expected : forall t, as_expected C_oidc_AccessTokenResponse (token_response t).
Proof.
  intros t b l k f v Hb Hs Hk Hv. cbn [In looks_into] in Hb.
  repeat (destruct Hb as [Hb|Hb]; [injection Hb as <- <-; first [discriminate Hs|cbn [In] in Hk; repeat (destruct Hk as [Hk|Hk]; [injection Hk as <- <-; discriminate Hv|]); destruct Hk]|]).
  destruct Hb.
Qed.
Lemma te_conditions : ~ anticipated ETypeError /\ ~ anticipated EKeyError /\ ~ anticipated EAttributeError /\
  te_outcome C_oidc_AccessTokenResponse {| kw := []; kw_jar := false |} (token_response "id.signed") = Err ETypeError /\
  te_outcome C_oidc_AccessTokenResponse (with_jar []) (token_response "no.alg") = Err EKeyError /\
  te_outcome C_oidc_AccessTokenResponse (with_jar []) (token_response "id.list") = Err ETypeError /\
  te_outcome C_oidc_AccessTokenResponse (with_jar []) (token_response "id.noerr") = Err ETypeError /\
  te_outcome C_oidc_AccessTokenResponse (with_jar []) (token_response "id.born") = Err ETypeError /\
  te_outcome C_session_BackChannelLogoutRequest (with_jar []) (te_logout "lo.noevent") = Err EAttributeError /\
  te_outcome C_session_BackChannelLogoutRequest (with_jar []) (te_logout "[]") = Err EAttributeError.
Proof.
  destruct raise_refuted as (A & B & C & _). split; [exact A|]. split; [exact B|]. split; [exact C|]. repeat split; vm_compute; reflexivity.
Qed.
