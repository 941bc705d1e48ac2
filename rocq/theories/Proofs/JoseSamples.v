(** A toy crypto library for the examples: a signed text carries the key and the algorithm in front, an
    encrypted text starts with E. *)
From Coq Require Import List NArith ZArith Bool String Lia.
From Verif Require Import Base.Ustr Base.UstrLemmas Base.Utf8 Base.Utf8Lemmas Model.Cls Model.Value Model.Pspec Model.Tables Model.Json
  Model.Message Model.Env Model.Verify Model.Jose
  Spec.JsonSpec Spec.MessageSpec Spec.CodecSpec Spec.VerifySpec Spec.RoundTripSpec Spec.JoseSpec
  Proofs.ValueLemmas Proofs.Deciders Proofs.VerifyLemmas Proofs.Samples Proofs.RoundTripSamples.
Import ListNotations.
Open Scope list_scope.
Open Scope N_scope.

Definition toy : jose := {|
  j_sign := fun text alg keys =>
    match keys with
    | k :: _ => Ok (83 :: k :: N.of_nat (List.length alg) :: alg ++ text)
    | [] => Err ENoSuitableSigningKeys
    end;
  j_encrypt := fun text enc alg keys =>
    match keys with
    | [] => Err ECrypto
    | _ => match utf8_encode text with Some _ => Ok (69 :: text) | None => Err EUnicodeEncodeError end
    end;
  j_decrypt := fun tok keys =>
    match keys, tok with
    | _ :: _, 69 :: text => match utf8_encode text with Some b => Ok b | None => Err ECrypto end
    | _, _ => Err ECrypto
    end |}.

Definition toy_env (now : Z) : env := {|
  e_now := now;
  e_jws := fun v =>
    match v with
    | VStr (83 :: _ :: n :: r) =>
        Ok (Some {| t_hdr := [(u "alg", VStr (firstn (N.to_nat n) r))]; t_body := json_loads (skipn (N.to_nat n) r) |})
    | VStr _ => Ok None
    | _ => Err ETypeError
    end;
  e_jwe := fun _ t _ => match t with 69 :: r => Ok (Some r) | _ => Ok None end;
  e_kj_true := true;
  e_kj_in := fun v => Ok (py_eq v (VStr (u "https://op")));
  e_kj_keys := fun _ _ _ _ => Ok [7];
  e_kj_update := fun _ => Ok tt;
  e_sig := fun t _ keys => match t with 83 :: k :: _ => if existsb (N.eqb k) keys then Ok tt else Err ECrypto | _ => Err ECrypto end;
  e_lhash := fun v h => match v with VStr s => Ok (VStr (h ++ u ":" ++ firstn 2 s)) | _ => Err EAttributeError end;
  e_repr := fun _ => Err EAttributeError;
  e_netloc_ok := fun _ => true |}.

Lemma toy_reads : forall now alg keys, reads_signed toy (toy_env now) alg keys.
Proof.
  intros now alg keys. constructor.
  - intros text tok v H Hv. destruct keys as [|k keys]; [discriminate|]. cbn [j_sign toy] in H. injection H as <-.
    eexists. cbn [e_jws toy_env]. rewrite Nnat.Nat2N.id, firstn_app, Nat.sub_diag, firstn_all, skipn_app, Nat.sub_diag, skipn_all.
    cbn [firstn skipn app]. rewrite app_nil_r, Hv. split; reflexivity.
  - intros text tok H i a. destruct keys as [|k keys]; [discriminate|]. cbn [j_sign toy] in H. injection H as <-. reflexivity.
Qed.

Lemma toy_trusts : forall now i args r, (forall v, dget args (u "sigalg") = Some v -> ~ empty_value v) ->
  trusts (toy_env now) i args (83 :: 7 :: r).
Proof.
  intros now i args r Hs tok Ht. split; [reflexivity|]. destruct (dget args (u "sigalg")) as [v|] eqn:Ev.
  - exists v, [7]. repeat split; [discriminate|left; exists v; auto].
  - exists (VStr []), [7]. repeat split; [discriminate|right; split; [congruence|reflexivity]].
Qed.

Lemma toy_decrypts : forall now i args t, decrypts (toy_env now) i args (69 :: t) t.
Proof. intros now i args t a _. reflexivity. Qed.
Lemma toy_decryptable : forall enc alg ekeys dkeys, dkeys <> [] -> decryptable toy enc alg ekeys dkeys.
Proof.
  intros enc alg ekeys dkeys Hd text tok H. cbn [j_encrypt toy] in H. destruct ekeys; [discriminate|].
  destruct (utf8_encode text) as [b|] eqn:Eb; [|discriminate]. injection H as <-. exists b. split; [reflexivity|].
  destruct dkeys; [congruence|]. cbn [j_decrypt toy]. rewrite Eb. reflexivity.
Qed.

(** the result of a computation that succeeds *)
Definition ok_or {A} (x : A) (r : res A) : A := match r with Ok a => a | Err _ => x end.

Definition rt_token : ustr := ok_or [] (message_to_jwt toy (cdef C_oidc_AuthorizationRequest) rt_request [7] (u "RS256")).
Definition rt_sealed : ustr := ok_or [] (to_jwe toy (cdef C_oidc_AuthorizationRequest) rt_request [9] (u "A128GCM") (u "RSA-OAEP")).

(** the claims of an honest ID Token, for the client rp *)
Definition honest : dict value :=
  [(u "iss", VStr (u "https://op")); (u "sub", VStr (u "diana")); (u "aud", VList [VStr (u "rp"); VStr (u "x")]);
   (u "azp", VStr (u "rp")); (u "nonce", VStr (u "n0")); (u "access_token", VStr (u "at1")); (u "code", VStr (u "co1"));
   (u "birthdate", VStr (u "1999-12-31"))].
Lemma honest_ok : honest_claims honest.
Proof.
  constructor.
  - split; [apply nodupb_ok; vm_compute; reflexivity|]. intros k v H. each H; (split; [vm_compute; reflexivity|]);
      spec_of_key; apply CnPlain; try is_plain.
    apply (PlList _ [u "rp"; u "x"]); [reflexivity|reflexivity|reflexivity|texts_ok|discriminate|discriminate].
  - intros k H. cbn [In] in H. destruct H as [<-|[<-|[<-|[]]]]; (eexists; split; [reflexivity|]); intro X; inversion X.
  - discriminate.
  - intros v H. change (dget honest (u "birthdate")) with (Some (VStr (u "1999-12-31"))) in H. injection H as <-.
    eexists. split; [reflexivity|].
    apply (BdFull 1999 12 31 (u "1999") (u "12") (u "31")).
    + split; [lia|reflexivity].
    + split; [lia|left; reflexivity].
    + split; [lia|left; reflexivity].
    + split; [lia|]. split; [lia|]. left. cbn [In]. split; [tauto|lia].
Qed.

Definition honest_args : kwargs := with_jar
  [(u "iss", VStr (u "https://op")); (u "client_id", VStr (u "rp")); (u "nonce", VStr (u "n0"));
   (u "allowed_sign_alg", VStr (u "RS256"))].
Lemma honest_meant : meant_for honest_args honest.
Proof.
  assert (G : forall x y : ustr, agree (Some (VStr x)) (Some (VStr y)) <-> x = y).
  { intros x y. split.
    - intro H. specialize (H _ _ eq_refl eq_refl). apply py_eq_str_r in H. congruence.
    - intros -> a b Ha Hb. injection Ha as <-. injection Hb as <-. apply py_eq_str_r. reflexivity. }
  constructor.
  - apply G. reflexivity.
  - intros aud c Ha Hc. change (kget honest_args (u "client_id")) with (Some (VStr (u "rp"))) in Hc. injection Hc as <-.
    change (dget honest (u "aud")) with (Some (VList [VStr (u "rp"); VStr (u "x")])) in Ha. injection Ha as <-.
    eexists. split; [left; reflexivity|reflexivity].
  - intros aud n Ha _ _. change (dget honest (u "aud")) with (Some (VList [VStr (u "rp"); VStr (u "x")])) in Ha. injection Ha as <-.
    exists (VStr (u "rp")). split; [reflexivity|]. eexists. split; [left; reflexivity|reflexivity].
  - apply G. reflexivity.
  - apply G. reflexivity.
Qed.

Definition honest_token : ustr := ok_or [] (snd (to_jwt toy (toy_env 1000) C_oidc_IdToken honest [7] (u "RS256") (VInt 600))).
Lemma honest_partners : partners toy (toy_env 1000) (toy_env 1500) honest_args (u "RS256") [7] 600 honest honest_token.
Proof.
  constructor.
  - apply toy_reads.
  - reflexivity.
  - split; [discriminate|]. intros a H. change (kget honest_args (u "allowed_sign_alg")) with (Some (VStr (u "RS256"))) in H. congruence.
  - intros args H. set (t := honest_token). vm_compute in t. subst t. apply toy_trusts.
    intros v Hv. rewrite H in Hv by (left; reflexivity). discriminate.
  - intros v H. change (dget honest (u "iss")) with (Some (VStr (u "https://op"))) in H. injection H as <-. reflexivity.
  - reflexivity.
  - split; [reflexivity|]. split; [reflexivity|]. exists 0%Z, 14400%Z. split; [left; split; reflexivity|].
    split; [left; split; reflexivity|]. split; cbn; lia.
Qed.
Definition honest_response : dict value :=
  [(u "access_token", VStr (u "at1")); (u "token_type", VStr (u "Bearer")); (u "code", VStr (u "co1"));
   (u "state", VStr (u "s")); (u "client_id", VStr (u "rp")); (u "id_token", VStr honest_token)].
Lemma honest_fits : forall t, msg_fits honest_args C_oidc_AuthorizationResponse (dset honest_response (u "id_token") (VStr t)).
Proof.
  intro t. constructor.
  - apply table_by_compute. destruct t; vm_compute; reflexivity.
  - intros v _ H. vm_compute in H. discriminate.
  - intros _ x y Hx Hy. change (Some (VStr (u "rp")) = Some x) in Hx. change (Some (VStr (u "rp")) = Some y) in Hy.
    injection Hx as <-. injection Hy as <-. reflexivity.
  - intros _ x y Hx. vm_compute in Hx. discriminate.
  - intros aud i _ H. vm_compute in H. discriminate.
Qed.
Lemma honest_hashable : forall k v, In k [u "access_token"; u "code"] -> dget honest k = Some v ->
  hashable (toy_env 1000) (u "HS256") v.
Proof.
  intros k v Hk Hv. cbn [In] in Hk.
  destruct Hk as [<-|[<-|[]]]; vm_compute in Hv; injection Hv as <-; (eexists; split; [reflexivity|]; split; [discriminate|vm_compute; reflexivity]).
Qed.
Lemma honest_hashed : hashed_with honest honest_response.
Proof.
  intros k x Hk Hx. cbn [In] in Hk. destruct Hk as [<-|[<-|[]]]; vm_compute in Hx; injection Hx as <-; vm_compute; reflexivity.
Qed.
Definition honest_sealed : ustr := 69 :: honest_token.
