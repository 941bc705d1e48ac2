(** An honest flow goes through. *)
From Coq Require Import List NArith ZArith Bool String Lia.
From Verif Require Import Base.Ustr Base.UstrLemmas Base.Utf8 Model.Cls Model.Value Model.Pspec Model.Tables Model.Json Model.Message Model.Env Model.Verify Model.Jose
  Spec.MessageSpec Spec.CodecSpec Spec.RoundTripSpec Spec.VerifySpec Spec.JoseSpec Spec.OrderSpec Spec.FlowSpec
  Proofs.ValueLemmas Proofs.MessageLemmas Proofs.TypeLemmas Proofs.VerifyLemmas Proofs.RoundTrip Proofs.ResponseLemmas Proofs.JoseLemmas Proofs.RequestObjectLemmas Proofs.OrderLemmas.
Import ListNotations.
Open Scope list_scope.
Open Scope N_scope.

Lemma table_same : forall C (d1 d2 : dict value), (forall k, dget d1 k = dget d2 k) -> table_ok C d1 -> table_ok C d2.
Proof.
  intros C d1 d2 H [H1 H2]. split; intros a X.
  - apply (H1 a). destruct X as (s & I & N & R & Y). exists s. rewrite H. tauto.
  - apply (H2 a). destruct X as (s & v & al & I & N & R & Y). exists s, v, al. rewrite H. tauto.
Qed.
Lemma text_urlable : forall s t, text t -> (forall e, p_typ s <> TList e) -> p_deser s = None -> urlable (Some s) (VStr t).
Proof. intros s t [H1 H2] H3 H4. apply UrStr; assumption. Qed.
Lemma text_canon : forall s t, text t -> p_typ s = TStr -> p_ser s = None -> canon (Some s) (VStr t).
Proof. intros s t [H1 H2] H3 H4. apply CnPlain, PlStr; assumption. Qed.
Lemma text_any : forall t, text t -> urlable None (VStr t).
Proof. intros t [H1 H2]. apply UrAny; assumption. Qed.
Lemma text_canon_any : forall t, text t -> canon None (VStr t).
Proof. intros t [H1 H2]. apply CnPlain, PlAny; [constructor; exact H1|]. intros [H|H]; congruence. Qed.
Lemma text_lit : forall s, scalars (u s) = true -> u s <> [] -> text (u s).
Proof. intros. split; assumption. Qed.

Lemma ne : forall t, text t -> ~ empty_value (VStr t).
Proof. intros t [_ H] X. inversion X. congruence. Qed.

Section Flow.
Variable F : flow.
Hypothesis HF : flow_ok F.
Lemma fl_texts : text (f_client F) /\ text (f_redirect F) /\ text (f_state F) /\ text (f_nonce F) /\ text (f_code F) /\ text (f_token F) /\ text (f_issuer F) /\ text (f_subject F).
Proof. repeat split; try apply (fk_texts F HF); cbn [In]; tauto. Qed.
Lemma scopes_ok : texts (u "openid" :: f_scopes F) /\ blank_free (u "openid" :: f_scopes F) /\ (u "openid" :: f_scopes F) <> [[]].
Proof.
  split; [|split].
  - intros s [<-|H]; [reflexivity|]. apply (fk_scopes F HF s H).
  - apply Forall_forall. intros s [<-|H]; [vm_compute; intuition discriminate|]. apply (fk_scopes F HF s H).
  - discriminate.
Qed.
Ltac key := match goal with |- _ (param_spec ?P ?k) _ => let s := eval vm_compute in (param_spec P k) in change (param_spec P k) with s end.
Ltac tx := destruct fl_texts as (? & ? & ? & ? & ? & ? & ? & ?); first [eassumption | apply text_lit; [reflexivity|discriminate]].
Ltac entries := let k := fresh "k" in let v := fresh "v" in let H := fresh "H" in intros k v H; cbn [In app auth_request auth_response token_request token_response token_claims hybrid_claims hybrid_response] in H;
  repeat (destruct H as [H|H]; [injection H as <- <-; split; [reflexivity|]; key|]); [..|contradiction].
Ltac nodup := cbn [map fst app auth_request auth_response token_request token_response token_claims hybrid_claims hybrid_response]; repeat (constructor; [cbn [In map fst]; intuition discriminate|]); constructor.
Ltac url1 := first [apply text_any; tx | apply text_urlable; [tx|intro; discriminate|reflexivity]].
Ltac can1 := first [apply text_canon_any; tx | apply text_canon; [tx|reflexivity|reflexivity] | apply CnPlain; apply PlToken; [reflexivity|reflexivity|reflexivity|..]; tx].

Lemma request_url : forall types, In types [[u "code"]; [u "code"; u "id_token"; u "token"]] ->
  content urlable (cd_param (cdef C_oidc_AuthorizationRequest)) (auth_request F types).
Proof.
  intros types Ht. split; [nodup|]. destruct scopes_ok as (S1 & S2 & S3). entries; try url1.
  - eapply UrList; [reflexivity|right; reflexivity|right; reflexivity|..]; cbn [In] in Ht; destruct Ht as [<-|[<-|[]]]; try discriminate;
      try (intros s Hs; cbn [In] in Hs; repeat (destruct Hs as [<-|Hs]; [reflexivity|]); contradiction);
      apply Forall_forall; intros s Hs; cbn [In] in Hs; repeat (destruct Hs as [<-|Hs]; [vm_compute; intuition discriminate|]); contradiction.
  - eapply UrList; [reflexivity|right; reflexivity|right; reflexivity|exact S1|exact S2|discriminate|exact S3].
Qed.
Lemma request_canon : forall types, In types [[u "code"]; [u "code"; u "id_token"; u "token"]] ->
  content canon (cd_param (cdef C_oidc_AuthorizationRequest)) (auth_request F types).
Proof.
  intros types Ht. split; [nodup|]. destruct scopes_ok as (S1 & S2 & S3). entries; try can1.
  - apply CnPlain, PlSpSep; try reflexivity; cbn [In] in Ht; destruct Ht as [<-|[<-|[]]]; try discriminate;
      try (intros s Hs; cbn [In] in Hs; repeat (destruct Hs as [<-|Hs]; [reflexivity|]); contradiction);
      apply Forall_forall; intros s Hs; cbn [In] in Hs; repeat (destruct Hs as [<-|Hs]; [vm_compute; intuition discriminate|]); contradiction.
  - apply CnPlain, PlSpSep; [reflexivity|reflexivity|reflexivity|exact S1|exact S2|discriminate|exact S3].
Qed.

(** required parameters, no restricted ones *)
Ltac required := let a := fresh "a" in let s := fresh "s" in let I := fresh "I" in let N := fresh "N" in let R := fresh "R" in let Y := fresh "Y" in
  intros a (s & I & N & R & Y); match type of I with In _ ?l => let l' := eval vm_compute in l in change (In (a, s) l') in I end;
  repeat (destruct I as [I|I]; [injection I as <- <-; first [discriminate R | apply Y; eexists; split; [reflexivity|right; first [apply ne; tx | intro Z; inversion Z; congruence]]]|]); contradiction.
Ltac allowed := let a := fresh "a" in let s := fresh "s" in let v := fresh "v" in let al := fresh "al" in let I := fresh "I" in let N := fresh "N" in let V := fresh "V" in let G := fresh "G" in let A := fresh "A" in
  intros a (s & v & al & I & N & V & G & A & _); match type of I with In _ ?l => let l' := eval vm_compute in l in change (In (a, s) l') in I end;
  repeat (destruct I as [I|I]; [injection I as <- <-; first [discriminate A | discriminate V]|]); contradiction.
Lemma ne_list : forall l : list ustr, l <> [] -> ~ empty_value (VList (map VStr l)).
Proof. intros [|x l] H X; [congruence|inversion X]. Qed.
Lemma request_table : forall types, types <> [] -> table_ok (cdef C_oidc_AuthorizationRequest) (auth_request F types).
Proof.
  intros types Ht. split; [|allowed].
  intros a (s & I & N & R & Y). match type of I with In _ ?l => let l' := eval vm_compute in l in change (In (a, s) l') in I end.
  repeat (destruct I as [I|I]; [injection I as <- <-; first [discriminate R | apply Y; eexists; split; [reflexivity|right; first [apply ne_list; assumption | apply ne; tx | intro Z; inversion Z]]]|]); contradiction.
Qed.
Lemma py_eq_text : forall t, py_eq (VStr t) (VStr t) = true.
Proof. intro t. apply py_eq_str_l. reflexivity. Qed.
Lemma request_rules_ok : forall K types, In types [[u "code"]; [u "code"; u "id_token"; u "token"]] ->
  (forall m, kget K (u "nonce") = Some m -> m = VStr (f_nonce F)) -> authz_rules K (auth_request F types).
Proof.
  intros K types Ht HK. constructor.
  - eexists. reflexivity.
  - intros rt _ _. exists (VStr (f_nonce F)). split; [reflexivity|]. intros m Hm. rewrite (HK m Hm). apply py_eq_text.
  - exists (scope_of F). split; [reflexivity|]. exists (VStr (u "openid")). split; [left; reflexivity|reflexivity].
  - intros sc Hs Hc. exfalso. injection Hs as <-. destruct Hc as (y & Hy & He). cbn [map In] in Hy. destruct Hy as [<-|Hy]; [discriminate He|].
    apply in_map_iff in Hy. destruct Hy as (s & <- & Hs). apply py_eq_str_l in He. injection He as <-. exact (fk_offline F HF Hs).
  - intros p Hp. discriminate.
Qed.
Lemma flow_request : forall E K hdr types, In types [[u "code"]; [u "code"; u "id_token"; u "token"]] ->
  (forall m, kget K (u "nonce") = Some m -> m = VStr (f_nonce F)) ->
  exists t d d', to_urlencoded (cdef C_oidc_AuthorizationRequest) false (auth_request F types) = Ok t /\
    from_urlencoded (cdef C_oidc_AuthorizationRequest) (cd_default (cdef C_oidc_AuthorizationRequest)) t = (d, Ok tt) /\
    verify E K hdr C_oidc_AuthorizationRequest d = (d', Ok true) /\
    forall k, In k (map fst (auth_request F types)) -> dget d' k = dget (auth_request F types) k.
Proof.
  intros E K hdr types Ht HK.
  destruct (sent_request E K hdr C_oidc_AuthorizationRequest false (auth_request F types) eq_refl (request_canon types Ht) (request_url types Ht) eq_refl eq_refl) as (t & d & A & B & C & D).
  { right. intros k s I R. match type of I with In _ ?l => let l' := eval vm_compute in l in change (In (k, s) l') in I end.
    repeat (destruct I as [I|I]; [injection I as <- <-; first [discriminate R | vm_compute; tauto]|]); contradiction. }
  destruct (proj2 C) as [d' V].
  { split; [apply request_table; cbn [In] in Ht; destruct Ht as [<-|[<-|[]]]; discriminate|exact (request_rules_ok K types Ht HK)]. }
  exists t, d, d'. split; [exact A|]. split; [exact B|]. split; [exact V|].
  intros k Hk. apply (D d' V). intro X. cbn [In map fst auth_request] in Hk, X.
  repeat match type of Hk with _ \/ _ => destruct Hk as [<-|Hk] end; try contradiction;
  repeat match type of X with _ \/ _ => destruct X as [X|X] end; try contradiction; discriminate X.
Qed.

(** the response with the code *)
Lemma response_url : content urlable (cd_param (cdef C_oidc_AuthorizationResponse)) (auth_response F).
Proof. split; [nodup|]. entries; url1. Qed.
Lemma not_required : forall c d, forallb (fun ks : ustr * pspec => negb (p_req (snd ks))) (cd_param (cdef c)) = true -> has_required (cdef c) d.
Proof. intros c d H k s I R. rewrite forallb_forall in H. specialize (H _ I). cbn [snd] in H. rewrite R in H. discriminate. Qed.
Lemma response_table : forall d, table_ok (cdef C_oidc_AuthorizationResponse) d.
Proof.
  intro d. split.
  - intros a (s & I & N & R & Y). rewrite <- (negb_involutive (p_req s)) in R.
    assert (H : forallb (fun ks : ustr * pspec => negb (p_req (snd ks))) (cd_param (cdef C_oidc_AuthorizationResponse)) = true) by reflexivity.
    rewrite forallb_forall in H. specialize (H _ I). cbn [snd] in H. rewrite H in R. discriminate.
  - intros a (s & v & al & I & N & V & G & A & _). discriminate A.
Qed.
Lemma agree_text : forall t, agree (Some (VStr t)) (Some (VStr t)).
Proof. intros t a b Ha Hb. injection Ha as <-. injection Hb as <-. apply py_eq_text. Qed.
Lemma flow_response : forall E hdr,
  exists t d d', to_urlencoded (cdef C_oidc_AuthorizationResponse) false (auth_response F) = Ok t /\
    from_urlencoded (cdef C_oidc_AuthorizationResponse) (cd_default (cdef C_oidc_AuthorizationResponse)) t = (d, Ok tt) /\
    verify E (client_args F) hdr C_oidc_AuthorizationResponse d = (d', Ok true) /\
    forall k, In k (map fst (auth_response F)) -> dget d' k = dget (auth_response F) k.
Proof.
  intros E hdr.
  destruct (url_round_trip (cdef C_oidc_AuthorizationResponse) false (auth_response F) response_url) as (t & d & A & B & G).
  { intros k []. } { right. apply not_required. reflexivity. }
  exists t, d. destruct (fits_verify E (client_args F) hdr C_oidc_AuthorizationResponse d) as (m & ch & M1 & M2 & M3).
  { right. left. reflexivity. }
  { constructor.
    - apply response_table.
    - intros v _ Hv. rewrite G in Hv. discriminate.
    - intros _. rewrite G. apply agree_text.
    - intros _. rewrite G. apply agree_text.
    - intros aud i _ Hv. rewrite G in Hv. discriminate. }
  assert (Gm : forall k, ~ In k [slot_id_token; slot_hint; slot_request] -> dget m k = dget (auth_response F) k).
  { intros k Hk. rewrite <- G. destruct M1 as [->| ->]; [reflexivity|]. rewrite dget_clear.
    cbn [In] in Hk. destruct (ueqb k slot_id_token) eqn:E1; [apply ueqb_eq in E1; intuition congruence|].
    destruct (ueqb k slot_hint) eqn:E2; [apply ueqb_eq in E2; intuition congruence|].
    destruct (ueqb k slot_request) eqn:E3; [apply ueqb_eq in E3; intuition congruence|]. reflexivity. }
  exists m. split; [exact A|]. split; [exact B|]. split.
  - rewrite M3. unfold with_id_token.
    assert (H : dhas m (u "id_token") = false) by (apply dhas_false; rewrite Gm; [reflexivity|cbn [In]; intuition discriminate]).
    rewrite H. reflexivity.
  - intros k Hk. apply Gm. intro X. cbn [In map fst auth_response] in Hk, X.
    repeat match type of Hk with _ \/ _ => destruct Hk as [<-|Hk] end; try contradiction;
    repeat match type of X with _ \/ _ => destruct X as [X|X] end; try contradiction; discriminate X.
Qed.

(** the token request *)
Lemma token_request_url : content urlable (cd_param (cdef C_oidc_AccessTokenRequest)) (token_request F).
Proof. split; [nodup|]. entries; url1. Qed.
Lemma flow_token_request : forall E K hdr,
  exists t d, to_urlencoded (cdef C_oidc_AccessTokenRequest) false (token_request F) = Ok t /\
    from_urlencoded (cdef C_oidc_AccessTokenRequest) (cd_default (cdef C_oidc_AccessTokenRequest)) t = (d, Ok tt) /\
    verify E K hdr C_oidc_AccessTokenRequest d = (d, Ok true) /\ forall k, dget d k = dget (token_request F) k.
Proof.
  intros E K hdr.
  destruct (url_round_trip (cdef C_oidc_AccessTokenRequest) false (token_request F) token_request_url) as (t & d & A & B & G).
  { intros k Hk. vm_compute in Hk. destruct Hk as [<-|[]]. left. reflexivity. }
  { right. intros k s I R. match type of I with In _ ?l => let l' := eval vm_compute in l in change (In (k, s) l') in I end.
    repeat (destruct I as [I|I]; [injection I as <- <-; first [discriminate R | vm_compute; tauto]|]); contradiction. }
  exists t, d. split; [exact A|]. split; [exact B|]. split; [|exact G].
  change (pure (verify_base (cdef C_oidc_AccessTokenRequest)) d = (d, Ok true)). unfold pure. f_equal.
  apply verify_base_true. split; [|reflexivity]. apply (table_same _ (token_request F)); [intro k; symmetry; apply G|]. split; [required|allowed].
Qed.

(** the token response *)
Variables (J : jose) (P E : env) (alg h : ustr) (keys : list N) (lifetime : Z) (tok : ustr).
Hypothesis Htok : text tok.
Hypothesis Halg : hash_of_alg alg h.
Lemma claims_ok : honest_claims (token_claims F).
Proof.
  constructor.
  - split; [nodup|]. entries; try can1.
    change (VList [VStr (f_client F)]) with (VList (map VStr [f_client F])). apply CnPlain, PlList; try reflexivity; try discriminate.
    + intros s [<-|[]]. apply (fk_texts F HF). left. reflexivity.
    + destruct fl_texts as [[_ X] _]. congruence.
  - intros k Hk. cbn [In] in Hk. destruct Hk as [<-|[<-|[<-|[]]]]; eexists; (split; [reflexivity|]).
    + apply ne. tx.
    + apply ne. tx.
    + intro Z. inversion Z.
  - intros v Hv. discriminate.
  - intros v Hv. discriminate.
Qed.
Lemma meant_ok : forall d, (forall k, In k [u "iss"; u "aud"; u "azp"; u "nonce"] -> dget d k = dget (token_claims F) k) -> meant_for (client_args F) d.
Proof.
  intros d H. constructor.
  - rewrite H by (cbn [In]; tauto). apply agree_text.
  - intros aud c Ha Hc. rewrite H in Ha by (cbn [In]; tauto). injection Ha as <-. injection Hc as <-. exists (VStr (f_client F)). split; [left; reflexivity|apply py_eq_text].
  - intros aud n Ha Hs Hl. rewrite H in Ha by (cbn [In]; tauto). injection Ha as <-. exfalso. inversion Hs; subst. cbn [List.length] in Hl. lia.
  - rewrite H by (cbn [In]; tauto). intros a b Ha Hb. discriminate Hb.
  - rewrite H by (cbn [In]; tauto). apply agree_text.
Qed.
Lemma token_response_canon : content canon (cd_param (cdef C_oidc_AccessTokenResponse)) (token_response F tok).
Proof. split; [nodup|]. entries; first [can1 | apply text_canon; [exact Htok|reflexivity|reflexivity]]. Qed.
Lemma flow_tokens : forall d1 hdr, to_jwt J P C_oidc_IdToken (token_claims F) keys alg (VInt lifetime) = (d1, Ok tok) ->
  partners J P E (client_args F) alg keys lifetime (token_claims F) tok ->
  exists t d d' idt, to_json (cdef C_oidc_AccessTokenResponse) (token_response F tok) = Ok t /\
    from_json (cdef C_oidc_AccessTokenResponse) (cd_default (cdef C_oidc_AccessTokenResponse)) t = (d, Ok tt) /\
    verify E (client_args F) hdr C_oidc_AccessTokenResponse d = (d', Ok true) /\
    dget d (u "access_token") = Some (VStr (f_token F)) /\
    dget d' (u "__verified_id_token") = Some (VMsg C_oidc_IdToken idt) /\
    dget idt (u "exp") = Some (VInt (e_now P + lifetime)) /\
    forall k, In k (map fst (token_claims F)) -> dget idt k = dget (token_claims F) k.
Proof.
  intros d1 hdr HJ HP.
  destruct (json_round_trip (cdef C_oidc_AccessTokenResponse) (token_response F tok) token_response_canon) as (t & d & A & B & G).
  { intros k []. }
  destruct (honest_verified J P E (client_args F) hdr C_oidc_AccessTokenResponse (token_claims F) d1 alg h keys lifetime tok d) as (d' & idt & V & S & I).
  - left. reflexivity.
  - constructor.
    + apply (table_same _ (token_response F tok)); [intro k; symmetry; apply G|]. split; [|allowed].
      intros a (s & X & N & R & Y). match type of X with In _ ?l => let l' := eval vm_compute in l in change (In (a, s) l') in X end.
      repeat (destruct X as [X|X]; [injection X as <- <-; first [discriminate R | apply Y; eexists; split; [reflexivity|right; apply ne; tx]]|]); contradiction.
    + intros v _ Hv. rewrite G in Hv. discriminate.
    + discriminate.
    + discriminate.
    + intros aud i X. discriminate.
  - rewrite G. reflexivity.
  - discriminate.
  - exact claims_ok.
  - apply meant_ok. reflexivity.
  - exact Halg.
  - intros k v Hk Hv. cbn [In] in Hk. destruct Hk as [<-|[<-|[]]]; discriminate Hv.
  - exact HJ.
  - exact HP.
  - exists t, d, d', idt. split; [exact A|]. split; [exact B|]. split; [exact V|]. split; [rewrite G; reflexivity|]. split; [exact S|].
    destruct I as (_ & I2 & _ & _ & _ & _ & I7). split; [exact I2|]. intros k Hk. apply I7. intro X. cbn [In map fst token_claims] in Hk, X.
    repeat match type of Hk with _ \/ _ => destruct Hk as [<-|Hk] end; try contradiction;
    repeat match type of X with _ \/ _ => destruct X as [X|X] end; try contradiction; discriminate X.
Qed.

(** the hybrid flow *)
Lemma hybrid_url : content urlable (cd_param (cdef C_oidc_AuthorizationResponse)) (hybrid_response F tok).
Proof. split; [nodup|]. entries; first [url1 | apply text_urlable; [exact Htok|intro; discriminate|reflexivity]]. Qed.
Lemma hybrid_claims_ok : honest_claims (hybrid_claims F).
Proof.
  constructor.
  - split; [nodup|]. entries; try can1.
    change (VList [VStr (f_client F)]) with (VList (map VStr [f_client F])). apply CnPlain, PlList; try reflexivity; try discriminate.
    + intros s [<-|[]]. apply (fk_texts F HF). left. reflexivity.
    + destruct fl_texts as [[_ X] _]. congruence.
  - intros k Hk. cbn [In] in Hk. destruct Hk as [<-|[<-|[<-|[]]]]; eexists; (split; [reflexivity|]).
    + apply ne. tx.
    + apply ne. tx.
    + intro Z. inversion Z.
  - intros v Hv. discriminate.
  - intros v Hv. discriminate.
Qed.
Lemma flow_hybrid : forall d1 hdr, hashable P h (VStr (f_token F)) -> hashable P h (VStr (f_code F)) ->
  to_jwt J P C_oidc_IdToken (hybrid_claims F) keys alg (VInt lifetime) = (d1, Ok tok) ->
  partners J P E (client_args F) alg keys lifetime (hybrid_claims F) tok ->
  exists t d d' idt, to_urlencoded (cdef C_oidc_AuthorizationResponse) false (hybrid_response F tok) = Ok t /\
    from_urlencoded (cdef C_oidc_AuthorizationResponse) (cd_default (cdef C_oidc_AuthorizationResponse)) t = (d, Ok tt) /\
    verify E (client_args F) hdr C_oidc_AuthorizationResponse d = (d', Ok true) /\
    (forall k, dget d k = dget (hybrid_response F tok) k) /\
    dget d' (u "__verified_id_token") = Some (VMsg C_oidc_IdToken idt) /\
    dget idt (u "exp") = Some (VInt (e_now P + lifetime)) /\
    (exists x, e_lhash P (VStr (f_token F)) h = Ok x /\ dget idt (u "at_hash") = Some x) /\
    (exists x, e_lhash P (VStr (f_code F)) h = Ok x /\ dget idt (u "c_hash") = Some x) /\
    forall k, In k (map fst (token_claims F)) -> dget idt k = dget (token_claims F) k.
Proof.
  intros d1 hdr H1 H2 HJ HP.
  destruct (url_round_trip (cdef C_oidc_AuthorizationResponse) false (hybrid_response F tok) hybrid_url) as (t & d & A & B & G).
  { intros k []. } { right. apply not_required. reflexivity. }
  destruct (honest_verified J P E (client_args F) hdr C_oidc_AuthorizationResponse (hybrid_claims F) d1 alg h keys lifetime tok d) as (d' & idt & V & S & I).
  - right. left. reflexivity.
  - constructor.
    + apply response_table.
    + intros v _ Hv. rewrite G in Hv. discriminate.
    + intros _. rewrite G. apply agree_text.
    + intros _. rewrite G. apply agree_text.
    + intros aud i _ Hv. rewrite G in Hv. discriminate.
  - rewrite G. reflexivity.
  - intros _ k x Hk Hx. rewrite G in Hx. cbn [In] in Hk. destruct Hk as [<-|[<-|[]]]; rewrite <- Hx; reflexivity.
  - exact hybrid_claims_ok.
  - apply meant_ok. intros k Hk. cbn [In] in Hk. destruct Hk as [<-|[<-|[<-|[<-|[]]]]]; reflexivity.
  - exact Halg.
  - intros k v Hk Hv. cbn [In] in Hk. destruct Hk as [<-|[<-|[]]]; injection Hv as <-; assumption.
  - exact HJ.
  - exact HP.
  - exists t, d, d', idt. split; [exact A|]. split; [exact B|]. split; [exact V|]. split; [exact G|]. split; [exact S|].
    destruct I as (_ & I2 & _ & _ & I5 & I6 & I7). split; [exact I2|].
    split; [apply I5; reflexivity|]. split; [apply I6; reflexivity|].
    intros k Hk. rewrite I7.
    + cbn [In map fst token_claims] in Hk. repeat match type of Hk with _ \/ _ => destruct Hk as [<-|Hk] end; try contradiction; reflexivity.
    + intro X. cbn [In map fst token_claims] in Hk, X.
      repeat match type of Hk with _ \/ _ => destruct Hk as [<-|Hk] end; try contradiction;
      repeat match type of X with _ \/ _ => destruct X as [X|X] end; try contradiction; discriminate X.
Qed.
End Flow.
