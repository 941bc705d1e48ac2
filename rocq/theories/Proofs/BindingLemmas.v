(** What a JSON text, a query string, a JWT and an ID Token determine. *)
From Coq Require Import List NArith ZArith Bool String Lia.
From Verif Require Import Base.Ustr Base.UstrLemmas Model.Cls Model.Value Model.Pspec Model.Tables Model.Json Model.Message Model.Env Model.Verify Model.Jose
  Spec.MessageSpec Spec.RoundTripSpec Spec.VerifySpec Spec.JoseSpec Spec.ClockSpec
  Proofs.ValueLemmas Proofs.VerifyLemmas Proofs.IdTokenLemmas Proofs.ResponseLemmas Proofs.ClassVerify Proofs.RoundTrip Proofs.JoseLemmas.
Import ListNotations.
Open Scope list_scope.
Open Scope N_scope.

Definition bare (C : clsdef) : clsdef := {| cd_name := cd_name C; cd_param := cd_param C; cd_default := []; cd_allowed := cd_allowed C |}.

Lemma json_injective : forall C d1 d2, content canon (cd_param C) d1 -> content canon (cd_param C) d2 ->
  to_json C d1 = to_json C d2 -> forall k, dget d1 k = dget d2 k.
Proof.
  intros C d1 d2 H1 H2 H k.
  destruct (json_round_trip (bare C) d1) as (t1 & r1 & G1 & G2 & G3); [exact H1|intros x []|].
  destruct (json_round_trip (bare C) d2) as (t2 & r2 & I1 & I2 & I3); [exact H2|intros x []|].
  change (to_json C d1 = Ok t1) in G1. change (to_json C d2 = Ok t2) in I1.
  assert (t1 = t2) by congruence. subst t2. assert (r1 = r2) by congruence. subst r2. rewrite <- G3. apply I3.
Qed.

Lemma query_injective : forall C lax d1 d2, content urlable (cd_param C) d1 -> content urlable (cd_param C) d2 ->
  lax = true \/ (has_required C d1 /\ has_required C d2) ->
  to_urlencoded C lax d1 = to_urlencoded C lax d2 -> forall k, dget d1 k = dget d2 k.
Proof.
  intros C lax d1 d2 H1 H2 Hl H k.
  destruct (url_round_trip (bare C) lax d1) as (t1 & r1 & G1 & G2 & G3); [exact H1|intros x []|destruct Hl as [Hl|[Hl _]]; [left|right]; exact Hl|].
  destruct (url_round_trip (bare C) lax d2) as (t2 & r2 & I1 & I2 & I3); [exact H2|intros x []|destruct Hl as [Hl|[_ Hl]]; [left|right]; exact Hl|].
  change (to_urlencoded C lax d1 = Ok t1) in G1. change (to_urlencoded C lax d2 = Ok t2) in I1.
  assert (t1 = t2) by congruence. subst t2. assert (r1 = r2) by congruence. subst r2. rewrite <- G3. apply I3.
Qed.

Lemma jwt_injective : forall J E C d1 d2 alg1 alg2 keys1 keys2 tok, content canon (cd_param C) d1 -> content canon (cd_param C) d2 ->
  reads_signed J E alg1 keys1 -> reads_signed J E alg2 keys2 ->
  message_to_jwt J C d1 keys1 alg1 = Ok tok -> message_to_jwt J C d2 keys2 alg2 = Ok tok -> alg1 = alg2 /\ forall k, dget d1 k = dget d2 k.
Proof.
  intros J E C d1 d2 alg1 alg2 keys1 keys2 tok H1 H2 R1 R2 W1 W2.
  destruct (c103 J E 0 (bare C) d1 alg1 keys1 [] false tok) as (r1 & x1 & G1 & G2 & G3); [exact H1|intros x []|exact W1|exact R1|auto|].
  destruct (c103 J E 0 (bare C) d2 alg2 keys2 [] false tok) as (r2 & x2 & I1 & I2 & I3); [exact H2|intros x []|exact W2|exact R2|auto|].
  rewrite G1 in I1. injection I1 as <- <-. split; [congruence|]. intro k. rewrite <- G3. apply I3.
Qed.

Lemma json_differ : forall C d1 d2 t1 t2 k, content canon (cd_param C) d1 -> content canon (cd_param C) d2 ->
  to_json C d1 = Ok t1 -> to_json C d2 = Ok t2 -> dget d1 k <> dget d2 k -> t1 <> t2.
Proof. intros C d1 d2 t1 t2 k H1 H2 W1 W2 Hk ->. apply Hk. apply (json_injective C); congruence. Qed.
Lemma query_differ : forall C lax d1 d2 t1 t2 k, content urlable (cd_param C) d1 -> content urlable (cd_param C) d2 ->
  lax = true \/ (has_required C d1 /\ has_required C d2) ->
  to_urlencoded C lax d1 = Ok t1 -> to_urlencoded C lax d2 = Ok t2 -> dget d1 k <> dget d2 k -> t1 <> t2.
Proof. intros C lax d1 d2 t1 t2 k H1 H2 Hl W1 W2 Hk ->. apply Hk. apply (query_injective C lax); auto; congruence. Qed.
Lemma jwt_differ : forall J E C d1 d2 alg1 alg2 keys1 keys2 t1 t2 k, content canon (cd_param C) d1 -> content canon (cd_param C) d2 ->
  reads_signed J E alg1 keys1 -> reads_signed J E alg2 keys2 ->
  message_to_jwt J C d1 keys1 alg1 = Ok t1 -> message_to_jwt J C d2 keys2 alg2 = Ok t2 ->
  alg1 <> alg2 \/ dget d1 k <> dget d2 k -> t1 <> t2.
Proof.
  intros J E C d1 d2 alg1 alg2 keys1 keys2 t1 t2 k H1 H2 R1 R2 W1 W2 Hk ->.
  destruct (jwt_injective J E C d1 d2 alg1 alg2 keys1 keys2 t2 H1 H2 R1 R2 W1 W2) as [X Y]. destruct Hk as [Hk|Hk]; apply Hk; auto.
Qed.

(** all that verify() of two messages with the same ID Token in them agrees on *)
Lemma same_token : forall E t1 t2 K1 K2 h1 h2 c1 c2 d1 d2 r1 r2 t,
  has_id_token_check c1 -> has_id_token_check c2 ->
  verify (clock E t1) K1 h1 c1 d1 = (r1, Ok true) -> verify (clock E t2) K2 h2 c2 d2 = (r2, Ok true) ->
  dget d1 (u "id_token") = Some (VStr t) -> dget d2 (u "id_token") = Some (VStr t) -> not_encrypted E t ->
  exists tok body idt ch1 ch2, e_jws E (VStr t) = Ok (Some tok) /\ t_body tok = Ok body /\
    dget r1 slot_id_token = Some (VMsg C_oidc_IdToken idt) /\ dget r2 slot_id_token = Some (VMsg C_oidc_IdToken idt) /\
    (subclass c1 C_oidc_AuthorizationResponse = true -> ch1 = true) /\ (subclass c2 C_oidc_AuthorizationResponse = true -> ch2 = true) /\
    id_token_accepted (clock E t1) K1 ch1 d1 t tok body idt /\ id_token_accepted (clock E t2) K2 ch2 d2 t tok body idt.
Proof.
  assert (X : forall E K hdr c d d' t, has_id_token_check c -> verify E K hdr c d = (d', Ok true) ->
    dget d (u "id_token") = Some (VStr t) -> not_encrypted E t ->
    exists tok body idt ch, e_jws E (VStr t) = Ok (Some tok) /\ t_body tok = Ok body /\
      from_dict (cdef C_oidc_IdToken) (cd_default (cdef C_oidc_IdToken)) body = (idt, Ok tt) /\
      dget d' slot_id_token = Some (VMsg C_oidc_IdToken idt) /\
      (subclass c C_oidc_AuthorizationResponse = true -> ch = true) /\
      id_token_accepted E K ch d t tok body idt).
  { intros E K hdr c d d' t Hc H Ht Hn. destruct (id_response_true _ _ _ _ _ _ Hc H) as [d1 [ch [Hd1 [Hch [_ Hr]]]]].
    assert (Hg : forall k, In k [u "id_token"; u "access_token"; u "code"] -> dget d1 k = dget d k).
    { intros k Hk. destruct Hd1 as [->| ->]; [reflexivity|]. rewrite dget_clear. cbn [In] in Hk.
      destruct Hk as [<-|[<-|[<-|[]]]]; reflexivity. }
    destruct Hr as [[Hr _]|[idt [Hr Hd']]]; [rewrite Hg in Hr by (left; reflexivity); congruence|].
    destruct (check_id_token_text _ _ _ _ _ _ _ t Hr) as [tok [body [G1 [G2 [_ [G3 G]]]]]]; [rewrite Hg by (left; reflexivity); assumption|assumption|].
    exists tok, body, idt, ch. repeat (split; [assumption|]). split; [subst d'; apply dget_dset_same|]. split; [assumption|].
    destruct G as [A1 A2 A3 A4 A5 A6 A7]. constructor; auto.
    intros Hs Hc2. destruct (A7 Hs Hc2) as [alg [h [B1 [B2 [B3 B4]]]]]. exists alg, h. split; [assumption|]. split; [assumption|].
    split; intros x Hx; [apply B3|apply B4]; rewrite Hg; auto; cbn [In]; tauto. }
  intros E t1 t2 K1 K2 h1 h2 c1 c2 d1 d2 r1 r2 t Hc1 Hc2 H1 H2 G1 G2 Hn.
  destruct (X _ _ _ _ _ _ _ Hc1 H1 G1 Hn) as (tok & body & idt & ch1 & A1 & A2 & A3 & A4 & A5 & A6).
  destruct (X _ _ _ _ _ _ _ Hc2 H2 G2 Hn) as (tok2 & body2 & idt2 & ch2 & B1 & B2 & B3 & B4 & B5 & B6).
  change (e_jws (clock E t1)) with (e_jws E) in A1. change (e_jws (clock E t2)) with (e_jws E) in B1.
  assert (tok2 = tok) by congruence. subst tok2. assert (body2 = body) by congruence. subst body2. assert (idt2 = idt) by congruence. subst idt2.
  exists tok, body, idt, ch1, ch2. auto 10.
Qed.

Lemma contains_two : forall aud a b n, contains aud (VStr a) -> contains aud (VStr b) -> a <> [] -> b <> [] -> a <> b -> sized aud n -> (1 < n)%nat.
Proof.
  assert (L : forall A (l : list A) x y, In x l -> In y l -> x <> y -> (1 < List.length l)%nat).
  { intros A [|p [|q l]] x y Hx Hy Hne; cbn [In List.length] in *; [contradiction| |lia]. destruct Hx as [->|[]], Hy as [->|[]]. congruence. }
  intros aud a b n Ha Hb Ha0 Hb0 Hne Hs. destruct Hs as [s|l|d|c d]; cbn [contains] in Ha, Hb.
  - destruct Ha as (p & x & y & Hp & Hs), Hb as (q & x' & y' & Hq & Hs'). injection Hp as <-. injection Hq as <-.
    destruct a as [|a0 a]; [congruence|]. destruct b as [|b0 b]; [congruence|]. rewrite Hs in Hs'.
    assert (Hl : List.length s = List.length (x ++ (a0 :: a) ++ y)) by congruence.
    assert (Hl' : List.length s = List.length (x' ++ (b0 :: b) ++ y')) by congruence.
    rewrite !app_length in Hl, Hl'. cbn [List.length] in Hl, Hl'.
    destruct (Nat.eq_dec (List.length s) 1) as [E|E]; [|lia]. exfalso.
    destruct x, y, a; cbn [List.length] in Hl; try lia. destruct x', y', b; cbn [List.length] in Hl'; try lia.
    cbn [app] in Hs'. congruence.
  - destruct Ha as (x & Hx & Hxe), Hb as (y & Hy & Hye). apply py_eq_str_r in Hxe, Hye. subst x y.
    apply (L _ l (VStr a) (VStr b)); auto. congruence.
  - destruct Ha as (x & Hx & Hxe), Hb as (y & Hy & Hye). injection Hx as <-. injection Hy as <-. rewrite <- (map_length fst). apply (L _ _ a b); auto.
  - destruct Ha as (x & Hx & Hxe), Hb as (y & Hy & Hye). injection Hx as <-. injection Hy as <-. rewrite <- (map_length fst). apply (L _ _ a b); auto.
Qed.

Lemma required_here : forall d k, schema_ok (cdef C_oidc_IdToken) d -> In k [u "iss"; u "sub"; u "aud"; u "exp"; u "iat"] -> exists v, dget d k = Some v.
Proof.
  intros d k [[Ht _] _] Hk. assert (X : exists v, dget d k = Some v /\ ~ empty_value v).
  { cbn [In] in Hk. destruct Hk as [<-|[<-|[<-|[<-|[<-|[]]]]]].
    all: eapply (req_present (cdef C_oidc_IdToken) d); [exact Ht|vm_compute; reflexivity|discriminate|reflexivity|discriminate]. }
  destruct X as [v [Hv _]]. eauto.
Qed.

Section Two.
  Variables (E : env) (t1 t2 : Z) (K1 K2 : kwargs) (h1 h2 : option (dict value)) (c1 c2 : cls) (d1 d2 r1 r2 : dict value) (t : ustr).
  Hypothesis Hc1 : has_id_token_check c1.
  Hypothesis Hc2 : has_id_token_check c2.
  Hypothesis H1 : verify (clock E t1) K1 h1 c1 d1 = (r1, Ok true).
  Hypothesis H2 : verify (clock E t2) K2 h2 c2 d2 = (r2, Ok true).
  Hypothesis G1 : dget d1 (u "id_token") = Some (VStr t).
  Hypothesis G2 : dget d2 (u "id_token") = Some (VStr t).
  Hypothesis Hn : not_encrypted E t.

  Lemma one_issuer : forall i1 i2, kget K1 (u "iss") = Some (VStr i1) -> kget K2 (u "iss") = Some (VStr i2) -> i1 = i2.
  Proof.
    intros i1 i2 I1 I2.
    destruct (same_token E t1 t2 K1 K2 h1 h2 c1 c2 d1 d2 r1 r2 t Hc1 Hc2 H1 H2 G1 G2 Hn) as (tok & body & idt & ch1 & ch2 & _ & _ & _ & _ & _ & _ & A & B).
    destruct (required_here idt (u "iss") (a_schema _ _ _ _ _ _ _ _ A)) as [v Hv]; [left; reflexivity|].
    pose proof (r_iss _ _ _ (a_rules _ _ _ _ _ _ _ _ A) _ _ I1 Hv) as X. pose proof (r_iss _ _ _ (a_rules _ _ _ _ _ _ _ _ B) _ _ I2 Hv) as Y.
    apply py_eq_str_l in X, Y. congruence.
  Qed.
  Lemma one_client : forall a b, kget K1 (u "client_id") = Some (VStr a) -> kget K2 (u "client_id") = Some (VStr b) -> a <> [] -> b <> [] -> a = b.
  Proof.
    intros a b I1 I2 Ha Hb.
    destruct (same_token E t1 t2 K1 K2 h1 h2 c1 c2 d1 d2 r1 r2 t Hc1 Hc2 H1 H2 G1 G2 Hn) as (tok & body & idt & ch1 & ch2 & _ & _ & _ & _ & _ & _ & A & B).
    destruct (required_here idt (u "aud") (a_schema _ _ _ _ _ _ _ _ A)) as [v Hv]; [right; right; left; reflexivity|].
    pose proof (a_rules _ _ _ _ _ _ _ _ A) as RA. pose proof (a_rules _ _ _ _ _ _ _ _ B) as RB.
    destruct (list_eq_dec N.eq_dec a b) as [Hab|Hab]; [exact Hab|exfalso].
    destruct (r_azp _ _ _ RA _ Hv) as (n & Hs & Hz).
    destruct Hz as (z & Hz & _); [exact (contains_two v a b n (r_aud _ _ _ RA _ _ Hv I1) (r_aud _ _ _ RB _ _ Hv I2) Ha Hb Hab Hs)|].
    pose proof (r_azp_me _ _ _ RA _ _ I1 Hz) as X. pose proof (r_azp_me _ _ _ RB _ _ I2 Hz) as Y. apply py_eq_str_l in X, Y. congruence.
  Qed.
  Lemma one_nonce : forall n1 n2, kget K1 (u "nonce") = Some (VStr n1) -> kget K2 (u "nonce") = Some (VStr n2) ->
    forall idt v, dget r1 (u "__verified_id_token") = Some (VMsg C_oidc_IdToken idt) -> dget idt (u "nonce") = Some v -> n1 = n2.
  Proof.
    intros n1 n2 I1 I2 idt0 v Hi Hv.
    destruct (same_token E t1 t2 K1 K2 h1 h2 c1 c2 d1 d2 r1 r2 t Hc1 Hc2 H1 H2 G1 G2 Hn) as (tok & body & idt & ch1 & ch2 & _ & _ & S1 & _ & _ & _ & A & B).
    change slot_id_token with (u "__verified_id_token") in S1. assert (idt0 = idt) by congruence. subst idt0.
    pose proof (r_nonce _ _ _ (a_rules _ _ _ _ _ _ _ _ A) _ _ I1 Hv) as X. pose proof (r_nonce _ _ _ (a_rules _ _ _ _ _ _ _ _ B) _ _ I2 Hv) as Y.
    apply py_eq_str_l in X, Y. congruence.
  Qed.
  Lemma one_claims : exists idt, dget r1 (u "__verified_id_token") = Some (VMsg C_oidc_IdToken idt) /\ dget r2 (u "__verified_id_token") = Some (VMsg C_oidc_IdToken idt).
  Proof.
    destruct (same_token E t1 t2 K1 K2 h1 h2 c1 c2 d1 d2 r1 r2 t Hc1 Hc2 H1 H2 G1 G2 Hn) as (tok & body & idt & ch1 & ch2 & _ & _ & S1 & S2 & _). eauto.
  Qed.
  Lemma one_code : subclass c1 C_oidc_AuthorizationResponse = true -> subclass c2 C_oidc_AuthorizationResponse = true -> text_hash E ->
    forall tok, e_jws E (VStr t) = Ok (Some tok) -> signed_tok tok ->
    exists alg h, dget (t_hdr tok) (u "alg") = Some (VStr alg) /\ hash_of_alg alg h /\
      forall k x1 x2, In k [u "access_token"; u "code"] -> dget d1 k = Some x1 -> dget d2 k = Some x2 ->
        exists y, e_lhash E x1 h = Ok y /\ e_lhash E x2 h = Ok y.
  Proof.
    intros S1 S2 Hth tok0 Hj Hsg.
    destruct (same_token E t1 t2 K1 K2 h1 h2 c1 c2 d1 d2 r1 r2 t Hc1 Hc2 H1 H2 G1 G2 Hn) as (tok & body & idt & ch1 & ch2 & J1 & _ & _ & _ & X1 & X2 & A & B).
    assert (tok0 = tok) by congruence. subst tok0.
    destruct (a_hash _ _ _ _ _ _ _ _ A Hsg (X1 S1)) as (alg & h & A1 & A2 & A3 & A4).
    destruct (a_hash _ _ _ _ _ _ _ _ B Hsg (X2 S2)) as (alg' & h' & B1 & B2 & B3 & B4).
    assert (alg' = alg) by congruence. subst alg'. assert (h' = h) by (rewrite (last3_unique _ _ A2), (last3_unique _ _ B2); reflexivity). subst h'.
    exists alg, h. split; [assumption|]. split; [assumption|].
    assert (Y : forall a1 a2 x1 x2 (z1 z2 : value), a1 = a2 -> e_lhash E x1 h = Ok z1 -> py_eq a1 z1 = true -> e_lhash E x2 h = Ok z2 -> py_eq a2 z2 = true ->
      exists y, e_lhash E x1 h = Ok y /\ e_lhash E x2 h = Ok y).
    { intros a1 a2 x1 x2 z1 z2 <- L1 P1 L2 P2. exists z1. split; [assumption|]. destruct (Hth x1 h) as [_ T1]. destruct (Hth x2 h) as [_ T2].
      destruct (T1 _ L1) as [->|[s1 ->]], (T2 _ L2) as [->|[s2 ->]]; try assumption.
      - apply py_eq_str_r in P2. subst a1. discriminate.
      - apply py_eq_str_r in P1. subst a1. discriminate.
      - apply py_eq_str_r in P1, P2. congruence. }
    intros k x1 x2 [<-|[<-|[]]] D1 D2.
    - destruct (A3 _ D1) as (a1 & z1 & ? & ? & ?), (B3 _ D2) as (a2 & z2 & ? & ? & ?). eapply (Y a1 a2); eauto. congruence.
    - destruct (A4 _ D1) as (a1 & z1 & ? & ? & ?), (B4 _ D2) as (a2 & z2 & ? & ? & ?). eapply (Y a1 a2); eauto. congruence.
  Qed.
End Two.
