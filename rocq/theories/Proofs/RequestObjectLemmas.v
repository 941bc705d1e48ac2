(** Proofs about authorization requests that are in order, with and without request object. *)
From Coq Require Import List NArith ZArith QArith Bool String Lia.
From Verif Require Import Base.Ustr Base.UstrLemmas Model.Cls Model.Value Model.Pspec Model.Tables
  Model.Json Model.Message Model.Env Model.Verify Model.RequestObject
  Spec.JsonSpec Spec.MessageSpec Spec.CodecSpec Spec.VerifySpec Spec.RoundTripSpec Spec.JoseSpec Spec.RequestObjectSpec
  Proofs.ValueLemmas Proofs.JsonLemmas Proofs.MessageLemmas Proofs.VerifyLemmas Proofs.TokenLemmas Proofs.IdTokenLemmas
  Proofs.OtherVerify Proofs.ResponseLemmas Proofs.RoundTrip Proofs.JoseLemmas.
Import ListNotations.
Open Scope list_scope.
Open Scope N_scope.

(** ** the rules *)
Definition listed (v : option value) : Prop := forall x, v = Some x -> exists l, x = VList l.

Lemma py_in_list : forall x l, exists b, py_in x (VList l) = Ok b.
Proof. intros x l. cbn [py_in]. eauto. Qed.

Lemma request_rules_iff : forall K d, listed (dget d (u "response_type")) -> listed (dget d (u "scope")) ->
  listed (dget d (u "prompt")) -> (request_rules K d = Ok true <-> authz_rules K d).
Proof.
  intros K d H1 H2 H3. split; [apply request_rules_true|]. intros [R1 R2 R3 R4 R5]. unfold request_rules.
  destruct R1 as [rt R1]. rewrite R1. destruct (H1 _ R1) as [lr ->].
  destruct R3 as (sc & R3 & Ro). destruct (H2 _ R3) as [ls ->]. unfold get. rewrite R3.
  destruct (py_in_list (VStr (u "id_token")) lr) as [b Hb]. rewrite Hb. cbn [bind].
  assert (Q1 : (if b then match dget d (u "nonce"), kget K (u "nonce") with
                 | None, _ => Err EMissingRequiredAttribute
                 | Some n, Some m => raise_if (py_ne n m) EValueError
                 | Some _, None => Ok tt end else Ok tt) = Ok tt).
  { destruct b; [|reflexivity]. apply py_in_true in Hb. destruct (R2 _ R1 Hb) as (n & Hn & Hm). rewrite Hn.
    destruct (kget K (u "nonce")) as [m|]; [|reflexivity]. apply raise_if_ok. split; [|reflexivity].
    apply py_ne_false. apply Hm. reflexivity. }
  rewrite Q1. cbn [bind]. apply py_in_true in Ro. rewrite Ro. cbn [bind negb raise_if].
  destruct (py_in_list (VStr (u "offline_access")) ls) as [o Ho]. rewrite Ho. cbn [bind].
  assert (Q2 : (if o then match dget d (u "prompt") with
                 | None => Err EMissingRequiredValue
                 | Some p => do c <- py_in (VStr (u "consent")) p ; raise_if (negb c) EMissingRequiredValue end else Ok tt) = Ok tt).
  { destruct o; [|reflexivity]. apply py_in_true in Ho. destruct (R4 _ R3 Ho) as (p & Hp & Hc). rewrite Hp.
    apply py_in_true in Hc. rewrite Hc. reflexivity. }
  rewrite Q2. cbn [bind]. destruct (dget d (u "prompt")) as [p|] eqn:Ep; [|reflexivity].
  destruct (H3 _ eq_refl) as [lp ->]. destruct (py_in_list (VStr (u "none")) lp) as [n Hn]. rewrite Hn. cbn [bind].
  destruct n; [|reflexivity]. apply py_in_true in Hn. destruct (R5 _ eq_refl Hn) as (m & Hm & Hl).
  assert (HL : py_len (VList lp) = Ok (N.of_nat m)) by (apply py_len_sized; eauto). rewrite HL. cbn [bind].
  replace (1 <? N.of_nat m) with false by lia. reflexivity.
Qed.

Lemma rules_ext : forall K d d', (forall k, In k [u "response_type"; u "nonce"; u "scope"; u "prompt"] -> dget d' k = dget d k) ->
  authz_rules K d -> authz_rules K d'.
Proof.
  intros K d d' H [R1 R2 R3 R4 R5].
  assert (G1 : dget d' (u "response_type") = dget d (u "response_type")) by (apply H; cbn; tauto).
  assert (G2 : dget d' (u "nonce") = dget d (u "nonce")) by (apply H; cbn; tauto).
  assert (G3 : dget d' (u "scope") = dget d (u "scope")) by (apply H; cbn; tauto).
  assert (G4 : dget d' (u "prompt") = dget d (u "prompt")) by (apply H; cbn; tauto).
  constructor; rewrite ?G1, ?G2, ?G3, ?G4; assumption.
Qed.

(** the three parameters are lists of texts *)
Lemma list_params : forall c k, subclass c C_oidc_AuthorizationRequest = true ->
  In k [u "response_type"; u "scope"; u "prompt"] ->
  exists s, param_spec (cd_param (cdef c)) k = Some s /\ p_typ s = TList TStr.
Proof.
  intros c k Hc Hk. destruct c; try (vm_compute in Hc; discriminate);
    (cbn [In] in Hk; destruct Hk as [<-|[<-|[<-|[]]]]; (eexists; split; [vm_compute; reflexivity|reflexivity])).
Qed.
Lemma canon_list : forall s v, p_typ s = TList TStr -> canon (Some s) v -> exists l, v = VList l.
Proof.
  intros s v Ht H. remember (Some s) as o eqn:Eo. destruct H as [o v Hp|s0 c d [[t Hn] _] _ _ _ _|s0 c l _ _ _ _ _ _]; [|congruence|eauto].
  destruct Hp; try discriminate; injection Eo as ->; eauto; try congruence.
Qed.
Lemma content_listed : forall c d k, subclass c C_oidc_AuthorizationRequest = true -> content canon (cd_param (cdef c)) d ->
  In k [u "response_type"; u "scope"; u "prompt"] -> listed (dget d k).
Proof.
  intros c d k Hc [_ H] Hk x Hx. destruct (list_params c k Hc Hk) as (s & Hs & Ht).
  apply dget_In in Hx. destruct (H _ _ Hx) as [_ G]. rewrite Hs in G. eapply canon_list; eassumption.
Qed.

(** ** the arguments *)
Lemma has_client : forall c d, subclass c C_oidc_AuthorizationRequest = true -> table_ok (cdef c) d ->
  exists v, dget d (u "client_id") = Some v.
Proof.
  intros c d Hc [H _]. destruct (dget d (u "client_id")) as [v|] eqn:E; [eauto|]. exfalso. apply (H (u "client_id")).
  destruct c; try (vm_compute in Hc; discriminate);
    (eexists; split; [apply dget_In; vm_compute; reflexivity|]; split; [discriminate|]; split; [reflexivity|];
     intros (w & Hw & _); congruence).
Qed.
Lemma dget_pick : forall K names k, NoDup names -> dget (pick names K) k = if existsb (ueqb k) names then kget K k else None.
Proof.
  intros K names k Hn. induction Hn as [|n l Hin Hn IH]; [reflexivity|]. unfold pick in *. cbn [map List.concat existsb].
  destruct (kget K n) as [v|] eqn:E.
  - cbn [app dget]. destruct (ueqb k n) eqn:Ek; [apply ueqb_eq in Ek; subst; symmetry; exact E|exact IH].
  - cbn [app]. rewrite IH. destruct (ueqb k n) eqn:Ek; [|reflexivity]. apply ueqb_eq in Ek. subst. rewrite E. destruct (existsb (ueqb n) l); reflexivity.
Qed.
Lemma dget_app_value : forall (a b : dict value) k, dget (a ++ b) k = match dget a k with Some v => Some v | None => dget b k end.
Proof. intros a b k. induction a as [|[x v] a IH]; [reflexivity|]. cbn [app dget]. destruct (ueqb k x); auto. Qed.
Lemma args_passed : forall c K d, subclass c C_oidc_AuthorizationRequest = true -> table_ok (cdef c) d ->
  exists args, authz_args K (clear_verified d) = Ok args /\ request_passed K d args.
Proof.
  intros c K d Hc Ht. destruct (has_client c d Hc Ht) as [v Hv].
  assert (Hn : NoDup [u "opponent_id"; u "sender"; u "alg"; u "encalg"; u "encenc"]).
  { repeat constructor; cbn [In]; intuition discriminate. }
  unfold authz_args, khas, dhas, request_args. fold (kget K (u "opponent_id")).
  change (dget (clear_verified d) (u "client_id")) with (dget (clear_verified d) (u "client_id")).
  assert (Hv' : dget (clear_verified d) (u "client_id") = Some v) by (rewrite dget_clear; exact Hv).
  destruct (kget K (u "opponent_id")) as [o|] eqn:Eo.
  - eexists. split; [reflexivity|]. intro k. rewrite dget_pick by exact Hn.
    destruct (existsb _ _); [|reflexivity]. destruct (kget K k) eqn:Ek; [reflexivity|].
    destruct (ueqb k (u "opponent_id")) eqn:E; [|reflexivity]. apply ueqb_eq in E. subst. congruence.
  - rewrite Hv'. eexists. split; [reflexivity|]. intro k. rewrite dget_app_value, dget_pick by exact Hn. cbn [dget].
    destruct (ueqb k (u "opponent_id")) eqn:E.
    + apply ueqb_eq in E. subst k. cbn [existsb orb]. replace (ueqb (u "opponent_id") (u "opponent_id")) with true by reflexivity.
      cbn [orb]. rewrite Eo, Hv. reflexivity.
    + destruct (existsb _ _); [|reflexivity]. destruct (kget K k); reflexivity.
Qed.

(** ** without request object *)
Lemma c113 : forall E K hdr c d, subclass c C_oidc_AuthorizationRequest = true -> content canon (cd_param (cdef c)) d ->
  dget d (u "request") = None -> dget d (u "id_token_hint") = None ->
  ((exists d', verify E K hdr c d = (d', Ok true)) <-> table_ok (cdef c) d /\ authz_rules K d) /\
  (forall d', verify E K hdr c d = (d', Ok true) -> forall k, ~ In k [slot_id_token; slot_hint; slot_request] -> dget d' k = dget d k).
Proof.
  intros E K hdr c d Hc Hd Hr Hh.
  assert (Hget : forall k, ~ In k [slot_id_token; slot_hint; slot_request] -> dget (clear_verified d) k = dget d k).
  { intros k Hk. rewrite dget_clear. cbn [In] in Hk. 
    rewrite (proj2 (ueqb_neq k slot_id_token)), (proj2 (ueqb_neq k slot_hint)), (proj2 (ueqb_neq k slot_request)) by (intros ->; tauto). reflexivity. }
  assert (HR : dget (clear_verified d) (u "request") = None) by (rewrite dget_clear; exact Hr).
  assert (HH : dget (clear_verified d) (u "id_token_hint") = None) by (rewrite dget_clear; exact Hh).
  assert (Hrule : authz_rules K d <-> request_rules K (clear_verified d) = Ok true).
  { rewrite request_rules_iff; [|rewrite Hget; [eapply content_listed; [exact Hc|exact Hd|cbn; tauto]|cbn; intuition discriminate]..].
    split; apply rules_ext; intros k Hk; [|symmetry]; apply Hget; cbn [In] in *;
      (destruct Hk as [<-|[<-|[<-|[<-|[]]]]]; intuition discriminate). }
  assert (V : forall args, authz_args K (clear_verified d) = Ok args -> verify E K hdr c d =
    match verify_base (cdef c) d with Ok _ => (clear_verified d, request_rules K (clear_verified d)) | Err e => (d, Err e) end).
  { intros args Ha. unfold verify. rewrite (oidc_request_kind c Hc). unfold oidc_authz_request_verify.
    destruct (verify_base (cdef c) d) as [b|e]; [|reflexivity]. cbn [checked]. cbv zeta. rewrite Ha.
    unfold request_step. rewrite HR. cbn [andthen]. unfold hint_step. rewrite HH. reflexivity. }
  assert (T : forall d', verify E K hdr c d = (d', Ok true) -> table_ok (cdef c) d /\ authz_rules K d /\ d' = clear_verified d).
  { intros d' H. pose proof (oidc_request_true _ _ _ _ _ _ Hc H) as (Ht & _ & _).
    destruct (args_passed c K d Hc Ht) as (args & Ha & _). rewrite (V _ Ha) in H.
    rewrite (proj2 (verify_base_true (cdef c) d true) (conj Ht eq_refl)) in H. injection H as <- H. rewrite Hrule. auto. }
  split; [split|].
  - intros [d' H]. apply T in H. tauto.
  - intros [Ht Ha']. destruct (args_passed c K d Hc Ht) as (args & Ha & _). exists (clear_verified d). rewrite (V _ Ha).
    rewrite (proj2 (verify_base_true (cdef c) d true) (conj Ht eq_refl)). apply Hrule in Ha'. rewrite Ha'. reflexivity.
  - intros d' H. destruct (T d' H) as (_ & _ & ->). exact Hget.
Qed.

(** ** with request object *)
Lemma same_params : forall c k, subclass c C_oidc_AuthorizationRequest = true ->
  param_spec (cd_param (cdef c)) k = param_spec (cd_param (cdef C_oidc_OpenIDRequest)) k /\ cd_default (cdef c) = [].
Proof. intros c k Hc. destruct c; try (vm_compute in Hc; discriminate); split; reflexivity. Qed.

Lemma canon_log : forall s v, canon s v -> log_text v = Ok tt.
Proof.
  intros s v H. destruct H as [s v H|s c d Hs Hd Hn Hk Hc|s c l _ _ _ _ _ _]; [|unfold log_text|reflexivity].
  - destruct H; try reflexivity. match goal with G : json_value _ |- _ => destruct G; reflexivity end.
  - destruct (trip_msg c 11 d Hn Hk Hd) as (r & R & _); [|rewrite R; reflexivity].
    intros k v Hin. apply canon_trip; [apply Hc, Hin|apply deepspec_lib].
Qed.

Lemma undeclared_claim : forall k, In k jwt_claims -> param_spec (cd_param (cdef C_oidc_OpenIDRequest)) k = None.
Proof. intros k H. cbn [jwt_claims In] in H. destruct H as [<-|[<-|[<-|[<-|[<-|[]]]]]]; reflexivity. Qed.

Lemma fd_undeclared : forall L P k w, param_spec P k = None -> ~ blank w -> fd_entry L P k w = Ok (Some w).
Proof.
  intros L P k w Hp Hb. rewrite fd_entry_spec. apply is_blank_false in Hb. rewrite Hb, Hp. reflexivity.
Qed.

Lemma assoc2 : forall (r d : dict value) (Q : ustr -> value -> value -> Prop),
  Forall2 (fun kw kv => fst kw = fst kv /\ Q (fst kw) (snd kw) (snd kv)) r d ->
  forall k, match dget r k, dget d k with
            | Some w, Some v => Q k w v
            | None, None => True
            | _, _ => False
            end.
Proof.
  intros r d Q H k. induction H as [|[k1 w] [k2 v] r d [E1 E2] H IH]; [exact I|]. cbn [fst snd] in *. subst k2. cbn [dget].
  destruct (ueqb k k1) eqn:E; [apply ueqb_eq in E; subst; exact E2|exact IH].
Qed.

Lemma packed_read : forall P E c K arq issuer alg recv jti life tok args,
  subclass c C_oidc_AuthorizationRequest = true -> content canon (cd_param (cdef c)) arq ->
  (forall k, In k jwt_claims -> dget arq k = None) ->
  make_openid_request P (cdef c) arq issuer alg recv jti life = Ok tok ->
  reads_packed P E issuer alg recv jti (if (life =? 0)%Z then None else Some life) ->
  kw_jar K = true -> alg = u "none" \/ trusts E 0 args tok ->
  exists ro h, from_jwt E 0 (cdef C_oidc_OpenIDRequest) tok (kw_jar K) true args = Ok (ro, Some h) /\
    NoDup (map fst ro) /\ (forall k, ~ In k jwt_claims -> dget ro k = dget arq k) /\
    dget ro (u "iss") = Some (VStr issuer) /\ (forall k v, In (k, v) ro -> log_text v = Ok tt).
Proof.
  intros P E c K arq issuer alg recv jti life tok args Hc [Hn Hd] Hcl Hm Hp Hj Ht.
  destruct (trip_entries (cd_param (cdef c)) 11 arq Hn) as (r & H1 & H2 & H3 & H4).
  { intros k v Hin. apply (Hd k v Hin). }
  { intros k v Hin. apply canon_trip; [apply (Hd k v Hin)|apply deepspec_lib]. }
  unfold make_openid_request in Hm. assert (T : to_dict (cdef c) arq = Ok r) by exact H1. rewrite T in Hm. cbn [bind] in Hm.
  destruct (Hp _ _ Hm) as (He & h & b & B1 & B2 & B3 & B4 & B5 & B6).
  pose proof (assoc2 _ _ (fun k w v => fd_entry the_lib (cd_param (cdef c)) k w = Ok (Some v)) H4) as A. cbv beta in A.
  assert (Fd : forall k w, fd_entry the_lib (cd_param (cdef C_oidc_OpenIDRequest)) k w = fd_entry the_lib (cd_param (cdef c)) k w).
  { intros k w. destruct c; try (vm_compute in Hc; discriminate); reflexivity. }
  assert (G : forall k w, dget b k = Some w -> exists v, fd_entry the_lib (cd_param (cdef C_oidc_OpenIDRequest)) k w = Ok (Some v) /\
    log_text v = Ok tt /\ (In k jwt_claims /\ v = w \/ ~ In k jwt_claims /\ dget arq k = Some v)).
  { intros k w Hw. destruct (in_dec (list_eq_dec N.eq_dec) k jwt_claims) as [Hin|Hin].
    - destruct (B5 _ _ Hin Hw) as [J1 J2]. exists w. split; [apply fd_undeclared; [apply undeclared_claim, Hin|exact J2]|].
      split; [destruct J1; reflexivity|left; auto].
    - rewrite (B4 _ Hin) in Hw. specialize (A k). rewrite Hw in A. destruct (dget arq k) as [v|] eqn:Ev; [|destruct A].
      exists v. rewrite Fd. split; [exact A|]. split; [|right; auto]. apply dget_In in Ev. eapply canon_log, (proj2 (Hd _ _ Ev)). }
  destruct (from_items the_lib (cd_param (cdef C_oidc_OpenIDRequest)) [] b) as [ro x] eqn:Ef.
  assert (x = Ok tt) as ->.
  { pose proof (proj2 (from_items_ok_iff the_lib (cd_param (cdef C_oidc_OpenIDRequest)) b [])) as Q. rewrite Ef in Q. apply Q.
    intros k w Hin. apply (In_dget _ _ _ B3) in Hin. destruct (G _ _ Hin) as (v & Gv & _). eauto. }
  assert (Get : forall k, dget ro k = match dget b k with None => None | Some w => match fd_entry the_lib (cd_param (cdef C_oidc_OpenIDRequest)) k w with Ok (Some v) => Some v | _ => None end end).
  { intro k. rewrite (from_items_get _ _ _ _ _ k B3 Ef). reflexivity. }
  exists ro, h. split; [|split; [|split; [|split]]].
  - unfold from_jwt. rewrite Hj. cbn [negb]. unfold jwt_decrypt. rewrite He. cbn [bind]. rewrite B1. cbn [bind t_body].
    rewrite (check_trusted E 0 tok _ true args alg B1 B2) by tauto. cbn [bind].
    assert (FD : from_dict (cdef C_oidc_OpenIDRequest) (cd_default (cdef C_oidc_OpenIDRequest)) (VDict b) = (ro, Ok tt)) by exact Ef.
    rewrite FD. reflexivity.
  - pose proof (from_items_nodup the_lib (cd_param (cdef C_oidc_OpenIDRequest)) b [] (NoDup_nil _)) as Q. rewrite Ef in Q. exact Q.
  - intros k Hk. rewrite Get. specialize (A k). rewrite <- (B4 k Hk) in A.
    destruct (dget b k) as [w|]; destruct (dget arq k) as [v|]; [rewrite Fd, A; reflexivity|destruct A|destruct A|reflexivity].
  - rewrite Get, B6. destruct (G _ _ B6) as (v & -> & _ & [[_ ->]|[F _]]); [reflexivity|]. exfalso. apply F. cbn. tauto.
  - intros k v Hin.
    assert (Hro : NoDup (map fst ro)).
    { pose proof (from_items_nodup the_lib (cd_param (cdef C_oidc_OpenIDRequest)) b [] (NoDup_nil _)) as Q. rewrite Ef in Q. exact Q. }
    apply (In_dget _ _ _ Hro) in Hin. rewrite Get in Hin. destruct (dget b k) as [w|] eqn:Ew; [|discriminate].
    destruct (G _ _ Ew) as (v' & Gv & Gl & _). rewrite Gv in Hin. congruence.
Qed.

Lemma c114 : forall P E K hdr c arq issuer alg recv jti life tok msg,
  subclass c C_oidc_AuthorizationRequest = true ->
  content canon (cd_param (cdef c)) arq -> authz_rules K arq ->
  (forall k, In k ([u "request"; u "id_token_hint"] ++ jwt_claims) -> dget arq k = None) ->
  make_openid_request P (cdef c) arq issuer alg recv jti life = Ok tok ->
  reads_packed P E issuer alg recv jti (if (life =? 0)%Z then None else Some life) ->
  kw_jar K = true -> (forall args, request_passed K msg args -> alg = u "none" \/ trusts E 0 args tok) ->
  table_ok (cdef c) msg -> dget msg (u "request") = Some (VStr tok) ->
  (forall k v, dget msg k = Some v -> k = u "request" \/ dget arq k = Some v) ->
  exists d' ro, verify E K hdr c msg = (d', Ok true) /\ dget d' slot_request = Some (VMsg C_oidc_OpenIDRequest ro) /\
    (forall k, k <> slot_request -> dget d' k = dget ro k) /\
    (forall k, ~ In k jwt_claims -> dget ro k = dget arq k) /\ dget ro (u "iss") = Some (VStr issuer).
Proof.
  intros P E K hdr c arq issuer alg recv jti life tok msg Hc Hd Hr Hno Hm Hp Hj Ht Htab Hreq Hmsg.
  destruct (args_passed c K msg Hc Htab) as (args & Ha & Hpass).
  destruct (packed_read P E c K arq issuer alg recv jti life tok args Hc Hd) as (ro & h & F1 & F2 & F3 & F4 & F5);
    [intros k Hk; apply Hno; apply in_or_app; right; exact Hk|exact Hm|exact Hp|exact Hj|apply Ht; exact Hpass|].
  assert (HR : dget (clear_verified msg) (u "request") = Some (VStr tok)) by (rewrite dget_clear; exact Hreq).
  assert (HL : ro_log (clear_verified msg) ro = Ok tt).
  { unfold ro_log. assert (M : exists l, mapM (fun kv : ustr * value => match dget (clear_verified msg) (fst kv) with
        | Some x => if py_ne x (snd kv) then do _ <- log_text x ; log_text (snd kv) else Ok tt
        | None => Ok tt end) ro = Ok l).
    { clear - F5 Hmsg Hd Hreq. induction ro as [|[k v] ro IH]; [exists []; reflexivity|]. destruct IH as [l IH]; [intros; eapply F5; right; eassumption|].
      exists (tt :: l). cbn [mapM fst snd]. rewrite IH.
      assert (X : match dget (clear_verified msg) k with
                  | Some x => if py_ne x v then do _ <- log_text x ; log_text v else Ok tt | None => Ok tt end = Ok tt).
      { destruct (dget (clear_verified msg) k) as [x|] eqn:Ex; [|reflexivity]. destruct (py_ne x v); [|reflexivity].
        rewrite (F5 k v) by (left; reflexivity).
        assert (Lx : log_text x = Ok tt).
        { rewrite dget_clear in Ex. destruct (_ || _ || _); [discriminate|]. destruct (Hmsg _ _ Ex) as [->|G].
          - rewrite Hreq in Ex. injection Ex as <-. reflexivity.
          - apply dget_In in G. eapply canon_log, (proj2 Hd _ _ G). }
        rewrite Lx. reflexivity. }
      rewrite X. reflexivity. }
    destruct M as [l M]. rewrite M. reflexivity. }
  set (d2 := dset (ro_replace (clear_verified msg) ro) slot_request (VMsg C_oidc_OpenIDRequest ro)).
  assert (G : forall k, k <> slot_request -> dget d2 k = dget ro k).
  { intros k Hk. unfold d2. rewrite dget_dset_other by exact Hk. apply ro_replace_get, F2. }
  assert (HH : dget d2 (u "id_token_hint") = None).
  { rewrite G by discriminate. rewrite F3 by (cbn; intuition discriminate). apply Hno. cbn. tauto. }
  assert (GA : forall k, In k [u "response_type"; u "nonce"; u "scope"; u "prompt"] -> dget d2 k = dget arq k).
  { intros k Hk. cbn [In] in Hk. destruct Hk as [<-|[<-|[<-|[<-|[]]]]]; (rewrite G by discriminate; apply F3; cbn; intuition discriminate). }
  exists d2, ro. split; [|split; [apply dget_dset_same|split; [exact G|split; assumption]]].
  unfold verify. rewrite (oidc_request_kind c Hc). unfold oidc_authz_request_verify.
  rewrite (proj2 (verify_base_true (cdef c) msg true) (conj Htab eq_refl)). cbn [checked]. cbv zeta. rewrite Ha.
  unfold request_step. rewrite HR, F1, HL. change (verified_claim_name (u "request")) with slot_request.
  rewrite setitem_slot by (cbn; tauto). fold d2. cbn [andthen]. unfold hint_step. rewrite HH. cbn [andthen].
  f_equal. apply request_rules_iff; try (rewrite GA by (cbn; tauto); eapply content_listed; [exact Hc|exact Hd|cbn; tauto]).
  apply (rules_ext K arq); assumption.
Qed.
