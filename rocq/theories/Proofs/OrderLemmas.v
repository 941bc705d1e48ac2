(** verify() and the order of the parameters. *)
From Coq Require Import List NArith ZArith Bool String.
From Verif Require Import Base.Ustr Base.UstrLemmas Base.Percent Model.Cls Model.Value Model.Pspec Model.Tables Model.Message Model.Env Model.Verify
  Model.Json Spec.JsonSpec Spec.MessageSpec Spec.CodecSpec Spec.RoundTripSpec Spec.VerifySpec Spec.OrderSpec
  Proofs.ValueLemmas Proofs.IdaLemmas Proofs.VerifyLemmas Proofs.RoundTrip Proofs.RequestObjectLemmas.
Import ListNotations.
Open Scope list_scope.
Open Scope N_scope.

Record same {A} (d1 d2 : dict A) : Prop := {
  s_get : forall k, dget d1 k = dget d2 k; s_n1 : NoDup (map fst d1); s_n2 : NoDup (map fst d2) }.
Definition rsame {A} (r1 r2 : dict value * res A) : Prop := same (fst r1) (fst r2) /\ snd r1 = snd r2.

Lemma same_has : forall {A} (d1 d2 : dict A) k, same d1 d2 -> dhas d1 k = dhas d2 k.
Proof. intros A d1 d2 k H. unfold dhas. rewrite (s_get _ _ H). reflexivity. Qed.
Lemma same_dset : forall d1 d2 k (v : value), same d1 d2 -> same (dset d1 k v) (dset d2 k v).
Proof.
  intros d1 d2 k v H. constructor; [|apply dset_nodup, (s_n1 _ _ H)|apply dset_nodup, (s_n2 _ _ H)].
  intro x. rewrite !dget_dset, (s_get _ _ H). reflexivity.
Qed.
Lemma same_ddel : forall (d1 d2 : dict value) k, same d1 d2 -> same (ddel d1 k) (ddel d2 k).
Proof.
  intros d1 d2 k H. constructor; [|apply ddel_nodup, (s_n1 _ _ H)|apply ddel_nodup, (s_n2 _ _ H)].
  intro x. rewrite !dget_ddel, (s_get _ _ H). reflexivity.
Qed.
Lemma same_filter : forall (f : ustr -> bool) (d1 d2 : dict value), same d1 d2 ->
  same (filter (fun kv => f (fst kv)) d1) (filter (fun kv => f (fst kv)) d2).
Proof.
  intros f d1 d2 H. constructor; [|apply filter_nodup_keys, (s_n1 _ _ H)|apply filter_nodup_keys, (s_n2 _ _ H)].
  intro x. rewrite !dget_filter, (s_get _ _ H). reflexivity.
Qed.
Lemma same_dupdate : forall (e d1 d2 : dict value), same d1 d2 -> same (dupdate d1 e) (dupdate d2 e).
Proof.
  induction e as [|[k v] e IH]; intros d1 d2 H; [exact H|]. rewrite !dupdate_cons. apply IH, same_dset, H.
Qed.
Lemma same_clear : forall d1 d2, same d1 d2 -> same (clear_verified d1) (clear_verified d2).
Proof. intros d1 d2 H. unfold clear_verified. repeat apply same_ddel. exact H. Qed.
Lemma same_setitem : forall C d1 d2 k v, same d1 d2 -> rsame (setitem C d1 k v) (setitem C d2 k v).
Proof.
  intros C d1 d2 k v H. unfold setitem, rsame. destruct (dget (cd_param C) k) as [s|]; [|split; [apply same_dset, H|reflexivity]].
  destruct (add_val the_lib s v) as [[x|]|e]; [split; [apply same_dset, H|reflexivity]|split; [exact H|reflexivity]|].
  destruct e; split; try (apply same_dset, H); try exact H; reflexivity.
Qed.
Lemma same_andthen : forall {A B} (r1 r2 : dict value * res A) (f1 f2 : dict value -> A -> dict value * res B),
  rsame r1 r2 -> (forall d1 d2 a, same d1 d2 -> rsame (f1 d1 a) (f2 d2 a)) -> rsame (andthen r1 f1) (andthen r2 f2).
Proof.
  intros A B [d1 r1] [d2 r2] f1 f2 [H1 H2] Hf. cbn [fst snd] in *. subst r2. destruct r1 as [a|e]; cbn [andthen]; [apply Hf, H1|].
  split; [exact H1|reflexivity].
Qed.
Lemma same_ret : forall {A} (d1 d2 : dict value) (r : res A), same d1 d2 -> rsame (d1, r) (d2, r).
Proof. intros A d1 d2 r H. split; [exact H|reflexivity]. Qed.
Lemma same_checked : forall {A} (r1 r2 : res A) d1 d2 f1 f2, r1 = r2 -> same d1 d2 -> (same d1 d2 -> rsame (f1 d1) (f2 d2)) ->
  rsame (checked r1 d1 f1) (checked r2 d2 f2).
Proof. intros A r1 r2 d1 d2 f1 f2 -> H Hf. destruct r2; cbn [checked]; [apply Hf, H|apply same_ret, H]. Qed.

(** rewrite all lookups *)
Ltac looks H := repeat match type of H with same ?d1 ?d2 =>
  match goal with
  | |- context [dget d1 ?k] => rewrite (s_get _ _ H k)
  | |- context [dhas d1 ?k] => rewrite (same_has _ _ k H)
  end end.

Lemma mapM_eq : forall {A B} (f g : A -> res B) l, (forall x, f x = g x) -> mapM f l = mapM g l.
Proof. intros A B f g l H. induction l as [|x l IH]; cbn [mapM]; [reflexivity|]. rewrite H, IH. reflexivity. Qed.
Lemma base_same : forall C d1 d2, same d1 d2 -> verify_base C d1 = verify_base C d2.
Proof.
  intros C d1 d2 H. unfold verify_base. rewrite (mapM_eq _ (fun ks => verify_param C d2 (fst ks) (snd ks))); [reflexivity|].
  intro ks. unfold verify_param. looks H. reflexivity.
Qed.
Lemma response_same : forall C d1 d2, same d1 d2 -> response_verify C d1 = response_verify C d2.
Proof. intros C d1 d2 H. unfold response_verify. rewrite (base_same C _ _ H). looks H. reflexivity. Qed.
Lemma authz_response_same : forall K C d1 d2, same d1 d2 -> authz_response_verify K C d1 = authz_response_verify K C d2.
Proof. intros K C d1 d2 H. unfold authz_response_verify. rewrite (response_same C _ _ H). looks H. reflexivity. Qed.
Lemma none_same : forall d1 d2 : dict value, same d1 d2 ->
  existsb (fun kv => match snd kv with VNone => true | _ => false end) d1 = existsb (fun kv => match snd kv with VNone => true | _ => false end) d2.
Proof.
  intros d1 d2 H. apply eq_true_iff_eq. rewrite !existsb_exists.
  split; intros ([k v] & Hin & Hv); exists (k, v); (split; [|exact Hv]); apply dget_In.
  - rewrite <- (s_get _ _ H). apply In_dget; [apply (s_n1 _ _ H)|exact Hin].
  - rewrite (s_get _ _ H). apply In_dget; [apply (s_n2 _ _ H)|exact Hin].
Qed.
Lemma schema_same : forall C d1 d2, same d1 d2 -> schema_verify C d1 = schema_verify C d2.
Proof. intros C d1 d2 H. unfold schema_verify. rewrite (response_same C _ _ H), (none_same _ _ H). looks H. reflexivity. Qed.
Lemma idtoken_same : forall E K C d1 d2, same d1 d2 -> idtoken_verify E K C d1 = idtoken_verify E K C d2.
Proof.
  intros E K C d1 d2 H. unfold idtoken_verify, idtoken_aud, idtoken_times. rewrite (schema_same C _ _ H). looks H. reflexivity.
Qed.
Lemma jwt_same : forall E K C d1 d2, same d1 d2 -> jwt_verify E K C d1 = jwt_verify E K C d2.
Proof. intros E K C d1 d2 H. unfold jwt_verify. rewrite (base_same C _ _ H). looks H. reflexivity. Qed.
Lemma provider_same : forall E K C d1 d2, same d1 d2 -> provider_verify E K C d1 = provider_verify E K C d2.
Proof. intros E K C d1 d2 H. unfold provider_verify, getitem. rewrite (response_same C _ _ H). looks H. reflexivity. Qed.
Lemma regresp_same : forall C d1 d2, same d1 d2 -> registration_response_verify C d1 = registration_response_verify C d2.
Proof. intros C d1 d2 H. unfold registration_response_verify. rewrite (response_same C _ _ H). looks H. reflexivity. Qed.
Lemma logout_same : forall E K C hdr d1 d2, same d1 d2 -> logout_token_verify E K C hdr d1 = logout_token_verify E K C hdr d2.
Proof. intros E K C hdr d1 d2 H. unfold logout_token_verify, getitem. rewrite (base_same C _ _ H). looks H. reflexivity. Qed.
Lemma device_same : forall C d1 d2, same d1 d2 -> device_verify C d1 = device_verify C d2.
Proof. intros C d1 d2 H. unfold device_verify. rewrite (base_same C _ _ H). looks H. reflexivity. Qed.
Lemma claims_same : forall c (d1 d2 : dict value), same d1 d2 -> verify_claims_request (VDict d1) c = verify_claims_request (VDict d2) c.
Proof.
  intros c d1 d2 H. cbn [verify_claims_request].
  assert (G : forall (f : value -> vtyp -> res unit) (d : dict value) k, dget (map (fun kv : ustr * value => (fst kv, f (snd kv))) d) k = option_map f (dget d k)).
  { intros f d k. induction d as [|[k0 v0] d IH]; cbn [map dget fst snd]; [reflexivity|]. destruct (ueqb k k0); [reflexivity|exact IH]. }
  induction (cd_param (cdef c)) as [|[k s] P IH]; cbn [check_params]; [reflexivity|]. rewrite !G, (s_get _ _ H), IH. reflexivity.
Qed.
Lemma request_same : forall C c d1 d2, same d1 d2 -> request_verify C c d1 = request_verify C c d2.
Proof. intros C c d1 d2 H. unfold request_verify. rewrite (base_same C _ _ H), (claims_same c _ _ H). reflexivity. Qed.

(** ** functions that change the message *)
Lemma same_verify_id_token : forall E i K C ch claim d1 d2, same d1 d2 ->
  rsame (verify_id_token E i K C ch claim d1) (verify_id_token E i K C ch claim d2).
Proof.
  intros E i K C ch claim d1 d2 H.
  assert (E1 : check_id_token E i K ch claim d1 = check_id_token E i K ch claim d2).
  { unfold check_id_token, getitem, hashes_check, hash_check. looks H. reflexivity. }
  unfold verify_id_token. rewrite E1. destruct (check_id_token E i K ch claim d2) as [[idt|]|e]; try apply same_ret; try exact H.
  apply same_andthen; [apply same_setitem, H|]. intros e1 e2 _ He. destruct (to_dict _ idt); apply same_ret, He.
Qed.
Lemma same_with : forall E K C ch d1 d2, same d1 d2 -> rsame (with_id_token E K C ch d1) (with_id_token E K C ch d2).
Proof.
  intros E K C ch d1 d2 H. unfold with_id_token. looks H. destruct (dhas d2 _); [apply same_verify_id_token, H|apply same_ret, H].
Qed.
Lemma same_merge : forall ro t d1 d2, same d1 d2 -> same (merge d1 ro t) (merge d2 ro t).
Proof.
  intros ro t d1 d2 H. unfold merge. apply same_dupdate. destruct t as [| |[|x l]|]; try exact H.
  - apply (same_filter (dhas ro)), H.
  - apply (same_filter (fun k => umem k (x :: l))), H.
Qed.
Lemma same_jar : forall E K C t r d1 d2, same d1 d2 -> rsame (jar_merge E K C t d1 r) (jar_merge E K C t d2 r).
Proof.
  intros E K C t r d1 d2 H. unfold jar_merge, clear. destruct (bind _ _) as [[req h]|e]; [|apply same_ret, same_ddel, H].
  pose proof (same_setitem C _ _ (verified_claim_name (u "request")) (VMsg C_oauth2_AuthorizationRequest req)
    (same_merge req t _ _ (same_ddel _ _ (verified_claim_name (u "request")) H))) as [G1 G2].
  destruct (setitem C (merge (ddel d1 _) req t) _ _) as [a ra], (setitem C (merge (ddel d2 _) req t) _ _) as [b rb].
  cbn [fst snd] in *. subst rb. destruct ra; apply same_ret, G1.
Qed.
Lemma same_enc : forall C p d1 d2, same d1 d2 -> rsame (enc_default C p d1) (enc_default C p d2).
Proof.
  intros C p d1 d2 H. unfold enc_default. cbv zeta. apply same_andthen.
  - looks H. destruct (_ && _); [apply same_setitem, H|apply same_ret, H].
  - intros e1 e2 _ He. looks He. destruct (_ && _); apply same_ret, He.
Qed.

Lemma evidence_state : forall n c d, fst (evidence_verify n c d) = d.
Proof.
  intros [|n] c d; [reflexivity|]. cbn [evidence_verify].
  assert (R : forall c', exists e, (do kws <- to_dict (cdef c) d ; do m <- construct (cdef c') kws ; snd (evidence_verify n c' m)) = Err e).
  { intro c'. destruct (to_dict (cdef c) d) as [kws|e]; cbn [bind]; [|eauto].
    destruct (construct (cdef c') kws) as [m|e]; cbn [bind]; [apply evidence_never|eauto]. }
  destruct (truthy (get d (u "type") VNone)); destruct (List.find _ evidence_types) as [[m c']|]; try reflexivity.
  destruct (R c') as [e ->]. reflexivity.
Qed.

Lemma same_request_step : forall E K C args d1 d2, same d1 d2 -> rsame (request_step E K C args d1) (request_step E K C args d2).
Proof.
  intros E K C args d1 d2 H. unfold request_step. looks H. destruct (dget d2 (u "request")) as [[]|]; try (apply same_ret, H).
  destruct (from_jwt _ _ _ _ _ _ _) as [[ro h]|e]; [|apply same_ret, H].
  assert (L : ro_log d1 ro = ro_log d2 ro).
  { unfold ro_log. erewrite mapM_eq; [reflexivity|]. intro kv. looks H. reflexivity. }
  rewrite L. destruct (ro_log d2 ro); [|apply same_ret, H]. apply same_setitem. unfold ro_replace.
  apply same_dupdate, (same_filter (dhas ro)), H.
Qed.
Lemma same_hint_step : forall E K C args d1 d2, same d1 d2 -> rsame (hint_step E K C args d1) (hint_step E K C args d2).
Proof.
  intros E K C args d1 d2 H. unfold hint_step. looks H. destruct (dget d2 (u "id_token_hint")) as [[]|]; try (apply same_ret, H).
  destruct (from_jwt _ _ _ _ _ _ _) as [[ro h]|e]; [|apply same_ret, H]. apply same_setitem, H.
Qed.
Lemma rules_same : forall K d1 d2, same d1 d2 -> request_rules K d1 = request_rules K d2.
Proof. intros K d1 d2 H. unfold request_rules, get. looks H. reflexivity. Qed.
Lemma args_same : forall K d1 d2, same d1 d2 -> authz_args K d1 = authz_args K d2.
Proof. intros K d1 d2 H. unfold authz_args. looks H. reflexivity. Qed.

Lemma order_kind : forall E K hdr c d1 d2, same d1 d2 -> vkind_of c <> KEvidence -> rsame (verify E K hdr c d1) (verify E K hdr c d2).
Proof.
  intros E K hdr c d1 d2 H Hk. unfold verify. destruct (vkind_of c); unfold pure.
  - rewrite (base_same _ _ _ H). apply same_ret, H.
  - rewrite (response_same _ _ _ H). apply same_ret, H.
  - rewrite (authz_response_same _ _ _ _ H). apply same_ret, H.
  - unfold jar_verify. looks H. destruct (dget d2 (u "request")); [apply same_jar, H|]. destruct (dhas d2 _); apply same_ret, H.
  - unfold par_verify. looks H. destruct (dget d2 (u "request")); [apply same_jar, H|]. apply same_ret, H.
  - unfold oidc_token_response_verify. apply same_checked; [apply response_same, H|exact H|]. intros _. apply same_with, same_clear, H.
  - unfold oidc_authz_response_verify. apply same_checked; [apply authz_response_same, H|exact H|]. intros _. cbv zeta.
    pose proof (same_clear _ _ H) as H1. looks H1. destruct (dget (clear_verified d2) (u "aud")); [|apply same_with, H1].
    destruct (kget K _); [|apply same_with, H1]. destruct (not_in _ _) as [[]|]; try (apply same_ret, H1). apply same_with, H1.
  - unfold oidc_authz_request_verify. apply same_checked; [apply base_same, H|exact H|]. intros _. cbv zeta.
    pose proof (same_clear _ _ H) as H1. rewrite (args_same _ _ _ H1). destruct (authz_args _ _); [|apply same_ret, H1].
    apply same_andthen; [apply same_request_step, H1|]. intros e1 e2 _ He. apply same_andthen; [apply same_hint_step, He|].
    intros f1 f2 _ Hf. rewrite (rules_same _ _ _ Hf). apply same_ret, Hf.
  - rewrite (schema_same _ _ _ H). apply same_ret, H.
  - unfold registration_verify. apply same_checked; [apply base_same, H|exact H|]. intros _. apply same_checked; [looks H; reflexivity|exact H|].
    intros _. apply same_andthen; [apply same_enc, H|]. intros a1 a2 _ Ha. apply same_andthen; [apply same_enc, Ha|].
    intros b1 b2 _ Hb. apply same_andthen; [apply same_enc, Hb|]. intros e1 e2 _ He. looks He. apply same_ret, He.
  - rewrite (regresp_same _ _ _ H). apply same_ret, H.
  - rewrite (idtoken_same _ _ _ _ _ H). apply same_ret, H.
  - unfold mwit_verify. apply same_checked; [|exact H|intros _; apply same_with, H].
    unfold mwit_super. destruct (subclass _ _); [apply response_same, H|apply base_same, H].
  - rewrite (provider_same _ _ _ _ _ H). apply same_ret, H.
  - rewrite (jwt_same _ _ _ _ _ H). apply same_ret, H.
  - unfold end_session_verify. apply same_checked; [apply base_same, H|exact H|]. intros _. cbv zeta.
    pose proof (same_clear _ _ H) as H1. looks H1. destruct (dget (clear_verified d2) _); [|apply same_ret, H1].
    destruct (bind _ _) as [[idt h]|]; [|apply same_ret, H1]. apply same_andthen; [apply same_verify_id_token, H1|].
    intros e1 e2 [] He; [|apply same_ret, He]. apply same_andthen; [apply same_setitem, He|]. intros f1 f2 _ Hf. apply same_ret, Hf.
  - rewrite (logout_same _ _ _ _ _ _ H). apply same_ret, H.
  - unfold backchannel_verify, getitem. apply same_checked; [apply base_same, H|exact H|]. intros _. looks H.
    destruct (dget d2 _); [|apply same_ret, H]. destruct (bind _ _) as [[t h]|]; [|apply same_ret, H].
    destruct (logout_token_verify _ _ _ _ _) as [[]|]; try (apply same_ret, H). apply same_andthen; [apply same_setitem, H|].
    intros e1 e2 _ He. destruct (to_dict _ t); apply same_ret, He.
  - congruence.
  - rewrite (request_same _ _ _ _ H). apply same_ret, H.
  - rewrite (request_same _ _ _ _ H). apply same_ret, H.
  - unfold ida_claims_verify, get. rewrite (base_same _ _ _ H). destruct (verify_base _ _); [|apply same_ret, H]. cbv zeta. looks H.
    destruct (truthy _); [|apply same_ret, H].
    match goal with |- rsame (match ?x with _ => _ end) _ => destruct x as [m|e] end; [|apply same_ret, H].
    destruct (request_verify _ _ _); [|apply same_ret, H].
    pose proof (same_setitem (cdef c) d1 d2 (u "verified_claims") (VMsg C_ida_VerifiedClaimsRequest m) H) as [G1 G2].
    destruct (setitem (cdef c) d1 _ _) as [x rx], (setitem (cdef c) d2 _ _) as [y ry]. cbn [fst snd] in *. subst ry. destruct rx; apply same_ret, G1.
  - rewrite (device_same _ _ _ H). apply same_ret, H.
Qed.
Lemma evidence_kind : forall E K hdr c d, vkind_of c = KEvidence -> fst (verify E K hdr c d) = d /\ exists e, snd (verify E K hdr c d) = Err e.
Proof.
  intros E K hdr c d Hk. unfold verify. rewrite Hk. split; [apply evidence_state|apply evidence_never].
Qed.
Lemma kind_evidence : forall c, vkind_of c = KEvidence <-> subclass c C_ida_Evidence = true.
Proof. intro c. destruct c; vm_compute; split; intro H; try discriminate; reflexivity. Qed.

Theorem order : forall E K hdr c d1 d2, NoDup (map fst d1) -> NoDup (map fst d2) -> (forall k, dget d1 k = dget d2 k) ->
  alike c (verify E K hdr c d1) (verify E K hdr c d2).
Proof.
  intros E K hdr c d1 d2 H1 H2 H. assert (S : same d1 d2) by (constructor; assumption). unfold alike.
  destruct (subclass c C_ida_Evidence) eqn:Es.
  - apply kind_evidence in Es. destruct (evidence_kind E K hdr c d1 Es) as [A1 [e A2]], (evidence_kind E K hdr c d2 Es) as [B1 [f B2]].
    rewrite A1, A2, B1, B2. split; [exact H|]. split; [|discriminate]. intro b. split; discriminate.
  - assert (Hk : vkind_of c <> KEvidence) by (intro X; apply kind_evidence in X; congruence).
    destruct (order_kind E K hdr c d1 d2 S Hk) as [G1 G2]. rewrite G2. split; [apply (s_get _ _ G1)|]. split; reflexivity.
Qed.

(** ** transports *)
Lemma from_fields_nodup : forall L P l d, NoDup (map fst d) -> NoDup (map fst (fst (from_fields L P d l))).
Proof.
  intros L P. induction l as [|[k v] l IH]; intros d Hd; [exact Hd|]. cbn [from_fields]. destruct (fu_entry L P k v) as [x|e]; [|exact Hd].
  apply IH, dset_nodup, Hd.
Qed.
Lemma from_url_nodup : forall C t d d' r, NoDup (map fst d) -> from_urlencoded C d t = (d', r) -> NoDup (map fst d').
Proof.
  intros C t d d' r Hd H. unfold from_urlencoded, from_qs in H.
  destruct (Percent.parse_qs t) as [|f l]; [destruct t; injection H as <- _; exact Hd|].
  pose proof (from_fields_nodup the_lib (cd_param C) (f :: l) d Hd) as G. rewrite H in G. exact G.
Qed.
Lemma from_json_nodup : forall C t d d' r, NoDup (map fst d) -> from_json C d t = (d', r) -> NoDup (map fst d').
Proof.
  intros C t d d' r Hd H. unfold from_json, from_json_gen in H. destruct (json_loads t) as [v|e]; [|injection H as <- _; exact Hd].
  exact (from_dict_nodup C v d d' r Hd H).
Qed.

Theorem transport : forall E K hdr c d, content canon (cd_param (cdef c)) d -> covers_defaults (cdef c) d ->
  (exists t d', to_json (cdef c) d = Ok t /\ from_json (cdef c) (cd_default (cdef c)) t = (d', Ok tt) /\
     alike c (verify E K hdr c d) (verify E K hdr c d')) /\
  (exists r d', to_dict (cdef c) d = Ok r /\ from_dict (cdef c) (cd_default (cdef c)) (VDict r) = (d', Ok tt) /\
     alike c (verify E K hdr c d) (verify E K hdr c d')).
Proof.
  intros E K hdr c d H Hc. split.
  - destruct (json_round_trip (cdef c) d H Hc) as (t & d' & A & B & G). exists t, d'. split; [exact A|]. split; [exact B|].
    apply order; [apply H|exact (from_json_nodup _ _ _ _ _ (lib_defaults_nodup c) B)|]. intro k. symmetry. apply G.
  - destruct (dict_round_trip (cdef c) d H Hc) as (t & d' & A & B & G). exists t, d'. split; [exact A|]. split; [exact B|].
    apply order; [apply H|exact (from_dict_nodup _ _ _ _ _ (lib_defaults_nodup c) B)|]. intro k. symmetry. apply G.
Qed.
Theorem transport_url : forall E K hdr c lax d, content urlable (cd_param (cdef c)) d -> covers_defaults (cdef c) d ->
  (lax = true \/ has_required (cdef c) d) ->
  exists t d', to_urlencoded (cdef c) lax d = Ok t /\ from_urlencoded (cdef c) (cd_default (cdef c)) t = (d', Ok tt) /\
     alike c (verify E K hdr c d) (verify E K hdr c d').
Proof.
  intros E K hdr c lax d H Hc Hr. destruct (url_round_trip (cdef c) lax d H Hc Hr) as (t & d' & A & B & G). exists t, d'.
  split; [exact A|]. split; [exact B|].
  apply order; [apply H|exact (from_url_nodup _ _ _ _ _ (lib_defaults_nodup c) B)|]. intro k. symmetry. apply G.
Qed.
(** an authorization request and its query string *)
Theorem sent_request : forall E K hdr c lax d, subclass c C_oidc_AuthorizationRequest = true ->
  content canon (cd_param (cdef c)) d -> content urlable (cd_param (cdef c)) d -> dget d (u "request") = None -> dget d (u "id_token_hint") = None ->
  (lax = true \/ has_required (cdef c) d) ->
  exists t d', to_urlencoded (cdef c) lax d = Ok t /\ from_urlencoded (cdef c) (cd_default (cdef c)) t = (d', Ok tt) /\
    ((exists d'', verify E K hdr c d' = (d'', Ok true)) <-> table_ok (cdef c) d /\ authz_rules K d) /\
    (forall d'', verify E K hdr c d' = (d'', Ok true) ->
       forall k, ~ In k [u "__verified_id_token"; u "__verified_id_token_hint"; u "__verified_request"] -> dget d'' k = dget d k).
Proof.
  intros E K hdr c lax d Hs Hc Hu Hr Hh Hl.
  assert (D : cd_default (cdef c) = []) by apply (same_params c [] Hs).
  destruct (transport_url E K hdr c lax d Hu) as (t & d' & A & B & G1 & G2 & _); [|exact Hl|].
  { intro k. rewrite D. intros []. }
  destruct (c113 E K hdr c d Hs Hc Hr Hh) as [I1 I2]. exists t, d'. split; [exact A|]. split; [exact B|].
  destruct (verify E K hdr c d) as [x rx], (verify E K hdr c d') as [y ry]. cbn [fst snd] in *. split.
  - rewrite <- I1. split; intros [z Hz]; injection Hz as <- Hz; apply G2 in Hz; rewrite Hz; eexists; reflexivity.
  - intros z Hz k Hk. injection Hz as <- Hz. apply G2 in Hz. rewrite <- G1. apply (I2 x); [rewrite Hz; reflexivity|exact Hk].
Qed.
