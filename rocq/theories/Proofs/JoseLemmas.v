(** Proofs about JWTs written and read back. *)
From Coq Require Import List NArith ZArith QArith Bool String Lia.
From Verif Require Import Base.Ustr Base.UstrLemmas Base.Utf8 Base.Utf8Lemmas Model.Cls Model.Value Model.Pspec Model.Tables
  Model.Json Model.Message Model.Env Model.Verify Model.Jose
  Spec.JsonSpec Spec.MessageSpec Spec.CodecSpec Spec.VerifySpec Spec.RoundTripSpec Spec.JoseSpec
  Proofs.ValueLemmas Proofs.JsonLemmas Proofs.MessageLemmas Proofs.VerifyLemmas Proofs.TokenLemmas Proofs.IdTokenLemmas
  Proofs.OtherVerify Proofs.ResponseLemmas Proofs.RoundTrip.
Import ListNotations.
Open Scope list_scope.
Open Scope N_scope.

Lemma demanded_sigalg : forall args a, demanded_alg args a -> a = jwt_sigalg args.
Proof.
  intros args a [(v & H & Hv & ->)|(H & ->)]; unfold jwt_sigalg.
  - rewrite H. destruct (truthy v) eqn:E; [reflexivity|]. exfalso. apply Hv. apply truthy_empty. exact E.
  - destruct (dget args (u "sigalg")) as [v|]; [|reflexivity]. rewrite (proj2 (truthy_empty v) (H v eq_refl)). reflexivity.
Qed.

Lemma check_trusted : forall E i t tok vfy args alg, e_jws E (VStr t) = Ok (Some tok) ->
  dget (t_hdr tok) (u "alg") = Some (VStr alg) ->
  alg = u "none" \/ vfy = false \/ trusts E i args t -> jwt_check E i t tok vfy args = Ok tt.
Proof.
  intros E i t tok vfy args alg Ht Ha H. unfold jwt_check. rewrite Ha.
  destruct (py_eq (VStr alg) (VStr (u "none"))) eqn:En; [reflexivity|].
  destruct H as [->|[->|H]]; [vm_compute in En; discriminate|reflexivity|].
  destruct vfy; [|reflexivity]. destruct (H tok Ht) as (Hj & a & ks & Hk & Hne & Hd & Hs). rewrite Hj, Hk. cbn [bind].
  apply demanded_sigalg in Hd. subst a. destruct ks; [congruence|]. rewrite Hs. reflexivity.
Qed.

(** ** the JSON text *)
Lemma json_written : forall C d, content canon (cd_param C) d -> covers_defaults C d ->
  exists t r d', to_json C d = Ok t /\ json_loads t = Ok (VDict r) /\ Forall printable t /\
    from_dict C (cd_default C) (VDict r) = (d', Ok tt) /\ (forall k, dget d' k = dget d k) /\
    d' = dupdate (cd_default C) d.
Proof.
  intros C d [Hn H] Hc. destruct (trip_entries (cd_param C) 11 d Hn) as (r & H1 & H2 & H3 & H4).
  { intros k v Hin. apply (H k v Hin). }
  { intros k v Hin. apply canon_trip; [apply (H k v Hin)|apply deepspec_lib]. }
  assert (J : json_value (VDict r)) by (constructor; [rewrite H2; exact Hn|exact H3]).
  destruct (json_codec _ J) as (t & J1 & Jp & J2).
  exists t, r, (dupdate (cd_default C) d). unfold to_json. assert (T : to_dict C d = Ok r) by exact H1. rewrite T.
  split; [exact J1|]. split; [exact J2|]. split; [exact Jp|]. split; [exact (from_items_all _ _ _ _ _ H4)|].
  split; [|reflexivity]. intro k. rewrite (dget_covered C d Hc), dupdate_nil by exact Hn. reflexivity.
Qed.

Lemma jwt_read : forall J E i C d alg keys args vfy tok,
  content canon (cd_param C) d -> covers_defaults C d -> message_to_jwt J C d keys alg = Ok tok ->
  reads_signed J E alg keys -> alg = u "none" \/ vfy = false \/ trusts E i args tok ->
  exists d' h, from_jwt E i C tok true vfy args = Ok (d', Some h) /\ dget h (u "alg") = Some (VStr alg) /\
    (forall k, dget d' k = dget d k) /\ d' = dupdate (cd_default C) d.
Proof.
  intros J E i C d alg keys args vfy tok H1 H2 H3 [R1 R2] H4.
  destruct (json_written C d H1 H2) as (t & r & d' & T1 & T2 & _ & T3 & T4 & T5).
  unfold message_to_jwt in H3. rewrite T1 in H3. cbn [bind] in H3.
  destruct (R1 _ _ _ H3 T2) as (h & R3 & R4). pose proof (R2 _ _ H3) as R5.
  exists d', h. split; [|auto]. unfold from_jwt. cbn [negb]. unfold jwt_decrypt. rewrite R5. cbn [bind]. rewrite R3. cbn [bind t_body].
  rewrite (check_trusted E i tok _ vfy args alg R3 R4 H4). cbn [bind]. rewrite T3. reflexivity.
Qed.

Lemma c103 : forall J E i C d alg keys args vfy tok,
  content canon (cd_param C) d -> covers_defaults C d -> message_to_jwt J C d keys alg = Ok tok ->
  reads_signed J E alg keys -> alg = u "none" \/ vfy = false \/ trusts E i args tok ->
  exists d' h, from_jwt E i C tok true vfy args = Ok (d', Some h) /\ dget h (u "alg") = Some (VStr alg) /\
    forall k, dget d' k = dget d k.
Proof.
  intros J E i C d alg keys args vfy tok H1 H2 H3 H4 H5.
  destruct (jwt_read J E i C d alg keys args vfy tok H1 H2 H3 H4 H5) as (d' & h & A & B & D & _). eauto.
Qed.

(** only the library can refuse *)
Lemma c103_writes : forall J C d alg keys, content canon (cd_param C) d -> covers_defaults C d ->
  exists text, message_to_jwt J C d keys alg = j_sign J text alg keys /\ Forall printable text /\
    exists d', from_json C (cd_default C) text = (d', Ok tt) /\ forall k, dget d' k = dget d k.
Proof.
  intros J C d alg keys H1 H2. destruct (json_written C d H1 H2) as (t & r & d' & T1 & T2 & T6 & T3 & T4 & T5).
  exists t. unfold message_to_jwt. rewrite T1. split; [reflexivity|]. split; [exact T6|]. exists d'. split; [|exact T4].
  unfold from_json. cbn [from_json_gen]. rewrite T2. exact T3.
Qed.

(** ** encryption *)
Lemma decrypts_as : forall E i args t inner, decrypts E i args t inner -> jwt_decrypt E i t args = Ok inner.
Proof.
  intros E i args t inner H. unfold jwt_decrypt. rewrite H; [reflexivity|].
  intro k. destruct (ueqb k (u "alg")) eqn:Ek.
  - apply ueqb_eq in Ek. subst k. destruct (dget args (u "encalg")), (dget args (u "encenc")); reflexivity.
  - destruct (dget args (u "encalg")) as [a|], (dget args (u "encenc")) as [e|]; cbn [app dget]; rewrite ?Ek;
      destruct (ueqb k (u "enc")); reflexivity.
Qed.

(** a signed and encrypted message *)
Lemma c104_nested : forall J E i C d alg keys args vfy tok outer,
  content canon (cd_param C) d -> covers_defaults C d -> message_to_jwt J C d keys alg = Ok tok ->
  reads_signed J E alg keys -> alg = u "none" \/ vfy = false \/ trusts E i args tok ->
  decrypts E i args outer tok ->
  exists d' h, from_jwt E i C outer true vfy args = Ok (d', Some h) /\ dget h (u "alg") = Some (VStr alg) /\
    forall k, dget d' k = dget d k.
Proof.
  intros J E i C d alg keys args vfy tok outer H1 H2 H3 H4 H5 H6.
  destruct (jwt_read J E i C d alg keys args vfy tok H1 H2 H3 H4 H5) as (d' & h & A & B & D & _). exists d', h.
  split; [|auto]. unfold from_jwt in *. cbn [negb] in *. rewrite (decrypts_as _ _ _ _ _ H6).
  assert (G : jwt_decrypt E i tok args = Ok tok).
  { unfold jwt_decrypt. destruct (json_written C d H1 H2) as (t & r & d'' & T1 & _).
    unfold message_to_jwt in H3. rewrite T1 in H3. cbn [bind] in H3. rewrite (rs_jwe _ _ _ _ H4 _ _ H3). reflexivity. }
  rewrite G in A. exact A.
Qed.

(** an encrypted message that is not signed *)
Lemma c104_from_jwt : forall J E i C d enc alg ekeys args vfy text outer,
  content canon (cd_param C) d -> covers_defaults C d -> to_jwe J C d ekeys enc alg = Ok outer ->
  to_json C d = Ok text -> decrypts E i args outer text -> e_jws E (VStr text) = Ok None ->
  exists d', from_jwt E i C outer true vfy args = Ok (d', None) /\ forall k, dget d' k = dget d k.
Proof.
  intros J E i C d enc alg ekeys args vfy text outer H1 H2 H3 H4 H5 H6.
  destruct (json_written C d H1 H2) as (t & r & d' & T1 & T2 & _ & T3 & T4 & _). rewrite T1 in H4. injection H4 as ->.
  exists d'. split; [|exact T4]. unfold from_jwt. cbn [negb]. rewrite (decrypts_as _ _ _ _ _ H5). cbn [bind]. rewrite H6. cbn [bind].
  rewrite T2. cbn [bind]. rewrite T3. reflexivity.
Qed.

Lemma strict_encoded : forall t b, utf8_encode t = Some b -> decode_strict b = Ok t.
Proof.
  intros t b H. unfold decode_strict. rewrite (utf8_dec_enc t b H), H.
  destruct (list_eq_dec N.eq_dec b b); [reflexivity|congruence].
Qed.

Lemma c104_jwe : forall J C d enc alg ekeys dkeys tok,
  content canon (cd_param C) d -> covers_defaults C d -> to_jwe J C d ekeys enc alg = Ok tok ->
  decryptable J enc alg ekeys dkeys ->
  exists d', from_jwe J C (cd_default C) tok dkeys = (d', Ok tt) /\ forall k, dget d' k = dget d k.
Proof.
  intros J C d enc alg ekeys dkeys tok H1 H2 H3 H4.
  destruct (json_written C d H1 H2) as (t & r & d' & T1 & T2 & _ & T3 & T4 & _).
  unfold to_jwe in H3. rewrite T1 in H3. cbn [bind] in H3. destruct (H4 _ _ H3) as (b & B1 & B2).
  exists d'. split; [|exact T4]. unfold from_jwe. rewrite B2. cbn [bind]. rewrite (strict_encoded t b B1).
  unfold from_json. cbn [from_json_gen]. rewrite T2. exact T3.
Qed.

(** ** ID Tokens *)
Lemma content_dset : forall P d k v, content canon P d -> scalars k = true -> canon (param_spec P k) v ->
  content canon P (dset d k v).
Proof.
  intros P d k v [Hn H] Hk Hv. split; [apply dset_nodup, Hn|]. intros k' v' Hin.
  apply (In_dget _ _ _ (dset_nodup d k v Hn)) in Hin. rewrite dget_dset in Hin. destruct (ueqb k' k) eqn:E.
  - apply ueqb_eq in E. subst k'. injection Hin as <-. auto.
  - apply H. apply dget_In, Hin.
Qed.
Lemma content_ddel : forall P d k, content canon P d -> content canon P (ddel d k).
Proof.
  intros P d k [Hn H]. split; [apply ddel_nodup, Hn|]. intros k' v' Hin.
  apply (In_dget _ _ _ (ddel_nodup d k Hn)) in Hin. rewrite dget_ddel in Hin. destruct (ueqb k' k); [discriminate|].
  apply H. apply dget_In, Hin.
Qed.

Lemma canon_hash : forall h s, In h [u "at_hash"; u "c_hash"] -> s <> [] -> scalars s = true ->
  canon (param_spec (cd_param IT) h) (VStr s).
Proof.
  intros h s Hh Hs Hc. apply CnPlain. cbn [In] in Hh. destruct Hh as [<-|[<-|[]]];
    match goal with |- plain ?o _ => let x := eval vm_compute in o in change o with x end; apply PlStr; auto.
Qed.
Lemma canon_time : forall h z, In h [u "iat"; u "exp"] -> canon (param_spec (cd_param IT) h) (VInt z).
Proof.
  intros h s Hh. apply CnPlain. cbn [In] in Hh. destruct Hh as [<-|[<-|[]]];
    match goal with |- plain ?o _ => let x := eval vm_compute in o in change o with x end; apply PlInt; auto.
Qed.

Lemma val_hash1_content : forall E halg a h d, content canon (cd_param IT) d -> In h [u "at_hash"; u "c_hash"] ->
  (forall v, dget d a = Some v -> hashable E halg v) ->
  exists d', val_hash1 E IT halg a h d = (d', Ok tt) /\ content canon (cd_param IT) d' /\
    (a <> h -> dget d' a = None) /\ (forall k, k <> a -> k <> h -> dget d' k = dget d k) /\
    (forall v, dget d a = Some v -> a <> h -> exists x, e_lhash E v halg = Ok x /\ dget d' h = Some x).
Proof.
  intros E halg a h d Hc Hh Hv. unfold val_hash1. destruct (dget d a) as [v|] eqn:Ea.
  - destruct (Hv v eq_refl) as (s & H1 & H2 & H3). rewrite H1, setitem_hash by eauto.
    exists (ddel (dset d h (VStr s)) a). split; [reflexivity|]. split.
    { apply content_ddel, content_dset; [exact Hc| |apply canon_hash; assumption].
      cbn [In] in Hh. destruct Hh as [<-|[<-|[]]]; reflexivity. }
    split; [intros _; rewrite dget_ddel, ueqb_refl; reflexivity|]. split.
    + intros k K1 K2. rewrite dget_ddel. destruct (ueqb k a) eqn:E1; [apply ueqb_eq in E1; congruence|].
      apply dget_dset_other, K2.
    + intros w Hw Hne. injection Hw as <-. exists (VStr s). split; [exact H1|]. rewrite dget_ddel.
      destruct (ueqb h a) eqn:E1; [apply ueqb_eq in E1; congruence|]. apply dget_dset_same.
  - exists d. split; [reflexivity|]. split; [exact Hc|]. split; [auto|]. split; [reflexivity|discriminate].
Qed.

Lemma pack_content : forall E alg z d, content canon (cd_param IT) d -> z <> 0%Z ->
  (forall k v, In k [u "access_token"; u "code"] -> dget d k = Some v -> hashable E (u "HS" ++ last3 alg) v) ->
  exists d', pack E IT alg (VInt z) d = (d', Ok tt) /\ content canon (cd_param IT) d' /\ packed E (u "HS" ++ last3 alg) z d d'.
Proof.
  intros E alg z d Hc Hz Hh. unfold pack, val_hash.
  destruct (val_hash1_content E (u "HS" ++ last3 alg) (u "access_token") (u "at_hash") d Hc) as (d1 & A1 & A2 & A3 & A4 & A5).
  { left; reflexivity. } { intros v. apply Hh. left; reflexivity. }
  specialize (A3 ltac:(discriminate)).
  destruct (val_hash1_content E (u "HS" ++ last3 alg) (u "code") (u "c_hash") d1 A2) as (d2 & B1 & B2 & B3 & B4 & B5).
  { right; left; reflexivity. }
  { intros v Hv. rewrite A4 in Hv by discriminate. revert Hv. apply Hh. right; left; reflexivity. }
  specialize (B3 ltac:(discriminate)).
  rewrite A1. cbn [andthen]. rewrite B1. cbn [andthen]. unfold pack_init.
  change (setitem IT d2 (u "iat") (VInt (e_now E))) with (dset d2 (u "iat") (VInt (e_now E)), Ok tt (A := unit)).
  cbn [andthen truthy]. destruct (z =? 0)%Z eqn:Ez; [apply Z.eqb_eq in Ez; congruence|]. cbn [negb].
  unfold getitem. rewrite dget_dset_same. cbn [py_add int_of].
  match goal with |- context [setitem IT ?a ?b ?c] => change (setitem IT a b c) with (dset a b c, Ok tt (A := unit)) end.
  eexists. split; [reflexivity|]. split.
  { apply content_dset; [|reflexivity|apply canon_time; right; left; reflexivity].
    apply content_dset; [exact B2|reflexivity|apply canon_time; left; reflexivity]. }
  assert (G : forall k, k <> u "iat" -> k <> u "exp" ->
    dget (dset (dset d2 (u "iat") (VInt (e_now E))) (u "exp") (VInt (e_now E + z))) k = dget d2 k)
    by (intros k K1 K2; rewrite !dget_dset_other by assumption; reflexivity).
  unfold packed. split; [rewrite dget_dset_other by discriminate; apply dget_dset_same|]. split; [apply dget_dset_same|].
  rewrite !G by discriminate. split; [rewrite B4 by discriminate; exact A3|]. split; [exact B3|].
  split. { intros v Hv. rewrite B4 by discriminate. apply A5; [exact Hv|discriminate]. }
  split. { intros v Hv. apply B5; [|discriminate]. rewrite A4 by discriminate. exact Hv. }
  intros k Hk. cbn [In] in Hk. rewrite G by (intros ->; apply Hk; tauto).
  rewrite B4 by (intros ->; apply Hk; tauto). apply A4; intros ->; apply Hk; tauto.
Qed.

Lemma last3_unique : forall alg h, hash_of_alg alg h -> h = u "HS" ++ last3 alg.
Proof.
  intros alg h (a & b & -> & -> & H). unfold last3. rewrite app_length. f_equal. destruct H as [H|[-> H]].
  - rewrite H. replace (List.length a + 3 - 3)%nat with (List.length a) by lia. rewrite skipn_app, Nat.sub_diag, skipn_all. reflexivity.
  - cbn [List.length Nat.add app]. replace (List.length b - 3)%nat with 0%nat by lia. reflexivity.
Qed.

Lemma it_covers : forall d, covers_defaults IT d.
Proof. intros d k Hk. destruct Hk. Qed.

Lemma c105 : forall J P E i d d1 alg h keys args vfy z tok,
  content canon (cd_param IT) d -> z <> 0%Z -> hash_of_alg alg h ->
  (forall k v, In k [u "access_token"; u "code"] -> dget d k = Some v -> hashable P h v) ->
  to_jwt J P C_oidc_IdToken d keys alg (VInt z) = (d1, Ok tok) ->
  reads_signed J E alg keys -> alg = u "none" \/ vfy = false \/ trusts E i args tok ->
  exists idt hdr, from_jwt E i IT tok true vfy args = Ok (idt, Some hdr) /\ dget hdr (u "alg") = Some (VStr alg) /\
    packed P h z d idt.
Proof.
  intros J P E i d d1 alg h keys args vfy z tok H1 Hz Ha H2 H3 H4 H5. apply last3_unique in Ha. subst h.
  destruct (pack_content P alg z d H1 Hz H2) as (d' & A1 & A2 & A3).
  change (to_jwt J P C_oidc_IdToken d keys alg (VInt z)) with (idtoken_to_jwt J P IT d keys alg (VInt z)) in H3.
  unfold idtoken_to_jwt in H3. rewrite A1 in H3. cbn [andthen] in H3. injection H3 as <- H3.
  destruct (jwt_read J E i IT d' alg keys args vfy tok A2 (it_covers d') H3 H4 H5) as (idt & hdr & B1 & B2 & _ & B3).
  exists idt, hdr. split; [exact B1|]. split; [exact B2|].
  change (cd_default IT) with (@nil (ustr * value)) in B3. rewrite dupdate_nil in B3 by (apply A2). subst idt. exact A3.
Qed.

(** ** honest ID Tokens are accepted *)
Lemma canon_iss : forall v, canon (param_spec (cd_param IT) (u "iss")) v -> ~ empty_value v -> exists s, v = VStr s.
Proof.
  intros v H Hv. match type of H with canon ?o _ => let x := eval vm_compute in o in change o with x in H end.
  inversion H as [s w Hp|s c d Hs|s c l Hs]; subst.
  - inversion Hp; subst; cbn in *; try discriminate; eauto. exfalso. apply Hv. constructor.
  - destruct Hs as ((t & Ht) & _). discriminate.
  - destruct Hs as (Ht & _). discriminate.
Qed.
Lemma canon_aud : forall v, canon (param_spec (cd_param IT) (u "aud")) v -> exists l, v = VList l.
Proof.
  intros v H. match type of H with canon ?o _ => let x := eval vm_compute in o in change o with x in H end.
  inversion H as [s w Hp|s c d Hs|s c l Hs]; subst.
  - inversion Hp; subst; cbn in *; try discriminate; eauto.
  - destruct Hs as ((t & Ht) & _). discriminate.
  - destruct Hs as (Ht & _). discriminate.
Qed.

Lemma to_dict_iss : forall d r s, to_dict IT d = Ok r -> dget d (u "iss") = Some (VStr s) -> dget r (u "iss") = Some (VStr s).
Proof.
  assert (G : forall d r s, mapM (fun kv => match td_entry to_dict_v (ser_of (cd_param IT) (fst kv)) (snd kv) with
      Ok y => Ok (fst kv, y) | Err e => Err e end) d = Ok r -> dget d (u "iss") = Some (VStr s) -> dget r (u "iss") = Some (VStr s)).
  { induction d as [|[k v] d IH]; intros r s H Hd; [discriminate|]. cbn [mapM fst snd] in H.
    destruct (td_entry to_dict_v (ser_of (cd_param IT) k) v) as [y|e] eqn:Ey; [|discriminate].
    match type of H with context [mapM ?f d] => destruct (mapM f d) as [r'|e] eqn:Er end; [|discriminate].
    cbn [bind] in H. injection H as <-. cbn [dget] in Hd |- *. destruct (ueqb (u "iss") k) eqn:Ek.
    - apply ueqb_eq in Ek. subst k. injection Hd as ->.
      assert (Ey' : td_entry to_dict_v (ser_of (cd_param IT) (u "iss")) (VStr s) = Ok (VStr s)) by reflexivity.
      rewrite Ey in Ey'. congruence.
    - exact (IH r' s eq_refl Hd). }
  exact G.
Qed.

Lemma honest_checked : forall J P E K d d1 alg h keys z tok ch claim msg,
  honest_claims d -> meant_for K d -> hash_of_alg alg h ->
  (forall k v, In k [u "access_token"; u "code"] -> dget d k = Some v -> hashable P h v) ->
  to_jwt J P C_oidc_IdToken d keys alg (VInt z) = (d1, Ok tok) ->
  partners J P E K alg keys z d tok ->
  dget msg claim = Some (VStr tok) -> (ch = true -> hashed_with d msg) ->
  exists idt, check_id_token E 0 K ch claim msg = Ok (Some idt) /\ packed P h z d idt /\
    exists r, to_dict IT idt = Ok r.
Proof.
  intros J P E K d d1 alg h keys z tok ch claim msg [C1 C2 C3 C4] M Ha Hh Hj Pa Hm Hb.
  apply last3_unique in Ha. subst h. destruct Pa as [P1 P2 [P3 P3'] P4 P5 P6 (T1 & T2 & T3)].
  destruct (pack_content P alg z d C1 ltac:(lia) Hh) as (idt & A1 & A2 & A3).
  change (to_jwt J P C_oidc_IdToken d keys alg (VInt z)) with (idtoken_to_jwt J P IT d keys alg (VInt z)) in Hj.
  unfold idtoken_to_jwt in Hj. rewrite A1 in Hj. cbn [andthen] in Hj. injection Hj as <- Hj.
  destruct (jwt_read J E 0 IT idt alg keys (id_token_args K) (verify_arg K) tok A2 (it_covers idt) Hj P1
    (or_intror (or_intror (P4 _ (id_token_args_passed K))))) as (idt' & hdr & B1 & B2 & _ & B3).
  change (cd_default IT) with (@nil (ustr * value)) in B3. rewrite dupdate_nil in B3 by (apply A2). subst idt'.
  destruct (json_written IT idt A2 (it_covers idt)) as (t & r & d' & W1 & W2 & _ & _).
  assert (Hr : exists r0, to_dict IT idt = Ok r0 /\ json_dumps (VDict r0) = Ok t).
  { unfold to_json in W1. destruct (to_dict IT idt) as [r0|e]; [|discriminate]. eauto. }
  destruct A3 as (K1 & K2 & K3 & K4 & K5 & K6 & K7).
  assert (G : forall k, In k [u "iss"; u "sub"; u "aud"; u "azp"; u "nonce"; u "error_description"; u "birthdate"] ->
    dget idt k = dget d k).
  { intros k Hk. apply K7. intro Hk'. cbn [In] in Hk, Hk'.
    repeat (destruct Hk as [<-|Hk]; [decompose [or] Hk'; try discriminate; assumption|]). destruct Hk. }
  exists idt. split; [|split; [unfold packed; tauto|destruct Hr as (r0 & Hr & _); eauto]].
  (* the token, its algorithm, its issuer *)
  change (message_to_jwt J IT idt keys alg = Ok tok) in Hj. unfold message_to_jwt in Hj. rewrite W1 in Hj. cbn [bind] in Hj.
  destruct (rs_jws _ _ _ _ P1 _ _ _ Hj W2) as (hd & R1 & R2).
  unfold check_id_token. unfold getitem. rewrite Hm. cbn [bind]. rewrite R1. cbn [bind].
  assert (Al : alg_check K {| t_hdr := hd; t_body := Ok (VDict r) |} = Ok true).
  { unfold alg_check. cbn [t_hdr]. rewrite R2. destruct (py_eq (VStr alg) (VStr (u "none"))) eqn:En.
    { apply py_eq_str_r in En. congruence. }
    destruct (kget K (u "allowed_sign_alg")) as [a|]; [|reflexivity]. rewrite (P3' a eq_refl).
    unfold py_ne. rewrite (proj2 (py_eq_str_r alg _) eq_refl). reflexivity. }
  rewrite Al. cbn [bind t_body].
  destruct (C2 (u "iss") ltac:(left; reflexivity)) as (iv & I1 & I2).
  destruct (canon_iss iv) as (is & ->).
  { apply (proj2 C1 (u "iss")). apply dget_In, I1. } { exact I2. }
  assert (Ri : dget r (u "iss") = Some (VStr is)).
  { destruct Hr as (r0 & Hr1 & Hr2). assert (r0 = r).
    { destruct (trip_entries (cd_param IT) 11 idt (proj1 A2)) as (r1 & X1 & X2 & X3 & X4).
      { intros k v Hin. apply (proj2 A2 k v Hin). }
      { intros k v Hin. apply canon_trip; [apply (proj2 A2 k v Hin)|apply deepspec_lib]. }
      assert (Hx : to_dict IT idt = Ok r1) by exact X1. rewrite Hr1 in Hx. injection Hx as ->.
      destruct (json_codec (VDict r1)) as (t1 & Y1 & _ & Y2).
      { constructor; [rewrite X2; apply A2|exact X3]. }
      rewrite Hr2 in Y1. injection Y1 as <-. rewrite W2 in Y2. congruence. }
    subst r0. apply (to_dict_iss idt r is Hr1). rewrite G by (left; reflexivity). exact I1. }
  assert (Is : issuer_check E K true (VDict r) = Ok tt).
  { unfold issuer_check. rewrite P2. cbn [andb py_item]. unfold getitem. rewrite Ri. cbn [bind]. rewrite (P5 _ I1). reflexivity. }
  rewrite Is. cbn [bind]. change (py_str_e E (VStr tok)) with (Ok tok). cbn [bind]. rewrite P2, B1. cbn [bind].
  assert (V : idtoken_verify E K IT idt = Ok true).
  { apply idtoken_verify_ok. split; [|reflexivity]. split.
    - split; [split; [split|]|].
      + intros a (s & Q1 & Q2 & Q3 & Q4).
        assert (Hq : In a [u "iss"; u "sub"; u "aud"; u "exp"; u "iat"]).
        { revert Q1 Q3. clear. intros Q1 Q3.
          assert (F : forallb (fun ps => negb (p_req (snd ps)) || existsb (ueqb (fst ps)) [u "iss"; u "sub"; u "aud"; u "exp"; u "iat"]) (cd_param IT) = true)
            by (vm_compute; reflexivity).
          rewrite forallb_forall in F. specialize (F _ Q1). cbn [fst snd] in F. rewrite Q3 in F. cbn [negb orb] in F.
          apply existsb_exists in F. destruct F as (x & F1 & F2). apply ueqb_eq in F2. subst x. exact F1. }
        apply Q4. cbn [In] in Hq. destruct Hq as [<-|[<-|[<-|[<-|[<-|[]]]]]].
        * rewrite G by (cbn [In]; tauto). destruct (C2 (u "iss")) as (v & V1 & V2); [cbn [In]; tauto|]. exists v. split; [exact V1|right; exact V2].
        * rewrite G by (cbn [In]; tauto). destruct (C2 (u "sub")) as (v & V1 & V2); [cbn [In]; tauto|]. exists v. split; [exact V1|right; exact V2].
        * rewrite G by (cbn [In]; tauto). destruct (C2 (u "aud")) as (v & V1 & V2); [cbn [In]; tauto|]. exists v. split; [exact V1|right; exact V2].
        * rewrite K2. eexists. split; [reflexivity|]. right. intro X. inversion X. lia.
        * rewrite K1. eexists. split; [reflexivity|]. right. intro X. inversion X. lia.
      + intros a (s & v & al & _ & _ & _ & _ & Hal & _). change (cd_allowed IT) with (@nil (ustr * list value)) in Hal. discriminate.
      + intros v. rewrite G by (cbn [In]; tauto). apply C3.
      + intros v. rewrite G by (cbn [In]; tauto). apply C4.
    - destruct M as [M1 M2 M3 M4 M5]. destruct T3 as (sk & n & T3 & T4 & T5 & T6). constructor.
      + rewrite G by (cbn [In]; tauto). exact M1.
      + rewrite G by (cbn [In]; tauto). exact M2.
      + intros aud. rewrite !G by (cbn [In]; tauto). intro Hau. destruct (canon_aud aud) as (l & ->).
        { apply (proj2 C1 (u "aud")). apply dget_In, Hau. }
        exists (List.length l). split; [constructor|]. intro Hl. apply (M3 _ _ Hau (SzList l) Hl).
      + rewrite G by (cbn [In]; tauto). exact M4.
      + eexists. split; [exact K2|]. exact (exp_int _ _ _ _ T3 T5).
      + eexists. split; [exact K1|]. exact (fresh_int _ _ _ _ _ T3 T4 T6).
      + rewrite G by (cbn [In]; tauto). exact M5. }
  rewrite V. cbn [bind].
  destruct ch; cbn [andb]; [|reflexivity]. specialize (Hb eq_refl).
  unfold hashes_check. rewrite B2.
  assert (Hc : forall p hh e, In p [u "access_token"; u "code"] ->
    (forall v, dget d p = Some v -> exists x, e_lhash P v (u "HS" ++ last3 alg) = Ok x /\ dget idt hh = Some x) ->
    hash_check E msg idt p hh (u "HS" ++ last3 alg) e = Ok tt).
  { intros p hh e Hp Hx. unfold hash_check. destruct (dget msg p) as [v|] eqn:Ev; [|reflexivity].
    destruct (Hx v (Hb p v Hp Ev)) as (x & X1 & X2). rewrite X2, P6, X1. cbn [bind]. unfold py_ne.
    destruct (Hh p v Hp (Hb p v Hp Ev)) as (s & X3 & _). rewrite X1 in X3. injection X3 as ->.
    rewrite (proj2 (py_eq_str_r s _) eq_refl). reflexivity. }
  rewrite (Hc (u "access_token") (u "at_hash")) by (cbn [In]; auto). cbn [bind].
  rewrite (Hc (u "code") (u "c_hash")) by (cbn [In]; auto). reflexivity.
Qed.

Lemma fits_table : forall K c msg, msg_fits K c msg -> verify_base (cdef c) msg = Ok true.
Proof. intros K c msg [H _ _ _ _]. apply verify_base_true. auto. Qed.
Lemma fits_response : forall K c msg, msg_fits K c msg -> subclass c C_oauth2_ResponseMessage = true ->
  response_verify (cdef c) msg = Ok true.
Proof. intros K c msg [H1 H2 _ _ _] Hs. apply response_verify_ok. split; [split; auto|reflexivity]. Qed.

(** a message that is in order gets to its ID Token *)
Lemma fits_verify : forall E K hdr c msg, has_id_token_check c -> msg_fits K c msg ->
  exists d1 ch, (d1 = msg \/ d1 = clear_verified msg) /\
    (ch = true -> subclass c C_oidc_AuthorizationResponse = true) /\
    verify E K hdr c msg = with_id_token E K (cdef c) ch d1.
Proof.
  intros E K hdr c msg Hc F. unfold verify. destruct (kinds c Hc) as [[Hk [H1 H2]]|[[Hk H1]|[Hk [H1 H2]]]]; rewrite Hk.
  - exists (clear_verified msg), false. split; [auto|]. split; [discriminate|]. unfold oidc_token_response_verify.
    rewrite (fits_response K) by (try assumption; destruct c; vm_compute in H2; try discriminate; reflexivity). reflexivity.
  - exists (clear_verified msg), true. split; [auto|]. split; [auto|]. unfold oidc_authz_response_verify.
    assert (A : authz_response_verify K (cdef c) msg = Ok true).
    { apply authz_response_ok. split; [|reflexivity]. destruct F as [F1 F2 F3 F4 F5]. split; [|auto].
      split; [exact F1|]. intros v. apply F2. destruct c; vm_compute in H1; try discriminate; reflexivity. }
    rewrite A. cbn [checked]. rewrite dget_clear.
    change (ueqb (u "aud") slot_id_token || ueqb (u "aud") slot_hint || ueqb (u "aud") slot_request)%bool with false. cbv iota.
    destruct (dget msg (u "aud")) as [aud|] eqn:Ea; [|reflexivity].
    destruct (kget K (u "client_id")) as [i|] eqn:Ei; [|reflexivity].
    rewrite (proj2 (not_in_false i aud) (ft_aud _ _ _ F _ _ H1 Ea Ei)). reflexivity.
  - exists msg, false. split; [auto|]. split; [discriminate|]. unfold mwit_verify, mwit_super.
    destruct (subclass c C_oauth2_ResponseMessage) eqn:Es.
    + rewrite (fits_response K) by assumption. reflexivity.
    + rewrite (fits_table K) by assumption. reflexivity.
Qed.

Lemma honest_verified : forall J P E K hdr c d d1 alg h keys z tok msg,
  has_id_token_check c -> msg_fits K c msg -> dget msg (u "id_token") = Some (VStr tok) ->
  (subclass c C_oidc_AuthorizationResponse = true -> hashed_with d msg) ->
  honest_claims d -> meant_for K d -> hash_of_alg alg h ->
  (forall k v, In k [u "access_token"; u "code"] -> dget d k = Some v -> hashable P h v) ->
  to_jwt J P C_oidc_IdToken d keys alg (VInt z) = (d1, Ok tok) ->
  partners J P E K alg keys z d tok ->
  exists msg' idt, verify E K hdr c msg = (msg', Ok true) /\
    dget msg' (u "__verified_id_token") = Some (VMsg C_oidc_IdToken idt) /\ packed P h z d idt.
Proof.
  intros J P E K hdr c d d1 alg h keys z tok msg Hc F Hm Hb H1 H2 H3 H4 H5 H6.
  destruct (fits_verify E K hdr c msg Hc F) as (m & ch & M1 & M2 & M3). rewrite M3.
  assert (G : forall k, In k [u "id_token"; u "access_token"; u "code"] -> dget m k = dget msg k).
  { intros k Hk. destruct M1 as [->| ->]; [reflexivity|]. rewrite dget_clear. cbn [In] in Hk.
    destruct Hk as [<-|[<-|[<-|[]]]]; reflexivity. }
  destruct (honest_checked J P E K d d1 alg h keys z tok ch (u "id_token") m H1 H2 H3 H4 H5 H6) as (idt & A1 & A2 & r & A3).
  { rewrite G by (left; reflexivity). exact Hm. }
  { intros Hch k x Hk Hx. apply (Hb (M2 Hch) k x Hk). rewrite <- Hx. symmetry. apply G. right. exact Hk. }
  unfold with_id_token, verify_id_token.
  assert (Hh : dhas m (u "id_token") = true).
  { destruct (dhas m (u "id_token")) eqn:E1; [reflexivity|]. apply dhas_false in E1. rewrite G in E1 by (left; reflexivity). congruence. }
  rewrite Hh, A1. change (verified_claim_name (u "id_token")) with slot_id_token.
  rewrite setitem_slot by (left; reflexivity). cbn [andthen]. rewrite A3.
  eexists. exists idt. split; [reflexivity|]. split; [apply dget_dset_same|exact A2].
Qed.

(** ** encrypted ID Tokens are refused *)
Lemma encrypted_refused : forall E K hdr c msg t, has_id_token_check c -> msg_fits K c msg ->
  dget msg (u "id_token") = Some (VStr t) -> e_jws E (VStr t) = Ok None ->
  snd (verify E K hdr c msg) = Err EValueError.
Proof.
  intros E K hdr c msg t Hc F Hm Hj. destruct (fits_verify E K hdr c msg Hc F) as (m & ch & M1 & _ & M3). rewrite M3.
  assert (G : dget m (u "id_token") = Some (VStr t)).
  { destruct M1 as [->| ->]; [exact Hm|]. rewrite dget_clear. exact Hm. }
  unfold with_id_token, verify_id_token, check_id_token, getitem, dhas. rewrite G. cbn [bind]. rewrite Hj. reflexivity.
Qed.
