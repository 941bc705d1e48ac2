(** from_jwt, verify_id_token, IdToken.verify, JsonWebToken.verify. *)
From Coq Require Import List NArith ZArith QArith Bool String Lia ZifyBool ZifyN.
From Verif Require Import Base.Ustr Base.UstrLemmas Model.Cls Model.Value Model.Pspec Model.Tables Model.Json
  Model.Message Model.Env Model.Verify Spec.MessageSpec Spec.VerifySpec
  Proofs.ValueLemmas Proofs.MessageLemmas Proofs.EncodeLemmas Proofs.VerifyLemmas Proofs.FloatLemmas Model.Float Spec.FloatSpec.
Import ListNotations.
Open Scope list_scope.
Open Scope N_scope.

(** ** from_jwt *)
Lemma jwt_decrypt_ok : forall E i t args t', jwt_decrypt E i t args = Ok t' ->
  exists a, (e_jwe E i t a = Ok None /\ t' = t) \/ e_jwe E i t a = Ok (Some t').
Proof.
  intros E i t args t' H. unfold jwt_decrypt in H. bo H. eexists. rewrite Hx.
  destruct x as [x|]; injection H as <-; [right|left]; auto.
Qed.

(** what a successful from_jwt went through *)
Lemma from_jwt_inv : forall E i C t jar vfy args d hdr, from_jwt E i C t jar vfy args = Ok (d, hdr) ->
  jar = true /\
  exists t' payload, jwt_decrypt E i t args = Ok t' /\
    from_dict C (cd_default C) payload = (d, Ok tt) /\
    ((exists tok, e_jws E (VStr t') = Ok (Some tok) /\ t_body tok = Ok payload /\ hdr = Some (t_hdr tok) /\
        jwt_check E i t' tok vfy args = Ok tt) \/
     (e_jws E (VStr t') = Ok None /\ json_loads t' = Ok payload /\ hdr = None)).
Proof.
  intros E i C t jar vfy args d hdr H. unfold from_jwt in H.
  destruct jar; cbn [negb] in H; [|discriminate]. split; [reflexivity|].
  bo H. bo H. exists x. destruct x0 as [tok|].
  - bo H. bo H. bo H. injection H as <- <-. exists x0. split; [assumption|].
    apply ret_msg_ok in Hx3. split; [assumption|]. left. exists tok. apply unit_ok in Hx2. auto.
  - bo H. bo H. injection H as <- <-. exists x0. split; [assumption|].
    apply ret_msg_ok in Hx2. split; [assumption|]. right. auto.
Qed.

Lemma from_jwt_decoded : forall E i c t jar vfy args d hdr,
  from_jwt E i (cdef c) t jar vfy args = Ok (d, hdr) -> decoded E i c t d.
Proof.
  intros E i c t jar vfy args d hdr H. apply from_jwt_inv in H.
  destruct H as [_ [t' [p [Hd [Hf Hs]]]]]. exists t', p. split; [|split; [|assumption]].
  - apply jwt_decrypt_ok in Hd. destruct Hd as [a [[H1 H2]|H1]]; [left|right]; eauto.
  - destruct Hs as [[tok [H1 [H2 _]]]|[H1 [H2 _]]]; [left|right]; eauto.
Qed.

Lemma from_jwt_nodup : forall E i c t jar vfy args d hdr,
  from_jwt E i (cdef c) t jar vfy args = Ok (d, hdr) -> NoDup (map fst d).
Proof.
  intros E i c t jar vfy args d hdr H. apply from_jwt_inv in H.
  destruct H as [_ [t' [p [Hd [Hf Hs]]]]]. eapply from_dict_nodup; [apply lib_defaults_nodup|exact Hf].
Qed.

Lemma sigalg_demanded : forall args, demanded_alg args (jwt_sigalg args).
Proof.
  intro args. unfold demanded_alg, jwt_sigalg. destruct (dget args (u "sigalg")) as [v|].
  - destruct (truthy v) eqn:Et.
    + left. exists v. split; [reflexivity|]. split; [|reflexivity]. intro He. apply truthy_empty in He. congruence.
    + right. split; [|reflexivity]. intros w Hw. injection Hw as <-. apply truthy_empty. assumption.
  - right. split; [|reflexivity]. intros w Hw. discriminate.
Qed.
Lemma jwt_check_sig : forall E i t tok args, jwt_check E i t tok true args = Ok tt -> signed_tok tok ->
  verified_with E args t tok.
Proof.
  intros E i t tok args H Hs. pose proof (sigalg_demanded args) as Hdem. unfold jwt_check in H. unfold signed_tok in Hs.
  destruct (dget (t_hdr tok) (u "alg")) as [alg|]; [|discriminate].
  destruct (py_eq alg (VStr (u "none"))) eqn:En.
  { apply py_eq_str_r in En. congruence. }
  bo H. destruct (e_kj_true E) eqn:Ek.
  - destruct x as [|k ks]; [discriminate|]. split; [assumption|].
    destruct (e_sig E t (jwt_sigalg args) (k :: ks)) as [[]|e] eqn:Es.
    + exists i, false, (jwt_sigalg args), (k :: ks). repeat split; auto. discriminate.
    + destruct e; try discriminate. bo H. bo H.
      exists i, true, (jwt_sigalg args), x0. repeat split; auto. discriminate.
  - injection Hx as <-. discriminate.
Qed.

Lemma sig_keys : forall E args t tok, sig_needs_keys E -> verified_with E args t tok ->
  exists i b alg keys, e_kj_keys E i b tok args = Ok keys /\ keys <> [] /\ demanded_alg args alg /\
    e_sig E t alg keys = Ok tt.
Proof.
  intros E args t tok Hn [_ [i [b [alg [keys [H1 [H2 [H3 _]]]]]]]]. exists i, b, alg, keys.
  refine (conj H1 (conj _ (conj H2 H3))). intros ->. exact (Hn _ _ H3).
Qed.

(** with verify=True a JWT that says it is signed only comes through with a verified signature *)
Lemma c54 : forall E i c t jar args d hdr tok t',
  from_jwt E i (cdef c) t jar true args = Ok (d, hdr) ->
  jwt_decrypt E i t args = Ok t' -> e_jws E (VStr t') = Ok (Some tok) -> signed_tok tok ->
  verified_with E args t' tok.
Proof.
  intros E i c t jar args d hdr tok t' H Hd Hj Hs. apply from_jwt_inv in H.
  destruct H as [_ [t2 [p [Hd2 [_ [[tok2 [H1 [_ [_ H2]]]]|[H1 _]]]]]]]; rewrite Hd in Hd2; injection Hd2 as <-.
  - rewrite Hj in H1. injection H1 as <-. eapply jwt_check_sig; eassumption.
  - congruence.
Qed.

Lemma not_encrypted_decrypt : forall E i t args, not_encrypted E t -> jwt_decrypt E i t args = Ok t.
Proof. intros E i t args H. unfold jwt_decrypt. rewrite H. reflexivity. Qed.

Lemma dget_pick : forall K k names, In k names -> dget (pick names K) k = kget K k.
Proof.
  intros K k names. unfold pick. induction names as [|n r IH]; [intros []|].
  intro Hk. cbn [map List.concat]. rewrite dget_app. destruct (ueqb k n) eqn:En.
  - apply ueqb_eq in En. subst n. destruct (kget K k) as [v|] eqn:Ev.
    + cbn [dget]. rewrite ueqb_refl. reflexivity.
    + cbn [dget]. destruct (in_dec (list_eq_dec N.eq_dec) k r) as [Hr|Hr]; [apply IH; assumption|].
      clear - Hr Ev. induction r as [|m r IH]; [reflexivity|]. cbn [map List.concat]. rewrite dget_app.
      destruct (kget K m) as [w|]; cbn [dget].
      * destruct (ueqb k m) eqn:Em; [apply ueqb_eq in Em; subst m; destruct Hr; left; reflexivity|].
        apply IH. intro Hin. apply Hr. right. assumption.
      * apply IH. intro Hin. apply Hr. right. assumption.
  - destruct Hk as [->|Hk]; [rewrite ueqb_refl in En; discriminate|].
    destruct (kget K n) as [w|]; cbn [dget]; [rewrite En|]; apply IH; assumption.
Qed.
Lemma id_token_args_passed : forall K, passed_on K (id_token_args K).
Proof. intros K k Hk. unfold id_token_args. apply dget_pick. cbn [In] in Hk |- *. tauto. Qed.

(** ** IdToken.verify *)
Lemma karg_int : forall K k z s, int_of (karg K k (VInt z)) = Some s <-> arg_int K k z s.
Proof.
  intros K k z s. unfold karg, arg_int. destruct (kget K k) as [v|]; split; intro H.
  - right. eauto.
  - destruct H as [[H _]|[v' [H H']]]; [discriminate|]. injection H as ->. assumption.
  - left. cbn in H. split; congruence.
  - destruct H as [[_ ->]|[v' [H _]]]; [reflexivity|discriminate].
Qed.

Lemma karg_arg : forall K k z v, arg K k z v <-> v = karg K k (VInt z).
Proof.
  intros K k z v. unfold karg, arg. destruct (kget K k) as [w|]; split; intro H.
  - destruct H as [[H _]|H]; congruence.
  - right. congruence.
  - destruct H as [[_ H]|H]; congruence.
  - left. auto.
Qed.
Lemma arg_whole : forall K k z s v, arg_int K k z s -> arg K k z v -> int_of v = Some s.
Proof. intros K k z s v Hs Hv. apply karg_arg in Hv. subst v. apply karg_int. exact Hs. Qed.
Lemma int_arg : forall K k z s, arg_int K k z s -> exists v, arg K k z v /\ int_of v = Some s.
Proof. intros K k z s H. exists (karg K k (VInt z)). split; [apply karg_arg; reflexivity|apply karg_int; exact H]. Qed.

Lemma int_num : forall v z, int_of v = Some z -> num_of v = Some (inject_Z z).
Proof. intros v z H; destruct v as [|[|]| | | | | |]; cbn in *; congruence. Qed.

(** floating point numbers *)
Lemma round_flt_iff : forall r q, round_flt r = Some q <-> rounded r q.
Proof.
  intros r q. assert (F : forall x : QArith_base.Q, (x == inject_Z (Qnum x) / inject_Z (Zpos (Qden x)))%Q) by (intros [n d]; apply Qmake_Qdiv).
  unfold round_flt, rounded. destruct (Qnum r <? 0)%Z eqn:S.
  - apply Z.ltb_lt in S. assert (P : (0 <= - Qnum r)%Z) by lia.
    assert (O : option_map Qopp (nearest (- Qnum r) (Zpos (Qden r))) = Some q <-> nearest (- Qnum r) (Zpos (Qden r)) = Some (- q)%Q).
    { destruct (nearest (- Qnum r) (Zpos (Qden r))) as [x|]; cbn [option_map]; [|split; discriminate].
      assert (I : forall y : QArith_base.Q, (- - y)%Q = y) by (intros [n d]; unfold Qopp; cbn [Qnum Qden]; rewrite Z.opp_involutive; reflexivity).
      split; intro H; [assert (q = (- x)%Q) as -> by congruence; rewrite I; reflexivity|assert (x = (- q)%Q) as -> by congruence; rewrite I; reflexivity]. }
    rewrite O, (nearest_iff _ _ _ P (Pos2Z.is_pos _)).
    split; [intro H; right; split; [unfold Qlt; cbn [Qnum Qden]; lia|]|intros [[H _]|[_ H]]; [unfold Qle in H; cbn [Qnum Qden] in H; lia|]];
      revert H; apply rounds_compat; [|symmetry]; symmetry; exact (F (- r)%Q).
  - apply Z.ltb_ge in S. rewrite (nearest_iff _ _ _ S (Pos2Z.is_pos _)).
    split; [intro H; left; split; [unfold Qle; cbn [Qnum Qden]; lia|]|intros [[_ H]|[H _]]; [|unfold Qlt in H; cbn [Qnum Qden] in H; lia]];
      revert H; apply rounds_compat; [|symmetry]; symmetry; exact (F r).
Qed.
Lemma flt_of_iff : forall v q, flt_of v = Some q <-> as_float v q.
Proof.
  intros v q. assert (G : forall z, round_flt (inject_Z z) = Some q <-> exists z', Some z = Some z' /\ rounded (inject_Z z') q).
  { intro z. rewrite round_flt_iff. split; [eauto|]. intros (z' & E & H). assert (z' = z) as -> by congruence. exact H. }
  unfold flt_of, as_float. destruct v; cbn [int_of]; try apply G; try (split; [discriminate|intros (z' & E & _); discriminate]). split; congruence.
Qed.
Lemma flt_op_iff : forall op a b x, flt_op op a b = Ok x <-> exists p q r, as_float a p /\ as_float b q /\ rounded (op p q) r /\ x = VFlt r.
Proof.
  intros op a b x. unfold flt_op. split.
  - destruct (flt_of a) as [p|] eqn:A; [|discriminate]. destruct (flt_of b) as [q|] eqn:B; [|discriminate].
    destruct (round_flt (op p q)) as [r|] eqn:R; [|discriminate]. intro H. exists p, q, r. apply flt_of_iff in A, B. apply round_flt_iff in R.
    assert (x = VFlt r) by congruence. auto.
  - intros (p & q & r & A & B & R & ->). apply flt_of_iff in A, B. apply round_flt_iff in R. rewrite A, B, R. reflexivity.
Qed.
Lemma flt_op_num : forall op a b x, flt_op op a b = Ok x -> exists q, num_of x = Some q.
Proof. intros op a b x H. apply flt_op_iff in H. destruct H as (p & q & r & _ & _ & _ & ->). eexists. reflexivity. Qed.
Lemma float_num : forall v q, as_float v q -> exists p, num_of v = Some p.
Proof. intros v q H. destruct v; cbn [as_float int_of num_of] in *; eauto; destruct H as (z & H & _); discriminate. Qed.
Lemma num_flt : forall v, int_of v = None -> num_of v <> None -> exists q, v = VFlt q.
Proof. intros v H N. destruct v as [|[]| |q| | | |]; cbn in *; try congruence; eauto. Qed.

Lemma add_total : forall a b r, (exists x, py_add a b = Ok x /\ num_of x = Some r) <-> total a b r.
Proof.
  intros a b r. unfold py_add. split.
  - intros (x & H & N). destruct (int_of a) as [y|] eqn:A, (int_of b) as [z|] eqn:B.
    + assert (x = VInt (y + z)) as -> by congruence. cbn [num_of] in N. assert (r = inject_Z (y + z)) as -> by congruence. constructor; assumption.
    + rewrite (int_num _ _ A) in H. destruct (num_of b) as [q|] eqn:NB; [|destruct a; try discriminate; destruct b; discriminate].
      apply flt_op_iff in H. destruct H as (p & q' & r' & F1 & F2 & R & ->). cbn [num_of] in N. assert (r' = r) as -> by congruence. apply (TotalFloat a b p q' r); auto.
    + rewrite (int_num _ _ B) in H. destruct (num_of a) as [q|] eqn:NA; [|destruct a; try discriminate; destruct b; discriminate].
      apply flt_op_iff in H. destruct H as (p & q' & r' & F1 & F2 & R & ->). cbn [num_of] in N. assert (r' = r) as -> by congruence. apply (TotalFloat a b p q' r); auto.
    + destruct (num_of a) as [q|] eqn:NA, (num_of b) as [q1|] eqn:NB.
      * apply flt_op_iff in H. destruct H as (p & q' & r' & F1 & F2 & R & ->). cbn [num_of] in N. assert (r' = r) as -> by congruence. apply (TotalFloat a b p q' r); auto.
      * destruct a; try discriminate; destruct b; try discriminate; assert (x = x) by reflexivity; congruence.
      * destruct a; try discriminate; destruct b; try discriminate; congruence.
      * destruct a; try discriminate; destruct b; try discriminate; match type of H with Ok ?y = Ok _ => assert (x = y) as -> by congruence; discriminate end.
  - intros [y z A B|p q r' I A B R].
    + rewrite A, B. eexists. split; reflexivity.
    + destruct (float_num _ _ A) as [pa Na]. destruct (float_num _ _ B) as [pb Nb]. exists (VFlt r'). split; [|reflexivity]. rewrite Na, Nb.
      assert (G : flt_op Qplus a b = Ok (VFlt r')) by (apply flt_op_iff; exists p, q, r'; auto).
      destruct I as [I|I]; rewrite I; [exact G|destruct (int_of a); exact G].
Qed.
Lemma sub_difference : forall a b r, (exists x, py_sub a b = Ok x /\ num_of x = Some r) <-> difference a b r.
Proof.
  intros a b r. unfold py_sub. split.
  - intros (x & H & N). destruct (int_of a) as [y|] eqn:A, (int_of b) as [z|] eqn:B.
    + assert (x = VInt (y - z)) as -> by congruence. cbn [num_of] in N. assert (r = inject_Z (y - z)) as -> by congruence. constructor; assumption.
    + destruct (num_of a); [|discriminate]. destruct (num_of b); [|discriminate].
      apply flt_op_iff in H. destruct H as (p & q' & r' & F1 & F2 & R & ->). cbn [num_of] in N. assert (r' = r) as -> by congruence. apply (DifferenceFloat a b p q' r); auto.
    + destruct (num_of a); [|discriminate]. destruct (num_of b); [|discriminate].
      apply flt_op_iff in H. destruct H as (p & q' & r' & F1 & F2 & R & ->). cbn [num_of] in N. assert (r' = r) as -> by congruence. apply (DifferenceFloat a b p q' r); auto.
    + destruct (num_of a); [|discriminate]. destruct (num_of b); [|discriminate].
      apply flt_op_iff in H. destruct H as (p & q' & r' & F1 & F2 & R & ->). cbn [num_of] in N. assert (r' = r) as -> by congruence. apply (DifferenceFloat a b p q' r); auto.
  - intros [y z A B|p q r' I A B R].
    + rewrite A, B. eexists. split; reflexivity.
    + destruct (float_num _ _ A) as [pa Na]. destruct (float_num _ _ B) as [pb Nb]. exists (VFlt r'). split; [|reflexivity]. rewrite Na, Nb.
      assert (G : flt_op Qminus a b = Ok (VFlt r')) by (apply flt_op_iff; exists p, q, r'; auto).
      destruct I as [I|I]; rewrite I; [exact G|destruct (int_of a); exact G].
Qed.
Lemma sub_num : forall a b x, py_sub a b = Ok x -> exists q, num_of x = Some q.
Proof.
  intros a b x H. unfold py_sub in H. destruct (int_of a), (int_of b); try (match type of H with Ok ?y = Ok _ => assert (x = y) as -> by congruence end; eexists; reflexivity);
    (destruct (num_of a); [|discriminate]; destruct (num_of b); [|discriminate]; exact (flt_op_num _ _ _ _ H)).
Qed.
Lemma add_num : forall z b x, py_add (VInt z) b = Ok x -> exists q, num_of x = Some q.
Proof.
  intros z b x H. unfold py_add in H. cbn [int_of num_of] in H. destruct (int_of b); [match type of H with Ok ?y = Ok _ => assert (x = y) as -> by congruence end; eexists; reflexivity|].
  destruct (num_of b); [exact (flt_op_num _ _ _ _ H)|]. destruct b; discriminate.
Qed.
Lemma difference_int : forall z v s r, int_of v = Some s -> (difference (VInt z) v r <-> r = inject_Z (z - s)).
Proof.
  intros z v s r H. split.
  - intros [x y A B|p q r' [I|I] _ _ _]; [|discriminate|congruence]. cbn [int_of] in A. congruence.
  - intros ->. constructor; [reflexivity|exact H].
Qed.
Lemma total_int : forall z v s r, int_of v = Some s -> (total (VInt z) v r <-> r = inject_Z (z + s)).
Proof.
  intros z v s r H. split.
  - intros [x y A B|p q r' [I|I] _ _ _]; [|discriminate|congruence]. cbn [int_of] in A. congruence.
  - intros ->. constructor; [reflexivity|exact H].
Qed.

Lemma py_lt_num : forall a b p q, num_of a = Some p -> num_of b = Some q ->
  py_lt a b = Ok (match Qcompare p q with Lt => true | _ => false end).
Proof. intros a b p q Ha Hb. unfold py_lt. rewrite Ha, Hb. reflexivity. Qed.
Lemma py_lt_false_num : forall p q, (match Qcompare p q with Lt => true | _ => false end) = false <-> (q <= p)%Q.
Proof.
  intros p q. rewrite Qle_alt. pose proof (Qcompare_antisym p q) as H.
  destruct (Qcompare p q), (Qcompare q p); cbn in *; split; congruence.
Qed.

(** comparing with a number *)
Lemma py_gt_left : forall x e r, num_of x = Some r -> (py_gt x e = Ok false <-> exists q, num_of e = Some q /\ (r <= q)%Q).
Proof.
  intros x e r Hx. unfold py_gt, py_lt. rewrite Hx. destruct (num_of e) as [q|] eqn:E.
  - split.
    + intro H. injection H as H. apply py_lt_false_num in H. eauto.
    + intros [q' [H1 H2]]. injection H1 as ->. f_equal. apply py_lt_false_num. assumption.
  - split; [|intros [q [H _]]; discriminate]. destruct e; try discriminate; destruct x; discriminate.
Qed.
Lemma py_gt_right : forall x e r, num_of x = Some r -> (py_gt e x = Ok false <-> exists q, num_of e = Some q /\ (q <= r)%Q).
Proof.
  intros x e r Hx. unfold py_gt, py_lt. rewrite Hx. destruct (num_of e) as [q|] eqn:E.
  - split.
    + intro H. injection H as H. apply py_lt_false_num in H. eauto.
    + intros [q' [H1 H2]]. injection H1 as ->. f_equal. apply py_lt_false_num. assumption.
  - split; [|intros [q [H _]]; discriminate]. destruct x; try discriminate; destruct e; discriminate.
Qed.

Lemma exp_check : forall now K e,
  (do x <- py_sub (VInt now) (karg K (u "skew") (VInt 0)) ; do b <- py_gt x e ; raise_if b EEXPError) = Ok tt
  <-> exp_ok now K e.
Proof.
  intros now K e. unfold exp_ok. split.
  - intro H. bo H. bo H. destruct (sub_num _ _ _ Hx) as [r Hr]. apply raise_if_ok in H. destruct H as [-> _].
    apply (py_gt_left _ _ _ Hr) in Hx0. destruct Hx0 as [q [H1 H2]].
    exists (karg K (u "skew") (VInt 0)), r, q. split; [apply karg_arg; reflexivity|]. split; [apply sub_difference; eauto|]. auto.
  - intros (s & r & q & Hs & Hd & Hq & Hle). apply karg_arg in Hs. subst s. apply sub_difference in Hd. destruct Hd as (x & Hx & Hr).
    rewrite Hx. cbn [bind]. assert (H2 : py_gt x e = Ok false) by (apply (py_gt_left _ _ _ Hr); eauto). rewrite H2. reflexivity.
Qed.
Lemma iat_check' : forall now K t,
  (do x <- py_add t (karg K (u "nonce_storage_time") (VInt nonce_storage_time)) ;
   do y <- py_sub (VInt now) (karg K (u "skew") (VInt 0)) ;
   do b <- py_lt x y ; raise_if b EIATError) = Ok tt <-> iat_fresh now K t.
Proof.
  intros now K t. unfold iat_fresh. split.
  - intro H. bo H. bo H. bo H. destruct (sub_num _ _ _ Hx0) as [r Hr]. apply raise_if_ok in H. destruct H as [-> _].
    change (py_gt x0 x = Ok false) in Hx1. apply (py_gt_left _ _ _ Hr) in Hx1. destruct Hx1 as [q [H1 H2]].
    exists (karg K (u "skew") (VInt 0)), (karg K (u "nonce_storage_time") (VInt nonce_storage_time)), r, q.
    split; [apply karg_arg; reflexivity|]. split; [apply karg_arg; reflexivity|]. split; [apply sub_difference; eauto|]. split; [apply add_total; eauto|exact H2].
  - intros (s & n & r & q & Hs & Hn & Hd & Ht & Hle). apply karg_arg in Hs, Hn. subst s n. apply sub_difference in Hd. apply add_total in Ht.
    destruct Hd as (y & Hy & Hr), Ht as (x & Hx & Hq). change nonce_storage_time with 14400%Z. rewrite Hx. cbn [bind]. rewrite Hy. cbn [bind].
    assert (H2 : py_gt y x = Ok false) by (apply (py_gt_left _ _ _ Hr); eauto). unfold py_gt in H2. rewrite H2. reflexivity.
Qed.

(** integers for the skew *)
Definition at_most (v : value) (z : Z) : Prop := exists q, num_of v = Some q /\ (q <= inject_Z z)%Q.
Definition at_least (v : value) (z : Z) : Prop := exists q, num_of v = Some q /\ (inject_Z z <= q)%Q.
Lemma exp_whole : forall now K e s, arg_int K (u "skew") 0 s -> (exp_ok now K e <-> at_least e (now - s)).
Proof.
  intros now K e s Hs. unfold exp_ok, at_least. split.
  - intros (v & r & q & Hv & Hd & Hq & L). apply (difference_int _ _ _ _ (arg_whole _ _ _ _ _ Hs Hv)) in Hd. subst r. eauto.
  - intros (q & Hq & L). destruct (int_arg _ _ _ _ Hs) as (v & Hv & Hi). exists v, (inject_Z (now - s)), q. split; [exact Hv|].
    split; [apply (difference_int _ _ _ _ Hi); reflexivity|]. auto.
Qed.
Lemma past_whole : forall now K t s, arg_int K (u "skew") 0 s -> (iat_past now K t <-> at_most t (now + s)).
Proof.
  intros now K e s Hs. unfold iat_past, at_most. split.
  - intros (v & r & q & Hv & Hd & Hq & L). apply (total_int _ _ _ _ (arg_whole _ _ _ _ _ Hs Hv)) in Hd. subst r. eauto.
  - intros (q & Hq & L). destruct (int_arg _ _ _ _ Hs) as (v & Hv & Hi). exists v, (inject_Z (now + s)), q. split; [exact Hv|].
    split; [apply (total_int _ _ _ _ Hi); reflexivity|]. auto.
Qed.
Lemma nbf_whole : forall now K t s, arg_int K (u "skew") 0 s -> (nbf_past now K t <-> at_most t (now - s)).
Proof.
  intros now K e s Hs. unfold nbf_past, at_most. split.
  - intros (v & r & q & Hv & Hd & Hq & L). apply (difference_int _ _ _ _ (arg_whole _ _ _ _ _ Hs Hv)) in Hd. subst r. eauto.
  - intros (q & Hq & L). destruct (int_arg _ _ _ _ Hs) as (v & Hv & Hi). exists v, (inject_Z (now - s)), q. split; [exact Hv|].
    split; [apply (difference_int _ _ _ _ Hi); reflexivity|]. auto.
Qed.
Lemma fresh_whole : forall now K t s, arg_int K (u "skew") 0 s ->
  (iat_fresh now K t <-> exists n x, arg K (u "nonce_storage_time") 14400 n /\ total t n x /\ (inject_Z (now - s) <= x)%Q).
Proof.
  intros now K t s Hs. unfold iat_fresh. split.
  - intros (v & n & r & x & Hv & Hn & Hd & Hx & L). apply (difference_int _ _ _ _ (arg_whole _ _ _ _ _ Hs Hv)) in Hd. subst r. eauto.
  - intros (n & x & Hn & Hx & L). destruct (int_arg _ _ _ _ Hs) as (v & Hv & Hi). exists v, n, (inject_Z (now - s)), x. split; [exact Hv|].
    split; [exact Hn|]. split; [apply (difference_int _ _ _ _ Hi); reflexivity|]. auto.
Qed.

Lemma exp_int : forall now K s z, arg_int K (u "skew") 0 s -> (now - s <= z)%Z -> exp_ok now K (VInt z).
Proof. intros now K s z Hs L. apply (exp_whole _ _ _ _ Hs). exists (inject_Z z). split; [reflexivity|]. rewrite <- Zle_Qle. exact L. Qed.
Lemma past_int : forall now K s z, arg_int K (u "skew") 0 s -> (z <= now + s)%Z -> iat_past now K (VInt z).
Proof. intros now K s z Hs L. apply (past_whole _ _ _ _ Hs). exists (inject_Z z). split; [reflexivity|]. rewrite <- Zle_Qle. exact L. Qed.
Lemma fresh_int : forall now K s n z, arg_int K (u "skew") 0 s -> arg_int K (u "nonce_storage_time") 14400 n -> (now - s <= z + n)%Z -> iat_fresh now K (VInt z).
Proof.
  intros now K s n z Hs Hn L. apply (fresh_whole _ _ _ _ Hs). destruct (int_arg _ _ _ _ Hn) as (v & Hv & Hi). exists v, (inject_Z (z + n)). split; [exact Hv|].
  split; [apply (total_int _ _ _ _ Hi); reflexivity|]. rewrite <- Zle_Qle. exact L.
Qed.

Lemma idtoken_aud_ok : forall K d, idtoken_aud K d = Ok tt <->
  (forall aud c, dget d (u "aud") = Some aud -> kget K (u "client_id") = Some c -> contains aud c) /\
  (forall aud, dget d (u "aud") = Some aud -> exists n, sized aud n /\
     ((1 < n)%nat -> exists a, dget d (u "azp") = Some a /\ contains aud a)).
Proof.
  intros K d. unfold idtoken_aud. destruct (dget d (u "aud")) as [aud|]; [|split; [intros _; split; discriminate|reflexivity]].
  split.
  - intro H. bo H. bo H. split.
    + intros aud' c Ha Hc. injection Ha as <-. rewrite Hc in Hx. bo Hx. apply raise_if_ok in Hx.
      destruct Hx as [-> _]. apply not_in_false in Hx1. assumption.
    + intros aud' Ha. injection Ha as <-. apply py_len_sized in Hx0. destruct Hx0 as [n [Hn ->]].
      exists n. split; [assumption|]. intro Hlt.
      destruct (1 <? N.of_nat n) eqn:El; [|lia].
      destruct (dget d (u "azp")) as [a|]; [|discriminate]. bo H. apply raise_if_ok in H. destruct H as [-> _].
      apply not_in_false in Hx0. eauto.
  - intros [H1 H2]. destruct (H2 aud eq_refl) as [n [Hn Hazp]].
    assert (Hl : py_len aud = Ok (N.of_nat n)) by (apply py_len_sized; eauto).
    assert (Hc : match kget K (u "client_id") with
                 | Some c => do b <- not_in c aud ; raise_if b ENotForMe
                 | None => Ok tt end = Ok tt).
    { destruct (kget K (u "client_id")) as [c|]; [|reflexivity].
      pose proof (H1 aud c eq_refl eq_refl) as H. apply not_in_false in H. rewrite H. reflexivity. }
    rewrite Hc. cbn [bind]. rewrite Hl. cbn [bind].
    destruct (1 <? N.of_nat n) eqn:El; [|reflexivity].
    destruct Hazp as [a [Ha Hin]]; [lia|]. rewrite Ha. apply not_in_false in Hin. rewrite Hin. reflexivity.
Qed.
