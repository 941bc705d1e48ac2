(** Fractional skews: rounding preserves the order. *)
From Coq Require Import List NArith ZArith QArith Qabs Qreduction Qcanon Bool String Lia Lqa.
From Verif Require Import Base.Ustr Base.UstrLemmas Model.Cls Model.Value Model.Pspec Model.Tables Model.Message Model.Env Model.Verify Model.Float
  Spec.MessageSpec Spec.VerifySpec Spec.FloatSpec Spec.ArgumentSpec Spec.ClockSpec Proofs.ValueLemmas Proofs.MessageLemmas Proofs.VerifyLemmas Proofs.FloatLemmas Proofs.TokenLemmas Proofs.IdTokenLemmas
  Proofs.ResponseLemmas Proofs.OtherVerify Proofs.ClassVerify Proofs.ArgumentLemmas Proofs.ClockLemmas.
Import ListNotations.
Open Scope list_scope.
Open Scope Q_scope.

Lemma rounds_det : forall r q q', 0 <= r -> rounds r q -> rounds r q' -> q = q'.
Proof.
  intros r q q' R H H'. assert (F : r == inject_Z (Qnum r) / inject_Z (Zpos (Qden r))) by (destruct r as [n d]; apply Qmake_Qdiv).
  assert (N : (0 <= Qnum r)%Z) by (unfold Qle in R; cbn [Qnum Qden] in R; lia).
  apply (rounds_compat _ _ _ F) in H. apply (rounds_compat _ _ _ F) in H'. apply (nearest_iff _ _ _ N (Pos2Z.is_pos _)) in H. apply (nearest_iff _ _ _ N (Pos2Z.is_pos _)) in H'. congruence.
Qed.
Lemma rounds_pos : forall r q, 0 <= r -> rounds r q -> 0 <= q.
Proof.
  intros r q R H. destruct (rounds_binary _ _ R H) as (m & e & M & X & E). rewrite E. pose proof (two_pos e).
  apply Qmult_le_0_compat; [change 0 with (inject_Z 0); rewrite <- Zle_Qle; lia|lra].
Qed.
Lemma rounds_mono : forall r r' q q', 0 <= r -> r <= r' -> rounds r q -> rounds r' q' -> q <= q'.
Proof.
  intros r r' q q' R L H H'. destruct (Qlt_le_dec q' q) as [C|C]; [|exact C]. exfalso. assert (R' : 0 <= r') by lra.
  pose proof (rounds_nearest _ _ H q' (rounds_binary _ _ R' H')) as A. pose proof (rounds_nearest _ _ H' q (rounds_binary _ _ R H)) as B.
  assert (X : q' + q <= 2 * r).
  { destruct (Qlt_le_dec (2 * r) (q' + q)) as [D|D]; [|exact D]. exfalso.
    assert (N : Qabs (r - q) == q - r) by (rewrite Qabs_neg; lra). rewrite N in A.
    destruct (Qlt_le_dec r q') as [F|F]; [rewrite (Qabs_neg (r - q')) in A by lra|rewrite (Qabs_pos (r - q')) in A by lra]; lra. }
  assert (Y : 2 * r' <= q' + q).
  { destruct (Qlt_le_dec (q' + q) (2 * r')) as [D|D]; [|exact D]. exfalso.
    assert (N : Qabs (r' - q') == r' - q') by (rewrite Qabs_pos; lra). rewrite N in B.
    destruct (Qlt_le_dec r' q) as [F|F]; [rewrite (Qabs_neg (r' - q)) in B by lra|rewrite (Qabs_pos (r' - q)) in B by lra]; lra. }
  assert (E : r' == r) by lra. apply (rounds_compat _ _ _ E) in H'. pose proof (rounds_det _ _ _ R H H'). subst q'. lra.
Qed.
Lemma rounded_mono : forall r r' q q', r <= r' -> rounded r q -> rounded r' q' -> q <= q'.
Proof.
  intros r r' q q' L [[R H]|[R H]] [[R' H']|[R' H']].
  - exact (rounds_mono _ _ _ _ R L H H').
  - lra.
  - pose proof (rounds_pos _ _ R' H'). assert (P : 0 <= - r) by lra. pose proof (rounds_pos _ _ P H). lra.
  - assert (P : 0 <= - r') by lra. assert (K : - r' <= - r) by lra. pose proof (rounds_mono _ _ _ _ P K H' H). lra.
Qed.
Lemma small_limit : forall r, 0 <= r -> r <= inject_Z (2 ^ 53) -> exists q, rounds r q.
Proof.
  intros r R L. apply (rounds_limit r R). apply (Qle_lt_trans _ _ _ L). vm_compute. reflexivity.
Qed.
Lemma rounded_exists : forall r, Qabs r <= inject_Z (2 ^ 53) -> exists q, rounded r q.
Proof.
  intros r L. destruct (Qlt_le_dec r 0) as [N|N].
  - rewrite Qabs_neg in L by lra. destruct (small_limit (- r)) as [q Q]; [lra|exact L|]. exists (- q). right. split; [exact N|].
    assert (I : - - q = q) by (destruct q as [n d]; unfold Qopp; cbn [Qnum Qden]; rewrite Z.opp_involutive; reflexivity). rewrite I. exact Q.
  - rewrite Qabs_pos in L by exact N. destruct (small_limit r N L) as [q Q]. exists q. left. auto.
Qed.
Lemma whole_binary : forall n, (0 <= n < 2 ^ 53)%Z -> rounds (inject_Z n) (inject_Z n).
Proof.
  intros n H. assert (E : inject_Z n = Qred (inject_Z n)). { symmetry. apply Qred_identity. cbn [Qnum Qden inject_Z]. apply Z.gcd_1_r. }
  rewrite E at 2. apply rounds_self. exists n, 0%Z. split; [exact H|]. split; [lia|]. change (2 ^ 0) with 1. ring.
Qed.
Lemma whole_rounded : forall n, (Z.abs n < 2 ^ 53)%Z -> rounded (inject_Z n) (inject_Z n).
Proof.
  intros n H. destruct (Z_lt_le_dec n 0) as [N|N].
  - right. split; [change 0 with (inject_Z 0); rewrite <- Zlt_Qlt; exact N|]. change (- inject_Z n) with (inject_Z (- n)). apply whole_binary. lia.
  - left. split; [change 0 with (inject_Z 0); rewrite <- Zle_Qle; exact N|]. apply whole_binary. lia.
Qed.
Lemma rounded_det : forall r q q', rounded r q -> rounded r q' -> q = q'.
Proof. intros r q q' H H'. apply round_flt_iff in H, H'. congruence. Qed.
Lemma rounded_compat : forall r r' q, r == r' -> rounded r q -> rounded r' q.
Proof.
  intros r r' q E [[R H]|[R H]]; [left|right]; (split; [lra|]); revert H; apply rounds_compat; rewrite E; reflexivity.
Qed.
Lemma whole_range : forall n, moderate (inject_Z n) -> (Z.abs n < 2 ^ 52)%Z.
Proof. intros n H. unfold moderate in H. change (Qabs (inject_Z n)) with (inject_Z (Z.abs n)) in H. rewrite <- Zlt_Qlt in H. exact H. Qed.

(** in that range, sums and differences are the rounded ones *)
Lemma difference_range : forall t v q r, moderate (inject_Z t) -> moderate q -> num_of v = Some q -> (difference (VInt t) v r <-> rounded (inject_Z t - q) r).
Proof.
  intros t v q r T R Hv. apply whole_range in T. destruct (int_of v) as [s|] eqn:I.
  - pose proof (int_num _ _ I) as N. assert (q = inject_Z s) as -> by congruence. apply whole_range in R. rewrite (difference_int _ _ _ _ I).
    assert (W : rounded (inject_Z t - inject_Z s) (inject_Z (t - s))).
    { apply rounded_compat with (inject_Z (t - s)); [unfold Z.sub, Qminus; rewrite inject_Z_plus, inject_Z_opp; reflexivity|]. apply whole_rounded. lia. }
    split; [intros ->; exact W|]. intro X. exact (rounded_det _ _ _ X W).
  - destruct (num_flt v I) as [f ->]; [congruence|]. cbn [num_of] in Hv. assert (q = f) as -> by congruence. split.
    + intros [x y A B|p q' r' _ A B X]; [discriminate|]. cbn [as_float] in B. subst q'. cbn [as_float int_of] in A. destruct A as (z & Ez & A). assert (z = t) as -> by congruence.
      rewrite (rounded_det _ _ _ A (whole_rounded t ltac:(lia))) in X. exact X.
    + intro X. apply (DifferenceFloat _ _ (inject_Z t) f r); [right; reflexivity| |reflexivity|exact X]. exists t. split; [reflexivity|]. apply whole_rounded. lia.
Qed.
Lemma total_range : forall t v q r, moderate (inject_Z t) -> moderate q -> num_of v = Some q -> (total (VInt t) v r <-> rounded (inject_Z t + q) r).
Proof.
  intros t v q r T R Hv. apply whole_range in T. destruct (int_of v) as [s|] eqn:I.
  - pose proof (int_num _ _ I) as N. assert (q = inject_Z s) as -> by congruence. apply whole_range in R. rewrite (total_int _ _ _ _ I).
    assert (W : rounded (inject_Z t + inject_Z s) (inject_Z (t + s))).
    { apply rounded_compat with (inject_Z (t + s)); [rewrite inject_Z_plus; reflexivity|]. apply whole_rounded. lia. }
    split; [intros ->; exact W|]. intro X. exact (rounded_det _ _ _ X W).
  - destruct (num_flt v I) as [f ->]; [congruence|]. cbn [num_of] in Hv. assert (q = f) as -> by congruence. split.
    + intros [x y A B|p q' r' _ A B X]; [discriminate|]. cbn [as_float] in B. subst q'. cbn [as_float int_of] in A. destruct A as (z & Ez & A). assert (z = t) as -> by congruence.
      rewrite (rounded_det _ _ _ A (whole_rounded t ltac:(lia))) in X. exact X.
    + intro X. apply (TotalFloat _ _ (inject_Z t) f r); [right; reflexivity| |reflexivity|exact X]. exists t. split; [reflexivity|]. apply whole_rounded. lia.
Qed.
Lemma range_bounds : forall q, moderate q -> - inject_Z (2 ^ 52) < q < inject_Z (2 ^ 52).
Proof. intros q H. unfold moderate in H. apply Qabs_Qlt_condition in H. exact H. Qed.
Lemma range_sub : forall a b, moderate a -> moderate b -> exists r, rounded (a - b) r.
Proof.
  intros a b A B. apply range_bounds in A, B. apply rounded_exists. apply Qabs_Qle_condition. change (inject_Z (2 ^ 53)) with 9007199254740992. change (inject_Z (2 ^ 52)) with 4503599627370496 in *. lra.
Qed.
Lemma range_add : forall a b, moderate a -> moderate b -> exists r, rounded (a + b) r.
Proof.
  intros a b A B. apply range_bounds in A, B. apply rounded_exists. apply Qabs_Qle_condition. change (inject_Z (2 ^ 53)) with 9007199254740992. change (inject_Z (2 ^ 52)) with 4503599627370496 in *. lra.
Qed.
Lemma arg_det : forall K k z v w, arg K k z v -> arg K k z w -> v = w.
Proof. intros K k z v w H H'. apply karg_arg in H, H'. congruence. Qed.

(** the rules *)
Section Rules.
Variables (t1 t2 : Z) (K1 K2 : kwargs) (q1 q2 : QArith_base.Q).
Hypothesis R1 : moderate (inject_Z t1).
Hypothesis R2 : moderate (inject_Z t2).
Hypothesis S1 : skew_is K1 q1.
Hypothesis S2 : skew_is K2 q2.
Hypothesis G1 : moderate q1.
Hypothesis G2 : moderate q2.
Lemma difference_le : inject_Z t1 - q1 <= inject_Z t2 - q2 -> forall s2 r2, arg K2 (u "skew") 0 s2 -> difference (VInt t2) s2 r2 ->
  exists s1 r1, arg K1 (u "skew") 0 s1 /\ difference (VInt t1) s1 r1 /\ r1 <= r2.
Proof.
  intros L s2 r2 A D. destruct S1 as (v1 & A1 & N1), S2 as (v2 & A2 & N2). rewrite (arg_det _ _ _ _ _ A A2) in D. apply (difference_range _ _ _ _ R2 G2 N2) in D.
  destruct (range_sub _ _ R1 G1) as [r1 D1]. exists v1, r1. split; [exact A1|]. split; [apply (difference_range _ _ _ _ R1 G1 N1); exact D1|]. exact (rounded_mono _ _ _ _ L D1 D).
Qed.
Lemma difference_ge : inject_Z t2 - q2 <= inject_Z t1 - q1 -> forall s2 r2, arg K2 (u "skew") 0 s2 -> difference (VInt t2) s2 r2 ->
  exists s1 r1, arg K1 (u "skew") 0 s1 /\ difference (VInt t1) s1 r1 /\ r2 <= r1.
Proof.
  intros L s2 r2 A D. destruct S1 as (v1 & A1 & N1), S2 as (v2 & A2 & N2). rewrite (arg_det _ _ _ _ _ A A2) in D. apply (difference_range _ _ _ _ R2 G2 N2) in D.
  destruct (range_sub _ _ R1 G1) as [r1 D1]. exists v1, r1. split; [exact A1|]. split; [apply (difference_range _ _ _ _ R1 G1 N1); exact D1|]. exact (rounded_mono _ _ _ _ L D D1).
Qed.
Lemma total_ge : inject_Z t2 + q2 <= inject_Z t1 + q1 -> forall s2 r2, arg K2 (u "skew") 0 s2 -> total (VInt t2) s2 r2 ->
  exists s1 r1, arg K1 (u "skew") 0 s1 /\ total (VInt t1) s1 r1 /\ r2 <= r1.
Proof.
  intros L s2 r2 A D. destruct S1 as (v1 & A1 & N1), S2 as (v2 & A2 & N2). rewrite (arg_det _ _ _ _ _ A A2) in D. apply (total_range _ _ _ _ R2 G2 N2) in D.
  destruct (range_add _ _ R1 G1) as [r1 D1]. exists v1, r1. split; [exact A1|]. split; [apply (total_range _ _ _ _ R1 G1 N1); exact D1|]. exact (rounded_mono _ _ _ _ L D D1).
Qed.
Lemma exp_le : inject_Z t1 - q1 <= inject_Z t2 - q2 -> forall e, exp_ok t2 K2 e -> exp_ok t1 K1 e.
Proof. intros L e (s & r & q & A & D & N & X). destruct (difference_le L _ _ A D) as (s1 & r1 & A1 & D1 & X1). exists s1, r1, q. repeat (split; [assumption|]). lra. Qed.
Lemma nbf_ge : inject_Z t2 - q2 <= inject_Z t1 - q1 -> forall e, nbf_past t2 K2 e -> nbf_past t1 K1 e.
Proof. intros L e (s & r & q & A & D & N & X). destruct (difference_ge L _ _ A D) as (s1 & r1 & A1 & D1 & X1). exists s1, r1, q. repeat (split; [assumption|]). lra. Qed.
Lemma past_ge : inject_Z t2 + q2 <= inject_Z t1 + q1 -> forall e, iat_past t2 K2 e -> iat_past t1 K1 e.
Proof. intros L e (s & r & q & A & D & N & X). destruct (total_ge L _ _ A D) as (s1 & r1 & A1 & D1 & X1). exists s1, r1, q. repeat (split; [assumption|]). lra. Qed.
Hypothesis HG : same_but_skew K1 K2.
Lemma fresh_le : inject_Z t1 - q1 <= inject_Z t2 - q2 -> forall e, iat_fresh t2 K2 e -> iat_fresh t1 K1 e.
Proof.
  intros L e (s & n & r & x & A & B & D & N & X). destruct (difference_le L _ _ A D) as (s1 & r1 & A1 & D1 & X1). exists s1, n, r1, x.
  split; [exact A1|]. split; [|repeat (split; [assumption|]); lra]. unfold arg in *. rewrite <- (HG (u "nonce_storage_time")) by discriminate. exact B.
Qed.
Lemma frac_get : forall k, ueqb k (u "skew") = false -> kget K2 k = kget K1 k.
Proof. intros k H. apply HG. intros ->. discriminate. Qed.
Lemma le_id_frac : forall E C d, inject_Z t1 - q1 <= inject_Z t2 - q2 -> le (idtoken_verify (clock E t1) K1 C d) (idtoken_verify (clock E t2) K2 C d).
Proof.
  intros E C d L x X. apply idtoken_verify_ok in X. apply idtoken_verify_ok. destruct X as [[T R] Hx]. split; [|exact Hx]. split; [exact T|].
  cbn [e_now clock] in *. destruct R as [A1 A2 A3 A4 [e [He Hl]] [t [Ht Hl']] A7].
  rewrite (frac_get (u "iss") eq_refl) in A1. rewrite (frac_get (u "client_id") eq_refl) in A2, A4. rewrite (frac_get (u "nonce") eq_refl) in A7.
  constructor; try assumption.
  - exists e. split; [exact He|]. exact (exp_le L e Hl).
  - exists t. split; [exact Ht|]. exact (fresh_le L t Hl').
Qed.
Lemma le_logout_frac : forall E C hdr d, inject_Z t2 + q2 <= inject_Z t1 + q1 -> le (logout_token_verify (clock E t1) K1 C hdr d) (logout_token_verify (clock E t2) K2 C hdr d).
Proof.
  intros E C hdr d L x X. apply logout_verify_ok in X. apply logout_verify_ok. destruct X as [[T R] Hx]. split; [|exact Hx]. split; [exact T|].
  destruct R as [A1 A2 A3 A4 A5 A6 A7]. rewrite (frac_get (u "aud") eq_refl) in A4. rewrite (frac_get (u "iss") eq_refl) in A5. rewrite (frac_get (u "allowed_sign_alg") eq_refl) in A7.
  constructor; try assumption. cbn [e_now clock] in *. intros t Ht. exact (past_ge L t (A6 t Ht)).
Qed.
End Rules.

Lemma c172_id : forall E t1 t2 K1 K2 hdr c d d' q1 q2, has_id_token c = true -> keys_skewless E -> kw_jar K1 = kw_jar K2 -> same_but_skew K1 K2 ->
  moderate (inject_Z t1) -> moderate (inject_Z t2) -> skew_is K1 q1 -> skew_is K2 q2 -> moderate q1 -> moderate q2 -> inject_Z t1 - q1 <= inject_Z t2 - q2 ->
  verify (clock E t2) K2 hdr c d = (d', Ok true) -> verify (clock E t1) K1 hdr c d = (d', Ok true).
Proof.
  intros E t1 t2 K1 K2 hdr c d d' q1 q2 H HE HJ HG R1 R2 S1 S2 G1 G2 L. apply (tw_id_kinds E t1 t2 K1 K2 HJ HG (skewless_args E K1 K2 HE HG)).
  - intros C d0. exact (le_id_frac t1 t2 K1 K2 q1 q2 R1 R2 S1 S2 G1 G2 HG E C d0 L).
  - exact (class_id c H).
Qed.
Lemma c172_logout : forall E t1 t2 K1 K2 hdr c d d' q1 q2, has_logout_token c = true -> keys_skewless E -> kw_jar K1 = kw_jar K2 -> same_but_skew K1 K2 ->
  moderate (inject_Z t1) -> moderate (inject_Z t2) -> skew_is K1 q1 -> skew_is K2 q2 -> moderate q1 -> moderate q2 -> inject_Z t2 + q2 <= inject_Z t1 + q1 ->
  verify (clock E t2) K2 hdr c d = (d', Ok true) -> verify (clock E t1) K1 hdr c d = (d', Ok true).
Proof.
  intros E t1 t2 K1 K2 hdr c d d' q1 q2 H HE HJ HG R1 R2 S1 S2 G1 G2 L. apply (tw_logout_kinds E t1 t2 K1 K2 HJ HG (skewless_args E K1 K2 HE HG)).
  - intros C h d0. exact (le_logout_frac t1 t2 K1 K2 q1 q2 R1 R2 S1 S2 G1 G2 HG E C h d0 L).
  - exact (class_logout c H).
Qed.
Lemma c172_jwt : forall E t1 t2 t3 K hdr c d q, is_jwt c = true -> (t1 <= t2 <= t3)%Z ->
  moderate (inject_Z t1) -> moderate (inject_Z t3) -> skew_is K q -> moderate q ->
  snd (verify (clock E t1) K hdr c d) = Ok true -> snd (verify (clock E t3) K hdr c d) = Ok true -> verify (clock E t2) K hdr c d = (d, Ok true).
Proof.
  intros E t1 t2 t3 K hdr c d q HJ [L1 L2] R1 R3 S G H1 H3.
  assert (R2 : moderate (inject_Z t2)).
  { apply whole_range in R1, R3. unfold moderate. change (Qabs (inject_Z t2)) with (inject_Z (Z.abs t2)). rewrite <- Zlt_Qlt. lia. }
  assert (M1 : inject_Z t1 <= inject_Z t2) by (rewrite <- Zle_Qle; exact L1). assert (M2 : inject_Z t2 <= inject_Z t3) by (rewrite <- Zle_Qle; exact L2).
  destruct (verify (clock E t1) K hdr c d) as [d1 x1] eqn:V1. destruct (verify (clock E t3) K hdr c d) as [d3 x3] eqn:V3. cbn [snd] in H1, H3. subst x1 x3.
  pose proof (jwt_dict _ _ _ _ _ _ _ HJ V1). pose proof (jwt_dict _ _ _ _ _ _ _ HJ V3). subst d1 d3.
  apply c39 in V1; [|exact HJ]. apply c39 in V3; [|exact HJ]. apply c39; [exact HJ|]. destruct V1 as [T1 A], V3 as [T3 B].
  split; [exact T1|]. destruct A as [_ A2 A3 A4 A5], B as [B1 _ _ _ _]. cbn [e_now clock] in *. constructor; try assumption.
  - intros e He. apply (exp_le t2 t3 K K q q R2 R3 S S G G ltac:(lra) e (B1 e He)).
  - intros e He. apply (past_ge t2 t1 K K q q R2 R1 S S G G ltac:(lra) e (A2 e He)).
  - intros e He. apply (nbf_ge t2 t1 K K q q R2 R1 S S G G ltac:(lra) e (A3 e He)).
Qed.
(** a token is not too old as long as it is not so by exact arithmetic *)
Lemma c172_exact : forall t K q e, moderate (inject_Z t) -> skew_is K q -> moderate q -> moderate (inject_Z e) -> inject_Z t <= inject_Z e + q -> exp_ok t K (VInt e).
Proof.
  intros t K q e R (v & A & N) G X L. destruct (range_sub _ _ R G) as [r D]. exists v, r, (inject_Z e). split; [exact A|]. split; [apply (difference_range _ _ _ _ R G N); exact D|]. split; [reflexivity|].
  apply whole_range in X. apply (rounded_mono (inject_Z t - q) (inject_Z e) r (inject_Z e)); [lra|exact D|]. apply whole_rounded. lia.
Qed.
Lemma c172_until : forall E t1 t2 K hdr c d q e, is_jwt c = true -> (t1 <= t2)%Z -> moderate (inject_Z t1) -> moderate (inject_Z t2) -> skew_is K q -> moderate q ->
  dget d (u "exp") = Some (VInt e) -> moderate (inject_Z e) -> inject_Z t2 <= inject_Z e + q ->
  snd (verify (clock E t1) K hdr c d) = Ok true -> snd (verify (clock E t2) K hdr c d) = Ok true.
Proof.
  intros E t1 t2 K hdr c d q e HJ L R1 R2 S G He X U H. assert (M : inject_Z t1 <= inject_Z t2) by (rewrite <- Zle_Qle; exact L).
  destruct (verify (clock E t1) K hdr c d) as [d1 x1] eqn:V. cbn [snd] in H. subst x1. pose proof (jwt_dict _ _ _ _ _ _ _ HJ V). subst d1.
  apply c39 in V; [|exact HJ]. destruct V as [T A]. assert (W : verify (clock E t2) K hdr c d = (d, Ok true)); [|rewrite W; reflexivity].
  apply c39; [exact HJ|]. split; [exact T|]. destruct A as [_ A2 A3 A4 A5]. cbn [e_now clock] in *. constructor; try assumption.
  - intros v Hv. assert (v = VInt e) as -> by congruence. exact (c172_exact t2 K q e R2 S G X U).
  - intros v Hv. apply (past_ge t2 t1 K K q q R2 R1 S S G G ltac:(lra) v (A2 v Hv)).
  - intros v Hv. apply (nbf_ge t2 t1 K K q q R2 R1 S S G G ltac:(lra) v (A3 v Hv)).
Qed.
Lemma c172_larger : forall E K K' hdr c d d' q q', keys_skewless E -> kw_jar K = kw_jar K' -> same_but_skew K K' ->
  moderate (inject_Z (e_now E)) -> skew_is K q -> skew_is K' q' -> moderate q -> moderate q' -> q <= q' -> (is_jwt c = true -> dget d (u "nbf") = None) ->
  verify E K hdr c d = (d', Ok true) -> verify E K' hdr c d = (d', Ok true).
Proof.
  intros E K K' hdr c d d' q q' HE HJ HG R H1 H2 G1 G2 L N. destruct (has_id_token c) eqn:HI.
  { rewrite <- (clock_self E). apply (c172_id E (e_now E) (e_now E) K' K hdr c d d' q' q HI HE (eq_sym HJ) (same_sym _ _ HG) R R H2 H1 G2 G1). lra. }
  destruct (has_logout_token c) eqn:HL.
  { rewrite <- (clock_self E). apply (c172_logout E (e_now E) (e_now E) K' K hdr c d d' q' q HL HE (eq_sym HJ) (same_sym _ _ HG) R R H2 H1 G2 G1). lra. }
  destruct (is_jwt c) eqn:Hj.
  { intro V. pose proof (jwt_dict _ _ _ _ _ _ _ Hj V). subst d'. apply c39 in V; [|exact Hj]. apply c39; [exact Hj|]. destruct V as [T A]. split; [exact T|].
    destruct A as [A1 A2 _ A4 A5]. assert (G : forall k, ueqb k (u "skew") = false -> kget K' k = kget K k) by (intros k H; apply HG; intros ->; discriminate).
    constructor; rewrite ?(G (u "aud") eq_refl), ?(G (u "iss") eq_refl); try assumption.
    - intros v Hv. apply (exp_le (e_now E) (e_now E) K' K q' q R R H2 H1 G2 G1 ltac:(lra) v (A1 v Hv)).
    - intros v Hv. apply (past_ge (e_now E) (e_now E) K' K q' q R R H2 H1 G2 G1 ltac:(lra) v (A2 v Hv)).
    - intros v Hv. rewrite (N eq_refl) in Hv. discriminate. }
  rewrite (c137_none E K K') by assumption. tauto.
Qed.
