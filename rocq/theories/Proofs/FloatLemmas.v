(** Reading a decimal fraction gives the binary64 number that it is rounded to. *)
From Coq Require Import ZArith QArith Qabs Qpower Qreduction Lia Lqa Qround.
From Verif Require Import Model.Float Spec.FloatSpec.
Open Scope Q_scope.

Lemma two_pos : forall e, 0 < 2 ^ e.
Proof. intro e. apply Qpower_0_lt. reflexivity. Qed.
Lemma two_step : forall e, 2 ^ (e + 1) == 2 * 2 ^ e.
Proof. intro e. rewrite Qpower_plus by discriminate. rewrite Qpower_1_r. ring. Qed.
Lemma two_mono : forall a b, (a <= b)%Z -> 2 ^ a <= 2 ^ b.
Proof. intros a b H. apply Qpower_le_compat_l; [exact H|discriminate]. Qed.
Lemma inj_lt : forall a b, (a < b)%Z <-> inject_Z a < inject_Z b.
Proof. intros a b. rewrite <- Zlt_Qlt. reflexivity. Qed.
Lemma inj_pow : forall e, (0 <= e)%Z -> inject_Z (2 ^ e) == 2 ^ e.
Proof. intros e H. exact (Zpower_Qpower 2 e H). Qed.

(** ** scaling *)
Lemma pow_pos : forall x, (0 < 2 ^ Z.max 0 x)%Z.
Proof. intro x. apply Z.pow_pos_nonneg; lia. Qed.
Lemma scaled_spec : forall n d e a b, (0 < d)%Z -> scaled n d e = (a, b) -> (0 < b)%Z /\ (inject_Z n / inject_Z d) * inject_Z b == inject_Z a * 2 ^ e.
Proof.
  intros n d e a b Hd H. unfold scaled in H. assert (Ea : a = (n * 2 ^ Z.max 0 (- e))%Z) by congruence. assert (Eb : b = (d * 2 ^ Z.max 0 e)%Z) by congruence. clear H.
  split; [subst b; apply Z.mul_pos_pos; [exact Hd|apply pow_pos]|]. subst a b. rewrite !inject_Z_mult, !inj_pow by lia.
  assert (D : ~ inject_Z d == 0) by (intro X; unfold Qeq in X; cbn [Qnum Qden inject_Z] in X; lia).
  assert (E : 2 ^ Z.max 0 e == 2 ^ Z.max 0 (- e) * 2 ^ e).
  { rewrite <- Qpower_plus by discriminate. replace (Z.max 0 (- e) + e)%Z with (Z.max 0 e) by lia. reflexivity. }
  rewrite E. field. exact D.
Qed.
Section Scale.
  Variables (r P : Q) (a b : Z).
  Hypothesis (HP : 0 < P) (Hb : (0 < b)%Z) (E : r * inject_Z b == inject_Z a * P).
  Lemma inj_b : 0 < inject_Z b. Proof. change 0 with (inject_Z 0). rewrite <- Zlt_Qlt. exact Hb. Qed.
  Lemma scale_lt : forall c, (a < c * b)%Z <-> r < inject_Z c * P.
  Proof.
    intro c. rewrite inj_lt, inject_Z_mult. pose proof inj_b as B. split; intro H.
    - apply (Qmult_lt_r _ _ _ B). rewrite E. setoid_replace (inject_Z c * P * inject_Z b) with (inject_Z c * inject_Z b * P) by ring. apply Qmult_lt_r; [exact HP|exact H].
    - apply (Qmult_lt_r _ _ _ HP). rewrite <- E. setoid_replace (inject_Z c * inject_Z b * P) with (inject_Z c * P * inject_Z b) by ring. apply Qmult_lt_r; [exact B|exact H].
  Qed.
  Lemma scale_le : forall c, (c * b <= a)%Z <-> inject_Z c * P <= r.
  Proof. intro c. pose proof (scale_lt c) as L. split; intro H; [apply Qnot_lt_le; intro X; apply L in X; lia|]. apply Z.nlt_ge. intro X. apply L in X. lra. Qed.
  Lemma scale_eq : r == inject_Z a / inject_Z b * P.
  Proof. pose proof inj_b as B. apply (Qmult_inj_r _ _ (inject_Z b)); [lra|]. rewrite E. field. lra. Qed.
  (** the distance to a multiple *)
  Lemma scale_abs : forall m, Qabs (r - inject_Z m * P) * inject_Z b == inject_Z (Z.abs (a - m * b)) * P.
  Proof.
    intro m. pose proof inj_b as B. rewrite <- (Qabs_pos (inject_Z b)) at 1 by lra. rewrite <- Qabs_Qmult.
    setoid_replace ((r - inject_Z m * P) * inject_Z b) with (inject_Z (a - m * b) * P).
    - rewrite Qabs_Qmult, (Qabs_pos P) by lra. reflexivity.
    - unfold Z.sub. rewrite inject_Z_plus, inject_Z_opp, inject_Z_mult. setoid_replace ((r - inject_Z m * P) * inject_Z b) with (r * inject_Z b - inject_Z m * P * inject_Z b) by ring. rewrite E. ring.
  Qed.
  Lemma scale_half : forall m, (Qabs (r - inject_Z m * P) < (1 # 2) * P <-> (2 * Z.abs (a - m * b) < b)%Z) /\ (Qabs (r - inject_Z m * P) == (1 # 2) * P <-> (2 * Z.abs (a - m * b) = b)%Z).
  Proof.
    intro m. pose proof inj_b as B. pose proof (scale_abs m) as A. set (x := Qabs (r - inject_Z m * P)) in *. set (k := Z.abs (a - m * b)) in *. clearbody x k.
    assert (L : x < (1 # 2) * P <-> (2 * k < b)%Z).
    { rewrite inj_lt, inject_Z_mult. split; intro H.
      - apply (Qmult_lt_r _ _ _ HP). apply (Qmult_lt_r _ _ _ B) in H. rewrite A in H. change (inject_Z 2) with 2. lra.
      - apply (Qmult_lt_r _ _ _ B). rewrite A. apply (Qmult_lt_r _ _ _ HP) in H. change (inject_Z 2) with 2 in H. lra. }
    split; [exact L|]. split; intro H.
    - apply inject_Z_injective. rewrite inject_Z_mult. apply (Qmult_inj_r _ _ P); [lra|]. change (inject_Z 2) with 2. rewrite H in A. lra.
    - apply (Qmult_inj_r _ _ (inject_Z b)); [lra|]. rewrite A. rewrite <- H, inject_Z_mult. change (inject_Z 2) with 2. field.
  Qed.
End Scale.

(** ** the nearest whole number *)
Lemma half_even_spec : forall a b, (0 < b)%Z -> let m := half_even a b in (2 * Z.abs (a - m * b) < b)%Z \/ (2 * Z.abs (a - m * b) = b)%Z /\ Z.Even m.
Proof.
  intros a b Hb m. pose proof (Z.div_mod a b ltac:(lia)) as D. pose proof (Z.mod_pos_bound a b Hb) as R. unfold m, half_even.
  remember (a / b)%Z as q. remember (a mod b)%Z as x. destruct (Z.compare_spec (2 * x) b) as [C|C|C].
  - right. destruct (Z.even q) eqn:V; [split; [nia|apply Z.even_spec; exact V]|]. split; [nia|]. apply Z.even_spec. rewrite Z.even_add, V. reflexivity.
  - left. nia.
  - left. nia.
Qed.
Lemma half_even_unique : forall a b m m', (0 < b)%Z -> ((2 * Z.abs (a - m * b) < b)%Z \/ (2 * Z.abs (a - m * b) = b)%Z /\ Z.Even m) ->
  ((2 * Z.abs (a - m' * b) < b)%Z \/ (2 * Z.abs (a - m' * b) = b)%Z /\ Z.Even m') -> m = m'.
Proof.
  intros a b m m' Hb H H'. destruct (Z.lt_trichotomy m m') as [L|[L|L]]; [exfalso|exact L|exfalso].
  - assert (N : m' = (m + 1)%Z) by nia. destruct H as [H|[H V]]; [nia|]. destruct H' as [H'|[H' V']]; [nia|]. destruct V, V'. lia.
  - assert (N : m = (m' + 1)%Z) by nia. destruct H as [H|[H V]]; [nia|]. destruct H' as [H'|[H' V']]; [nia|]. destruct V, V'. lia.
Qed.

(** ** the exponent *)
Lemma binade_spec : forall n d, (0 <= n)%Z -> (0 < d)%Z -> let e := binade n d in let r := inject_Z n / inject_Z d in
  (-1074 <= e)%Z /\ r < 2 ^ 53 * 2 ^ e /\ (e = (-1074)%Z \/ 2 ^ 52 * 2 ^ e <= r).
Proof.
  intros n d Hn Hd e r. unfold e, binade. destruct (Z.eqb_spec n 0) as [->|N].
  - split; [lia|]. split; [|left; reflexivity]. unfold r. setoid_replace (inject_Z 0 / inject_Z d) with 0 by (unfold Qdiv; ring). pose proof (two_pos (-1074)). lra.
  - clear e. set (e := (Z.log2 n - Z.log2 d - 52)%Z). destruct (scaled n d e) as [a b] eqn:S. destruct (scaled_spec _ _ _ _ _ Hd S) as [Hb E]. fold r in E.
    pose proof (scale_lt r (2 ^ e) a b (two_pos e) Hb E) as SL. pose proof (scale_le r (2 ^ e) a b (two_pos e) Hb E) as SG.
    assert (Dp : 0 < inject_Z d) by (change 0 with (inject_Z 0); rewrite <- Zlt_Qlt; exact Hd).
    assert (Rd : r * inject_Z d == inject_Z n) by (unfold r; field; lra).
    pose proof (Z.log2_spec n ltac:(lia)) as [N1 N2]. pose proof (Z.log2_spec d Hd) as [D1 D2]. pose proof (Z.log2_nonneg n) as Ln. pose proof (Z.log2_nonneg d) as Ld.
    rewrite Zle_Qle, inj_pow in N1 by lia. rewrite Zlt_Qlt, inj_pow in N2 by lia. rewrite Zle_Qle, inj_pow in D1 by lia. rewrite Zlt_Qlt, inj_pow in D2 by lia.
    assert (U : r < 2 ^ 53 * 2 ^ e).
    { apply (Qmult_lt_r _ _ _ Dp). rewrite Rd. eapply Qlt_le_trans; [exact N2|]. eapply Qle_trans; [|apply Qmult_le_l; [|exact D1]; apply Qmult_lt_0_compat; apply two_pos].
      rewrite <- !Qpower_plus by discriminate. apply two_mono. unfold e. lia. }
    assert (V : 2 ^ 51 * 2 ^ e < r).
    { apply (Qmult_lt_r _ _ _ Dp). rewrite Rd. eapply Qlt_le_trans; [|exact N1]. eapply Qlt_le_trans; [apply Qmult_lt_l; [|exact D2]; apply Qmult_lt_0_compat; apply two_pos|].
      rewrite <- !Qpower_plus by discriminate. apply two_mono. unfold e. lia. }
    set (f := if (a <? 2 ^ 52 * b)%Z then (e - 1)%Z else e).
    assert (F : r < 2 ^ 53 * 2 ^ f /\ 2 ^ 52 * 2 ^ f <= r).
    { unfold f. destruct (Z.ltb_spec a (2 ^ 52 * b)) as [L|L].
      - apply SL in L. pose proof (two_step (e - 1)) as T. replace (e - 1 + 1)%Z with e in T by lia. rewrite T in L, V. change (inject_Z (2 ^ 52)) with (2 ^ 52) in L.
        change (2 ^ 53) with (2 * 2 ^ 52). change (2 ^ 52) with (2 * 2 ^ 51) in L |- *. lra.
      - apply SG in L. change (inject_Z (2 ^ 52)) with (2 ^ 52) in L. split; [exact U|exact L]. }
    clearbody f. destruct F as [F1 F2]. split; [lia|]. destruct (Z.max_spec (-1074) f) as [[M ->]|[M ->]].
    + split; [exact F1|right; exact F2].
    + split; [|left; reflexivity]. eapply Qlt_le_trans; [exact F1|]. apply Qmult_le_l; [apply two_pos|]. apply two_mono. exact M.
Qed.
Lemma binade_unique : forall r e e', ((-1074 <= e)%Z /\ r < 2 ^ 53 * 2 ^ e /\ (e = (-1074)%Z \/ 2 ^ 52 * 2 ^ e <= r)) ->
  ((-1074 <= e')%Z /\ r < 2 ^ 53 * 2 ^ e' /\ (e' = (-1074)%Z \/ 2 ^ 52 * 2 ^ e' <= r)) -> e = e'.
Proof.
  assert (A : forall r e e', r < 2 ^ 53 * 2 ^ e -> (-1074 <= e)%Z -> (e' = (-1074)%Z \/ 2 ^ 52 * 2 ^ e' <= r) -> (e < e')%Z -> False).
  { intros r e e' H L [->|H'] C; [lia|]. assert (T : 2 ^ (e + 1) <= 2 ^ e') by (apply two_mono; lia). rewrite two_step in T.
    change (2 ^ 53) with (2 * 2 ^ 52) in H. pose proof (two_pos 52). assert (X : 2 ^ 52 * (2 * 2 ^ e) <= 2 ^ 52 * 2 ^ e') by (apply Qmult_le_l; assumption). lra. }
  intros r e e' (H1 & H2 & H3) (H1' & H2' & H3'). destruct (Z.lt_trichotomy e e') as [L|[L|L]]; [exfalso; eauto|exact L|exfalso; eauto].
Qed.

(** ** reading *)
Lemma value_at : forall m e, (m * 2 ^ Z.max 0 e # Z.to_pos (2 ^ Z.max 0 (- e))) == inject_Z m * 2 ^ e.
Proof.
  intros m e. rewrite Qmake_Qdiv. rewrite Z2Pos.id by apply pow_pos. rewrite inject_Z_mult, !inj_pow by lia.
  assert (E : 2 ^ Z.max 0 e == 2 ^ Z.max 0 (- e) * 2 ^ e).
  { rewrite <- Qpower_plus by discriminate. replace (Z.max 0 (- e) + e)%Z with (Z.max 0 e) by lia. reflexivity. }
  rewrite E. pose proof (two_pos (Z.max 0 (- e))). field. lra.
Qed.
Lemma nearest_iff : forall n d q, (0 <= n)%Z -> (0 < d)%Z -> (nearest n d = Some q <-> rounds (inject_Z n / inject_Z d) q).
Proof.
  intros n d q Hn Hd. set (r := inject_Z n / inject_Z d). pose proof (binade_spec n d Hn Hd) as B. fold r in B. cbv zeta in B. unfold nearest. cbv zeta.
  destruct (scaled n d (binade n d)) as [a b] eqn:S. destruct (scaled_spec _ _ _ _ _ Hd S) as [Hb E]. fold r in E. set (e := binade n d) in *. clearbody e.
  pose proof (scale_half r (2 ^ e) a b (two_pos e) Hb E) as SH. pose proof (half_even_spec a b Hb) as M. cbv zeta in M. set (m := half_even a b) in *. clearbody m.
  assert (G : (2 ^ 1024 <= m * 2 ^ Z.max 0 e)%Z <-> 2 ^ 1024 <= inject_Z m * 2 ^ e).
  { destruct (Z.le_gt_cases 0 e) as [L|L].
    - rewrite Z.max_r by lia. rewrite Zle_Qle, inject_Z_mult, !inj_pow by lia. reflexivity.
    - rewrite Z.max_l by lia. rewrite Z.pow_0_r, Z.mul_1_r.
      assert (X : (m <= 2 ^ 53)%Z). 
      { destruct B as (_ & B & _). apply (scale_lt r (2 ^ e) a b (two_pos e) Hb E (2 ^ 53)) in B. nia. }
      assert (Y : 2 ^ e <= 1) by (change 1 with (2 ^ 0); apply two_mono; lia). pose proof (two_pos e) as Z.
      assert (W : inject_Z m <= 2 ^ 53) by (rewrite Zle_Qle, inj_pow in X by lia; exact X).
      assert (V : 2 ^ 53 < 2 ^ 1024) by (apply Qpower_lt_compat_l; [lia|reflexivity]).
      split; intro H; exfalso.
      + rewrite Zle_Qle, inj_pow in H by lia. lra.
      + assert (inject_Z m * 2 ^ e <= 2 ^ 53); [|lra]. apply (Qle_trans _ (2 ^ 53 * 2 ^ e)); [apply Qmult_le_compat_r; lra|].
        rewrite <- (Qmult_1_r (2 ^ 53)) at 2. apply Qmult_le_l; [apply two_pos|exact Y]. }
  split.
  - destruct (Z.leb_spec (2 ^ 1024) (m * 2 ^ Z.max 0 e)) as [L|L]; [discriminate|]. intro H. assert (Q : q = Qred (m * 2 ^ Z.max 0 e # Z.to_pos (2 ^ Z.max 0 (- e)))) by congruence. clear H.
    exists m, e. destruct B as (B1 & B2 & B3). split; [exact B1|]. split; [exact B2|]. split; [exact B3|]. split.
    { destruct (SH m) as [S1 S2]. destruct M as [M|[M V]]; [left; apply S1; exact M|right; split; [apply S2; exact M|exact V]]. }
    assert (QQ : q == inject_Z m * 2 ^ e) by (rewrite Q, Qred_correct; apply value_at). split; [exact QQ|].
    split; [rewrite Q; symmetry; apply Qred_complete; apply Qred_correct|]. rewrite QQ. apply Qnot_le_lt. intro X. apply G in X. lia.
  - intros (m' & e' & H1 & H2 & H3 & H4 & H5 & H6 & H7). assert (e' = e) by (eapply binade_unique; [repeat split; eassumption|exact B]). subst e'.
    assert (m' = m).
    { apply (half_even_unique a b); [exact Hb| |exact M]. destruct (SH m') as [S1 S2]. destruct H4 as [H4|[H4 V]]; [left; apply S1; exact H4|right; split; [apply S2; exact H4|exact V]]. }
    subst m'. destruct (Z.leb_spec (2 ^ 1024) (m * 2 ^ Z.max 0 e)) as [L|L]; [exfalso; apply G in L; lra|]. f_equal. rewrite H6. apply Qred_complete. rewrite H5. apply value_at.
Qed.
Lemma ten_fraction : forall n k, inject_Z (n * 10 ^ Z.max 0 k) / inject_Z (10 ^ Z.max 0 (- k)) == inject_Z n * 10 ^ k.
Proof.
  intros n k. rewrite inject_Z_mult. rewrite !(Zpower_Qpower 10) by lia. change (inject_Z 10) with 10.
  assert (E : 10 ^ Z.max 0 k == 10 ^ Z.max 0 (- k) * 10 ^ k).
  { rewrite <- Qpower_plus by discriminate. replace (Z.max 0 (- k) + k)%Z with (Z.max 0 k) by lia. reflexivity. }
  rewrite E. assert (0 < 10 ^ Z.max 0 (- k)) by (apply Qpower_0_lt; reflexivity). field. lra.
Qed.
Lemma rounds_compat : forall r r' q, r == r' -> rounds r q -> rounds r' q.
Proof.
  intros r r' q E (m & e & H1 & H2 & H3 & H4 & H5 & H6 & H7). exists m, e. split; [exact H1|]. rewrite E in H2. split; [exact H2|].
  split; [destruct H3 as [H3|H3]; [left; exact H3|right; rewrite <- E; exact H3]|]. rewrite <- E. repeat split; assumption.
Qed.
Lemma float_iff : forall n k q, (0 <= n)%Z -> (float_of n k = Some q <-> rounds (inject_Z n * 10 ^ k) q).
Proof.
  intros n k q Hn. unfold float_of. rewrite nearest_iff.
  - split; apply rounds_compat; [|symmetry]; apply ten_fraction.
  - assert (0 < 10 ^ Z.max 0 k)%Z by (apply Z.pow_pos_nonneg; lia). nia.
  - apply Z.pow_pos_nonneg; lia.
Qed.

(** ** what it is rounded to is a binary64 number, and none is nearer *)
Lemma rounds_binary : forall r q, 0 <= r -> rounds r q -> binary64 q.
Proof.
  intros r q R (m & e & H1 & H2 & H3 & H4 & H5 & H6 & H7). pose proof (two_pos e) as P.
  assert (A : Qabs (r - inject_Z m * 2 ^ e) <= (1 # 2) * 2 ^ e) by (destruct H4 as [H4|[H4 _]]; lra). apply Qabs_Qle_condition in A. destruct A as [A1 A2].
  assert (M0 : (0 <= m)%Z).
  { apply Z.nlt_ge. intro X. assert (Y : inject_Z m <= -1) by (change (-1) with (inject_Z (-1)); rewrite <- Zle_Qle; lia). assert (inject_Z m * 2 ^ e <= -1 * 2 ^ e) by (apply Qmult_le_compat_r; lra). lra. }
  assert (M1 : (m <= 2 ^ 53)%Z).
  { apply Z.nlt_ge. intro X. assert (Y : inject_Z (2 ^ 53 + 1) <= inject_Z m) by (rewrite <- Zle_Qle; lia). assert (W : inject_Z (2 ^ 53 + 1) * 2 ^ e <= inject_Z m * 2 ^ e) by (apply Qmult_le_compat_r; lra).
    change (inject_Z (2 ^ 53 + 1)) with (2 ^ 53 + 1) in W. lra. }
  assert (B : forall m' e', (m' <> 0)%Z -> (0 <= m')%Z -> q == inject_Z m' * 2 ^ e' -> (2 ^ 52 <= m')%Z -> (e' <= 971)%Z).
  { intros m' e' N0 N1 Q N2. apply Z.nlt_ge. intro X. rewrite Q in H7. assert (Y : 2 ^ 52 <= inject_Z m') by (rewrite Zle_Qle, inj_pow in N2 by lia; exact N2).
    assert (W : 2 ^ 972 <= 2 ^ e') by (apply two_mono; lia). pose proof (two_pos 52) as P1. pose proof (two_pos e') as P2.
    assert (V : 2 ^ 52 * 2 ^ 972 <= inject_Z m' * 2 ^ e') by (apply (Qle_trans _ (2 ^ 52 * 2 ^ e')); [apply Qmult_le_l; assumption|apply Qmult_le_compat_r; lra]).
    rewrite <- Qpower_plus in V by discriminate. change (52 + 972)%Z with 1024%Z in V. lra. }
  destruct (Z.eq_dec m (2 ^ 53)) as [->|N].
  - exists (2 ^ 52)%Z, (e + 1)%Z. assert (Q : q == inject_Z (2 ^ 52) * 2 ^ (e + 1)) by (rewrite two_step, H5; change (inject_Z (2 ^ 53)) with (2 * inject_Z (2 ^ 52)); ring).
    split; [lia|]. split; [|exact Q]. split; [lia|]. apply (B (2 ^ 52)%Z); [lia|lia|exact Q|lia].
  - destruct (Z.le_gt_cases (2 ^ 52) m) as [L|L].
    + exists m, e. split; [lia|]. split; [|exact H5]. split; [exact H1|]. apply (B m); [lia|lia|exact H5|exact L].
    + destruct H3 as [->|H3]; [exists m, (-1074)%Z; split; [lia|]; split; [lia|exact H5]|]. exfalso.
      assert (Y : inject_Z m <= inject_Z (2 ^ 52 - 1)) by (rewrite <- Zle_Qle; lia). assert (W : inject_Z m * 2 ^ e <= inject_Z (2 ^ 52 - 1) * 2 ^ e) by (apply Qmult_le_compat_r; lra).
      change (inject_Z (2 ^ 52 - 1)) with (2 ^ 52 - 1) in W. lra.
Qed.
Lemma multiple_near : forall r m e, (Qabs (r - inject_Z m * 2 ^ e) <= (1 # 2) * 2 ^ e) -> forall k, Qabs (r - inject_Z m * 2 ^ e) <= Qabs (r - inject_Z k * 2 ^ e).
Proof.
  intros r m e H k. pose proof (two_pos e) as P. destruct (Z.eq_dec k m) as [->|N]; [apply Qle_refl|]. apply (Qle_trans _ _ _ H).
  apply Qabs_Qle_condition in H. destruct H as [H1 H2]. destruct (Z.lt_trichotomy k m) as [L|[L|L]]; [|contradiction|].
  - assert (Y : inject_Z k <= inject_Z m - 1) by (change 1 with (inject_Z 1); unfold Qminus; rewrite <- inject_Z_opp, <- inject_Z_plus, <- Zle_Qle; lia).
    assert (W : inject_Z k * 2 ^ e <= (inject_Z m - 1) * 2 ^ e) by (apply Qmult_le_compat_r; lra). eapply Qle_trans; [|apply Qle_Qabs]. lra.
  - assert (Y : inject_Z m + 1 <= inject_Z k) by (change 1 with (inject_Z 1); rewrite <- inject_Z_plus, <- Zle_Qle; lia).
    assert (W : (inject_Z m + 1) * 2 ^ e <= inject_Z k * 2 ^ e) by (apply Qmult_le_compat_r; lra). rewrite Qabs_Qminus. eapply Qle_trans; [|apply Qle_Qabs]. lra.
Qed.
Lemma rounds_nearest : forall r q, rounds r q -> forall q', binary64 q' -> Qabs (r - q) <= Qabs (r - q').
Proof.
  intros r q (m & e & H1 & H2 & H3 & H4 & H5 & H6 & H7) q' (m' & e' & M & X & Q'). pose proof (two_pos e) as P. rewrite H5, Q'.
  assert (A : Qabs (r - inject_Z m * 2 ^ e) <= (1 # 2) * 2 ^ e) by (destruct H4 as [H4|[H4 _]]; lra). pose proof (multiple_near r m e A) as N.
  destruct (Z.le_gt_cases e e') as [L|L].
  - specialize (N (m' * 2 ^ (e' - e))%Z). rewrite inject_Z_mult, inj_pow in N by lia. rewrite <- Qmult_assoc, <- Qpower_plus in N by discriminate. replace (e' - e + e)%Z with e' in N by lia. exact N.
  - destruct H3 as [->|H3]; [lia|]. specialize (N (2 ^ 52)%Z). apply (Qle_trans _ _ _ N). change (inject_Z (2 ^ 52)) with (2 ^ 52). rewrite Qabs_pos by lra.
    eapply Qle_trans; [|apply Qle_Qabs].
    assert (W : inject_Z m' * 2 ^ e' <= 2 ^ 52 * 2 ^ e); [|lra]. apply (Qle_trans _ (2 ^ 53 * 2 ^ e')).
    + apply Qmult_le_compat_r; [|pose proof (two_pos e'); lra]. change (2 ^ 53) with (inject_Z (2 ^ 53)). rewrite <- Zle_Qle. lia.
    + change (2 ^ 53) with (2 * 2 ^ 52). assert (T : 2 ^ (e' + 1) <= 2 ^ e) by (apply two_mono; lia). rewrite two_step in T. pose proof (two_pos 52) as P2.
      assert (2 ^ 52 * (2 * 2 ^ e') <= 2 ^ 52 * 2 ^ e) by (apply Qmult_le_l; assumption). lra.
Qed.

(** ** what can be read *)
Lemma rounds_limit : forall r, 0 <= r -> ((exists q, rounds r q) <-> r < 2 ^ 1024 - 2 ^ 970).
Proof.
  intros r R.
  assert (E971 : forall e, (e = (-1074)%Z \/ 2 ^ 52 * 2 ^ e <= r) -> r < 2 ^ 1024 -> (e <= 971)%Z).
  { intros e [->|H] L; [lia|]. apply Z.nlt_ge. intro X. assert (W : 2 ^ 972 <= 2 ^ e) by (apply two_mono; lia). pose proof (two_pos 52) as P.
    assert (V : 2 ^ 52 * 2 ^ 972 <= 2 ^ 52 * 2 ^ e) by (apply Qmult_le_l; assumption). rewrite <- Qpower_plus in V by discriminate. change (52 + 972)%Z with 1024%Z in V. lra. }
  assert (H971 : 2 ^ 971 == 2 * 2 ^ 970) by exact (two_step 970). assert (P970 := two_pos 970).
  assert (T1024 : 2 ^ 1024 == 2 ^ 53 * 2 ^ 971) by (rewrite <- Qpower_plus by discriminate; reflexivity).
  split.
  - intros [q (m & e & H1 & H2 & H3 & H4 & H5 & H6 & H7)]. pose proof (two_pos e) as P.
    assert (A : Qabs (r - inject_Z m * 2 ^ e) <= (1 # 2) * 2 ^ e) by (destruct H4 as [H4|[H4 _]]; lra). apply Qabs_Qle_condition in A. destruct A as [A1 A2].
    destruct (Z.le_gt_cases e 970) as [L|L].
    + assert (W : 2 ^ e <= 2 ^ 970) by (apply two_mono; lia). assert (V : 2 ^ 53 * 2 ^ e <= 2 ^ 53 * 2 ^ 970) by (apply Qmult_le_l; [apply two_pos|exact W]).
      rewrite T1024, H971. change (2 ^ 53) with 9007199254740992 in *. lra.
    + assert (Lt : r < 2 ^ 1024).
      { apply Qnot_le_lt. intro X. assert (W : 2 ^ 971 <= 2 ^ e) by (apply two_mono; lia). rewrite H5 in H7.
        assert (Y : 2 ^ 1024 <= inject_Z m * 2 ^ e); [|lra]. destruct (Z.eq_dec e 971) as [->|N].
        - rewrite T1024 in X |- *. apply Qmult_le_compat_r; [|lra]. change (2 ^ 53) with (inject_Z (2 ^ 53)) in *. rewrite <- Zle_Qle. apply Z.nlt_ge. intro C.
          assert (K : inject_Z m <= inject_Z (2 ^ 53) - 1) by (change (inject_Z (2 ^ 53) - 1) with (inject_Z (2 ^ 53 - 1)); rewrite <- Zle_Qle; lia).
          assert (K2 : inject_Z m * 2 ^ 971 <= (inject_Z (2 ^ 53) - 1) * 2 ^ 971) by (apply Qmult_le_compat_r; lra). lra.
        - exfalso. destruct H3 as [->|H3]; [lia|]. assert (W2 : 2 ^ 972 <= 2 ^ e) by (apply two_mono; lia). rewrite (two_step 971 : 2 ^ 972 == 2 * 2 ^ 971) in W2.
          assert (C : (m < 2 ^ 52)%Z).
          { apply Z.nle_gt. intro C. assert (C' : inject_Z (2 ^ 52) <= inject_Z m) by (rewrite <- Zle_Qle; exact C).
            assert (K : inject_Z (2 ^ 52) * (2 * 2 ^ 971) <= inject_Z m * 2 ^ e).
            { apply (Qle_trans _ (inject_Z (2 ^ 52) * 2 ^ e)); [apply Qmult_le_l; [reflexivity|exact W2]|apply Qmult_le_compat_r; lra]. }
            change (inject_Z (2 ^ 52)) with 4503599627370496 in K. rewrite T1024 in H7. change (2 ^ 53) with 9007199254740992 in H7. lra. }
          assert (K : inject_Z m <= inject_Z (2 ^ 52 - 1)) by (rewrite <- Zle_Qle; lia).
          assert (K2 : inject_Z m * 2 ^ e <= inject_Z (2 ^ 52 - 1) * 2 ^ e) by (apply Qmult_le_compat_r; lra). change (inject_Z (2 ^ 52 - 1)) with 4503599627370495 in K2. change (2 ^ 52) with 4503599627370496 in H3. lra. }
      assert (e = 971)%Z by (pose proof (E971 e H3 Lt); lia). subst e. clear L. rewrite H5, T1024 in H7. apply Qmult_lt_r in H7; [|exact P].
      change (2 ^ 53) with (inject_Z (2 ^ 53)) in H7. rewrite <- Zlt_Qlt in H7.
      apply Qnot_le_lt. intro C. rewrite T1024, H971 in C. rewrite H971 in *. change (2 ^ 53) with 9007199254740992 in C.
      assert (K : inject_Z m <= inject_Z (2 ^ 53 - 1)) by (rewrite <- Zle_Qle; lia). assert (K2 : inject_Z m * (2 * 2 ^ 970) <= inject_Z (2 ^ 53 - 1) * (2 * 2 ^ 970)) by (apply Qmult_le_compat_r; lra).
      change (inject_Z (2 ^ 53 - 1)) with 9007199254740991 in K2.
      destruct H4 as [H4|[H4 V]].
      * apply Qabs_Qlt_condition in H4. lra.
      * assert (M : (m = 2 ^ 53 - 1)%Z).
        { assert ((2 ^ 53 - 2 < m)%Z); [|lia]. apply Z.nle_gt. intro C2. assert (K3 : inject_Z m <= inject_Z (2 ^ 53 - 2)) by (rewrite <- Zle_Qle; exact C2).
          assert (K4 : inject_Z m * (2 * 2 ^ 970) <= inject_Z (2 ^ 53 - 2) * (2 * 2 ^ 970)) by (apply Qmult_le_compat_r; lra). change (inject_Z (2 ^ 53 - 2)) with 9007199254740990 in K4. lra. }
        subst m. destruct V as [k V]. lia.
  - intro L. destruct r as [n d]. assert (Hn : (0 <= n)%Z) by (unfold Qle in R; cbn in R; lia).
    assert (Er : inject_Z n / inject_Z (Zpos d) == n # d) by (rewrite (Qmake_Qdiv n d); reflexivity).
    destruct (nearest n (Zpos d)) as [q|] eqn:N.
    { exists q. apply (rounds_compat _ _ _ Er). apply nearest_iff; [exact Hn|reflexivity|exact N]. }
    exfalso. pose proof (binade_spec n (Zpos d) Hn eq_refl) as B. cbv zeta in B. unfold nearest in N. cbv zeta in N. destruct (scaled n (Zpos d) (binade n (Zpos d))) as [a b] eqn:S.
    destruct (scaled_spec _ _ _ _ _ (Pos2Z.is_pos d) S) as [Hb E]. set (e := binade n (Zpos d)) in *. clearbody e. rewrite Er in B, E. set (r := n # d) in *. clearbody r.
    pose proof (half_even_spec a b Hb) as M. cbv zeta in M. set (m := half_even a b) in *. clearbody m. destruct (scale_half r (2 ^ e) a b (two_pos e) Hb E m) as [S1 S2].
    destruct (Z.leb_spec (2 ^ 1024) (m * 2 ^ Z.max 0 e)) as [G|G]; [|discriminate]. destruct B as (B1 & B2 & B3). assert (e <= 971)%Z by (apply E971; [exact B3|lra]).
    assert (A : Qabs (r - inject_Z m * 2 ^ e) <= (1 # 2) * 2 ^ e) by (destruct M as [M|[M _]]; [apply S1 in M|apply S2 in M]; lra). apply Qabs_Qle_condition in A. destruct A as [A1 A2].
    assert (W : 2 ^ e <= 2 ^ 971) by (apply two_mono; assumption). assert (K : 2 ^ 1024 <= inject_Z m * 2 ^ e); [|lra].
    destruct (Z.le_gt_cases 0 e) as [Le|Le].
    + rewrite Z.max_r in G by lia. rewrite Zle_Qle, inject_Z_mult, !inj_pow in G by lia. exact G.
    + exfalso. rewrite Z.max_l, Z.pow_0_r, Z.mul_1_r in G by lia. apply (scale_lt r (2 ^ e) a b (two_pos e) Hb E (2 ^ 53)) in B2. assert (m <= 2 ^ 53)%Z by nia.
      assert ((2 ^ 53 < 2 ^ 1024)%Z) by (apply Z.pow_lt_mono_r; lia). lia.
Qed.
(** a binary64 number is read as itself *)
Lemma rounds_self : forall q, binary64 q -> rounds q (Qred q).
Proof.
  intros q (m & e & M & X & Q).
  assert (R : 0 <= q) by (rewrite Q; apply Qmult_le_0_compat; [change 0 with (inject_Z 0); rewrite <- Zle_Qle; lia|pose proof (two_pos e); lra]).
  assert (B : binary64 q) by (exists m, e; auto).
  assert (L : q < 2 ^ 1024 - 2 ^ 970).
  { rewrite Q. pose proof (two_pos e) as P. assert (K : inject_Z m <= inject_Z (2 ^ 53 - 1)) by (rewrite <- Zle_Qle; lia). assert (K2 : inject_Z m * 2 ^ e <= inject_Z (2 ^ 53 - 1) * 2 ^ e) by (apply Qmult_le_compat_r; lra).
    assert (W : 2 ^ e <= 2 ^ 971) by (apply two_mono; lia). assert (K3 : inject_Z (2 ^ 53 - 1) * 2 ^ e <= inject_Z (2 ^ 53 - 1) * 2 ^ 971) by (apply Qmult_le_l; [reflexivity|exact W]).
    assert (T : 2 ^ 1024 == 2 ^ 53 * 2 ^ 971) by (rewrite <- Qpower_plus by discriminate; reflexivity). assert (H971 : 2 ^ 971 == 2 * 2 ^ 970) by exact (two_step 970). pose proof (two_pos 970).
    rewrite T. rewrite H971 in *. change (2 ^ 53) with 9007199254740992. change (inject_Z (2 ^ 53 - 1)) with 9007199254740991 in *. lra. }
  apply (rounds_limit q R) in L. destruct L as [q' H]. pose proof (rounds_nearest _ _ H q B) as N. setoid_replace (q - q) with 0 in N by ring.
  assert (E : q' == q).
  { change (Qabs 0) with 0 in N. apply Qabs_Qle_condition in N. lra. }
  destruct H as (m' & e' & H1 & H2 & H3 & H4 & H5 & H6 & H7). exists m', e'. split; [exact H1|]. split; [exact H2|]. split; [exact H3|]. split; [exact H4|].
  split; [rewrite Qred_correct, <- E; exact H5|]. split; [symmetry; apply Qred_complete; apply Qred_correct|]. rewrite Qred_correct, <- E. exact H7.
Qed.
