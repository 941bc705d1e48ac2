(** The text that is written for a binary64 number has no more digits than it needs. *)
From Coq Require Import List NArith ZArith QArith_base Qabs Qpower Qreduction Bool String Lia Lqa ZifyBool ZifyN.
From Verif Require Import Base.Ustr Base.UstrLemmas Base.Percent Model.Value Model.Float Model.Json Spec.FloatSpec Spec.GrammarSpec Proofs.FloatLemmas Proofs.NumberLemmas Proofs.ReprLemmas Proofs.JsonLemmas.
Import ListNotations.
Open Scope list_scope.
Open Scope Z_scope.
Ltac Zify.zify_post_hook ::= idtac.

Lemma rounds_unique : forall r a b, (0 <= r)%Q -> rounds r a -> rounds r b -> a = b.
Proof.
  intros r a b P A B. assert (r == inject_Z (Qnum r) / inject_Z (Zpos (Qden r)))%Q as E by (destruct r as [n d]; apply Qmake_Qdiv).
  assert (0 <= Qnum r) as N by (unfold Qle in P; cbn [Qnum Qden] in P; lia).
  apply (rounds_compat _ _ _ E), nearest_iff in A; [|exact N|apply Pos2Z.is_pos].
  apply (rounds_compat _ _ _ E), nearest_iff in B; [|exact N|apply Pos2Z.is_pos]. congruence.
Qed.
(** what is rounded to a number is an interval *)
Lemma rounds_between : forall r1 r2 r3 q, (0 <= r1)%Q -> (r1 <= r2)%Q -> (r2 <= r3)%Q -> rounds r1 q -> rounds r3 q -> rounds r2 q.
Proof.
  intros r1 r2 r3 q P L1 L2 R1 R3.
  assert (exists q2, rounds r2 q2) as [q2 R2].
  { apply rounds_limit; [lra|]. apply Qle_lt_trans with r3; [exact L2|]. apply rounds_limit; [lra|eauto]. }
  pose proof (rounds_binary _ _ P R1) as B. assert (binary64 q2) as B2 by (apply (rounds_binary r2); [lra|exact R2]).
  pose proof (rounds_nearest _ _ R1 q2 B2) as N1. pose proof (rounds_nearest _ _ R2 q B) as N2. pose proof (rounds_nearest _ _ R3 q2 B2) as N3.
  destruct (Q_dec q2 q) as [[C|C]|C].
  - assert (r2 == r1)%Q as E.
    { revert N1 N2. repeat (apply Qabs_case; intro); intros; lra. }
    apply (rounds_compat r1); [symmetry; exact E|exact R1].
  - assert (r2 == r3)%Q as E.
    { revert N3 N2. repeat (apply Qabs_case; intro); intros; lra. }
    apply (rounds_compat r3); [symmetry; exact E|exact R3].
  - destruct R1 as (m & e & _ & _ & _ & _ & _ & Q1 & _). assert (q = q2) as ->; [|exact R2].
    destruct R2 as (m2 & e2 & _ & _ & _ & _ & _ & Q2 & _). rewrite Q1, Q2. apply Qred_complete. symmetry. exact C.
Qed.

Lemma ten_le : forall a b, a <= b -> (10 ^ a <= 10 ^ b)%Q.
Proof.
  intros a b L. replace b with (a + (b - a)) by lia. rewrite Qpower_plus by discriminate. rewrite <- (ten_inj (b - a)) by lia.
  assert (1 <= inject_Z (10 ^ (b - a)))%Q as H. { change 1%Q with (inject_Z 1). rewrite <- Zle_Qle. assert (0 < 10 ^ (b - a)) by (apply Z.pow_pos_nonneg; lia). lia. }
  rewrite <- (Qmult_1_r (10 ^ a)) at 1. apply Qmult_le_l; [apply ten_pos|exact H].
Qed.
Lemma ten_multiple : forall n x k, x <= k -> (inject_Z n * 10 ^ k == inject_Z (n * 10 ^ (k - x)) * 10 ^ x)%Q.
Proof.
  intros n x k L. rewrite inject_Z_mult, ten_inj by lia. rewrite <- Qmult_assoc, <- Qpower_plus by discriminate. replace (k - x + x) with k by lia. reflexivity.
Qed.
Lemma floor_spec : forall q x, (0 <= q)%Q -> let f := Qnum q * 10 ^ Z.max 0 (- x) / (Zpos (Qden q) * 10 ^ Z.max 0 x) in
  0 <= f /\ (inject_Z f * 10 ^ x <= q)%Q /\ (q < inject_Z (f + 1) * 10 ^ x)%Q.
Proof.
  intros [n d] x P f. unfold f. cbn [Qnum Qden]. set (A := 10 ^ Z.max 0 (- x)). set (B := 10 ^ Z.max 0 x).
  assert (0 < A) as PA by (apply Z.pow_pos_nonneg; lia). assert (0 < B) as PB by (apply Z.pow_pos_nonneg; lia).
  assert (0 <= n) as Pn by (unfold Qle in P; cbn [Qnum Qden] in P; lia).
  assert (10 ^ x == inject_Z B / inject_Z A)%Q as E.
  { rewrite <- (Qmult_1_l (10 ^ x)), <- (ten_fraction 1 x). fold A. rewrite Z.mul_1_l. reflexivity. }
  assert (0 < Zpos d * B) as PD by lia.
  pose proof (Z.mul_div_le (n * A) (Zpos d * B) PD) as L1. pose proof (Z.mul_succ_div_gt (n * A) (Zpos d * B) PD) as L2.
  pose proof (Z.div_pos (n * A) (Zpos d * B) ltac:(lia) PD) as L0. set (g := n * A / (Zpos d * B)) in *.
  assert (forall z, inject_Z z * 10 ^ x == z * B # Z.to_pos A)%Q as F.
  { intro z. rewrite E. unfold Qdiv. rewrite Qmult_assoc, <- inject_Z_mult. destruct A as [|a|a]; try lia. cbn [Z.to_pos].
    unfold Qeq, Qmult, Qinv, inject_Z. cbn [Qnum Qden]. lia. }
  rewrite !F. unfold Qle, Qlt. cbn [Qnum Qden]. rewrite Z2Pos.id by exact PA. split; [exact L0|]. split; nia.
Qed.
Lemma around_cases : forall n d x h h', around n d x = (h, h') -> 0 <= n -> 0 < d ->
  let f := n * 10 ^ Z.max 0 (- x) / (d * 10 ^ Z.max 0 x) in (h = f /\ h' = f + 1) \/ (h = f + 1 /\ h' = f).
Proof.
  intros n d x h h' H N D f. unfold around in H. cbv zeta in H. injection H as <- <-. unfold f.
  set (a := n * 10 ^ Z.max 0 (- x)). set (b := d * 10 ^ Z.max 0 x).
  assert (0 <= a) by (apply Z.mul_nonneg_nonneg; [exact N|apply Z.pow_nonneg; lia]).
  assert (0 < b) by (apply Z.mul_pos_pos; [exact D|apply Z.pow_pos_nonneg; lia]).
  pose proof (half_even_pos a b ltac:(assumption) ltac:(assumption)). destruct (half_even a b =? a / b) eqn:E; lia.
Qed.
Lemma shortest_first : forall more p q k h x, shortest more p q k = Some (h, x) -> exists p0, p <= p0 /\ x = k - p0 /\
  (exists a b, around (Qnum q) (Zpos (Qden q)) (k - p0) = (a, b) /\ (h = a \/ h = b)) /\
  forall p1, p <= p1 < p0 -> forall a b, around (Qnum q) (Zpos (Qden q)) (k - p1) = (a, b) -> reads_back q a (k - p1) = false /\ reads_back q b (k - p1) = false.
Proof.
  induction more as [|more IH]; intros p q k h x H; [discriminate|]. cbn [shortest] in H.
  destruct (around (Qnum q) (Zpos (Qden q)) (k - p)) as [a b] eqn:A.
  destruct (reads_back q a (k - p)) eqn:R1; [injection H as <- <-; exists p; split; [lia|]; split; [reflexivity|]; split; [exists a, b; auto|intros; lia]|].
  destruct (reads_back q b (k - p)) eqn:R2; [injection H as <- <-; exists p; split; [lia|]; split; [reflexivity|]; split; [exists a, b; auto|intros; lia]|].
  destruct (IH _ _ _ _ _ H) as (p0 & P & X & C & F). exists p0. split; [lia|]. split; [exact X|]. split; [exact C|].
  intros p1 P1 a1 b1 A1. destruct (Z.eq_dec p1 p) as [->|N]; [|apply F; [lia|exact A1]]. rewrite A in A1. injection A1 as <- <-. auto.
Qed.
Lemma fewer_digits : forall q p n k' , (0 < q)%Q -> binary64 q -> 1 <= p -> 0 <= n < 10 ^ p -> rounds (inject_Z n * 10 ^ k') (Qred q) ->
  let k := magnitude (Qnum q) (Zpos (Qden q)) in exists a b, around (Qnum q) (Zpos (Qden q)) (k - p) = (a, b) /\
  (reads_back q a (k - p) = true \/ reads_back q b (k - p) = true).
Proof.
  intros q p n k' P B Hp Hn R k. assert (0 < Qnum q) as Pn by (unfold Qlt in P; cbn [Qnum Qden] in P; lia).
  destruct (magnitude_bounds q Pn) as [K1 K2]. fold k in K1, K2. set (x := k - p).
  destruct (around (Qnum q) (Zpos (Qden q)) x) as [a b] eqn:A. exists a, b. split; [reflexivity|].
  pose proof (floor_spec q x (Qlt_le_weak _ _ P)) as F. pose proof (around_cases _ _ _ _ _ A ltac:(lia) (Pos2Z.is_pos _)) as C. cbv zeta in F, C.
  set (f := Qnum q * 10 ^ Z.max 0 (- x) / (Zpos (Qden q) * 10 ^ Z.max 0 x)) in *. destruct F as (F0 & F1 & F2).
  pose proof (rounds_self q B) as Rq. set (r := (inject_Z n * 10 ^ k')%Q) in *.
  assert (0 <= r)%Q as Pr by (apply Qmult_le_0_compat; [change 0%Q with (inject_Z 0); rewrite <- Zle_Qle; lia|apply Qlt_le_weak, ten_pos]).
  assert (rounds (inject_Z f * 10 ^ x) (Qred q) \/ rounds (inject_Z (f + 1) * 10 ^ x) (Qred q)) as G.
  { pose proof (ten_pos x) as PU.
    assert (forall y z, (inject_Z y * 10 ^ x <= inject_Z z * 10 ^ x)%Q <-> y <= z) as M.
    { intros y z. split; intro H; [rewrite Zle_Qle; apply (proj1 (Qmult_le_r _ _ _ PU)); exact H|apply (proj2 (Qmult_le_r _ _ _ PU)); rewrite <- Zle_Qle; exact H]. }
    destruct (Z.le_gt_cases x k') as [X|X].
    - assert (r == inject_Z (n * 10 ^ (k' - x)) * 10 ^ x)%Q as E by (apply ten_multiple; exact X). set (w := n * 10 ^ (k' - x)) in *.
      destruct (Z.le_gt_cases w f) as [W|W].
      + left. apply M in W. rewrite <- E in W. apply (rounds_between r _ q); assumption.
      + right. assert (f + 1 <= w) as W1 by lia. apply M in W1. rewrite <- E in W1. apply (rounds_between q _ r); try assumption; lra.
    - assert (r < inject_Z (10 ^ (p - 1)) * 10 ^ x)%Q as L.
      { assert (inject_Z (10 ^ (p - 1)) * 10 ^ x == inject_Z (10 ^ p) * 10 ^ (x - 1))%Q as ->.
        { rewrite !ten_inj by lia. rewrite <- !Qpower_plus by discriminate. replace (p - 1 + x) with (p + (x - 1)) by lia. reflexivity. }
        apply Qlt_le_trans with (inject_Z (10 ^ p) * 10 ^ k')%Q.
        - unfold r. apply (proj2 (Qmult_lt_r _ _ _ (ten_pos k'))). apply (proj1 (inj_lt _ _)). lia.
        - apply Qmult_le_l; [|apply ten_le; lia]. apply (proj1 (inj_lt 0 _)). apply Z.pow_pos_nonneg; lia. }
      assert (inject_Z (10 ^ (p - 1)) * 10 ^ x <= q)%Q as L2.
      { rewrite ten_inj by lia. rewrite <- Qpower_plus by discriminate. unfold x. replace (p - 1 + (k - p)) with (k - 1) by lia. exact K1. }
      assert (10 ^ (p - 1) <= f) as L3.
      { cut (10 ^ (p - 1) < f + 1); [lia|]. apply Z.nle_gt. intro H. apply M in H. lra. }
      apply M in L3. left. apply (rounds_between r _ q); try assumption. lra. }
  destruct C as [[-> ->]|[-> ->]]; rewrite !reads_back_rounds by lia; tauto.
Qed.
(** a number that can be written with [p] digits is *)
Lemma repr_pos_short : forall q t, (0 <= q)%Q -> binary64 q -> repr_pos q = Some t -> exists n k, scientific t n k /\
  forall p n' k', 0 <= n' < 10 ^ p -> read_as n' k' (Qred q) -> exists m j, 0 <= m < 10 ^ p /\ (inject_Z n * 10 ^ k == inject_Z m * 10 ^ j)%Q.
Proof.
  intros q t P B H. unfold repr_pos in H. destruct (Qnum q =? 0) eqn:Z.
  - injection H as <-. exists 0, (-1). split.
    + exists [48%N], 0%N, [46%N; 48%N], [48%N], [], 0. split; [reflexivity|]. split; [left; auto|].
      split; [constructor; split; [discriminate|intros x [<-|[]]; lia]|]. split; [constructor|]. split; [discriminate|]. split; reflexivity.
    + intros p n' k' N _. exists 0, 0. split; [lia|]. reflexivity.
  - assert (0 < Qnum q) as Pn by (unfold Qle in P; cbn [Qnum Qden] in P; lia).
    assert (0 < q)%Q as Pq by (unfold Qlt; cbn [Qnum Qden]; lia).
    destruct (magnitude_bounds q Pn) as [K1 K2]. set (k := magnitude (Qnum q) (Zpos (Qden q))) in *.
    destruct (shortest 17 1 q k) as [[h x]|] eqn:S1; [|discriminate]. cbv zeta in H.
    destruct (shortest_reads _ _ _ _ _ _ (Z.lt_le_incl _ _ Pn) S1) as [Hh R]. apply reads_back_rounds in R; [|exact Hh].
    destruct (shortest_first _ _ _ _ _ _ S1) as (p0 & P0 & X & (a & b & A & Hab) & F).
    assert (0 < h) as Hp.
    { cut (h <> 0); [lia|]. intros ->. assert (rounds (inject_Z 0 * 10 ^ x) (Qred 0)) as R0 by (apply rounds_zero; reflexivity).
      apply float_iff in R; [|lia]. apply float_iff in R0; [|lia]. rewrite R in R0. injection R0 as R0.
      assert (q == 0)%Q as E by (rewrite <- (Qred_correct q), R0; reflexivity). unfold Qeq in E. cbn [Qnum Qden] in E. lia. }
    destruct (stripped h Hp) as [N (j & J & V & L)]. set (t0 := dec_N (Z.to_N h)) in *.
    destruct (pointed_scientific (trim0 t0) (Z.of_nat (List.length t0) + x) N) as (n & k1 & S2 & j1 & J1 & Vn & Vk).
    assert (t = pointed (trim0 t0) (Z.of_nat (List.length t0) + x)) as -> by congruence. exists n, k1. split; [exact S2|].
    assert (inject_Z n * 10 ^ k1 == inject_Z h * 10 ^ x)%Q as Val.
    { assert (k1 = (x + j) - j1) as -> by lia. rewrite Vn, ten_power by exact J1. rewrite V.
      rewrite <- (ten_power (Z.of_N (decimal (trim0 t0))) j (x + j)) by exact J. replace (x + j - j) with x by lia. reflexivity. }
    intros p n' k' Hn Rn. assert (1 <= p) as Hp1.
    { destruct (Z.le_gt_cases 1 p) as [G|G]; [exact G|exfalso]. assert (n' = 0) as ->.
      { destruct (Z.eq_dec p 0) as [->|]; [cbn in Hn; lia|]. rewrite Z.pow_neg_r in Hn by lia. lia. }
      assert (rounds (inject_Z 0 * 10 ^ k') (Qred 0)) as R0 by (apply rounds_zero; reflexivity). unfold read_as in Rn.
      apply float_iff in Rn; [|lia]. apply float_iff in R0; [|lia]. rewrite Rn in R0. injection R0 as R0.
      assert (q == 0)%Q as E by (rewrite <- (Qred_correct q), R0; reflexivity). lra. }
    destruct (fewer_digits q p n' k' Pq B Hp1 Hn Rn) as (a' & b' & A' & RR). fold k in A', RR.
    assert (p0 <= p) as PP.
    { destruct (Z.le_gt_cases p0 p) as [G|G]; [exact G|exfalso]. destruct (F p ltac:(lia) _ _ A') as [F1 F2]. rewrite F1, F2 in RR. destruct RR; discriminate. }
    pose proof (floor_spec q (k - p0) P) as Fl. pose proof (around_cases _ _ _ _ _ A (Z.lt_le_incl _ _ Pn) (Pos2Z.is_pos _)) as C. cbv zeta in Fl, C.
    set (f := Qnum q * 10 ^ Z.max 0 (- (k - p0)) / (Zpos (Qden q) * 10 ^ Z.max 0 (k - p0))) in *. destruct Fl as (F0 & F1 & F2).
    assert (h <= f + 1) as Hf by lia.
    assert (f < 10 ^ p0) as Ff.
    { apply Z.nle_gt. intro H0. assert (inject_Z (10 ^ p0) * 10 ^ (k - p0) <= inject_Z f * 10 ^ (k - p0))%Q as H1 by (apply (proj2 (Qmult_le_r _ _ _ (ten_pos (k - p0)))); rewrite <- Zle_Qle; exact H0).
      rewrite ten_inj in H1 by lia. rewrite <- Qpower_plus in H1 by discriminate. replace (p0 + (k - p0)) with k in H1 by lia. lra. }
    assert (10 ^ p0 <= 10 ^ p) as Pw by (apply Z.pow_le_mono_r; lia).
    destruct (Z.eq_dec h (10 ^ p0)) as [E|E].
    + exists 1, (x + p0). split; [split; [lia|]; assert (10 ^ 1 <= 10 ^ p) by (apply Z.pow_le_mono_r; lia); lia|].
      rewrite Val, E, ten_inj by lia. rewrite <- Qpower_plus by discriminate. rewrite (Z.add_comm p0 x). change (inject_Z 1) with 1%Q. ring.
    + exists h, x. split; [lia|exact Val].
Qed.
Theorem number_short : forall q t, binary64 (Qabs q) -> json_dumps (VFlt q) = Ok t -> exists t' n k, (t = t' \/ t = 45%N :: t') /\ scientific t' n k /\
  forall p n' k', 0 <= n' < 10 ^ p -> read_as n' k' (Qred (Qabs q)) -> exists m j, 0 <= m < 10 ^ p /\ (inject_Z n * 10 ^ k == inject_Z m * 10 ^ j)%Q.
Proof.
  intros q t B H. unfold json_dumps in H. destruct (jerr (VFlt q)) eqn:J; [discriminate|]. assert (t = jtext (VFlt q)) as -> by congruence. clear H. cbn [jerr] in J. rewrite jtext_flt.
  destruct (float_repr q) as [t|] eqn:F; [|discriminate]. clear J. unfold float_repr in F. destruct (Qnum q <? 0) eqn:S.
  - assert (Qabs q == - q)%Q as E by (apply Qabs_neg; unfold Qle; cbn [Qnum Qden]; lia).
    destruct (repr_pos (- q)) as [t'|] eqn:R; [|discriminate]. injection F as <-.
    destruct (repr_pos_short (- q) t') as (n & k & A & G); [rewrite <- E; apply Qabs_nonneg| |exact R|].
    { destruct B as (m & e & M & X & V). exists m, e. rewrite <- E. auto. }
    exists t', n, k. split; [auto|]. split; [exact A|]. rewrite (Qred_complete _ _ E). exact G.
  - assert (0 <= q)%Q as P by (unfold Qle; cbn [Qnum Qden]; lia). pose proof (Qabs_pos q P) as E.
    destruct (repr_pos_short q t) as (n & k & A & G); [exact P| |exact F|].
    { destruct B as (m & e & M & X & V). exists m, e. rewrite <- E. auto. }
    exists t, n, k. split; [auto|]. split; [exact A|]. rewrite (Qred_complete _ _ E). exact G.
Qed.
