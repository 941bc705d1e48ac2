(** The text that is written for a binary64 number is read back as that number. *)
From Coq Require Import List NArith ZArith QArith_base Qabs Qpower Qreduction Bool String Lia Lqa ZifyBool ZifyN.
From Verif Require Import Base.Ustr Base.UstrLemmas Base.Percent Model.Value Model.Float Spec.FloatSpec Spec.GrammarSpec Proofs.FloatLemmas Proofs.NumberLemmas.
Import ListNotations.
Open Scope list_scope.
Open Scope Z_scope.
Ltac Zify.zify_post_hook ::= idtac.

(** ** the digits *)
Lemma half_even_pos : forall a b, 0 <= a -> 0 < b -> a / b <= half_even a b <= a / b + 1.
Proof. intros a b A B. unfold half_even. cbv zeta. destruct (2 * (a mod b) ?= b); [destruct (Z.even (a / b))| |]; lia. Qed.
Lemma around_pos : forall n d x h h', 0 <= n -> 0 < d -> around n d x = (h, h') -> 0 <= h /\ 0 <= h'.
Proof.
  intros n d x h h' A B H. unfold around in H. cbv zeta in H. injection H as <- <-.
  set (a := n * 10 ^ Z.max 0 (- x)). set (b := d * 10 ^ Z.max 0 x).
  assert (0 <= a) by (apply Z.mul_nonneg_nonneg; [exact A|apply Z.pow_nonneg; lia]).
  assert (0 < b) by (apply Z.mul_pos_pos; [exact B|apply Z.pow_pos_nonneg; lia]).
  pose proof (half_even_pos a b ltac:(assumption) ltac:(assumption)). pose proof (Z.div_pos a b ltac:(assumption) ltac:(assumption)).
  destruct (half_even a b =? a / b) eqn:E; lia.
Qed.
Lemma shortest_reads : forall more p q k h x, 0 <= Qnum q -> shortest more p q k = Some (h, x) -> 0 <= h /\ reads_back q h x = true.
Proof.
  induction more as [|more IH]; intros p q k h x P H; [discriminate|]. cbn [shortest] in H.
  destruct (around (Qnum q) (Zpos (Qden q)) (k - p)) as [h1 h2] eqn:A.
  destruct (around_pos _ _ _ _ _ P (Pos2Z.is_pos _) A) as [A1 A2].
  destruct (reads_back q h1 (k - p)) eqn:R1; [injection H as <- <-; auto|].
  destruct (reads_back q h2 (k - p)) eqn:R2; [injection H as <- <-; auto|]. eauto.
Qed.
Lemma reads_back_rounds : forall q h x, 0 <= h -> (reads_back q h x = true <-> rounds (inject_Z h * 10 ^ x) (Qred q)).
Proof.
  intros q h x P. unfold reads_back. split; intro H.
  - destruct (float_of h x) as [r|] eqn:F; [|discriminate]. apply Qeq_bool_iff in H.
    apply float_iff in F; [|exact P]. assert (r = Qred q) as <-; [|exact F].
    destruct F as (m & e & _ & _ & _ & _ & _ & R & _). rewrite R. apply Qred_complete. exact H.
  - apply float_iff in H; [|exact P]. rewrite H. apply Qeq_bool_iff. apply Qred_correct.
Qed.

(** ** the text *)
Lemma decimal_app : forall b a, decimal (a ++ b) = (decimal a * 10 ^ N.of_nat (List.length b) + decimal b)%N.
Proof.
  assert (forall b n, fold_left (fun n c => (n * 10 + (c - 48))%N) b n = (n * 10 ^ N.of_nat (List.length b) + fold_left (fun n c => (n * 10 + (c - 48))%N) b 0)%N) as G.
  { induction b as [|c b IH]; intro n; [cbn [fold_left List.length N.of_nat]; change (10 ^ 0)%N with 1%N; lia|].
    cbn [fold_left List.length]. rewrite IH, (IH (0 * 10 + (c - 48))%N). rewrite Nnat.Nat2N.inj_succ, N.pow_succ_r'. lia. }
  intros b a. unfold decimal. rewrite fold_left_app. apply G.
Qed.
Lemma decimal_zeros : forall j, decimal (repeat 48%N j) = 0%N.
Proof. induction j as [|j IH]; [reflexivity|]. change (repeat 48%N (S j)) with ([48%N] ++ repeat 48%N j). rewrite decimal_app, IH. reflexivity. Qed.
Lemma trim0_spec : forall s, exists j, s = trim0 s ++ repeat 48%N j.
Proof.
  induction s as [|c s [j IH]]; [exists O; reflexivity|]. cbn [trim0]. destruct (trim0 s) as [|x t] eqn:E.
  - destruct (N.eqb c 48) eqn:C; [apply N.eqb_eq in C as ->; exists (S j)|exists j]; cbn [app repeat] in *; rewrite IH at 1; reflexivity.
  - exists j. rewrite IH at 1. reflexivity.
Qed.
Lemma decimal_dec : forall n, decimal (dec_N n) = n.
Proof. intro n. unfold decimal. rewrite <- decimal_num. apply num_of_dec_N. Qed.
Lemma dec_digits : forall n x, In x (dec_N n) -> (48 <= x <= 57)%N.
Proof.
  intros n x H. pose proof (dec_N_digits n) as D. rewrite forallb_forall in D. apply D in H. unfold is_digit in H. lia.
Qed.
Definition numeral (ds : ustr) : Prop := exists c r, ds = c :: r /\ (49 <= c <= 57)%N /\ forall x, In x r -> (48 <= x <= 57)%N.
Lemma numeral_natural : forall ds, numeral ds -> natural ds (decimal ds).
Proof. intros ds (c & r & -> & C & R). right. exists c, r. auto. Qed.
Lemma numeral_app : forall ds t, numeral ds -> (forall x, In x t -> (48 <= x <= 57)%N) -> numeral (ds ++ t).
Proof. intros ds t (c & r & -> & C & R) T. exists c, (r ++ t). split; [reflexivity|]. split; [exact C|]. intros x H. apply in_app_iff in H as [H|H]; auto. Qed.
Lemma numeral_first : forall ds k, numeral ds -> (0 < k)%nat -> numeral (firstn k ds).
Proof.
  intros ds [|k] (c & r & -> & C & R) K; [lia|]. exists c, (firstn k r). split; [reflexivity|]. split; [exact C|].
  intros x H. apply R. rewrite <- (firstn_skipn k r). apply in_app_iff. auto.
Qed.
Lemma numeral_all : forall ds x, numeral ds -> In x ds -> (48 <= x <= 57)%N.
Proof. intros ds x (c & r & -> & C & R) [<-|H]; [lia|auto]. Qed.
Lemma numeral_skip : forall ds k, numeral ds -> forall x, In x (skipn k ds) -> (48 <= x <= 57)%N.
Proof. intros ds k H x I. apply (numeral_all ds x H). rewrite <- (firstn_skipn k ds). apply in_app_iff. auto. Qed.
Lemma zeros_digits : forall j x, In x (repeat 48%N j) -> (48 <= x <= 57)%N.
Proof. intros j x H. apply repeat_spec in H. lia. Qed.

Lemma pointed_scientific : forall ds k, numeral ds -> exists n k', scientific (pointed ds k) n k' /\
  exists j, 0 <= j /\ n = Z.of_N (decimal ds) * 10 ^ j /\ k' = k - Z.of_nat (List.length ds) - j.
Proof.
  intros ds k N. unfold pointed. cbv zeta.
  destruct ((-4 <? k) && (k <=? 16)) eqn:K; [destruct (k <=? 0) eqn:K0; [|destruct (Z.of_nat (List.length ds) <=? k) eqn:K1]|].
  - do 2 eexists. split.
    + exists [48%N], 0%N, (46%N :: repeat 48%N (Z.to_nat (- k)) ++ ds), (repeat 48%N (Z.to_nat (- k)) ++ ds), [], 0%Z.
      split; [rewrite app_nil_r; reflexivity|]. split; [left; auto|]. split; [constructor; split|].
      * destruct N as (c & r & -> & _). intro H. apply app_eq_nil in H as [_ H]. discriminate.
      * intros x H. apply in_app_iff in H as [H|H]; [apply (zeros_digits _ _ H)|apply (numeral_all ds x N H)].
      * split; [constructor|]. split; [discriminate|]. split; reflexivity.
    + exists 0%Z. split; [lia|]. split.
      * cbn [app]. change (48%N :: repeat 48%N (Z.to_nat (- k)) ++ ds) with (repeat 48%N (S (Z.to_nat (- k))) ++ ds). rewrite decimal_app, decimal_zeros. lia.
      * rewrite app_length, repeat_length. lia.
  - do 2 eexists. split.
    + exists (ds ++ repeat 48%N (Z.to_nat (k - Z.of_nat (List.length ds)))), (decimal (ds ++ repeat 48%N (Z.to_nat (k - Z.of_nat (List.length ds))))), [46%N; 48%N], [48%N], [], 0%Z.
      split; [rewrite app_nil_r, <- app_assoc; reflexivity|]. split; [apply numeral_natural, numeral_app; [exact N|apply zeros_digits]|].
      split; [constructor; split; [discriminate|intros x [<-|[]]; lia]|]. split; [constructor|]. split; [discriminate|]. split; reflexivity.
    + exists (k - Z.of_nat (List.length ds) + 1). split; [lia|]. split.
      * rewrite !decimal_app, decimal_zeros, repeat_length. cbn [List.length]. change (decimal [48%N]) with 0%N.
        rewrite Z.pow_add_r by lia. rewrite !N.add_0_r, !N2Z.inj_mul, !N2Z.inj_pow.
        replace (Z.of_N (N.of_nat (Z.to_nat (k - Z.of_nat (List.length ds))))) with (k - Z.of_nat (List.length ds)) by lia.
        change (Z.of_N (N.of_nat 1)) with 1. change (Z.of_N 10) with 10. ring.
      * cbn [List.length]. lia.
  - do 2 eexists. split.
    + exists (firstn (Z.to_nat k) ds), (decimal (firstn (Z.to_nat k) ds)), (46%N :: skipn (Z.to_nat k) ds), (skipn (Z.to_nat k) ds), [], 0%Z.
      split; [rewrite app_nil_r; reflexivity|]. split; [apply numeral_natural, numeral_first; [exact N|lia]|].
      split; [constructor; split|].
      * intro H. apply (f_equal (@List.length _)) in H. rewrite skipn_length in H. cbn [List.length] in H. lia.
      * apply numeral_skip, N.
      * split; [constructor|]. split; [discriminate|]. split; reflexivity.
    + exists 0%Z. split; [lia|]. rewrite firstn_skipn, skipn_length. split; lia.
  - set (e := dec_N (Z.to_N (Z.abs (k - 1)))).
    set (e' := match e with [_] => 48%N :: e | _ => e end).
    assert (digits e' /\ decimal e' = Z.to_N (Z.abs (k - 1))) as [De Ve].
    { assert (digits e /\ decimal e = Z.to_N (Z.abs (k - 1))) as [De Ve].
      { split; [split; [apply dec_N_nonempty|apply dec_digits]|apply decimal_dec]. }
      unfold e'. destruct e as [|a [|b r]]; auto. split; [|exact Ve]. destruct De as [_ De]. split; [discriminate|].
      intros x [<-|H]; [lia|auto]. }
    exists (Z.of_N (decimal ds)), (k - Z.of_nat (List.length ds)). split; [|exists 0%Z; lia].
    exists (firstn 1 ds), (decimal (firstn 1 ds)), (match skipn 1 ds with [] => [] | r => 46%N :: r end), (skipn 1 ds), (101%N :: (if k - 1 <? 0 then 45%N else 43%N) :: e'), (k - 1).
    split; [reflexivity|]. split; [apply numeral_natural, numeral_first; [exact N|lia]|]. split; [|split; [|split; [|split]]].
    + pose proof (numeral_skip ds 1 N) as S1. destruct (skipn 1 ds) as [|a r]; constructor. split; [discriminate|exact S1].
    + destruct (k - 1 <? 0) eqn:S1.
      * replace (k - 1) with (- Z.of_N (decimal e')) by lia. apply exponent_minus; auto.
      * replace (k - 1) with (Z.of_N (decimal e')) at 1 by lia. apply exponent_plus; auto.
    + intro H. apply app_eq_nil in H as [_ H]. discriminate.
    + rewrite firstn_skipn. reflexivity.
    + rewrite skipn_length. destruct N as (c & r & -> & _). cbn [List.length]. lia.
Qed.

Lemma ten_power : forall n j x, 0 <= j -> (inject_Z (n * 10 ^ j) * 10 ^ (x - j) == inject_Z n * 10 ^ x)%Q.
Proof.
  intros n j x J. rewrite inject_Z_mult. rewrite (Zpower_Qpower 10) by lia. change (inject_Z 10) with 10%Q.
  rewrite <- Qmult_assoc, <- Qpower_plus by discriminate. replace (j + (x - j)) with x by lia. reflexivity.
Qed.
Lemma rounds_zero : forall x q, Qnum q = 0 -> rounds (inject_Z 0 * 10 ^ x) (Qred q).
Proof.
  intros x q Z. assert (q == 0)%Q as E by (unfold Qeq; rewrite Z; reflexivity).
  rewrite (Qred_complete _ _ E). apply (rounds_compat 0%Q); [change (inject_Z 0) with 0%Q; ring|].
  apply rounds_self. exists 0, 0. split; [split; [lia|reflexivity]|]. split; [lia|reflexivity].
Qed.
Lemma stripped : forall h, 0 < h -> let t := dec_N (Z.to_N h) in numeral (trim0 t) /\
  exists j, 0 <= j /\ h = Z.of_N (decimal (trim0 t)) * 10 ^ j /\ Z.of_nat (List.length t) = Z.of_nat (List.length (trim0 t)) + j.
Proof.
  intros h H t. destruct (trim0_spec t) as [j E].
  assert (h = Z.of_N (decimal t)) as V by (unfold t; rewrite decimal_dec; lia).
  split.
  - destruct (Z.to_N h) as [|p] eqn:P; [lia|]. destruct (trim0 t) as [|c r] eqn:S1.
    + exfalso. cbn [app] in E. rewrite E, decimal_zeros in V. lia.
    + exists c, r. split; [reflexivity|]. assert (forall x, In x (c :: r) -> (48 <= x <= 57)%N) as D.
      { intros x I. apply (dec_digits (Npos p)). fold t. rewrite E. apply in_app_iff. auto. }
      split; [|intros x I; apply D; right; exact I]. pose proof (D c (or_introl eq_refl)). cut (c <> 48%N); [lia|].
      intro C. apply (dec_N_head0 p (r ++ repeat 48%N j)). fold t. rewrite E, C. reflexivity.
  - exists (Z.of_nat j). split; [lia|]. split.
    + rewrite V. rewrite E at 1. rewrite decimal_app, decimal_zeros, repeat_length, N.add_0_r, N2Z.inj_mul, N2Z.inj_pow.
      rewrite nat_N_Z. reflexivity.
    + rewrite E at 1. rewrite app_length, repeat_length. lia.
Qed.
Lemma repr_pos_reads : forall q t, 0 <= Qnum q -> repr_pos q = Some t -> exists n k, scientific t n k /\ read_as n k (Qred q).
Proof.
  intros q t P H. unfold repr_pos in H. destruct (Qnum q =? 0) eqn:Z.
  - injection H as <-. exists 0, (-1). split; [|apply rounds_zero; lia].
    exists [48%N], 0%N, [46%N; 48%N], [48%N], [], 0. split; [reflexivity|]. split; [left; auto|].
    split; [constructor; split; [discriminate|intros x [<-|[]]; lia]|]. split; [constructor|]. split; [discriminate|]. split; reflexivity.
  - destruct (shortest 17 1 q (magnitude (Qnum q) (Zpos (Qden q)))) as [[h x]|] eqn:S1; [|discriminate]. cbv zeta in H.
    destruct (shortest_reads _ _ _ _ _ _ P S1) as [Hh R]. apply reads_back_rounds in R; [|exact Hh].
    assert (0 < h) as Hp.
    { cut (h <> 0); [lia|]. intros ->. assert (rounds (inject_Z 0 * 10 ^ x) (Qred 0)) as R0 by (apply rounds_zero; reflexivity).
      apply float_iff in R; [|lia]. apply float_iff in R0; [|lia]. rewrite R in R0. injection R0 as R0.
      assert (q == 0)%Q as E by (rewrite <- (Qred_correct q), R0; reflexivity). unfold Qeq in E. cbn [Qnum Qden] in E. lia. }
    destruct (stripped h Hp) as [N (j & J & V & L)]. set (t0 := dec_N (Z.to_N h)) in *.
    destruct (pointed_scientific (trim0 t0) (Z.of_nat (List.length t0) + x) N) as (n & k' & S2 & j' & J' & Vn & Vk).
    assert (t = pointed (trim0 t0) (Z.of_nat (List.length t0) + x)) as -> by congruence. exists n, k'. split; [exact S2|]. unfold read_as. eapply rounds_compat; [|exact R].
    assert (k' = (x + j) - j') as -> by lia. rewrite Vn, ten_power by exact J'. rewrite V.
    rewrite <- (ten_power (Z.of_N (decimal (trim0 t0))) j (x + j)) by exact J. replace (x + j - j) with x by lia. reflexivity.
Qed.
Lemma float_repr_reads : forall q t, float_repr q = Some t -> exists n k,
  (scientific t n k /\ read_as n k (Qred q)) \/ exists t', t = 45%N :: t' /\ scientific t' n k /\ read_as n k (- Qred q).
Proof.
  intros q t H. unfold float_repr in H. destruct (Qnum q <? 0) eqn:S.
  - destruct (repr_pos (- q)) as [t'|] eqn:R; [|discriminate]. injection H as <-.
    destruct (repr_pos_reads (- q) t') as (n & k & A & B); [unfold Qopp; cbn [Qnum]; lia|exact R|].
    exists n, k. right. exists t'. rewrite <- Qred_opp. auto.
  - destruct (repr_pos_reads q t) as (n & k & A & B); [lia|exact H|]. exists n, k. auto.
Qed.

(** ** every binary64 number can be written *)
Lemma decimal_bounds : forall ds, numeral ds -> 10 ^ (Z.of_nat (List.length ds) - 1) <= Z.of_N (decimal ds) < 10 ^ Z.of_nat (List.length ds).
Proof.
  assert (forall r, (forall x, In x r -> (48 <= x <= 57)%N) -> (decimal r < 10 ^ N.of_nat (List.length r))%N) as G.
  { intros r. induction r as [|c r IH]; intro D; [reflexivity|]. change (c :: r) with ([c] ++ r). rewrite decimal_app, app_length.
    assert (decimal [c] <= 9)%N by (pose proof (D c (or_introl eq_refl)); unfold decimal; cbn [fold_left]; lia).
    assert (decimal r < 10 ^ N.of_nat (List.length r))%N by (apply IH; intros x I; apply D; right; exact I).
    cbn [List.length]. change (1 + List.length r)%nat with (S (List.length r)). rewrite Nnat.Nat2N.inj_succ, N.pow_succ_r'. nia. }
  intros ds N. split.
  - destruct N as (c & r & -> & C & R). change (c :: r) with ([c] ++ r). rewrite decimal_app, app_length. cbn [List.length].
    assert (1 <= decimal [c])%N by (unfold decimal; cbn [fold_left]; lia).
    replace (Z.of_nat (1 + List.length r) - 1) with (Z.of_nat (List.length r)) by lia.
    rewrite N2Z.inj_add, N2Z.inj_mul, N2Z.inj_pow, nat_N_Z. change (Z.of_N 10) with 10.
    assert (0 < 10 ^ Z.of_nat (List.length r)) by (apply Z.pow_pos_nonneg; lia). nia.
  - pose proof (G ds (fun x => numeral_all ds x N)) as L. apply N2Z.inj_lt in L. rewrite N2Z.inj_pow, nat_N_Z in L. exact L.
Qed.
Lemma ndigits_bounds : forall n, 0 < n -> 1 <= ndigits n /\ 10 ^ (ndigits n - 1) <= n < 10 ^ ndigits n.
Proof.
  intros n P. unfold ndigits. assert (numeral (dec_N (Z.to_N n))) as N.
  { destruct (Z.to_N n) as [|p] eqn:E; [lia|]. pose proof (dec_digits (Npos p)) as D. pose proof (dec_N_head0 p) as H0. pose proof (dec_N_nonempty (Npos p)) as H1.
    destruct (dec_N (Npos p)) as [|c r]; [congruence|]. exists c, r. split; [reflexivity|]. split; [|intros x I; apply D; right; exact I].
    pose proof (D c (or_introl eq_refl)). cut (c <> 48%N); [lia|]. intros ->. exact (H0 r eq_refl). }
  pose proof (decimal_bounds _ N) as B. rewrite decimal_dec in B. rewrite Z2N.id in B by lia. split; [|exact B].
  destruct N as (c & r & -> & _). cbn [List.length]. lia.
Qed.
Lemma ten_pos : forall e, (0 < 10 ^ e)%Q.
Proof. intro e. apply Qpower_0_lt. reflexivity. Qed.
Lemma ten_inj : forall e, 0 <= e -> (inject_Z (10 ^ e) == 10 ^ e)%Q.
Proof. intros e H. exact (Zpower_Qpower 10 e H). Qed.
Lemma magnitude_bounds : forall q, 0 < Qnum q -> let k := magnitude (Qnum q) (Zpos (Qden q)) in (10 ^ (k - 1) <= q /\ q < 10 ^ k)%Q.
Proof.
  intros [n d] P k. cbn [Qnum] in P. unfold k, magnitude. cbn [Qnum Qden]. destruct (Zpos d <=? n) eqn:L.
  - assert (0 < n / Zpos d) as M by (apply Z.div_str_pos; lia).
    destruct (ndigits_bounds _ M) as [N1 [N2 N3]]. pose proof (Z.mul_div_le n (Zpos d) (Pos2Z.is_pos d)). pose proof (Z.mul_succ_div_gt n (Zpos d) (Pos2Z.is_pos d)).
    set (e := ndigits (n / Zpos d)) in *. rewrite <- !ten_inj by lia. unfold Qle, Qlt, inject_Z. cbn [Qnum Qden]. split; nia.
  - assert (0 < (Zpos d - 1) / n) as M by (apply Z.div_str_pos; lia).
    destruct (ndigits_bounds _ M) as [N1 [N2 N3]]. pose proof (Z.mul_div_le (Zpos d - 1) n P). pose proof (Z.mul_succ_div_gt (Zpos d - 1) n P).
    set (e := ndigits ((Zpos d - 1) / n)) in *. set (m := (Zpos d - 1) / n) in *.
    assert (forall x : Z, (0 <= x)%Z -> 10 ^ (- x) == / inject_Z (10 ^ x))%Q as I by (intros x X; rewrite ten_inj by exact X; apply Qpower_opp).
    assert (forall x : Z, (0 < x)%Z -> / inject_Z x == 1 # Z.to_pos x)%Q as J by (intros [|x|x] X; try lia; reflexivity).
    assert (forall x, 0 <= x -> 0 < 10 ^ x) as T by (intros x X; apply Z.pow_pos_nonneg; lia).
    replace (1 - e - 1) with (- e) by lia. replace (1 - e) with (- (e - 1)) by lia. rewrite !I by lia. rewrite !J by (apply T; lia).
    unfold Qle, Qlt. cbn [Qnum Qden]. rewrite !Z2Pos.id by (apply T; lia). split; nia.
Qed.
Lemma shortest_exists : forall more p q k p0, p <= p0 < p + Z.of_nat more -> reads_back q (fst (around (Qnum q) (Zpos (Qden q)) (k - p0))) (k - p0) = true ->
  exists r, shortest more p q k = Some r.
Proof.
  induction more as [|more IH]; intros p q k p0 P R; [lia|]. cbn [shortest].
  destruct (around (Qnum q) (Zpos (Qden q)) (k - p)) as [h1 h2] eqn:A. destruct (reads_back q h1 (k - p)) eqn:R1; [eauto|].
  destruct (reads_back q h2 (k - p)); [eauto|]. apply (IH _ _ _ p0); [|exact R].
  cut (p <> p0); [lia|]. intros ->. rewrite A in R. cbn [fst] in R. congruence.
Qed.
(** binary64 numbers are not closer than this *)
Lemma binary_gap : forall a b, binary64 a -> binary64 b -> ~ (a == b)%Q -> (a < inject_Z (10 ^ 16) * Qabs (a - b))%Q.
Proof.
  assert (forall j j', 0 <= j -> 0 <= j' -> j <> j' -> (j < 2 ^ 53 \/ j' < 2 ^ 53) -> j < 10 ^ 16 * Z.abs (j - j')) as G by (change (2 ^ 53) with 9007199254740992; change (10 ^ 16) with 10000000000000000; lia).
  assert (forall U j j', (0 < U)%Q -> 0 <= j -> 0 <= j' -> j <> j' -> (j < 2 ^ 53 \/ j' < 2 ^ 53) ->
    (inject_Z j * U < inject_Z (10 ^ 16) * Qabs (inject_Z j * U - inject_Z j' * U))%Q) as H.
  { intros U j j' PU J J' N B. pose proof (G j j' J J' N B) as L. apply inj_lt in L. rewrite inject_Z_mult in L.
    assert (inject_Z j * U - inject_Z j' * U == inject_Z (j - j') * U)%Q as E by (unfold Zminus; rewrite inject_Z_plus, inject_Z_opp; ring).
    rewrite E, Qabs_Qmult, (Qabs_pos U) by (apply Qlt_le_weak; exact PU).
    change (Qabs (inject_Z (j - j'))) with (inject_Z (Z.abs (j - j'))). rewrite Qmult_assoc. apply Qmult_lt_compat_r; assumption. }
  intros a b (m & e & M & _ & Ea) (m' & e' & M' & _ & Eb) N. rewrite Ea, Eb in *.
  assert (forall x y z : Z, (0 <= x)%Z -> inject_Z z * 2 ^ (y + x) == inject_Z (z * 2 ^ x) * 2 ^ y)%Q as S.
  { intros x y z X. rewrite inject_Z_mult, inj_pow by exact X. rewrite Qpower_plus by discriminate. ring. }
  assert (forall x y, 0 <= x -> 0 <= y -> 0 <= y * 2 ^ x) as P by (intros x y X Y; apply Z.mul_nonneg_nonneg; [exact Y|apply Z.pow_nonneg; lia]).
  destruct (Z.le_ge_cases e e') as [L|L].
  - replace e' with (e + (e' - e)) in * by lia. rewrite (S (e' - e) e m') in * by lia. apply H; [apply two_pos|lia|apply P; lia| |left; lia].
    intro E0. apply N. rewrite E0. reflexivity.
  - replace e with (e' + (e - e')) in * by lia. rewrite (S (e - e') e' m) in * by lia. apply H; [apply two_pos|apply P; lia|lia| |right; lia].
    intro E0. apply N. rewrite E0. reflexivity.
Qed.
Lemma half_even_near : forall a b, 0 < b -> 2 * Z.abs (a - half_even a b * b) <= b.
Proof. intros a b B. pose proof (half_even_spec a b B) as H. cbv zeta in H. lia. Qed.
Lemma around_near : forall q x, (0 <= q)%Q -> let h := fst (around (Qnum q) (Zpos (Qden q)) x) in (2 * Qabs (q - inject_Z h * 10 ^ x) <= 10 ^ x)%Q.
Proof.
  intros [n d] x P h. unfold h, around. cbv zeta. cbn [fst Qnum Qden]. set (A := 10 ^ Z.max 0 (- x)). set (B := 10 ^ Z.max 0 x).
  assert (0 < A) as PA by (apply Z.pow_pos_nonneg; lia). assert (0 < B) as PB by (apply Z.pow_pos_nonneg; lia).
  pose proof (half_even_near (n * A) (Zpos d * B) ltac:(lia)) as H. set (m := half_even (n * A) (Zpos d * B)) in *.
  assert (10 ^ x == inject_Z B / inject_Z A)%Q as E.
  { rewrite <- (Qmult_1_l (10 ^ x)), <- (ten_fraction 1 x). fold A. rewrite Z.mul_1_l. reflexivity. }
  rewrite E. assert ((n # d) - inject_Z m * (inject_Z B / inject_Z A) == inject_Z (n * A - m * (Zpos d * B)) / (inject_Z (Zpos d) * inject_Z A))%Q as E2.
  { unfold Zminus. rewrite inject_Z_plus, inject_Z_opp, !inject_Z_mult. rewrite (Qmake_Qdiv n d).
    change (inject_Z (Zpos d)) with (Zpos d # 1)%Q. change (inject_Z n) with (n # 1)%Q. field. split; [|]; unfold Qeq; cbn; lia. }
  rewrite E2. rewrite Zle_Qle in H. rewrite inject_Z_mult in H. change (inject_Z 2) with 2%Q in H.
  change (inject_Z (Z.abs (n * A - m * (Zpos d * B)))) with (Qabs (inject_Z (n * A - m * (Zpos d * B)))) in H.
  set (w := inject_Z (n * A - m * (Zpos d * B))) in *. rewrite inject_Z_mult in H.
  assert (0 < inject_Z (Zpos d))%Q as Pd by reflexivity. assert (0 < inject_Z A)%Q as PAq by exact (proj1 (inj_lt 0 A) PA).
  set (D := inject_Z (Zpos d)) in *. set (a := inject_Z A) in *. set (b := inject_Z B) in *.
  assert (0 < D * a)%Q as PDa by (apply Qmult_lt_0_compat; assumption).
  unfold Qdiv. rewrite Qabs_Qmult, (Qabs_pos (/ (D * a))) by (apply Qlt_le_weak, Qinv_lt_0_compat; exact PDa).
  assert (b * / a == (D * b) * / (D * a))%Q as -> by (field; split; lra). rewrite Qmult_assoc.
  apply Qmult_le_compat_r; [exact H|apply Qlt_le_weak, Qinv_lt_0_compat; exact PDa].
Qed.
Lemma repr_pos_exists : forall q, (0 <= q)%Q -> binary64 q -> exists t, repr_pos q = Some t.
Proof.
  intros q P B. unfold repr_pos. destruct (Qnum q =? 0) eqn:Z; [eauto|].
  assert (0 < Qnum q) as Pn by (unfold Qle in P; cbn [Qnum Qden] in P; lia).
  destruct (magnitude_bounds q Pn) as [K1 K2]. set (k := magnitude (Qnum q) (Zpos (Qden q))) in *.
  destruct (shortest_exists 17 1 q k 17) as [[h x] ->]; [lia| |eauto].
  pose proof (around_near q (k - 17) P) as N. cbv zeta in N. destruct (around (Qnum q) (Zpos (Qden q)) (k - 17)) as [h h'] eqn:A. cbn [fst] in *.
  destruct (around_pos _ _ _ _ _ (Z.lt_le_incl _ _ Pn) (Pos2Z.is_pos _) A) as [Ph _].
  apply reads_back_rounds; [exact Ph|]. set (x := k - 17) in *. set (r := (inject_Z h * 10 ^ x)%Q) in *.
  assert (inject_Z (10 ^ 16) * 10 ^ x <= q)%Q as K.
  { rewrite (ten_inj 16) by lia. rewrite <- Qpower_plus by discriminate. unfold x. replace (16 + (k - 17)) with (k - 1) by lia. exact K1. }
  assert (0 <= r)%Q as Pr by (apply Qmult_le_0_compat; [change 0%Q with (inject_Z 0); rewrite <- Zle_Qle; exact Ph|apply Qlt_le_weak, ten_pos]).
  change (inject_Z (10 ^ 16)) with (10000000000000000 # 1)%Q in K.
  assert (exists q', rounds r q') as [q' R].
  { apply rounds_limit; [exact Pr|]. destruct B as (m & e & M & E & V).
    assert (q <= inject_Z (2 ^ 53 - 1) * 2 ^ 971)%Q as T.
    { rewrite V. apply Qle_trans with (inject_Z (2 ^ 53 - 1) * 2 ^ e)%Q; [apply Qmult_le_compat_r; [rewrite <- Zle_Qle; lia|apply Qlt_le_weak, two_pos]|].
      apply Qmult_le_l; [reflexivity|]. apply two_mono. lia. }
    assert (r <= q + (1 # 2) * 10 ^ x)%Q as T2.
    { pose proof (Qle_Qabs (- (q - r))) as Q1. rewrite Qabs_opp in Q1. lra. }
    assert (2 ^ 1024 == (18014398509481984 # 1) * 2 ^ 970)%Q as E1 by (change 1024 with (54 + 970); rewrite Qpower_plus by discriminate; reflexivity).
    assert (2 ^ 971 == 2 * 2 ^ 970)%Q as E2 by (change 971 with (970 + 1); apply two_step).
    rewrite E1. rewrite E2 in T. pose proof (two_pos 970) as P9. change (inject_Z (2 ^ 53 - 1)) with (9007199254740991 # 1)%Q in T.
    generalize dependent (2 ^ 970)%Q. intros W. intros. lra. }
  assert (Qred q = q') as ->; [|exact R].
  assert (q == q')%Q as E.
  { destruct (Qeq_dec q q') as [E|E]; [exact E|exfalso]. pose proof (binary_gap q q' B (rounds_binary _ _ Pr R) E) as G.
    pose proof (rounds_nearest _ _ R q B) as Nr. change (inject_Z (10 ^ 16)) with (10000000000000000 # 1)%Q in G.
    assert (Qabs (q - q') <= Qabs (q - r) + Qabs (r - q'))%Q as T.
    { assert (q - q' == (q - r) + (r - q'))%Q as -> by ring. apply Qabs_triangle. }
    rewrite (Qabs_Qminus r q) in Nr. lra. }
  destruct R as (m & e & _ & _ & _ & _ & _ & R & _). rewrite R. apply Qred_complete. exact E.
Qed.
Lemma float_repr_exists : forall q, binary64 (Qabs q) -> exists t, float_repr q = Some t.
Proof.
  intros q B. unfold float_repr. destruct (Qnum q <? 0) eqn:S.
  - assert (Qabs q == - q)%Q as E by (apply Qabs_neg; unfold Qle; cbn [Qnum Qden]; lia).
    destruct (repr_pos_exists (- q)) as [t ->]; [rewrite <- E; apply Qabs_nonneg| |eauto].
    destruct B as (m & e & M & X & V). exists m, e. rewrite <- E. auto.
  - assert (0 <= q)%Q as P by (unfold Qle; cbn [Qnum Qden]; lia). apply repr_pos_exists; [exact P|].
    destruct B as (m & e & M & X & V). exists m, e. rewrite <- (Qabs_pos q P). auto.
Qed.
