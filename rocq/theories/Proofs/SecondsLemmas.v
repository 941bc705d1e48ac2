(** Seconds with a fraction. *)
From Coq Require Import List NArith ZArith QArith Qabs Qround Qpower Bool String Lia Lqa ZifyBool ZifyN.
From Verif Require Import Base.Ustr Base.UstrLemmas Model.Float Model.Value Model.Verify Model.TimeUtil Spec.NumeralSpec Spec.FloatSpec Spec.SecondsSpec
  Proofs.FloatLemmas Proofs.NumeralLemmas Proofs.TokenLemmas Proofs.FractionLemmas Proofs.CalendarLemmas Proofs.TimeLemmas.
Import ListNotations.
Open Scope list_scope.
Open Scope N_scope.

(** ** the value *)
Definition digitish (s : ustr) : Prop := forall c, In c s -> 48 <= c <= 57 \/ c = 95.
Lemma numeral_digitish : forall s n, numeral s n -> digitish s.
Proof.
  intros s n H. induction H as [c Hc|s n c H IH Hc|s n c H IH Hc]; intros x I.
  - destruct I as [<-|[]]. left. exact Hc.
  - apply in_app_iff in I. destruct I as [I|[<-|[]]]; [exact (IH x I)|left; exact Hc].
  - apply in_app_iff in I. destruct I as [I|[<-|[<-|[]]]]; [exact (IH x I)|right; reflexivity|left; exact Hc].
Qed.
Lemma lower_digitish : forall s, digitish s -> map lower1 s = s.
Proof.
  intros s. induction s as [|c s IH]; intro H; [reflexivity|]. cbn [map]. rewrite IH; [|intros x I; apply H; right; exact I].
  specialize (H c (or_introl eq_refl)). unfold lower1, is_upper. replace ((65 <=? c) && (c <=? 90)) with false by lia. reflexivity.
Qed.
Lemma no_char : forall c s, (forall x, In x s -> x <> c) -> has_char c s = false.
Proof.
  intros c s H. unfold has_char. apply not_true_is_false. intro E. apply existsb_exists in E. destruct E as (x & I & E). apply N.eqb_eq in E. symmetry in E. exact (H x I (eq_sym E)) || exact (H x I E).
Qed.
Lemma plain_num : forall s n, numeral s n -> num_of_digits 0 (filter is_digit s) = n.
Proof.
  assert (A : forall l a c, num_of_digits a (l ++ [c]) = num_of_digits a l * 10 + (c - 48)).
  { intro l. induction l as [|x l IH]; intros a c; [reflexivity|]. cbn [app num_of_digits]. apply IH. }
  intros s n H. induction H as [c Hc|s n c H IH Hc|s n c H IH Hc]; apply is_digit_iff in Hc.
  - cbn [filter]. rewrite Hc. reflexivity.
  - rewrite filter_app. cbn [filter]. rewrite Hc, A, IH. reflexivity.
  - rewrite filter_app. cbn [filter]. rewrite Hc. change (is_digit 95) with false. cbn iota. rewrite A, IH. reflexivity.
Qed.
Lemma plain_places : forall s, digitish s -> List.length (filter is_digit s) = places s.
Proof.
  intros s H. unfold places. f_equal. apply filter_ext_in. intros c I. destruct (H c I) as [D| ->]; [|reflexivity].
  rewrite (proj2 (is_digit_iff c) D). lia.
Qed.
Lemma num_app : forall b a x, num_of_digits x (a ++ b) = num_of_digits x a * 10 ^ N.of_nat (List.length b) + num_of_digits 0 b.
Proof.
  assert (G : forall b x, num_of_digits x b = x * 10 ^ N.of_nat (List.length b) + num_of_digits 0 b).
  { intro b. induction b as [|c b IH]; intro x; [cbn; lia|]. cbn [num_of_digits List.length]. rewrite (IH (x * 10 + (c - 48))), (IH (0 * 10 + (c - 48))).
    rewrite Nat2N.inj_succ, N.pow_succ_r'. set (p := 10 ^ N.of_nat (List.length b)). clearbody p. nia. }
  intros b a. induction a as [|c a IH]; intro x; [exact (G b x)|]. cbn [app num_of_digits]. apply IH.
Qed.
Definition parts (m : ustr) (n : N) (p : nat) : Prop := exists ds f fs, partition1 46 m = (ds, f, fs) /\
  num_of_digits 0 (filter is_digit ds ++ filter is_digit fs) = n /\ List.length (filter is_digit fs) = p.
Lemma digitish_point : forall d, digitish d -> has_char 46 d = false.
Proof. intros d H. apply no_char. intros x I ->. destruct (H 46 I); lia. Qed.
Lemma mantissa_parts : forall m n p, mantissa_is m n p -> parts m n p.
Proof.
  intros m n p [d k D|d k D|f k D|d f k j D F].
  - exists d, false, []. rewrite partition1_none by (apply digitish_point; exact (numeral_digitish _ _ D)). rewrite app_nil_r, (plain_num _ _ D). auto.
  - exists d, true, []. change (u ".") with [46]. rewrite partition1_app by (apply digitish_point; exact (numeral_digitish _ _ D)). rewrite app_nil_r, (plain_num _ _ D). auto.
  - exists [], true, f. change (u "." ++ f) with ([] ++ 46 :: f). rewrite partition1_app by reflexivity. cbn [filter app]. rewrite (plain_num _ _ D), (plain_places f (numeral_digitish _ _ D)). auto.
  - exists d, true, f. change (u "." ++ f) with (46 :: f). rewrite partition1_app by (apply digitish_point; exact (numeral_digitish _ _ D)).
    rewrite num_app, (plain_num _ _ D), (plain_num _ _ F), (plain_places f (numeral_digitish _ _ F)). auto.
Qed.
Definition dotted (s : ustr) : Prop := forall c, In c s -> 48 <= c <= 57 \/ c = 95 \/ c = 46.
Lemma mantissa_dotted : forall m n p, mantissa_is m n p -> dotted m.
Proof.
  assert (G : forall d n, numeral d n -> dotted d) by (intros d n D c I; destruct (numeral_digitish d n D c I); auto).
  assert (P : dotted (u ".")) by (intros c [<-|[]]; auto).
  intros m n p [d k D|d k D|f k D|d f k j D F] c I; repeat (apply in_app_iff in I; destruct I as [I|I]); first [exact (G _ _ D c I)|exact (G _ _ F c I)|exact (P c I)].
Qed.
Lemma lower_dotted : forall s, dotted s -> map lower1 s = s.
Proof.
  intros s. induction s as [|c s IH]; intro H; [reflexivity|]. cbn [map]. rewrite IH; [|intros x I; apply H; right; exact I].
  specialize (H c (or_introl eq_refl)). unfold lower1, is_upper. replace ((65 <=? c) && (c <=? 90)) with false by lia. reflexivity.
Qed.
Lemma mantissa_plain : forall m n p, mantissa_is m n p -> mantissa m.
Proof. intros m n p [d k D|d k D|f k D|d f k j D F]; constructor; eexists; eassumption. Qed.
Lemma exponent_plain : forall e x, exponent_is e x -> exponent e.
Proof. intros e x [|c g d n C G D]; constructor; [exact C|exact G|eexists; exact D]. Qed.
Lemma exponent_int : forall g d n, sign g -> numeral d n -> py_int_str (g ++ d) = Ok (if ueqb g (u "-") then - Z.of_N n else Z.of_N n)%Z.
Proof.
  intros g d n G D. apply int_text_iff. split.
  - intros c I. apply in_app_iff in I. destruct I as [I|I].
    + destruct G as [->|[->| ->]]; vm_compute in I; repeat (destruct I as [<-|I]; [reflexivity|]); contradiction.
    + destruct (numeral_digitish d n D c I); lia.
  - exists [], g, d, [], n. rewrite app_nil_r. split; [reflexivity|]. split; [intros c []|]. split; [intros c []|]. auto.
Qed.
Lemma sign_lower : forall g, sign g -> map lower1 g = g.
Proof. intros g [->|[->| ->]]; reflexivity. Qed.
Lemma float_value_text : forall s neg n k, decimal_text s neg n k ->
  float_value s = match float_of (Z.of_N n) k with Some q => Some (if neg then Qopp q else q) | None => None end.
Proof.
  intros s neg n k (a & g & m & e & b & p & x & -> & A & B & G & -> & M & E & ->). unfold float_value.
  pose proof (mantissa_plain _ _ _ M) as M'. pose proof (exponent_plain _ _ E) as E'.
  assert (S : strip (a ++ g ++ (m ++ e) ++ b) = g ++ m ++ e).
  { rewrite (app_assoc g (m ++ e) b). apply strip_solid; [exact A|exact B| |].
    - apply solid_app; [apply sign_solid; exact G|apply solid_app; [apply mantissa_solid; exact M'|apply exponent_solid; exact E']].
    - destruct (mantissa_head m e M') as (c & r & -> & _). destruct g; discriminate. }
  rewrite S. cbn zeta. destruct (mantissa_head m e M') as (c & r & H & C1 & C2).
  assert (O : sign_off (g ++ m ++ e) = m ++ e). { apply sign_off_app; [exact G|]. intros c' r' E1. rewrite H in E1. injection E1 as <- <-. split; assumption. }
  rewrite O. pose proof (mantissa_dotted _ _ _ M) as D.
  assert (Q : umem (map lower1 (m ++ e)) [u "inf"; u "infinity"; u "nan"] = false).
  { rewrite map_app, (lower_dotted m D). destruct m as [|c0 m0]; [exfalso; inversion M as [d k' ND| | |]; subst; try (destruct d; discriminate); try discriminate; inversion ND; destruct s; discriminate|].
    specialize (D c0 (or_introl eq_refl)). apply not_true_is_false. intro U. apply umem_In in U. cbn [app In] in U. destruct U as [U|[U|[U|[]]]]; vm_compute in U; injection U as <- _; lia. }
  rewrite Q, map_app, (lower_dotted m D).
  assert (P : exists f, partition1 101 (m ++ map lower1 e) = (m, f, match e with [] => [] | _ :: r => r end)).
  { assert (N : has_char 101 m = false). { apply no_char. intros y I ->. destruct (D 101 I) as [|[|]]; lia. }
    inversion E as [|e0 g' d n' C' G' D' E1 E2]; subst.
    - exists false. cbn [map]. rewrite app_nil_r. apply partition1_none. exact N.
    - exists true. cbn [map]. rewrite map_app, (sign_lower g' G'), (lower_digitish d (numeral_digitish _ _ D')).
      replace (lower1 e0) with 101%N by (destruct C' as [->| ->]; reflexivity). apply partition1_app. exact N. }
  destruct P as [f0 P]. rewrite P. destruct (mantissa_parts _ _ _ M) as (ds & f & fs & PM & PN & PP). rewrite PM, PN, PP.
  assert (X : match py_int_str (match e with [] => [] | _ :: r => r end) with Ok x => x | Err _ => 0%Z end = x).
  { inversion E as [|e0 g' d n' C' G' D' E1 E2]; subst; [reflexivity|]. rewrite (exponent_int g' d n' G' D'). reflexivity. }
  match goal with |- (match float_of _ (?y - _)%Z with _ => _ end) = _ => replace y with x by (symmetry; exact X) end. destruct (float_of _ _) as [q|]; [|reflexivity]. f_equal.
  destruct G as [->|[->| ->]].
  - cbn [app]. rewrite H. replace (ueqb [] (u "-")) with false by reflexivity. destruct c as [|c]; [reflexivity|]. destruct (Pos.eq_dec c 45) as [->|N]; [congruence|].
    repeat (destruct c; try reflexivity; try congruence).
  - reflexivity.
  - reflexivity.
Qed.
Lemma float_value_iff : forall s neg n k q, decimal_text s neg n k ->
  (float_value s = Some q <-> rounds (inject_Z (Z.of_N n) * 10 ^ k) (if neg then - q else q))%Q.
Proof.
  intros s neg n k q T. rewrite (float_value_text s neg n k T). rewrite <- float_iff by lia. destruct (float_of (Z.of_N n) k) as [r|]; [|split; discriminate].
  destruct neg.
  - split; intro H; [injection H as <-|injection H as ->]; f_equal; [destruct r as [a d]; unfold Qopp; cbn; rewrite Z.opp_involutive; reflexivity|destruct q as [a d]; unfold Qopp; cbn; rewrite Z.opp_involutive; reflexivity].
  - split; intro H; exact H.
Qed.

(** ** adding *)
Lemma float_value_nonneg : forall s q, unsigned_float s -> float_value s = Some q -> (0 <= q)%Q.
Proof.
  intros s q (a & g & t & b & -> & A & B & G & T) H. unfold float_value in H.
  assert (G' : sign g) by (destruct G as [->| ->]; [left|right; left]; reflexivity).
  assert (S : solid t /\ exists c r, t = c :: r /\ c <> 43 /\ c <> 45).
  { destruct T as [T|(m & e & -> & M & E)]; [split; [apply special_solid|apply special_head]; exact T|].
    split; [apply solid_app; [apply mantissa_solid; exact M|apply exponent_solid; exact E]|apply mantissa_head; exact M]. }
  destruct S as (S & c & r & Et & C1 & C2).
  assert (X : strip (a ++ g ++ t ++ b) = g ++ t).
  { rewrite (app_assoc g t b). apply strip_solid; [exact A|exact B|apply solid_app; [apply sign_solid; exact G'|exact S]|rewrite Et; destruct g; discriminate]. }
  rewrite X in H. cbn zeta in H. destruct (umem _ _); [discriminate|]. destruct (partition1 101 _) as [[m f0] e]. destruct (partition1 46 m) as [[ds f] fs].
  match type of H with match float_of ?n ?k with _ => _ end = _ => destruct (float_of n k) as [r0|] eqn:F; [|discriminate]; assert (P : (0 <= r0)%Q) end.
  { apply float_iff in F; [|lia]. apply rounds_pos in F; [exact F|]. apply Qmult_le_0_compat; [change 0%Q with (inject_Z 0); rewrite <- Zle_Qle; lia|].
    apply Qlt_le_weak, Qpower.Qpower_0_lt. reflexivity. }
  assert (Y : forall u v : QArith_base.Q, match g ++ t with 45 :: _ => u | _ => v end = v).
  { intros u0 v0. rewrite Et. destruct G as [->| ->]; [|reflexivity]. cbn [app]. destruct c as [|c]; [reflexivity|]. destruct (Pos.eq_dec c 45) as [->|N]; [congruence|]. repeat (destruct c; try reflexivity; try congruence). }
  rewrite Y in H. injection H as <-. exact P.
Qed.
Lemma round_nonneg : forall r q, (0 <= r)%Q -> round_flt r = Some q -> (0 <= q)%Q.
Proof. intros r q R H. apply round_flt_iff in H. destruct H as [[_ H]|[N _]]; [exact (rounds_pos _ _ R H)|lra]. Qed.
Lemma floor_div_nonneg : forall a b c, (0 <= a)%Q -> (0 < b)%Z -> floor_div a b = Some c -> (0 <= c)%Z.
Proof.
  intros a b c A B H. unfold floor_div in H. cbn zeta in H. assert (A' : (0 <= Qnum a)%Z) by (destruct a as [n d]; unfold Qle in A; cbn in A |- *; lia).
  set (q := Z.quot (Qnum a) (Zpos (Qden a) * b)) in *. assert (D : (0 < Zpos (Qden a) * b)%Z) by nia.
  assert (Q0 : (0 <= q)%Z) by (apply Z.quot_pos; lia).
  assert (L : (q * b * Zpos (Qden a) <= Qnum a)%Z). { pose proof (Z.mul_quot_le (Qnum a) (Zpos (Qden a) * b) A' ltac:(lia)) as Z1. fold q in Z1. lia. }
  replace (Qnum a <? q * b * Zpos (Qden a))%Z with false in H by lia. clearbody q.
  destruct (round_flt (inject_Z (q * b))) as [x|] eqn:X; [|discriminate].
  assert (X0 : (0 <= x)%Q) by (apply (round_nonneg _ _) with (2 := X); change 0%Q with (inject_Z 0); rewrite <- Zle_Qle; nia).
  destruct (round_flt (x / inject_Z b)) as [y|] eqn:Y; [|discriminate].
  assert (Y0 : (0 <= y)%Q). { apply (round_nonneg _ _) with (2 := Y). apply Qle_shift_div_l; [change 0%Q with (inject_Z 0); rewrite <- Zlt_Qlt; exact B|]. rewrite Qmult_0_l. exact X0. }
  assert (F : (0 <= Qfloor y)%Z) by (change 0%Z with (Qfloor 0); apply Qfloor_resp_le; exact Y0).
  injection H as <-. destruct (Qle_bool _ _); lia.
Qed.
Open Scope Z_scope.
Lemma carry_cases : forall s z, 0 <= z -> unsigned_float s -> float_carry z s = Err EValueError \/ exists c, 0 <= c /\ float_carry z s = Ok c.
Proof.
  intros s z Z0 U. unfold float_carry. destruct (float_value s) as [x|] eqn:X; [|left; reflexivity]. pose proof (float_value_nonneg s x U X) as X0.
  destruct (round_flt (inject_Z z + x)) as [y|] eqn:Y; [|left; reflexivity].
  assert (Y0 : (0 <= y)%Q). { apply (round_nonneg _ _) with (2 := Y). assert (0 <= inject_Z z)%Q by (change 0%Q with (inject_Z 0); rewrite <- Zle_Qle; exact Z0). lra. }
  destruct (floor_div y 60) as [c|] eqn:C; [|left; reflexivity]. right. exists c. split; [|reflexivity]. exact (floor_div_nonneg y 60 c Y0 ltac:(lia) C).
Qed.
Lemma c175_raises : forall t text dur s, 1 <= tm_mday t -> 0 <= tm_hour t -> 0 <= tm_min t -> 0 <= tm_sec t ->
  parse_duration text = Ok (true, dur) -> 0 <= d_hour dur -> 0 <= d_min dur -> d_sec dur = DFlt s -> unsigned_float s ->
  exists k e, In e [ETypeError; EValueError; EOverflowError] /\ forall n, (k <= n)%nat -> add_duration n t text = Err e.
Proof.
  intros t text dur s Hd Hh Hmi Hs HP N4 N5 N6 U. unfold add_duration. rewrite HP. cbn [bind]. unfold add_to. rewrite N6. unfold add_fraction.
  rewrite modulo_13. cbn [bind]. rewrite fq_13. cbn [bind]. cbn zeta.
  destruct (carry_cases s (tm_sec t) Hs U) as [E|(c & C & E)]; rewrite E; cbn [bind].
  - exists O, EValueError. split; [right; left; reflexivity|]. reflexivity.
  - rewrite fq_60. cbn [bind]. rewrite fq_60. cbn [bind].
    pose proof (month_range (tm_mon t + d_mon dur - 1)) as Hm. rewrite (max_day_dim _ _ Hm). cbn [bind].
    set (month := (tm_mon t + d_mon dur - 1) mod 12 + 1) in *. set (year := tm_year t + d_year dur + (tm_mon t + d_mon dur - 1) / 12).
    pose proof (dim_bound year _ Hm) as B. rewrite clamp by lia.
    set (c4 := (tm_hour t + d_hour dur + (tm_min t + d_min dur + c) / 60) / 60). assert (C4 : 0 <= c4) by (subst c4; lia). clearbody c4.
    set (days := Z.max 1 (Z.min (dim year month) (d_mday dur)) + tm_mday t + c4).
    destruct (day_loop_ok (Z.to_nat days) year month days c4) as [y' [m' [d' [G _]]]]; [lia|exact Hm|subst days; lia|].
    exists (Z.to_nat days), (if int32 y' then ETypeError else EOverflowError). split; [destruct (int32 y'); cbn; auto|].
    intros n Hn. rewrite (G n Hn). cbn [bind]. destruct (int32 y'); reflexivity.
Qed.
Lemma special_value : forall a g t b, blanks a -> blanks b -> sign g -> special t -> float_value (a ++ g ++ t ++ b) = None.
Proof.
  intros a g t b A B G T. unfold float_value. destruct (special_head t T) as (c & r & Et & C1 & C2).
  assert (X : strip (a ++ g ++ t ++ b) = g ++ t).
  { rewrite (app_assoc g t b). apply strip_solid; [exact A|exact B|apply solid_app; [apply sign_solid; exact G|apply special_solid; exact T]|rewrite Et; destruct g; discriminate]. }
  rewrite X. cbn zeta. rewrite sign_off_app; [|exact G|intros c' r' E; rewrite Et in E; injection E as <- <-; split; assumption]. rewrite (proj2 (special_iff t) T). reflexivity.
Qed.
Lemma c175_texts : forall s, float_text s -> (exists neg n k, decimal_text s neg n k) \/ (exists a g t b, s = a ++ g ++ t ++ b /\ blanks a /\ blanks b /\ sign g /\ special t).
Proof.
  intros s (a & g & t & b & -> & A & B & G & [T|(m & e & -> & M & E)]); [right; exists a, g, t, b; auto|left].
  assert (M' : exists n p, mantissa_is m n p). { destruct M as [d [n D]|d [n D]|f [n D]|d f [n D] [n' D']]; eexists _, _; [apply MiInt, D|apply MiPoint, D|apply MiFrac, D|apply MiBoth; [exact D|exact D']]. }
  assert (E' : exists x, exponent_is e x). { destruct E as [|c g' d C G' [n D]]; eexists; [apply EiNone|apply EiSome; [exact C|exact G'|exact D]]. }
  destruct M' as (n & p & M'), E' as (x & E'). exists (ueqb g (u "-")), n, (x - Z.of_nat p). exists a, g, m, e, b, p, x. auto 10.
Qed.
