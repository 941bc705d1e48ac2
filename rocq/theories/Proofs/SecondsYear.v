(** C175: which exception seconds with a fraction raise. *)
From Coq Require Import List NArith ZArith QArith Qround Bool String Lia Lqa ZifyBool ZifyN.
From Verif Require Import Base.Ustr Model.Float Model.Value Model.Calendar Model.TimeUtil Spec.FloatSpec Spec.TimeSpec Proofs.CalendarLemmas Proofs.TimeLemmas Proofs.FloatLemmas Proofs.TokenLemmas Proofs.FractionLemmas Proofs.SecondsLemmas.
Open Scope Z_scope.
Lemma floor_div_small : forall y b, (0 <= y)%Q -> (y < inject_Z (2 ^ 53))%Q -> 0 < b -> floor_div y b = Some (Qfloor (y / inject_Z b)).
Proof.
  intros y b Y0 Y1 B. destruct y as [n d]. unfold Qle, Qlt in Y0, Y1. cbn [Qnum Qden inject_Z] in Y0, Y1. unfold floor_div. cbn [Qnum Qden]. cbn zeta.
  assert (N0 : 0 <= n) by lia. assert (D : 0 < Zpos d * b) by nia.
  assert (E : Z.quot n (Zpos d * b) = n / (Zpos d * b)) by (apply Z.quot_div_nonneg; lia).
  rewrite E. set (q := n / (Zpos d * b)). assert (Q0 : 0 <= q) by (subst q; apply Z.div_pos; lia).
  assert (L : q * (Zpos d * b) <= n) by (subst q; rewrite Z.mul_comm; apply Z.mul_div_le; lia).
  replace (n <? q * b * Zpos d) with false by lia.
  assert (S : q * b < 2 ^ 53) by nia.
  rewrite (proj2 (round_flt_iff (inject_Z (q * b)) (inject_Z (q * b)))); [|apply whole_rounded; nia].
  assert (R : rounded (inject_Z (q * b) / inject_Z b) (inject_Z q)).
  { apply rounded_compat with (r := inject_Z q); [|apply whole_rounded; nia]. rewrite inject_Z_mult. field. intro H. unfold Qeq in H. cbn in H. lia. }
  rewrite (proj2 (round_flt_iff _ _) R). rewrite Qfloor_Z. replace (Qle_bool (inject_Z q - inject_Z q) (1 # 2)) with true.
  - f_equal. assert (X : ((n # d) / inject_Z b == (n # (d * Z.to_pos b)))%Q). { destruct b as [|b|b]; [lia| |lia]. unfold Qdiv, Qinv, inject_Z, Qmult, Qeq. cbn. lia. }
    rewrite X. unfold Qfloor. subst q. f_equal. rewrite Pos2Z.inj_mul, Z2Pos.id by lia. reflexivity.
  - symmetry. apply Qle_bool_iff. assert (W : (inject_Z q - inject_Z q == 0)%Q) by ring. rewrite W. discriminate.
Qed.

Lemma carry_floor : forall s z x y, 0 <= z -> (0 <= x)%Q -> float_value s = Some x -> rounds (inject_Z z + x) y -> (y < inject_Z (2 ^ 53))%Q ->
  float_carry z s = Ok (Qfloor (y / inject_Z 60)).
Proof.
  intros s z x y Z0 X0 X R Y. unfold float_carry. rewrite X. assert (P : (0 <= inject_Z z + x)%Q).
  { assert (0 <= inject_Z z)%Q by (change 0%Q with (inject_Z 0); rewrite <- Zle_Qle; exact Z0). lra. }
  rewrite (proj2 (round_flt_iff (inject_Z z + x) y) (or_introl (conj P R))). rewrite floor_div_small; [reflexivity|exact (rounds_pos _ _ P R)|exact Y|lia].
Qed.
Lemma c175_infinite : forall n t text dur s, parse_duration text = Ok (true, dur) -> d_sec dur = DFlt s -> float_value s = None ->
  add_duration n t text = Err EValueError.
Proof.
  intros n t text dur s HP N6 F. unfold add_duration. rewrite HP. cbn [bind]. unfold add_to. rewrite N6. unfold add_fraction.
  rewrite modulo_13. cbn [bind]. rewrite fq_13. cbn [bind]. cbn zeta. unfold float_carry. rewrite F. reflexivity.
Qed.
Lemma c175_year : forall t text dur s x y, 1 <= tm_mday t -> 0 <= tm_hour t -> 0 <= tm_min t -> 0 <= tm_sec t ->
  parse_duration text = Ok (true, dur) -> 0 <= d_hour dur -> 0 <= d_min dur -> d_sec dur = DFlt s ->
  float_value s = Some x -> (0 <= x)%Q -> rounds (inject_Z (tm_sec t) + x) y -> (y < inject_Z (2 ^ 53))%Q ->
  let months := tm_mon t + d_mon dur - 1 in
  let year := tm_year t + d_year dur + months / 12 in
  let month := months mod 12 + 1 in
  let minutes := tm_min t + d_min dur + Qfloor (y / inject_Z 60) in
  let carry := (tm_hour t + d_hour dur + minutes / 60) / 60 in
  exists k l y' m' d' l', month_length year month l /\ month_length y' m' l' /\ 1 <= d' <= l' /\
    epoch_days y' m' d' = epoch_days year month 1 + Z.max 1 (Z.min l (d_mday dur)) + tm_mday t + carry - 1 /\
    forall n, (k <= n)%nat -> add_duration n t text = Err (if (-2147483648 <=? y') && (y' <=? 2147483647) then ETypeError else EOverflowError).
Proof.
  intros t text dur s x y Hd Hh Hmi Hs HP N4 N5 N6 X X0 R Y months year month minutes carry. unfold add_duration. rewrite HP. cbn [bind]. unfold add_to. rewrite N6. unfold add_fraction.
  rewrite modulo_13. cbn [bind]. rewrite fq_13. cbn [bind]. cbn zeta. rewrite (carry_floor s (tm_sec t) x y Hs X0 X R Y). cbn [bind].
  rewrite fq_60. cbn [bind]. rewrite fq_60. cbn [bind].
  pose proof (month_range months) as Hm. fold months. fold month. fold month in Hm. rewrite (max_day_dim _ _ Hm). cbn [bind]. fold year. fold minutes. fold carry.
  pose proof (dim_bound year _ Hm) as B. fold month in B. fold month. rewrite clamp by lia.
  assert (Y0 : (0 <= y)%Q). { apply (rounds_pos _ _) with (2 := R). assert (0 <= inject_Z (tm_sec t))%Q by (change 0%Q with (inject_Z 0); rewrite <- Zle_Qle; exact Hs). lra. }
  assert (C0 : 0 <= Qfloor (y / inject_Z 60)). { change 0 with (Qfloor 0). apply Qfloor_resp_le. apply Qle_shift_div_l; [reflexivity|]. rewrite Qmult_0_l. exact Y0. }
  assert (C4 : 0 <= carry) by (subst carry minutes; lia). clearbody carry.
  set (days := Z.max 1 (Z.min (dim year month) (d_mday dur)) + tm_mday t + carry).
  destruct (day_loop_ok (Z.to_nat days) year month days carry) as [y' [m' [d' [G [G2 [G3 G4]]]]]]; [lia|exact Hm|subst days; lia|].
  exists (Z.to_nat days), (dim year month), y', m', d', (dim y' m'). split; [apply month_length_iff; [exact Hm|reflexivity]|]. split; [apply month_length_iff; [exact G2|reflexivity]|].
  split; [exact G3|]. split; [rewrite G4; subst days; lia|]. intros n Hn. rewrite (G n Hn). cbn [bind]. unfold int32. destruct ((-2147483648 <=? y') && (y' <=? 2147483647)); reflexivity.
Qed.
Lemma sample_sums : rounds (inject_Z 30 + (27 # 4)) (147 # 4) /\ rounds (inject_Z 30 + inject_Z 1000000000) (inject_Z 1000000030).
Proof.
  split; (match goal with |- rounds ?a ?b => assert (H : rounded a b) by (apply round_flt_iff; vm_compute; reflexivity) end);
    (destruct H as [[_ H]|[H _]]; [exact H|vm_compute in H; discriminate H]).
Qed.
