(** Lemmas on the time stamps and dates of identity_assurance.py. *)
From Coq Require Import List NArith ZArith Bool String Lia ZifyBool ZifyN.
From Verif Require Import Base.Ustr Base.UstrLemmas Model.Cls Model.Value Model.Pspec Model.Tables Model.Message Model.Calendar Model.TimeUtil Spec.TimeSpec
  Proofs.MessageLemmas Proofs.CalendarLemmas Proofs.DateLemmas Proofs.TimeLemmas.
Import ListNotations.
Open Scope list_scope.
Open Scope Z_scope.
Ltac Zify.zify_post_hook ::= Z.div_mod_to_equations.

Lemma match_stamp_eq : forall s, match_stamp s = hd_error (
  pseq (p_year s) (p_lit 45) (fun y r => pseq (p_month r) (p_lit 45) (fun m r => pseq (p_day r) (p_letter 84) (fun d r =>
  pseq (p_hour r) (p_lit 58) (fun h r => pseq (p_min r) (p_lit 58) (fun mi r =>
  flat_map (fun sr => let '(se, r) := sr in map (fun r => (y, m, d, h, mi, se, r)) (p_signed r)) (p_sec r))))))).
Proof. reflexivity. Qed.
Lemma seq_sec_signed : forall A m r (k : N -> ustr -> A), 0 <= m < 60 ->
  flat_map (fun sr => let '(se, r) := sr in map (k se) (p_signed r)) (p_sec (dig2 m ++ 43%N :: r)) = [k (Z.to_N m) (43%N :: r)].
Proof. intros A m r k H. assert (G : In m (zfrom 0 60)) by (apply in_zfrom; lia). clear H. each G. Qed.
Lemma match_stamp_ok : forall t r, wf t -> 0 <= tm_year t <= 9999 ->
  match_stamp (iso_base t ++ 43%N :: r) = Some (Z.to_N (tm_year t), Z.to_N (tm_mon t), Z.to_N (tm_mday t),
    Z.to_N (tm_hour t), Z.to_N (tm_min t), Z.to_N (tm_sec t), 43%N :: r).
Proof.
  intros t r [W1 W2 W3 W4 W5] Hy. pose proof (dim_bound (tm_year t) _ W1) as B. rewrite match_stamp_eq, iso_split.
  rewrite seq_year by lia. rewrite seq_month by lia. rewrite seq_day by lia. rewrite seq_hour by lia. rewrite seq_min by lia.
  rewrite seq_sec_signed by lia. reflexivity.
Qed.
Lemma stamp_text : forall t, wf t -> 1000 <= tm_year t <= 9999 ->
  (dec_Z (tm_year t) ++ u "-" ++ pad2 (tm_mon t) ++ u "-" ++ pad2 (tm_mday t)) ++ u "T" ++
  pad2 (tm_hour t) ++ u ":" ++ pad2 (tm_min t) ++ u ":" ++ pad2 (tm_sec t) ++ u "+0000" = iso_base t ++ u "+0000".
Proof.
  intros t [W1 W2 W3 W4 W5] Hy. pose proof (dim_bound (tm_year t) _ W1) as B.
  rewrite (dec_dig4 _ Hy), !pad2_dig by lia. reflexivity.
Qed.

Lemma late_enough : forall z t, gmtime z = Ok t -> 2 <= tm_year t -> -62135510400 <= z.
Proof.
  intros z t H Hy. destruct (Z.le_gt_cases (-62135510400) z) as [L|L]; [exact L|exfalso].
  pose proof (gmtime_is_wf _ _ H) as [W1 W2 W3 W4 W5]. apply gmtime_ok in H. destruct (gmtime_wf z) as [_ E]. rewrite <- H in E.
  unfold secs in E. rewrite seconds_split in E.
  assert (G : tm_year t <= 1); [|lia].
  apply (year_le (tm_year t) (tm_mon t) (tm_mday t) 1 1 2); try assumption; try lia.
  - change (dim 1 1) with 31. lia.
  - change (epoch_days 1 1 2) with (-719161). lia.
Qed.

Lemma stamp_back : forall now z t, gmtime z = Ok t -> 1000 <= tm_year t <= 9999 -> z <> 0 ->
  exists s, to_iso_at now false z = Ok s /\ from_iso_time s = Ok z.
Proof.
  intros now z t H Hy Hz. pose proof (gmtime_is_wf _ _ H) as W. exists (iso_base t ++ u "+0000"). split.
  - unfold to_iso_at. replace (z =? 0) with false by lia. rewrite H. cbn [bind].
    replace (tm_year t <? 1) with false by lia. replace (9999 <? tm_year t) with false by lia.
    assert (L : -62135510400 <= z).
    { exact (late_enough z t H ltac:(lia)). }
    replace (z <? -62135510400) with false by lia. cbn [orb]. rewrite stamp_text by assumption. reflexivity.
  - unfold from_iso_time. rewrite forallb_app, iso_ascii. change (forallb is_ascii (u "+0000")) with true. cbn [andb].
    change (u "+0000") with (43%N :: u "0000"). rewrite (match_stamp_ok t _ W) by lia.
    change (parse_zone (43%N :: u "0000")) with (@Ok Z 0). cbn [bind].
    destruct W as [W1 W2 W3 W4 W5]. rewrite (valid_date_of (tm_year t) _ _ ltac:(lia) W1 W2).
    replace (Z.to_N (tm_sec t) <? 60)%N with true by lia. cbn [andb]. rewrite !Z2N.id by lia.
    f_equal. apply gmtime_ok in H. destruct (gmtime_wf z) as [_ E]. rewrite <- H in E. unfold secs in E. lia.
Qed.

(** dates *)
Lemma ymd_month : forall A m r (k : N -> ustr -> list A), 1 <= m <= 12 ->
  List.concat (map (fun mr => let '(m, r) := mr in List.concat (map (k m) (p_lit 45 r))) (p_month (dig2 m ++ 45%N :: r))) = k (Z.to_N m) r.
Proof. intros A m r k H. assert (G : In m (zfrom 1 12)) by (apply in_zfrom; lia). clear H. each G. Qed.
Lemma ymd_day : forall y m d, 1 <= d <= 31 ->
  hd_error (map (fun dr => let '(d, r) := dr in (y : N, m : N, d, r)) (p_day (dig2 d))) = Some (y, m, Z.to_N d, []).
Proof. intros y m d H. assert (G : In d (zfrom 1 31)) by (apply in_zfrom; lia). clear H. each G. Qed.
Definition iso_date (t : tm) : ustr := dig4 (tm_year t) ++ 45%N :: dig2 (tm_mon t) ++ 45%N :: dig2 (tm_mday t).
Lemma match_ymd_ok : forall t, wf t -> 0 <= tm_year t <= 9999 ->
  match_ymd (iso_date t) = Some (Z.to_N (tm_year t), Z.to_N (tm_mon t), Z.to_N (tm_mday t), []).
Proof.
  intros t [W1 W2 W3 W4 W5] Hy. pose proof (dim_bound (tm_year t) _ W1) as B. unfold match_ymd, iso_date.
  assert (Y : p_year (dig4 (tm_year t) ++ 45%N :: dig2 (tm_mon t) ++ 45%N :: dig2 (tm_mday t)) =
    [(Z.to_N (tm_year t), 45%N :: dig2 (tm_mon t) ++ 45%N :: dig2 (tm_mday t))]).
  { unfold dig4. cbn [app p_year]. rewrite !dig_digit. cbn [andb]. do 2 f_equal. unfold dig. lia. }
  rewrite Y. cbn [map List.concat]. rewrite app_nil_r. cbn [p_lit]. change (45 =? 45)%N with true. cbn [map List.concat]. rewrite app_nil_r.
  rewrite (ymd_month _ (tm_mon t) (dig2 (tm_mday t))
    (fun m r => map (fun dr => let '(d, r) := dr in (Z.to_N (tm_year t), m, d, r)) (p_day r)) ltac:(lia)).
  apply ymd_day. lia.
Qed.
Lemma date_text : forall t, wf t -> 1000 <= tm_year t <= 9999 ->
  dec_Z (tm_year t) ++ u "-" ++ pad2 (tm_mon t) ++ u "-" ++ pad2 (tm_mday t) = iso_date t.
Proof.
  intros t [W1 W2 W3 W4 W5] Hy. pose proof (dim_bound (tm_year t) _ W1) as B.
  rewrite (dec_dig4 _ Hy), !pad2_dig by lia. reflexivity.
Qed.
Lemma date_back : forall now z t, gmtime z = Ok t -> 1000 <= tm_year t <= 9999 -> z <> 0 ->
  exists s, to_iso_at now true z = Ok s /\ from_iso_date s = Ok (z - z mod 86400).
Proof.
  intros now z t H Hy Hz. pose proof (gmtime_is_wf _ _ H) as W. exists (iso_date t). split.
  - unfold to_iso_at. replace (z =? 0) with false by lia. rewrite H. cbn [bind].
    replace (tm_year t <? 1) with false by lia. replace (9999 <? tm_year t) with false by lia.
    assert (L : -62135510400 <= z) by exact (late_enough z t H ltac:(lia)).
    replace (z <? -62135510400) with false by lia. cbn [orb]. rewrite date_text by assumption. reflexivity.
  - unfold from_iso_date. assert (A : forallb is_ascii (iso_date t) = true).
    { unfold iso_date, dig4, dig2. cbn [app forallb]. rewrite !dig_ascii. reflexivity. }
    rewrite A, (match_ymd_ok t W) by lia. destruct W as [W1 W2 W3 W4 W5]. cbn [is_nil andb].
    rewrite (valid_date_of (tm_year t) _ _ ltac:(lia) W1 W2). replace (Z.to_N (tm_year t) =? 1)%N with false by lia. cbn [andb negb].
    rewrite !Z2N.id by lia. f_equal. apply gmtime_ok in H. destruct (gmtime_wf z) as [_ E]. rewrite <- H in E.
    unfold secs in E. rewrite seconds_split in E. rewrite seconds_split. lia.
Qed.

(** ** a time stamp as it is written is no number *)
Lemma lstrip_app : forall f x y, lstrip_by f (x ++ y) = if forallb f x then lstrip_by f y else lstrip_by f x ++ y.
Proof. intros f x y. induction x as [|c x IH]; [reflexivity|]. cbn [app lstrip_by forallb]. destruct (f c); [exact IH|reflexivity]. Qed.
Lemma strip_keeps : forall f p c r, forallb f p = false -> f c = false -> (forall h t, p = h :: t -> f h = false) ->
  exists r', strip_by f (p ++ c :: r) = p ++ c :: r'.
Proof.
  intros f p c r Hp Hc Hh. unfold strip_by. destruct p as [|h t]; [discriminate|]. specialize (Hh h t eq_refl).
  assert (E : lstrip_by f ((h :: t) ++ c :: r) = (h :: t) ++ c :: r) by (cbn [app lstrip_by]; rewrite Hh; reflexivity).
  rewrite E. rewrite rev_app_distr. change (rev (c :: r)) with (rev r ++ [c]). rewrite <- app_assoc, lstrip_app.
  destruct (forallb f (rev r)).
  - change ([c] ++ rev (h :: t)) with (c :: rev (h :: t)). cbn [lstrip_by]. rewrite Hc. exists [].
    change (c :: rev (h :: t)) with ([c] ++ rev (h :: t)). rewrite rev_app_distr, rev_involutive. reflexivity.
  - exists (rev (lstrip_by f (rev r))). rewrite !rev_app_distr, rev_involutive, <- app_assoc. reflexivity.
Qed.
Lemma stamp_head : forall s x, match_stamp s = Some x ->
  exists a b c d r, s = [a; b; c; d] ++ 45%N :: r /\ is_digit a = true /\ is_digit b = true /\ is_digit c = true /\ is_digit d = true.
Proof.
  intros s x H. rewrite match_stamp_eq in H. destruct s as [|a [|b [|c [|d s]]]]; try discriminate. cbn [p_year] in H.
  destruct (is_digit a && is_digit b && is_digit c && is_digit d) eqn:E; [|discriminate]. rewrite !andb_true_iff in E.
  destruct E as [[[E1 E2] E3] E4]. unfold pseq at 1 in H. cbn [flat_map] in H. destruct s as [|h s]; [discriminate|].
  cbn [p_lit] in H. destruct (h =? 45)%N eqn:Eh; [|discriminate]. apply N.eqb_eq in Eh. subst h. exists a, b, c, d, s. auto.
Qed.
Lemma stamp_not_int : forall s z, from_iso_time s = Ok z -> py_int_str s = Err EValueError.
Proof.
  intros s z H. unfold from_iso_time in H. unfold py_int_str. destruct (forallb is_ascii s); [|discriminate].
  destruct (match_stamp s) as [x|] eqn:E; [|discriminate]. clear H. apply stamp_head in E.
  destruct E as (a & b & c & d & r & -> & Ha & Hb & Hc & Hd).
  assert (Sp : forall x, is_digit x = true -> is_space x = false).
  { intros x0 Hx. apply is_digit_iff in Hx. unfold is_space. lia. }
  destruct (strip_keeps is_space [a; b; c; d] 45%N r) as [r' Hr]; [cbn [forallb]; rewrite (Sp a Ha); reflexivity|reflexivity| |].
  { intros h t Eh. injection Eh as <- _. exact (Sp a Ha). }
  unfold strip. rewrite Hr. cbn [app]. assert (A : (a =? 45)%N = false /\ (a =? 43)%N = false) by (apply is_digit_iff in Ha; lia).
  destruct A as [-> ->]. cbn [digits_us]. rewrite Ha, Hb, Hc, Hd. change (is_digit 45) with false. change ((45 =? 95)%N) with false. reflexivity.
Qed.

Lemma stamp_unwritable : forall c d k p s z, dget (cd_param (cdef c)) k = Some p -> p_ser p = Some SerTime ->
  In (k, VStr s) d -> from_iso_time s = Ok z -> exists e, to_dict (cdef c) d = Err e.
Proof.
  intros c d k p s z Hp Hs Hin Hz. destruct (to_dict (cdef c) d) as [r|e] eqn:E; [exfalso|eauto]. unfold to_dict in E.
  assert (G : exists r, mapM (fun kv => match td_entry to_dict_v (ser_of (cd_param (cdef c)) (fst kv)) (snd kv) with
                  | Ok y => Ok (fst kv, y)
                  | Err e => Err e
                  end) d = Ok r) by eauto.
  rewrite mapM_ok_iff in G. destruct (G _ Hin) as [y Hy]. cbn [fst snd] in Hy.
  assert (F : td_entry to_dict_v (ser_of (cd_param (cdef c)) k) (VStr s) = Err EValueError); [|rewrite F in Hy; discriminate].
  assert (Sk : ser_of (cd_param (cdef c)) k = Some SerTime).
  { unfold ser_of, spec_of. rewrite Hp. exact Hs. }
  rewrite Sk. cbn [td_entry ser_dict stamp_ser py_int]. rewrite (stamp_not_int s z Hz). reflexivity.
Qed.
Lemma stamp_zero : forall now t, gmtime now = Ok t -> 1000 <= tm_year t <= 9999 -> now <> 0 ->
  exists s, to_iso_at now false 0 = Ok s /\ from_iso_time s = Ok now.
Proof.
  intros now t H Hy Hn. destruct (stamp_back now now t H Hy Hn) as (s & H1 & H2). exists s. split; [|exact H2].
  rewrite <- H1. unfold to_iso_at. replace (now =? 0) with false by lia. reflexivity.
Qed.
