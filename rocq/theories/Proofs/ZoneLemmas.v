(** Time stamps with zone offsets. *)
From Coq Require Import List NArith ZArith QArith Bool String Lia ZifyBool ZifyN.
From Verif Require Import Base.Ustr Base.UstrLemmas Model.Cls Model.Value Model.Calendar Model.TimeUtil Spec.TimeSpec Spec.ZoneSpec
  Model.Pspec Model.Tables Model.Message Spec.MessageSpec Base.Percent Proofs.ValueLemmas
  Proofs.MessageLemmas Proofs.CalendarLemmas Proofs.DateLemmas Proofs.TimeLemmas Proofs.StampLemmas Proofs.EncodeLemmas.
Import ListNotations.
Open Scope list_scope.
Open Scope Z_scope.
Ltac Zify.zify_post_hook ::= Z.div_mod_to_equations.

Lemma seq_sec_sign : forall A c m r (k : N -> ustr -> A), In c [43%N; 45%N; 90%N] -> 0 <= m < 60 ->
  flat_map (fun sr => let '(se, r) := sr in map (k se) (p_signed r)) (p_sec (dig2 m ++ c :: r)) = [k (Z.to_N m) (c :: r)].
Proof.
  intros A c m r k Hc H. assert (G : In m (zfrom 0 60)) by (apply in_zfrom; lia). clear H.
  cbn [In] in Hc. destruct Hc as [<-|[<-|[<-|[]]]]; each G.
Qed.
Lemma match_stamp_sign : forall t c r, In c [43%N; 45%N; 90%N] -> wf t -> 0 <= tm_year t <= 9999 ->
  match_stamp (iso_base t ++ c :: r) = Some (Z.to_N (tm_year t), Z.to_N (tm_mon t), Z.to_N (tm_mday t),
    Z.to_N (tm_hour t), Z.to_N (tm_min t), Z.to_N (tm_sec t), c :: r).
Proof.
  intros t c r Hc [W1 W2 W3 W4 W5] Hy. pose proof (dim_bound (tm_year t) _ W1) as B. rewrite match_stamp_eq, iso_split.
  rewrite seq_year by lia. rewrite seq_month by lia. rewrite seq_day by lia. rewrite seq_hour by lia. rewrite seq_min by lia.
  rewrite seq_sec_sign by (assumption || lia). reflexivity.
Qed.

Lemma dig_range : forall z, (48 <= dig z <= 57)%N.
Proof. intro z. unfold dig. lia. Qed.
Lemma dig_tens : forall m, 0 <= m < 60 -> between 48 53 (dig (m / 10)) = true.
Proof. intros m H. unfold between, dig. lia. Qed.
Lemma digit2_dig : forall h, 0 <= h < 100 -> digit2 (dig (h / 10)) (dig h) = h.
Proof. intros h H. unfold digit2, dig. lia. Qed.
Lemma dig_no_colon : forall z r, colon_off (dig z :: r) = (false, dig z :: r).
Proof.
  intros z r. pose proof (dig_range z) as R. unfold colon_off. destruct (dig z) as [|p]; [reflexivity|].
  do 6 (destruct p as [p|p|]; try reflexivity). all: exfalso; lia.
Qed.
Lemma zone_sum_ok : forall sg h m s, 0 <= h < 24 -> 0 <= m < 60 -> 0 <= s < 60 ->
  zone_sum sg h m s = Ok (if (sg =? 45)%N then - (h * 3600 + m * 60 + s) else h * 3600 + m * 60 + s).
Proof. intros sg h m s H1 H2 H3. unfold zone_sum. cbv zeta. replace (h * 3600 + m * 60 + s <? 86400) with true by lia. reflexivity. Qed.

Lemma parse_zone_ok : forall zt off, zone_offset zt off -> parse_zone zt = Ok off.
Proof.
  intros zt off H. destruct H as [|sg c h m Hs Hc Hh Hm|sg c h m s Hs Hc Hh Hm Hse]; [reflexivity| |].
  - assert (Es : ((sg =? 43) || (sg =? 45))%N = true) by (destruct Hs as [->| ->]; reflexivity).
    destruct Hc as [->| ->]; unfold dig2; cbn [app].
    + unfold parse_zone. rewrite Es, !dig_digit. cbn [andb].
      rewrite dig_no_colon, dig_tens, dig_digit by assumption. cbn [andb].
      rewrite !digit2_dig, zone_sum_ok by lia. destruct Hs as [->| ->]; reflexivity.
    + unfold parse_zone. rewrite Es, !dig_digit. cbn [andb]. change (u ":") with [58%N]. cbn [app colon_off].
      rewrite dig_tens, dig_digit by assumption. cbn [andb].
      rewrite !digit2_dig, zone_sum_ok by lia. destruct Hs as [->| ->]; reflexivity.
  - assert (Es : ((sg =? 43) || (sg =? 45))%N = true) by (destruct Hs as [->| ->]; reflexivity).
    destruct Hc as [->| ->]; unfold dig2; cbn [app].
    + unfold parse_zone. rewrite Es, !dig_digit. cbn [andb].
      rewrite dig_no_colon, dig_tens, dig_digit by assumption. cbn [andb].
      rewrite dig_no_colon, dig_tens, dig_digit by assumption. cbn [andb Bool.eqb].
      rewrite !digit2_dig, zone_sum_ok by lia. destruct Hs as [->| ->]; reflexivity.
    + unfold parse_zone. rewrite Es, !dig_digit. cbn [andb]. change (u ":") with [58%N]. cbn [app colon_off].
      rewrite dig_tens, dig_digit by assumption. cbn [andb app colon_off].
      rewrite dig_tens, dig_digit by assumption. cbn [andb Bool.eqb].
      rewrite !digit2_dig, zone_sum_ok by lia. destruct Hs as [->| ->]; reflexivity.
Qed.
Lemma zone_head : forall zt off, zone_offset zt off -> forallb is_ascii zt = true /\
  exists c r, zt = c :: r /\ In c [43%N; 45%N; 90%N].
Proof.
  intros zt off H. destruct H as [|sg c h m Hs Hc Hh Hm|sg c h m s Hs Hc Hh Hm Hse].
  - split; [reflexivity|]. exists 90%N, []. cbn. auto.
  - split; [|exists sg; eexists; split; [reflexivity|cbn; destruct Hs as [->| ->]; auto]].
    destruct Hs as [->| ->], Hc as [->| ->]; unfold dig2; try change (u ":") with [58%N]; cbn [app forallb]; rewrite !dig_ascii; reflexivity.
  - split; [|exists sg; eexists; split; [reflexivity|cbn; destruct Hs as [->| ->]; auto]].
    destruct Hs as [->| ->], Hc as [->| ->]; unfold dig2; try change (u ":") with [58%N]; cbn [app forallb]; rewrite !dig_ascii; reflexivity.
Qed.

Lemma zone_instant : forall z off t zt, gmtime (z + off) = Ok t -> 1 <= tm_year t <= 9999 -> zone_offset zt off ->
  from_iso_time (iso_base t ++ zt) = Ok z.
Proof.
  intros z off t zt H Hy Hz. pose proof (gmtime_is_wf _ _ H) as W. pose proof (parse_zone_ok _ _ Hz) as Hp.
  destruct (zone_head _ _ Hz) as [Ha [c [r [-> Hc]]]].
  unfold from_iso_time. rewrite forallb_app, iso_ascii, Ha. cbn [andb].
  rewrite (match_stamp_sign t c r Hc W) by lia. rewrite Hp. cbn [bind].
  destruct W as [W1 W2 W3 W4 W5]. rewrite (valid_date_of (tm_year t) _ _ ltac:(lia) W1 W2).
  replace (Z.to_N (tm_sec t) <? 60)%N with true by lia. cbn [andb]. rewrite !Z2N.id by lia.
  f_equal. apply gmtime_ok in H. destruct (gmtime_wf (z + off)) as [_ E]. rewrite <- H in E. unfold secs in E. lia.
Qed.

(** ** a time stamp in a query string *)
Lemma stamp_specs : forall c k p, dget (cd_param (cdef c)) k = Some p -> p_ser p = Some SerTime ->
  p_typ p = TStr /\ p_deser p = Some DeTime.
Proof.
  intros c k p H Hs. apply dget_In in H.
  assert (F : forallb (fun kp : ustr * pspec => match p_ser (snd kp) with
      | Some SerTime => match p_typ (snd kp), p_deser (snd kp) with TStr, Some DeTime => true | _, _ => false end
      | _ => true end) (cd_param (cdef c)) = true) by (destruct c; vm_compute; reflexivity).
  rewrite forallb_forall in F. specialize (F _ H). cbn [snd] in F. rewrite Hs in F.
  destruct (p_typ p), (p_deser p) as [[]|]; try discriminate. split; reflexivity.
Qed.
Lemma stamp_query : forall c k p q s z t, dget (cd_param (cdef c)) k = Some p -> p_ser p = Some SerTime ->
  ~ In 38%N q -> field_gives q k s -> from_iso_time s = Ok z ->
  gmtime z = Ok t -> 1000 <= tm_year t <= 9999 -> z <> 0 ->
  from_urlencoded (cdef c) [] q = ([(k, VFlt (inject_Z z))], Ok tt) /\
  exists s', to_dict (cdef c) [(k, VFlt (inject_Z z))] = Ok [(k, VStr s')] /\ from_iso_time s' = Ok z.
Proof.
  intros c k p q s z t Hp Hs Hq Hf Hz Ht Hy Hn. destruct (stamp_specs c k p Hp Hs) as [Tp Td].
  assert (Sk : spec_of (cd_param (cdef c)) k = Some p) by (unfold spec_of; rewrite Hp; reflexivity).
  split.
  - assert (Q : Percent.parse_qs q = [(k, [s])]).
    { unfold Percent.parse_qs, Percent.parse_qsl. rewrite split_on_none.
      2: { destruct (has_char 38 q) eqn:E; [apply has_char_In in E; contradiction|reflexivity]. }
      cbn [flat_map]. rewrite (field_gives_parse _ _ _ Hf). reflexivity. }
    unfold from_urlencoded. rewrite (from_qs_fields _ _ _ _ _ _ Q). cbn [from_fields]. unfold fu_entry. rewrite Sk, Tp, Td.
    change (l_deser the_lib DeTime (VStr s) Furl) with (stamp_deser false (VStr s)). cbn [stamp_deser]. rewrite Hz. reflexivity.
  - destruct (stamp_back 0 z t Ht Hy Hn) as (s' & S1 & S2). exists s'. split; [|exact S2].
    unfold to_dict. cbn [mapM fst snd]. unfold ser_of. rewrite Sk. cbn [option_map]. rewrite Hs.
    cbn [td_entry ser_dict stamp_ser py_int]. unfold Qtrunc, inject_Z. cbn [Qnum Qden]. rewrite Z.quot_1_r. cbn [bind].
    unfold to_iso. replace (z =? 0) with false by lia. rewrite S1. reflexivity.
Qed.
