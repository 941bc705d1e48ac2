(** What is read as a point in time. *)
From Coq Require Import List NArith ZArith Bool String Lia ZifyBool ZifyN.
From Verif Require Import Base.Ustr Base.UstrLemmas Model.Cls Model.Value Model.Calendar Model.TimeUtil Spec.VerifySpec Spec.TimeSpec Spec.ZoneSpec Spec.StampSpec
  Proofs.CalendarLemmas Proofs.DateLemmas Proofs.TimeLemmas Proofs.StampLemmas Proofs.ZoneLemmas Proofs.StampRead Proofs.StampInstant Spec.StampSpec.
Import ListNotations.
Open Scope list_scope.
Open Scope N_scope.
Ltac Zify.zify_post_hook ::= idtac.

Lemma digital_ascii : forall t, digital t -> forallb is_ascii t = true.
Proof. intros t H. apply digits_ascii. apply forallb_forall. apply Forall_forall. exact H. Qed.
Lemma form_ascii : forall t, blank_or_digits t -> forallb is_ascii t = true.
Proof. intros t [[H _]|(t' & -> & H)]; [exact (digital_ascii _ H)|]. cbn [forallb]. rewrite (digital_ascii _ H). reflexivity. Qed.
Lemma reading_ascii : forall s tail y m d h mi se, reading s tail y m d h mi se -> forallb is_ascii s = forallb is_ascii tail.
Proof.
  intros s tail y m d h mi se (ty & tm & td & t & th & tmi & ts & H1 & H2 & H3 & H4 & H5 & H6 & H7 & ->).
  assert (T : is_ascii t = true) by (destruct H4 as [->| ->]; reflexivity).
  rewrite !forallb_app. cbn [forallb]. rewrite T, (form_ascii _ (year_form _ _ H1)), (form_ascii _ (month_form _ _ H2)), (form_ascii _ (day_form _ _ H3)),
    (form_ascii _ (hour_form _ _ H5)), (form_ascii _ (minute_form _ _ H6)), (form_ascii _ (second_form _ _ H7)). reflexivity.
Qed.
Lemma reading_bounds : forall s tail y m d h mi se, reading s tail y m d h mi se -> h <= 23 /\ mi <= 59 /\ se <= 61.
Proof. intros s tail y m d h mi se (ty & tm & td & t & th & tmi & ts & H1 & H2 & H3 & H4 & [H5 _] & [H6 _] & [H7 _] & _). auto. Qed.

Lemma stamp_iff : forall s z, from_iso_time s = Ok z <-> exists y m d h mi se zt off,
  moment_text s zt y m d h mi se /\ se <= 59 /\ zone_offset zt off /\ shows (z + off) y m d h mi se.
Proof.
  intros s z. unfold from_iso_time. split.
  - destruct (forallb is_ascii s); [|discriminate]. destruct (match_stamp s) as [[[[[[[y m] d] h] mi] se] r]|] eqn:E; [|discriminate].
    apply match_stamp_iff in E. destruct E as [_ R]. destruct (parse_zone r) as [off|] eqn:P; [|discriminate]. cbn [bind].
    destruct (valid_date y m d) eqn:V; [|discriminate]. destruct (se <? 60) eqn:L; [|discriminate]. cbn [andb]. intro H. injection H as <-.
    apply valid_date_iff in V. assert (L' : se <= 59) by lia. destruct (reading_bounds _ _ _ _ _ _ _ _ R) as (B1 & B2 & _).
    exists y, m, d, h, mi, se, r, off. split; [apply reading_moment; auto|]. split; [exact L'|]. split; [apply parse_zone_inv; exact P|].
    apply shows_iff; try assumption. lia.
  - intros (y & m & d & h & mi & se & zt & off & M & L & Z & S). apply reading_moment in M. destruct M as [R C].
    rewrite (reading_ascii _ _ _ _ _ _ _ _ R), (zone_ascii _ _ Z).
    assert (E : match_stamp s = Some (y, m, d, h, mi, se, zt)) by (apply match_stamp_iff; split; [exact (zone_first _ _ Z)|exact R]).
    rewrite E, (parse_zone_ok _ _ Z). cbn [bind]. destruct (reading_bounds _ _ _ _ _ _ _ _ R) as (B1 & B2 & _).
    apply shows_iff in S; try assumption. rewrite <- S. apply valid_date_iff in C. rewrite C. replace (se <? 60) with true by lia. cbn [andb]. f_equal. lia.
Qed.

Lemma date_iff : forall s z, from_iso_date s = Ok z <-> exists y m d, date_text s y m d /\ (y, m, d) <> (1, 1, 1) /\ shows z y m d 0 0 0.
Proof.
  intros s z. unfold from_iso_date. split.
  - destruct (forallb is_ascii s); [|discriminate]. destruct (match_ymd s) as [[[[y m] d] r]|] eqn:E; [|discriminate]. intro H.
    destruct r; [|discriminate]. destruct (valid_date y m d) eqn:V; [|discriminate]. cbn [is_nil andb] in H.
    destruct ((y =? 1) && (m =? 1) && (d =? 1)) eqn:F; [discriminate|]. cbn [negb] in H. injection H as <-. apply valid_date_iff in V.
    unfold match_ymd in E. apply hd_error_In in E.
    apply in_concat_map in E. destruct E as [[y' r1] [H1 E]].
    apply in_concat_map in E. destruct E as [r2 [H2 E]].
    apply in_concat_map in E. destruct E as [[m' r3] [H3 E]].
    apply in_concat_map in E. destruct E as [r4 [H4 E]].
    apply in_map_iff in E. destruct E as [[d' r5] [E H5]].
    injection E as -> -> -> ->.
    apply p_year_in in H1. destruct H1 as [ty [Hty ->]]. apply p_lit_in in H2. subst r1.
    apply p_month_in in H3. destruct H3 as [tm [Htm ->]]. apply p_lit_in in H4. subst r3.
    apply p_day_in in H5. destruct H5 as [td [Htd ->]].
    exists y, m, d. split; [exists ty, tm, td; rewrite app_nil_r; auto|]. split; [intro X; injection X as -> -> ->; discriminate|].
    apply shows_iff; try assumption; try lia. reflexivity.
  - intros (y & m & d & (ty & tm & td & Hy & Hm & Hd & Hc & ->) & N & S).
    rewrite !forallb_app, (year_ascii _ _ Hy), (month_ascii _ _ Hm), (day_ascii _ _ Hd). cbn [forallb andb is_ascii].
    change (is_ascii 45) with true. cbn [andb].
    assert (E : match_ymd (ty ++ [45] ++ tm ++ [45] ++ td) = Some (y, m, d, [])).
    { unfold match_ymd. rewrite (p_year_app _ _ _ Hy). cbn [map List.concat]. rewrite app_nil_r.
      cbn [app p_lit]. change (45 =? 45) with true. cbn [map List.concat]. rewrite app_nil_r.
      rewrite (month_dash _ m tm td (fun mr => let '(m, r) := mr in
               map (fun dr => let '(d, r) := dr in (y, m, d, r)) (p_day r)) Hm).
      destruct (day_hd _ _ Hd) as [l ->]. reflexivity. }
    rewrite E. apply shows_iff in S; try assumption; try lia. rewrite S. apply valid_date_iff in Hc. rewrite Hc. cbn [is_nil andb].
    replace ((y =? 1) && (m =? 1) && (d =? 1)) with false; [reflexivity|]. symmetry.
    destruct (N.eqb_spec y 1), (N.eqb_spec m 1), (N.eqb_spec d 1); subst; try reflexivity. congruence.
Qed.

Lemma iso_iff : forall s y m d h mi se, strptime_iso s = Ok (Z.of_N y, Z.of_N m, Z.of_N d, Z.of_N h, Z.of_N mi, Z.of_N se) <->
  exists z, (z = 90 \/ z = 122) /\ moment_text s [z] y m d h mi se.
Proof.
  intros s y m d h mi se. unfold strptime_iso. split.
  - destruct (forallb is_ascii s); [|discriminate]. destruct (match_iso s) as [[[[[[[y' m'] d'] h'] mi'] se'] r]|] eqn:E; [|discriminate].
    destruct r; [|discriminate]. destruct (valid_date y' m' d') eqn:V; [|discriminate]. cbn [is_nil andb]. intro H.
    apply match_iso_iff in E. destruct E as (z & Hz & R). apply valid_date_iff in V.
    injection H as H1 H2 H3 H4 H5 H6. apply N2Z.inj in H1, H2, H3, H4, H5, H6. subst. exists z. split; [exact Hz|]. apply reading_moment. auto.
  - intros (z & Hz & M). apply reading_moment in M. destruct M as [R C]. rewrite (reading_ascii _ _ _ _ _ _ _ _ R).
    assert (A : forallb is_ascii [z] = true) by (destruct Hz as [->| ->]; reflexivity). rewrite A.
    assert (E : match_iso s = Some (y, m, d, h, mi, se, [])) by (apply match_iso_iff; eauto). rewrite E.
    apply valid_date_iff in C. rewrite C. reflexivity.
Qed.
Lemma iso_numbers : forall s f, strptime_iso s = Ok f -> exists y m d h mi se, f = (Z.of_N y, Z.of_N m, Z.of_N d, Z.of_N h, Z.of_N mi, Z.of_N se).
Proof.
  intros s f. unfold strptime_iso. destruct (forallb is_ascii s); [|discriminate]. destruct (match_iso s) as [[[[[[[y m] d] h] mi] se] r]|]; [|discriminate].
  destruct (is_nil r && valid_date y m d); [|discriminate]. intro H. injection H as <-. eauto 10.
Qed.

(** ** with a fraction *)
Lemma p_digits_inv : forall n s a r, p_digits n s = Some (a, r) -> s = a ++ r /\ digital a /\ List.length a = n.
Proof.
  intros n s a r H. unfold p_digits in H. destruct ((n <=? List.length s)%nat) eqn:L; [|discriminate]. destruct (forallb is_digit (firstn n s)) eqn:D; [|discriminate].
  cbn [andb] in H. injection H as <- <-. split; [symmetry; apply firstn_skipn|]. split; [apply Forall_forall; apply forallb_forall; exact D|].
  apply firstn_length_le. apply Nat.leb_le. exact L.
Qed.
Lemma p_digits_of : forall a r, digital a -> p_digits (List.length a) (a ++ r) = Some (a, r).
Proof.
  intros a r D. unfold p_digits. rewrite app_length. replace (List.length a <=? List.length a + List.length r)%nat with true by lia.
  rewrite firstn_app, Nat.sub_diag, firstn_all, firstn_O, app_nil_r, skipn_app, Nat.sub_diag, skipn_all, skipn_O. 
  replace (forallb is_digit a) with true; [reflexivity|]. symmetry. apply forallb_forall. apply Forall_forall. exact D.
Qed.
Lemma frag_inv : forall n c l s g t, frag_head ((n, c) :: l) s = Some (g, t) ->
  exists a r b, s = a ++ c :: r /\ digital a /\ List.length a = n /\ frag_head l r = Some (b, t) /\ g = a ++ c :: b.
Proof.
  intros n c l s g t H. cbn [frag_head] in H. destruct (p_digits n s) as [[a r]|] eqn:P; [|discriminate]. apply p_digits_inv in P. destruct P as (-> & D & L).
  destruct r as [|x r]; [discriminate|]. cbn [p_char] in H. destruct (x =? c) eqn:X; [|discriminate]. apply N.eqb_eq in X. subst x.
  destruct (frag_head l r) as [[b t']|] eqn:F; [|discriminate]. injection H as <- <-. exists a, r, b. auto.
Qed.
Lemma removelast_cons : forall (c : N) l, l <> [] -> removelast (c :: l) = c :: removelast l.
Proof. intros c [|x l] H; [congruence|reflexivity]. Qed.
Lemma removelast_sep : forall (a : ustr) c b, b <> [] -> removelast (a ++ c :: b) = a ++ c :: removelast b.
Proof. intros a c b H. rewrite removelast_app by discriminate. rewrite removelast_cons by exact H. reflexivity. Qed.
Lemma match_frag_inv : forall s g, match_frag s = Some g -> exists a b c d e f ds nl,
  digital a /\ List.length a = 4%nat /\ digital b /\ List.length b = 2%nat /\ digital c /\ List.length c = 2%nat /\ digital d /\ List.length d = 2%nat /\
  digital e /\ List.length e = 2%nat /\ digital f /\ List.length f = 2%nat /\ forallb is_digit ds = true /\ (nl = [] \/ nl = [10]) /\
  s = a ++ 45 :: b ++ 45 :: c ++ 84 :: d ++ 58 :: e ++ 58 :: f ++ 46 :: ds ++ 90 :: nl /\
  g = a ++ 45 :: b ++ 45 :: c ++ 84 :: d ++ 58 :: e ++ 58 :: f.
Proof.
  intros s g H. unfold match_frag in H.
  destruct (frag_head _ s) as [[g0 t]|] eqn:F; [|discriminate].
  apply frag_inv in F. destruct F as (a & s1 & g1 & -> & A1 & A2 & F & ->).
  apply frag_inv in F. destruct F as (b & s2 & g2 & -> & B1 & B2 & F & ->).
  apply frag_inv in F. destruct F as (c & s3 & g3 & -> & C1 & C2 & F & ->).
  apply frag_inv in F. destruct F as (d & s4 & g4 & -> & D1 & D2 & F & ->).
  apply frag_inv in F. destruct F as (e & s5 & g5 & -> & E1 & E2 & F & ->).
  apply frag_inv in F. destruct F as (f & s6 & g6 & -> & F1 & F2 & F & ->).
  injection F as <- <-.
  destruct (span is_digit s6) as [ds r] eqn:Sp. apply span_forall in Sp. destruct Sp as [Dd ->]. cbn [snd] in H.
  assert (N : exists nl, r = 90 :: nl /\ (nl = [] \/ nl = [10]) /\ Some (removelast (a ++ 45 :: b ++ 45 :: c ++ 84 :: d ++ 58 :: e ++ 58 :: f ++ [46])) = Some g).
  { destruct r as [|x r]; [discriminate|]. destruct (N.eq_dec x 90) as [->|Hx].
    - destruct r as [|y r]; [exists []; auto|]. destruct (N.eq_dec y 10) as [->|Hy].
      + destruct r; [exists [10]; auto|discriminate].
      + exfalso. destruct y as [|p]; [discriminate|]. do 4 (destruct p as [p|p|]; try discriminate). congruence.
    - exfalso. destruct x as [|p]; [discriminate|]. do 7 (destruct p as [p|p|]; try discriminate). congruence. }
  destruct N as (nl & -> & Hn & G). injection G as <-.
  exists a, b, c, d, e, f, ds, nl. repeat (split; [assumption|]). split; [reflexivity|].
  assert (K : forall (x : ustr) y z, x ++ y :: z <> []) by (intros [|? ?] y z; discriminate).
  rewrite !removelast_sep by (first [apply K|discriminate]). rewrite removelast_app by discriminate. cbn [removelast]. rewrite app_nil_r. reflexivity.
Qed.
Lemma match_frag_of : forall a b c d e f ds nl,
  digital a -> List.length a = 4%nat -> digital b -> List.length b = 2%nat -> digital c -> List.length c = 2%nat -> digital d -> List.length d = 2%nat ->
  digital e -> List.length e = 2%nat -> digital f -> List.length f = 2%nat -> forallb is_digit ds = true -> (nl = [] \/ nl = [10]) ->
  match_frag (a ++ 45 :: b ++ 45 :: c ++ 84 :: d ++ 58 :: e ++ 58 :: f ++ 46 :: ds ++ 90 :: nl) = Some (a ++ 45 :: b ++ 45 :: c ++ 84 :: d ++ 58 :: e ++ 58 :: f).
Proof.
  intros a b c d e f ds nl A1 A2 B1 B2 C1 C2 D1 D2 E1 E2 F1 F2 Dd Hn. unfold match_frag.
  assert (P : forall n x r, digital x -> List.length x = n -> p_digits n (x ++ r) = Some (x, r)) by (intros n x r X <-; apply p_digits_of; exact X).
  erewrite frag_step; [|apply P; assumption|]; [|eapply frag_step; [apply P; assumption|]; eapply frag_step; [apply P; assumption|];
    eapply frag_step; [apply P; assumption|]; eapply frag_step; [apply P; assumption|]; eapply frag_step; [apply P; assumption|reflexivity]].
  rewrite (span_app is_digit ds (90 :: nl) Dd) by reflexivity. cbn [snd].
  assert (K : forall (x : ustr) y z, x ++ y :: z <> []) by (intros [|? ?] y z; discriminate).
  rewrite !removelast_sep by (first [apply K|discriminate]). rewrite removelast_app by discriminate. cbn [removelast]. rewrite app_nil_r.
  destruct Hn as [->| ->]; reflexivity.
Qed.
(** a field of two digits is the number *)
Lemma month_two : forall m t, month_text m t -> List.length t = 2%nat -> t = two_digits m.
Proof. intros m t [_ [->|[_ ->]]] L; [reflexivity|discriminate]. Qed.
Lemma hour_two : forall m t, hour_text m t -> List.length t = 2%nat -> t = two_digits m.
Proof. intros m t [_ [->|[_ ->]]] L; [reflexivity|discriminate]. Qed.
Lemma minute_two : forall m t, minute_text m t -> List.length t = 2%nat -> t = two_digits m.
Proof. intros m t [_ [->|[_ ->]]] L; [reflexivity|discriminate]. Qed.
Lemma second_two : forall m t, second_text m t -> List.length t = 2%nat -> t = two_digits m.
Proof. intros m t [_ [->|[_ ->]]] L; [reflexivity|discriminate]. Qed.
Lemma day_two : forall m t, day_text m t -> digital t -> List.length t = 2%nat -> t = two_digits m.
Proof. intros m t [_ [->|[_ [->| ->]]]] D L; [reflexivity|discriminate|]. inversion D. discriminate. Qed.
Lemma digital_form : forall t n, digital t -> List.length t = S n -> blank_or_digits t.
Proof. intros t n D L. left. split; [exact D|]. intros ->. discriminate. Qed.
Lemma date_month : forall y m d, calendar_date y m d -> 1 <= m <= 12 /\ 1 <= d <= 31.
Proof. intros y m d (Hy & Hd & H). cbn [In] in H. lia. Qed.

Lemma fraction_reading : forall s y m d h mi se, fraction_text s y m d h mi se ->
  exists g ds nl, s = g ++ 46 :: ds ++ 90 :: nl /\ forallb is_digit ds = true /\ (nl = [] \/ nl = [10]) /\ match_frag s = Some g /\
    (forall tail, reading (g ++ tail) tail y m d h mi se) /\ calendar_date y m d.
Proof.
  intros s y m d h mi se (ds & nl & Hds & Hnl & Hy & Hh & Hmi & Hse & C & ->). pose proof (date_month _ _ _ C) as [Cm Cd].
  assert (Y : digital (two_digits (y / 100) ++ two_digits (y mod 100))).
  { apply Forall_app. split; apply dig10; Z.div_mod_to_equations; lia. }
  exists ((two_digits (y / 100) ++ two_digits (y mod 100)) ++ 45 :: two_digits m ++ 45 :: two_digits d ++ 84 :: two_digits h ++ 58 :: two_digits mi ++ 58 :: two_digits se), ds, nl.
  split; [repeat (rewrite <- ?app_assoc; cbn [app]); reflexivity|]. split; [exact Hds|]. split; [exact Hnl|]. split; [|split; [|exact C]].
  - pose proof (match_frag_of (two_digits (y / 100) ++ two_digits (y mod 100)) (two_digits m) (two_digits d) (two_digits h) (two_digits mi) (two_digits se) ds nl
      Y eq_refl (dig10 m ltac:(lia)) eq_refl (dig10 d ltac:(lia)) eq_refl (dig10 h ltac:(lia)) eq_refl (dig10 mi ltac:(lia)) eq_refl (dig10 se ltac:(lia)) eq_refl Hds Hnl) as M.
    rewrite <- M. f_equal. 
  - intro tail. exists (two_digits (y / 100) ++ two_digits (y mod 100)), (two_digits m), (two_digits d), 84, (two_digits h), (two_digits mi), (two_digits se).
    split; [split; [exact Hy|reflexivity]|]. split; [split; [exact Cm|left; reflexivity]|]. split; [split; [exact Cd|left; reflexivity]|]. split; [left; reflexivity|].
    split; [split; [exact Hh|left; reflexivity]|]. split; [split; [exact Hmi|left; reflexivity]|]. split; [split; [exact Hse|left; reflexivity]|].
    repeat (rewrite <- ?app_assoc; cbn [app]). reflexivity.
Qed.
Lemma reading_fraction : forall a b c d e f ds nl z y m dd h mi se,
  digital a -> List.length a = 4%nat -> digital b -> List.length b = 2%nat -> digital c -> List.length c = 2%nat -> digital d -> List.length d = 2%nat ->
  digital e -> List.length e = 2%nat -> digital f -> List.length f = 2%nat -> forallb is_digit ds = true -> (nl = [] \/ nl = [10]) -> (z = 90 \/ z = 122) ->
  moment_text ((a ++ 45 :: b ++ 45 :: c ++ 84 :: d ++ 58 :: e ++ 58 :: f) ++ [90]) [z] y m dd h mi se ->
  fraction_text (a ++ 45 :: b ++ 45 :: c ++ 84 :: d ++ 58 :: e ++ 58 :: f ++ 46 :: ds ++ 90 :: nl) y m dd h mi se.
Proof.
  intros a b c d e f ds nl z y m dd h mi se A1 A2 B1 B2 C1 C2 D1 D2 E1 E2 F1 F2 Dd Hn Hz
    (ty & tm & td & t & th & tmi & ts & H1 & H2 & H3 & H4 & H5 & H6 & H7 & H8 & E).
  assert (D45 : is_digit 45 = false) by reflexivity. assert (D58 : is_digit 58 = false) by reflexivity. assert (D84 : is_digit 84 = false) by reflexivity.
  assert (D90 : is_digit 90 = false) by reflexivity. assert (Dz : is_digit z = false) by (destruct Hz as [->| ->]; reflexivity).
  assert (T : is_digit t = false) by (destruct H4 as [->| ->]; reflexivity).
  repeat (rewrite <- ?app_assoc in E; cbn [app] in E).
  destruct (same_field _ _ _ _ _ _ (digital_form _ _ A1 A2) (year_form _ _ H1) D45 D45 E) as [-> X1]. injection X1 as X1.
  destruct (same_field _ _ _ _ _ _ (digital_form _ _ B1 B2) (month_form _ _ H2) D45 D45 X1) as [-> X2]. injection X2 as X2.
  destruct (same_field _ _ _ _ _ _ (digital_form _ _ C1 C2) (day_form _ _ H3) D84 T X2) as [-> X3]. injection X3 as _ X3.
  destruct (same_field _ _ _ _ _ _ (digital_form _ _ D1 D2) (hour_form _ _ H5) D58 D58 X3) as [-> X4]. injection X4 as X4.
  destruct (same_field _ _ _ _ _ _ (digital_form _ _ E1 E2) (minute_form _ _ H6) D58 D58 X4) as [-> X5]. injection X5 as X5.
  destruct (same_field _ _ _ _ _ _ (digital_form _ _ F1 F2) (second_form _ _ H7) D90 Dz X5) as [-> _].
  rewrite (month_two _ _ H2 B2), (day_two _ _ H3 C1 C2), (hour_two _ _ H5 D2), (minute_two _ _ H6 E2), (second_two _ _ H7 F2).
  destruct H1 as [Hy ->]. destruct H5 as [Hh _]. destruct H6 as [Hmi _]. destruct H7 as [Hse _].
  exists ds, nl. repeat (split; [assumption|]). repeat (rewrite <- ?app_assoc; cbn [app]). reflexivity.
Qed.
Lemma time_number : forall y m d h mi se, calendar_date y m d -> h <= 23 -> mi <= 59 -> se <= 61 -> forall f,
  (do z <- timegm (Z.of_N y) (Z.of_N m) (Z.of_N d) (Z.of_N h) (Z.of_N mi) (Z.of_N se) ; do t <- gmtime z ; Ok (Some t)) = Ok (Some f) <->
  exists z, shows z y m d h mi 0 /\ gmtime (z + Z.of_N se) = Ok f.
Proof.
  intros y m d h mi se C Hh Hmi Hs f. destruct (date_dim _ _ _ C) as (Dy & Dm & Dd). unfold timegm.
  replace ((1 <=? Z.of_N y)%Z && (Z.of_N y <=? 9999)%Z && (1 <=? Z.of_N m)%Z && (Z.of_N m <=? 12)%Z) with true by lia. cbn [bind].
  assert (Q : seconds_of (Z.of_N y) (Z.of_N m) (Z.of_N d) (Z.of_N h) (Z.of_N mi) (Z.of_N se) =
    (seconds_of (Z.of_N y) (Z.of_N m) (Z.of_N d) (Z.of_N h) (Z.of_N mi) (Z.of_N 0) + Z.of_N se)%Z) by (rewrite !seconds_split; lia).
  rewrite Q. split.
  - destruct (gmtime _) as [t|] eqn:G; [|discriminate]. cbn [bind]. intro H. injection H as ->. eexists. split; [apply shows_iff; try assumption; [lia|reflexivity]|exact G].
  - intros (z & S & G). apply shows_iff in S; try assumption; [|lia]. rewrite <- S, G. reflexivity.
Qed.
Lemma time_iff : forall s f, str_to_time s = Ok (Some f) <-> exists y m d h mi se z,
  time_text s y m d h mi se /\ shows z y m d h mi 0 /\ gmtime (z + Z.of_N se) = Ok f.
Proof.
  intros s f. split.
  - intro H. assert (H' : (do g <- match strptime_iso s with
              | Err EValueError => match match_frag s with Some g => strptime_iso (g ++ u "Z") | None => Err EAttributeError end
              | r => r end ;
      let '(y, m, d, h, mi, se) := g in do z <- timegm y m d h mi se ; do t <- gmtime z ; Ok (Some t)) = Ok (Some f)) by (destruct s; [discriminate|exact H]).
    clear H. rename H' into H.
    assert (K : exists y m d h mi se, time_text s y m d h mi se /\ (do z <- timegm (Z.of_N y) (Z.of_N m) (Z.of_N d) (Z.of_N h) (Z.of_N mi) (Z.of_N se) ; do t <- gmtime z ; Ok (Some t)) = Ok (Some f)).
    { destruct (strptime_iso s) as [g|e] eqn:P.
      - cbn [bind] in H. destruct (iso_numbers _ _ P) as (y & m & d & h & mi & se & ->). exists y, m, d, h, mi, se. split; [|exact H]. left. apply iso_iff. exact P.
      - destruct e; try discriminate. destruct (match_frag s) as [g|] eqn:F; [|discriminate].
        destruct (strptime_iso (g ++ u "Z")) as [g'|] eqn:P'; [|discriminate]. cbn [bind] in H.
        destruct (iso_numbers _ _ P') as (y & m & d & h & mi & se & ->). exists y, m, d, h, mi, se. split; [|exact H]. right.
        apply iso_iff in P'. destruct P' as (z & Hz & M). apply match_frag_inv in F.
        destruct F as (a & b & c & dd & e & ff & ds & nl & A1 & A2 & B1 & B2 & C1 & C2 & D1 & D2 & E1 & E2 & F1 & F2 & G & Hn & -> & ->).
        exact (reading_fraction _ _ _ _ _ _ _ _ _ _ _ _ _ _ _ A1 A2 B1 B2 C1 C2 D1 D2 E1 E2 F1 F2 G Hn Hz M). }
    destruct K as (y & m & d & h & mi & se & T & K). exists y, m, d, h, mi, se.
    assert (B : calendar_date y m d /\ h <= 23 /\ mi <= 59 /\ se <= 61).
    { destruct T as [(z & _ & M)|F].
      - apply reading_moment in M. destruct M as [R C]. split; [exact C|]. exact (reading_bounds _ _ _ _ _ _ _ _ R).
      - destruct F as (ds & nl & _ & _ & _ & B1 & B2 & B3 & C & _). auto. }
    destruct B as (C & B1 & B2 & B3). apply time_number in K; try assumption. destruct K as (z & K1 & K2). exists z. auto.
  - intros (y & m & d & h & mi & se & z & T & S & G).
    assert (N : s <> []).
    { destruct T as [(x & _ & (ty & tm & td & t & th & tmi & ts & [Hy ->] & _ & _ & _ & _ & _ & _ & _ & ->))|(ds & nl & _ & _ & _ & _ & _ & _ & _ & ->)]; discriminate. }
    assert (K : str_to_time s = do z <- timegm (Z.of_N y) (Z.of_N m) (Z.of_N d) (Z.of_N h) (Z.of_N mi) (Z.of_N se) ; do t <- gmtime z ; Ok (Some t)).
    { unfold str_to_time. destruct s as [|x s']; [congruence|]. set (s := x :: s') in *. destruct T as [M|F].
      - apply iso_iff in M. rewrite M. reflexivity.
      - destruct (fraction_reading _ _ _ _ _ _ _ F) as (g & ds & nl & E & Hd & Hn & MF & R & C).
        assert (V : strptime_iso s = Err EValueError).
        { unfold strptime_iso. assert (A : forallb is_ascii s = true).
          { rewrite E, (reading_ascii _ _ _ _ _ _ _ _ (R _)). cbn [forallb]. rewrite forallb_app, (digits_ascii _ Hd). destruct Hn as [->| ->]; reflexivity. }
          rewrite A. destruct (match_iso s) as [[[[[[[y' m'] d'] h'] mi'] se'] r]|] eqn:Q; [|reflexivity]. exfalso.
          apply match_iso_iff in Q. destruct Q as (zz & Hz & Q). rewrite E in Q.
          assert (Dz : is_digit zz = false) by (destruct Hz as [->| ->]; reflexivity).
          destruct (one_reading _ _ _ _ _ _ _ _ _ _ _ _ _ _ _ _ _ Dz (eq_refl : is_digit 46 = false) Q (R _)) as [_ X]. injection X as -> _. destruct Hz; discriminate. }
        rewrite V, MF. assert (M : strptime_iso (g ++ u "Z") = Ok (Z.of_N y, Z.of_N m, Z.of_N d, Z.of_N h, Z.of_N mi, Z.of_N se)).
        { apply iso_iff. exists 90. split; [left; reflexivity|]. apply reading_moment. split; [apply R|exact C]. }
        rewrite M. reflexivity. }
    rewrite K. assert (B : calendar_date y m d /\ h <= 23 /\ mi <= 59 /\ se <= 61).
    { destruct T as [(zz & _ & M)|F].
      - apply reading_moment in M. destruct M as [R C]. split; [exact C|]. exact (reading_bounds _ _ _ _ _ _ _ _ R).
      - destruct F as (ds & nl & _ & _ & _ & B1 & B2 & B3 & C & _). auto. }
    destruct B as (C & B1 & B2 & B3). apply time_number; try assumption. exists z. auto.
Qed.
(** what the deserializers of points in time make of the values of a parameter *)
Lemma stamp_values : forall b v,
  (forall s, v = VStr s -> forall w, stamp_deser b v = Ok w <-> exists z, (if b then from_iso_date s else from_iso_time s) = Ok z /\ w = VFlt (QArith_base.inject_Z z)) /\
  ((exists z, v = VInt z) \/ (exists x, v = VBool x) \/ (exists q, v = VFlt q) -> stamp_deser b v = Ok v) /\
  (v = VNone \/ (exists l, v = VList l) \/ (exists d, v = VDict d) \/ (exists c d, v = VMsg c d) -> stamp_deser b v = Err ETypeError).
Proof.
  intros b v. split; [|split].
  - intros s -> w. cbn [stamp_deser]. destruct (if b then from_iso_date s else from_iso_time s) as [z|e]; cbn [bind].
    + split; [intro H; exists z; split; [reflexivity|congruence]|intros (z' & H & ->); congruence].
    + split; [discriminate|intros (z & H & _); discriminate].
  - intros [(z & ->)|[(x & ->)|(q & ->)]]; reflexivity.
  - intros [->|[(l & ->)|[(d & ->)|(c & d & ->)]]]; reflexivity.
Qed.
