(** Lemmas on time_util.py. *)
From Coq Require Import List NArith ZArith Bool String Lia ZifyBool ZifyN.
From Verif Require Import Base.Ustr Base.UstrLemmas Model.Value Model.Verify Model.TimeUtil Spec.VerifySpec Spec.TimeSpec
  Proofs.VerifyLemmas Proofs.DateLemmas Proofs.OtherVerify Proofs.CalendarLemmas.
Import ListNotations.
Open Scope list_scope.
Open Scope Z_scope.
Ltac Zify.zify_post_hook ::= Z.div_mod_to_equations.

(** ** f_quotient and modulo *)
Lemma euclid : forall a b, 0 < b ->
  exists q r, fq a b 0 = Ok q /\ modulo a b 0 = Ok r /\ a = b * q + r /\ 0 <= r < b.
Proof.
  intros a b H. unfold fq, modulo. cbn [Z.eqb negb].
  replace (b =? 0) with false by lia. exists (a / b), (a mod b).
  split; [destruct (Z.eqb_spec a 0) as [->|_]; reflexivity|]. split; [reflexivity|].
  split; [apply Z.div_mod; lia|apply Z.mod_pos_bound; lia].
Qed.
Lemma interval : forall a lo hi, lo < hi -> hi <> 0 ->
  exists q r, fq a lo hi = Ok q /\ modulo a lo hi = Ok r /\ lo <= r < hi /\ a - lo = (hi - lo) * q + (r - lo).
Proof.
  intros a lo hi H N. unfold fq, modulo. replace (hi =? 0) with false by lia. replace (hi - lo =? 0) with false by lia.
  cbn [negb]. exists ((a - lo) / (hi - lo)), ((a - lo) mod (hi - lo) + lo).
  pose proof (Z.div_mod (a - lo) (hi - lo)) as D. pose proof (Z.mod_pos_bound (a - lo) (hi - lo)) as B.
  split; [reflexivity|]. split; [reflexivity|]. split; lia.
Qed.

(** ** Durations *)
Lemma digits_us_dec : forall s, forallb is_digit s = true -> s <> [] -> forall p a,
  digits_us s p a = Some (num_of_digits a s).
Proof.
  induction s as [|c s IH]; intros H N p a; [congruence|]. cbn [forallb] in H. apply andb_true_iff in H. destruct H as [Hc H].
  cbn [digits_us num_of_digits]. rewrite Hc. destruct s as [|d s]; [reflexivity|]. apply IH; [assumption|discriminate].
Qed.
Lemma digit_not_space : forall c, is_digit c = true -> is_space c = false.
Proof. intros c H. apply is_digit_iff in H. unfold is_space. lia. Qed.
Lemma lstrip_digits : forall s, forallb is_digit s = true -> lstrip_by is_space s = s.
Proof.
  intros [|c s] H; [reflexivity|]. cbn [forallb] in H. apply andb_true_iff in H. destruct H as [Hc _].
  cbn [lstrip_by]. rewrite (digit_not_space _ Hc). reflexivity.
Qed.
Lemma strip_digits : forall s, forallb is_digit s = true -> strip s = s.
Proof.
  intros s H. unfold strip, strip_by. rewrite (lstrip_digits s H).
  rewrite lstrip_digits; [apply rev_involutive|].
  apply forallb_forall. intros x Hx. apply in_rev in Hx. exact (proj1 (forallb_forall _ _) H x Hx).
Qed.
Lemma digits_ascii : forall s, forallb is_digit s = true -> forallb is_ascii s = true.
Proof.
  intros s H. apply forallb_forall. intros x Hx. pose proof (proj1 (forallb_forall _ _) H x Hx) as D.
  apply is_digit_iff in D. unfold is_ascii. lia.
Qed.
Lemma int_dec : forall n, py_int_str (dec_N n) = Ok (Z.of_N n).
Proof.
  intro n. unfold py_int_str. pose proof (dec_N_digits n) as D. rewrite (digits_ascii _ D), (strip_digits _ D).
  pose proof (digits_us_dec _ D (dec_N_nonempty n) false 0%N) as U. rewrite num_of_dec_N in U.
  destruct (dec_N n) as [|c r] eqn:E; [exfalso; exact (dec_N_nonempty n E)|].
  cbn [forallb] in D. apply andb_true_iff in D. destruct D as [D _]. apply is_digit_iff in D.
  replace (c =? 45)%N with false by lia. replace (c =? 43)%N with false by lia. rewrite U. reflexivity.
Qed.
Lemma dec_no_char : forall c n, is_digit c = false -> has_char c (dec_N n) = false.
Proof.
  intros c n H. destruct (has_char c (dec_N n)) eqn:E; [|reflexivity]. apply has_char_In in E.
  rewrite (proj1 (forallb_forall _ _) (dec_N_digits n) c E) in H. discriminate.
Qed.
Lemma part_char : forall c d o, is_digit c = false -> (c =? d)%N = false -> has_char c (part d o) = false.
Proof.
  intros c d [n|] H E; [|reflexivity]. unfold part. rewrite has_char_app, (dec_no_char _ _ H). cbn [has_char existsb orb].
  rewrite E. reflexivity.
Qed.

(** a text that does not start with a minus sign *)
Definition good_head (s : ustr) : Prop := match s with [] => False | c :: _ => c <> 45%N end.
Lemma dec_head : forall n r, good_head (dec_N n ++ r).
Proof.
  intros n r. pose proof (dec_N_digits n) as D. destruct (dec_N n) as [|c s] eqn:E; [destruct (dec_N_nonempty n E)|].
  cbn [forallb] in D. apply andb_true_iff in D. destruct D as [D _]. apply is_digit_iff in D. cbn. lia.
Qed.
Lemma part_head : forall c o r, good_head r \/ o <> None -> good_head (part c o ++ r).
Proof.
  intros c [n|] r H; unfold part.
  - rewrite <- app_assoc. apply dec_head.
  - destruct H as [H|H]; [exact H|congruence].
Qed.

Definition number_field (f : dfield) : Prop := f <> FT.
Lemma step_some : forall f n r d, number_field f ->
  d_step f (part (d_code f) (Some n) ++ r) d = Ok (r, d_put f (DInt (Z.of_N n)) d).
Proof.
  intros f n r d Hf. assert (G : good_head (part (d_code f) (Some n) ++ r)) by (apply part_head; right; discriminate).
  assert (P : partition1 (d_code f) (part (d_code f) (Some n) ++ r) = (dec_N n, true, r)).
  { unfold part. rewrite <- app_assoc. cbn [app]. apply partition1_app. apply dec_no_char. destruct f; reflexivity. }
  unfold d_step. destruct (part (d_code f) (Some n) ++ r) as [|c t]; [destruct G|]. cbn in G.
  replace (c =? 45)%N with false by lia. rewrite P. unfold d_number. rewrite int_dec. cbn [bind].
  destruct f; try reflexivity. exfalso. apply Hf. reflexivity.
Qed.
Lemma step_none : forall f r d, number_field f -> good_head r -> has_char (d_code f) r = false ->
  d_step f (part (d_code f) None ++ r) d = Ok (r, d_put f (DInt 0) d).
Proof.
  intros f r d Hf G H. cbn [part app]. apply partition1_none in H. unfold d_step.
  destruct r as [|c t]; [destruct G|]. cbn in G. replace (c =? 45)%N with false by lia. rewrite H.
  destruct f; try reflexivity. exfalso. apply Hf. reflexivity.
Qed.
Lemma step_opt : forall f o r d, number_field f -> o <> None \/ (good_head r /\ has_char (d_code f) r = false) ->
  d_step f (part (d_code f) o ++ r) d = Ok (r, d_put f (DInt (num o)) d).
Proof.
  intros f [n|] r d Hf H; [apply step_some; assumption|]. destruct H as [H|[H1 H2]]; [congruence|].
  apply step_none; assumption.
Qed.

(** the time part *)
Definition all_none (l : list (option N)) : Prop := some_of l = false.
Lemma loop_more : forall f l s r d d', d_step f s d = Ok (r, d') -> r <> [] -> d_loop (f :: l) s d = d_loop l r d'.
Proof. intros f l s r d d' H N. cbn [d_loop]. rewrite H. cbn [bind]. destruct r; [congruence|reflexivity]. Qed.
Lemma loop_stop : forall f l s d d', d_step f s d = Ok ([], d') -> d_loop (f :: l) s d = Ok d'.
Proof. intros f l s d d' H. cbn [d_loop]. rewrite H. reflexivity. Qed.
Lemma good_nonempty : forall s, good_head s -> s <> [].
Proof. intros [|c s] H; [destruct H|discriminate]. Qed.

Definition with_time (d : duration) (h mi s : option N) : duration :=
  mkDur (d_year d) (d_mon d) (d_mday d) (num h) (num mi) (DInt (num s)).
Lemma loop_sec : forall s d, s <> None -> d_loop [FSec] (part 83 s) d = Ok (d_put FSec (DInt (num s)) d).
Proof.
  intros s d H. rewrite <- (app_nil_r (part 83 s)). apply loop_stop.
  apply (step_opt FSec); [discriminate|left; assumption].
Qed.
Lemma part_some : forall c n, good_head (part c (Some n)).
Proof. intros c n. rewrite <- (app_nil_r (part c (Some n))). apply part_head. right. discriminate. Qed.
Lemma no_char_parts : forall c l, is_digit c = false -> forallb (fun x => negb (c =? fst x)%N) l = true ->
  has_char c (List.concat (map (fun x => part (fst x) (snd x)) l)) = false.
Proof.
  intros c l H. induction l as [|[d o] l IH]; intro G; [reflexivity|]. cbn [forallb map List.concat fst snd] in *.
  apply andb_true_iff in G. destruct G as [G1 G2]. rewrite has_char_app, (IH G2), part_char; [reflexivity|assumption|].
  apply negb_true_iff in G1. exact G1.
Qed.

Lemma loop_min : forall mi s d, some_of [mi; s] = true -> d_sec d = DInt 0 ->
  d_loop [FMin; FSec] (part 77 mi ++ part 83 s) d = Ok (d_put FSec (DInt (num s)) (d_put FMin (DInt (num mi)) d)).
Proof.
  intros mi s d H Z. destruct s as [s|].
  - rewrite (loop_more FMin [FSec] _ (part 83 (Some s)) d (d_put FMin (DInt (num mi)) d)).
    + apply loop_sec. discriminate.
    + apply (step_opt FMin); [discriminate|]. right. split; [apply part_some|]. apply part_char; reflexivity.
    + apply good_nonempty, part_some.
  - destruct mi as [mi|]; [|discriminate]. rewrite (loop_stop FMin _ _ d (d_put FMin (DInt (num (Some mi))) d)).
    + cbn. rewrite Z. reflexivity.
    + apply (step_opt FMin); [discriminate|left; discriminate].
Qed.
Lemma two_parts_head : forall c e a b, some_of [a; b] = true -> good_head (part c a ++ part e b).
Proof.
  intros c e a b H. destruct b as [b|].
  - apply part_head. left. apply part_some.
  - destruct a as [a|]; [|discriminate]. apply part_head. right. discriminate.
Qed.
Lemma three_parts_head : forall c e f a b g, some_of [a; b; g] = true -> good_head (part c a ++ part e b ++ part f g).
Proof.
  intros c e f a b g H. destruct (some_of [b; g]) eqn:E.
  - apply part_head. left. apply two_parts_head. assumption.
  - destruct a as [a|]; [|cbn in *; congruence]. apply part_head. right. discriminate.
Qed.
Lemma none_of_two : forall a b, some_of [a; b] = false -> a = None /\ b = None.
Proof. intros [a|] [b|] H; try discriminate. auto. Qed.

Lemma loop_time : forall h mi s d, some_of [h; mi; s] = true -> d_min d = 0 -> d_sec d = DInt 0 ->
  d_loop [FHour; FMin; FSec] (part 72 h ++ part 77 mi ++ part 83 s) d = Ok (with_time d h mi s).
Proof.
  intros h mi s d H Z1 Z2. destruct (some_of [mi; s]) eqn:E.
  - rewrite (loop_more FHour [FMin; FSec] _ (part 77 mi ++ part 83 s) d (d_put FHour (DInt (num h)) d)).
    + rewrite loop_min; [reflexivity|assumption|assumption].
    + apply (step_opt FHour); [discriminate|]. right. split; [apply two_parts_head; assumption|].
      rewrite has_char_app, !part_char; reflexivity.
    + apply good_nonempty, two_parts_head. assumption.
  - apply none_of_two in E. destruct E as [-> ->]. destruct h as [h|]; [|discriminate].
    rewrite (loop_stop FHour _ _ d (d_put FHour (DInt (num (Some h))) d)).
    + unfold with_time. cbn. rewrite Z1, Z2. reflexivity.
    + apply (step_opt FHour); [discriminate|left; discriminate].
Qed.

Definition time_text (h mi s : option N) : ustr :=
  if some_of [h; mi; s] then u "T" ++ part 72 h ++ part 77 mi ++ part 83 s else [].
Lemma time_text_char : forall c h mi s, is_digit c = false -> (c =? 84)%N = false -> (c =? 72)%N = false ->
  (c =? 83)%N = false -> (c =? 77)%N = false \/ mi = None -> has_char c (time_text h mi s) = false.
Proof.
  intros c h mi s H1 H2 H3 H4 H5. unfold time_text. destruct (some_of [h; mi; s]); [|reflexivity].
  change (u "T") with [84%N]. rewrite !has_char_app, (part_char c 72), (part_char c 83) by assumption.
  assert (E : has_char c (part 77 mi) = false) by (destruct H5 as [H5| ->]; [apply part_char; assumption|reflexivity]).
  rewrite E. cbn [has_char existsb]. rewrite H2. reflexivity.
Qed.
Lemma loop_T : forall h mi s d, some_of [h; mi; s] = true -> d_min d = 0 -> d_sec d = DInt 0 ->
  d_loop [FT; FHour; FMin; FSec] (time_text h mi s) d = Ok (with_time d h mi s).
Proof.
  intros h mi s d H Z1 Z2. rewrite (loop_more FT _ _ (part 72 h ++ part 77 mi ++ part 83 s) d d).
  - apply loop_time; assumption.
  - unfold time_text. rewrite H. pose proof (three_parts_head 72 77 83 h mi s H) as G.
    change (u "T") with [84%N]. cbn [app d_step]. change (84 =? 45)%N with false. change (84 =? 84)%N with true.
    destruct (part 72 h ++ part 77 mi ++ part 83 s); [destruct G|reflexivity].
  - apply good_nonempty, three_parts_head. assumption.
Qed.
Lemma time_head : forall h mi s, some_of [h; mi; s] = true -> good_head (time_text h mi s).
Proof. intros h mi s H. unfold time_text. rewrite H. cbn. discriminate. Qed.
Lemma none_of_three : forall a b c, some_of [a; b; c] = false -> a = None /\ b = None /\ c = None.
Proof. intros [a|] [b|] [c|] H; try discriminate. auto. Qed.

(** the date part: [zero_below] keeps what the loop has not reached yet at zero *)
Lemma loop_day : forall dd h mi s d, some_of [dd; h; mi; s] = true -> d_hour d = 0 -> d_min d = 0 -> d_sec d = DInt 0 ->
  d_loop [FDay; FT; FHour; FMin; FSec] (part 68 dd ++ time_text h mi s) d
  = Ok (with_time (d_put FDay (DInt (num dd)) d) h mi s).
Proof.
  intros dd h mi s d H Z1 Z2 Z3. destruct (some_of [h; mi; s]) eqn:E.
  - rewrite (loop_more FDay _ _ (time_text h mi s) d (d_put FDay (DInt (num dd)) d)).
    + apply loop_T; assumption.
    + apply (step_opt FDay); [discriminate|]. right. split; [apply time_head; assumption|].
      apply time_text_char; try reflexivity. left. reflexivity.
    + apply good_nonempty, time_head. assumption.
  - pose proof (none_of_three _ _ _ E) as [-> [-> ->]]. destruct dd as [dd|]; [|discriminate].
    rewrite (loop_stop FDay _ _ d (d_put FDay (DInt (num (Some dd))) d)).
    + unfold with_time. cbn. rewrite Z1, Z2, Z3. reflexivity.
    + apply (step_opt FDay); [discriminate|left; discriminate].
Qed.
Lemma day_text_head : forall dd h mi s, some_of [dd; h; mi; s] = true -> good_head (part 68 dd ++ time_text h mi s).
Proof.
  intros dd h mi s H. destruct (some_of [h; mi; s]) eqn:E.
  - apply part_head. left. apply time_head. assumption.
  - destruct dd; [|cbn in *; congruence]. apply part_head. right. discriminate.
Qed.
Lemma none_of_four : forall a b c d, some_of [a; b; c; d] = false -> a = None /\ b = None /\ c = None /\ d = None.
Proof. intros [a|] [b|] [c|] [d|] H; try discriminate. auto. Qed.

Lemma loop_mon : forall mo dd h mi s d, some_of [mo; dd; h; mi; s] = true -> mo <> None \/ mi = None ->
  d_mday d = 0 -> d_hour d = 0 -> d_min d = 0 -> d_sec d = DInt 0 ->
  d_loop [FMon; FDay; FT; FHour; FMin; FSec] (part 77 mo ++ part 68 dd ++ time_text h mi s) d
  = Ok (with_time (d_put FDay (DInt (num dd)) (d_put FMon (DInt (num mo)) d)) h mi s).
Proof.
  intros mo dd h mi s d H HM Z0 Z1 Z2 Z3. destruct (some_of [dd; h; mi; s]) eqn:E.
  - rewrite (loop_more FMon _ _ (part 68 dd ++ time_text h mi s) d (d_put FMon (DInt (num mo)) d)).
    + apply loop_day; assumption.
    + apply (step_opt FMon); [discriminate|]. destruct HM as [HM|HM]; [left; assumption|right].
      split; [apply day_text_head; assumption|]. change (d_code FMon) with 77%N.
      rewrite has_char_app, part_char by reflexivity. apply time_text_char; try reflexivity. right. assumption.
    + apply good_nonempty, day_text_head. assumption.
  - pose proof (none_of_four _ _ _ _ E) as [-> [-> [-> ->]]]. destruct mo as [mo|]; [|discriminate].
    rewrite (loop_stop FMon _ _ d (d_put FMon (DInt (num (Some mo))) d)).
    + unfold with_time. cbn. rewrite Z0, Z1, Z2, Z3. reflexivity.
    + apply (step_opt FMon); [discriminate|left; discriminate].
Qed.
Lemma mon_text_head : forall mo dd h mi s, some_of [mo; dd; h; mi; s] = true ->
  good_head (part 77 mo ++ part 68 dd ++ time_text h mi s).
Proof.
  intros mo dd h mi s H. destruct (some_of [dd; h; mi; s]) eqn:E.
  - apply part_head. left. apply day_text_head. assumption.
  - destruct mo; [|cbn in *; congruence]. apply part_head. right. discriminate.
Qed.
Lemma none_of_five : forall a b c d e, some_of [a; b; c; d; e] = false -> a = None /\ b = None /\ c = None /\ d = None /\ e = None.
Proof. intros [a|] [b|] [c|] [d|] [e|] H; try discriminate. repeat split. Qed.

Lemma loop_year : forall y mo dd h mi s, some_of [y; mo; dd; h; mi; s] = true -> mo <> None \/ mi = None ->
  d_loop d_format (part 89 y ++ part 77 mo ++ part 68 dd ++ time_text h mi s) d_zero
  = Ok (mkDur (num y) (num mo) (num dd) (num h) (num mi) (DInt (num s))).
Proof.
  intros y mo dd h mi s H HM. destruct (some_of [mo; dd; h; mi; s]) eqn:E.
  - unfold d_format.
    rewrite (loop_more FYear _ _ (part 77 mo ++ part 68 dd ++ time_text h mi s) d_zero (d_put FYear (DInt (num y)) d_zero)).
    + rewrite loop_mon; try reflexivity; assumption.
    + apply (step_opt FYear); [discriminate|]. right. split; [apply mon_text_head; assumption|].
      change (d_code FYear) with 89%N.
      rewrite !has_char_app, !part_char by reflexivity. apply time_text_char; try reflexivity. left. reflexivity.
    + apply good_nonempty, mon_text_head. assumption.
  - pose proof (none_of_five _ _ _ _ _ E) as [-> [-> [-> [-> ->]]]]. destruct y as [y|]; [|discriminate].
    unfold d_format. rewrite (loop_stop FYear _ _ d_zero (d_put FYear (DInt (num (Some y))) d_zero)).
    + reflexivity.
    + apply (step_opt FYear); [discriminate|left; discriminate].
Qed.

Lemma parse_text : forall pos y mo d h mi s, some_of [y; mo; d; h; mi; s] = true -> mo <> None \/ mi = None ->
  parse_duration (duration_text pos y mo d h mi s)
  = Ok (pos, mkDur (num y) (num mo) (num d) (num h) (num mi) (DInt (num s))).
Proof.
  intros pos y mo d h mi s H HM. pose proof (loop_year _ _ _ _ _ _ H HM) as L.
  change (duration_text pos y mo d h mi s) with
    ((if pos then [] else u "-") ++ u "P" ++ part 89 y ++ part 77 mo ++ part 68 d ++ time_text h mi s).
  set (r := part 89 y ++ part 77 mo ++ part 68 d ++ time_text h mi s) in *. clearbody r.
  destruct pos.
  - transitivity (do d <- d_loop d_format r d_zero ; Ok (true, d)); [reflexivity|]. rewrite L. reflexivity.
  - transitivity (do d <- d_loop d_format r d_zero ; Ok (false, d)); [reflexivity|]. rewrite L. reflexivity.
Qed.

(** ** add_duration *)
Lemma modulo_13 : forall a, modulo a 1 13 = Ok ((a - 1) mod 12 + 1).
Proof. intro a. reflexivity. Qed.
Lemma fq_13 : forall a, fq a 1 13 = Ok ((a - 1) / 12).
Proof. intro a. reflexivity. Qed.
Lemma modulo_60 : forall a, modulo a 60 0 = Ok (a mod 60).
Proof. reflexivity. Qed.
Lemma fq_60 : forall a, fq a 60 0 = Ok (a / 60).
Proof. intro a. unfold fq. cbn [Z.eqb negb]. destruct (Z.eqb_spec a 0) as [->|H]; reflexivity. Qed.
Lemma max_day_dim : forall y m, 1 <= m <= 12 -> max_day y m = Ok (dim y m).
Proof. intros y m H. unfold max_day. replace ((1 <=? m) && (m <=? 12)) with true by lia. reflexivity. Qed.

Lemma day_loop_step : forall n y m days c, day_loop (S n) y m days c =
  if days <? 1 then day_loop n (y + (m + c - 1) / 12) ((m + c - 1) mod 12 + 1) days c
  else do mx <- max_day y m ;
       if mx <? days then day_loop n (y + (m + 1 - 1) / 12) ((m + 1 - 1) mod 12 + 1) (days - mx) 1 else Ok (y, m, days).
Proof. reflexivity. Qed.

Lemma next_month : forall y m, 1 <= m <= 12 ->
  epoch_days (y + (m + 1 - 1) / 12) ((m + 1 - 1) mod 12 + 1) 1 = epoch_days y m 1 + dim y m.
Proof.
  intros y m H. unfold epoch_days. destruct (Z.eq_dec m 12) as [->|N].
  - change ((12 + 1 - 1) / 12) with 1. change ((12 + 1 - 1) mod 12 + 1) with 1.
    rewrite dby_next, dbm_first. pose proof (dbm_last y). lia.
  - replace ((m + 1 - 1) / 12) with 0 by lia. replace ((m + 1 - 1) mod 12 + 1) with (m + 1) by lia.
    replace (y + 0) with y by lia. rewrite dbm_next by lia. lia.
Qed.

Lemma day_loop_ok : forall k y m days c, days <= Z.of_nat k -> 1 <= m <= 12 -> 1 <= days ->
  exists y' m' d', (forall n, (k <= n)%nat -> day_loop n y m days c = Ok (y', m', d')) /\
    1 <= m' <= 12 /\ 1 <= d' <= dim y' m' /\ epoch_days y' m' d' = epoch_days y m 1 + days - 1.
Proof.
  induction k as [|k IH]; intros y m days c Hk Hm Hd; [lia|].
  destruct (Z.ltb_spec (dim y m) days) as [L|L].
  - pose proof (dim_bound y m Hm) as B.
    destruct (IH (y + (m + 1 - 1) / 12) ((m + 1 - 1) mod 12 + 1) (days - dim y m) 1) as [y' [m' [d' [G1 [G2 [G3 G4]]]]]]; [lia|lia|lia|].
    exists y', m', d'. split; [|split; [assumption|split; [assumption|]]].
    + intros [|n] Hn; [lia|]. rewrite day_loop_step. replace (days <? 1) with false by lia.
      rewrite (max_day_dim _ _ Hm). cbn [bind]. replace (dim y m <? days) with true by lia. apply G1. lia.
    + rewrite G4, (next_month _ _ Hm). lia.
  - exists y, m, days. split; [|split; [assumption|split; [lia|]]].
    + intros [|n] Hn; [lia|]. rewrite day_loop_step. replace (days <? 1) with false by lia.
      rewrite (max_day_dim _ _ Hm). cbn [bind]. replace (dim y m <? days) with false by lia. reflexivity.
    + unfold epoch_days. lia.
Qed.
Lemma day_loop_never : forall n y m days c, days < 1 -> day_loop n y m days c = Err OutOfFuel.
Proof.
  induction n as [|n IH]; intros y m days c H; [reflexivity|]. rewrite day_loop_step.
  replace (days <? 1) with true by lia. apply IH. assumption.
Qed.

(** what add_to computes, without its error plumbing *)
Definition hms (t : tm) (dur : duration) (s : Z) : Z * Z * Z * Z :=
  let ts := tm_sec t + s in
  let tmi := tm_min t + d_min dur + ts / 60 in
  let th := tm_hour t + d_hour dur + tmi / 60 in
  (ts mod 60, tmi mod 60, th mod 60, th / 60).
Lemma clamp : forall mx d, 1 <= mx -> (if mx <? d then mx else if d <? 1 then 1 else d) = Z.max 1 (Z.min mx d).
Proof. intros mx d H. destruct (Z.ltb_spec mx d); [lia|]. destruct (Z.ltb_spec d 1); lia. Qed.
Lemma month_range : forall a, 1 <= a mod 12 + 1 <= 12.
Proof. intro a. lia. Qed.
Lemma add_to_eq : forall n t dur s, d_sec dur = DInt s -> add_to n t dur =
  let month := (tm_mon t + d_mon dur - 1) mod 12 + 1 in
  let year := tm_year t + d_year dur + (tm_mon t + d_mon dur - 1) / 12 in
  let '(se, mi, ho, c) := hms t dur s in
  do ymd <- day_loop n year month (Z.max 1 (Z.min (dim year month) (d_mday dur)) + tm_mday t + c) c ;
  let '(y, m, d) := ymd in mk_local y m d ho mi se.
Proof.
  intros n t dur s H. unfold add_to, hms. rewrite H. cbn zeta.
  rewrite modulo_13. cbn [bind]. rewrite fq_13. cbn [bind]. rewrite modulo_60. cbn [bind]. rewrite fq_60. cbn [bind].
  rewrite modulo_60. cbn [bind]. rewrite fq_60. cbn [bind]. rewrite modulo_60. cbn [bind]. rewrite fq_60. cbn [bind].
  pose proof (month_range (tm_mon t + d_mon dur - 1)) as Hm. rewrite (max_day_dim _ _ Hm). cbn [bind].
  rewrite clamp; [reflexivity|].
  pose proof (dim_bound (tm_year t + d_year dur + (tm_mon t + d_mon dur - 1) / 12) _ Hm) as B. lia.
Qed.


Lemma hms_carry : forall t dur s se mi ho c, 0 <= tm_hour t -> 0 <= tm_min t -> 0 <= tm_sec t ->
  0 <= d_hour dur -> 0 <= d_min dur -> 0 <= s -> hms t dur s = (se, mi, ho, c) ->
  0 <= c /\ c * 216000 + ho * 3600 + mi * 60 + se =
    (tm_hour t + d_hour dur) * 3600 + (tm_min t + d_min dur) * 60 + tm_sec t + s /\
  0 <= se < 60 /\ 0 <= mi < 60 /\ 0 <= ho < 60.
Proof.
  intros t dur s se mi ho c H1 H2 H3 H4 H5 H6 H. unfold hms in H. cbn zeta in H.
  apply pair_equal_spec in H. destruct H as [H Hc]. apply pair_equal_spec in H. destruct H as [H Hho].
  apply pair_equal_spec in H. destruct H as [Hse Hmi].
  set (ts := tm_sec t + s) in *. assert (E1 : ts = 60 * (ts / 60) + se /\ 0 <= se < 60 /\ 0 <= ts / 60) by lia.
  set (c1 := ts / 60) in *. set (tmi := tm_min t + d_min dur + c1) in *.
  assert (E2 : tmi = 60 * (tmi / 60) + mi /\ 0 <= mi < 60 /\ 0 <= tmi / 60) by lia.
  set (c2 := tmi / 60) in *. set (th := tm_hour t + d_hour dur + c2) in *.
  assert (E3 : th = 60 * c + ho /\ 0 <= ho < 60 /\ 0 <= c) by lia.
  clear Hc Hho Hmi Hse. subst th tmi ts. clearbody c1 c2. lia.
Qed.

Lemma add_terminates : forall t text pos dur, 1 <= tm_mday t -> 0 <= tm_hour t -> 0 <= tm_min t -> 0 <= tm_sec t ->
  parse_duration text = Ok (pos, dur) -> non_negative dur ->
  exists k r, r <> Err OutOfFuel /\ forall n, (k <= n)%nat -> add_duration n t text = r.
Proof.
  intros t text pos dur Hd Hh Hmi Hs HP [N1 [N2 [N3 [N4 [N5 [s [N6 N7]]]]]]].
  unfold add_duration. rewrite HP. cbn [bind]. destruct pos; [|exists O, (Ok None); split; [discriminate|reflexivity]].
  set (month := (tm_mon t + d_mon dur - 1) mod 12 + 1).
  set (year := tm_year t + d_year dur + (tm_mon t + d_mon dur - 1) / 12).
  assert (Hm : 1 <= month <= 12) by (subst month; lia).
  destruct (hms t dur s) as [[[se mi] ho] c] eqn:E.
  destruct (hms_carry _ _ _ _ _ _ _ Hh Hmi Hs N4 N5 N7 E) as [Hc _].
  set (days := Z.max 1 (Z.min (dim year month) (d_mday dur)) + tm_mday t + c).
  assert (Hdays : 1 <= days) by (subst days; lia).
  destruct (day_loop_ok (Z.to_nat days) year month days c) as [y' [m' [d' [G _]]]]; [lia|assumption|assumption|].
  exists (Z.to_nat days), (do r <- mk_local y' m' d' ho mi se ; Ok (Some r)). split.
  - unfold mk_local. destruct (int32 y' && int32 (y' - 1900)); [|discriminate].
    unfold gmtime. destruct (int64 _); [|discriminate]. cbn zeta. destruct (int32 _); discriminate.
  - intros n Hn. rewrite (add_to_eq n t dur s N6). cbv zeta. rewrite E. fold month. fold year. fold days.
    rewrite (G n Hn). reflexivity.
Qed.

Lemma fields_secs : forall z y m d h mi s, has_fields z y m d h mi s ->
  z = epoch_days y m d * 86400 + h * 3600 + mi * 60 + s /\ 1 <= m <= 12 /\ 1 <= d <= dim y m /\
  0 <= h < 24 /\ 0 <= mi < 60 /\ 0 <= s < 60 /\ int32 (y - 1900) = true.
Proof.
  intros z y m d h mi s [t [H [<- [<- [<- [<- [<- <-]]]]]]].
  assert (I : int32 (tm_year t - 1900) = true).
  { unfold gmtime in H. destruct (int64 z); [|discriminate]. cbv zeta in H.
    destruct (int32 (tm_year (gmtime_tm z) - 1900)) eqn:E; [|discriminate]. injection H as <-. exact E. }
  apply gmtime_ok in H. destruct (gmtime_wf z) as [[W1 W2 W3 W4 W5] E]. rewrite <- H in *.
  unfold secs in E. rewrite seconds_split in E. split; [symmetry; exact E|]. tauto.
Qed.
Lemma own_fields : forall z t, gmtime z = Ok t ->
  has_fields z (tm_year t) (tm_mon t) (tm_mday t) (tm_hour t) (tm_min t) (tm_sec t).
Proof. intros z t H. exists t. tauto. Qed.

Lemma year_le : forall y m d y' m' d', 1 <= m <= 12 -> 1 <= d <= dim y m -> 1 <= m' <= 12 -> 1 <= d' <= dim y' m' ->
  epoch_days y m d <= epoch_days y' m' d' -> y <= y'.
Proof.
  intros y m d y' m' d' H1 H2 H3 H4 H. destruct (Z.le_gt_cases y y') as [L|L]; [assumption|exfalso].
  pose proof (days_lt y' m' d' y m d H3 H4 H1 H2 (or_introl L)). lia.
Qed.

Lemma add_ok : forall t z1 y1 m1 Y M D h mi s l t' text,
  has_fields z1 y1 m1 (tm_mday t) (tm_hour t) (tm_min t) (tm_sec t) ->
  12 * y1 + m1 = 12 * (tm_year t + Y) + tm_mon t + M ->
  parse_duration text = Ok (true, mkDur Y M D h mi (DInt s)) ->
  0 <= h -> 0 <= mi -> 0 <= s ->
  month_length y1 m1 l -> 1 <= D <= l ->
  (tm_hour t + h) * 3600 + (tm_min t + mi) * 60 + tm_sec t + s < 216000 ->
  gmtime (z1 + D * 86400 + h * 3600 + mi * 60 + s) = Ok t' -> tm_year t' <= 2147483647 ->
  exists k, forall n, (k <= n)%nat -> add_duration n t text = Ok (Some t').
Proof.
  intros t z1 y1 m1 Y M D h mi s l t' text HF HM HP Nh Nmi Ns HL HD HS HT HY.
  destruct (fields_secs _ _ _ _ _ _ _ HF) as [E1 [B1 [B2 [B3 [B4 [B5 B6]]]]]].
  destruct (fields_secs _ _ _ _ _ _ _ (own_fields _ _ HT)) as [F1 [C1 [C2 [C3 [C4 [C5 C6]]]]]].
  apply (month_length_iff y1 m1 l B1) in HL. subst l.
  set (dur := mkDur Y M D h mi (DInt s)) in *.
  destruct (hms t dur s) as [[[se mi'] ho] c] eqn:E.
  destruct (hms_carry t dur s se mi' ho c) as [Hc [Hsum [Q1 [Q2 Q3]]]]; try assumption; try lia.
  cbn [d_hour d_min dur] in Hsum. assert (c = 0) by lia. subst c.
  destruct (day_loop_ok (Z.to_nat (D + tm_mday t)) y1 m1 (D + tm_mday t) 0) as [y' [m' [d' [G [G2 [G3 G4]]]]]]; [lia|assumption|lia|].
  exists (Z.to_nat (D + tm_mday t)). intros n Hn. unfold add_duration. rewrite HP. cbn [bind].
  rewrite (add_to_eq n t dur s eq_refl). cbv zeta. rewrite E. cbn [d_mon d_year d_mday dur].
  assert (Em : (tm_mon t + M - 1) mod 12 + 1 = m1) by lia.
  assert (Ey : tm_year t + Y + (tm_mon t + M - 1) / 12 = y1) by lia.
  rewrite Em, Ey. replace (Z.max 1 (Z.min (dim y1 m1) D) + tm_mday t + 0) with (D + tm_mday t) by lia.
  rewrite (G n Hn). cbn [bind]. unfold mk_local. rewrite seconds_split.
  assert (ED : epoch_days y1 m1 (tm_mday t) = epoch_days y1 m1 1 + tm_mday t - 1) by (unfold epoch_days; lia).
  assert (ES : epoch_days y' m' d' * 86400 + ho * 3600 + mi' * 60 + se = z1 + D * 86400 + h * 3600 + mi * 60 + s) by lia.
  assert (L1 : y1 <= y') by (apply (year_le y1 m1 (tm_mday t) y' m' d'); try assumption; lia).
  assert (L2 : y' <= tm_year t') by (apply (year_le y' m' d' (tm_year t') (tm_mon t') (tm_mday t')); try assumption; lia).
  rewrite ES, HT. unfold int32 in *. replace (_ && _ && _) with true by lia. reflexivity.
Qed.

(** ** Points *)
Lemma gmtime_range : forall z, representable z -> gmtime z = Ok (gmtime_tm z).
Proof. intros z [t H]. rewrite H. f_equal. apply gmtime_ok. assumption. Qed.
Lemma before_int : forall now p, representable now -> representable p -> p <> 0 -> before now (PInt p) = Ok (now <? p).
Proof.
  intros now p Hn Hp N. unfold before. cbn [pfalse conv]. replace (p =? 0) with false by lia.
  rewrite (gmtime_range _ Hp), (gmtime_range _ Hn). cbn [bind]. rewrite gmtime_order. reflexivity.
Qed.
Lemma after_int : forall now p, representable now -> representable p -> p <> 0 -> after now (PInt p) = Ok (p <=? now).
Proof.
  intros now p Hn Hp N. unfold after. rewrite (before_int _ _ Hn Hp N). cbn [pfalse bind]. replace (p =? 0) with false by lia.
  f_equal. lia.
Qed.
Lemma later_int : forall a b, representable a -> representable b -> later_than (PInt a) (PInt b) = Ok (b <=? a).
Proof.
  intros a b Ha Hb. unfold later_than. cbn [conv]. rewrite (gmtime_range _ Ha), (gmtime_range _ Hb). cbn [bind].
  unfold tm_le. rewrite gmtime_order. f_equal. lia.
Qed.
Lemma before_str : forall now p s, representable now -> representable p -> s <> [] -> str_to_time s = Ok (Some (gmtime_tm p)) ->
  before now (PStr s) = Ok (now <? p) /\ after now (PStr s) = Ok (p <=? now).
Proof.
  intros now p s Hn Hp N H. assert (B : before now (PStr s) = Ok (now <? p)).
  { unfold before. cbn [pfalse conv]. destruct s as [|c s]; [congruence|]. cbn [is_nil]. rewrite H.
    rewrite (gmtime_range _ Hn). cbn [bind]. rewrite gmtime_order. reflexivity. }
  split; [assumption|]. unfold after. rewrite B. cbn [pfalse bind]. destruct s as [|c s]; [congruence|]. cbn [is_nil].
  f_equal. lia.
Qed.

(** ** str_to_time *)
Definition pseq {A} (p : list (N * ustr)) (sep : ustr -> list ustr) (k : N -> ustr -> list A) : list A :=
  flat_map (fun xr => let '(x, r) := xr in flat_map (k x) (sep r)) p.
Lemma match_iso_eq : forall s, match_iso s = hd_error (
  pseq (p_year s) (p_lit 45) (fun y r => pseq (p_month r) (p_lit 45) (fun m r => pseq (p_day r) (p_letter 84) (fun d r =>
  pseq (p_hour r) (p_lit 58) (fun h r => pseq (p_min r) (p_lit 58) (fun mi r =>
  flat_map (fun sr => let '(se, r) := sr in map (fun r => (y, m, d, h, mi, se, r)) (p_letter 90 r)) (p_sec r))))))).
Proof. reflexivity. Qed.

Definition zfrom (a : Z) (n : nat) : list Z := map (fun i => a + Z.of_nat i) (seq 0 n).
Lemma in_zfrom : forall a n k, a <= k < a + Z.of_nat n -> In k (zfrom a n).
Proof.
  intros a n k H. unfold zfrom. apply in_map_iff. exists (Z.to_nat (k - a)). split; [lia|]. apply in_seq. lia.
Qed.
Ltac each H := cbv in H; repeat (destruct H as [<-|H]; [cbv - [app]; cbn [app]; rewrite ?app_nil_r; reflexivity|]); destruct H.

Lemma seq_month : forall A m r (k : N -> ustr -> list A), 1 <= m <= 12 ->
  pseq (p_month (dig2 m ++ 45%N :: r)) (p_lit 45) k = k (Z.to_N m) r.
Proof. intros A m r k H. assert (G : In m (zfrom 1 12)) by (apply in_zfrom; lia). clear H. each G. Qed.
Lemma seq_day : forall A m r (k : N -> ustr -> list A), 1 <= m <= 31 ->
  pseq (p_day (dig2 m ++ 84%N :: r)) (p_letter 84) k = k (Z.to_N m) r.
Proof. intros A m r k H. assert (G : In m (zfrom 1 31)) by (apply in_zfrom; lia). clear H. each G. Qed.
Lemma seq_hour : forall A m r (k : N -> ustr -> list A), 0 <= m < 24 ->
  pseq (p_hour (dig2 m ++ 58%N :: r)) (p_lit 58) k = k (Z.to_N m) r.
Proof. intros A m r k H. assert (G : In m (zfrom 0 24)) by (apply in_zfrom; lia). clear H. each G. Qed.
Lemma seq_min : forall A m r (k : N -> ustr -> list A), 0 <= m < 60 ->
  pseq (p_min (dig2 m ++ 58%N :: r)) (p_lit 58) k = k (Z.to_N m) r.
Proof. intros A m r k H. assert (G : In m (zfrom 0 60)) by (apply in_zfrom; lia). clear H. each G. Qed.
Lemma seq_sec : forall A m r (k : N -> ustr -> A), 0 <= m < 60 ->
  flat_map (fun sr => let '(se, r) := sr in map (k se) (p_letter 90 r)) (p_sec (dig2 m ++ 90%N :: r)) = [k (Z.to_N m) r].
Proof. intros A m r k H. assert (G : In m (zfrom 0 60)) by (apply in_zfrom; lia). clear H. each G. Qed.
Lemma seq_sec_point : forall A m r (k : N -> ustr -> A), 0 <= m < 60 ->
  flat_map (fun sr => let '(se, r) := sr in map (k se) (p_letter 90 r)) (p_sec (dig2 m ++ 46%N :: r)) = [].
Proof. intros A m r k H. assert (G : In m (zfrom 0 60)) by (apply in_zfrom; lia). clear H. each G. Qed.
Lemma seq_year : forall A y r (k : N -> ustr -> list A), 0 <= y <= 9999 ->
  pseq (p_year (dig4 y ++ 45%N :: r)) (p_lit 45) k = k (Z.to_N y) r.
Proof.
  intros A y r k H. unfold dig4. cbn [app p_year].
  assert (D : forall z, is_digit (dig z) = true) by (intro z; apply is_digit_iff; unfold dig; lia).
  rewrite !D. cbn [andb]. unfold pseq. cbn [flat_map p_lit]. change (45 =? 45)%N with true. cbn [flat_map].
  rewrite !app_nil_r. f_equal. unfold dig. lia.
Qed.
Lemma iso_split : forall t r, iso_base t ++ r =
  dig4 (tm_year t) ++ 45%N :: dig2 (tm_mon t) ++ 45%N :: dig2 (tm_mday t) ++ 84%N ::
  dig2 (tm_hour t) ++ 58%N :: dig2 (tm_min t) ++ 58%N :: dig2 (tm_sec t) ++ r.
Proof. reflexivity. Qed.

Lemma match_iso_Z : forall t, wf t -> 0 <= tm_year t <= 9999 ->
  match_iso (iso_base t ++ u "Z") = Some (Z.to_N (tm_year t), Z.to_N (tm_mon t), Z.to_N (tm_mday t),
    Z.to_N (tm_hour t), Z.to_N (tm_min t), Z.to_N (tm_sec t), []).
Proof.
  intros t [W1 W2 W3 W4 W5] Hy. pose proof (dim_bound (tm_year t) _ W1) as B. rewrite match_iso_eq, iso_split.
  rewrite seq_year by lia. rewrite seq_month by lia. rewrite seq_day by lia. rewrite seq_hour by lia. rewrite seq_min by lia.
  change (u "Z") with [90%N]. rewrite seq_sec by lia. reflexivity.
Qed.
Lemma match_iso_point : forall t r, wf t -> 0 <= tm_year t <= 9999 -> match_iso (iso_base t ++ 46%N :: r) = None.
Proof.
  intros t r [W1 W2 W3 W4 W5] Hy. pose proof (dim_bound (tm_year t) _ W1) as B. rewrite match_iso_eq, iso_split.
  rewrite seq_year by lia. rewrite seq_month by lia. rewrite seq_day by lia. rewrite seq_hour by lia. rewrite seq_min by lia.
  rewrite seq_sec_point by lia. reflexivity.
Qed.
Lemma dig_digit : forall z, is_digit (dig z) = true.
Proof. intro z. apply is_digit_iff. unfold dig. lia. Qed.
Lemma dig_ascii : forall z, is_ascii (dig z) = true.
Proof. intro z. unfold is_ascii, dig. lia. Qed.
Lemma iso_ascii : forall t, forallb is_ascii (iso_base t) = true.
Proof.
  intro t. rewrite <- (app_nil_r (iso_base t)), iso_split. unfold dig4, dig2. cbn [app forallb]. rewrite !dig_ascii. reflexivity.
Qed.

Lemma valid_date_of : forall y m d, 1 <= y <= 9999 -> 1 <= m <= 12 -> 1 <= d <= dim y m ->
  valid_date (Z.to_N y) (Z.to_N m) (Z.to_N d) = true.
Proof.
  intros y m d Hy Hm Hd. unfold valid_date, month_days.
  assert (L : leap (Z.to_N y) = isleap y) by (unfold leap, isleap; lia). rewrite L.
  unfold dim, leapd in Hd. rewrite !andb_true_iff, !N.leb_le.
  repeat (split; [lia|]). destruct (isleap y); each_month Hm; cbn in *; lia.
Qed.

Lemma strptime_Z : forall t, wf t -> 1 <= tm_year t <= 9999 ->
  strptime_iso (iso_base t ++ u "Z") = Ok (tm_year t, tm_mon t, tm_mday t, tm_hour t, tm_min t, tm_sec t).
Proof.
  intros t W Hy. unfold strptime_iso. rewrite forallb_app, iso_ascii. cbn [forallb andb u].
  change (forallb is_ascii (u "Z")) with true. cbv iota. rewrite (match_iso_Z t W) by lia.
  destruct W as [W1 W2 W3 W4 W5]. rewrite (valid_date_of _ _ _ Hy W1 W2). cbn [is_nil andb].
  rewrite !Z2N.id by lia. reflexivity.
Qed.
Lemma strptime_point : forall t r, wf t -> 1 <= tm_year t <= 9999 -> forallb is_ascii r = true ->
  strptime_iso (iso_base t ++ 46%N :: r) = Err EValueError.
Proof.
  intros t r W Hy Hr. unfold strptime_iso. rewrite forallb_app, iso_ascii. cbn [forallb andb].
  change (is_ascii 46) with true. rewrite Hr. cbn [andb]. rewrite (match_iso_point t r W) by lia. reflexivity.
Qed.
Lemma p_digits_4 : forall z r, p_digits 4 (dig4 z ++ r) = Some (dig4 z, r).
Proof.
  intros z r. unfold p_digits. change (firstn 4 (dig4 z ++ r)) with (dig4 z). change (skipn 4 (dig4 z ++ r)) with r.
  change (4 <=? List.length (dig4 z ++ r))%nat with true. unfold dig4. cbn [forallb]. rewrite !dig_digit. reflexivity.
Qed.
Lemma p_digits_2 : forall z r, p_digits 2 (dig2 z ++ r) = Some (dig2 z, r).
Proof.
  intros z r. unfold p_digits. change (firstn 2 (dig2 z ++ r)) with (dig2 z). change (skipn 2 (dig2 z ++ r)) with r.
  change (2 <=? List.length (dig2 z ++ r))%nat with true. unfold dig2. cbn [forallb]. rewrite !dig_digit. reflexivity.
Qed.
Lemma frag_step : forall n c l s a r b t, p_digits n s = Some (a, c :: r) -> frag_head l r = Some (b, t) ->
  frag_head ((n, c) :: l) s = Some (a ++ c :: b, t).
Proof. intros n c l s a r b t H G. cbn [frag_head]. rewrite H. cbn [p_char]. rewrite N.eqb_refl, G. reflexivity. Qed.
Lemma match_frag_ok : forall t ds, forallb is_digit ds = true ->
  match_frag (iso_base t ++ 46%N :: ds ++ u "Z") = Some (iso_base t).
Proof.
  intros t ds H. unfold match_frag. rewrite iso_split.
  erewrite frag_step; [|apply p_digits_4|]; [|eapply frag_step; [apply p_digits_2|]; eapply frag_step; [apply p_digits_2|];
    eapply frag_step; [apply p_digits_2|]; eapply frag_step; [apply p_digits_2|]; eapply frag_step; [apply p_digits_2|reflexivity]].
  rewrite (span_app is_digit ds (u "Z") H) by reflexivity. reflexivity.
Qed.

Lemma timegm_secs : forall z t, gmtime z = Ok t -> 1 <= tm_year t <= 9999 ->
  timegm (tm_year t) (tm_mon t) (tm_mday t) (tm_hour t) (tm_min t) (tm_sec t) = Ok z.
Proof.
  intros z t H Hy. apply gmtime_ok in H. destruct (gmtime_wf z) as [[W1 _ _ _ _] E]. rewrite <- H in *.
  unfold timegm. replace (_ && _) with true by lia. unfold secs in E. rewrite E. reflexivity.
Qed.
Lemma gmtime_is_wf : forall z t, gmtime z = Ok t -> wf t.
Proof. intros z t H. apply gmtime_ok in H. subst t. apply gmtime_wf. Qed.

Lemma str_to_time_Z : forall z t, gmtime z = Ok t -> 1 <= tm_year t <= 9999 ->
  str_to_time (iso_base t ++ u "Z") = Ok (Some t).
Proof.
  intros z t H Hy. pose proof (strptime_Z t (gmtime_is_wf _ _ H) Hy) as S.
  assert (N : exists c r, iso_base t ++ u "Z" = c :: r) by (do 2 eexists; reflexivity). destruct N as [c [r N]].
  unfold str_to_time. rewrite N in *. rewrite S. cbn [bind]. rewrite (timegm_secs _ _ H Hy). cbn [bind]. rewrite H. reflexivity.
Qed.
Lemma str_to_time_frac : forall z t ds, gmtime z = Ok t -> 1 <= tm_year t <= 9999 -> forallb is_digit ds = true ->
  str_to_time (iso_base t ++ 46%N :: ds ++ u "Z") = Ok (Some t).
Proof.
  intros z t ds H Hy Hd. pose proof (gmtime_is_wf _ _ H) as W.
  assert (A : forallb is_ascii (ds ++ u "Z") = true) by (rewrite forallb_app, (digits_ascii _ Hd); reflexivity).
  pose proof (strptime_point t _ W Hy A) as S. pose proof (match_frag_ok t ds Hd) as F.
  assert (N : exists c r, iso_base t ++ 46%N :: ds ++ u "Z" = c :: r) by (do 2 eexists; reflexivity). destruct N as [c [r N]].
  unfold str_to_time. rewrite N in *. rewrite S, F, (strptime_Z t W Hy). cbn [bind].
  rewrite (timegm_secs _ _ H Hy). cbn [bind]. rewrite H. reflexivity.
Qed.

(** rendering *)
Lemma pad2_dig : forall z, 0 <= z < 60 -> pad2 z = dig2 z.
Proof. intros z H. assert (G : In z (zfrom 0 60)) by (apply in_zfrom; lia). clear H. cbv in G.
  repeat (destruct G as [<-|G]; [reflexivity|]). destruct G. Qed.
Lemma num_dig4 : forall z, 1000 <= z <= 9999 -> num_of_digits 0 (dig4 z) = Z.to_N z.
Proof. intros z H. unfold dig4, dig. cbn [num_of_digits]. lia. Qed.
Lemma dec_dig4 : forall z, 1000 <= z <= 9999 -> dec_Z z = dig4 z.
Proof.
  intros z H. assert (G : In z (zfrom 1000 (Z.to_nat 9000))) by (apply in_zfrom; lia).
  assert (C : forallb (fun z => ueqb (dec_Z z) (dig4 z)) (zfrom 1000 (Z.to_nat 9000)) = true) by (vm_compute; reflexivity).
  apply ueqb_eq. exact (proj1 (forallb_forall _ _) C z G).
Qed.
Lemma strftime_iso : forall t, wf t -> 1000 <= tm_year t <= 9999 -> strftime t = iso_base t ++ u "Z".
Proof.
  intros t [W1 W2 W3 W4 W5] Hy. pose proof (dim_bound (tm_year t) _ W1) as B. unfold strftime.
  rewrite (dec_dig4 _ Hy), !pad2_dig by lia. reflexivity.
Qed.
Lemma instant_back : forall now t, gmtime now = Ok t -> 1000 <= tm_year t <= 9999 ->
  exists s, instant now = Ok s /\ str_to_time s = Ok (Some t).
Proof.
  intros now t H Hy. exists (iso_base t ++ u "Z"). unfold instant. rewrite H. cbn [bind].
  rewrite (strftime_iso t (gmtime_is_wf _ _ H) Hy). split; [reflexivity|]. apply (str_to_time_Z now); [assumption|lia].
Qed.
Lemma text_orders : forall now p t s, representable now -> gmtime p = Ok t -> 1 <= tm_year t <= 9999 ->
  s = iso_base t ++ u "Z" \/ (exists ds, forallb is_digit ds = true /\ s = iso_base t ++ u "." ++ ds ++ u "Z") ->
  before now (PStr s) = Ok (now <? p) /\ after now (PStr s) = Ok (p <=? now).
Proof.
  intros now p t s Hn H Hy HS. assert (Hp : representable p) by (exists t; assumption).
  pose proof (gmtime_ok _ _ H) as E.
  apply before_str; [assumption|assumption| |]; destruct HS as [->|[ds [Hd ->]]].
  - discriminate.
  - discriminate.
  - rewrite <- E. exact (str_to_time_Z p t H Hy).
  - rewrite <- E. exact (str_to_time_frac p t ds H Hy Hd).
Qed.

(** ** relative times *)
Lemma timedelta_ok : forall d x, timedelta d = Ok x -> x = delta_us d.
Proof. intros d x H. unfold timedelta in H. cbv zeta in H. destruct (_ && _); [|discriminate]. congruence. Qed.
Lemma shift_ok : forall a b x, shift_us a b = Ok x -> x = a + b /\ -62135596800000000 <= x < 253402300800000000.
Proof.
  intros a b x H. unfold shift_us, datetime_ok in H. destruct (_ && _) eqn:E; [|discriminate]. injection H as <-. lia.
Qed.
Lemma in_while_ok : forall now d x, time_in_a_while now d = Ok x ->
  x = now + delta_us d /\ -62135596800000000 <= x < 253402300800000000.
Proof.
  intros now d x H. unfold time_in_a_while in H. destruct (timedelta d) as [y|] eqn:E; [|discriminate].
  apply timedelta_ok in E. subst y. apply shift_ok. assumption.
Qed.
Lemma ago_ok : forall now d x, time_a_while_ago now d = Ok x ->
  x = now - delta_us d /\ -62135596800000000 <= x < 253402300800000000.
Proof.
  intros now d x H. unfold time_a_while_ago in H. destruct (timedelta d) as [y|] eqn:E; [|discriminate].
  apply timedelta_ok in E. subst y. apply shift_ok in H. lia.
Qed.

Lemma year_small : forall t, wf t -> -62135596800 <= secs t < 253402300800 -> 1 <= tm_year t <= 9999.
Proof.
  intros t [W1 W2 W3 W4 W5] E. unfold secs in E. rewrite seconds_split in E. split.
  - apply (year_le 1 1 1 (tm_year t) (tm_mon t) (tm_mday t)); try assumption; try lia.
    + pose proof (dim_bound 1 1). lia.
    + change (epoch_days 1 1 1) with (-719162). lia.
  - apply (year_le (tm_year t) (tm_mon t) (tm_mday t) 9999 12 31); try assumption; try lia.
    + change (dim 9999 12) with 31. lia.
    + change (epoch_days 9999 12 31) with 2932896. lia.
Qed.
Lemma int_small : forall z y, -62135596800 <= z < 253402300800 -> 1 <= y <= 9999 -> int64 z = true /\ int32 (y - 1900) = true.
Proof. intros z y H1 H2. unfold int64, int32. lia. Qed.
Lemma gmtime_small : forall z, -62135596800 <= z < 253402300800 ->
  gmtime z = Ok (gmtime_tm z) /\ 1 <= tm_year (gmtime_tm z) <= 9999.
Proof.
  intros z H. destruct (gmtime_wf z) as [W E].
  assert (Y : 1 <= tm_year (gmtime_tm z) <= 9999) by (apply year_small; [assumption|rewrite E; assumption]).
  split; [|assumption]. destruct (int_small _ _ H Y) as [I1 I2]. unfold gmtime. rewrite I1. cbv zeta. rewrite I2. reflexivity.
Qed.

Lemma rendered : forall x, -62135596800000000 <= x < 253402300800000000 -> 1000 <= tm_year (gmtime_tm (x / 1000000)) ->
  exists t, gmtime (x / 1000000) = Ok t /\ str_to_time (datetime_str x) = Ok (Some t).
Proof.
  intros x H Hy. destruct (gmtime_small (x / 1000000)) as [G Y]; [lia|].
  exists (gmtime_tm (x / 1000000)). split; [assumption|]. unfold datetime_str.
  destruct (gmtime_wf (x / 1000000)) as [W _]. rewrite (strftime_iso _ W); [|lia]. exact (str_to_time_Z _ _ G Y).
Qed.

Lemma in_a_while_back : forall now d s, in_a_while now d = Ok s -> 1000 <= tm_year (gmtime_tm ((now + delta_us d) / 1000000)) ->
  exists t, gmtime ((now + delta_us d) / 1000000) = Ok t /\ str_to_time s = Ok (Some t).
Proof.
  intros now d s H Hy. unfold in_a_while in H. destruct (time_in_a_while now d) as [x|] eqn:E; [|discriminate].
  injection H as <-. apply in_while_ok in E. destruct E as [-> R]. apply rendered; assumption.
Qed.
Lemma ago_back : forall now d s, a_while_ago now d = Ok s -> 1000 <= tm_year (gmtime_tm ((now - delta_us d) / 1000000)) ->
  exists t, gmtime ((now - delta_us d) / 1000000) = Ok t /\ str_to_time s = Ok (Some t).
Proof.
  intros now d s H Hy. unfold a_while_ago in H. destruct (time_a_while_ago now d) as [x|] eqn:E; [|discriminate].
  injection H as <-. apply ago_ok in E. destruct E as [-> R]. apply rendered; assumption.
Qed.
Lemma epoch_ok : forall now d z, epoch_in_a_while now d = Ok z -> 0 <= now + delta_us d ->
  z * 1000000 <= now + delta_us d < (z + 1) * 1000000.
Proof.
  intros now d z H N. unfold epoch_in_a_while in H. destruct (time_in_a_while now d) as [x|] eqn:E; [|discriminate].
  injection H as <-. apply in_while_ok in E. destruct E as [-> _]. unfold total_seconds_int.
  rewrite Z.quot_div_nonneg by lia. lia.
Qed.
Lemma shift_sum : forall us a b x y, shift_time us a = Ok x -> shift_time x b = Ok y ->
  y = us + (a + b) * 1000000.
Proof.
  intros us a b x y H G. unfold shift_time in *.
  destruct (timedelta (mkDelta 0 a 0 0 0 0 0)) as [p|] eqn:Ea; [|discriminate].
  destruct (timedelta (mkDelta 0 b 0 0 0 0 0)) as [q|] eqn:Eb; [|discriminate].
  apply timedelta_ok in Ea, Eb. cbn [bind] in H, G. apply shift_ok in H, G. unfold delta_us in *. cbn in *. lia.
Qed.
Lemma day_loop_month : forall y m days c, 1 <= m <= 12 -> 1 <= days ->
  exists k y' m' d' l, (forall n, (k <= n)%nat -> day_loop n y m days c = Ok (y', m', d')) /\
    month_length y' m' l /\ 1 <= d' <= l /\ epoch_days y' m' d' = epoch_days y m 1 + days - 1.
Proof.
  intros y m days c Hm Hd. destruct (day_loop_ok (Z.to_nat days) y m days c) as [y' [m' [d' [G1 [G2 [G3 G4]]]]]]; [lia|assumption|assumption|].
  exists (Z.to_nat days), y', m', d', (dim y' m'). split; [assumption|]. split; [apply month_length_iff; [assumption|reflexivity]|].
  split; assumption.
Qed.
Lemma add_never_ends : exists t text pos dur, gmtime 0 = Ok t /\
  parse_duration text = Ok (pos, dur) /\ forall n, add_duration n t text = Err OutOfFuel.
Proof.
  exists (mkTm 1970 1 1 0 0 0 3 1 0), (u "P0DT -600H"), true, (mkDur 0 0 0 (-600) 0 (DInt 0)).
  split; [vm_compute; reflexivity|]. assert (P : parse_duration (u "P0DT -600H") = Ok (true, mkDur 0 0 0 (-600) 0 (DInt 0))) by (vm_compute; reflexivity).
  split; [exact P|]. intro n. unfold add_duration. rewrite P. cbn [bind]. rewrite (add_to_eq n _ (mkDur 0 0 0 (-600) 0 (DInt 0)) 0 eq_refl).
  cbv zeta. match goal with |- context [hms ?a ?b ?c] => change (hms a b c) with (0, 0, 0, -10) end. cbv beta iota.
  rewrite day_loop_never; [reflexivity|]. vm_compute. reflexivity.
Qed.
