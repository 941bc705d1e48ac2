(** Exactly which texts are read as points in time. *)
From Coq Require Import List NArith ZArith Bool String Lia ZifyBool ZifyN.
From Verif Require Import Base.Ustr Base.UstrLemmas Model.Cls Model.Value Model.Calendar Model.TimeUtil Spec.VerifySpec Spec.TimeSpec Spec.ZoneSpec Spec.StampSpec
  Proofs.CalendarLemmas Proofs.DateLemmas Proofs.TimeLemmas Proofs.StampLemmas Proofs.ZoneLemmas.
Import ListNotations.
Open Scope list_scope.
Open Scope N_scope.
Ltac Zify.zify_post_hook ::= Z.div_mod_to_equations.

(** ** the fields *)
Lemma two_some' : forall (f g : N -> bool) a b r, f a = true -> g b = true -> two f g (a :: b :: r) = Some ((a - 48) * 10 + (b - 48), r).
Proof. intros f g a b r Ha Hb. cbn [two]. rewrite Ha, Hb. reflexivity. Qed.
Lemma p_hour_in : forall s m r, In (m, r) (p_hour s) -> exists t, hour_text m t /\ s = t ++ r.
Proof.
  intros s m r H. unfold p_hour in H. apply In_alts in H. cbn [In] in H. destruct H as [H|[H|[H|[]]]].
  - apply two_some in H. destruct H as [a [b [-> [Ha [Hb ->]]]]]. apply N.eqb_eq in Ha. apply between_iff in Hb.
    exists [a; b]. split; [|reflexivity]. split; [lia|]. left. symmetry. apply two_digits_eq; lia.
  - apply two_some in H. destruct H as [a [b [-> [Ha [Hb ->]]]]]. apply between_iff in Ha. apply is_digit_iff in Hb.
    exists [a; b]. split; [|reflexivity]. split; [lia|]. left. symmetry. apply two_digits_eq; lia.
  - apply one_some in H. destruct H as [b [-> [Hb ->]]]. apply is_digit_iff in Hb.
    exists [b]. split; [|reflexivity]. split; [lia|]. right. split; [lia|]. f_equal. lia.
Qed.
Lemma p_min_in : forall s m r, In (m, r) (p_min s) -> exists t, minute_text m t /\ s = t ++ r.
Proof.
  intros s m r H. unfold p_min in H. apply In_alts in H. cbn [In] in H. destruct H as [H|[H|[]]].
  - apply two_some in H. destruct H as [a [b [-> [Ha [Hb ->]]]]]. apply between_iff in Ha. apply is_digit_iff in Hb.
    exists [a; b]. split; [|reflexivity]. split; [lia|]. left. symmetry. apply two_digits_eq; lia.
  - apply one_some in H. destruct H as [b [-> [Hb ->]]]. apply is_digit_iff in Hb.
    exists [b]. split; [|reflexivity]. split; [lia|]. right. split; [lia|]. f_equal. lia.
Qed.
Lemma p_sec_in : forall s m r, In (m, r) (p_sec s) -> exists t, second_text m t /\ s = t ++ r.
Proof.
  intros s m r H. unfold p_sec in H. apply In_alts in H. cbn [In] in H. destruct H as [H|[H|[H|[]]]].
  - apply two_some in H. destruct H as [a [b [-> [Ha [Hb ->]]]]]. apply N.eqb_eq in Ha. apply between_iff in Hb.
    exists [a; b]. split; [|reflexivity]. split; [lia|]. left. symmetry. apply two_digits_eq; lia.
  - apply two_some in H. destruct H as [a [b [-> [Ha [Hb ->]]]]]. apply between_iff in Ha. apply is_digit_iff in Hb.
    exists [a; b]. split; [|reflexivity]. split; [lia|]. left. symmetry. apply two_digits_eq; lia.
  - apply one_some in H. destruct H as [b [-> [Hb ->]]]. apply is_digit_iff in Hb.
    exists [b]. split; [|reflexivity]. split; [lia|]. right. split; [lia|]. f_equal. lia.
Qed.

Lemma below : forall n k, k <= N.of_nat n -> In k (0 :: upto n).
Proof. intros n k H. destruct (N.eq_dec k 0) as [->|Hk]; [left; reflexivity|]. right. apply in_upto. lia. Qed.
Ltac pick_alt := solve [left; vm_compute; reflexivity | right; pick_alt].
Ltac enum G := match type of G with
  | _ \/ _ => destruct G as [G|G]; [subst; pick_alt|enum G]
  | _ => destruct G
  end.
Ltac by_enum G := cbv in G; enum G.
Lemma in_month : forall m t r, month_text m t -> In (m, r) (p_month (t ++ r)).
Proof.
  intros m t r [Hm Ht]. unfold p_month. rewrite In_alts. cbn [In]. destruct Ht as [->|[Hl ->]]; cbn [app two_digits two one].
  - apply (in_upto 12) in Hm. by_enum Hm.
  - assert (G : In m (upto 9)) by (apply in_upto; lia). clear - G. by_enum G.
Qed.
Lemma in_day : forall m t r, day_text m t -> In (m, r) (p_day (t ++ r)).
Proof.
  intros m t r [Hm Ht]. unfold p_day. rewrite In_alts. cbn [In]. destruct Ht as [->|[Hl [->| ->]]]; cbn [app two_digits two one].
  - apply (in_upto 31) in Hm. by_enum Hm.
  - assert (G : In m (upto 9)) by (apply in_upto; lia). clear - G. by_enum G.
  - assert (G : In m (upto 9)) by (apply in_upto; lia). clear - G. by_enum G.
Qed.
Lemma in_hour : forall m t r, hour_text m t -> In (m, r) (p_hour (t ++ r)).
Proof.
  intros m t r [Hm Ht]. unfold p_hour. rewrite In_alts. cbn [In]. destruct Ht as [->|[Hl ->]]; cbn [app two_digits two one].
  - apply (below 23) in Hm. by_enum Hm.
  - apply (below 9) in Hl. clear - Hl. by_enum Hl.
Qed.
Lemma in_min : forall m t r, minute_text m t -> In (m, r) (p_min (t ++ r)).
Proof.
  intros m t r [Hm Ht]. unfold p_min. rewrite In_alts. cbn [In]. destruct Ht as [->|[Hl ->]]; cbn [app two_digits two one].
  - apply (below 59) in Hm. by_enum Hm.
  - apply (below 9) in Hl. clear - Hl. by_enum Hl.
Qed.
Lemma in_sec : forall m t r, second_text m t -> In (m, r) (p_sec (t ++ r)).
Proof.
  intros m t r [Hm Ht]. unfold p_sec. rewrite In_alts. cbn [In]. destruct Ht as [->|[Hl ->]]; cbn [app two_digits two one].
  - apply (below 61) in Hm. by_enum Hm.
  - apply (below 9) in Hl. clear - Hl. by_enum Hl.
Qed.
Lemma in_lit : forall c r, In r (p_lit c (c :: r)).
Proof. intros c r. cbn [p_lit]. rewrite N.eqb_refl. left. reflexivity. Qed.
Lemma p_letter_in : forall c s r, In r (p_letter c s) -> s = c :: r \/ s = c + 32 :: r.
Proof.
  intros c [|x s] r H; [destruct H|]. cbn in H. destruct ((x =? c) || (x =? c + 32)) eqn:E; [|destruct H].
  destruct H as [<-|[]]. apply orb_prop in E. destruct E as [E|E]; apply N.eqb_eq in E; subst; auto.
Qed.
Lemma in_letter : forall c x r, x = c \/ x = c + 32 -> In r (p_letter c (x :: r)).
Proof. intros c x r H. cbn [p_letter]. replace ((x =? c) || (x =? c + 32)) with true by lia. left. reflexivity. Qed.
Lemma in_pseq : forall A p sep (k : N -> ustr -> list A) x, In x (pseq p sep k) <-> exists v r r', In (v, r) p /\ In r' (sep r) /\ In x (k v r').
Proof.
  intros A p sep k x. unfold pseq. rewrite in_flat_map. split.
  - intros [[v r] [H1 H2]]. apply in_flat_map in H2. destruct H2 as [r' [H2 H3]]. exists v, r, r'. auto.
  - intros (v & r & r' & H1 & H2 & H3). exists (v, r). split; [exact H1|]. apply in_flat_map. exists r'. auto.
Qed.

(** ** one reading *)
Definition digital (t : ustr) : Prop := Forall (fun c => is_digit c = true) t.
Lemma same_digits : forall t1 t2 c1 c2 r1 r2, digital t1 -> digital t2 -> is_digit c1 = false -> is_digit c2 = false ->
  t1 ++ c1 :: r1 = t2 ++ c2 :: r2 -> t1 = t2 /\ c1 :: r1 = c2 :: r2.
Proof.
  induction t1 as [|x t1 IH]; intros [|y t2] c1 c2 r1 r2 D1 D2 H1 H2 E; cbn [app] in E.
  - auto.
  - injection E as -> E. inversion D2; congruence.
  - injection E as -> E. inversion D1; congruence.
  - injection E as -> E. inversion D1; inversion D2; subst. destruct (IH t2 c1 c2 r1 r2) as [-> G]; try assumption. auto.
Qed.
Definition blank_or_digits (t : ustr) : Prop := digital t /\ t <> [] \/ exists t', t = 32 :: t' /\ digital t'.
Lemma same_field : forall t1 t2 c1 c2 r1 r2, blank_or_digits t1 -> blank_or_digits t2 -> is_digit c1 = false -> is_digit c2 = false ->
  t1 ++ c1 :: r1 = t2 ++ c2 :: r2 -> t1 = t2 /\ c1 :: r1 = c2 :: r2.
Proof.
  intros t1 t2 c1 c2 r1 r2 [[D1 N1]|(u1 & -> & D1)] [[D2 N2]|(u2 & -> & D2)] H1 H2 E.
  - eapply same_digits; eassumption.
  - destruct t1 as [|x t1]; [congruence|]. injection E as -> _. inversion D1 as [|? ? X]. discriminate.
  - destruct t2 as [|x t2]; [congruence|]. injection E as <- _. inversion D2 as [|? ? X]. discriminate.
  - injection E as E. destruct (same_digits u1 u2 c1 c2 r1 r2) as [-> G]; auto.
Qed.
Lemma dig1 : forall m, m <= 9 -> is_digit (48 + m) = true.
Proof. intros m H. apply is_digit_iff. lia. Qed.
Lemma dig10 : forall m, m <= 99 -> digital (two_digits m).
Proof. intros m H. unfold two_digits. repeat constructor; apply is_digit_iff; lia. Qed.
Ltac text_form := first [left; split; [apply dig10; lia|discriminate] | left; split; [repeat constructor; apply dig1; lia|discriminate] |
  right; eexists; split; [reflexivity|repeat constructor; apply dig1; lia]].
Lemma month_form : forall m t, month_text m t -> blank_or_digits t.
Proof. intros m t [H [->|[L ->]]]; text_form. Qed.
Lemma day_form : forall m t, day_text m t -> blank_or_digits t.
Proof. intros m t [H [->|[L [->| ->]]]]; text_form. Qed.
Lemma hour_form : forall m t, hour_text m t -> blank_or_digits t.
Proof. intros m t [H [->|[L ->]]]; text_form. Qed.
Lemma minute_form : forall m t, minute_text m t -> blank_or_digits t.
Proof. intros m t [H [->|[L ->]]]; text_form. Qed.
Lemma second_form : forall m t, second_text m t -> blank_or_digits t.
Proof. intros m t [H [->|[L ->]]]; text_form. Qed.
Lemma year_form : forall m t, year_text m t -> blank_or_digits t.
Proof. intros m t [H ->]. left. split; [|discriminate]. apply Forall_app. split; apply dig10; lia. Qed.
Ltac elems H := pose proof (f_equal (fun l => nth 0 l 0) H); pose proof (f_equal (fun l => nth 1 l 0) H);
  pose proof (f_equal (fun l => nth 2 l 0) H); pose proof (f_equal (fun l => nth 3 l 0) H); clear H; cbn [nth] in *.
Ltac one_value := intros; repeat match goal with H : _ /\ _ |- _ => destruct H | H : _ \/ _ |- _ => destruct H end; subst; unfold two_digits in *;
  repeat match goal with H : @eq (list N) _ _ |- _ => elems H | H : @eq ustr _ _ |- _ => elems H end; try discriminate; lia.
Lemma year_one : forall a b t, year_text a t -> year_text b t -> a = b.
Proof. unfold year_text. intros a b t [Ha ->] [Hb E]. unfold two_digits in E. cbn [app] in E. elems E. lia. Qed.
Lemma month_one : forall a b t, month_text a t -> month_text b t -> a = b.
Proof. unfold month_text. one_value. Qed.
Lemma day_one : forall a b t, day_text a t -> day_text b t -> a = b.
Proof. unfold day_text. one_value. Qed.
Lemma hour_one : forall a b t, hour_text a t -> hour_text b t -> a = b.
Proof. unfold hour_text. one_value. Qed.
Lemma minute_one : forall a b t, minute_text a t -> minute_text b t -> a = b.
Proof. unfold minute_text. one_value. Qed.
Lemma second_one : forall a b t, second_text a t -> second_text b t -> a = b.
Proof. unfold second_text. one_value. Qed.

Definition reading (s tail : ustr) (y m d h mi se : N) : Prop :=
  exists ty tm td t th tmi ts, year_text y ty /\ month_text m tm /\ day_text d td /\ (t = 84 \/ t = 116) /\
    hour_text h th /\ minute_text mi tmi /\ second_text se ts /\
    s = ty ++ [45] ++ tm ++ [45] ++ td ++ [t] ++ th ++ [58] ++ tmi ++ [58] ++ ts ++ tail.
Lemma reading_moment : forall s tail y m d h mi se, moment_text s tail y m d h mi se <-> reading s tail y m d h mi se /\ calendar_date y m d.
Proof.
  intros. split.
  - intros (ty & tm & td & t & th & tmi & ts & H1 & H2 & H3 & H4 & H5 & H6 & H7 & H8 & H9). split; [|exact H8].
    exists ty, tm, td, t, th, tmi, ts. tauto.
  - intros [(ty & tm & td & t & th & tmi & ts & H1 & H2 & H3 & H4 & H5 & H6 & H7 & H9) H8]. exists ty, tm, td, t, th, tmi, ts. tauto.
Qed.
Lemma one_reading : forall s c1 r1 c2 r2 y m d h mi se y' m' d' h' mi' se', is_digit c1 = false -> is_digit c2 = false ->
  reading s (c1 :: r1) y m d h mi se -> reading s (c2 :: r2) y' m' d' h' mi' se' ->
  (y, m, d, h, mi, se) = (y', m', d', h', mi', se') /\ c1 :: r1 = c2 :: r2.
Proof.
  intros s c1 r1 c2 r2 y m d h mi se y' m' d' h' mi' se' D1 D2 (ty & tm & td & t & th & tmi & ts & H1 & H2 & H3 & H4 & H5 & H6 & H7 & ->)
    (ty' & tm' & td' & t' & th' & tmi' & ts' & G1 & G2 & G3 & G4 & G5 & G6 & G7 & E).
  cbn [app] in E.
  assert (D45 : is_digit 45 = false) by reflexivity. assert (D58 : is_digit 58 = false) by reflexivity.
  assert (T : is_digit t = false /\ is_digit t' = false) by (split; [destruct H4 as [->| ->]|destruct G4 as [->| ->]]; reflexivity). destruct T as [T T'].
  destruct (same_field _ _ _ _ _ _ (year_form _ _ H1) (year_form _ _ G1) D45 D45 E) as [-> E1]. injection E1 as E1.
  destruct (same_field _ _ _ _ _ _ (month_form _ _ H2) (month_form _ _ G2) D45 D45 E1) as [-> E2]. injection E2 as E2.
  destruct (same_field _ _ _ _ _ _ (day_form _ _ H3) (day_form _ _ G3) T T' E2) as [-> E3]. injection E3 as -> E3.
  destruct (same_field _ _ _ _ _ _ (hour_form _ _ H5) (hour_form _ _ G5) D58 D58 E3) as [-> E4]. injection E4 as E4.
  destruct (same_field _ _ _ _ _ _ (minute_form _ _ H6) (minute_form _ _ G6) D58 D58 E4) as [-> E5]. injection E5 as E5.
  destruct (same_field _ _ _ _ _ _ (second_form _ _ H7) (second_form _ _ G7) D1 D2 E5) as [-> E6].
  rewrite (year_one _ _ _ H1 G1), (month_one _ _ _ H2 G2), (day_one _ _ _ H3 G3), (hour_one _ _ _ H5 G5), (minute_one _ _ _ H6 G6), (second_one _ _ _ H7 G7).
  split; [reflexivity|exact E6].
Qed.

Lemma hd_unique : forall A (l : list A) x, (forall a b, In a l -> In b l -> a = b) -> (hd_error l = Some x <-> In x l).
Proof.
  intros A l x U. split; [apply hd_error_In|]. intro H. destruct l as [|a l]; [destruct H|]. cbn [hd_error]. f_equal. apply U; [left; reflexivity|exact H].
Qed.

(** the reading of the text up to the seconds, for any parser of the rest *)
Section Seq.
  Variable sep : ustr -> list ustr.
  Definition results (s : ustr) : list (N * N * N * N * N * N * ustr) :=
    pseq (p_year s) (p_lit 45) (fun y r => pseq (p_month r) (p_lit 45) (fun m r => pseq (p_day r) (p_letter 84) (fun d r =>
    pseq (p_hour r) (p_lit 58) (fun h r => pseq (p_min r) (p_lit 58) (fun mi r =>
    flat_map (fun sr => let '(se, r) := sr in map (fun r => (y, m, d, h, mi, se, r)) (sep r)) (p_sec r)))))).
  Lemma in_results : forall s y m d h mi se r, In (y, m, d, h, mi, se, r) (results s) <-> exists tail, reading s tail y m d h mi se /\ In r (sep tail).
  Proof.
    intros s y m d h mi se r. unfold results. split.
    - intro H. apply in_pseq in H. destruct H as (y' & r1 & r1' & P1 & S1 & H). apply p_year_in in P1. destruct P1 as (ty & Ty & ->). apply p_lit_in in S1. subst r1.
      apply in_pseq in H. destruct H as (m' & r2 & r2' & P2 & S2 & H). apply p_month_in in P2. destruct P2 as (tm & Tm & ->). apply p_lit_in in S2. subst r2.
      apply in_pseq in H. destruct H as (d' & r3 & r3' & P3 & S3 & H). apply p_day_in in P3. destruct P3 as (td & Td & ->). apply p_letter_in in S3.
      apply in_pseq in H. destruct H as (h' & r4 & r4' & P4 & S4 & H). apply p_hour_in in P4. destruct P4 as (th & Th & ->). apply p_lit_in in S4. subst r4.
      apply in_pseq in H. destruct H as (mi' & r5 & r5' & P5 & S5 & H). apply p_min_in in P5. destruct P5 as (tmi & Tmi & ->). apply p_lit_in in S5. subst r5.
      apply in_flat_map in H. destruct H as ([se' r6] & P6 & H). apply p_sec_in in P6. destruct P6 as (ts & Ts & ->).
      apply in_map_iff in H. destruct H as (r7 & E & H). injection E as -> -> -> -> -> -> ->. exists r6. split; [|exact H].
      destruct S3 as [->| ->]; [exists ty, tm, td, 84, th, tmi, ts|exists ty, tm, td, 116, th, tmi, ts]; repeat (split; [first [assumption|auto]|]); reflexivity.
    - intros (tail & (ty & tm & td & t & th & tmi & ts & H1 & H2 & H3 & H4 & H5 & H6 & H7 & ->) & S). cbn [app].
      apply in_pseq. do 3 eexists. split; [rewrite (p_year_app _ _ _ H1); left; reflexivity|]. split; [apply in_lit|].
      apply in_pseq. do 3 eexists. split; [apply in_month; exact H2|]. split; [apply in_lit|].
      apply in_pseq. do 3 eexists. split; [apply in_day; exact H3|]. split; [apply in_letter; exact H4|].
      apply in_pseq. do 3 eexists. split; [apply in_hour; exact H5|]. split; [apply in_lit|].
      apply in_pseq. do 3 eexists. split; [apply in_min; exact H6|]. split; [apply in_lit|].
      apply in_flat_map. eexists. split; [apply in_sec; exact H7|]. cbv iota beta. apply in_map_iff. exists r. auto.
  Qed.
  Hypothesis sep_one : forall tail r, In r (sep tail) -> (exists c r', tail = c :: r' /\ is_digit c = false) /\ forall r', In r' (sep tail) -> r' = r.
  Lemma hd_results : forall s y m d h mi se r, hd_error (results s) = Some (y, m, d, h, mi, se, r) <->
    exists tail, reading s tail y m d h mi se /\ In r (sep tail).
  Proof.
    intros s y m d h mi se r. rewrite hd_unique; [apply in_results|].
    intros [[[[[[y1 m1] d1] h1] mi1] se1] r1] [[[[[[y2 m2] d2] h2] mi2] se2] r2] A B. apply in_results in A, B.
    destruct A as (t1 & A & S1), B as (t2 & B & S2). destruct (sep_one _ _ S1) as ((c1 & q1 & -> & D1) & U1). destruct (sep_one _ _ S2) as ((c2 & q2 & -> & D2) & _).
    destruct (one_reading _ _ _ _ _ _ _ _ _ _ _ _ _ _ _ _ _ D1 D2 A B) as [E T]. rewrite <- T in S2. rewrite (U1 _ S2).
    injection E as -> -> -> -> -> ->. reflexivity.
  Qed.
End Seq.

Lemma match_iso_iff : forall s y m d h mi se r, match_iso s = Some (y, m, d, h, mi, se, r) <->
  exists z, (z = 90 \/ z = 122) /\ reading s (z :: r) y m d h mi se.
Proof.
  intros s y m d h mi se r. rewrite match_iso_eq. change (hd_error (results (p_letter 90) s) = Some (y, m, d, h, mi, se, r) <->
    exists z, (z = 90 \/ z = 122) /\ reading s (z :: r) y m d h mi se).
  rewrite hd_results.
  - split.
    + intros (tail & R & I). apply p_letter_in in I. destruct I as [->| ->]; [exists 90|exists 122]; auto.
    + intros (z & Hz & R). exists (z :: r). split; [exact R|]. apply in_letter. exact Hz.
  - intros tail q I. pose proof I as J. apply p_letter_in in J. split; [destruct J as [->| ->]; do 2 eexists; split; reflexivity|].
    intros q' I'. apply p_letter_in in I'. destruct J as [->| ->], I' as [E|E]; congruence.
Qed.
Lemma p_signed_in : forall s r, In r (p_signed s) -> s = r /\ exists c q, s = c :: q /\ (c = 43 \/ c = 45 \/ c = 90).
Proof.
  intros [|c s] r H; [destruct H|]. cbn in H. destruct ((c =? 43) || (c =? 45) || (c =? 90)) eqn:E; [|destruct H]. destruct H as [<-|[]].
  split; [reflexivity|]. exists c, s. split; [reflexivity|]. lia.
Qed.
Lemma match_stamp_iff : forall s y m d h mi se r, match_stamp s = Some (y, m, d, h, mi, se, r) <->
  (exists c q, r = c :: q /\ (c = 43 \/ c = 45 \/ c = 90)) /\ reading s r y m d h mi se.
Proof.
  intros s y m d h mi se r. rewrite match_stamp_eq. change (hd_error (results p_signed s) = Some (y, m, d, h, mi, se, r) <->
    (exists c q, r = c :: q /\ (c = 43 \/ c = 45 \/ c = 90)) /\ reading s r y m d h mi se).
  rewrite hd_results.
  - split.
    + intros (tail & R & I). apply p_signed_in in I. destruct I as [-> X]. auto.
    + intros [(c & q & -> & Hc) R]. exists (c :: q). split; [exact R|]. cbn [p_signed]. replace ((c =? 43) || (c =? 45) || (c =? 90)) with true by lia. left. reflexivity.
  - intros tail q I. apply p_signed_in in I. destruct I as [-> (c & q' & -> & Hc)]. split; [exists c, q'; split; [reflexivity|]; destruct Hc as [->|[->| ->]]; reflexivity|].
    intros r' I. apply p_signed_in in I. destruct I as [E _]. congruence.
Qed.
