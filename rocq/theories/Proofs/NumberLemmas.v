(** The numbers of JSON texts are read by their grammar. *)
From Coq Require Import List NArith ZArith QArith_base Bool String Lia ZifyBool ZifyN.
From Verif Require Import Base.Ustr Base.UstrLemmas Base.Percent Model.Value Model.Float Model.Json Spec.FloatSpec Spec.GrammarSpec Proofs.FloatLemmas.
Import ListNotations.
Open Scope list_scope.
Open Scope N_scope.
Ltac Zify.zify_post_hook ::= idtac.

Definition nodig (r : ustr) : Prop := match r with c :: _ => is_digit c = false /\ c <> 46 /\ c <> 101 /\ c <> 69 | [] => True end.
(** ** numbers *)
Lemma decimal_num : forall ds a, num_of_digits a ds = fold_left (fun n c => n * 10 + (c - 48)) ds a.
Proof. induction ds as [|c ds IH]; intro a; [reflexivity|]. cbn [num_of_digits fold_left]. apply IH. Qed.
Lemma digits_span : forall s ds r, span is_digit s = (ds, r) -> ds <> [] -> s = ds ++ r /\ digits ds.
Proof.
  intros s ds r H N. apply span_forall in H. destruct H as [H ->]. split; [reflexivity|]. split; [exact N|]. intros x Hx.
  pose proof (proj1 (forallb_forall _ _) H x Hx) as D. unfold is_digit in D. lia.
Qed.
Lemma span_digits : forall ds r, digits ds -> match r with c :: _ => is_digit c = false | [] => True end -> span is_digit (ds ++ r) = (ds, r).
Proof. intros ds r [_ H] Hr. apply span_app; [|exact Hr]. apply forallb_forall. intros x Hx. apply H in Hx. unfold is_digit. lia. Qed.
Lemma jfrac_sound : forall s fs r, jfrac s = (fs, r) -> exists t, s = t ++ r /\ fraction t fs /\ (fs = [] -> t = []).
Proof.
  intros s fs r H. assert (Z : jfrac s = ([], s) -> exists t, s = t ++ r /\ fraction t fs /\ (fs = [] -> t = [])).
  { intro X. rewrite X in H. injection H as <- <-. exists []. split; [reflexivity|]. split; [constructor|reflexivity]. }
  unfold jfrac in *. destruct s as [|c s]; [apply Z; reflexivity|]. destruct (N.eqb_spec c 46) as [->|_]; [|apply Z; reflexivity].
  destruct (span is_digit s) as [ds r'] eqn:E. destruct ds as [|d ds]; [apply Z; reflexivity|]. injection H as <- <-.
  apply digits_span in E; [|discriminate]. destruct E as [-> D]. exists (46 :: d :: ds). split; [reflexivity|]. split; [constructor; exact D|discriminate].
Qed.
Lemma jexp_sound : forall s ex r, jexp s = (ex, r) -> exists t, s = t ++ r /\ exponent t (match ex with Some x => x | None => 0%Z end) /\
  match ex with Some _ => t <> [] | None => t = [] end.
Proof.
  intros s ex r H. assert (Z : jexp s = (None, s) -> exists t, s = t ++ r /\ exponent t (match ex with Some x => x | None => 0%Z end) /\ match ex with Some _ => t <> [] | None => t = [] end).
  { intro X. rewrite X in H. injection H as <- <-. exists []. split; [reflexivity|]. split; [constructor|reflexivity]. }
  unfold jexp in *. destruct s as [|c s]; [apply Z; reflexivity|]. destruct (_ || _) eqn:C; [|apply Z; reflexivity]. assert (C' : c = 101 \/ c = 69) by lia. clear C.
  destruct s as [|x s]; [apply Z; reflexivity|]. destruct (N.eqb_spec x 45) as [->|_]; [|destruct (N.eqb_spec x 43) as [->|_]].
  - destruct (span is_digit s) as [ds r'] eqn:E. destruct ds as [|d ds]; [apply Z; reflexivity|]. cbv zeta in H. apply digits_span in E; [|discriminate]. destruct E as [-> D].
    rewrite decimal_num in H. assert (Ex : ex = Some (- Z.of_N (decimal (d :: ds)))%Z) by (unfold decimal; congruence). assert (r' = r) by congruence. subst ex r'.
    exists (c :: 45 :: d :: ds). split; [reflexivity|]. split; [constructor; assumption|discriminate].
  - destruct (span is_digit s) as [ds r'] eqn:E. destruct ds as [|d ds]; [apply Z; reflexivity|]. cbv zeta in H. apply digits_span in E; [|discriminate]. destruct E as [-> D].
    rewrite decimal_num in H. assert (Ex : ex = Some (Z.of_N (decimal (d :: ds)))) by (unfold decimal; congruence). assert (r' = r) by congruence. subst ex r'.
    exists (c :: 43 :: d :: ds). split; [reflexivity|]. split; [constructor; assumption|discriminate].
  - destruct (span is_digit (x :: s)) as [ds r'] eqn:E. destruct ds as [|d ds]; [apply Z; reflexivity|]. cbv zeta in H. apply digits_span in E; [|discriminate]. destruct E as [-> D].
    rewrite decimal_num in H. assert (Ex : ex = Some (Z.of_N (decimal (d :: ds)))) by (unfold decimal; congruence). assert (r' = r) by congruence. subst ex r'.
    exists (c :: d :: ds). split; [reflexivity|]. split; [constructor; assumption|discriminate].
Qed.
Lemma int_sound : forall c s ds rest, is_digit c = true -> (if c =? 48 then ([48], s) else span is_digit (c :: s)) = (ds, rest) -> c :: s = ds ++ rest /\ natural ds (decimal ds).
Proof.
  intros c s ds rest D H. destruct (N.eqb_spec c 48) as [->|N48]; [injection H as <- <-; split; [reflexivity|left; auto]|].
  assert (E : ds <> []) by (cbn [span] in H; rewrite D in H; destruct (span is_digit s); intros ->; discriminate).
  apply digits_span in H; [|exact E]. destruct H as [H [_ Dd]]. split; [exact H|]. destruct ds as [|x ds]; [contradiction|]. injection H as <- _.
  right. exists c, ds. split; [reflexivity|]. unfold is_digit in D. split; [lia|]. split; [|reflexivity]. intros y Hy. apply Dd. right. exact Hy.
Qed.
Lemma jnum_sound : forall neg s v r, jnum neg s = Ok (v, r) -> exists t, s = t ++ r /\
  ((exists n, natural t n /\ v = VInt (if neg then - Z.of_N n else Z.of_N n)%Z) \/
   (exists n k q, scientific t n k /\ read_as n k q /\ v = VFlt (if neg then Qopp q else q))).
Proof.
  intros neg s v r H. unfold jnum in H. destruct s as [|c s]; [discriminate|]. destruct (is_digit c) eqn:D; [|discriminate].
  destruct (if c =? 48 then ([48], s) else span is_digit (c :: s)) as [ds rest] eqn:I. apply (int_sound _ _ _ _ D) in I. destruct I as [-> I].
  destruct (jfrac rest) as [fs rest1] eqn:F. apply jfrac_sound in F. destruct F as (ft & -> & F & F0).
  destruct (jexp rest1) as [ex rest2] eqn:X. apply jexp_sound in X. destruct X as (xt & -> & X & X0).
  assert (G : forall q, float_of (Z.of_N (num_of_digits 0 (ds ++ fs))) (match ex with Some x => x | None => 0 end - Z.of_nat (List.length fs)) = Some q -> ft ++ xt <> [] ->
    v = VFlt (if neg then Qopp q else q) -> r = rest2 -> exists t, ds ++ ft ++ xt ++ rest2 = t ++ r /\
      ((exists n, natural t n /\ v = VInt (if neg then - Z.of_N n else Z.of_N n)%Z) \/ (exists n k q, scientific t n k /\ read_as n k q /\ v = VFlt (if neg then Qopp q else q)))).
  { intros q Q N Ev ->. exists (ds ++ ft ++ xt). split; [rewrite <- !app_assoc; reflexivity|]. right. apply float_iff in Q; [|lia].
    eexists _, _, q. split; [|split; [exact Q|exact Ev]]. exists ds, (decimal ds), ft, fs, xt. eexists. split; [reflexivity|]. split; [exact I|]. split; [exact F|]. split; [exact X|].
    split; [exact N|]. split; [rewrite decimal_num; reflexivity|reflexivity]. }
  destruct fs as [|f fs]; [destruct ex as [x|]|].
  - destruct (float_of _ _) as [q|]; [|discriminate]. apply (G q); [reflexivity|rewrite F0 by reflexivity; exact X0|congruence|congruence].
  - assert (r = rest2) by congruence. subst r. rewrite F0, X0 in * by reflexivity. exists ds. split; [reflexivity|]. left. exists (decimal ds). split; [exact I|]. rewrite decimal_num in H. unfold decimal. congruence.
  - assert (N : ft ++ xt <> []) by (inversion F; discriminate). destruct ex as [x|]; (destruct (float_of _ _) as [q|]; [|discriminate]; apply (G q); [reflexivity|exact N|congruence|congruence]).
Qed.
Definition no_digit (r : ustr) : Prop := match r with c :: _ => is_digit c = false | [] => True end.
Lemma jfrac_complete : forall t fs r, fraction t fs -> no_digit r -> match r with c :: _ => c <> 46 | [] => True end -> jfrac (t ++ r) = (fs, r).
Proof.
  intros t fs r H N D. destruct H as [|ds H].
  - cbn [app]. unfold jfrac. destruct r as [|c r]; [reflexivity|]. apply N.eqb_neq in D. rewrite D. reflexivity.
  - cbn [app jfrac]. change (46 =? 46) with true. cbv iota. rewrite (span_digits ds r H N). destruct ds; [destruct H as [H _]; contradiction|reflexivity].
Qed.
Lemma jexp_complete : forall t x r, exponent t x -> no_digit r -> match r with c :: _ => c <> 101 /\ c <> 69 | [] => True end -> jexp (t ++ r) = (match t with [] => None | _ => Some x end, r).
Proof.
  intros t x r H N D. destruct H as [|c ds C H|c ds C H|c ds C H].
  - cbn [app]. unfold jexp. destruct r as [|c r]; [reflexivity|]. destruct D as [D1 D2]. apply N.eqb_neq in D1, D2. rewrite D1, D2. reflexivity.
  - pose proof (span_digits ds r H N) as E. destruct ds as [|d ds]; [destruct H as [H _]; contradiction|]. destruct H as [_ H]. pose proof (H d (or_introl eq_refl)) as Hd.
    cbn [app] in *. unfold jexp. replace ((c =? 101) || (c =? 69)) with true by lia. replace (d =? 45) with false by lia. replace (d =? 43) with false by lia. rewrite E. rewrite decimal_num. reflexivity.
  - pose proof (span_digits ds r H N) as E. destruct ds as [|d ds]; [destruct H as [H _]; contradiction|].
    cbn [app] in *. unfold jexp. replace ((c =? 101) || (c =? 69)) with true by lia. change (43 =? 45) with false. change (43 =? 43) with true. cbv iota. rewrite E. rewrite decimal_num. reflexivity.
  - pose proof (span_digits ds r H N) as E. destruct ds as [|d ds]; [destruct H as [H _]; contradiction|].
    cbn [app] in *. unfold jexp. replace ((c =? 101) || (c =? 69)) with true by lia. change (45 =? 45) with true. cbv iota. rewrite E. rewrite decimal_num. reflexivity.
Qed.
Lemma int_complete : forall t n r, natural t n -> no_digit r -> exists c s, t ++ r = c :: s /\ is_digit c = true /\
  (if c =? 48 then ([48], s) else span is_digit (c :: s)) = (t, r) /\ n = decimal t.
Proof.
  intros t n r H N. destruct H as [[-> ->]|(c & ds & -> & Hc & Hd & ->)]; [exists 48, r; auto|]. exists c, (ds ++ r). split; [reflexivity|]. split; [unfold is_digit; lia|].
  split; [|reflexivity]. replace (c =? 48) with false by lia. apply (span_digits (c :: ds) r); [|exact N]. split; [discriminate|]. intros x [<-|Hx]; [lia|apply Hd; exact Hx].
Qed.
Lemma nodig_parts : forall r, nodig r -> no_digit r /\ match r with c :: _ => c <> 46 | [] => True end /\ match r with c :: _ => c <> 101 /\ c <> 69 | [] => True end.
Proof. intros [|c r] H; [repeat split|]. cbn in H |- *. tauto. Qed.
Lemma jnum_complete : forall neg t n r, natural t n -> nodig r -> jnum neg (t ++ r) = Ok (VInt (if neg then - Z.of_N n else Z.of_N n)%Z, r).
Proof.
  intros neg t n r H Hr. apply nodig_parts in Hr. destruct Hr as (N & D & X). destruct (int_complete t n r H N) as (c & s & E & Dc & I & ->). rewrite E. unfold jnum. rewrite Dc, I.
  rewrite (jfrac_complete [] [] r fraction_none N D : jfrac r = _). rewrite (jexp_complete [] 0%Z r exponent_none N X : jexp r = _). rewrite decimal_num. reflexivity.
Qed.
Lemma exponent_head : forall xt x r, exponent xt x -> no_digit r -> match r with c :: _ => c <> 46 | [] => True end -> no_digit (xt ++ r) /\ match xt ++ r with c :: _ => c <> 46 | [] => True end.
Proof. intros xt x r H N D. destruct H as [|c ds C _|c ds C _|c ds C _]; [split; assumption| | |]; (cbn [app no_digit]; split; [unfold is_digit; lia|lia]). Qed.
Lemma fraction_head : forall ft fs r, fraction ft fs -> no_digit r -> no_digit (ft ++ r).
Proof. intros ft fs r [|ds H] N; [exact N|reflexivity]. Qed.
Lemma jnum_scientific : forall neg t n k r, scientific t n k -> nodig r ->
  jnum neg (t ++ r) = match float_of n k with Some q => Ok (VFlt (if neg then Qopp q else q), r) | None => Err OutOfModel end.
Proof.
  intros neg t n k r (it & i & ft & fs & xt & x & -> & I & F & X & NE & -> & ->) Hr. apply nodig_parts in Hr. destruct Hr as (N & D & R).
  destruct (exponent_head xt x r X N D) as [N1 D1]. pose proof (fraction_head ft fs _ F N1) as N2. rewrite <- !app_assoc.
  destruct (int_complete it i (ft ++ xt ++ r) I N2) as (c & s & E & Dc & J & _). rewrite E. unfold jnum. rewrite Dc, J. rewrite (jfrac_complete ft fs (xt ++ r) F N1 D1), (jexp_complete xt x r X N R).
  rewrite decimal_num. unfold decimal.
  destruct fs as [|f fs].
  - inversion F as [F0|ds [G _] F0 F1]; [|congruence]. subst ft. destruct xt as [|y xt]; [contradiction|]. reflexivity.
  - destruct xt as [|y xt]; [inversion X; subst x|]; reflexivity.
Qed.
Lemma scientific_pos : forall t n k, scientific t n k -> (0 <= n)%Z.
Proof. intros t n k (it & i & ft & fs & xt & x & _ & _ & _ & _ & _ & -> & _). lia. Qed.
Lemma jnum_flt : forall neg t n k q r, scientific t n k -> read_as n k q -> nodig r -> jnum neg (t ++ r) = Ok (VFlt (if neg then Qopp q else q), r).
Proof. intros neg t n k q r S Q Hr. rewrite (jnum_scientific neg t n k r S Hr). apply float_iff in Q; [|exact (scientific_pos _ _ _ S)]. rewrite Q. reflexivity. Qed.
Lemma natural_head : forall t n, natural t n -> exists c r, t = c :: r /\ 48 <= c <= 57.
Proof. intros t n [[-> _]|(c & ds & -> & H & _)]; [exists 48, []; split; [reflexivity|lia]|]. exists c, ds. split; [reflexivity|lia]. Qed.
Lemma scientific_head : forall t n k, scientific t n k -> exists c r, t = c :: r /\ 48 <= c <= 57.
Proof. intros t n k (it & i & ft & fs & xt & x & -> & I & _). destruct (natural_head _ _ I) as (c & r & -> & H). exists c, (r ++ ft ++ xt). split; [reflexivity|exact H]. Qed.
Lemma scientific_chars : forall t n k, scientific t n k -> forall c, In c t -> 48 <= c <= 57 \/ c = 46 \/ c = 101 \/ c = 69 \/ c = 43 \/ c = 45.
Proof.
  intros t n k (it & i & ft & fs & xt & x & -> & I & F & X & _) c H. apply in_app_iff in H as [H|H]; [|apply in_app_iff in H as [H|H]].
  - left. destruct I as [[-> _]|(c0 & ds & -> & C & D & _)]; [destruct H as [<-|[]]; lia|]. destruct H as [<-|H]; [lia|auto].
  - destruct F as [|ds [_ D]]; [destruct H|]. destruct H as [<-|H]; auto.
  - destruct X as [|c0 ds C [_ D]|c0 ds C [_ D]|c0 ds C [_ D]]; cbn [In] in H; [destruct H| | |]; intuition (subst; auto 10).
Qed.
