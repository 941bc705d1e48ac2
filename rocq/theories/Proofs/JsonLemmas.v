From Coq Require Import List NArith ZArith Bool String Lia ZifyBool ZifyN.
From Verif Require Import Base.Ustr Base.UstrLemmas Base.Percent Model.Cls Model.Value Model.Float Model.Json
  Spec.JsonSpec Spec.FloatSpec Spec.GrammarSpec Proofs.ValueLemmas Proofs.NumberLemmas Proofs.ReprLemmas.
Import ListNotations.
Open Scope list_scope.
Open Scope N_scope.
Ltac Zify.zify_post_hook ::= Z.div_mod_to_equations.

Lemma hexv_hexl : forall n, n < 16 -> hexv (hexl n) = Some n.
Proof.
  intros n H. unfold hexl, hexv, is_digit. destruct (n <? 10) eqn:E.
  - replace ((48 <=? 48 + n) && (48 + n <=? 57)) with true by lia. f_equal. lia.
  - replace ((48 <=? 87 + n) && (87 + n <=? 57)) with false by lia.
    replace ((65 <=? 87 + n) && (87 + n <=? 70)) with false by lia.
    replace ((97 <=? 87 + n) && (87 + n <=? 102)) with true by lia. f_equal. lia.
Qed.

Lemma hex4_hexl : forall c, c < 65536 ->
  hex4 (hexl (c / 4096 mod 16)) (hexl (c / 256 mod 16)) (hexl (c / 16 mod 16)) (hexl (c mod 16)) = Some c.
Proof.
  intros c H. unfold hex4. rewrite !hexv_hexl by lia. f_equal. lia.
Qed.

Definition jcons (c : N) (r : res (ustr * ustr)) : res (ustr * ustr) :=
  match r with Ok (t, rest) => Ok (c :: t, rest) | Err x => Err x end.

Lemma jscan_hex4 : forall c r, c < 65536 -> ((55296 <=? c) && (c <=? 56319)) = false ->
  jscan (jhex4 c ++ r) = jcons c (jscan r).
Proof.
  intros c r H Hs. unfold jhex4.
  assert (E := hex4_hexl c H).
  set (a := hexl (c / 4096 mod 16)) in *. set (b := hexl (c / 256 mod 16)) in *.
  set (d := hexl (c / 16 mod 16)) in *. set (e := hexl (c mod 16)) in *. clearbody a b d e.
  cbn [app jscan N.eqb N.leb N.compare Pos.eqb Pos.compare Pos.compare_cont].
  rewrite E, Hs. reflexivity.
Qed.

Lemma jscan_pair : forall hi lo r, 55296 <= hi <= 56319 -> 56320 <= lo <= 57343 ->
  jscan (jhex4 hi ++ jhex4 lo ++ r) = jcons (65536 + (hi - 55296) * 1024 + (lo - 56320)) (jscan r).
Proof.
  intros hi lo r Hh Hl. unfold jhex4.
  assert (E := hex4_hexl hi ltac:(lia)). assert (E' := hex4_hexl lo ltac:(lia)).
  set (a := hexl (hi / 4096 mod 16)) in *. set (b := hexl (hi / 256 mod 16)) in *.
  set (d := hexl (hi / 16 mod 16)) in *. set (e := hexl (hi mod 16)) in *. clearbody a b d e.
  set (a' := hexl (lo / 4096 mod 16)) in *. set (b' := hexl (lo / 256 mod 16)) in *.
  set (d' := hexl (lo / 16 mod 16)) in *. set (e' := hexl (lo mod 16)) in *. clearbody a' b' d' e'.
  assert (H1 : ((55296 <=? hi) && (hi <=? 56319)) = true) by lia.
  assert (H2 : ((56320 <=? lo) && (lo <=? 57343)) = true) by lia.
  cbn [app jscan N.eqb N.leb N.compare Pos.eqb Pos.compare Pos.compare_cont andb].
  rewrite E, E', H1, H2. reflexivity.
Qed.

Lemma jscan_jchar : forall c r, scalar c = true -> jscan (jchar c ++ r) = jcons c (jscan r).
Proof.
  intros c r Hs. unfold jchar.
  destruct (c =? 34) eqn:E1; [apply N.eqb_eq in E1; subst; reflexivity|].
  destruct (c =? 92) eqn:E2; [apply N.eqb_eq in E2; subst; reflexivity|].
  destruct (c =? 10) eqn:E3; [apply N.eqb_eq in E3; subst; reflexivity|].
  destruct (c =? 13) eqn:E4; [apply N.eqb_eq in E4; subst; reflexivity|].
  destruct (c =? 9) eqn:E5; [apply N.eqb_eq in E5; subst; reflexivity|].
  destruct (c =? 12) eqn:E6; [apply N.eqb_eq in E6; subst; reflexivity|].
  destruct (c =? 8) eqn:E7; [apply N.eqb_eq in E7; subst; reflexivity|].
  destruct ((32 <=? c) && (c <=? 126)) eqn:E8.
  - cbn [app jscan]. rewrite E1, E2. replace (c <=? 31) with false by lia. reflexivity.
  - unfold scalar in Hs. destruct (c <? 65536) eqn:E9.
    + apply jscan_hex4; [lia|]. lia.
    + rewrite <- app_assoc. rewrite jscan_pair by lia. f_equal. lia.
Qed.

Lemma jscan_string : forall s r, scalars s = true ->
  jscan (flat_map jchar s ++ 34 :: r) = Ok (s, r).
Proof.
  induction s as [|c s IH]; intros r H.
  - reflexivity.
  - cbn [scalars forallb] in H. apply andb_true_iff in H. destruct H as [H1 H2].
    cbn [flat_map]. rewrite <- app_assoc, jscan_jchar by assumption.
    rewrite IH by assumption. reflexivity.
Qed.

(** text of list elements and of object members *)
Fixpoint larr (l : list value) : ustr :=
  match l with
  | [] => []
  | [x] => jtext x
  | x :: r => jtext x ++ [44; 32] ++ larr r
  end.
Fixpoint lobj (d : list (ustr * value)) : ustr :=
  match d with
  | [] => []
  | [(k, x)] => jstring k ++ [58; 32] ++ jtext x
  | (k, x) :: r => jstring k ++ [58; 32] ++ jtext x ++ [44; 32] ++ lobj r
  end.

Lemma jtext_list : forall l, jtext (VList l) = 91 :: larr l ++ [93].
Proof. reflexivity. Qed.
Lemma jtext_dict : forall d, jtext (VDict d) = 123 :: lobj d ++ [125].
Proof. reflexivity. Qed.
Lemma jtext_str : forall s, jtext (VStr s) = jstring s.
Proof. reflexivity. Qed.

Definition okrest (r : ustr) : Prop :=
  match r with [] => True | c :: _ => c = 44 \/ c = 93 \/ c = 125 end.

Lemma skipws_id : forall c r, jws c = false -> skipws (c :: r) = c :: r.
Proof. intros c r H. cbn [skipws]. rewrite H. reflexivity. Qed.

Lemma skipws_44 : forall r, skipws (44 :: r) = 44 :: r.
Proof. reflexivity. Qed.
Lemma skipws_58 : forall r, skipws (58 :: r) = 58 :: r.
Proof. reflexivity. Qed.
Lemma skipws_32 : forall r, skipws (32 :: r) = skipws r.
Proof. reflexivity. Qed.

Lemma startswith_head : forall p c r, match p with x :: _ => x =? c | [] => true end = false ->
  startswith p (c :: r) = false.
Proof. intros [|x p] c r H; [discriminate|]. cbn [startswith]. rewrite H. reflexivity. Qed.

Ltac digit_neq c := repeat match goal with |- context [c =? ?k] => replace (c =? k) with false by lia end.
Lemma jval_digit : forall n c s, 48 <= c <= 57 -> jval (S n) (c :: s) = jnum false (c :: s).
Proof.
  intros n c s H. cbn [jval]. digit_neq c.
  assert (W : forall p, match p with x :: _ => x =? c | [] => true end = false -> startswith p (c :: s) = false) by (intro p; apply startswith_head).
  rewrite !W; try reflexivity; change (u "null") with [110; 117; 108; 108]; change (u "true") with [116; 114; 117; 101]; change (u "false") with [102; 97; 108; 115; 101];
    change (u "NaN") with [78; 97; 78]; change (u "Infinity") with [73; 110; 102; 105; 110; 105; 116; 121]; change (u "-Infinity") with [45; 73; 110; 102; 105; 110; 105; 116; 121]; cbv iota; lia.
Qed.
Lemma jval_minus : forall n c s, 48 <= c <= 57 -> jval (S n) (45 :: c :: s) = jnum true (c :: s).
Proof.
  intros n c s H. cbn [jval]. change (45 =? 34) with false. change (45 =? 123) with false. change (45 =? 91) with false. cbv iota.
  change (startswith (u "null") (45 :: c :: s)) with false. change (startswith (u "true") (45 :: c :: s)) with false. change (startswith (u "false") (45 :: c :: s)) with false.
  change (startswith (u "NaN") (45 :: c :: s)) with false. change (startswith (u "Infinity") (45 :: c :: s)) with false.
  replace (startswith (u "-Infinity") (45 :: c :: s)) with false; [reflexivity|]. change (startswith (u "-Infinity") (45 :: c :: s)) with (startswith (u "Infinity") (c :: s)).
  symmetry. apply startswith_head. change (u "Infinity") with [73; 110; 102; 105; 110; 105; 116; 121]. cbv iota. lia.
Qed.
(** floating-point numbers *)
Lemma jtext_flt : forall q, jtext (VFlt q) = match float_repr q with Some t => t | None => [] end.
Proof. reflexivity. Qed.
Lemma jval_flt : forall n q t r, float_repr q = Some t -> nodig r -> jval (S n) (t ++ r) = Ok (VFlt (Qreduction.Qred q), r).
Proof.
  intros n q t r F R. destruct (float_repr_reads q t F) as (m & k & [[S1 A]|(t' & -> & S1 & A)]).
  - destruct (scientific_head _ _ _ S1) as (c & s & -> & C). change ((c :: s) ++ r) with (c :: s ++ r). rewrite jval_digit by exact C.
    change (c :: s ++ r) with ((c :: s) ++ r). exact (jnum_flt false _ _ _ _ _ S1 A R).
  - destruct (scientific_head _ _ _ S1) as (c & s & -> & C). change ((45 :: c :: s) ++ r) with (45 :: c :: s ++ r). rewrite jval_minus by exact C.
    change (c :: s ++ r) with ((c :: s) ++ r). pose proof (jnum_flt true _ _ _ _ _ S1 A R) as J. rewrite J. do 3 f_equal. destruct (Qreduction.Qred q) as [a b]. unfold QArith_base.Qopp. cbn [QArith_base.Qnum QArith_base.Qden]. rewrite Z.opp_involutive. reflexivity.
Qed.
Lemma repr_chars : forall q t, float_repr q = Some t -> forall c, In c t -> 48 <= c <= 57 \/ c = 46 \/ c = 101 \/ c = 69 \/ c = 43 \/ c = 45.
Proof.
  intros q t F c H. destruct (float_repr_reads q t F) as (m & k & [[S1 _]|(t' & -> & S1 & _)]); [exact (scientific_chars _ _ _ S1 c H)|].
  destruct H as [<-|H]; [auto 10|exact (scientific_chars _ _ _ S1 c H)].
Qed.
Lemma repr_head : forall q t, float_repr q = Some t -> exists c r, t = c :: r /\ (48 <= c <= 57 \/ c = 45).
Proof.
  intros q t F. destruct (float_repr_reads q t F) as (m & k & [[S1 _]|(t' & -> & _)]); [|exists 45, t'; auto].
  destruct (scientific_head _ _ _ S1) as (c & r & -> & C). exists c, r. auto.
Qed.

Lemma jtext_head : forall v, json_value v -> exists c r, jtext v = c :: r /\
  jws c = false /\ c <> 93 /\ c <> 125 /\ c <> 65279.
Proof.
  intros v H. destruct H as [|b|z|s Hs|l Hl|d Hn Hd|q Hq Hr].
  - eexists _, _. split; [reflexivity|]. repeat split; try discriminate.
  - destruct b; (eexists _, _; split; [reflexivity|]; repeat split; discriminate).
  - destruct z as [|p|p].
    + eexists _, _. split; [reflexivity|]. repeat split; discriminate.
    + simpl. assert (Hd := dec_N_digits (Npos p)). assert (Hn := dec_N_nonempty (Npos p)).
      destruct (dec_N (Npos p)) as [|c r]; [contradiction|]. exists c, r. split; [reflexivity|].
      simpl in Hd. apply andb_true_iff in Hd. destruct Hd as [Hd _]. unfold is_digit in Hd.
      unfold jws. repeat split; lia.
    + eexists _, _. split; [reflexivity|]. repeat split; discriminate.
  - eexists _, _. split; [reflexivity|]. repeat split; discriminate.
  - eexists _, _. split; [reflexivity|]. repeat split; discriminate.
  - eexists _, _. split; [reflexivity|]. repeat split; discriminate.
  - rewrite jtext_flt. destruct (float_repr_exists q Hq) as [t E]. rewrite E. destruct (repr_head q t E) as (c & r & -> & C).
    exists c, r. split; [reflexivity|]. unfold jws. repeat split; lia.
Qed.

Lemma jtext_len : forall v, json_value v -> (1 <= List.length (jtext v))%nat.
Proof.
  intros v H. destruct (jtext_head v H) as [c [r [E _]]]. rewrite E. simpl. lia.
Qed.



Lemma jnum_dec : forall neg n r, nodig r ->
  jnum neg (dec_N n ++ r) = Ok (VInt (if neg then - Z.of_N n else Z.of_N n)%Z, r).
Proof.
  intros neg n r Hr. assert (Hd := dec_N_digits n). assert (Hn := dec_N_nonempty n).
  assert (H0 : forall t, dec_N n = 48 :: t -> t = []).
  { intros t E. destruct n as [|p]; [injection E as <-; reflexivity | exfalso; eapply dec_N_head0; eassumption]. }
  assert (Hv := num_of_dec_N n).
  destruct (dec_N n) as [|c t]; [contradiction|].
  assert (Hc : is_digit c = true) by (simpl in Hd; apply andb_true_iff in Hd; tauto).
  cbn [jnum app]. rewrite Hc.
  assert (Hsp : (if c =? 48 then ([48], t ++ r) else span is_digit (c :: t ++ r)) = (c :: t, r)).
  { destruct (c =? 48) eqn:E.
    - apply N.eqb_eq in E. subst c. rewrite (H0 t eq_refl). reflexivity.
    - change (c :: t ++ r) with ((c :: t) ++ r). rewrite span_app; auto.
      destruct r as [|y r]; [exact I|]. simpl in Hr. tauto. }
  rewrite Hsp. rewrite Hv.
  destruct r as [|y r]; [reflexivity|]. simpl in Hr. destruct Hr as [_ [Hy [Hy1 Hy2]]].
  apply N.eqb_neq in Hy, Hy1, Hy2.
  cbn [jfrac]. rewrite Hy. cbn [jexp]. rewrite Hy1, Hy2. reflexivity.
Qed.


Lemma jval_int : forall n z r, nodig r -> jval (S n) (dec_Z z ++ r) = Ok (VInt z, r).
Proof.
  intros n z r Hr.
  assert (D : forall p, exists c t, dec_N (Npos p) = c :: t /\ is_digit c = true).
  { intro p. assert (Hd := dec_N_digits (Npos p)). assert (Hn := dec_N_nonempty (Npos p)).
    destruct (dec_N (Npos p)) as [|c t]; [contradiction|]. exists c, t.
    simpl in Hd. apply andb_true_iff in Hd. tauto. }
  assert (P : forall c t, is_digit c = true -> jval (S n) (c :: t) = jnum false (c :: t)).
  { intros c t Hc. unfold is_digit in Hc. cbn [jval].
    replace (c =? 34) with false by lia. replace (c =? 123) with false by lia.
    replace (c =? 91) with false by lia. replace (c =? 45) with false by lia.
    assert (Hx : forall x p, x <> c -> startswith (x :: p) (c :: t) = false).
    { intros x p Hne. apply startswith_head. apply N.eqb_neq. assumption. }
    change (u "null") with (110 :: u "ull"). change (u "true") with (116 :: u "rue").
    change (u "false") with (102 :: u "alse"). change (u "NaN") with (78 :: u "aN").
    change (u "Infinity") with (73 :: u "nfinity"). change (u "-Infinity") with (45 :: u "Infinity").
    rewrite !Hx by lia. reflexivity. }
  assert (M : forall c t, is_digit c = true -> jval (S n) (45 :: c :: t) = jnum true (c :: t)).
  { intros c t Hc. unfold is_digit in Hc. cbn [jval].
    change (45 =? 34) with false. change (45 =? 123) with false. change (45 =? 91) with false.
    change (u "null") with (110 :: u "ull"). change (u "true") with (116 :: u "rue").
    change (u "false") with (102 :: u "alse"). change (u "NaN") with (78 :: u "aN").
    change (u "-Infinity") with (45 :: 73 :: u "nfinity"). change (u "Infinity") with (73 :: u "nfinity").
    rewrite (startswith_head (110 :: _)), (startswith_head (116 :: _)), (startswith_head (102 :: _)),
      (startswith_head (78 :: _)), (startswith_head (73 :: _)) by reflexivity.
    replace (startswith (45 :: 73 :: u "nfinity") (45 :: c :: t)) with false; [reflexivity|].
    symmetry. change (startswith (45 :: 73 :: u "nfinity") (45 :: c :: t)) with
      (startswith (73 :: u "nfinity") (c :: t)). apply startswith_head. lia. }
  destruct z as [|p|p].
  - change (dec_Z 0 ++ r) with (48 :: r). rewrite P by reflexivity.
    change (48 :: r) with (dec_N 0 ++ r). rewrite jnum_dec by assumption. reflexivity.
  - cbn [dec_Z]. destruct (D p) as [c [t [E Hc]]]. rewrite E. change ((c :: t) ++ r) with (c :: t ++ r).
    rewrite P by assumption. change (c :: t ++ r) with ((c :: t) ++ r). rewrite <- E.
    rewrite jnum_dec by assumption. reflexivity.
  - cbn [dec_Z]. destruct (D p) as [c [t [E Hc]]].
    change ((45 :: dec_N (Npos p)) ++ r) with (45 :: dec_N (Npos p) ++ r). rewrite E.
    change ((c :: t) ++ r) with (c :: t ++ r).
    rewrite M by assumption. change (c :: t ++ r) with ((c :: t) ++ r). rewrite <- E.
    rewrite jnum_dec by assumption. reflexivity.
Qed.

Lemma okrest_nodig : forall r, okrest r -> nodig r.
Proof.
  intros [|c r]; simpl; auto. unfold is_digit. intros H. repeat split; lia.
Qed.

Lemma larr_cons2 : forall x y l, larr (x :: y :: l) = jtext x ++ [44; 32] ++ larr (y :: l).
Proof. reflexivity. Qed.
Lemma lobj_cons2 : forall k x y l,
  lobj ((k, x) :: y :: l) = jstring k ++ [58; 32] ++ jtext x ++ [44; 32] ++ lobj (y :: l).
Proof. reflexivity. Qed.

Lemma jval_jtext : forall v, json_value v -> forall n r, okrest r -> (List.length (jtext v) <= n)%nat ->
  jval n (jtext v ++ r) = Ok (v, r).
Proof.
  intro v. induction v as [|b|z|q|s|l IH|d IH|c d IH] using value_ind'; intros Hj n r Hr Hn;
    (destruct n as [|n]; [pose proof (jtext_len _ Hj); lia|]); try (inversion Hj; fail).
  - reflexivity.
  - destruct b; reflexivity.
  - apply jval_int. apply okrest_nodig. assumption.
  - inversion Hj as [| | | | | |q' Hq Hq']; subst. rewrite jtext_flt. destruct (float_repr_exists q Hq) as [t E]. rewrite E.
    rewrite (jval_flt n q t r E) by (apply okrest_nodig; assumption). rewrite <- Hq'. reflexivity.
  - inversion Hj as [| | |s' Hs| | |]; subst. rewrite jtext_str. unfold jstring.
    change ((34 :: flat_map jchar s ++ [34]) ++ r) with (34 :: (flat_map jchar s ++ [34]) ++ r).
    rewrite <- app_assoc. cbn [jval]. change (34 =? 34) with true. cbn iota.
    change ([34] ++ r) with (34 :: r). rewrite jscan_string by assumption. reflexivity.
  - inversion Hj as [| | | |l' Hl| |]; subst. rewrite jtext_list in *.
    assert (A : forall l, l <> [] -> Forall (fun v => json_value v -> forall n r, okrest r ->
                (List.length (jtext v) <= n)%nat -> jval n (jtext v ++ r) = Ok (v, r)) l ->
              (forall x, In x l -> json_value x) ->
              forall n, (S (List.length (larr l)) <= n)%nat ->
              jarr n (larr l ++ 93 :: r) = Ok (l, r)).
    { clear. induction l as [|x l IHl]; intros Hne IH Hl n Hn; [contradiction|].
      inversion IH as [|? ? Hx IHt]; subst. destruct n as [|n]; [lia|].
      assert (Jx : json_value x) by (apply Hl; left; reflexivity).
      destruct l as [|y l].
      - cbn [larr] in *. cbn [jarr]. rewrite Hx; [reflexivity|assumption|simpl; auto|lia].
      - rewrite larr_cons2 in *. rewrite !app_length in Hn. cbn [List.length] in Hn.
        rewrite <- !app_assoc. cbn [jarr]. rewrite Hx; [|assumption|simpl; auto|lia].
        change ([44; 32] ++ larr (y :: l) ++ 93 :: r) with (44 :: 32 :: larr (y :: l) ++ 93 :: r).
        rewrite skipws_44.
        change (44 =? 93) with false. change (44 =? 44) with true. cbn iota.
        rewrite skipws_32.
        assert (Hsk : skipws (larr (y :: l) ++ 93 :: r) = larr (y :: l) ++ 93 :: r).
        { assert (Jy : json_value y) by (apply Hl; right; left; reflexivity).
          destruct (jtext_head y Jy) as [c [t [E [Hw _]]]].
          destruct l as [|z l]; [cbn [larr]|rewrite larr_cons2]; rewrite E; apply skipws_id; assumption. }
        rewrite Hsk. rewrite IHl; [reflexivity|discriminate|assumption| |lia].
        intros w Hw. apply Hl. right. assumption. }
    change ((91 :: larr l ++ [93]) ++ r) with (91 :: (larr l ++ [93]) ++ r). rewrite <- app_assoc.
    cbn [List.length] in Hn. rewrite app_length in Hn. cbn [List.length] in Hn.
    cbn [jval]. change (91 =? 34) with false. change (91 =? 123) with false. change (91 =? 91) with true.
    cbn iota. destruct l as [|x l].
    + reflexivity.
    + assert (Jx : json_value x) by (apply Hl; left; reflexivity).
      destruct (jtext_head x Jx) as [c [t [E [Hw [Hc _]]]]].
      assert (exists t', larr (x :: l) = c :: t') as [t' Et].
      { destruct l as [|z l]; [cbn [larr]|rewrite larr_cons2]; rewrite E; eexists; reflexivity. }
      rewrite Et. change ((c :: t') ++ [93] ++ r) with (c :: t' ++ [93] ++ r).
      rewrite skipws_id by assumption. apply N.eqb_neq in Hc. rewrite Hc.
      change (c :: t' ++ [93] ++ r) with ((c :: t') ++ 93 :: r). rewrite <- Et.
      rewrite A; [reflexivity|discriminate|assumption|assumption|lia].
  - inversion Hj as [| | | | |d' Hnd Hd|]; subst. rewrite jtext_dict in *.
    assert (A : forall d, d <> [] -> Forall (fun kv => json_value (snd kv) -> forall n r, okrest r ->
                (List.length (jtext (snd kv)) <= n)%nat -> jval n (jtext (snd kv) ++ r) = Ok (snd kv, r)) d ->
              (forall k x, In (k, x) d -> scalars k = true /\ json_value x) ->
              forall n, (S (List.length (lobj d)) <= n)%nat ->
              jobj n (lobj d ++ 125 :: r) = Ok (d, r)).
    { clear. induction d as [|[k x] d IHd]; intros Hne IH Hl n Hn; [contradiction|].
      inversion IH as [|? ? Hx IHt]; subst. cbn [snd] in Hx. destruct n as [|n]; [lia|].
      destruct (Hl k x (or_introl eq_refl)) as [Sk Jx].
      destruct (jtext_head x Jx) as [c [t [E [Hw _]]]].
      assert (Hskx : forall w, skipws (jtext x ++ w) = jtext x ++ w).
      { intro w. rewrite E. apply skipws_id. assumption. }
      destruct d as [|y d].
      - cbn [lobj] in *. rewrite !app_length in Hn. cbn [List.length] in Hn. rewrite <- !app_assoc. unfold jstring.
        change ((34 :: flat_map jchar k ++ [34]) ++ [58; 32] ++ jtext x ++ 125 :: r)
          with (34 :: (flat_map jchar k ++ [34]) ++ [58; 32] ++ jtext x ++ 125 :: r).
        rewrite <- app_assoc. cbn [jobj]. change (34 =? 34) with true. cbn iota.
        change ([34] ++ [58; 32] ++ jtext x ++ 125 :: r) with (34 :: 58 :: 32 :: jtext x ++ 125 :: r).
        rewrite jscan_string by assumption. rewrite skipws_58.
        change (58 =? 58) with true. cbn iota. rewrite skipws_32. rewrite Hskx.
        rewrite Hx; [reflexivity|assumption|simpl; auto|lia].
      - rewrite lobj_cons2 in *. rewrite !app_length in Hn. cbn [List.length] in Hn. rewrite <- !app_assoc. unfold jstring.
        change ((34 :: flat_map jchar k ++ [34]) ++ [58; 32] ++ jtext x ++ [44; 32] ++ lobj (y :: d) ++ 125 :: r)
          with (34 :: (flat_map jchar k ++ [34]) ++ [58; 32] ++ jtext x ++ [44; 32] ++ lobj (y :: d) ++ 125 :: r).
        rewrite <- app_assoc. cbn [jobj]. change (34 =? 34) with true. cbn iota.
        change ([34] ++ [58; 32] ++ jtext x ++ [44; 32] ++ lobj (y :: d) ++ 125 :: r)
          with (34 :: 58 :: 32 :: jtext x ++ 44 :: 32 :: lobj (y :: d) ++ 125 :: r).
        rewrite jscan_string by assumption. rewrite skipws_58.
        change (58 =? 58) with true. cbn iota. rewrite skipws_32. rewrite Hskx.
        rewrite Hx; [|assumption|simpl; auto|lia].
        rewrite skipws_44.
        change (44 =? 125) with false. change (44 =? 44) with true. cbn iota.
        rewrite skipws_32.
        assert (Hsk : skipws (lobj (y :: d) ++ 125 :: r) = lobj (y :: d) ++ 125 :: r).
        { destruct y as [k' y]. destruct d; reflexivity. }
        rewrite Hsk. rewrite IHd; [reflexivity|discriminate|assumption| |lia].
        intros k' x' Hin. apply Hl. right. assumption. }
    change ((123 :: lobj d ++ [125]) ++ r) with (123 :: (lobj d ++ [125]) ++ r). rewrite <- app_assoc.
    cbn [List.length] in Hn. rewrite app_length in Hn. cbn [List.length] in Hn.
    cbn [jval]. change (123 =? 34) with false. change (123 =? 123) with true.
    cbn iota. destruct d as [|[k x] d].
    + reflexivity.
    + assert (exists t', lobj ((k, x) :: d) = 34 :: t') as [t' Et].
      { destruct d as [|z d]; [cbn [lobj]|rewrite lobj_cons2]; eexists; reflexivity. }
      rewrite Et. change ((34 :: t') ++ [125] ++ r) with (34 :: t' ++ [125] ++ r).
      rewrite skipws_id by reflexivity. change (34 =? 125) with false. cbn iota.
      change (34 :: t' ++ [125] ++ r) with ((34 :: t') ++ 125 :: r). rewrite <- Et.
      rewrite A; [|discriminate|assumption|assumption|lia].
      rewrite dict_of_nodup by assumption. reflexivity.
Qed.

Lemma jerr_json : forall v, json_value v -> jerr v = None.
Proof.
  intro v. induction v as [|b|z|q|s|l IH|d IH|c d IH] using value_ind'; intro H; try reflexivity;
    try (inversion H; fail).
  - inversion H as [| | | | | |q' Hq Hq']; subst. cbn [jerr]. destruct (float_repr_exists q Hq) as [t E]. rewrite E. reflexivity.
  - inversion H as [| | | |l' Hl| |]; subst. clear H. simpl.
    induction IH as [|x l Hx _ IHl]; [reflexivity|].
    rewrite Hx by (apply Hl; left; reflexivity). apply IHl. intros w Hw. apply Hl. right. assumption.
  - inversion H as [| | | | |d' Hn Hd|]; subst. clear H Hn. simpl.
    induction IH as [|[k x] d Hx _ IHd]; [reflexivity|]. cbn [snd] in Hx.
    rewrite Hx by (eapply Hd; left; reflexivity). apply IHd. intros k' x' Hin. apply Hd. right. assumption.
Qed.

Theorem json_roundtrip : forall v, json_value v ->
  exists t, json_dumps v = Ok t /\ json_loads t = Ok v.
Proof.
  intros v H. exists (jtext v). unfold json_dumps. rewrite (jerr_json v H). split; [reflexivity|].
  destruct (jtext_head v H) as [c [r [E [Hw [_ [_ Hb]]]]]]. unfold json_loads. rewrite E.
  apply N.eqb_neq in Hb. rewrite Hb. rewrite skipws_id by assumption. rewrite <- E.
  pose proof (jval_jtext v H (S (2 * List.length (jtext v))) [] I ltac:(lia)) as J.
  rewrite app_nil_r in J. rewrite J. reflexivity.
Qed.

Lemma hexl_printable : forall n, n < 16 -> printable (hexl n).
Proof. intros n H. unfold printable, hexl. destruct (n <? 10) eqn:E; lia. Qed.

Lemma jhex4_printable : forall c, Forall printable (jhex4 c).
Proof.
  intro c. unfold jhex4. repeat constructor; try (apply hexl_printable; lia); unfold printable; lia.
Qed.

Lemma jchar_printable : forall c, Forall printable (jchar c).
Proof.
  intro c. unfold jchar.
  repeat match goal with |- context [if ?b then _ else _] => destruct b eqn:?; [solve [repeat constructor; unfold printable; lia | apply jhex4_printable]|] end.
  apply Forall_app. split; apply jhex4_printable.
Qed.

Lemma jstring_printable : forall s, Forall printable (jstring s).
Proof.
  intro s. unfold jstring. constructor; [unfold printable; lia|]. apply Forall_app. split.
  - apply Forall_flat_map. apply Forall_forall. intros c _. apply jchar_printable.
  - repeat constructor; unfold printable; lia.
Qed.

Lemma dec_N_printable : forall n, Forall printable (dec_N n).
Proof.
  intro n. apply Forall_forall. intros c H. assert (D := dec_N_digits n). rewrite forallb_forall in D.
  specialize (D c H). unfold is_digit in D. unfold printable. lia.
Qed.

Ltac pr := repeat (first [apply Forall_nil | apply Forall_cons; [unfold printable; lia|]]).

Theorem jtext_printable : forall v, Forall printable (jtext v).
Proof.
  intro v. induction v as [|b|z|q|s|l IH|d IH|c d IH] using value_ind'.
  - let t := eval vm_compute in (jtext VNone) in change (jtext VNone) with t. pr.
  - destruct b; [let t := eval vm_compute in (jtext (VBool true)) in change (jtext (VBool true)) with t|
      let t := eval vm_compute in (jtext (VBool false)) in change (jtext (VBool false)) with t]; pr.
  - destruct z; cbn [jtext dec_Z]; [pr| apply dec_N_printable | constructor; [unfold printable; lia | apply dec_N_printable]].
  - rewrite jtext_flt. destruct (float_repr q) as [t|] eqn:E; [|constructor]. apply Forall_forall. intros c H.
    pose proof (repr_chars q t E c H). unfold printable. lia.
  - apply jstring_printable.
  - rewrite jtext_list. constructor; [unfold printable; lia|]. apply Forall_app. split; [|pr].
    induction IH as [|x l Hx HF IHl]; [constructor|]. destruct l as [|y l]; [exact Hx|].
    rewrite larr_cons2. apply Forall_app. split; auto. constructor; [unfold printable; lia|].
    constructor; [unfold printable; lia|]. exact IHl.
  - rewrite jtext_dict. constructor; [unfold printable; lia|]. apply Forall_app. split; [|pr].
    induction IH as [|[k x] l Hx HF IHl]; [constructor|]. cbn [snd] in Hx. destruct l as [|y l].
    + cbn [lobj]. apply Forall_app. split; [apply jstring_printable|]. apply Forall_app. split; [pr|exact Hx].
    + rewrite lobj_cons2. apply Forall_app. split; [apply jstring_printable|]. apply Forall_app. split; [pr|].
      apply Forall_app. split; [exact Hx|]. apply Forall_app. split; [pr|]. exact IHl.
  - constructor.
Qed.

Lemma json_codec : forall v, json_value v ->
  exists t, json_dumps v = Ok t /\ Forall printable t /\ json_loads t = Ok v.
Proof.
  intros v H. destruct (json_roundtrip v H) as [t [H1 H2]]. exists t. split; [assumption|]. split; [|assumption].
  unfold json_dumps in H1. destruct (jerr v); [discriminate|]. injection H1 as <-. apply jtext_printable.
Qed.
