(** The JSON reader never runs out of fuel. *)
From Coq Require Import List NArith ZArith Bool String Lia.
From Verif Require Import Base.Ustr Base.UstrLemmas Model.Value Model.Float Model.Json.
Import ListNotations.
Open Scope list_scope.
Open Scope N_scope.

Definition len (s : ustr) : nat := List.length s.

Lemma skipws_len : forall s, (len (skipws s) <= len s)%nat.
Proof. induction s as [|c s IH]; [auto|]. cbn [skipws]. destruct (jws c); cbn [len List.length] in *; unfold len in *; lia. Qed.

Ltac break := repeat (match goal with
  | H : context [match ?x with _ => _ end] |- _ => destruct x eqn:?; try discriminate
  end).
Lemma jscan_len_n : forall n s, (len s <= n)%nat -> (forall t r, jscan s = Ok (t, r) -> (len r < len s)%nat) /\ jscan s <> Err OutOfFuel.
Proof.
  induction n as [|n IH]; intros s Hs.
  - destruct s; [|cbn in Hs; lia]. split; intros; discriminate.
  - assert (IH1 : forall s, (len s <= n)%nat -> forall t r, jscan s = Ok (t, r) -> (len r < len s)%nat) by (intros; eapply IH; eassumption).
    assert (IH2 : forall s e, (len s <= n)%nat -> jscan s = Err e -> e <> OutOfFuel) by (intros s' e Hs' E ->; exact (proj2 (IH s' Hs') E)).
    clear IH. destruct s as [|c r]; [split; intros; discriminate|]. cbn [len List.length] in Hs. split.
    + intros t r' H. cbn [jscan] in H. unfold len in *. cbn [List.length].
      break; try (injection H as <- <-);
        repeat match goal with E : jscan _ = Ok _ |- _ => apply IH1 in E; [|cbn [List.length] in *; lia] end; subst; cbn [List.length] in *; lia.
    + intro H. cbn [jscan] in H. unfold len in *.
      break; injection H as H;
        match goal with E : jscan _ = Err ?x |- _ => refine (IH2 _ x _ E _); [cbn [List.length] in *; lia|congruence] end.
Qed.
Lemma jscan_len : forall s t r, jscan s = Ok (t, r) -> (len r < len s)%nat.
Proof. intros s t r H. eapply (jscan_len_n (len s)); [lia|eassumption]. Qed.
Lemma jscan_fuel : forall s, jscan s <> Err OutOfFuel.
Proof. intro s. eapply (jscan_len_n (len s)). lia. Qed.

Lemma span_len : forall f s a b, span f s = (a, b) -> (len b <= len s)%nat.
Proof. intros f s a b H. apply span_forall in H. destruct H as [_ ->]. unfold len. rewrite app_length. lia. Qed.
Lemma jfrac_len : forall s a b, jfrac s = (a, b) -> (len b <= len s)%nat.
Proof.
  intros s a b H. unfold jfrac in H. destruct s as [|c s]; [injection H as _ <-; unfold len; lia|]. destruct (c =? 46); [|injection H as _ <-; unfold len; lia].
  destruct (span is_digit s) as [ds r] eqn:E. apply span_len in E. destruct ds; injection H as _ <-; unfold len in *; cbn [List.length]; lia.
Qed.
Lemma jexp_len : forall s a b, jexp s = (a, b) -> (len b <= len s)%nat.
Proof.
  intros s a b H. unfold jexp in H. destruct s as [|c s]; [injection H as _ <-; unfold len; lia|]. destruct (_ || _); [|injection H as _ <-; unfold len; lia].
  assert (G : forall neg r1, (let (neg, r1) := (neg, r1) : bool * ustr in match span is_digit r1 with ([], _) => (None, c :: s) | (ds, r2) => let n := Z.of_N (num_of_digits 0 ds) in (Some (if neg then - n else n)%Z, r2) end) = (a, b) ->
    (len r1 <= len s)%nat -> (len b <= len (c :: s))%nat).
  { intros neg r1 X L. destruct (span is_digit r1) as [ds r2] eqn:E. apply span_len in E. destruct ds; [injection X as _ <-; unfold len; lia|]. cbv zeta in X. assert (r2 = b) by congruence. subst r2. unfold len in *. cbn [List.length]. lia. }
  destruct s as [|x s]; [exact (G false [] H (le_n _))|]. destruct (x =? 45); [refine (G true s H _); unfold len; cbn [List.length]; lia|]. destruct (x =? 43); [refine (G false s H _); unfold len; cbn [List.length]; lia|].
  exact (G false (x :: s) H (le_n _)).
Qed.
Lemma jnum_len : forall b s v r, jnum b s = Ok (v, r) -> (len r < len s)%nat.
Proof.
  intros b s v r H. unfold jnum in H. destruct s as [|c s]; [discriminate|]. destruct (is_digit c) eqn:D; [|discriminate].
  destruct (if c =? 48 then ([48], s) else span is_digit (c :: s)) as [ds rest] eqn:E.
  destruct (jfrac rest) as [fs rest1] eqn:F. apply jfrac_len in F. destruct (jexp rest1) as [ex rest2] eqn:X. apply jexp_len in X. cbv zeta in H.
  assert (R : rest2 = r).
  { destruct fs as [|f fs]; [destruct ex as [x|]|]; [|injection H as _ <-; reflexivity|]; (destruct (float_of _ _); [|discriminate]; injection H as _ <-; reflexivity). }
  subst rest2. clear H. assert (L : (len rest < len (c :: s))%nat); [|lia].
  destruct (c =? 48); [injection E as _ <-; unfold len; cbn [List.length]; lia|].
  cbn [span] in E. rewrite D in E. destruct (span is_digit s) as [a b'] eqn:E2. injection E as _ <-.
  apply span_forall in E2. destruct E2 as [_ ->]. unfold len. cbn [List.length]. rewrite app_length. lia.
Qed.
Lemma jnum_fuel : forall b s, jnum b s <> Err OutOfFuel.
Proof.
  intros b s. unfold jnum. destruct s as [|c s]; [discriminate|]. destruct (is_digit c); [|discriminate].
  destruct (if c =? 48 then ([48], s) else span is_digit (c :: s)) as [ds rest]. destruct (jfrac rest) as [fs rest1]. destruct (jexp rest1) as [ex rest2]. cbv zeta.
  destruct fs as [|f fs]; [destruct ex as [x|]|]; [|discriminate|]; (destruct (float_of _ _); discriminate).
Qed.
Lemma skipn_len : forall n (s : ustr) p, startswith p s = true -> (0 < n <= List.length p)%nat -> (len (skipn n s) < len s)%nat.
Proof. intros n s p H Hn. apply startswith_iff in H. destruct H as [r ->]. unfold len. rewrite skipn_length, app_length. lia. Qed.

Definition shorter (n : nat) : Prop :=
  (forall s v r, jval n s = Ok (v, r) -> (len r < len s)%nat) /\
  (forall s v r, jarr n s = Ok (v, r) -> (len r < len s)%nat) /\
  (forall s v r, jobj n s = Ok (v, r) -> (len r < len s)%nat).
Ltac lens := repeat match goal with E : skipws ?x = _ :: _ |- _ => let L := fresh in pose proof (skipws_len x) as L; rewrite E in L; clear E end;
  repeat match goal with |- context [skipws ?x] => let L := fresh in pose proof (skipws_len x) as L; revert L; generalize (skipws x); intros
                       | H : context [len (skipws ?x)] |- _ => let L := fresh in pose proof (skipws_len x) as L; revert L H; generalize (skipws x); intros end;
  unfold len in *; cbn [List.length] in *; try lia.
Lemma all_shorter : forall n, shorter n.
Proof.
  induction n as [|n (IV & IA & IO)]; [repeat split; intros; discriminate|]. split; [|split].
  - intros s v r H. destruct s as [|c s]; [discriminate|]. cbn [jval] in H.
    destruct (c =? 34); [destruct (jscan s) as [[t r']|] eqn:E; [|discriminate]; injection H as _ <-; apply jscan_len in E; lens|].
    destruct (c =? 123).
    { destruct (skipws s) as [|c1 r1] eqn:E; [discriminate|]. destruct (c1 =? 125); [injection H as _ <-; lens|].
      destruct (jobj n (c1 :: r1)) as [[t r']|] eqn:E2; [|discriminate]. injection H as _ <-. apply IO in E2. lens. }
    destruct (c =? 91).
    { destruct (skipws s) as [|c1 r1] eqn:E; [discriminate|]. destruct (c1 =? 93); [injection H as _ <-; lens|].
      destruct (jarr n (c1 :: r1)) as [[t r']|] eqn:E2; [|discriminate]. injection H as _ <-. apply IA in E2. lens. }
    destruct (startswith (u "null") (c :: s)) eqn:E1; [injection H as _ <-; exact (skipn_len 4 (c :: s) _ E1 ltac:(vm_compute; lia))|].
    destruct (startswith (u "true") (c :: s)) eqn:E2; [injection H as _ <-; exact (skipn_len 4 (c :: s) _ E2 ltac:(vm_compute; lia))|].
    destruct (startswith (u "false") (c :: s)) eqn:E3; [injection H as _ <-; exact (skipn_len 5 (c :: s) _ E3 ltac:(vm_compute; lia))|].
    destruct (_ || _); [discriminate|]. destruct (c =? 45); apply jnum_len in H; lens.
  - intros s v r H. cbn [jarr] in H. destruct (jval n s) as [[x rest]|] eqn:E; [|discriminate]. apply IV in E.
    destruct (skipws rest) as [|c r1] eqn:E1; [discriminate|]. destruct (c =? 93); [injection H as _ <-; lens|].
    destruct (c =? 44); [|discriminate]. destruct (jarr n (skipws r1)) as [[l r']|] eqn:E2; [|discriminate]. injection H as _ <-.
    apply IA in E2. lens.
  - intros s v r H. cbn [jobj] in H. destruct s as [|q s]; [discriminate|]. destruct (q =? 34); [|discriminate].
    destruct (jscan s) as [[k r1]|] eqn:E; [|discriminate]. apply jscan_len in E.
    destruct (skipws r1) as [|c r2] eqn:E1; [discriminate|]. destruct (c =? 58); [|discriminate].
    destruct (jval n (skipws r2)) as [[x rest]|] eqn:E2; [|discriminate]. apply IV in E2.
    destruct (skipws rest) as [|c2 r3] eqn:E3; [discriminate|]. destruct (c2 =? 125); [injection H as _ <-; lens|].
    destruct (c2 =? 44); [|discriminate]. destruct (jobj n (skipws r3)) as [[l r']|] eqn:E4; [|discriminate]. injection H as _ <-.
    apply IO in E4. lens.
Qed.

Definition fed (n : nat) : Prop :=
  (forall s, (2 * len s < n)%nat -> jval n s <> Err OutOfFuel) /\
  (forall s, (2 * len s + 1 < n)%nat -> jarr n s <> Err OutOfFuel) /\
  (forall s, (2 * len s + 1 < n)%nat -> jobj n s <> Err OutOfFuel).
Lemma all_fed : forall n, fed n.
Proof.
  induction n as [|n (IV & IA & IO)]; [repeat split; intros; lia|]. destruct (all_shorter n) as (SV & SA & SO). split; [|split].
  - intros s Hs H. destruct s as [|c s]; [discriminate|]. cbn [jval] in H.
    destruct (c =? 34); [destruct (jscan s) as [[t r']|e] eqn:E; [discriminate|]; injection H as ->; exact (jscan_fuel _ E)|].
    destruct (c =? 123).
    { destruct (skipws s) as [|c1 r1] eqn:E; [discriminate|]. destruct (c1 =? 125); [discriminate|].
      destruct (jobj n (c1 :: r1)) as [[t r']|e] eqn:E2; [discriminate|]. injection H as ->. revert E2. apply IO. lens. }
    destruct (c =? 91).
    { destruct (skipws s) as [|c1 r1] eqn:E; [discriminate|]. destruct (c1 =? 93); [discriminate|].
      destruct (jarr n (c1 :: r1)) as [[t r']|e] eqn:E2; [discriminate|]. injection H as ->. revert E2. apply IA. lens. }
    destruct (startswith (u "null") (c :: s)); [discriminate|]. destruct (startswith (u "true") (c :: s)); [discriminate|].
    destruct (startswith (u "false") (c :: s)); [discriminate|]. destruct (_ || _); [discriminate|].
    destruct (c =? 45); exact (jnum_fuel _ _ H).
  - intros s Hs H. cbn [jarr] in H. destruct (jval n s) as [[x rest]|e] eqn:E; [|injection H as ->; revert E; apply IV; lia].
    apply SV in E. destruct (skipws rest) as [|c r1] eqn:E1; [discriminate|]. destruct (c =? 93); [discriminate|].
    destruct (c =? 44); [|discriminate]. destruct (jarr n (skipws r1)) as [[l r']|e] eqn:E2; [discriminate|]. injection H as ->.
    revert E2. apply IA. lens.
  - intros s Hs H. cbn [jobj] in H. destruct s as [|q s]; [discriminate|]. destruct (q =? 34); [|discriminate].
    destruct (jscan s) as [[k r1]|e] eqn:E; [|injection H as ->; exact (jscan_fuel _ E)]. apply jscan_len in E.
    destruct (skipws r1) as [|c r2] eqn:E1; [discriminate|]. destruct (c =? 58); [|discriminate].
    destruct (jval n (skipws r2)) as [[x rest]|e] eqn:E2; [|injection H as ->; revert E2; apply IV; lens].
    apply SV in E2. destruct (skipws rest) as [|c2 r3] eqn:E3; [discriminate|]. destruct (c2 =? 125); [discriminate|].
    destruct (c2 =? 44); [|discriminate]. destruct (jobj n (skipws r3)) as [[l r']|e] eqn:E4; [discriminate|]. injection H as ->.
    revert E4. apply IO. lens.
Qed.

Lemma json_loads_fuel : forall s, json_loads s <> Err OutOfFuel.
Proof.
  intros s H. unfold json_loads in H. destruct s as [|c s]; [discriminate|]. destruct (c =? 65279); [discriminate|].
  destruct (jval _ _) as [[v rest]|e] eqn:E; [destruct (skipws rest); discriminate|]. injection H as ->. revert E.
  apply all_fed. pose proof (skipws_len (c :: s)). unfold len in *. lia.
Qed.
