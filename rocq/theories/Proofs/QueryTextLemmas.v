(** Query texts are read as the grammar says. *)
From Coq Require Import List NArith ZArith Bool String Lia ZifyBool ZifyN.
From Verif Require Import Base.Ustr Base.UstrLemmas Base.Utf8 Base.Utf8Lemmas Base.Percent Base.PercentLemmas Model.Value Model.Message
  Spec.GrammarSpec Spec.QueryTextSpec Proofs.ValueLemmas Proofs.GrammarLemmas.
Import ListNotations.
Open Scope list_scope.
Open Scope N_scope.
Ltac Zify.zify_post_hook ::= idtac.

(** ** UTF-8 *)
Lemma two : forall a b, b < 64 -> (a * 64 + b) / 64 = a /\ (a * 64 + b) mod 64 = b.
Proof. intros a b H. split; symmetry; [apply (N.div_unique _ _ _ b); lia|apply (N.mod_unique _ _ a); lia]. Qed.
Lemma big : forall x a b, b < 64 -> x = a * 64 + b -> x / 4096 = a / 64 /\ x / 262144 = a / 4096.
Proof.
  intros x a b H ->. destruct (two a b H) as [E _]. split.
  - change 4096 with (64 * 64). rewrite <- N.div_div by discriminate. rewrite E. reflexivity.
  - change 262144 with (64 * 4096). rewrite <- N.div_div by discriminate. rewrite E. reflexivity.
Qed.
Lemma bytes_enc : forall c bs, utf8_bytes c bs -> utf8_enc1 c = Some bs.
Proof.
  intros c bs [[H ->]|[[H (a & b & -> & Hb & ->)]|[[H [N (a & b & d & E & Hb & Hd & ->)]]|[H (a & b & d & e & E & Hb & Hd & He & ->)]]]]; unfold utf8_enc1.
  - replace (c <? 128) with true by lia. reflexivity.
  - replace (a * 64 + b <? 128) with false by lia. replace (a * 64 + b <? 2048) with true by lia. destruct (two a b Hb) as [-> ->]. reflexivity.
  - replace (c <? 128) with false by lia. replace (c <? 2048) with false by lia. replace ((55296 <=? c) && (c <=? 57343)) with false by lia. replace (c <? 65536) with true by lia.
    destruct (big c (a * 64 + b) d Hd E) as [-> _]. rewrite E. destruct (two (a * 64 + b) d Hd) as [-> ->]. destruct (two a b Hb) as [-> ->]. reflexivity.
  - replace (c <? 128) with false by lia. replace (c <? 2048) with false by lia. replace ((55296 <=? c) && (c <=? 57343)) with false by lia. replace (c <? 65536) with false by lia. replace (c <? 1114112) with true by lia.
    destruct (big c _ e He E) as [-> ->]. rewrite E. destruct (two ((a * 64 + b) * 64 + d) e He) as [-> ->]. destruct (big ((a * 64 + b) * 64 + d) _ d Hd eq_refl) as [-> _]. destruct (two (a * 64 + b) d Hd) as [-> ->]. destruct (two a b Hb) as [-> ->]. reflexivity.
Qed.
(** the first character, or U+FFFD *)
Lemma decode_first : forall b r, (exists c bs rest, utf8_bytes c bs /\ b :: r = bs ++ rest /\ utf8_decode (b :: r) = c :: utf8_decode rest) \/
  exists x, utf8_decode (b :: r) = 65533 :: x.
Proof.
  intros b r. cbn [utf8_decode]. change repl with 65533. destruct (b <? 128) eqn:E1.
  { left. exists b, [b], r. split; [left; split; [lia|reflexivity]|]. split; reflexivity. }
  destruct ((194 <=? b) && (b <=? 223)) eqn:E2.
  { destruct r as [|b1 r1]; [right; eexists; reflexivity|]. destruct (cont b1) eqn:C1; [|right; eexists; reflexivity]. unfold cont in C1.
    left. exists ((b - 192) * 64 + (b1 - 128)), [b; b1], r1. split; [|split; reflexivity]. right. left. split; [lia|]. exists (b - 192), (b1 - 128). split; [reflexivity|]. split; [lia|]. f_equal; [|f_equal]; lia. }
  destruct ((224 <=? b) && (b <=? 239)) eqn:E3.
  { destruct r as [|b1 r1]; [right; eexists; reflexivity|]. destruct (ok3 b b1) eqn:C1; [|right; eexists; reflexivity].
    destruct r1 as [|b2 r2]; [right; eexists; reflexivity|]. destruct (cont b2) eqn:C2; [|right; eexists; reflexivity].
    assert (K : 128 <= b1 <= 191 /\ (b = 224 -> 160 <= b1) /\ (b = 237 -> b1 <= 159)) by (unfold ok3, cont in C1; destruct (N.eqb_spec b 224), (N.eqb_spec b 237); lia). unfold cont in C2.
    left. exists ((b - 224) * 4096 + (b1 - 128) * 64 + (b2 - 128)), [b; b1; b2], r2. split; [|split; reflexivity]. right. right. left. split; [lia|]. split; [lia|].
    exists (b - 224), (b1 - 128), (b2 - 128). split; [lia|]. split; [lia|]. split; [lia|]. f_equal; [|f_equal; [|f_equal]]; lia. }
  destruct ((240 <=? b) && (b <=? 244)) eqn:E4; [|right; eexists; reflexivity].
  destruct r as [|b1 r1]; [right; eexists; reflexivity|]. destruct (ok4 b b1) eqn:C1; [|right; eexists; reflexivity].
  destruct r1 as [|b2 r2]; [right; eexists; reflexivity|]. destruct (cont b2) eqn:C2; [|right; eexists; reflexivity].
  destruct r2 as [|b3 r3]; [right; eexists; reflexivity|]. destruct (cont b3) eqn:C3; [|right; eexists; reflexivity].
  assert (K : 128 <= b1 <= 191 /\ (b = 240 -> 144 <= b1) /\ (b = 244 -> b1 <= 143)) by (unfold ok4, cont in C1; destruct (N.eqb_spec b 240), (N.eqb_spec b 244); lia). unfold cont in C2, C3.
  left. exists ((b - 240) * 262144 + (b1 - 128) * 4096 + (b2 - 128) * 64 + (b3 - 128)), [b; b1; b2; b3], r3. split; [|split; reflexivity]. right. right. right. split; [lia|].
  exists (b - 240), (b1 - 128), (b2 - 128), (b3 - 128). split; [lia|]. split; [lia|]. split; [lia|]. split; [lia|]. f_equal; [|f_equal; [|f_equal; [|f_equal]]]; lia.
Qed.

(** ** unquote, one run of ASCII characters at a time *)
Definition after (s : ustr) : ustr := match s with [] => [] | c :: r => c :: unquote r end.
Lemma unquote_runs : forall s run, unquote_go run s = utf8_decode (unquote_bytes (run ++ fst (span is_ascii s))) ++ after (snd (span is_ascii s)).
Proof.
  induction s as [|c s IH]; intro run; [cbn; rewrite !app_nil_r; reflexivity|]. cbn [unquote_go span]. destruct (is_ascii c) eqn:E.
  - rewrite IH. destruct (span is_ascii s) as [a b]. cbn [fst snd]. rewrite <- app_assoc. reflexivity.
  - cbn [fst snd after]. rewrite app_nil_r. reflexivity.
Qed.
Definition plus (s : ustr) : ustr := replace_char 43 32 s.
Lemma plus_cons : forall c s, plus (c :: s) = (if c =? 43 then 32 else c) :: plus s.
Proof. reflexivity. Qed.
Lemma plus_app : forall a b, plus (a ++ b) = plus a ++ plus b.
Proof. intros a b. apply map_app. Qed.
Lemma unquote_plus_runs : forall s, unquote_plus s = utf8_decode (unquote_bytes (fst (span is_ascii (plus s)))) ++ after (snd (span is_ascii (plus s))).
Proof. intro s. unfold unquote_plus, unquote. rewrite unquote_runs. reflexivity. Qed.
Lemma hex_ascii : forall h a, hex_digit h a -> is_ascii h = true /\ h <> 37 /\ h <> 43 /\ a < 16.
Proof. intros h a H. unfold hex_digit in H. unfold is_ascii. lia. Qed.
Lemma escapes_bytes : forall w bs, escapes w bs -> forall t, fst (span is_ascii (plus (w ++ t))) = w ++ fst (span is_ascii (plus t)) /\
  snd (span is_ascii (plus (w ++ t))) = snd (span is_ascii (plus t)) /\ forall a, unquote_bytes (w ++ a) = bs ++ unquote_bytes a.
Proof.
  intros w bs H. induction H as [|h l a b w bs Ha Hb H IH]; intro t; [auto|]. destruct (IH t) as (I1 & I2 & I3). destruct (hex_ascii _ _ Ha) as (A1 & A2 & A3 & _). destruct (hex_ascii _ _ Hb) as (B1 & B2 & B3 & _).
  cbn [app]. rewrite !plus_cons. replace (37 =? 43) with false by reflexivity. replace (h =? 43) with false by lia. replace (l =? 43) with false by lia.
  cbn [span]. rewrite A1, B1. change (is_ascii 37) with true. cbv iota. destruct (span is_ascii (plus (w ++ t))) as [x y]. cbn [fst snd] in *. subst x y. split; [reflexivity|]. split; [reflexivity|].
  intro r. cbn [app unquote_bytes]. change (37 =? 37) with true. cbv iota. apply hexv_iff in Ha. apply hexv_iff in Hb. rewrite Ha, Hb, I3. reflexivity.
Qed.
Lemma unquote_percent : forall t, ~ hex_follows t -> unquote_bytes (37 :: fst (span is_ascii (plus t))) = 37 :: unquote_bytes (fst (span is_ascii (plus t))).
Proof.
  intros t H. cbn [unquote_bytes]. change (37 =? 37) with true. cbv iota. destruct t as [|h t]; [reflexivity|]. rewrite plus_cons. destruct t as [|l t].
  { cbn [plus replace_char map span]. destruct (is_ascii _); reflexivity. }
  rewrite plus_cons. set (h' := if h =? 43 then 32 else h). set (l' := if l =? 43 then 32 else l). cbn [span]. destruct (is_ascii h'); [|reflexivity]. destruct (is_ascii l').
  2: { reflexivity. }
  destruct (span is_ascii (plus t)) as [x y]. cbn [fst]. destruct (hexv h') as [a|] eqn:A; [|reflexivity]. destruct (hexv l') as [b|] eqn:B; [|reflexivity]. exfalso. apply H.
  apply hexv_iff in A. apply hexv_iff in B. unfold h' in A. unfold l' in B. exists h, l, t, a, b. split; [reflexivity|].
  destruct (N.eqb_spec h 43); [exfalso; unfold hex_digit in A; lia|]. destruct (N.eqb_spec l 43); [exfalso; unfold hex_digit in B; lia|]. auto.
Qed.

Lemma spells_unquote : forall t s, spells t s -> unquote_plus t = s.
Proof.
  intros t s H. induction H as [|c t s N1 N2 H IH|t s H IH|w c bs t s U E H IH|t s N H IH]; [reflexivity| | | |].
  - rewrite unquote_plus_runs, plus_cons. replace (c =? 43) with false by lia. cbn [span]. destruct (is_ascii c) eqn:A.
    + rewrite unquote_plus_runs in IH. destruct (span is_ascii (plus t)) as [x y]. cbn [fst snd] in *. cbn [unquote_bytes]. replace (c =? 37) with false by lia. cbn [utf8_decode app]. unfold is_ascii in A. rewrite A. cbn [app]. rewrite IH. reflexivity.
    + cbn [fst snd after]. cbn [unquote_bytes utf8_decode app]. f_equal. exact IH.
  - rewrite unquote_plus_runs, plus_cons. change (43 =? 43) with true. cbv iota. cbn [span]. change (is_ascii 32) with true. cbv iota.
    rewrite unquote_plus_runs in IH. destruct (span is_ascii (plus t)) as [x y]. cbn [fst snd] in *. cbn [unquote_bytes]. change (32 =? 37) with false. cbv iota. cbn [utf8_decode]. change (32 <? 128) with true. cbv iota. cbn [app]. rewrite IH. reflexivity.
  - rewrite unquote_plus_runs in *. destruct (escapes_bytes _ _ E t) as (-> & -> & B). rewrite B, (utf8_dec_enc1 c bs _ (bytes_enc _ _ U)). cbn [app]. rewrite IH. reflexivity.
  - rewrite unquote_plus_runs in *. rewrite plus_cons. change (37 =? 43) with false. cbv iota. cbn [span]. change (is_ascii 37) with true. cbv iota. pose proof (unquote_percent t N) as P.
    destruct (span is_ascii (plus t)) as [x y]. cbn [fst snd] in *. rewrite P. cbn [utf8_decode]. change (37 <? 128) with true. cbv iota. cbn [app]. rewrite IH. reflexivity.
Qed.

(** bytes above 127 come from escapes *)
Lemma high_escaped : forall a, forallb is_ascii a = true -> forall b r, unquote_bytes a = b :: r -> 128 <= b ->
  exists h l x y a', a = 37 :: h :: l :: a' /\ hex_digit h x /\ hex_digit l y /\ b = x * 16 + y /\ unquote_bytes a' = r.
Proof.
  intros [|c a] A b r H Hb; [discriminate|]. cbn [forallb] in A. apply andb_true_iff in A. destruct A as [A _]. unfold is_ascii in A. cbn [unquote_bytes] in H.
  destruct (N.eqb_spec c 37) as [->|_]; [|injection H as -> _; lia].
  destruct a as [|h [|l a]]; [injection H as <- _; lia|injection H as <- _; lia|].
  destruct (hexv h) as [x|] eqn:X; [|injection H as <- _; lia]. destruct (hexv l) as [y|] eqn:Y; [|injection H as <- _; lia].
  injection H as <- <-. exists h, l, x, y, a. rewrite <- !hexv_iff. auto.
Qed.
(** all of the bytes of a character but ASCII *)
Lemma bytes_escaped : forall bs a r, forallb is_ascii a = true -> (forall b, In b bs -> 128 <= b) -> unquote_bytes a = bs ++ r ->
  exists w a', a = w ++ a' /\ escapes w bs /\ unquote_bytes a' = r.
Proof.
  induction bs as [|b bs IH]; intros a r A Hb H; [exists [], a; split; [reflexivity|]; split; [constructor|exact H]|].
  destruct (high_escaped a A b (bs ++ r) H (Hb b (or_introl eq_refl))) as (h & l & x & y & a' & -> & X & Y & -> & H').
  cbn [forallb] in A. apply andb_true_iff in A. destruct A as [_ A]. apply andb_true_iff in A. destruct A as [_ A]. apply andb_true_iff in A. destruct A as [_ A].
  destruct (IH a' r A (fun b I => Hb b (or_intror I)) H') as (w & a2 & -> & E & R). exists (37 :: h :: l :: w), a2. split; [reflexivity|]. split; [constructor; assumption|exact R].
Qed.
Lemma span_plus : forall t, exists a r, t = a ++ r /\ plus a = fst (span is_ascii (plus t)) /\ plus r = snd (span is_ascii (plus t)).
Proof.
  induction t as [|c t (a & r & E & A & R)]; [exists [], []; auto|]. rewrite plus_cons. cbn [span]. destruct (is_ascii _).
  - destruct (span is_ascii (plus t)) as [x y]. cbn [fst snd] in *. exists (c :: a), r. rewrite plus_cons, A. split; [rewrite E; reflexivity|]. auto.
  - exists [], (c :: t). rewrite plus_cons. auto.
Qed.
Lemma span_stop : forall s, match snd (span is_ascii s) with [] => True | x :: _ => is_ascii x = false end.
Proof. induction s as [|c s IH]; [exact I|]. cbn [span]. destruct (is_ascii c) eqn:E; [|exact E]. destruct (span is_ascii s). exact IH. Qed.
Lemma span_ascii : forall s, forallb is_ascii (fst (span is_ascii s)) = true.
Proof. intro s. destruct (span is_ascii s) as [a b] eqn:E. apply span_forall in E. apply E. Qed.
Lemma plus_escapes : forall w bs, escapes w bs -> forall t, plus t = w -> t = w.
Proof.
  intros w bs H. induction H as [|h l a b w bs Ha Hb H IH]; intros t E.
  - destruct t; [reflexivity|discriminate].
  - destruct t as [|c1 [|c2 [|c3 t]]]; try discriminate. rewrite !plus_cons in E. injection E as E1 E2 E3 E4. apply IH in E4.
    destruct (hex_ascii _ _ Ha) as (A1 & A2 & A3 & _). destruct (hex_ascii _ _ Hb) as (B1 & B2 & B3 & _).
    assert (h <> 32 /\ l <> 32) by (unfold hex_digit in Ha, Hb; lia).
    destruct (N.eqb_spec c1 43), (N.eqb_spec c2 43), (N.eqb_spec c3 43); try lia. subst. reflexivity.
Qed.
Lemma plus_split : forall w t r, plus t = w ++ r -> exists a b, t = a ++ b /\ plus a = w /\ plus b = r.
Proof. intros w t r H. apply map_eq_app in H. destruct H as (a & b & -> & A & B). exists a, b. auto. Qed.
Lemma hex_dec : forall t, hex_follows t \/ ~ hex_follows t.
Proof.
  intros [|h [|l r]]; [right|right|]; try (intros (a & b & c & d & e & E & _); discriminate).
  destruct (hexv h) as [x|] eqn:X.
  - destruct (hexv l) as [y|] eqn:Y.
    + left. exists h, l, r, x, y. rewrite <- !hexv_iff. auto.
    + right. intros (a & b & c & d & e & E & H1 & H2). injection E as <- <- _. apply hexv_iff in H2. rewrite Y in H2. discriminate.
  - right. intros (a & b & c & d & e & E & H1 & H2). injection E as <- <- _. apply hexv_iff in H1. rewrite X in H1. discriminate.
Qed.
Lemma bytes_high : forall c bs, utf8_bytes c bs -> 128 <= c -> forall b, In b bs -> 128 <= b.
Proof.
  intros c bs [[H ->]|[[H (a & x & -> & Hb & ->)]|[[H [N (a & x & d & E & Hb & Hd & ->)]]|[H (a & x & d & e & E & Hb & Hd & He & ->)]]]] L b I; [lia| | | ];
    cbn [In] in I; repeat match type of I with _ \/ _ => destruct I as [I|I] end; try contradiction; subst b; lia.
Qed.
Lemma bytes_ne : forall c, ~ utf8_bytes c [].
Proof. intros c [[H E]|[[H (a & x & _ & _ & E)]|[[H [N (a & x & d & _ & _ & _ & E)]]|[H (a & x & d & e & _ & _ & _ & _ & E)]]]]; discriminate. Qed.
Lemma cons_or : forall x (s : ustr), In 65533 s -> In 65533 (x :: s).
Proof. intros x s H. right. exact H. Qed.
Lemma spelt : forall n t, (List.length t <= n)%nat -> spells t (unquote_plus t) \/ In 65533 (unquote_plus t).
Proof.
  induction n as [|n IH]; intros t L.
  { destruct t; [left; constructor|cbn in L; lia]. }
  destruct t as [|c t]; [left; constructor|]. cbn [List.length] in L.
  assert (T : spells t (unquote_plus t) \/ In 65533 (unquote_plus t)) by (apply IH; lia).
  destruct (N.eq_dec c 43) as [->|N43].
  { rewrite unquote_plus_runs, plus_cons. change (43 =? 43) with true. cbv iota. cbn [span]. change (is_ascii 32) with true. cbv iota. rewrite unquote_plus_runs in T. destruct (span is_ascii (plus t)) as [x y]. cbn [fst snd] in *.
    cbn [unquote_bytes]. change (32 =? 37) with false. cbv iota. cbn [utf8_decode]. change (32 <? 128) with true. cbv iota. cbn [app]. destruct T as [T|T]; [left; constructor; exact T|right; apply cons_or; exact T]. }
  destruct (N.eq_dec c 37) as [->|N37].
  2: { rewrite unquote_plus_runs, plus_cons. replace (c =? 43) with false by lia. cbn [span]. destruct (is_ascii c) eqn:A.
    - rewrite unquote_plus_runs in T. destruct (span is_ascii (plus t)) as [x y]. cbn [fst snd] in *. cbn [unquote_bytes]. replace (c =? 37) with false by lia. cbn [utf8_decode]. unfold is_ascii in A. rewrite A. cbn [app].
      destruct T as [T|T]; [left; apply spells_plain; assumption|right; apply cons_or; exact T].
    - cbn [fst snd after unquote_bytes utf8_decode app]. change (unquote (plus t)) with (unquote_plus t). destruct T as [T|T]; [left; apply spells_plain; assumption|right; apply cons_or; exact T]. }
  destruct (hex_dec t) as [(h & l & r & x & y & -> & X & Y)|NH].
  2: { rewrite unquote_plus_runs, plus_cons. change (37 =? 43) with false. cbv iota. cbn [span]. change (is_ascii 37) with true. cbv iota. pose proof (unquote_percent t NH) as P. rewrite unquote_plus_runs in T.
    destruct (span is_ascii (plus t)) as [a b]. cbn [fst snd] in *. rewrite P. cbn [utf8_decode]. change (37 <? 128) with true. cbv iota. cbn [app].
    destruct T as [T|T]; [left; apply spells_percent; assumption|right; apply cons_or; exact T]. }
  clear T. assert (Esc : escapes [37; h; l] [x * 16 + y]) by (apply escapes_byte; [exact X|exact Y|constructor]).
  destruct (escapes_bytes _ _ Esc r) as (F & S' & B). cbn [app] in F, S', B.
  rewrite unquote_plus_runs, F, S', B. cbn [List.length] in L. cbn [app].
  destruct (decode_first (x * 16 + y) (unquote_bytes (fst (span is_ascii (plus r))))) as [(c & bs & rest & U & E & D)|[z D]]; rewrite D; [|right; left; reflexivity].
  destruct (span_plus r) as (a & q & Er & Pa & Pq).
  assert (W : exists w a', 37 :: h :: l :: a = w ++ a' /\ escapes w bs /\ unquote_bytes (plus a') = rest /\ forallb is_ascii (plus a') = true /\ w <> []).
  { destruct (N.lt_ge_cases c 128) as [Lc|Lc].
    - destruct U as [[_ ->]|U]; [|exfalso; destruct U as [[U _]|[[U _]|[U _]]]; lia]. injection E as <- <-. exists [37; h; l], a. split; [reflexivity|]. split; [exact Esc|]. split; [rewrite Pa; reflexivity|]. split; [rewrite Pa; apply span_ascii|discriminate].
    - assert (A : forallb is_ascii (37 :: h :: l :: plus a) = true).
      { cbn [forallb]. destruct (hex_ascii _ _ X) as (-> & _). destruct (hex_ascii _ _ Y) as (-> & _). rewrite Pa. apply span_ascii. }
      assert (Eq : unquote_bytes (37 :: h :: l :: plus a) = bs ++ rest) by (rewrite B, Pa; exact E).
      destruct (bytes_escaped bs _ rest A (bytes_high c bs U Lc) Eq) as (w & a' & Ew & Hw & R).
      assert (P3 : plus (37 :: h :: l :: a) = w ++ a').
      { rewrite !plus_cons. destruct (hex_ascii _ _ X) as (_ & _ & X3 & _). destruct (hex_ascii _ _ Y) as (_ & _ & Y3 & _). change (37 =? 43) with false. replace (h =? 43) with false by lia. replace (l =? 43) with false by lia. exact Ew. }
      apply plus_split in P3. destruct P3 as (w0 & a0 & E0 & P1 & P2). assert (w0 = w) by (eapply plus_escapes; eassumption). subst w0.
      exists w, a0. split; [exact E0|]. split; [exact Hw|]. rewrite P2. split; [exact R|]. split.
      + rewrite Ew, forallb_app in A. apply andb_true_iff in A. apply A.
      + intros ->. inversion Hw. subst bs. exact (bytes_ne _ U). }
  destruct W as (w & a' & Ew & Hw & R & A' & Nw).
  assert (T : 37 :: h :: l :: r = w ++ a' ++ q) by (rewrite Er; rewrite app_assoc, <- Ew; reflexivity).
  assert (Lq : (List.length (a' ++ q) <= n)%nat).
  { apply (f_equal (@List.length N)) in T. cbn [List.length] in T. rewrite app_length in T. destruct w; [congruence|]. cbn [List.length] in T. lia. }
  assert (V : unquote_plus (a' ++ q) = utf8_decode rest ++ after (snd (span is_ascii (plus r)))).
  { rewrite unquote_plus_runs, plus_app, Pq.
    assert (Sp : span is_ascii (plus a' ++ snd (span is_ascii (plus r))) = (plus a', snd (span is_ascii (plus r)))).
    { apply span_app; [exact A'|apply span_stop]. }
    rewrite Sp. cbn [fst snd]. rewrite R. reflexivity. }
  rewrite T. cbn [app]. rewrite <- V. destruct (IH _ Lq) as [G|G]; [left; apply (spells_escaped w c bs); assumption|right; apply cons_or; exact G].
Qed.

(** ** fields *)
Lemma split_on_first : forall (c : N) s, In c s -> exists n v, s = n ++ c :: v /\ ~ In c n.
Proof.
  intros c s. induction s as [|x s IH]; [intros []|]. intro I. destruct (N.eq_dec x c) as [->|Nx]; [exists [], s; split; [reflexivity|intros []]|].
  destruct I as [I|I]; [congruence|]. destruct (IH I) as (n & v & -> & Nn). exists (x :: n), v. split; [reflexivity|]. intros [J|J]; [congruence|contradiction].
Qed.
Lemma no_char : forall c s, ~ In c s -> has_char c s = false.
Proof. intros c s H. destruct (has_char c s) eqn:E; [|reflexivity]. apply has_char_In in E. contradiction. Qed.
Lemma no_char_in : forall c s, has_char c s = false -> ~ In c s.
Proof. intros c s H I. apply has_char_In in I. rewrite H in I. discriminate. Qed.
Lemma field_iff : forall f l, field_reads f l -> parse_field f = l.
Proof.
  intros f l H. destruct H as [n v n' v' N V Hn Hv|n N|f N]; unfold parse_field.
  - rewrite partition1_app by (apply no_char; exact N). rewrite (spells_unquote _ _ Hn), (spells_unquote _ _ Hv). destruct v; [congruence|reflexivity].
  - rewrite partition1_app by (apply no_char; exact N). reflexivity.
  - rewrite partition1_none by (apply no_char; exact N). reflexivity.
Qed.
Lemma query_list : forall q l, query_reads q l -> parse_qsl q = l.
Proof.
  intros q l H. induction H as [f l N F|f l q l' N F H IH]; unfold parse_qsl in *.
  - rewrite split_on_none by (apply no_char; exact N). cbn [flat_map]. rewrite app_nil_r. apply field_iff. exact F.
  - rewrite split_on_app by (apply no_char; exact N). cbn [flat_map]. rewrite (field_iff _ _ F), IH. reflexivity.
Qed.
(** grouping *)
Lemma qs_add_names : forall d k v, map fst (qs_add d k v) = if umem k (map fst d) then map fst d else map fst d ++ [k].
Proof.
  induction d as [|[k' l] d IH]; intros k v; [reflexivity|]. cbn [qs_add map fst umem]. unfold umem. cbn [existsb]. fold (umem k (map fst d)). destruct (ueqb k k') eqn:E; [reflexivity|]. cbn [map fst orb]. rewrite IH. destruct (umem k (map fst d)); reflexivity.
Qed.
Lemma group_names : forall l, map fst (qs_group l) = firsts (map fst l).
Proof.
  induction l as [|[k v] l IH] using rev_ind; [reflexivity|]. unfold qs_group in *. rewrite fold_left_app. cbn [fold_left fst snd]. rewrite qs_add_names, map_app, IH. cbn [map fst]. rewrite firsts_snoc. 
  replace (umem k (firsts (map fst l))) with (umem k (map fst l)); [destruct (umem k (map fst l)); [rewrite app_nil_r|]; reflexivity|].
  destruct (umem k (map fst l)) eqn:A, (umem k (firsts (map fst l))) eqn:B; try reflexivity; exfalso.
  - apply umem_In in A. apply umem_not_In in B. apply B. apply firsts_in. exact A.
  - apply umem_not_In in A. apply umem_In in B. apply A. apply firsts_in. exact B.
Qed.
Lemma group_collected : forall l, collected l (qs_group l).
Proof.
  intro l. split; [apply group_names|]. intros k vs I. apply qs_get_In in I; [|apply qs_group_keys]. rewrite qs_group_get in I. symmetry. exact I.
Qed.
Lemma same_group : forall l g1 g2, collected l g1 -> collected l g2 -> g1 = g2.
Proof.
  intros l g1 g2 [A1 B1] [A2 B2]. rewrite <- A1 in A2. clear A1. revert g2 A2 B2. induction g1 as [|[k vs] g1 IH]; intros [|[k' vs'] g2] E B2; try discriminate; [reflexivity|].
  cbn [map fst] in E. injection E as -> E. f_equal.
  - f_equal. rewrite (B1 k vs), (B2 k vs'); try (left; reflexivity). reflexivity.
  - apply IH; [|exact E|]; intros; [apply B1|apply B2]; right; assumption.
Qed.
Lemma query_iff : forall q l, query_reads q l -> forall g, parse_qs q = g <-> collected l g.
Proof.
  intros q l H g. unfold parse_qs. rewrite (query_list _ _ H). split; [intros <-; apply group_collected|]. intro C. exact (same_group _ _ _ (group_collected l) C).
Qed.
(** every text has a meaning but for escapes that are no UTF-8 *)
Lemma field_total : forall f, (exists l, field_reads f l) \/ exists kv, In kv (parse_field f) /\ (In 65533 (fst kv) \/ In 65533 (snd kv)).
Proof.
  intro f. destruct (has_char 61 f) eqn:E.
  - apply has_char_In in E. destruct (split_on_first 61 f E) as (n & v & -> & N). unfold parse_field. rewrite partition1_app by (apply no_char; exact N).
    destruct v as [|c v]; [left; exists []; apply field_blank; exact N|].
    destruct (spelt _ n (le_n _)) as [Hn|Hn]; [|right; eexists; split; [left; reflexivity|left; exact Hn]].
    destruct (spelt _ (c :: v) (le_n _)) as [Hv|Hv]; [|right; eexists; split; [left; reflexivity|right; exact Hv]].
    left. eexists. apply field_pair; [exact N|discriminate|exact Hn|exact Hv].
  - left. exists []. apply field_bare. apply no_char_in. exact E.
Qed.
Lemma query_total : forall q, (exists l, query_reads q l) \/ exists kv, In kv (parse_qsl q) /\ (In 65533 (fst kv) \/ In 65533 (snd kv)).
Proof.
  intro q. unfold parse_qsl. assert (G : forall ps, ps <> [] -> (forall p, In p ps -> has_char 38 p = false) -> (exists l, query_reads (join [38] ps) l) \/ exists kv, In kv (flat_map parse_field ps) /\ (In 65533 (fst kv) \/ In 65533 (snd kv))).
  { induction ps as [|p ps IH]; intros N H; [congruence|]. assert (P : ~ In 38 p) by (apply no_char_in; apply H; left; reflexivity). destruct (field_total p) as [[l F]|(kv & I & B)].
    2: { right. exists kv. split; [apply in_or_app; left; exact I|exact B]. }
    destruct ps as [|p' ps]; [left; exists l; apply query_last; assumption|].
    destruct IH as [[l' Q]|(kv & I & B)]; [discriminate|intros x I; apply H; right; exact I| |].
    - left. exists (l ++ l'). apply query_more; assumption.
    - right. exists kv. split; [apply in_or_app; right; exact I|exact B]. }
  pose proof (G (split_on 38 q) (split_on_nonempty 38 q) (fun p I => split_on_parts 38 q p I)) as X. rewrite split_join in X. exact X.
Qed.
Lemma malformed : forall q, (forall l, ~ query_reads q l) -> exists k vs, In (k, vs) (parse_qs q) /\ (In 65533 k \/ exists v, In v vs /\ In 65533 v).
Proof.
  intros q H. destruct (query_total q) as [[l Q]|([k v] & I & B)]; [exfalso; exact (H l Q)|]. unfold parse_qs. destruct (qs_group_keys (parse_qsl q)) as [N K].
  assert (Ik : In k (map fst (qs_group (parse_qsl q)))) by (apply K; exact (in_map fst _ _ I)). apply in_map_iff in Ik. destruct Ik as ([k' vs] & E & Ig). cbn in E. subst k'. exists k, vs. split; [exact Ig|].
  cbn [fst snd] in B. destruct B as [B|B]; [left; exact B|right]. exists v. split; [|exact B]. apply qs_get_In in Ig; [|exact N]. rewrite qs_group_get in Ig. rewrite <- Ig. apply in_map_iff. exists (k, v). split; [reflexivity|]. apply filter_In. split; [exact I|apply ueqb_refl].
Qed.
Lemma same_query : forall C d q q' l, query_reads q l -> query_reads q' l -> l <> [] -> from_urlencoded C d q = from_urlencoded C d q'.
Proof.
  intros C d q q' l H H' N. unfold from_urlencoded, from_qs. assert (E : parse_qs q = parse_qs q') by (unfold parse_qs; rewrite (query_list _ _ H), (query_list _ _ H'); reflexivity). rewrite <- E.
  destruct (parse_qs q) as [|g gs] eqn:G; [|reflexivity]. exfalso. apply (query_iff _ _ H) in G. destruct G as [G _]. destruct l as [|[k v] l]; [congruence|discriminate].
Qed.

(** ** what is written is a query *)
Lemma enc_bytes : forall c bs, utf8_enc1 c = Some bs -> utf8_bytes c bs.
Proof.
  intros c bs H. pose proof (N.div_mod c 64 ltac:(discriminate)) as E1. pose proof (N.mod_lt c 64 ltac:(discriminate)) as M1.
  pose proof (N.div_mod (c / 64) 64 ltac:(discriminate)) as E2. pose proof (N.mod_lt (c / 64) 64 ltac:(discriminate)) as M2.
  pose proof (N.div_mod (c / 64 / 64) 64 ltac:(discriminate)) as E3. pose proof (N.mod_lt (c / 64 / 64) 64 ltac:(discriminate)) as M3.
  assert (Q1 : c / 4096 = c / 64 / 64) by (rewrite N.div_div by discriminate; reflexivity). assert (Q2 : c / 262144 = c / 64 / 64 / 64) by (rewrite !N.div_div by discriminate; reflexivity).
  unfold utf8_enc1 in H. rewrite Q1, Q2 in H.
  destruct (c <? 128) eqn:L1; [apply Some_inj in H; subst bs; left; split; [lia|reflexivity]|].
  destruct (c <? 2048) eqn:L2.
  { apply Some_inj in H. subst bs. right. left. split; [lia|]. exists (c / 64), (c mod 64). split; [lia|]. split; [exact M1|reflexivity]. }
  destruct ((55296 <=? c) && (c <=? 57343)) eqn:L3; [discriminate|]. destruct (c <? 65536) eqn:L4.
  { apply Some_inj in H. subst bs. right. right. left. split; [lia|]. split; [lia|]. exists (c / 64 / 64), ((c / 64) mod 64), (c mod 64). split; [lia|]. split; [exact M2|]. split; [exact M1|reflexivity]. }
  destruct (c <? 1114112) eqn:L5; [|discriminate]. apply Some_inj in H. subst bs. right. right. right. split; [lia|].
  exists (c / 64 / 64 / 64), ((c / 64 / 64) mod 64), ((c / 64) mod 64), (c mod 64). split; [lia|]. split; [exact M3|]. split; [exact M2|]. split; [exact M1|reflexivity].
Qed.
Lemma hexc_digit : forall n, n < 16 -> hex_digit (hexc n) n.
Proof. intros n H. unfold hex_digit, hexc. destruct (n <? 10) eqn:E; lia. Qed.
Lemma byte_escape : forall b, b < 256 -> url_safe b = false -> b <> 32 -> exists h l x y, quote_byte b = [37; h; l] /\ hex_digit h x /\ hex_digit l y /\ b = x * 16 + y.
Proof.
  intros b H U N. unfold quote_byte. rewrite U. replace (b =? 32) with false by lia. pose proof (N.div_mod b 16 ltac:(discriminate)). pose proof (N.mod_lt b 16 ltac:(discriminate)).
  assert (b / 16 < 16) by (apply N.div_lt_upper_bound; [discriminate|lia]). exists (hexc (b / 16)), (hexc (b mod 16)), (b / 16), (b mod 16). split; [reflexivity|]. split; [apply hexc_digit; assumption|]. split; [apply hexc_digit; assumption|lia].
Qed.
Lemma quote_escapes : forall bs, (forall b, In b bs -> 128 <= b < 256) -> escapes (quote_bytes bs) bs.
Proof.
  induction bs as [|b bs IH]; intro H; [constructor|]. destruct (byte_escape b) as (h & l & x & y & Q & X & Y & E).
  - apply (H b (or_introl eq_refl)).
  - specialize (H b (or_introl eq_refl)). unfold url_safe, is_alpha, is_lower, is_upper, is_digit. lia.
  - specialize (H b (or_introl eq_refl)). lia.
  - cbn [quote_bytes flat_map]. rewrite Q, E. cbn [app]. apply escapes_byte; [exact X|exact Y|]. apply IH. intros b0 I. apply H. right. exact I.
Qed.
Lemma quote_spells : forall s q, quote_plus s = Some q -> spells q s.
Proof.
  intros s q H. unfold quote_plus in H. destruct (utf8_encode s) as [bs|] eqn:E; [|discriminate]. injection H as <-. revert bs E. induction s as [|c s IH]; intros bs E; cbn [utf8_encode] in E.
  { injection E as <-. constructor. }
  destruct (utf8_enc1 c) as [a|] eqn:E1; [|discriminate]. destruct (utf8_encode s) as [b|] eqn:E2; [|discriminate]. injection E as <-. unfold quote_bytes. rewrite flat_map_app. fold (quote_bytes a). fold (quote_bytes b).
  pose proof (enc_bytes _ _ E1) as U. specialize (IH b eq_refl). destruct (N.lt_ge_cases c 128) as [L|L].
  - destruct U as [[_ ->]|U]; [|exfalso; destruct U as [[U _]|[[U _]|[U _]]]; lia]. cbn [quote_bytes flat_map]. rewrite app_nil_r. destruct (url_safe c) eqn:Us.
    + unfold quote_byte. rewrite Us. cbn [app]. apply spells_plain; [..|exact IH]; intro K; subst c; discriminate.
    + destruct (N.eq_dec c 32) as [->|N32]; [exact (spells_plus _ _ IH)|]. destruct (byte_escape c) as (h & l & x & y & -> & X & Y & Ec); [lia|assumption|assumption|].
      apply (spells_escaped [37; h; l] c [c]); [left; split; [exact L|reflexivity]| |exact IH]. rewrite Ec. apply escapes_byte; [exact X|exact Y|constructor].
  - apply (spells_escaped _ c a); [exact U| |exact IH]. apply quote_escapes. intros x I. split; [exact (bytes_high _ _ U L x I)|]. pose proof (utf8_enc1_bytes _ _ E1) as B. rewrite forallb_forall in B. specialize (B x I). lia.
Qed.
Lemma written_query : forall l q, urlencode l = Some q -> l <> [] -> (forall k v, In (k, v) l -> v <> []) -> query_reads q l.
Proof.
  induction l as [|[k v] l IH]; intros q H N V; [congruence|]. unfold urlencode in *. cbn [map all_some] in H.
  destruct (urlencode1 (k, v)) as [f|] eqn:F; [|discriminate]. destruct (all_some (map urlencode1 l)) as [fs|] eqn:FS; [|discriminate]. cbn [option_map] in H. injection H as <-.
  unfold urlencode1 in F. cbn [fst snd] in F. destruct (quote_plus k) as [qk|] eqn:Qk; [|discriminate]. destruct (quote_plus v) as [qv|] eqn:Qv; [|discriminate]. injection F as <-.
  assert (C : forall c s q0, quote_plus s = Some q0 -> quoted_char c = false -> ~ In c q0).
  { intros c s q0 H Hc. apply no_char_in. apply quoted_no; [exact Hc|]. eapply quote_plus_chars. exact H. }
  assert (P : field_reads (qk ++ 61 :: qv) [(k, v)]).
  { apply field_pair; [eapply C; [exact Qk|reflexivity]| |apply quote_spells; exact Qk|apply quote_spells; exact Qv]. eapply quote_plus_nonempty; [exact Qv|]. apply (V k v). left. reflexivity. }
  assert (A : ~ In 38 (qk ++ 61 :: qv)).
  { rewrite in_app_iff. intros [I|[I|I]]; [|discriminate|]; revert I; eapply C; eauto. }
  destruct l as [|kv l].
  - cbn [map all_some] in FS. injection FS as <-. apply query_last; assumption.
  - assert (Ne : fs <> []). { intros ->. cbn [map all_some] in FS. destruct (urlencode1 kv); [|discriminate]. destruct (all_some _); discriminate. }
    specialize (IH (join [38] fs) eq_refl ltac:(discriminate) (fun a b I => V a b (or_intror I))). destruct fs as [|f0 fs]; [congruence|].
    change (join [38] ((qk ++ 61 :: qv) :: f0 :: fs)) with ((qk ++ 61 :: qv) ++ [38] ++ join [38] (f0 :: fs)). exact (query_more _ _ _ _ A P IH).
Qed.

(** the byte FF is no UTF-8 *)
Lemma escapes_length : forall w bs, escapes w bs -> List.length w = (3 * List.length bs)%nat.
Proof. intros w bs H. induction H as [|h l a b w bs Ha Hb H IH]; [reflexivity|]. cbn [List.length]. lia. Qed.
Lemma no_ff : forall s, ~ spells [37; 70; 70] s.
Proof.
  intros s H. pose proof (spells_unquote _ _ H) as E. vm_compute in E. subst s. inversion H as [|c t s N1 N2 H' E1 E2|t s H' E1 E2|w c bs t s U Es H' E1 E2|t s N H' E1 E2]; subst.
  apply bytes_enc in U. vm_compute in U. injection U as <-. apply escapes_length in Es. apply (f_equal (@List.length N)) in E1. rewrite app_length, Es in E1. cbn in E1. lia.
Qed.
Lemma no_ff_query : forall l, ~ query_reads (u "k=%FF") l.
Proof.
  intros l H. pose proof (query_list _ _ H) as E. vm_compute in E. subst l. inversion H as [f l N F E1 E2|f l q l' N F H' E1 E2]; subst.
  - inversion F as [n v n' v' Nn V Hn Hv E1 E2|n Nn E1 E2|f Nf E1 E2]. subst n' v'. assert (P : partition1 61 (n ++ 61 :: v) = partition1 61 (u "k=%FF")) by (rewrite E1; reflexivity).
    rewrite partition1_app in P by (apply no_char; exact Nn). vm_compute in P. injection P as -> ->. exact (no_ff _ Hv).
  - assert (I : In 38 (u "k=%FF")) by (rewrite <- E1; apply in_or_app; right; left; reflexivity). vm_compute in I. repeat (destruct I as [I|I]; [discriminate|]). exact I.
Qed.
