(** What was read from a JSON text can be written, and is read back as it was. *)
From Coq Require Import List NArith ZArith QArith_base Qabs Qreduction Bool String Lia ZifyBool ZifyN.
From Verif Require Import Base.Ustr Base.UstrLemmas Base.Percent Model.Cls Model.Value Model.Float Model.Json Model.Layout Spec.JsonSpec Spec.LayoutSpec Spec.FloatSpec Spec.GrammarSpec
  Proofs.FloatLemmas Proofs.NumberLemmas Proofs.ReprLemmas Proofs.ValueLemmas Proofs.JsonLemmas Proofs.LayoutLemmas Proofs.GrammarLemmas.
Import ListNotations.
Open Scope list_scope.
Open Scope N_scope.
Ltac Zify.zify_post_hook ::= idtac.

(** texts in which no high surrogate is followed by a low one *)
Fixpoint unpaired (s : ustr) : Prop :=
  match s with
  | [] => True
  | c :: r => c < 1114112 /\ match r with d :: _ => ~ (high c /\ low d) | [] => True end /\ unpaired r
  end.
Lemma scalars_split : forall a b, scalars (a ++ b) = true -> scalars a = true /\ scalars b = true.
Proof. intros a b H. unfold scalars in *. rewrite forallb_app in H. apply andb_true_iff. exact H. Qed.
Lemma scalars_tail : forall c b, scalars (c :: b) = true -> scalar c = true /\ scalars b = true.
Proof. intros c b H. unfold scalars in *. cbn [forallb] in H. apply andb_true_iff. exact H. Qed.
Lemma hex_small : forall h x, hex_text h x -> x < 65536.
Proof.
  intros h x (a & b & c & d & a' & b' & c' & d' & _ & A & B & C & D & ->). unfold hex_digit in *. lia.
Qed.
Lemma chars_unpaired : forall t s, chars t s -> scalars t = true -> unpaired s /\ match s with c :: _ => low c -> low_follows t | [] => True end.
Proof.
  intros t s H. induction H as [|c t s C1 C2 C3 _ IH|e c t s E _ IH|h x t s X N _ IH|h x h' y t s X Hx Y Hy _ IH]; intro S.
  - split; exact I.
  - apply scalars_tail in S. destruct S as [S1 S2]. destruct (IH S2) as [U _]. unfold scalar in S1. split; [|unfold low; lia].
    cbn [unpaired]. split; [lia|]. split; [|exact U]. destruct s; [exact I|]. unfold high. lia.
  - apply scalars_tail in S. destruct S as [_ S]. apply scalars_tail in S. destruct S as [_ S2]. destruct (IH S2) as [U _].
    assert (c < 128) by (cbn [In] in E; decompose [or] E; try contradiction; match goal with Q : (_, _) = (_, _) |- _ => injection Q as <- <- end; lia).
    split; [|unfold low; lia]. cbn [unpaired]. split; [lia|]. split; [|exact U]. destruct s; [exact I|]. unfold high. lia.
  - apply scalars_tail in S. destruct S as [_ S]. apply scalars_tail in S. destruct S as [_ S]. apply scalars_split in S. destruct S as [_ S].
    destruct (IH S) as [U F]. pose proof (hex_small _ _ X). split.
    + cbn [unpaired]. split; [lia|]. split; [|exact U]. destruct s as [|d s]; [exact I|]. intros [A B]. apply N. auto.
    + intro L. exists h, x, t. auto.
  - apply scalars_tail in S. destruct S as [_ S]. apply scalars_tail in S. destruct S as [_ S]. apply scalars_split in S. destruct S as [_ S].
    apply scalars_tail in S. destruct S as [_ S]. apply scalars_tail in S. destruct S as [_ S]. apply scalars_split in S. destruct S as [_ S].
    destruct (IH S) as [U _]. unfold high, low in Hx, Hy. split; [|unfold low; lia].
    cbn [unpaired]. split; [lia|]. split; [|exact U]. destruct s; [exact I|]. unfold high. lia.
Qed.
Lemma jscan_unpaired : forall s r, unpaired s -> jscan (flat_map jchar s ++ 34 :: r) = Ok (s, r).
Proof.
  induction s as [|c s IH]; intros r U; [reflexivity|]. cbn [unpaired] in U. destruct U as (C & P & U). cbn [flat_map]. rewrite <- app_assoc.
  destruct (scalar c) eqn:S; [rewrite jscan_jchar by exact S; rewrite (IH _ U); reflexivity|].
  assert (55296 <= c <= 57343) as Hs by (unfold scalar in S; lia). rewrite jchar_surrogate by exact Hs.
  destruct (56320 <=? c) eqn:L; [rewrite jscan_hex4 by lia; rewrite (IH _ U); reflexivity|].
  rewrite jscan_lone; [rewrite (IH _ U); reflexivity|lia|].
  destruct s as [|d s]; [apply quiet_plain; discriminate|]. cbn [flat_map]. rewrite <- app_assoc. cbn [unpaired] in U.
  apply quiet_char; [tauto|]. intro D. apply P. split; [unfold high; lia|exact D].
Qed.

(** values as they are read *)
Inductive clean : value -> Prop :=
| CNull : clean VNone
| CBool : forall b, clean (VBool b)
| CInt : forall z, clean (VInt z)
| CFlt : forall q, binary64 (Qabs q) -> q = Qred q -> clean (VFlt q)
| CStr : forall s, unpaired s -> clean (VStr s)
| CArr : forall l, (forall x, In x l -> clean x) -> clean (VList l)
| CObj : forall d, NoDup (map fst d) -> (forall k x, In (k, x) d -> unpaired k /\ clean x) -> clean (VDict d).
Lemma rounds_float : forall n k q, (0 <= n)%Z -> read_as n k q -> binary64 (Qabs q) /\ q = Qred q.
Proof.
  intros n k q N R. assert (0 <= inject_Z n * 10 ^ k)%Q as P.
  { apply Qmult_le_0_compat; [change 0%Q with (inject_Z 0); rewrite <- Zle_Qle; exact N|apply Qlt_le_weak, ten_pos]. }
  pose proof (rounds_binary _ _ P R) as B. split.
  - destruct B as (m & e & M & E & V). exists m, e. split; [exact M|]. split; [exact E|]. rewrite <- V. apply Qabs_pos. rewrite V.
    apply Qmult_le_0_compat; [change 0%Q with (inject_Z 0); rewrite <- Zle_Qle; apply M|apply Qlt_le_weak, two_pos].
  - destruct R as (m & e & _ & _ & _ & _ & _ & R & _). exact R.
Qed.
Lemma read_clean :
  (forall t v, GrammarSpec.reads t v -> scalars t = true -> clean v) /\
  (forall t l, elements t l -> scalars t = true -> forall x, In x l -> clean x) /\
  (forall t l, members t l -> scalars t = true -> forall k x, In (k, x) l -> unpaired k /\ clean x).
Proof.
  apply text_ind; intros; try (constructor; fail).
  - destruct (rounds_float n k q (scientific_pos _ _ _ H) H0) as [B R]. constructor; assumption.
  - destruct (rounds_float n k q (scientific_pos _ _ _ H) H0) as [B R]. constructor.
    + destruct B as (m & e & M & E & V). exists m, e. rewrite Qabs_opp. auto.
    + rewrite Qred_opp, <- R. reflexivity.
  - constructor. apply scalars_tail in H0. destruct H0 as [_ S]. apply scalars_split in S. apply (chars_unpaired t s H). apply S.
  - constructor. intros x [].
  - constructor. apply scalars_tail in H2. destruct H2 as [_ S]. apply scalars_split in S. apply H1. apply S.
  - constructor; [constructor|intros k x []].
  - apply scalars_tail in H3. destruct H3 as [_ S]. apply scalars_split in S. destruct S as [_ S]. destruct H2 as [K V]. constructor.
    + rewrite K. apply firsts_nodup.
    + intros k x I. apply V in I. destruct I as (l1 & l2 & -> & _). apply (H1 S). apply in_app_iff. right. left. reflexivity.
  - destruct H3 as [<-|[]]. apply scalars_split in H2. apply H0. apply H2.
  - apply scalars_split in H5. destruct H5 as [S1 S]. apply scalars_split in S. destruct S as [_ S]. apply scalars_tail in S. destruct S as [_ S].
    apply scalars_split in S. destruct S as [_ S]. destruct H6 as [<-|I]; auto.
  - destruct H6 as [E|[]]. injection E as <- <-. apply scalars_tail in H5. destruct H5 as [_ S]. apply scalars_split in S. destruct S as [S1 S].
    apply scalars_tail in S. destruct S as [_ S]. apply scalars_split in S. destruct S as [_ S]. apply scalars_tail in S. destruct S as [_ S].
    apply scalars_split in S. destruct S as [_ S]. apply scalars_split in S. destruct S as [S _]. split; [apply (chars_unpaired kt k H S1)|auto].
  - apply scalars_tail in H8. destruct H8 as [_ S]. apply scalars_split in S. destruct S as [S1 S].
    apply scalars_tail in S. destruct S as [_ S]. apply scalars_split in S. destruct S as [_ S]. apply scalars_tail in S. destruct S as [_ S].
    apply scalars_split in S. destruct S as [_ S]. apply scalars_split in S. destruct S as [S2 S]. apply scalars_split in S. destruct S as [_ S].
    apply scalars_tail in S. destruct S as [_ S]. apply scalars_split in S. destruct S as [_ S].
    destruct H9 as [E|I]; [injection E as <- <-; split; [apply (chars_unpaired kt k H S1)|auto]|auto].
Qed.
Lemma clean_writes : forall v, clean v -> jerr v = None /\ LayoutLemmas.reads v v.
Proof.
  assert (forall v, clean v -> jerr v = None) as J.
  { induction v as [|b|z|q|s|l IH|d IH|c d IH] using value_ind'; intro H; inversion H; subst; try reflexivity.
    - cbn [jerr]. destruct (float_repr_exists q) as [t ->]; [assumption|reflexivity].
    - cbn [jerr]. induction IH as [|x l Hx _ IHl]; [reflexivity|]. rewrite Hx by auto with datatypes. apply IHl; [constructor|]; auto with datatypes.
    - cbn [jerr]. match goal with N : NoDup _ |- _ => clear N end. clear H. induction IH as [|[k x] l Hx _ IHl]; [reflexivity|]. cbn [snd] in Hx.
      rewrite Hx by (eapply H2; left; reflexivity). apply IHl. intros a b I. apply H2. right. exact I. }
  intros v C. split; [exact (J v C)|]. induction v as [|b|z|q|s|l IH|d IH|c d IH] using value_ind'; try (inversion C; fail).
  - intros brk sep Hb Hs lev n r Hr Hn. destruct n; [inversion Hn|]. reflexivity.
  - intros brk sep Hb Hs lev n r Hr Hn. destruct n; [destruct b; inversion Hn|]. destruct b; reflexivity.
  - intros brk sep Hb Hs lev n r Hr Hn. assert (1 <= List.length (jtext (VInt z)))%nat by (apply jtext_len; constructor).
    change (jgen brk sep lev (VInt z)) with (jtext (VInt z)) in *. destruct n as [|n]; [lia|]. apply jval_int. apply follow_nodig. assumption.
  - inversion C as [| | |q' B R| | |]; subst. destruct (float_repr_exists q B) as [t E]. intros brk sep Hb Hs lev n r Hr Hn.
    change (jgen brk sep lev (VFlt q)) with (jtext (VFlt q)) in *. rewrite jtext_flt, E in *.
    destruct n as [|n]; [destruct (repr_head q t E) as (c & x & -> & _); inversion Hn|].
    rewrite (jval_flt n q t r E) by (apply follow_nodig; assumption). rewrite <- R. reflexivity.
  - inversion C as [| | | |s' U| |]; subst. intros brk sep Hb Hs lev n r Hr Hn.
    change (jgen brk sep lev (VStr s)) with (jstring s) in *. unfold jstring in *. cbn [List.length] in Hn. destruct n as [|n]; [lia|].
    cbn [app]. rewrite <- app_assoc. cbn [app jval]. change (34 =? 34) with true. cbn iota. rewrite jscan_unpaired by exact U. reflexivity.
  - apply list_reads; [|exact (J _ C)]. inversion C as [| | | | |l' Hl|]; subst. clear C. induction IH as [|x l Hx _ IHl]; [constructor|].
    constructor; [apply Hx, Hl; left; reflexivity|]. apply IHl. intros y I. apply Hl. right. exact I.
  - inversion C as [| | | | | |d' Hn Hd]; subst. rewrite <- (dict_of_nodup d Hn) at 2. apply dict_reads; [|exact (J _ C)]. clear C Hn.
    induction IH as [|[k x] l Hx _ IHl]; [constructor|]. destruct (Hd k x (or_introl eq_refl)) as [U Cx]. cbn [snd] in Hx.
    constructor; [split; [intro r; apply jscan_unpaired; exact U|exact (Hx Cx)]|]. apply IHl. intros a b I. apply Hd. right. exact I.
Qed.
Theorem written_again : forall t v i, scalars t = true -> json_loads t = Ok v -> exists t', json_dumps_indent i v = Ok t' /\ json_loads t' = Ok v.
Proof.
  intros t v i S H. apply json_iff in H. destruct H as (w & t0 & w' & _ & _ & R & ->).
  apply scalars_split in S. destruct S as [_ S]. apply scalars_split in S. destruct S as [S _].
  destruct (clean_writes v (proj1 read_clean _ _ R S)) as [J L]. destruct i as [n|].
  - exists (jlaid (Z.to_nat n) 0 v). cbn [json_dumps_indent]. rewrite J. split; [reflexivity|]. rewrite gen_laid. apply (loads_reads v v); try assumption; intro; apply line_blanks.
  - exists (jtext v). cbn [json_dumps_indent]. unfold json_dumps. rewrite J. split; [reflexivity|]. rewrite (gen_text v 0). apply (loads_reads v v); try assumption; intro; reflexivity.
Qed.
Theorem number_written : forall q, binary64 (Qabs q) -> exists t, json_dumps (VFlt q) = Ok t /\ json_loads t = Ok (VFlt (Qred q)).
Proof.
  intros q B. destruct (float_repr_exists q B) as [t E]. exists t. unfold json_dumps. cbn [jerr]. rewrite jtext_flt, E. split; [reflexivity|].
  destruct (repr_head q t E) as (c & r & -> & C). unfold json_loads. replace (c =? 65279) with false by lia.
  rewrite skipws_id by (unfold jws; lia). pose proof (jval_flt (2 * List.length (c :: r)) q (c :: r) [] E I) as V. rewrite app_nil_r in V. rewrite V. reflexivity.
Qed.
