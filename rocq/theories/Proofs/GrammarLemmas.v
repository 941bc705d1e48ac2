(** The JSON reader accepts the grammar and nothing else. *)
From Coq Require Import List NArith ZArith QArith_base Bool String Lia ZifyBool ZifyN.
From Verif Require Import Base.Ustr Base.UstrLemmas Base.Percent Model.Value Model.Float Model.Json Model.Cls Model.Message Spec.FloatSpec Spec.GrammarSpec Proofs.FloatLemmas Proofs.NumberLemmas Proofs.ValueLemmas Proofs.JsonLemmas.
Import ListNotations.
Open Scope list_scope.
Open Scope N_scope.
Ltac Zify.zify_post_hook ::= idtac.

(** ** small parts *)
Lemma jws_iff : forall c, jws c = true <-> c = 32 \/ c = 9 \/ c = 10 \/ c = 13.
Proof. intro c. unfold jws. lia. Qed.
Lemma skipws_split : forall s, exists w, blank w /\ s = w ++ skipws s /\ match skipws s with c :: _ => jws c = false | [] => True end.
Proof.
  induction s as [|c s (w & B & E & F)]; [exists []; split; [intros x []|split; [reflexivity|exact I]]|]. cbn [skipws]. destruct (jws c) eqn:J.
  - exists (c :: w). split; [intros x [<-|H]; [apply jws_iff; exact J|apply B; exact H]|]. split; [cbn [app]; f_equal; exact E|exact F].
  - exists []. split; [intros x []|]. split; [reflexivity|exact J].
Qed.
Lemma skipws_blank : forall w s, blank w -> skipws (w ++ s) = skipws s.
Proof.
  induction w as [|c w IH]; intros s B; [reflexivity|]. cbn [app skipws]. replace (jws c) with true by (symmetry; apply jws_iff; apply B; left; reflexivity).
  apply IH. intros x H. apply B. right. exact H.
Qed.
Lemma skipws_head : forall w c s, blank w -> jws c = false -> skipws (w ++ c :: s) = c :: s.
Proof. intros w c s B J. rewrite skipws_blank by exact B. cbn [skipws]. rewrite J. reflexivity. Qed.

Lemma hexv_iff : forall c x, hexv c = Some x <-> hex_digit c x.
Proof.
  intros c x. unfold hexv, hex_digit, is_digit. destruct ((48 <=? c) && (c <=? 57)) eqn:A; [|destruct ((65 <=? c) && (c <=? 70)) eqn:B; [|destruct ((97 <=? c) && (c <=? 102)) eqn:C]].
  - split; [intro H; injection H as <-; lia|intro H; f_equal; lia].
  - split; [intro H; injection H as <-; lia|intro H; f_equal; lia].
  - split; [intro H; injection H as <-; lia|intro H; f_equal; lia].
  - split; [discriminate|intro H; exfalso; lia].
Qed.
Lemma hex4_iff : forall a b c d x, hex4 a b c d = Some x <-> hex_text [a; b; c; d] x.
Proof.
  intros a b c d x. unfold hex4. split.
  - destruct (hexv a) as [a'|] eqn:A; [|discriminate]. destruct (hexv b) as [b'|] eqn:B; [|discriminate]. destruct (hexv c) as [c'|] eqn:C; [|discriminate].
    destruct (hexv d) as [d'|] eqn:D; [|discriminate]. intro H. injection H as <-. apply hexv_iff in A, B, C, D. exists a, b, c, d, a', b', c', d'. repeat (split; [first [assumption|reflexivity]|]). lia.
  - intros (a1 & b1 & c1 & d1 & a' & b' & c' & d' & E & A & B & C & D & ->). injection E as <- <- <- <-. apply hexv_iff in A, B, C, D. rewrite A, B, C, D. f_equal. lia.
Qed.
Lemma hex_text_form : forall h x, hex_text h x -> exists a b c d, h = [a; b; c; d] /\ hex4 a b c d = Some x.
Proof. intros h x H. pose proof H as (a & b & c & d & _ & _ & _ & _ & E & _). subst h. exists a, b, c, d. split; [reflexivity|]. apply hex4_iff. exact H. Qed.
Lemma esc_iff : forall e c, simple_esc e = Some c <-> In (e, c) [(34, 34); (92, 92); (47, 47); (98, 8); (102, 12); (110, 10); (114, 13); (116, 9)].
Proof.
  intros e c. unfold simple_esc. cbn [In]. split.
  - repeat match goal with |- context [if ?x =? ?y then _ else _] => destruct (N.eqb_spec x y) as [->|?]; [intro H; injection H as <-; tauto|] end. discriminate.
  - intro H. repeat match type of H with _ \/ _ => destruct H as [H|H]; [injection H as <- <-; reflexivity|] end. destruct H.
Qed.
Lemma esc_no_u : forall e c, simple_esc e = Some c -> (e =? 117) = false.
Proof. intros e c H. destruct (N.eqb_spec e 117) as [->|?]; [discriminate|reflexivity]. Qed.

(** ** strings *)
Lemma jscan_sound : forall n s t r, (List.length s <= n)%nat -> jscan s = Ok (t, r) -> exists w, s = w ++ 34 :: r /\ chars w t.
Proof.
  induction n as [|n IH]; intros s t r L H; [destruct s; [discriminate|cbn in L; lia]|].
  destruct s as [|c s]; [discriminate|]. cbn [List.length] in L. cbn [jscan] in H.
  destruct (N.eqb_spec c 34) as [->|N34]; [injection H as <- <-; exists []; split; [reflexivity|constructor]|].
  destruct (c <=? 31) eqn:N31; [discriminate|].
  destruct (N.eqb_spec c 92) as [->|N92].
  2:{ destruct (jscan s) as [[t' r']|] eqn:E; [|discriminate]. injection H as <- <-. apply IH in E; [|lia]. destruct E as (w & -> & W).
      exists (c :: w). split; [reflexivity|]. constructor; try assumption. lia. }
  destruct s as [|e s]; [discriminate|]. cbn [List.length] in L.
  destruct (e =? 117) eqn:Eu.
  2:{ destruct (simple_esc e) as [ch|] eqn:Es; [|discriminate]. destruct (jscan s) as [[t' r']|] eqn:E; [|discriminate]. injection H as <- <-.
      apply IH in E; [|lia]. destruct E as (w & -> & W). exists (92 :: e :: w). split; [reflexivity|]. apply chars_short; [apply esc_iff; exact Es|exact W]. }
  apply N.eqb_eq in Eu. subst e. destruct s as [|h1 [|h2 [|h3 [|h4 s]]]]; try discriminate. cbn [List.length] in L.
  destruct (hex4 h1 h2 h3 h4) as [x|] eqn:Hx; [|discriminate]. apply hex4_iff in Hx.
  assert (single : ~ (high x /\ low_follows s) -> (match jscan s with Ok (t0, rest) => Ok (x :: t0, rest) | Err y => Err y end) = Ok (t, r) ->
    exists w, 92 :: 117 :: h1 :: h2 :: h3 :: h4 :: s = w ++ 34 :: r /\ chars w t).
  { intros NL G. destruct (jscan s) as [[t' r']|] eqn:E; [|discriminate]. injection G as <- <-. apply IH in E; [|lia]. destruct E as (w & -> & W).
    exists (92 :: 117 :: [h1; h2; h3; h4] ++ w). split; [reflexivity|]. apply chars_unit; [exact Hx| |exact W].
    intros [A (h & y & q & -> & Hy & B)]. apply NL. split; [exact A|]. exists h, y, (q ++ 34 :: r'). split; [|auto]. cbn [app]. rewrite <- app_assoc. reflexivity. }
  cbv zeta in H. destruct ((55296 <=? x) && (x <=? 56319)) eqn:Hi.
  2:{ apply single; [intros [A _]; unfold high in A; lia|exact H]. }
  assert (LF : forall h y q, s = 92 :: 117 :: h ++ q -> hex_text h y -> exists a b c d, h = [a; b; c; d] /\ s = 92 :: 117 :: a :: b :: c :: d :: q /\ hex4 a b c d = Some y).
  { intros h y q -> Hy. destruct (hex_text_form _ _ Hy) as (a & b & c & d & -> & E). exists a, b, c, d. auto. }
  destruct s as [|b1 [|b2 [|g1 [|g2 [|g3 [|g4 s]]]]]];
    try (apply single; [intros [_ (h & y & q & E & Hy & _)]; destruct (LF _ _ _ E Hy) as (? & ? & ? & ? & _ & E' & _); discriminate|exact H]).
  destruct ((b1 =? 92) && (b2 =? 117)) eqn:B.
  2:{ apply single; [|exact H]. intros [_ (h & y & q & E & Hy & _)]. injection E as -> -> _. discriminate. }
  apply andb_true_iff in B. destruct B as [B1 B2]. apply N.eqb_eq in B1, B2. subst b1 b2.
  destruct (hex4 g1 g2 g3 g4) as [y|] eqn:Hy; [|discriminate].
  destruct ((56320 <=? y) && (y <=? 57343)) eqn:Lo.
  2:{ apply single; [|exact H]. intros [_ (h & y' & q & E & Hy' & Ly)]. destruct (LF _ _ _ E Hy') as (? & ? & ? & ? & -> & E' & Q). injection E' as -> -> -> -> ->.
      rewrite Hy in Q. injection Q as <-. unfold low in Ly. lia. }
  apply hex4_iff in Hy. destruct (jscan s) as [[t' r']|] eqn:E; [|discriminate]. cbn [List.length] in L. apply IH in E; [|lia]. destruct E as (w & -> & W).
  assert (T : t = 65536 + (x - 55296) * 1024 + (y - 56320) :: t' /\ r = r') by (injection H as <- <-; auto). destruct T as [-> ->].
  exists (92 :: 117 :: [h1; h2; h3; h4] ++ 92 :: 117 :: [g1; g2; g3; g4] ++ w). split; [reflexivity|]. apply chars_pair; try assumption; [unfold high|unfold low]; lia.
Qed.
Lemma starts_unit : forall t s r g1 g2 g3 g4 q y, chars t s -> t ++ 34 :: r = 92 :: 117 :: g1 :: g2 :: g3 :: g4 :: q -> hex4 g1 g2 g3 g4 = Some y -> low y -> low_follows t.
Proof.
  intros t s r g1 g2 g3 g4 q y H E Hy L. apply hex4_iff in Hy.
  destruct H as [|c t s H1 H2 H3 H|e c t s H1 H|h x t s H1 H2 H|h x h' y' t s H1 H2 H3 H4 H].
  - discriminate.
  - injection E as -> _. congruence.
  - injection E as -> _. apply esc_iff in H1. discriminate.
  - destruct (hex_text_form _ _ H1) as (a & b & c & d & -> & Hx). injection E as -> -> -> -> _. exists [g1; g2; g3; g4], y, t. auto.
  - destruct (hex_text_form _ _ H1) as (a & b & c & d & -> & Hx). injection E as -> -> -> -> _. exists [g1; g2; g3; g4], y, (92 :: 117 :: h' ++ t). auto.
Qed.
Lemma jscan_bad : forall g1 g2 g3 g4 r, hex4 g1 g2 g3 g4 = None -> jscan (92 :: 117 :: g1 :: g2 :: g3 :: g4 :: r) = Err EJSONDecodeError.
Proof. intros g1 g2 g3 g4 r H. cbn [jscan]. change (92 =? 34) with false. change (92 <=? 31) with false. change (92 =? 92) with true. change (117 =? 117) with true. cbv iota. rewrite H. reflexivity. Qed.
Lemma jscan_complete : forall w t, chars w t -> forall r, jscan (w ++ 34 :: r) = Ok (t, r).
Proof.
  intros w t H. induction H as [|c t s H1 H2 H3 H IH|e c t s H1 H IH|h x t s H1 H2 H IH|h x h' y t s H1 H2 H3 H4 H IH]; intro r.
  - reflexivity.
  - cbn [app jscan]. replace (c =? 34) with false by lia. replace (c <=? 31) with false by lia. replace (c =? 92) with false by lia. rewrite IH. reflexivity.
  - apply esc_iff in H1. cbn [app jscan]. change (92 =? 34) with false. change (92 <=? 31) with false. change (92 =? 92) with true. cbv iota.
    rewrite (esc_no_u _ _ H1), H1, IH. reflexivity.
  - destruct (hex_text_form _ _ H1) as (a & b & c & d & -> & Hx). specialize (IH r). pose proof (starts_unit t s r) as Q.
    change ((92 :: 117 :: [a; b; c; d] ++ t) ++ 34 :: r) with (92 :: 117 :: a :: b :: c :: d :: (t ++ 34 :: r)). generalize dependent (t ++ 34 :: r). intros S IH Q.
    cbn [jscan]. change (92 =? 34) with false. change (92 <=? 31) with false. change (92 =? 92) with true.
    change (117 =? 117) with true. cbv iota. rewrite Hx. cbv zeta. rewrite IH.
    destruct ((55296 <=? x) && (x <=? 56319)) eqn:Hi; [|reflexivity].
    destruct S as [|b1 [|b2 [|g1 [|g2 [|g3 [|g4 S]]]]]]; try reflexivity.
    destruct ((b1 =? 92) && (b2 =? 117)) eqn:B; [|reflexivity]. apply andb_true_iff in B. destruct B as [B1 B2]. apply N.eqb_eq in B1, B2. subst b1 b2.
    destruct (hex4 g1 g2 g3 g4) as [y|] eqn:Hy; [|rewrite (jscan_bad _ _ _ _ _ Hy) in IH; discriminate].
    destruct ((56320 <=? y) && (y <=? 57343)) eqn:Lo; [|reflexivity]. exfalso. apply H2. split; [unfold high; lia|].
    apply (Q _ _ _ _ _ y H eq_refl Hy). unfold low. lia.
  - destruct (hex_text_form _ _ H1) as (a & b & c & d & -> & Hx). destruct (hex_text_form _ _ H3) as (a' & b' & c' & d' & -> & Hy).
    change ((92 :: 117 :: [a; b; c; d] ++ 92 :: 117 :: [a'; b'; c'; d'] ++ t) ++ 34 :: r) with (92 :: 117 :: a :: b :: c :: d :: 92 :: 117 :: a' :: b' :: c' :: d' :: (t ++ 34 :: r)).
    cbn [jscan]. change (92 =? 34) with false. change (92 <=? 31) with false. change (92 =? 92) with true. change (117 =? 117) with true. cbv iota.
    rewrite Hx, Hy. cbv zeta. cbn [andb]. unfold high in H2. unfold low in H4. replace ((55296 <=? x) && (x <=? 56319)) with true by lia.
    replace ((56320 <=? y) && (y <=? 57343)) with true by lia. rewrite IH. reflexivity.
Qed.

Definition ends (r : ustr) : Prop := match r with [] => True | c :: _ => jws c = true \/ c = 44 \/ c = 93 \/ c = 125 end.
Lemma ends_nodig : forall r, ends r -> nodig r.
Proof. intros [|c r] H; [exact I|]. cbn in *. rewrite jws_iff in H. unfold is_digit. repeat split; lia. Qed.

(** ** objects *)
Lemma firsts_in : forall l k, In k (firsts l) <-> In k l.
Proof.
  induction l as [|x l IH]; intro k; [reflexivity|]. cbn [firsts In]. rewrite filter_In, IH. destruct (ueqb k x) eqn:E; cbn [negb].
  - apply ueqb_eq in E. subst. split; [intros [H|[_ H]]; [auto|discriminate]|auto].
  - split; [intros [H|[H _]]; auto|intros [H|H]; auto].
Qed.
Lemma filter_app : forall A (f : A -> bool) l r, filter f (l ++ r) = filter f l ++ filter f r.
Proof. intros A f l r. induction l as [|x l IH]; [reflexivity|]. cbn [app filter]. destruct (f x); [cbn [app]; f_equal|]; exact IH. Qed.
Lemma firsts_snoc : forall l k, firsts (l ++ [k]) = firsts l ++ (if umem k l then [] else [k]).
Proof.
  induction l as [|x l IH]; intro k; [reflexivity|]. cbn [app firsts]. rewrite IH, filter_app. cbn [app]. f_equal. f_equal.
  change (umem k (x :: l)) with (ueqb k x || umem k l). destruct (umem k l); [rewrite orb_true_r; reflexivity|]. rewrite orb_false_r. cbn [filter].
  destruct (ueqb k x); reflexivity.
Qed.
Lemma firsts_nodup : forall l, NoDup (firsts l).
Proof.
  induction l as [|x l IH]; [constructor|]. cbn [firsts]. constructor; [|apply NoDup_filter; exact IH].
  rewrite filter_In. intros [_ H]. rewrite ueqb_refl in H. discriminate.
Qed.
Lemma dict_of_snoc : forall (l : list (ustr * value)) k v, dict_of (l ++ [(k, v)]) = dset (dict_of l) k v.
Proof. intros l k v. unfold dict_of, dupdate. rewrite fold_left_app. reflexivity. Qed.
Lemma dset_keys : forall (d : dict value) k v, map fst (dset d k v) = map fst d ++ (if umem k (map fst d) then [] else [k]).
Proof.
  induction d as [|[k0 v0] d IH]; intros k v; [reflexivity|]. cbn [dset map fst]. change (umem k (k0 :: map fst d)) with (ueqb k k0 || umem k (map fst d)).
  destruct (ueqb k k0) eqn:E; cbn [map fst orb].
  - rewrite app_nil_r. reflexivity.
  - cbn [app]. f_equal. apply IH.
Qed.
Lemma dict_of_keys : forall l : list (ustr * value), map fst (dict_of l) = firsts (map fst l).
Proof.
  induction l as [|[k v] l IH] using rev_ind; [reflexivity|]. rewrite dict_of_snoc, dset_keys, map_app. cbn [map fst]. rewrite firsts_snoc, IH. f_equal.
  replace (umem k (firsts (map fst l))) with (umem k (map fst l)); [reflexivity|].
  destruct (umem k (map fst l)) eqn:A, (umem k (firsts (map fst l))) eqn:B; try reflexivity; exfalso.
  - apply umem_In in A. apply umem_not_In in B. apply B. apply firsts_in. exact A.
  - apply umem_not_In in A. apply umem_In in B. apply A. apply firsts_in. exact B.
Qed.
Lemma dict_of_nodup_keys : forall l : list (ustr * value), NoDup (map fst (dict_of l)).
Proof. intro l. rewrite dict_of_keys. apply firsts_nodup. Qed.
Lemma snoc_inj : forall A (l1 l2 : list A) x y, l1 ++ [x] = l2 ++ [y] -> l1 = l2 /\ x = y.
Proof. intros A l1 l2 x y H. apply app_inj_tail. exact H. Qed.
Lemma dict_of_last : forall (l : list (ustr * value)) k v, In (k, v) (dict_of l) <-> exists l1 l2, l = l1 ++ (k, v) :: l2 /\ ~ In k (map fst l2).
Proof.
  intros l k v.
  assert (G : dget (dict_of l) k = Some v <-> exists l1 l2, l = l1 ++ (k, v) :: l2 /\ ~ In k (map fst l2)).
  { revert k v. induction l as [|[k0 v0] l IH] using rev_ind; intros k v.
    - split; [discriminate|]. intros ([|? ?] & l2 & E & _); discriminate.
    - rewrite dict_of_snoc, dget_dset. destruct (ueqb k k0) eqn:E.
      + apply ueqb_eq in E. subst k0. split.
        * intro H. injection H as ->. exists l, []. auto.
        * intros (l1 & l2 & E & N). destruct l2 as [|x l2 _] using rev_ind.
          -- apply app_inj_tail in E. destruct E as [_ E]. injection E as ->. reflexivity.
          -- exfalso. rewrite app_comm_cons, app_assoc in E. apply app_inj_tail in E. destruct E as [_ <-]. apply N. rewrite map_app. apply in_or_app. right. left. reflexivity.
      + rewrite IH. split.
        * intros (l1 & l2 & -> & N). exists l1, (l2 ++ [(k0, v0)]). split; [rewrite <- app_assoc; reflexivity|]. rewrite map_app, in_app_iff. intros [H|[H|[]]]; [auto|]. cbn in H. subst k0. rewrite ueqb_refl in E. discriminate.
        * intros (l1 & l2 & E' & N). destruct l2 as [|x l2 _] using rev_ind.
          -- apply app_inj_tail in E'. destruct E' as [_ E']. injection E' as -> ->. rewrite ueqb_refl in E. discriminate.
          -- rewrite app_comm_cons, app_assoc in E'. apply app_inj_tail in E'. destruct E' as [-> _]. exists l1, l2. split; [reflexivity|]. intro H. apply N. rewrite map_app. apply in_or_app. left. exact H. }
  rewrite <- G. split; [apply In_dget; apply dict_of_nodup_keys|apply dget_In].
Qed.
Lemma same_dict : forall d e : dict value, map fst d = map fst e -> NoDup (map fst d) -> (forall k v, In (k, v) d -> In (k, v) e) -> d = e.
Proof.
  induction d as [|[k v] d IH]; intros [|[k' v'] e] E N H; try discriminate; [reflexivity|]. cbn [map fst] in E, N. injection E as <- E. inversion N as [|? ? N1 N2]; subst.
  assert (v = v'); [|subst v'].
  { destruct (H k v (or_introl eq_refl)) as [X|X]; [congruence|]. exfalso. apply N1. rewrite E. exact (in_map fst _ _ X). }
  f_equal. apply IH; try assumption. intros a b I. destruct (H a b (or_intror I)) as [X|X]; [|exact X]. exfalso. injection X as <- <-. apply N1. exact (in_map fst _ _ I).
Qed.
Lemma object_iff : forall l d, object_of l d <-> d = dict_of l.
Proof.
  intros l d. split.
  - intros [K V]. apply same_dict; [rewrite K, dict_of_keys; reflexivity|rewrite K; apply firsts_nodup|]. intros k v I. apply dict_of_last. apply V. exact I.
  - intros ->. split; [apply dict_of_keys|apply dict_of_last].
Qed.

(** ** the reader accepts nothing else *)
Definition sound (n : nat) : Prop :=
  (forall s v r, jval n s = Ok (v, r) -> exists t, s = t ++ r /\ reads t v) /\
  (forall s l r, jarr n s = Ok (l, r) -> exists t, s = t ++ r /\ elements t l) /\
  (forall s l r, jobj n s = Ok (l, r) -> exists t, s = t ++ r /\ members t l).
Lemma word_split : forall p s, startswith p s = true -> s = p ++ skipn (List.length p) s.
Proof. intros p s H. apply startswith_iff in H. destruct H as [r ->]. rewrite skipn_app, Nat.sub_diag, skipn_all. reflexivity. Qed.
Ltac shape := repeat (rewrite <- ?app_assoc; cbn [app]); try reflexivity.
Lemma all_sound : forall n, sound n.
Proof.
  induction n as [|n (IV & IA & IO)]; [repeat split; intros; discriminate|]. split; [|split].
  - intros s v r H. destruct s as [|c s]; [discriminate|]. cbn [jval] in H.
    destruct (N.eqb_spec c 34) as [->|_].
    { destruct (jscan s) as [[t r']|] eqn:E; [|discriminate]. injection H as <- <-. apply (jscan_sound (List.length s)) in E; [|lia]. destruct E as (w & -> & W).
      exists (34 :: w ++ [34]). split; [shape|]. apply reads_str. exact W. }
    destruct (N.eqb_spec c 123) as [->|_].
    { destruct (skipws_split s) as (w & B & E & _). destruct (skipws s) as [|c1 r1]; [discriminate|]. destruct (N.eqb_spec c1 125) as [->|_].
      - injection H as <- <-. exists (123 :: w ++ [125]). split; [rewrite E; shape|]. apply reads_obj0. exact B.
      - destruct (jobj n (c1 :: r1)) as [[l r']|] eqn:O; [|discriminate]. injection H as <- <-. apply IO in O. destruct O as (t & Et & M). rewrite Et in E.
        exists (123 :: w ++ t). split; [rewrite E; shape|]. apply (reads_obj w t l); [exact B|exact M|]. apply object_iff. reflexivity. }
    destruct (N.eqb_spec c 91) as [->|_].
    { destruct (skipws_split s) as (w & B & E & _). destruct (skipws s) as [|c1 r1]; [discriminate|]. destruct (N.eqb_spec c1 93) as [->|_].
      - injection H as <- <-. exists (91 :: w ++ [93]). split; [rewrite E; shape|]. apply reads_list0. exact B.
      - destruct (jarr n (c1 :: r1)) as [[l r']|] eqn:O; [|discriminate]. injection H as <- <-. apply IA in O. destruct O as (t & Et & M). rewrite Et in E.
        exists (91 :: w ++ t). split; [rewrite E; shape|]. apply reads_list; assumption. }
    destruct (startswith (u "null") (c :: s)) eqn:E1.
    { apply word_split in E1. injection H as <- <-. exists (u "null"). split; [exact E1|constructor]. }
    destruct (startswith (u "true") (c :: s)) eqn:E2.
    { apply word_split in E2. injection H as <- <-. exists (u "true"). split; [exact E2|constructor]. }
    destruct (startswith (u "false") (c :: s)) eqn:E3.
    { apply word_split in E3. injection H as <- <-. exists (u "false"). split; [exact E3|constructor]. }
    destruct (_ || _) in H; [discriminate|].
    destruct (N.eqb_spec c 45) as [->|_]; apply jnum_sound in H; destruct H as (t & E & [(m & N & ->)|(m & k & q & N & Q & ->)]).
    + exists (45 :: t). split; [rewrite E; reflexivity|]. apply reads_neg. exact N.
    + exists (45 :: t). split; [rewrite E; reflexivity|]. exact (reads_negflt t m k q N Q).
    + exists t. split; [exact E|]. apply reads_nat. exact N.
    + exists t. split; [exact E|]. exact (reads_flt t m k q N Q).
  - intros s l r H. cbn [jarr] in H. destruct (jval n s) as [[x rest]|] eqn:E; [|discriminate]. apply IV in E. destruct E as (t & -> & R).
    destruct (skipws_split rest) as (w & B & Er & _). destruct (skipws rest) as [|c r1]; [discriminate|]. destruct (N.eqb_spec c 93) as [->|_].
    + injection H as <- <-. exists (t ++ w ++ [93]). split; [rewrite Er; shape|]. apply elements_last; assumption.
    + destruct (N.eqb_spec c 44) as [->|_]; [|discriminate]. destruct (jarr n (skipws r1)) as [[l' r']|] eqn:E2; [|discriminate]. injection H as <- <-.
      apply IA in E2. destruct E2 as (t' & Et & R'). destruct (skipws_split r1) as (w' & B' & Er1 & _). rewrite Et in Er1.
      exists (t ++ w ++ 44 :: w' ++ t'). split; [rewrite Er, Er1; shape|]. apply elements_more; assumption.
  - intros s l r H. cbn [jobj] in H. destruct s as [|q s]; [discriminate|]. destruct (N.eqb_spec q 34) as [->|_]; [|discriminate].
    destruct (jscan s) as [[k r1]|] eqn:E; [|discriminate]. apply (jscan_sound (List.length s)) in E; [|lia]. destruct E as (kt & -> & K).
    destruct (skipws_split r1) as (w & B & E1 & _). destruct (skipws r1) as [|c r2]; [discriminate|]. destruct (N.eqb_spec c 58) as [->|_]; [|discriminate].
    destruct (jval n (skipws r2)) as [[x rest]|] eqn:Ev; [|discriminate]. apply IV in Ev. destruct Ev as (t & Et & R).
    destruct (skipws_split r2) as (w' & B' & E2 & _). rewrite Et in E2. clear Et.
    destruct (skipws_split rest) as (w2 & B2 & E3 & _). destruct (skipws rest) as [|c2 r3]; [discriminate|]. destruct (N.eqb_spec c2 125) as [->|_].
    + injection H as <- <-. exists (34 :: kt ++ 34 :: w ++ 58 :: w' ++ t ++ w2 ++ [125]). split; [rewrite E1, E2, E3; shape|]. apply members_last; assumption.
    + destruct (N.eqb_spec c2 44) as [->|_]; [|discriminate]. destruct (jobj n (skipws r3)) as [[l' r']|] eqn:Eo; [|discriminate]. injection H as <- <-.
      apply IO in Eo. destruct Eo as (t' & Et' & R'). destruct (skipws_split r3) as (w3 & B3 & E4 & _). rewrite Et' in E4.
      exists (34 :: kt ++ 34 :: w ++ 58 :: w' ++ t ++ w2 ++ 44 :: w3 ++ t'). split; [rewrite E1, E2, E3, E4; shape|]. apply members_more; assumption.
Qed.

(** ** and all of the grammar *)
Scheme reads_mind := Minimality for reads Sort Prop with elements_mind := Minimality for elements Sort Prop with members_mind := Minimality for members Sort Prop.
Combined Scheme text_ind from reads_mind, elements_mind, members_mind.
Definition head_ok (t : ustr) : Prop := exists c r, t = c :: r /\ jws c = false /\ c <> 93 /\ c <> 125 /\ c <> 65279.
Lemma head_app : forall t r, head_ok t -> head_ok (t ++ r).
Proof. intros t r (c & q & -> & H). exists c, (q ++ r). split; [reflexivity|exact H]. Qed.
Lemma reads_head : forall t v, reads t v -> head_ok t.
Proof.
  intros t v H. assert (D : forall c r, 48 <= c <= 57 -> head_ok (c :: r)).
  { intros c r Hc. exists c, r. split; [reflexivity|]. split; [unfold jws; lia|lia]. }
  destruct H; try (do 2 eexists; split; [reflexivity|]; split; [reflexivity|]; repeat split; discriminate).
  - destruct (natural_head _ _ H) as (c & r & -> & Hc). apply D. exact Hc.
  - destruct (scientific_head _ _ _ H) as (c & r & -> & Hc). apply D. exact Hc.
Qed.
Lemma elements_head : forall t l, elements t l -> head_ok t.
Proof. intros t l H. destruct H; apply head_app; eapply reads_head; eassumption. Qed.
Lemma skip_head : forall w t, blank w -> head_ok t -> skipws (w ++ t) = t.
Proof. intros w t B (c & r & -> & J & _). apply skipws_head; assumption. Qed.
Lemma ends_blank : forall w c r, blank w -> c = 44 \/ c = 93 \/ c = 125 -> ends (w ++ c :: r).
Proof. intros [|x w] c r B H; [right; exact H|]. cbn. left. apply jws_iff. apply B. left. reflexivity. Qed.
Lemma complete :
  (forall t v, reads t v -> forall n r, ends r -> (List.length t <= n)%nat -> jval n (t ++ r) = Ok (v, r)) /\
  (forall t l, elements t l -> forall n r, (List.length t <= n)%nat -> jarr n (t ++ r) = Ok (l, r)) /\
  (forall t l, members t l -> forall n r, (List.length t <= n)%nat -> jobj n (t ++ r) = Ok (l, r)).
Proof.
  apply text_ind.
  - intros [|n] r E L; [inversion L|]. reflexivity.
  - intros [|n] r E L; [inversion L|]. reflexivity.
  - intros [|n] r E L; [inversion L|]. reflexivity.
  - intros t n H m r E L. pose proof (jnum_complete false t n r H (ends_nodig _ E)) as G. destruct (natural_head _ _ H) as (c & q & -> & Hc).
    destruct m as [|m]; [cbn in L; lia|]. cbn [app] in *. rewrite jval_digit by exact Hc. exact G.
  - intros t n H m r E L. pose proof (jnum_complete true t n r H (ends_nodig _ E)) as G. destruct (natural_head _ _ H) as (c & q & -> & Hc).
    destruct m as [|m]; [cbn in L; lia|]. cbn [app] in *. rewrite jval_minus by exact Hc. exact G.
  - intros t n k q H Q m r E L. pose proof (jnum_flt false t n k q r H Q (ends_nodig _ E)) as G. destruct (scientific_head _ _ _ H) as (c & p & -> & Hc).
    destruct m as [|m]; [cbn in L; lia|]. cbn [app] in *. rewrite jval_digit by exact Hc. exact G.
  - intros t n k q H Q m r E L. pose proof (jnum_flt true t n k q r H Q (ends_nodig _ E)) as G. destruct (scientific_head _ _ _ H) as (c & p & -> & Hc).
    destruct m as [|m]; [cbn in L; lia|]. cbn [app] in *. rewrite jval_minus by exact Hc. exact G.
  - intros t s H [|n] r E L; [cbn in L; lia|]. replace ((34 :: t ++ [34]) ++ r) with (34 :: t ++ 34 :: r) by shape. cbn [jval]. change (34 =? 34) with true. cbv iota.
    rewrite (jscan_complete _ _ H). reflexivity.
  - intros w B [|n] r E L; [cbn in L; lia|]. replace ((91 :: w ++ [93]) ++ r) with (91 :: w ++ 93 :: r) by shape. cbn [jval]. change (91 =? 34) with false. change (91 =? 123) with false. change (91 =? 91) with true. cbv iota.
    rewrite skipws_head by (assumption || reflexivity). reflexivity.
  - intros w t l B M IH [|n] r E L; [cbn in L; lia|]. replace ((91 :: w ++ t) ++ r) with (91 :: w ++ t ++ r) by shape. cbn [List.length] in L. rewrite app_length in L.
    cbn [jval]. change (91 =? 34) with false. change (91 =? 123) with false. change (91 =? 91) with true. cbv iota.
    rewrite (skip_head w (t ++ r) B (head_app _ r (elements_head _ _ M))). specialize (IH n r ltac:(lia)). destruct (elements_head _ _ M) as (c & q & -> & _ & H93 & _).
    cbn [app] in *. replace (c =? 93) with false by lia. rewrite IH. reflexivity.
  - intros w B [|n] r E L; [cbn in L; lia|]. replace ((123 :: w ++ [125]) ++ r) with (123 :: w ++ 125 :: r) by shape. cbn [jval]. change (123 =? 34) with false. change (123 =? 123) with true. cbv iota.
    rewrite skipws_head by (assumption || reflexivity). reflexivity.
  - intros w t l d B M IH O [|n] r E L; [cbn in L; lia|]. replace ((123 :: w ++ t) ++ r) with (123 :: w ++ t ++ r) by shape. cbn [List.length] in L. rewrite app_length in L.
    apply object_iff in O. subst d. cbn [jval]. change (123 =? 34) with false. change (123 =? 123) with true. cbv iota. specialize (IH n r ltac:(lia)).
    assert (Q : exists q, t = 34 :: q) by (destruct M; eexists; reflexivity). destruct Q as [q ->]. cbn [app] in *.
    rewrite skipws_head by (assumption || reflexivity). change (34 =? 125) with false. cbv iota. rewrite IH. reflexivity.
  - intros t v w R IH B [|n] r L; [rewrite !app_length in L; cbn in L; lia|]. rewrite !app_length in L. cbn [List.length] in L.
    replace ((t ++ w ++ [93]) ++ r) with (t ++ w ++ 93 :: r) by shape. cbn [jarr]. rewrite IH; [|apply ends_blank; auto|lia].
    rewrite skipws_head by (assumption || reflexivity). reflexivity.
  - intros t v w w' t' l R IH B B' M IH' [|n] r L; [rewrite !app_length in L; cbn in L; lia|]. rewrite !app_length in L. cbn [List.length] in L. rewrite !app_length in L.
    replace ((t ++ w ++ 44 :: w' ++ t') ++ r) with (t ++ w ++ 44 :: w' ++ t' ++ r) by shape. cbn [jarr]. rewrite IH; [|apply ends_blank; auto|lia].
    rewrite skipws_head by (assumption || reflexivity). change (44 =? 93) with false. change (44 =? 44) with true. cbv iota.
    rewrite (skip_head w' (t' ++ r) B' (head_app _ r (elements_head _ _ M))), IH' by lia. reflexivity.
  - intros kt k w w' t v w2 K B B' R IH B2 [|n] r L; [cbn in L; lia|]. cbn [List.length] in L. rewrite !app_length in L. cbn [List.length] in L. rewrite !app_length in L. cbn [List.length] in L. rewrite !app_length in L.
    replace ((34 :: kt ++ 34 :: w ++ 58 :: w' ++ t ++ w2 ++ [125]) ++ r) with (34 :: kt ++ 34 :: w ++ 58 :: w' ++ t ++ w2 ++ 125 :: r) by shape.
    cbn [jobj]. change (34 =? 34) with true. cbv iota. rewrite (jscan_complete _ _ K). rewrite skipws_head by (assumption || reflexivity). change (58 =? 58) with true. cbv iota.
    rewrite (skip_head w' (t ++ w2 ++ 125 :: r) B' (head_app _ _ (reads_head _ _ R))). rewrite IH; [|apply ends_blank; auto|lia].
    rewrite skipws_head by (assumption || reflexivity). reflexivity.
  - intros kt k w w' t v w2 w3 t' l K B B' R IH B2 B3 M IH' [|n] r L; [cbn in L; lia|]. cbn [List.length] in L. rewrite !app_length in L. cbn [List.length] in L. rewrite !app_length in L. cbn [List.length] in L. rewrite !app_length in L. cbn [List.length] in L. rewrite !app_length in L.
    replace ((34 :: kt ++ 34 :: w ++ 58 :: w' ++ t ++ w2 ++ 44 :: w3 ++ t') ++ r) with (34 :: kt ++ 34 :: w ++ 58 :: w' ++ t ++ w2 ++ 44 :: w3 ++ t' ++ r) by shape.
    cbn [jobj]. change (34 =? 34) with true. cbv iota. rewrite (jscan_complete _ _ K). rewrite skipws_head by (assumption || reflexivity). change (58 =? 58) with true. cbv iota.
    rewrite (skip_head w' (t ++ w2 ++ 44 :: w3 ++ t' ++ r) B' (head_app _ _ (reads_head _ _ R))). rewrite IH; [|apply ends_blank; auto|lia].
    rewrite skipws_head by (assumption || reflexivity). change (44 =? 125) with false. change (44 =? 44) with true. cbv iota.
    assert (Q : exists q, t' = 34 :: q) by (destruct M; eexists; reflexivity). destruct Q as [q ->]. cbn [app]. rewrite skipws_head by (assumption || reflexivity).
    cbn [app] in IH'. rewrite (IH' n r) by (cbn [List.length] in *; lia). reflexivity.
Qed.

Lemma json_iff : forall t v, json_loads t = Ok v <-> json_text t v.
Proof.
  intros t v. split.
  - intro H. unfold json_loads in H. destruct t as [|c t]; [discriminate|]. destruct (c =? 65279); [discriminate|].
    set (s := c :: t) in *. destruct (skipws_split s) as (w & B & E & _). destruct (jval (S (2 * List.length s)) (skipws s)) as [[v' rest]|] eqn:J; [|discriminate].
    apply (proj1 (all_sound _)) in J. destruct J as (t' & Et & R). destruct (skipws_split rest) as (w' & B' & Er & _).
    destruct (skipws rest); [|discriminate]. injection H as <-. exists w, t', w'. split; [exact B|]. split; [exact B'|]. split; [exact R|]. rewrite E, Et, Er. rewrite app_nil_r. reflexivity.
  - intros (w & t' & w' & B & B' & R & ->). unfold json_loads. destruct (reads_head _ _ R) as (c & q & E & J & _ & _ & N).
    destruct (w ++ t' ++ w') as [|x s] eqn:F.
    { rewrite E in F. destruct w; discriminate. }
    assert (X : (x =? 65279) = false).
    { destruct w as [|y w]; [rewrite E in F; injection F as -> _; lia|]. injection F as -> _. pose proof (B x (or_introl eq_refl)). lia. }
    rewrite X, <- F. rewrite skip_head; [|exact B|apply head_app; exact (reads_head _ _ R)].
    assert (En : ends w'). { destruct w' as [|y w']; [exact I|]. cbn. left. apply jws_iff. apply B'. left. reflexivity. }
    rewrite (proj1 complete t' v R _ w' En) by (rewrite !app_length; lia).
    rewrite <- (app_nil_r w'), skipws_blank by exact B'. reflexivity.
Qed.
Lemma one_meaning : forall t v w, json_text t v -> json_text t w -> v = w.
Proof. intros t v w A B. apply json_iff in A. apply json_iff in B. rewrite A in B. injection B as <-. reflexivity. Qed.
Lemma not_json : forall c d t, (forall v, ~ json_text t v) -> fst (from_json c d t) = d /\ exists e, snd (from_json c d t) = Err e.
Proof.
  intros c d t H. unfold from_json, from_json_gen. destruct (json_loads t) as [v|e] eqn:E; [exfalso; apply (H v); apply json_iff; exact E|]. split; [reflexivity|exists e; reflexivity].
Qed.
Lemma same_meaning : forall c d t t' v, json_text t v -> json_text t' v -> from_json c d t = from_json c d t'.
Proof. intros c d t t' v A B. apply json_iff in A. apply json_iff in B. unfold from_json, from_json_gen. rewrite A, B. reflexivity. Qed.

(** ** numbers with fraction or exponent *)
Lemma loads_scientific : forall t n k, scientific t n k -> json_loads t = match float_of n k with Some q => Ok (VFlt q) | None => Err OutOfModel end.
Proof.
  intros t n k S. pose proof (jnum_scientific false t n k [] S I) as J. rewrite app_nil_r in J. destruct (scientific_head _ _ _ S) as (c & r & -> & Hc).
  unfold json_loads. replace (c =? 65279) with false by lia. cbn [skipws]. replace (jws c) with false by (unfold jws; lia). rewrite jval_digit by exact Hc. rewrite J.
  destruct (float_of n k); reflexivity.
Qed.
Lemma number_nearest : forall n k q, (0 <= n)%Z -> read_as n k q -> binary64 q /\ forall q', binary64 q' -> (Qabs.Qabs (inject_Z n * 10 ^ k - q) <= Qabs.Qabs (inject_Z n * 10 ^ k - q'))%Q.
Proof.
  intros n k q Hn H. split; [|exact (rounds_nearest _ _ H)]. apply (rounds_binary (inject_Z n * 10 ^ k)); [|exact H]. apply Qmult_le_0_compat; [change (inject_Z 0 <= inject_Z n)%Q; rewrite <- Zle_Qle; exact Hn|].
  apply Qpower.Qpower_0_le. discriminate.
Qed.
Lemma number_limit : forall t n k, scientific t n k -> ((exists v, json_loads t = Ok v) <-> (inject_Z n * 10 ^ k < 2 ^ 1024 - 2 ^ 970)%Q).
Proof.
  intros t n k S. pose proof (scientific_pos _ _ _ S) as Hn. rewrite (loads_scientific t n k S). rewrite <- rounds_limit.
  - split; [intros [v H]; destruct (float_of n k) as [q|] eqn:E; [|discriminate]; exists q; apply float_iff; assumption|].
    intros [q H]. apply float_iff in H; [|exact Hn]. rewrite H. eexists; reflexivity.
  - apply Qmult_le_0_compat; [change (inject_Z 0 <= inject_Z n)%Q; rewrite <- Zle_Qle; exact Hn|]. apply Qpower.Qpower_0_le. discriminate.
Qed.
Lemma number_exact : forall t n k, scientific t n k -> binary64 (inject_Z n * 10 ^ k) -> json_loads t = Ok (VFlt (Qreduction.Qred (inject_Z n * 10 ^ k))).
Proof.
  intros t n k S B. rewrite (loads_scientific t n k S). apply rounds_self in B. apply float_iff in B; [|exact (scientific_pos _ _ _ S)]. rewrite B. reflexivity.
Qed.
