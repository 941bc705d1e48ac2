(** For C168 and C169: the layout of a JSON text does not matter to its reader. *)
From Coq Require Import List NArith ZArith Bool String Lia ZifyBool ZifyN.
From Verif Require Import Base.Ustr Base.UstrLemmas Base.Percent Model.Cls Model.Value Model.Float Model.Json Model.Pspec Model.Message
  Model.Sql Model.Layout Spec.JsonSpec Spec.LayoutSpec Proofs.ValueLemmas Proofs.JsonLemmas.
Import ListNotations.
Open Scope list_scope.
Open Scope N_scope.
Ltac Zify.zify_post_hook ::= Z.div_mod_to_equations.

(** ** strings: what is read does not depend on the rest *)

(** no escape of a low surrogate at the start *)
Definition quiet (s : ustr) : Prop :=
  match s with
  | b1 :: b2 :: g1 :: g2 :: g3 :: g4 :: _ => ((b1 =? 92) && (b2 =? 117)) = false \/
      exists w, hex4 g1 g2 g3 g4 = Some w /\ ((56320 <=? w) && (w <=? 57343)) = false
  | _ => True
  end.

Lemma quiet_simple : forall a b w, b <> 117 -> quiet (a :: b :: w).
Proof.
  intros a b w H. apply N.eqb_neq in H. destruct w as [|g1 [|g2 [|g3 [|g4 w]]]]; cbn [quiet]; auto.
  left. rewrite H. apply andb_false_r.
Qed.

Lemma quiet_plain : forall a w, a <> 92 -> quiet (a :: w).
Proof.
  intros a w H. apply N.eqb_neq in H. destruct w as [|b [|g1 [|g2 [|g3 [|g4 w]]]]]; cbn [quiet]; auto.
  left. rewrite H. reflexivity.
Qed.

Lemma quiet_hex : forall c w, c < 65536 -> ((56320 <=? c) && (c <=? 57343)) = false -> quiet (jhex4 c ++ w).
Proof.
  intros c w H Hl. unfold jhex4. assert (E := hex4_hexl c H).
  set (a := hexl (c / 4096 mod 16)) in *. set (b := hexl (c / 256 mod 16)) in *.
  set (d := hexl (c / 16 mod 16)) in *. set (e := hexl (c mod 16)) in *. clearbody a b d e.
  cbn [app quiet]. right. exists c. split; assumption.
Qed.

Lemma quiet_char : forall c w, c < 1114112 -> ~ (56320 <= c <= 57343) -> quiet (jchar c ++ w).
Proof.
  intros c w H Hl. unfold jchar.
  destruct (c =? 34); [apply quiet_simple; discriminate|].
  destruct (c =? 92) eqn:E2; [apply quiet_simple; discriminate|].
  destruct (c =? 10); [apply quiet_simple; discriminate|].
  destruct (c =? 13); [apply quiet_simple; discriminate|].
  destruct (c =? 9); [apply quiet_simple; discriminate|].
  destruct (c =? 12); [apply quiet_simple; discriminate|].
  destruct (c =? 8); [apply quiet_simple; discriminate|].
  destruct ((32 <=? c) && (c <=? 126)); [apply quiet_plain; apply N.eqb_neq; assumption|].
  destruct (c <? 65536) eqn:E9.
  - apply quiet_hex; lia.
  - rewrite <- app_assoc. apply quiet_hex; lia.
Qed.

Lemma jscan_lone : forall hi s, 55296 <= hi <= 56319 -> quiet s -> jscan (jhex4 hi ++ s) = jcons hi (jscan s).
Proof.
  intros hi s Hh Hs. assert (E := hex4_hexl hi ltac:(lia)).
  assert (H1 : ((55296 <=? hi) && (hi <=? 56319)) = true) by lia. unfold jhex4.
  set (a := hexl (hi / 4096 mod 16)) in *. set (b := hexl (hi / 256 mod 16)) in *.
  set (d := hexl (hi / 16 mod 16)) in *. set (e := hexl (hi mod 16)) in *. clearbody a b d e.
  change ([92; 117; a; b; d; e] ++ s) with (92 :: 117 :: a :: b :: d :: e :: s).
  assert (G : forall x, jscan (92 :: 117 :: a :: b :: d :: e :: x) =
    let single := jcons hi (jscan x) in
    match x with
    | b1 :: b2 :: g1 :: g2 :: g3 :: g4 :: r11 =>
        if (b1 =? 92) && (b2 =? 117) then
          match hex4 g1 g2 g3 g4 with
          | None => Err EJSONDecodeError
          | Some uni2 => if (56320 <=? uni2) && (uni2 <=? 57343) then
              jcons (65536 + (hi - 55296) * 1024 + (uni2 - 56320)) (jscan r11) else single
          end
        else single
    | _ => single
    end).
  { intro x. cbn [jscan N.eqb N.leb N.compare Pos.eqb Pos.compare Pos.compare_cont]. rewrite E, H1. reflexivity. }
  rewrite G. cbv zeta. clear G. generalize (jcons hi (jscan s)). intro w.
  destruct s as [|b1 [|b2 [|g1 [|g2 [|g3 [|g4 s]]]]]]; try reflexivity. cbn [quiet] in Hs.
  destruct Hs as [Hs|[x [Hx Hy]]]; [rewrite Hs; reflexivity|].
  destruct ((b1 =? 92) && (b2 =? 117)); [|reflexivity]. rewrite Hx, Hy. reflexivity.
Qed.

Lemma jchar_surrogate : forall c, 55296 <= c <= 57343 -> jchar c = jhex4 c.
Proof.
  intros c H. unfold jchar.
  replace (c =? 34) with false by lia. replace (c =? 92) with false by lia. replace (c =? 10) with false by lia.
  replace (c =? 13) with false by lia. replace (c =? 9) with false by lia. replace (c =? 12) with false by lia.
  replace (c =? 8) with false by lia. replace ((32 <=? c) && (c <=? 126)) with false by lia.
  replace (c <? 65536) with true by lia. reflexivity.
Qed.

Lemma jscan_any : forall n s, (List.length s <= n)%nat -> code_points s ->
  exists s', forall r, jscan (flat_map jchar s ++ 34 :: r) = Ok (s', r).
Proof.
  induction n as [|n IH]; intros s Hn Hc.
  - destruct s; [|simpl in Hn; lia]. exists []. reflexivity.
  - destruct s as [|c s]; [exists []; reflexivity|]. cbn [List.length] in Hn.
    assert (Hh : c < 1114112) by (apply Hc; left; reflexivity).
    assert (Ht : code_points s) by (intros x Hx; apply Hc; right; assumption).
    destruct (IH s ltac:(lia) Ht) as [s1 H1].
    destruct (scalar c) eqn:Es.
    + exists (c :: s1). intro r. cbn [flat_map]. rewrite <- app_assoc, jscan_jchar by assumption. rewrite H1. reflexivity.
    + assert (Hs : 55296 <= c <= 57343) by (unfold scalar in Es; lia).
      destruct (56320 <=? c) eqn:Elow.
      * exists (c :: s1). intro r. cbn [flat_map]. rewrite <- app_assoc, jchar_surrogate by assumption.
        rewrite jscan_hex4 by lia. rewrite H1. reflexivity.
      * destruct s as [|c2 s].
        -- exists [c]. intro r. cbn [flat_map]. rewrite <- app_assoc, jchar_surrogate by assumption.
           rewrite jscan_lone; [reflexivity|lia|]. apply quiet_plain. discriminate.
        -- destruct ((56320 <=? c2) && (c2 <=? 57343)) eqn:E2.
           ++ destruct (IH s) as [s2 H2]; [simpl in Hn; lia|intros x Hx; apply Ht; right; assumption|].
              eexists. intro r. cbn [flat_map]. rewrite <- !app_assoc, !jchar_surrogate by lia.
              rewrite jscan_pair by lia. rewrite H2. reflexivity.
           ++ exists (c :: s1). intro r. specialize (H1 r).
              change (flat_map jchar (c :: c2 :: s)) with (jchar c ++ flat_map jchar (c2 :: s)).
              rewrite <- app_assoc, jchar_surrogate by assumption.
              rewrite jscan_lone; [rewrite H1; reflexivity|lia|]. cbn [flat_map]. rewrite <- app_assoc.
              apply quiet_char; [apply Ht; left; reflexivity|lia].
Qed.

Lemma jscan_text : forall s, code_points s -> exists s', forall r, jscan (flat_map jchar s ++ 34 :: r) = Ok (s', r).
Proof. intros s. exact (jscan_any (List.length s) s (le_n _)). Qed.

(** ** values: one printer for all layouts *)

Definition blanks (s : ustr) : Prop := forallb jws s = true.

Section Printer.
  Variable brk sep : nat -> ustr.

  (** [brk] stands after an opening and before a closing bracket, [sep] after a comma *)
  Fixpoint jgen (lev : nat) (v : value) : ustr :=
    match v with
    | VList [] => [91; 93]
    | VList (x :: r) =>
        91 :: brk (S lev) ++ jgen (S lev) x ++
        (fix go (l : list value) : ustr :=
           match l with
           | [] => []
           | y :: r => 44 :: sep (S lev) ++ jgen (S lev) y ++ go r
           end) r ++ brk lev ++ [93]
    | VDict [] => [123; 125]
    | VDict ((k, x) :: r) =>
        123 :: brk (S lev) ++ jstring k ++ [58; 32] ++ jgen (S lev) x ++
        (fix go (d : list (ustr * value)) : ustr :=
           match d with
           | [] => []
           | (k, y) :: r => 44 :: sep (S lev) ++ jstring k ++ [58; 32] ++ jgen (S lev) y ++ go r
           end) r ++ brk lev ++ [125]
    | _ => jtext v
    end.

  Definition garr (lev : nat) : list value -> ustr :=
    fix go (l : list value) : ustr :=
    match l with
    | [] => []
    | y :: r => 44 :: sep (S lev) ++ jgen (S lev) y ++ go r
    end.
  Definition gobj (lev : nat) : list (ustr * value) -> ustr :=
    fix go (d : list (ustr * value)) : ustr :=
    match d with
    | [] => []
    | (k, y) :: r => 44 :: sep (S lev) ++ jstring k ++ [58; 32] ++ jgen (S lev) y ++ go r
    end.
  Lemma garr_cons : forall lev y r, garr lev (y :: r) = 44 :: sep (S lev) ++ jgen (S lev) y ++ garr lev r.
  Proof. reflexivity. Qed.
  Lemma gobj_cons : forall lev k y r, gobj lev ((k, y) :: r) =
    44 :: sep (S lev) ++ jstring k ++ [58; 32] ++ jgen (S lev) y ++ gobj lev r.
  Proof. reflexivity. Qed.
  Lemma jgen_list : forall lev x r, jgen lev (VList (x :: r)) =
    91 :: brk (S lev) ++ jgen (S lev) x ++ garr lev r ++ brk lev ++ [93].
  Proof. reflexivity. Qed.
  Lemma jgen_dict : forall lev k x r, jgen lev (VDict ((k, x) :: r)) =
    123 :: brk (S lev) ++ jstring k ++ [58; 32] ++ jgen (S lev) x ++ gobj lev r ++ brk lev ++ [125].
  Proof. reflexivity. Qed.
End Printer.

Lemma gen_laid : forall i v lev, jlaid i lev v = jgen (line i) (line i) lev v.
Proof.
  intros i v. induction v as [|b|z|q|s|l IH|d IH|c d IH] using value_ind'; intro lev; try reflexivity.
  - destruct l as [|x l]; [reflexivity|]. inversion IH as [|? ? Hx Hl]; subst. rewrite jgen_list.
    cbn [jlaid]. rewrite Hx. clear IH Hx. do 3 f_equal. f_equal.
    induction Hl as [|y l Hy _ IHl]; [reflexivity|]. rewrite garr_cons, Hy, IHl. reflexivity.
  - destruct d as [|[k x] d]; [reflexivity|]. inversion IH as [|? ? Hx Hl]; subst. rewrite jgen_dict.
    cbn [jlaid]. cbn [snd] in Hx. rewrite Hx. clear IH Hx. do 5 f_equal. f_equal.
    induction Hl as [|[k' y] l Hy _ IHl]; [reflexivity|]. cbn [snd] in Hy. rewrite gobj_cons.
    rewrite Hy, IHl. reflexivity.
Qed.

Lemma gen_text : forall v lev, jtext v = jgen (fun _ => []) (fun _ => [32]) lev v.
Proof.
  intro v. induction v as [|b|z|q|s|l IH|d IH|c d IH] using value_ind'; intro lev; try reflexivity.
  - destruct l as [|x l]; [reflexivity|]. inversion IH as [|? ? Hx Hl]; subst. rewrite jgen_list, jtext_list.
    f_equal. cbn [app]. rewrite <- Hx. rewrite app_assoc. f_equal. clear IH Hx.
    revert x. induction Hl as [|y l Hy _ IHl]; intro x; [change (garr (fun _ => []) (fun _ => [32]) lev []) with (@nil N); rewrite app_nil_r; reflexivity|].
    rewrite larr_cons2. rewrite garr_cons, <- Hy, IHl. reflexivity.
  - destruct d as [|[k x] d]; [reflexivity|]. inversion IH as [|? ? Hx Hl]; subst. rewrite jgen_dict, jtext_dict.
    f_equal. cbn [snd] in Hx. rewrite <- Hx. cbn [app].
    transitivity ((jstring k ++ 58 :: 32 :: jtext x ++ gobj (fun _ => []) (fun _ => [32]) lev d) ++ [125]);
      [|rewrite <- !app_assoc; cbn [app]; rewrite <- !app_assoc; reflexivity].
    f_equal. clear IH Hx.
    revert k x. induction Hl as [|[k' y] l Hy _ IHl]; intros k x;
      [change (gobj (fun _ => []) (fun _ => [32]) lev []) with (@nil N); rewrite app_nil_r; reflexivity|].
    rewrite lobj_cons2. cbn [snd] in Hy. rewrite gobj_cons, <- Hy, IHl. reflexivity.
Qed.

(** what may follow a value *)
Definition follow (r : ustr) : Prop :=
  match r with [] => True | c :: _ => c = 44 \/ c = 93 \/ c = 125 \/ jws c = true end.

Lemma follow_nodig : forall r, follow r -> NumberLemmas.nodig r.
Proof.
  intros [|c r]; simpl; auto. unfold is_digit, jws. intros H. repeat split; lia.
Qed.

Lemma skipws_blanks : forall s c r, blanks s -> jws c = false -> skipws (s ++ c :: r) = c :: r.
Proof.
  induction s as [|a s IH]; intros c r Hs Hc.
  - apply skipws_id. assumption.
  - unfold blanks in Hs. cbn [forallb] in Hs. apply andb_true_iff in Hs. destruct Hs as [Ha Hs].
    cbn [app skipws]. rewrite Ha. apply IH; assumption.
Qed.

Lemma follow_blanks : forall s c r, blanks s -> c = 44 \/ c = 93 \/ c = 125 -> follow (s ++ c :: r).
Proof.
  intros [|a s] c r Hs Hc; cbn [app follow]; [tauto|].
  unfold blanks in Hs. cbn [forallb] in Hs. apply andb_true_iff in Hs. tauto.
Qed.

Lemma jgen_head : forall brk sep v lev, jerr v = None -> exists c r, jgen brk sep lev v = c :: r /\
  jws c = false /\ c <> 93 /\ c <> 125 /\ c <> 65279.
Proof.
  intros brk sep v lev H. destruct v as [|b|z|q|s|l|d|c d]; try discriminate H.
  - apply (jtext_head VNone JNull).
  - apply (jtext_head (VBool b) (JBool b)).
  - apply (jtext_head (VInt z) (JInt z)).
  - change (jgen brk sep lev (VFlt q)) with (jtext (VFlt q)). rewrite jtext_flt. cbn [jerr] in H. destruct (float_repr q) as [t|] eqn:E; [|discriminate].
    destruct (repr_head q t E) as (c & r & -> & C). exists c, r. split; [reflexivity|]. unfold jws. repeat split; lia.
  - eexists _, _. split; [reflexivity|]. repeat split; discriminate.
  - destruct l; (eexists _, _; split; [reflexivity|]; repeat split; discriminate).
  - destruct d as [|[k x] d]; (eexists _, _; split; [reflexivity|]; repeat split; discriminate).
Qed.

(** [v] is read as [w], whatever the layout *)
Definition reads (v w : value) : Prop := forall brk sep, (forall n, blanks (brk n)) -> (forall n, blanks (sep n)) ->
  forall lev n r, follow r -> (List.length (jgen brk sep lev v) <= n)%nat -> jval n (jgen brk sep lev v ++ r) = Ok (w, r).

Lemma jerr_list : forall l x, jerr (VList l) = None -> In x l -> jerr x = None.
Proof.
  induction l as [|y l IH]; intros x H Hi; [contradiction|]. simpl in H. destruct (jerr y) eqn:E; [discriminate|].
  destruct Hi as [Hi|Hi]; [congruence|]. apply IH; assumption.
Qed.
Lemma jerr_dict : forall d k x, jerr (VDict d) = None -> In (k, x) d -> jerr x = None.
Proof.
  induction d as [|[k' y] d IH]; intros k x H Hi; [contradiction|]. simpl in H. destruct (jerr y) eqn:E; [discriminate|].
  destruct Hi as [Hi|Hi]; [congruence|]. eapply IH; eassumption.
Qed.

Lemma read_array : forall brk sep lev r, (forall n, blanks (brk n)) -> (forall n, blanks (sep n)) ->
  forall l ws, Forall2 reads l ws -> (forall x, In x l -> jerr x = None) ->
  forall x w, reads x w -> forall n,
  (1 + List.length (jgen brk sep (S lev) x) + List.length (garr brk sep lev l) <= n)%nat ->
  jarr n (jgen brk sep (S lev) x ++ garr brk sep lev l ++ brk lev ++ 93 :: r) = Ok (w :: ws, r).
Proof.
  intros brk sep lev r Hb Hs l ws Hf. induction Hf as [|y v l ws Hy Hf IH]; intros Hj x w Hx n Hn.
  - destruct n as [|n]; [lia|]. change (garr brk sep lev []) with (@nil N) in *. cbn [jarr app].
    rewrite Hx; [|assumption|assumption|apply follow_blanks; [apply Hb|tauto]|lia].
    rewrite skipws_blanks; [reflexivity|apply Hb|reflexivity].
  - destruct n as [|n]; [lia|]. rewrite garr_cons in *. cbn [jarr].
    cbn [List.length] in Hn. rewrite !app_length in Hn.
    rewrite Hx; [|assumption|assumption|cbn; tauto|lia].
    cbn [app]. rewrite skipws_44. change (44 =? 93) with false. change (44 =? 44) with true. cbn iota.
    rewrite <- ?app_assoc.
    destruct (jgen_head brk sep y (S lev)) as [c [t [E [Hw _]]]]; [apply Hj; left; reflexivity|].
    assert (Ek : skipws (sep (S lev) ++ jgen brk sep (S lev) y ++ garr brk sep lev l ++ brk lev ++ 93 :: r) =
      jgen brk sep (S lev) y ++ garr brk sep lev l ++ brk lev ++ 93 :: r).
    { rewrite E. cbn [app]. apply skipws_blanks; [apply Hs|assumption]. }
    rewrite Ek. rewrite IH with (w := v); [reflexivity|intros z Hz; apply Hj; right; assumption|assumption|lia].
Qed.

(** a member of an object *)
Definition reads_member (kx kw : ustr * value) : Prop :=
  (forall r, jscan (flat_map jchar (fst kx) ++ 34 :: r) = Ok (fst kw, r)) /\ reads (snd kx) (snd kw).

Lemma read_object : forall brk sep lev r, (forall n, blanks (brk n)) -> (forall n, blanks (sep n)) ->
  forall l ws, Forall2 reads_member l ws -> (forall k x, In (k, x) l -> jerr x = None) ->
  forall k x kw, reads_member (k, x) kw -> jerr x = None -> forall n,
  (1 + List.length (jgen brk sep (S lev) x) + List.length (gobj brk sep lev l) <= n)%nat ->
  jobj n (jstring k ++ [58; 32] ++ jgen brk sep (S lev) x ++ gobj brk sep lev l ++ brk lev ++ 125 :: r) = Ok (kw :: ws, r).
Proof.
  intros brk sep lev r Hb Hs l ws Hf. induction Hf as [|[k' y] [k2 v] l ws Hy Hf IH]; intros Hj k x [kn w] [Hk Hx] Jx n Hn;
    (destruct n as [|n]; [lia|]); cbn [fst snd] in *; unfold jstring at 1;
    destruct (jgen_head brk sep x (S lev) Jx) as [c [t [E [Hw _]]]];
    assert (Hsk : forall u, skipws (jgen brk sep (S lev) x ++ u) = jgen brk sep (S lev) x ++ u)
      by (intro u; rewrite E; apply skipws_id; assumption).
  - change (gobj brk sep lev []) with (@nil N) in *. rewrite <- ?app_assoc. cbn [app]. rewrite <- ?app_assoc.
    cbn [app]. cbn [jobj]. change (34 =? 34) with true. cbn iota. rewrite Hk. rewrite skipws_58.
    change (58 =? 58) with true. cbn iota. rewrite skipws_32, Hsk.
    rewrite Hx; [|assumption|assumption|apply follow_blanks; [apply Hb|tauto]|lia].
    rewrite skipws_blanks; [reflexivity|apply Hb|reflexivity].
  - rewrite gobj_cons in *. cbn [List.length] in Hn. rewrite !app_length in Hn. cbn [List.length] in Hn.
    rewrite <- ?app_assoc. cbn [app]. rewrite <- ?app_assoc.
    cbn [app]. cbn [jobj]. change (34 =? 34) with true. cbn iota. rewrite Hk. rewrite skipws_58.
    change (58 =? 58) with true. cbn iota. rewrite skipws_32, Hsk.
    rewrite Hx; [|assumption|assumption|cbn; tauto|lia].
    rewrite skipws_44. change (44 =? 125) with false. change (44 =? 44) with true. cbn iota.
    rewrite <- ?app_assoc.
    specialize (IH (fun a b Hab => Hj a b (or_intror Hab)) k' y (k2, v) Hy (Hj k' y (or_introl eq_refl)) n ltac:(lia)).
    cbn [app] in IH. cbn [app]. rewrite <- ?app_assoc in *.
    assert (Ek : forall u, skipws (sep (S lev) ++ jstring k' ++ u) = jstring k' ++ u).
    { intro u. unfold jstring. cbn [app]. apply skipws_blanks; [apply Hs|reflexivity]. }
    rewrite Ek. cbn [app] in IH |- *. rewrite <- ?app_assoc in *. rewrite IH. reflexivity.
Qed.

Lemma list_reads : forall l ws, Forall2 reads l ws -> jerr (VList l) = None -> reads (VList l) (VList ws).
Proof.
  intros l ws Hws Hj brk sep Hb Hs lev n r Hr Hn.
  destruct Hws as [|x w l ws Hx Hws].
  + destruct n; [inversion Hn|]. reflexivity.
  + rewrite jgen_list in *. cbn [List.length] in Hn. rewrite !app_length in Hn. cbn [List.length] in Hn.
    destruct n as [|n]; [lia|]. cbn [app]. rewrite <- ?app_assoc. cbn [app].
    destruct (jgen_head brk sep x (S lev)) as [c [t [E [Hw [H93 _]]]]]; [eapply jerr_list; [exact Hj|left; reflexivity]|].
    cbn [jval]. change (91 =? 34) with false. change (91 =? 123) with false. change (91 =? 91) with true. cbn iota.
    assert (Ek : skipws (brk (S lev) ++ jgen brk sep (S lev) x ++ garr brk sep lev l ++ brk lev ++ 93 :: r) =
      jgen brk sep (S lev) x ++ garr brk sep lev l ++ brk lev ++ 93 :: r).
    { rewrite E. cbn [app]. apply skipws_blanks; [apply Hb|assumption]. }
    rewrite Ek. apply N.eqb_neq in H93.
    assert (A := read_array brk sep lev r Hb Hs l ws Hws (fun y Hy => jerr_list _ y Hj (or_intror Hy)) x w Hx n ltac:(lia)).
    rewrite E in A |- *. cbn [app] in A |- *. rewrite H93, A. reflexivity.
Qed.
Lemma dict_reads : forall d ws, Forall2 reads_member d ws -> jerr (VDict d) = None -> reads (VDict d) (VDict (dict_of ws)).
Proof.
  intros d ws Hws Hj brk sep Hb Hs lev n r Hr Hn.
  destruct Hws as [|[k x] kw d ws Hx Hws].
  + destruct n; [inversion Hn|]. reflexivity.
  + rewrite jgen_dict in *. cbn [List.length] in Hn. rewrite !app_length in Hn. cbn [List.length] in Hn.
    destruct n as [|n]; [lia|].
    assert (Jx : jerr x = None) by (eapply jerr_dict; [exact Hj|left; reflexivity]).
    assert (A := read_object brk sep lev r Hb Hs d ws Hws (fun a b Hab => jerr_dict _ a b Hj (or_intror Hab)) k x kw Hx Jx n ltac:(lia)).
    cbn [jval app]. change (123 =? 34) with false. change (123 =? 123) with true. cbn iota.
    unfold jstring at 1. unfold jstring in A at 1. cbn [app] in A |- *. rewrite <- ?app_assoc in A |- *. cbn [app] in A |- *.
    rewrite <- ?app_assoc. cbn [app]. rewrite <- ?app_assoc. cbn [app].
    rewrite skipws_blanks; [|apply Hb|reflexivity]. change (34 =? 125) with false. cbn iota.
    rewrite A. reflexivity.
Qed.

Lemma value_reads : forall v, jerr v = None -> texts_of_python v -> exists w, reads v w.
Proof.
  intro v. induction v as [|b|z|q|s|l IH|d IH|c d IH] using value_ind'; intros Hj Ht; try discriminate Hj.
  - exists VNone. intros brk sep Hb Hs lev n r Hr Hn. destruct n; [inversion Hn|]. reflexivity.
  - exists (VBool b). intros brk sep Hb Hs lev n r Hr Hn. destruct n; [destruct b; inversion Hn|]. destruct b; reflexivity.
  - exists (VInt z). intros brk sep Hb Hs lev n r Hr Hn.
    assert (1 <= List.length (jtext (VInt z)))%nat by (apply jtext_len; constructor).
    change (jgen brk sep lev (VInt z)) with (jtext (VInt z)) in *. destruct n as [|n]; [lia|].
    apply jval_int. apply follow_nodig. assumption.
  - cbn [jerr] in Hj. destruct (float_repr q) as [t|] eqn:E; [|discriminate].
    exists (VFlt (Qreduction.Qred q)). intros brk sep Hb Hs lev n r Hr Hn.
    change (jgen brk sep lev (VFlt q)) with (jtext (VFlt q)) in *. rewrite jtext_flt, E in *.
    destruct n as [|n]; [destruct (repr_head q t E) as (c & x & -> & _); inversion Hn|].
    apply jval_flt; [assumption|]. apply follow_nodig. assumption.
  - inversion Ht as [| | | |s' Hs'| | |]; subst. destruct (jscan_text s Hs') as [t Et].
    exists (VStr t). intros brk sep Hb Hs lev n r Hr Hn.
    change (jgen brk sep lev (VStr s)) with (jstring s) in *. unfold jstring in *. cbn [List.length] in Hn.
    destruct n as [|n]; [lia|].
    cbn [app]. rewrite <- app_assoc. cbn [app jval]. change (34 =? 34) with true. cbn iota. rewrite Et. reflexivity.
  - inversion Ht as [| | | | |l' Hl| |]; subst.
    assert (F : exists ws, Forall2 reads l ws).
    { assert (Hj' := jerr_list l). clear Ht. induction IH as [|x l Hx _ IHl]; [exists []; constructor|].
      destruct Hx as [w Hw]; [apply Hj'; [assumption|left; reflexivity]|apply Hl; left; reflexivity|].
      destruct IHl as [ws Hws].
      - simpl in Hj. destruct (jerr x); [discriminate|assumption].
      - intros y Hy. apply Hl. right. assumption.
      - intros y H1 H2. apply Hj'; [assumption|right; assumption].
      - exists (w :: ws). constructor; assumption. }
    destruct F as [ws Hws]. exists (VList ws). apply list_reads; assumption.
  - inversion Ht as [| | | | | |d' Hd|]; subst.
    assert (F : exists ws, Forall2 reads_member d ws).
    { assert (Hj' := jerr_dict d). clear Ht. induction IH as [|[k x] d Hx _ IHd]; [exists []; constructor|].
      destruct (Hd k x (or_introl eq_refl)) as [Hk Htx]. cbn [snd] in Hx.
      destruct (Hx (Hj' k x Hj (or_introl eq_refl)) Htx) as [w Hw]. destruct (jscan_text k Hk) as [k' Hk'].
      destruct IHd as [ws Hws].
      - simpl in Hj. destruct (jerr x); [discriminate|assumption].
      - intros a b Hab. apply Hd. right. assumption.
      - intros a b H1 H2. eapply Hj'; [assumption|right; eassumption].
      - exists ((k', w) :: ws). constructor; [split; assumption|assumption]. }
    destruct F as [ws Hws]. exists (VDict (dict_of ws)). apply dict_reads; assumption.
Qed.

(** ** the text as a whole *)

Lemma line_blanks : forall i n, blanks (line i n).
Proof. intros i n. unfold blanks, line. cbn [forallb]. induction (i * n)%nat; [reflexivity|assumption]. Qed.

Lemma loads_reads : forall v w brk sep, jerr v = None -> reads v w -> (forall n, blanks (brk n)) -> (forall n, blanks (sep n)) ->
  json_loads (jgen brk sep 0 v) = Ok w.
Proof.
  intros v w brk sep Hj Hr Hb Hs. destruct (jgen_head brk sep v 0%nat Hj) as [c [t [E [Hw [_ [_ H]]]]]].
  assert (A := Hr brk sep Hb Hs 0%nat (S (2 * List.length (jgen brk sep 0 v))) [] I ltac:(lia)).
  rewrite app_nil_r in A. unfold json_loads. rewrite E in *. apply N.eqb_neq in H. rewrite H.
  rewrite skipws_id by assumption. rewrite A. reflexivity.
Qed.

Theorem layout_loads : forall i v, texts_of_python v -> jerr v = None ->
  exists w, json_loads (jtext v) = Ok w /\ json_loads (jlaid i 0 v) = Ok w.
Proof.
  intros i v Ht Hj. destruct (value_reads v Hj Ht) as [w Hw]. exists w. split.
  - rewrite (gen_text v 0). apply (loads_reads v w); try assumption; intro n; reflexivity.
  - rewrite gen_laid. apply (loads_reads v w); try assumption; intro n; apply line_blanks.
Qed.

Theorem layout_same : forall i v, texts_of_python v ->
  match json_dumps v with
  | Ok t => exists t' w, json_dumps_indent i v = Ok t' /\ json_loads t' = Ok w /\ json_loads t = Ok w
  | Err e => json_dumps_indent i v = Err e
  end.
Proof.
  intros i v Ht. unfold json_dumps. destruct (jerr v) as [e|] eqn:Ej.
  - destruct i; cbn [json_dumps_indent]; [|unfold json_dumps]; rewrite Ej; reflexivity.
  - destruct i as [n|].
    + destruct (layout_loads (Z.to_nat n) v Ht Ej) as [w [H1 H2]]. cbn [json_dumps_indent]. rewrite Ej. eauto.
    + destruct (layout_loads 0 v Ht Ej) as [w [H1 _]]. cbn [json_dumps_indent]. unfold json_dumps. rewrite Ej. eauto.
Qed.

Lemma json_texts : forall v, json_value v -> texts_of_python v.
Proof.
  intro v. assert (S : forall s, scalars s = true -> code_points s).
  { intros s H c Hc. unfold scalars in H. rewrite forallb_forall in H. specialize (H c Hc). unfold scalar in H. lia. }
  induction v as [|b|z|q|s|l IH|d IH|c d IH] using value_ind'; intro H; inversion H; subst; constructor.
  - apply S. assumption.
  - intros x Hx. rewrite Forall_forall in IH. apply IH; auto.
  - intros k x Hx. rewrite Forall_forall in IH.
    match goal with Hd : forall k x, In (k, x) d -> _ |- _ => destruct (Hd k x Hx) as [Hk Hv] end.
    split; [apply S; assumption|]. apply (IH (k, x) Hx Hv).
Qed.

Theorem layout_codec : forall i v, json_value v -> exists t, json_dumps_indent i v = Ok t /\ json_loads t = Ok v.
Proof.
  intros i v H. assert (A := layout_same i v (json_texts v H)). destruct (json_roundtrip v H) as [t [E1 E2]].
  rewrite E1 in A. destruct A as [t' [w [H1 [H2 H3]]]]. exists t'. split; [assumption|]. congruence.
Qed.
