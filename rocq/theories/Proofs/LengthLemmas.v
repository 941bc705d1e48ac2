(** C84: labels that are no file names. *)
From Coq Require Import List NArith ZArith Bool String Lia Arith.
From Verif Require Import Base.Ustr Base.UstrLemmas Base.Utf8 Base.Utf8Lemmas Base.Percent Base.PercentLemmas
  Model.Value Model.Float Model.Json Model.Converter Model.FileStore Model.Labeled Model.Config Spec.CodecSpec Spec.JsonSpec Spec.StorageSpec
  Proofs.ValueLemmas Proofs.JsonLemmas Proofs.CodecLemmas Proofs.StorageLemmas Proofs.StorageHistory Proofs.StorageOther Proofs.LabeledLemmas.
From Verif Require Import Spec.LabelSpec Proofs.StorageMore Proofs.LabelLemmas.
Import ListNotations.
Open Scope list_scope.
Open Scope N_scope.

Lemma own_safe : forall x, own_char x <-> url_safe x = true.
Proof. intro x. unfold own_char, url_safe, is_alpha, is_upper, is_lower, is_digit. lia. Qed.
Lemma own_char_dec : forall c, own_char c \/ ~ own_char c.
Proof. intro c. rewrite own_safe. destruct (url_safe c); [left; reflexivity|right; discriminate]. Qed.
Lemma quote_own : forall c s f, own_char c -> quote_plus (c :: s) = Some f -> exists g, quote_plus s = Some g /\ f = c :: g.
Proof.
  intros c s f Hc H. unfold quote_plus in *. cbn [utf8_encode] in H.
  assert (E : utf8_enc1 c = Some [c]) by (unfold utf8_enc1; replace (c <? 128) with true by (unfold own_char in Hc; lia); reflexivity).
  rewrite E in H. destruct (utf8_encode s) as [bs|]; [|discriminate]. cbn [option_map] in *. injection H as <-. exists (quote_bytes bs). split; [reflexivity|].
  change (quote_bytes ([c] ++ bs)) with (quote_byte c ++ quote_bytes bs). unfold quote_byte. rewrite (proj1 (own_safe c) Hc). reflexivity.
Qed.
Lemma quote_alien : forall c s f, ~ own_char c -> quote_plus (c :: s) = Some f ->
  (exists d f', f = d :: f' /\ d <> c) \/ (c = 37 /\ exists g, quote_plus s = Some g /\ f = 37 :: 50 :: 53 :: g).
Proof.
  intros c s f Hc H. unfold quote_plus in *. cbn [utf8_encode] in H. destruct (utf8_enc1 c) as [a|] eqn:Ea; [|discriminate].
  destruct (utf8_encode s) as [bs|]; [|discriminate]. cbn [option_map] in *. rewrite quote_bytes_app in H.
  assert (F : f = quote_bytes a ++ quote_bytes bs) by congruence. clear H.
  assert (U : url_safe c = false) by (destruct (url_safe c) eqn:X; [destruct (Hc (proj2 (own_safe c) X))|reflexivity]).
  destruct (c <? 128) eqn:L.
  - assert (a = [c]) as -> by (unfold utf8_enc1 in Ea; rewrite L in Ea; congruence).
    change (quote_bytes [c]) with (quote_byte c ++ []) in F. rewrite app_nil_r in F. unfold quote_byte in F. rewrite U in F.
    destruct (c =? 32) eqn:S; [left; exists 43, (quote_bytes bs); split; [exact F|lia]|].
    destruct (N.eq_dec c 37) as [->|N]; [right; split; [reflexivity|]; exists (quote_bytes bs); split; [reflexivity|exact F]|].
    left. eexists 37, _. split; [rewrite F; cbn [app]; reflexivity|congruence].
  - left. assert (X : exists b a', a = b :: a' /\ 128 <= b).
    { unfold utf8_enc1 in Ea. rewrite L in Ea. destruct (c <? 2048); [apply Some_inj in Ea; subst a; eexists _, _; split; [reflexivity|lia]|].
      destruct (_ && _); [discriminate|]. destruct (c <? 65536); [apply Some_inj in Ea; subst a; eexists _, _; split; [reflexivity|lia]|].
      destruct (c <? 1114112); [apply Some_inj in Ea; subst a; eexists _, _; split; [reflexivity|lia]|discriminate]. }
    destruct X as (b & a' & -> & B). change (quote_bytes (b :: a')) with (quote_byte b ++ quote_bytes a') in F. unfold quote_byte in F.
    replace (url_safe b) with false in F by (unfold url_safe, is_alpha, is_upper, is_lower, is_digit; lia). replace (b =? 32) with false in F by lia.
    cbn [app] in F. eexists 37, _. split; [exact F|lia].
Qed.
Lemma never_late : forall L w k g, w <> [] -> Forall (fun c => c = 50 \/ c = 53) w -> In 95 L -> quote_plus (L ++ k) = Some g -> startswith L (w ++ g) = false.
Proof.
  induction L as [|c L IH]; intros w k g W0 W I H; [destruct I|]. destruct w as [|d w]; [congruence|]. inversion W as [|? ? D W']; subst.
  cbn [app startswith]. destruct (N.eqb_spec c d) as [->|N]; [|reflexivity]. cbn [andb].
  assert (O : own_char d) by (unfold own_char; lia). cbn [app] in H. destruct (quote_own d (L ++ k) g O H) as (g' & G & ->).
  replace (w ++ d :: g') with ((w ++ [d]) ++ g') by (rewrite <- app_assoc; reflexivity). apply (IH _ k g').
  - destruct w; discriminate.
  - apply Forall_app. split; [exact W'|constructor; [exact D|constructor]].
  - destruct I as [I|I]; [lia|exact I].
  - exact G.
Qed.
Lemma alien_prefix : forall L k f, ~ own_name L -> quote_plus ((L ++ [95]) ++ k) = Some f -> startswith (L ++ [95]) f = false.
Proof.
  induction L as [|c L IH]; intros k f N H; [destruct N; constructor|]. destruct (own_char_dec c) as [O|O].
  - cbn [app] in H. destruct (quote_own _ _ _ O H) as (g & G & ->). cbn [app startswith]. rewrite N.eqb_refl. apply (IH k g); [|exact G].
    intro X. apply N. constructor; assumption.
  - cbn [app] in H. destruct (quote_alien _ _ _ O H) as [(d & f' & -> & D)|(-> & g & G & ->)].
    + cbn [app startswith]. replace (c =? d) with false by lia. reflexivity.
    + cbn [app startswith]. change (37 =? 37) with true. cbn [andb]. apply (never_late (L ++ [95]) [50; 53] k g); [discriminate|repeat constructor; lia| |exact G].
      apply in_app_iff. right. left. reflexivity.
Qed.
Lemma written_prefix : forall L k h a, fold_left (after_op k) (downs (fun _ => L) h) a <> None -> a <> None \/ exists k', k = L ++ k'.
Proof.
  intros L k. induction h as [|[j o] h IH]; intros a H; [left; exact H|]. cbn [downs map fold_left fst snd] in H.
  destruct (IH _ H) as [X|X]; [|right; exact X]. destruct o as [k' v|k'|k'|k'| | | |ava]; cbn [down after_op] in X; auto.
  - destruct (ueq_dec (L ++ k') k) as [E|E]; [right; exists k'; congruence|left; exact X].
  - destruct (ueq_dec (L ++ k') k) as [E|E]; [congruence|left; exact X].
Qed.
Lemma never_counts : forall C label D W i h W' P' rs W'' S'' r,
  placed C W D -> flat W D -> no_files W D -> NoDup (map fst (w_files W)) -> ~ own_name label ->
  Forall (fun e => vlegal C (render label) (snd e)) h ->
  vrun C (fun _ => render label) W (fun _ => s_new) h = (W', P', rs) -> vexec C (render label) W' (P' i) VLen = (W'', S'', r) ->
  r = RLen (Ok 0%nat).
Proof.
  intros C label D W i h W' P' rs W'' S'' r H1 H2 H3 H4 N Hh Hrun Hex.
  assert (R : render label = (u "__" ++ label ++ u "_") ++ [95]).
  { rewrite render_some; [change (u "__") with [95; 95]; change (u "_") with [95]; rewrite <- !app_assoc; reflexivity|]. intros ->. apply N. constructor. }
  assert (N' : ~ own_name (u "__" ++ label ++ u "_")). { intro X. apply N. unfold own_name in *. apply Forall_app in X. destruct X as [_ X]. apply Forall_app in X. apply X. }
  set (L := render label) in *. destruct (vrun_down _ _ _ _ _ _ _ _ Hrun) as [rs' Hr].
  assert (Ha : Forall (fun e => legal C (snd e)) (downs (fun _ => L) h)).
  { apply Forall_forall. intros e He. apply in_map_iff in He. destruct He as ([j x] & <- & He). cbn [snd].
    rewrite Forall_forall in Hh. apply down_legal. exact (Hh _ He). }
  destruct (run_step (fun _ => True) C D (downs (fun _ => L) h) W _ _ (inv_start C D W H1 H2 H3 H4) Ha) as (W1 & P1 & rs1 & E1 & I1 & _).
  rewrite E1 in Hr. injection Hr as -> -> ->. cbn [vexec] in Hex. injection Hex as _ _ <-.
  pose proof (inv_tick _ _ _ _ _ i I1) as I. pose proof (i_ready _ _ _ _ _ _ I) as HR. unfold v_len. rewrite (listdir_ready C _ D HR). cbn [bind].
  match goal with |- context [filter ?x ?y] => assert (X : filter x y = []) end; [|rewrite X; reflexivity].
  match goal with |- ?l = [] => destruct l as [|f l'] eqn:E; [reflexivity|] end. exfalso.
  assert (F : In f (f :: l')) by (left; reflexivity). rewrite <- E in F. rewrite filter_In, file_names_in, !andb_true_iff, negb_true_iff in F.
  destruct F as [[F1 F2] [[F0 F3] F4]]. rewrite (lock_path C _ D f HR F1) in F4.
  destruct (file_ghost _ _ _ _ _ _ f I F1 F4 F2) as (k & Hk & Hq & Hn). cbn beta in Hn.
  destruct (written_prefix L k h None Hn) as [Y|[k' ->]]; [congruence|]. apply qp_ok in Hq. rewrite R in Hq, F0. rewrite (alien_prefix _ _ _ N' Hq) in F0. discriminate.
Qed.
Lemma label_length : forall C labels D W i h W' P' rs W'' S'' r,
  placed C W D -> flat W D -> no_files W D -> NoDup (map fst (w_files W)) ->
  (forall j, j <> i -> ~ inside (labels i) (labels j) /\ ~ inside (labels j) (labels i)) -> own_name (labels i) ->
  Forall (fun e => vlegal C (render (labels (fst e))) (snd e)) h ->
  vrun C (fun j => render (labels j)) W (fun _ => s_new) h = (W', P', rs) -> vexec C (render (labels i)) W' (P' i) VLen = (W'', S'', r) ->
  exists l, r = RLen (Ok (List.length l)) /\ NoDup l /\ forall k, In k l <-> vlatest i k h <> None.
Proof.
  intros C labels D W i h W' P' rs W'' S'' r H1 H2 H3 H4 N O H6 H7 H8. apply (view_length C (fun j => render (labels j)) D W i h W' P' rs W'' S'' r H1 H2 H3 H4); [| |exact H6|exact H7|exact H8].
  - intros j J. apply c176_apart. exact (N j J).
  - destruct (labels i) as [|c l] eqn:E; [constructor|]. rewrite render_some by discriminate. unfold own_name. repeat (apply Forall_app; split); try exact O; repeat constructor; unfold own_char; lia.
Qed.
Lemma percent_alien : ~ own_name (u "50%25").
Proof.
  intro H. unfold own_name in H. rewrite Forall_forall in H. assert (I : In 37 (u "50%25")) by (vm_compute; tauto). specialize (H 37 I). unfold own_char in H. lia.
Qed.
