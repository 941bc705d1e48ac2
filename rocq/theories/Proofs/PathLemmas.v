(** Proofs about add_base_path. *)
From Coq Require Import List NArith ZArith Bool String.
From Verif Require Import Base.Ustr Base.UstrLemmas Model.Value Model.Config Spec.MessageSpec Spec.PathSpec Proofs.ValueLemmas Proofs.MessageLemmas.
Import ListNotations.
Open Scope list_scope.
Open Scope N_scope.

(** the two loops of [add_base_path] *)
Fixpoint each (part : value) (attrs : list value) : res unit :=
  match attrs with
  | [] => Ok tt
  | VStr a :: attrs => do p <- lookup part a ; do _ <- (if truthy p then abs_path p else Ok tt) ; each part attrs
  | _ => Err OutOfModel
  end.
Definition one (conf : value) (s : ustr) (items : value) : res unit :=
  do part <- (if ueqb s [] then Ok conf else lookup conf s) ;
  if truthy part then
    match items with
    | VList attrs => each part attrs
    | VNone => abs_path part
    | _ => add_base_path items part
    end
  else Ok tt.
Fixpoint sections (conf : value) (l : list (ustr * value)) : res unit :=
  match l with
  | [] => Ok tt
  | (s, i) :: l => do _ <- one conf s i ; sections conf l
  end.
Lemma each_eq : forall part attrs, (fix each (attrs : list value) : res unit :=
    match attrs with
    | [] => Ok tt
    | VStr a :: attrs => do p <- lookup part a ; do _ <- (if truthy p then abs_path p else Ok tt) ; each attrs
    | _ => Err OutOfModel
    end) attrs = each part attrs.
Proof. intros part. induction attrs as [|a attrs IH]; [reflexivity|]. destruct a; try reflexivity. cbn [each]. destruct (lookup part s) as [p|]; [|reflexivity]. cbn [bind]. destruct (if truthy p then abs_path p else Ok tt); [|reflexivity]. cbn [bind]. exact IH. Qed.
Lemma base_path_eq : forall l conf, add_base_path (VDict l) conf = sections conf l.
Proof.
  intros l conf. cbn [add_base_path]. induction l as [|[s i] l IH]; [reflexivity|]. cbn [sections]. unfold one at 1.
  destruct (if ueqb s [] then Ok conf else lookup conf s) as [p|e]; [|reflexivity]. cbn [bind].
  destruct (truthy p); cbn [bind]; [|exact IH]. destruct i; try (match goal with |- bind ?a _ = bind ?b _ => destruct a as [[]|]; [cbn [bind]; exact IH|reflexivity] end).
  rewrite each_eq. destruct (each p l0) as [[]|]; [cbn [bind]; exact IH|reflexivity].
Qed.

Lemma truthy_full : forall v, truthy v = true <-> ~ empty_value v.
Proof. intro v. rewrite <- truthy_empty. destruct (truthy v); intuition congruence. Qed.
Lemma lookup_entry : forall p a v, ~ empty_value v -> named_entry p a v -> lookup p a = Ok v.
Proof. intros p a v Hv (d & [->|[c ->]] & H); cbn [lookup]; rewrite H; reflexivity. Qed.
Lemma lookup_inv : forall p a v, lookup p a = Ok v -> truthy v = true -> named_entry p a v.
Proof.
  intros p a v H Hv. destruct p; try discriminate; cbn [lookup] in H; injection H as H.
  - exists d. split; [left; reflexivity|]. destruct (dget d a); subst; [reflexivity|discriminate].
  - exists d. split; [right; eexists; reflexivity|]. destruct (dget d a); subst; [reflexivity|discriminate].
Qed.
Lemma lookup_err : forall p a e, lookup p a = Err e -> e = EAttributeError /\ forall d, ~ mapping p d.
Proof.
  intros p a e H. destruct p; try discriminate; cbn [lookup] in H; injection H as <-; (split; [reflexivity|]); intros x [X|[c X]]; discriminate.
Qed.
Lemma abs_ok : forall v, abs_path v = Ok tt <-> absolute v.
Proof.
  intro v. unfold abs_path, absolute. destruct v; try (split; [discriminate|intros [r X]; discriminate]).
  destruct (startswith (u "/") s) eqn:S.
  - split; [intros _|reflexivity]. apply startswith_iff in S. destruct S as [r ->]. exists r. reflexivity.
  - split; [discriminate|]. intros [r X]. injection X as X. exfalso.
    assert (T : startswith (u "/") s = true) by (apply startswith_iff; exists r; exact X). congruence.
Qed.
Lemma abs_err : forall v e, abs_path v = Err e -> (e = ENameError /\ relative v) \/ (e = EAttributeError /\ forall p, v <> VStr p).
Proof.
  intros v e H. unfold abs_path in H. destruct v; try (injection H as <-; right; split; [reflexivity|intros p X; discriminate]).
  destruct (startswith (u "/") s) eqn:S; [discriminate|]. injection H as <-. left. split; [reflexivity|]. exists s. split; [reflexivity|].
  intro X. apply startswith_iff in X. congruence.
Qed.
Lemma section_iff : forall conf s p, (if ueqb s [] then Ok conf else lookup conf s) = Ok p -> truthy p = true -> section_of conf s p.
Proof.
  intros conf s p H T. split; [|apply truthy_full; exact T]. destruct (ueqb s []) eqn:E.
  - apply ueqb_eq in E. injection H as ->. auto.
  - right. split; [intro X; apply ueqb_eq in X; congruence|]. apply lookup_inv; assumption.
Qed.
Lemma section_get : forall conf s p, section_of conf s p -> (if ueqb s [] then Ok conf else lookup conf s) = Ok p /\ truthy p = true.
Proof.
  intros conf s p [[[-> ->]|[Hs H]] Hp]; (split; [|apply truthy_full; exact Hp]).
  - reflexivity.
  - replace (ueqb s []) with false; [apply lookup_entry; assumption|]. symmetry. apply not_true_is_false. rewrite ueqb_eq. exact Hs.
Qed.

Lemma each_ok : forall part attrs a v, each part attrs = Ok tt -> In (VStr a) attrs -> named_entry part a v -> ~ empty_value v -> absolute v.
Proof.
  intros part attrs a v. induction attrs as [|x attrs IH]; intros H Ha He Hv; [destruct Ha|]. cbn [each] in H.
  destruct x; try discriminate. destruct (lookup part s) as [q|] eqn:L; [|discriminate]. cbn [bind] in H.
  destruct (if truthy q then abs_path q else Ok tt) as [[]|] eqn:A; [|discriminate]. cbn [bind] in H.
  destruct Ha as [X|Ha]; [|auto]. injection X as ->. rewrite (lookup_entry _ _ _ Hv He) in L. injection L as <-.
  rewrite (proj2 (truthy_full v) Hv) in A. apply abs_ok. exact A.
Qed.
Lemma sections_in : forall conf l s i, sections conf l = Ok tt -> In (s, i) l -> one conf s i = Ok tt.
Proof.
  intros conf l s i. induction l as [|[t j] l IH]; intros H I; [destruct I|]. cbn [sections] in H.
  destruct (one conf t j) as [[]|] eqn:O; [|discriminate]. cbn [bind] in H. destruct I as [X|I]; [injection X as -> ->; exact O|auto].
Qed.
Lemma paths_absolute : forall items conf v, add_base_path items conf = Ok tt -> addressed items conf v -> absolute v.
Proof.
  intros items conf v H A. revert H. induction A as [l conf s attrs p a v I S Ia He Hv|l conf s p I S|l l' conf s p v I S A IH]; intro H; rewrite base_path_eq in H.
  - pose proof (sections_in _ _ _ _ H I) as O. unfold one in O. destruct (section_get _ _ _ S) as [G T]. rewrite G in O. cbn [bind] in O. rewrite T in O.
    exact (each_ok _ _ _ _ O Ia He Hv).
  - pose proof (sections_in _ _ _ _ H I) as O. unfold one in O. destruct (section_get _ _ _ S) as [G T]. rewrite G in O. cbn [bind] in O. rewrite T in O.
    apply abs_ok. exact O.
  - pose proof (sections_in _ _ _ _ H I) as O. unfold one in O. destruct (section_get _ _ _ S) as [G T]. rewrite G in O. cbn [bind] in O. rewrite T in O. auto.
Qed.

Definition bad (items conf : value) (e : exn) : Prop :=
  (e = ENameError /\ exists v, addressed items conf v /\ relative v) \/
  (e = EAttributeError /\ ((exists v, addressed items conf v /\ forall p, v <> VStr p) \/ (exists v, looked_in items conf v /\ forall d, ~ mapping v d))).
Lemma each_err : forall part attrs e, (forall x, In x attrs -> exists a, x = VStr a) -> each part attrs = Err e ->
  (exists a v, In (VStr a) attrs /\ named_entry part a v /\ ~ empty_value v /\ ((e = ENameError /\ relative v) \/ (e = EAttributeError /\ forall p, v <> VStr p))) \/
  (exists a, In a attrs /\ e = EAttributeError /\ forall d, ~ mapping part d).
Proof.
  intros part attrs e. induction attrs as [|x attrs IH]; intros Hs H; [discriminate|].
  destruct (Hs x (or_introl eq_refl)) as [a ->]. cbn [each] in H. destruct (lookup part a) as [q|e'] eqn:L; cbn [bind] in H.
  - destruct (truthy q) eqn:T.
    + destruct (abs_path q) as [[]|e'] eqn:A; cbn [bind] in H.
      * destruct IH as [(b & v & I & R)|(b & I & R)]; [intros y Hy; apply Hs; right; exact Hy|exact H| |].
        -- left. exists b, v. split; [right; exact I|exact R].
        -- right. exists b. split; [right; exact I|exact R].
      * injection H as <-. left. exists a, q. split; [left; reflexivity|]. split; [apply lookup_inv; assumption|]. split; [apply truthy_full; exact T|].
        apply abs_err. exact A.
    + cbn [bind] in H. destruct IH as [(b & v & I & R)|(b & I & R)]; [intros y Hy; apply Hs; right; exact Hy|exact H| |].
      * left. exists b, v. split; [right; exact I|exact R].
      * right. exists b. split; [right; exact I|exact R].
  - injection H as <-. right. exists (VStr a). split; [left; reflexivity|]. apply lookup_err in L. exact L.
Qed.
Lemma sections_err : forall conf l e, sections conf l = Err e -> exists s i, In (s, i) l /\ one conf s i = Err e.
Proof.
  intros conf l e. induction l as [|[t j] l IH]; intro H; [discriminate|]. cbn [sections] in H.
  destruct (one conf t j) as [[]|e'] eqn:O; cbn [bind] in H.
  - destruct (IH H) as (s & i & I & O'). exists s, i. split; [right; exact I|exact O'].
  - injection H as <-. exists t, j. split; [left; reflexivity|exact O].
Qed.
Lemma why_refused : forall items conf e, description items -> add_base_path items conf = Err e -> bad items conf e.
Proof.
  induction items using value_ind'; intros conf e D H0; inversion D as [l0 HD X]; subst l0. rename d into l. rename H into IH.
  rewrite base_path_eq in H0. destruct (sections_err _ _ _ H0) as (s & i & I & O). clear H0. unfold one in O.
  destruct (if ueqb s [] then Ok conf else lookup conf s) as [p|e'] eqn:G; cbn [bind] in O.
  - destruct (truthy p) eqn:T; [|discriminate]. pose proof (section_iff _ _ _ G T) as S.
    destruct (HD s i I) as [->|[[ns ->]|Di]].
    + apply abs_err in O. destruct O as [[-> R]|[-> R]].
      * left. split; [reflexivity|]. exists p. split; [eapply AdPart; eassumption|exact R].
      * right. split; [reflexivity|]. left. exists p. split; [eapply AdPart; eassumption|exact R].
    + apply each_err in O; [|intros x Hx; apply in_map_iff in Hx; destruct Hx as (a & <- & _); eauto].
      destruct O as [(a & v & Ia & He & Hv & [[-> R]|[-> R]])|(a & Ia & -> & Hm)].
      * left. split; [reflexivity|]. exists v. split; [eapply AdAttr; eassumption|exact R].
      * right. split; [reflexivity|]. left. exists v. split; [eapply AdAttr; eassumption|exact R].
      * right. split; [reflexivity|]. right. exists p. split; [eapply LiPart; eassumption|exact Hm].
    + rewrite Forall_forall in IH. specialize (IH _ I). cbn [snd] in IH. destruct Di as [l' Hl].
      destruct (IH p e (Description l' Hl) O) as [(-> & v & A & R)|(-> & [(v & A & R)|(v & A & R)])].
      * left. split; [reflexivity|]. exists v. split; [eapply AdSub; eassumption|exact R].
      * right. split; [reflexivity|]. left. exists v. split; [eapply AdSub; eassumption|exact R].
      * right. split; [reflexivity|]. right. exists v. split; [eapply LiSub; eassumption|exact R].
  - injection O as <-. destruct (ueqb s []) eqn:Es; [discriminate|]. apply lookup_err in G. destruct G as [-> Hm].
    right. split; [reflexivity|]. right. exists conf. split; [|exact Hm]. eapply LiConf; [exact I|]. intro X. subst s. discriminate.
Qed.
Lemma not_described : forall items conf, (forall l, items <> VDict l) -> (forall c l, items <> VMsg c l) -> add_base_path items conf = Err EAttributeError.
Proof. intros items conf H H'. destruct items; try reflexivity. congruence. Qed.
