(** A sample directory and configurations for the examples, and checks by computation. *)
From Coq Require Import List NArith ZArith Bool String Lia Arith.
From Verif Require Import Base.Ustr Base.UstrLemmas Model.Value Model.Json Model.Converter Model.FileStore Model.Labeled
  Spec.CodecSpec Spec.JsonSpec Spec.StorageSpec Proofs.ValueLemmas Proofs.Deciders Proofs.CodecLemmas Proofs.StorageMore.
Import ListNotations.
Open Scope list_scope.
Open Scope N_scope.

(** /srv/db is the storage directory, /srv/passwd a file beside it *)
Definition db : ustr := u "/srv/db".
Definition w0 : world := mkW [(u "/srv/passwd", (u "root", 1))] [u "/srv"; db] (u "/srv") 10.
Definition jconf : conf := mkC (u "db/") json_conv_serialize json_conv_deserialize.
Definition tconf : conf := mkC db passthru_serialize passthru_deserialize.
Definition ww (x : world * st * res unit) : world := fst (fst x).
Definition ss (x : world * st * res unit) : st := snd (fst x).
Definition num (z : Z) : value := VDict [(u "n", VInt z)].

Lemma w0_placed : placed jconf w0 db /\ placed tconf w0 db.
Proof. split; (split; [discriminate|vm_compute; reflexivity]). Qed.
Lemma w0_flat : flat w0 db.
Proof. intros n [H|[H|[]]]; discriminate. Qed.
Lemma w0_no_files : no_files w0 db.
Proof. intros p (n & -> & _). reflexivity. Qed.
Lemma w0_nodup : NoDup (map fst (w_files w0)).
Proof. repeat constructor. intros []. Qed.

Definition plainb (k : ustr) : bool :=
  scalars k && negb (ueqb k []) && negb (ueqb k (u ".")) && negb (ueqb k (u "..")) && negb (endswith (u ".lock") k).
Lemma plainb_ok : forall k, plainb k = true -> plain_key k.
Proof.
  intros k H. unfold plainb in H. rewrite !andb_true_iff, !negb_true_iff in H. destruct H as [[[[H1 H2] H3] H4] H5].
  assert (G : forall x, ueqb k x = false -> k <> x) by (intros x E ->; rewrite ueqb_refl in E; discriminate).
  split; [apply encodable_iff; exact H1|]. split; [apply G; exact H2|]. split; [apply G; exact H3|]. split; [apply G; exact H4|].
  intro E. apply endswith_iff in E. congruence.
Qed.
Definition ownb (k : ustr) : bool :=
  forallb (fun c => is_alpha c || is_digit c || (c =? 95) || (c =? 46) || (c =? 45) || (c =? 126)) k.
Lemma ownb_ok : forall k, ownb k = true -> own_name k.
Proof.
  intros k H. unfold ownb in H. rewrite forallb_forall in H. apply Forall_forall. intros c Hc. specialize (H c Hc).
  unfold own_char. unfold is_alpha, is_upper, is_lower, is_digit in H. lia.
Qed.
Lemma num_storable : forall z, storable jconf (num z) (num z).
Proof.
  intro z. apply json_storable; [reflexivity|reflexivity|]. constructor; [repeat constructor; intros []|].
  intros k x [E|[]]. injection E as <- <-. split; [reflexivity|constructor].
Qed.
Definition legalb (o : op) : bool :=
  match o with
  | OSet k (VDict [([110], VInt _)]) => plainb k
  | OGet k | OHas k => plainb k
  | ODel k => plainb k && ownb k
  | OSet _ _ | OUpdate _ => false
  | _ => true
  end.
Lemma legalb_ok : forall o, legalb o = true -> legal jconf o.
Proof.
  intros [k v|k|k|k| | | | |d] H; cbn [legal]; try exact I; try (apply plainb_ok; exact H); try discriminate.
  - unfold legalb in H.
    assert (E : exists z, v = num z /\ plainb k = true).
    { destruct v as [| | | | | |d|]; try discriminate. destruct d as [|[n x] [|]]; try discriminate;
      destruct n as [|a [|]]; try discriminate;
      repeat match type of H with (if ?b then _ else _) = true => destruct b | match ?a with _ => _ end = true => destruct a end; try discriminate;
      eexists; split; [reflexivity|exact H]. }
    destruct E as (z & -> & E). split; [apply plainb_ok; exact E|]. exists (num z). apply num_storable.
  - apply andb_true_iff in H. destruct H. split; [apply plainb_ok|apply ownb_ok]; assumption.
Qed.
Lemma legalb_all : forall h, forallb (fun e : nat * op => legalb (snd e)) h = true -> Forall (fun e => legal jconf (snd e)) h.
Proof. intros h H. apply Forall_forall. intros e He. rewrite forallb_forall in H. apply legalb_ok, H, He. Qed.
Definition vlegalb (L : ustr) (o : vop) : bool :=
  match o with
  | VSet k (VDict [([110], VInt _)]) => plainb (L ++ k)
  | VGet k | VHas k => plainb (L ++ k)
  | VDel k => plainb (L ++ k) && ownb (L ++ k)
  | VSet _ _ => false
  | _ => true
  end.
Lemma vlegalb_ok : forall L o, vlegalb L o = true -> vlegal jconf L o.
Proof.
  intros L [k v|k|k|k| | | |d] H; cbn [vlegal]; try exact I; try (apply plainb_ok; exact H).
  - apply (legalb_ok (OSet (L ++ k) v)). exact H.
  - apply (legalb_ok (ODel (L ++ k))). exact H.
Qed.

(** histories for the examples: one process, two processes, two views *)
Definition h1 : list (nat * op) :=
  [(O, OSet (u "a b") (num 1)); (O, OSet (u "c") (num 2)); (O, ODel (u "c")); (O, OSet (u "a b") (num 3)); (O, OSet (u "d") (num 4))].
Definition h2 : list (nat * op) :=
  [(O, OSet (u "k") (num 1)); (1%nat, OGet (u "k")); (1%nat, OSet (u "k") (num 2)); (O, OHas (u "k")); (O, OSet (u "x") (num 5))].
Definition lab2 (i : nat) : ustr := match i with O => render (u "op") | _ => 42 :: repeat 43 i ++ [42] end.
Lemma lab2_apart : forall j, j <> O -> apart (lab2 0) (lab2 j).
Proof. intros [|j] H; [congruence|]. split; intros [r E]; discriminate. Qed.
Definition h3 : list (nat * vop) :=
  [(O, VSet (u "k") (num 1)); (1%nat, VSet (u "k") (num 2)); (1%nat, VSet (u "m") (num 3)); (O, VSet (u "d") (num 4)); (O, VDel (u "d"))].

(** the worlds and instances of the case of C68: k set to 1, read after a crash of another process *)
Definition c68_set := set jconf w0 s_new (u "k") (num 1).
Definition c68_first := getitem jconf (set_cut 1 jconf (tick (fst (fst c68_set))) (u "k") (num 2)) (snd (fst c68_set)) (u "k").
Definition c68_second := getitem jconf (fst (fst c68_first)) (snd (fst c68_first)) (u "k").
Lemma c68_witness :
  set jconf w0 s_new (u "k") (num 1) = (fst (fst c68_set), snd (fst c68_set), Ok tt) /\
  getitem jconf (set_cut 1 jconf (tick (fst (fst c68_set))) (u "k") (num 2)) (snd (fst c68_set)) (u "k") =
    (fst (fst c68_first), snd (fst c68_first), Err EJSONDecodeError) /\
  getitem jconf (fst (fst c68_first)) (snd (fst c68_first)) (u "k") =
    (fst (fst c68_second), snd (fst c68_second), Ok (num 1)).
Proof. split; [vm_compute; reflexivity|]. split; vm_compute; reflexivity. Qed.

(** ... and of C87: k.lock set to 1, then k to 2 *)
Definition c87_first := set jconf w0 s_new (u "k.lock") (num 1).
Definition c87_second := set jconf (tick (fst (fst c87_first))) (snd (fst c87_first)) (u "k") (num 2).
Lemma c87_witness : u "k.lock" <> u "k" /\
  set jconf w0 s_new (u "k.lock") (num 1) = (fst (fst c87_first), snd (fst c87_first), Ok tt) /\
  snd (getitem jconf (fst (fst c87_first)) (snd (fst c87_first)) (u "k.lock")) = Ok (num 1) /\
  set jconf (tick (fst (fst c87_first))) (snd (fst c87_first)) (u "k") (num 2) =
    (fst (fst c87_second), snd (fst c87_second), Ok tt) /\
  snd (getitem jconf (fst (fst c87_second)) (snd (fst c87_second)) (u "k.lock")) = Err EJSONDecodeError.
Proof.
  split; [discriminate|]. split; [vm_compute; reflexivity|]. split; [vm_compute; reflexivity|].
  split; vm_compute; reflexivity.
Qed.
