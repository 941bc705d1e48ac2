(** C61-C69, C84-C88, C92: the file storage and its labelled views. *)
From Coq Require Import List NArith ZArith Bool String Lia.
From Verif Require Import Base.Ustr Model.Value Model.Json Model.Converter Model.FileStore Model.Labeled
  Spec.CodecSpec Spec.JsonSpec Spec.StorageSpec Proofs.Deciders Proofs.CodecLemmas Proofs.StorageHistory Proofs.StorageOther
  Proofs.LabeledLemmas Proofs.RaceLemmas Proofs.StorageMore Proofs.StorageSamples.
Import ListNotations.
Open Scope list_scope.
Open Scope N_scope.

(** C61: whatever one process has done, its next operation is answered as by a map. *)
Theorem C61_map_in_process : forall C D W i h o W' P' rs W'' S'' r,
  placed C W D -> flat W D -> no_files W D -> NoDup (map fst (w_files W)) ->
  Forall (fun e => fst e = i /\ legal C (snd e)) h -> legal C o ->
  run C W (fun _ => s_new) h = (W', P', rs) -> exec C W' (P' i) o = (W'', S'', r) ->
  answers (fun k => latest k h) o r.
Proof. exact one_process. Qed.
Print Assumptions C61_map_in_process.

Example C61_case :
  (placed jconf w0 db /\ flat w0 db /\ no_files w0 db /\ NoDup (map fst (w_files w0))) /\
  Forall (fun e => fst e = O /\ legal jconf (snd e)) h1 /\
  let '(W', P', _) := run jconf w0 (fun _ => s_new) h1 in
  snd (exec jconf W' (P' O) (OGet (u "a b"))) = RVal (Ok (num 3)) /\
  snd (exec jconf W' (P' O) (OGet (u "c"))) = RVal (Err EKeyError) /\
  snd (exec jconf W' (P' O) OLen) = RLen (Ok 2%nat) /\
  snd (exec jconf W' (P' O) OKeys) = RKeys (Ok [u "a b"; u "d"]).
Proof.
  split; [exact (conj (proj1 w0_placed) (conj w0_flat (conj w0_no_files w0_nodup)))|]. split.
  - repeat (constructor; [split; [reflexivity|apply legalb_ok; vm_compute; reflexivity]|]). constructor.
  - vm_compute. repeat split; reflexivity.
Qed.

(** C62: a new instance reads what was written, with universal newlines and trimmed; other keys are
    as they were. *)
Theorem C62_restart : forall C D W S k v t, placed C W D -> flat W D -> plain_key k -> c_ser C v = Ok t -> encodable t ->
  exists W' S', set C W S k v = (W', S', Ok tt) /\
    reading C W' k = c_deser C (strip (newlines t)) /\
    forall k2, plain_key k2 -> k2 <> k -> reading C W' k2 = reading C W k2.
Proof. exact restart_total. Qed.
Print Assumptions C62_restart.

(** for texts without carriage returns this is the trimmed serialization.  Missing: texts with
    carriage returns (refuted below), the keys "", ".", ".." and those that end in ".lock". *)
Theorem C62_restart_partial : forall C D W S k v t, placed C W D -> flat W D -> plain_key k -> c_ser C v = Ok t -> encodable t ->
  ~ In 13 t ->
  exists W' S', set C W S k v = (W', S', Ok tt) /\ reading C W' k = c_deser C (strip t) /\
    forall k2, plain_key k2 -> k2 <> k -> reading C W' k2 = reading C W k2.
Proof. exact restart_plain. Qed.
Print Assumptions C62_restart_partial.

Example C62_case : plain_key (u "https://op/") /\ c_ser tconf (VStr (u " two  words ")) = Ok (u " two  words ") /\
  let W' := ww (set tconf (ww (set tconf w0 s_new (u "k") (VStr (u "1")))) s_new (u "https://op/") (VStr (u " two  words "))) in
  reading tconf W' (u "https://op/") = Ok (VStr (u "two  words")) /\ reading tconf W' (u "k") = Ok (VStr (u "1")).
Proof. split; [apply plainb_ok; vm_compute; reflexivity|]. split; [reflexivity|]. vm_compute. split; reflexivity. Qed.

(** a carriage return inside the text comes back as a line feed *)
Theorem C62_carriage_return_refuted : exists k v t W' S',
  plain_key k /\ c_ser tconf v = Ok t /\ encodable t /\ set tconf w0 s_new k v = (W', S', Ok tt) /\
  c_deser tconf (strip t) = Ok v /\ reading tconf W' k = Ok (VStr [97; 10; 98]) /\ v = VStr [97; 13; 98].
Proof.
  eexists (u "k"), (VStr [97; 13; 98]), [97; 13; 98], _, _. split; [apply plainb_ok; vm_compute; reflexivity|].
  split; [reflexivity|]. split; [apply encodable_iff; vm_compute; reflexivity|].
  split; [vm_compute; reflexivity|]. vm_compute. repeat split; reflexivity.
Qed.
Print Assumptions C62_carriage_return_refuted.

(** C63: deleting a key that is its own file name removes it.  Missing: other keys (refuted below). *)
Theorem C63_delete_partial : forall C D W S k W' S' r, placed C W D -> flat W D -> plain_key k -> own_name k ->
  del C W S k = (W', S', r) -> r = Ok tt /\ contains S' k = Ok false /\ snd (getitem C W' S' k) = Err EKeyError.
Proof. exact del_gone. Qed.
Print Assumptions C63_delete_partial.

Example C63_case : plain_key (u "a.b-c") /\ own_name (u "a.b-c") /\
  let x := set jconf w0 s_new (u "a.b-c") (num 1) in
  contains (ss x) (u "a.b-c") = Ok true /\ contains (ss (del jconf (ww x) (ss x) (u "a.b-c"))) (u "a.b-c") = Ok false.
Proof. split; [apply plainb_ok; reflexivity|]. split; [apply ownb_ok; reflexivity|]. vm_compute. split; reflexivity. Qed.

(** deleting "a b" succeeds and removes nothing *)
Theorem C63_delete_refuted : exists W S k W' S',
  plain_key k /\ set jconf w0 s_new k (num 1) = (W, S, Ok tt) /\ del jconf W S k = (W', S', Ok tt) /\
  contains S' k = Ok true /\ snd (getitem jconf W' S' k) = Ok (num 1) /\ reading jconf W' k = Ok (num 1).
Proof.
  eexists _, _, (u "a b"), _, _. split; [apply plainb_ok; vm_compute; reflexivity|].
  split; [vm_compute; reflexivity|]. split; [vm_compute; reflexivity|]. vm_compute. repeat split; reflexivity.
Qed.
Print Assumptions C63_delete_refuted.

(** C64: no history of any number of processes touches anything outside the directory, if no key
    with a slash is deleted.  Missing: such deletions (refuted below). *)
Theorem C64_inside_partial : forall C D h W P W' P' rs, placed C W D -> Forall (fun e => tame (snd e)) h ->
  run C W P h = (W', P', rs) -> forall p, ~ inside D p -> dget (w_files W') p = dget (w_files W) p.
Proof. exact outside_run. Qed.
Print Assumptions C64_inside_partial.

Example C64_case : let h := [(O, OSet (u "../passwd") (num 1)); (1%nat, OGet (u "../passwd")); (1%nat, OClear)] in
  Forall (fun e => tame (snd e)) h /\ ~ inside db (u "/srv/passwd") /\
  dget (w_files (fst (fst (run jconf w0 (fun _ => s_new) h)))) (u "/srv/passwd") = Some (u "root", 1).
Proof.
  cbv zeta. split; [repeat constructor|]. split; [intros (n & E & _); discriminate|vm_compute; reflexivity].
Qed.

(** deleting "../passwd" removes a file outside, and puts a lock file there *)
Theorem C64_inside_refuted : exists k W' S', ~ inside db (u "/srv/passwd") /\ del jconf w0 s_new k = (W', S', Ok tt) /\
  dget (w_files w0) (u "/srv/passwd") = Some (u "root", 1) /\ dget (w_files W') (u "/srv/passwd") = None /\
  dget (w_files W') (u "/srv/passwd.lock") = Some ([], 10).
Proof.
  eexists (u "../passwd"), _, _. split; [intros (n & E & _); discriminate|]. split; [vm_compute; reflexivity|].
  vm_compute. repeat split; reflexivity.
Qed.
Print Assumptions C64_inside_refuted.

(** C65: a process that dies before the file is opened or after it is written leaves the old or the
    new value; a key that cannot be encoded changes nothing.  Missing: the time in between, and
    values that cannot be serialized or written (refuted below). *)
Theorem C65_interrupted_partial : forall C D W S k f v t n, placed C W D -> flat W D -> plain_key k -> qpkey_serialize k = Ok f ->
  c_ser C v = Ok t -> encodable t ->
  (n <> 1%nat -> reading C (set_cut n C W f v) k = reading C W k \/
                 reading C (set_cut n C W f v) k = c_deser C (strip (newlines t))) /\
  forall k' e, qpkey_serialize k' = Err e -> set C W S k' v = (W, S, Err e).
Proof. exact interrupted. Qed.
Print Assumptions C65_interrupted_partial.

Example C65_case : let W := ww (set jconf w0 s_new (u "k") (num 1)) in
  qpkey_serialize (u "k") = Ok (u "k") /\ reading jconf (set_cut 0 jconf W (u "k") (num 2)) (u "k") = Ok (num 1) /\
  reading jconf (set_cut 2 jconf W (u "k") (num 2)) (u "k") = Ok (num 2) /\
  qpkey_serialize [55296] = Err EUnicodeEncodeError.
Proof. vm_compute. repeat split; reflexivity. Qed.

(** dying after the file is opened destroys the old value *)
Theorem C65_crash_refuted : exists W S k f v, plain_key k /\ qpkey_serialize k = Ok f /\
  set jconf w0 s_new k (num 1) = (W, S, Ok tt) /\ json_value v /\
  reading jconf W k = Ok (num 1) /\ reading jconf (set_cut 1 jconf W f v) k = Err EJSONDecodeError.
Proof.
  eexists _, _, (u "k"), (u "k"), (VInt 2). split; [apply plainb_ok; reflexivity|]. split; [reflexivity|].
  split; [vm_compute; reflexivity|]. split; [constructor|]. vm_compute. split; reflexivity.
Qed.
Print Assumptions C65_crash_refuted.
(** and so does a value that cannot be written: with PassThru, anything but a text *)
Theorem C65_failure_refuted : exists W S k W' S',
  plain_key k /\ set tconf w0 s_new k (VStr (u "old")) = (W, S, Ok tt) /\ reading tconf W k = Ok (VStr (u "old")) /\
  set tconf W S k (VInt 3) = (W', S', Err ETypeError) /\ reading tconf W' k = Ok (VStr []).
Proof.
  eexists _, _, (u "k"), _, _. split; [apply plainb_ok; reflexivity|]. split; [vm_compute; reflexivity|].
  split; [vm_compute; reflexivity|]. split; vm_compute; reflexivity.
Qed.
Print Assumptions C65_failure_refuted.

(** C66: every process gets the last write of a key, whoever wrote it; the writer itself gets the
    value as it was given, the others as it reads back. *)
Theorem C66_other_processes : forall C D W i h k W' P' rs W'' S'' r,
  placed C W D -> flat W D -> no_files W D -> NoDup (map fst (w_files W)) ->
  Forall (fun e => legal C (snd e)) h -> plain_key k ->
  run C W (fun _ => s_new) h = (W', P', rs) -> exec C W' (P' i) (OGet k) = (W'', S'', RVal r) ->
  match latest k h with
  | None => r = Err EKeyError
  | Some (j, v) => (i = j -> r = Ok v) /\ (i <> j -> exists x, storable C v x /\ r = Ok x)
  end.
Proof. exact many_processes. Qed.
Print Assumptions C66_other_processes.

Example C66_case :
  Forall (fun e => legal jconf (snd e)) h2 /\ latest (u "k") h2 = Some (1%nat, num 2) /\
  let '(W', P', _) := run jconf w0 (fun _ => s_new) h2 in
  snd (exec jconf W' (P' O) (OGet (u "k"))) = RVal (Ok (num 2)) /\ snd (exec jconf W' (P' 7%nat) (OGet (u "x"))) = RVal (Ok (num 5)).
Proof. split; [apply legalb_all; vm_compute; reflexivity|]. vm_compute. repeat split; reflexivity. Qed.

(** C67: after any schedule of concurrent sets of one key, the file holds the text of one of the
    processes; that process gets its own value, every other the converted file or its own value; one
    that was through before a later write gets the converted file.  Missing: that all get what is on
    disc (refuted below). *)
Theorem C67_race_partial : forall C D W P k f vals texts l,
  placed C W D -> flat W D -> plain_key k -> qpkey_serialize k = Ok f ->
  (forall t m, dget (w_files W) (D ++ u "/" ++ f) = Some (t, m) -> m <= w_clock W) ->
  (forall i, c_ser C (vals i) = Ok (texts i) /\ encodable (texts i)) ->
  let R := race_run C f vals (start_race W P) l in
  (forall j, r_pc R j = O \/ r_pc R j = 4%nat) -> (exists j, r_pc R j = 4%nat) ->
  exists w, r_pc R w = 4%nat /\
    (exists m, dget (w_files (r_W R)) (D ++ u "/" ++ f) = Some (texts w, m)) /\
    race_get C R w k = Ok (vals w) /\
    forall j, r_pc R j = 4%nat ->
      (race_get C R j k = c_deser C (strip (newlines (texts w))) \/ race_get C R j k = Ok (vals j)) /\
      forall l1 l2, l = l1 ++ l2 ->
        r_pc (race_run C f vals (start_race W P) l1) j = 4%nat ->
        (exists i, (r_pc (race_run C f vals (start_race W P) l1) i <= 1)%nat /\ r_pc R i = 4%nat) ->
        race_get C R j k = c_deser C (strip (newlines (texts w))).
Proof. exact race_result. Qed.
Print Assumptions C67_race_partial.

Example C67_case :
  let R := race_run jconf (u "k") (fun i => num (Z.of_nat i)) (start_race w0 (fun _ => s_new)) [0; 1; 0; 0; 0; 1; 1; 1; 1]%nat in
  r_pc R 0%nat = 4%nat /\ r_pc R 1%nat = 4%nat /\
  race_get jconf R 0 (u "k") = Ok (num 1) /\ race_get jconf R 1 (u "k") = Ok (num 1).
Proof. vm_compute. repeat split; reflexivity. Qed.

(** both have written, then both take the modification time: process 0 keeps its own value *)
Theorem C67_race_refuted : exists l, let R := race_run jconf (u "k") (fun i => num (Z.of_nat i)) (start_race w0 (fun _ => s_new)) l in
  (forall j, r_pc R j = O \/ r_pc R j = 4%nat) /\ r_pc R 0%nat = 4%nat /\ r_pc R 1%nat = 4%nat /\
  reading jconf (r_W R) (u "k") = Ok (num 1) /\ race_get jconf R 1 (u "k") = Ok (num 1) /\ race_get jconf R 0 (u "k") = Ok (num 0).
Proof.
  exists [0; 0; 1; 1; 0; 0; 1; 1]%nat. split; [intros [|[|j]]; [right|right|left]; vm_compute; reflexivity|].
  vm_compute. repeat split; reflexivity.
Qed.
Print Assumptions C67_race_refuted.

(** C68: a key that was never read before keeps failing after a failed read.  Missing: keys with a
    cached value (refuted below). *)
Theorem C68_failed_read_partial : forall C D W S k f W' S' e, placed C W D -> flat W D -> plain_key k -> qpkey_serialize k = Ok f ->
  dget (s_storage S) f = None -> getitem C W S k = (W', S', Err e) ->
  exists e', snd (getitem C W' S' k) = Err e'.
Proof. exact failed_first. Qed.
Print Assumptions C68_failed_read_partial.

Example C68_case : let W := set_cut 1 jconf w0 (u "k") VNone in
  dget (s_storage s_new) (u "k") = None /\
  let '(W', S', r) := getitem jconf W s_new (u "k") in r = Err EJSONDecodeError /\ snd (getitem jconf W' S' (u "k")) = Err EKeyError.
Proof. vm_compute. repeat split; reflexivity. Qed.

(** a process sets k, another dies while it sets k: the first get of the first process fails, the
    second returns the old value *)
Theorem C68_failed_read_refuted : exists W S k W1 S1 W2 S2,
  set jconf w0 s_new k (num 1) = (W, S, Ok tt) /\
  getitem jconf (set_cut 1 jconf (tick W) k (num 2)) S k = (W1, S1, Err EJSONDecodeError) /\
  getitem jconf W1 S1 k = (W2, S2, Ok (num 1)).
Proof. eexists _, _, (u "k"), _, _, _, _. exact c68_witness. Qed.
Print Assumptions C68_failed_read_refuted.

(** C69: a view sees its own writes and nothing else, whatever the other views do. *)
Theorem C69_views : forall C lab D W i h o W' P' rs W'' S'' r,
  placed C W D -> flat W D -> no_files W D -> NoDup (map fst (w_files W)) ->
  (forall j, j <> i -> apart (lab i) (lab j)) ->
  Forall (fun e => vlegal C (lab (fst e)) (snd e)) h -> vlegal C (lab i) o ->
  vrun C lab W (fun _ => s_new) h = (W', P', rs) -> vexec C (lab i) W' (P' i) o = (W'', S'', r) ->
  vanswers (fun k => vlatest i k h) o r.
Proof. exact views. Qed.
Print Assumptions C69_views.

Example C69_case : (forall j, j <> O -> apart (lab2 0) (lab2 j)) /\
  Forall (fun e => vlegal jconf (lab2 (fst e)) (snd e)) h3 /\
  let '(W', P', _) := vrun jconf lab2 w0 (fun _ => s_new) h3 in
  snd (vexec jconf (lab2 0) W' (P' O) (VGet (u "k"))) = RVal (Ok (num 1)) /\
  snd (vexec jconf (lab2 0) W' (P' O) VItems) = RItems (Ok [(u "k", num 1)]) /\
  snd (vexec jconf (lab2 1) W' (P' 1%nat) VKeys) = RKeys (Ok [u "k"; u "m"]).
Proof.
  split; [exact lab2_apart|]. split; [repeat (constructor; [apply vlegalb_ok; vm_compute; reflexivity|]); constructor|].
  vm_compute. repeat split; reflexivity.
Qed.

(** C84: the length of a view is the number of its keys if the label is a file name.  Missing: other
    labels (refuted below). *)
Theorem C84_view_length_partial : forall C lab D W i h W' P' rs W'' S'' r,
  placed C W D -> flat W D -> no_files W D -> NoDup (map fst (w_files W)) ->
  (forall j, j <> i -> apart (lab i) (lab j)) -> own_name (lab i) ->
  Forall (fun e => vlegal C (lab (fst e)) (snd e)) h ->
  vrun C lab W (fun _ => s_new) h = (W', P', rs) -> vexec C (lab i) W' (P' i) VLen = (W'', S'', r) ->
  exists l, r = RLen (Ok (List.length l)) /\ NoDup l /\ forall k, In k l <-> vlatest i k h <> None.
Proof. exact view_length. Qed.
Print Assumptions C84_view_length_partial.

Example C84_case : own_name (lab2 0) /\ let '(W', P', _) := vrun jconf lab2 w0 (fun _ => s_new) h3 in
  snd (vexec jconf (lab2 0) W' (P' O) VLen) = RLen (Ok 1%nat).
Proof. split; [apply ownb_ok; reflexivity|]. vm_compute. reflexivity. Qed.

(** the label "my app" *)
Theorem C84_view_length_refuted : exists W S k, let L := render (u "my app") in
  vexec jconf L w0 s_new (VSet k (num 1)) = (W, S, RUnit (Ok tt)) /\
  snd (vexec jconf L W S VKeys) = RKeys (Ok [k]) /\ snd (vexec jconf L W S VLen) = RLen (Ok O).
Proof. eexists _, _, (u "k"). split; [vm_compute; reflexivity|]. split; vm_compute; reflexivity. Qed.
Print Assumptions C84_view_length_refuted.

(** C85: clear() does not empty a directory that has a file in it; it leaves a file whose name is
    longer, so that the names grow with every call. *)
Theorem C85_clear_refuted : forall C D W S n, placed C W D -> flat W D -> NoDup (map fst (w_files W)) -> long_name W D n -> (3 <= n)%nat ->
  exists W' S', clear C W S = (W', S', Ok tt) /\ placed C W' D /\ flat W' D /\ long_name W' D (n + 5).
Proof. exact clear_longer. Qed.
Print Assumptions C85_clear_refuted.

Example C85_case : let x := set jconf w0 s_new (u "key") (num 1) in
  long_name (ww x) db 3 /\
  listdir (ww (clear jconf (ww x) (ss x))) db = Ok [u "key.lock.lock"; u "key.lock"] /\
  listdir (ww (clear jconf (ww (clear jconf (ww x) (ss x))) s_new)) db = Ok [u "key.lock.lock.lock"; u "key.lock.lock"].
Proof.
  cbv zeta. split; [|vm_compute; split; reflexivity]. exists (u "key"). split; [intros [H|[H|[H|[]]]]; discriminate|].
  split; [vm_compute; discriminate|apply le_n].
Qed.

(** C86: a key that another process has deleted is still listed, and still "in" the storage. *)
Theorem C86_stale_keys_refuted : exists h W P rs k, run jconf w0 (fun _ => s_new) h = (W, P, rs) /\
  Forall (fun e => legal jconf (snd e)) h /\ latest k h = None /\
  snd (exec jconf W (P O) OKeys) = RKeys (Ok [k]) /\ snd (exec jconf W (P O) (OHas k)) = RBool (Ok true) /\
  snd (exec jconf W (P O) (OGet k)) = RVal (Err EKeyError).
Proof.
  eexists [(O, OSet (u "k") (num 1)); (1%nat, ODel (u "k"))], _, _, _, (u "k"). split; [vm_compute; reflexivity|].
  split; [apply legalb_all; vm_compute; reflexivity|]. vm_compute. repeat split; reflexivity.
Qed.
Print Assumptions C86_stale_keys_refuted.

(** C87: setting a key does not change what a reader gets for another one.  Missing: keys that end in
    ".lock" (refuted below). *)
Theorem C87_other_keys_partial : forall C D W S k v t k2, placed C W D -> flat W D -> plain_key k -> c_ser C v = Ok t -> encodable t ->
  plain_key k2 -> k2 <> k -> reading C (fst (fst (set C W S k v))) k2 = reading C W k2.
Proof. exact other_keys. Qed.
Print Assumptions C87_other_keys_partial.

Example C87_case : let W := ww (set jconf w0 s_new (u "a+b") (num 1)) in
  plain_key (u "a+b") /\ plain_key (u "a b") /\
  reading jconf (ww (set jconf W s_new (u "a b") (num 2))) (u "a+b") = Ok (num 1).
Proof. cbv zeta. split; [apply plainb_ok; reflexivity|]. split; [apply plainb_ok; reflexivity|]. vm_compute. reflexivity. Qed.

(** setting "k" empties the file of "k.lock" *)
Theorem C87_other_keys_refuted : exists W S W' S' k k2, k2 <> k /\ set jconf w0 s_new k2 (num 1) = (W, S, Ok tt) /\
  snd (getitem jconf W S k2) = Ok (num 1) /\ set jconf (tick W) S k (num 2) = (W', S', Ok tt) /\
  snd (getitem jconf W' S' k2) = Err EJSONDecodeError.
Proof. eexists _, _, _, _, (u "k"), (u "k.lock"). exact c87_witness. Qed.
Print Assumptions C87_other_keys_refuted.

(** C88: every plain key can be set to every value that can be written.  Missing: the other keys
    (refuted below). *)
Theorem C88_any_key_partial : forall C D W S k v t, placed C W D -> flat W D -> plain_key k -> c_ser C v = Ok t -> encodable t ->
  snd (set C W S k v) = Ok tt.
Proof. exact set_succeeds. Qed.
Print Assumptions C88_any_key_partial.

Example C88_case : plain_key (u "../../etc/passwd") /\ snd (set jconf w0 s_new (u "../../etc/passwd") (num 1)) = Ok tt.
Proof. split; [apply plainb_ok; reflexivity|vm_compute; reflexivity]. Qed.

Theorem C88_any_key_refuted : exists k, encodable k /\ snd (set jconf w0 s_new k (num 1)) = Err EOSError.
Proof. exists []. split; [apply encodable_iff; reflexivity|vm_compute; reflexivity]. Qed.
Print Assumptions C88_any_key_refuted.

(** C92: with the JSON converter every JSON value reads back as it is, in every process. *)
Theorem C92_json_values : forall C v, c_ser C = json_conv_serialize -> c_deser C = json_conv_deserialize -> json_value v ->
  forall D W S k, placed C W D -> flat W D -> plain_key k ->
  exists W' S', set C W S k v = (W', S', Ok tt) /\ reading C W' k = Ok v.
Proof. exact json_restart. Qed.
Print Assumptions C92_json_values.

Example C92_case : let v := VList [VStr (u " x "); VStr [13; 10; 233]; VNone] in
  json_value v /\ reading jconf (ww (set jconf w0 s_new (u "k") v)) (u "k") = Ok v.
Proof. cbv zeta. split; [apply jsonb_ok|]; vm_compute; reflexivity. Qed.
