(** C70-C77, C83, C89-C91, C117: LabeledDict, the SQL storage and the configuration helpers. *)
From Coq Require Import List NArith ZArith Bool String Lia.
From Verif Require Import Base.Ustr Base.Percent Model.Value Model.FileStore Model.Labeled Model.Sql Model.Config
  Spec.StorageSpec Spec.PathSpec Proofs.LabeledLemmas Proofs.SqlLemmas Proofs.ConfigLemmas Proofs.StorageMore Proofs.PathLemmas Proofs.StorageSamples Proofs.PathSamples.
Import ListNotations.
Open Scope list_scope.
Open Scope N_scope.

(** C70: whatever has been done with a LabeledDict, with any label, it answers as a map. *)
Theorem C70_labeled_dict : forall L h o, danswers (fun k => dlatest k h) o (snd (ld_exec L (fst (ld_run L [] h)) o)).
Proof. exact labeled_dict. Qed.
Print Assumptions C70_labeled_dict.

Example C70_case : let h := [DSet (u "a") (VInt 1); DSet (u "b") (VInt 2); DDel (u "a"); DUpdate [(u "a", VInt 5)]; DSet (u "b") (VInt 3)] in
  let d := fst (ld_run (render (u "op")) [] h) in
  map (fun o => snd (ld_exec (render (u "op")) d o)) [DItem (u "a"); DItem (u "b"); DGet (u "a") (VInt 9); DDel (u "a"); DKeys] =
  [RVal (Ok VNone); RVal (Ok (VInt 3)); RVal (Ok (VInt 9)); RUnit (Err EKeyError); RKeys (Ok [u "b"])].
Proof. vm_compute. reflexivity. Qed.

(** C71: update() stores nothing and raises, for every label, content and dictionary: ValueError of a
    LabeledDict, AttributeError of a LabeledAbstractFileSystem. *)
Theorem C71_update_refuted : (forall L d ava, ld_exec L d (DUpdate ava) = (d, RUnit (Err EValueError))) /\
  forall C L W S ava, vexec C L W S (VUpdate ava) = (tick W, S, RUnit (Err EAttributeError)).
Proof. split; reflexivity. Qed.
Print Assumptions C71_update_refuted.

Example C71_case : snd (ld_exec [] [] (DUpdate [(u "a", VInt 1)])) = RUnit (Err EValueError) /\
  snd (ld_exec [] (fst (ld_exec [] [] (DUpdate [(u "a", VInt 1)]))) (DItem (u "a"))) = RVal (Ok VNone).
Proof. split; reflexivity. Qed.

(** C72: every history of a session on an empty table leaves one row per owner with the last value. *)
Theorem C72_sql_history : forall h k,
  NoDup (map r_owner (q_rows (qrun sql_empty h))) /\
  sql_get (qrun sql_empty h) k = match qlatest k h with Some v => VStr v | None => VNone end /\
  snd (sql_delete (qrun sql_empty h) k) = (match qlatest k h with Some _ => 1 | None => 0 end)%Z.
Proof. exact sql_history. Qed.
Print Assumptions C72_sql_history.

Example C72_case : let h := [QSet (u "a") (u "1"); QSet (u "b") (u "2"); QUpdate (u "a") (u "3"); QUpdate (u "c") (u "4"); QSet (u "b") (u "5"); QDelete (u "x")] in
  (qlatest (u "a") h, qlatest (u "b") h, qlatest (u "c") h) = (Some (u "3"), Some (u "5"), None) /\
  map r_owner (q_rows (qrun sql_empty h)) = [u "a"; u "b"] /\ sql_get (qrun sql_empty h) (u "b") = VStr (u "5").
Proof. vm_compute. repeat split; reflexivity. Qed.

(** C73: exactly the owners and the data of the rows are "in" the storage; so every owner is.
    Missing: that nothing else is (refuted below). *)
Theorem C73_membership_partial : forall q k, sql_contains q (VStr k) = true <->
  exists r, In r (q_rows q) /\ (r_owner r = k \/ r_data r = k).
Proof. exact contains_cell. Qed.
Print Assumptions C73_membership_partial.

Example C73_case : let q := qrun sql_empty [QSet (u "a") (u "1")] in
  sql_contains q (VStr (u "a")) = true /\ sql_contains q (VStr (u "b")) = false.
Proof. vm_compute. split; reflexivity. Qed.

(** the data, and the number of a row, are found as keys *)
Theorem C73_membership_refuted : exists h k, qlatest k h = None /\ sql_contains (qrun sql_empty h) (VStr k) = true /\
  sql_contains (qrun sql_empty h) (VInt 1) = true.
Proof. exists [QSet (u "owner") (u "data")], (u "data"). vm_compute. repeat split; reflexivity. Qed.
Print Assumptions C73_membership_refuted.

(** C74: a deletion survives a crash once something else has been set or updated.  Missing: without
    that (refuted below). *)
Theorem C74_delete_partial : forall q k k' v, k' <> k ->
  sql_get (sql_crash (sql_set (fst (sql_delete q k)) k' v)) k = VNone /\
  sql_get (sql_crash (sql_update (fst (sql_delete q k)) k' v)) k = VNone.
Proof. exact delete_committed. Qed.
Print Assumptions C74_delete_partial.

Example C74_case : let q := qrun sql_empty [QSet (u "a") (u "1"); QSet (u "b") (u "2")] in
  u "b" <> u "a" /\ sql_get q (u "a") = VStr (u "1") /\ sql_get (sql_crash (sql_set (fst (sql_delete q (u "a"))) (u "b") (u "3"))) (u "a") = VNone.
Proof. split; [discriminate|]. vm_compute. split; reflexivity. Qed.

Theorem C74_delete_refuted : exists h k v, snd (qexec (qrun sql_empty h) (QDelete k)) = 1%Z /\
  sql_get (fst (qexec (qrun sql_empty h) (QDelete k))) k = VNone /\
  sql_get (sql_crash (fst (qexec (qrun sql_empty h) (QDelete k)))) k = VStr v.
Proof. exists [QSet (u "a") (u "1")], (u "a"), (u "1"). vm_compute. repeat split; reflexivity. Qed.
Print Assumptions C74_delete_refuted.

(** C117: a crash takes back exactly the deletions after the last set, update or flush. *)
Theorem C117_crash : forall h h' k, settled h -> (forall o, In o h' -> exists k, o = QDelete k) ->
  sql_get (sql_crash (qrun sql_empty (h ++ h'))) k = match qlatest k h with Some v => VStr v | None => VNone end.
Proof. exact crash_exact. Qed.
Print Assumptions C117_crash.

Example C117_case : let h := [QSet (u "a") (u "1"); QSet (u "b") (u "2"); QDelete (u "a"); QFlush] in let h' := [QDelete (u "b")] in
  settled h /\ (forall o, In o h' -> exists k, o = QDelete k) /\
  sql_get (qrun sql_empty (h ++ h')) (u "b") = VNone /\ qlatest (u "b") h = Some (u "2") /\ qlatest (u "a") h = None.
Proof.
  cbv zeta. split; [|split].
  - right. exists [QSet (u "a") (u "1"); QSet (u "b") (u "2"); QDelete (u "a")], QFlush. split; [reflexivity|discriminate].
  - intros o [<-|[]]. eauto.
  - vm_compute. repeat split; reflexivity.
Qed.

(** C91: what set() has written survives a crash. *)
Theorem C91_sql_set : forall q k v, sql_get (sql_crash (sql_set q k v)) k = VStr v.
Proof. exact set_committed. Qed.
Print Assumptions C91_sql_set.

Example C91_case : let q := fst (sql_delete (qrun sql_empty [QSet (u "a") (u "1")]) (u "a")) in
  sql_get (sql_crash q) (u "a") = VStr (u "1") /\ sql_get (sql_crash (sql_set q (u "a") (u "2"))) (u "a") = VStr (u "2").
Proof. vm_compute. split; reflexivity. Qed.

(** C75: the entry of the type if it is not empty, else that of the default, which has to be there
    when it is asked for. *)
Theorem C75_storage_conf : forall d typ,
  (truthy (entry d typ) = true -> get_storage_conf (VDict d) typ = Ok (entry d typ)) /\
  (d <> [] -> truthy (entry d typ) = false -> typ <> u "default" ->
     get_storage_conf (VDict d) typ = Ok (entry d (u "default"))) /\
  (d <> [] -> truthy (entry d (u "default")) = false -> get_storage_conf (VDict d) (u "default") = Err EConfigurationError) /\
  get_storage_conf VNone typ = Ok VNone /\ get_storage_conf (VDict []) typ = Ok VNone.
Proof. exact storage_conf. Qed.
Print Assumptions C75_storage_conf.
(** init_storage makes the named storage of that entry, or a dictionary in memory *)
Theorem C75_init_storage : forall d key,
  let own := entry d key in let e := if truthy own then own else entry d (u "default") in
  (forall c, d <> [] -> (truthy own = true \/ key <> u "default") -> e = VDict c -> c <> [] ->
     init_storage (VDict d) key = if truthy (entry c (u "handler")) then Ok (Handler (entry c (u "handler")) (ddel c (u "handler")))
                                  else Err EConfigurationError) /\
  (d <> [] -> key <> u "default" -> truthy own = false -> truthy (entry d (u "default")) = false ->
     init_storage (VDict d) key = Ok (InMemory key)) /\
  init_storage VNone key = Ok (InMemory key).
Proof. exact storage_chosen. Qed.
Print Assumptions C75_init_storage.
(** what is neither a dictionary nor empty has no method get *)
Theorem C75_no_dictionary : forall v d key,
  (forall c, v <> VDict c) -> (forall c m, v <> VMsg c m) -> truthy v = true ->
  get_storage_conf v key = Err EAttributeError /\ init_storage v key = Err EAttributeError /\
  (entry d key = v \/ (truthy (entry d key) = false /\ key <> u "default" /\ entry d (u "default") = v) -> init_storage (VDict d) key = Err EAttributeError).
Proof. exact storage_no_dictionary. Qed.
Print Assumptions C75_no_dictionary.

Example C75_case_no_dictionary : init_storage (VDict [(u "default", VStr (u "m.C"))]) (u "state") = Err EAttributeError /\
  init_storage (VDict [(u "default", VStr [])]) (u "state") = Ok (InMemory (u "state")).
Proof. split; vm_compute; reflexivity. Qed.

Example C75_case : let c := VDict [(u "handler", VStr (u "m.C")); (u "fdir", VStr (u "db"))] in
  let d := [(u "default", c); (u "state", VDict [])] in
  get_storage_conf (VDict d) (u "state") = Ok c /\ get_storage_conf (VDict d) (u "keyjar") = Ok c /\
  get_storage_conf (VDict [(u "state", c)]) (u "default") = Err EConfigurationError /\
  init_storage (VDict d) (u "state") = Ok (Handler (VStr (u "m.C")) [(u "fdir", VStr (u "db"))]) /\
  init_storage (VDict [(u "state", c)]) (u "keyjar") = Ok (InMemory (u "keyjar")).
Proof. vm_compute. repeat split; reflexivity. Qed.

(** C76: the result always ends in "/"; it starts with "./" and is stable unless the path is dots
    that no slash follows.  Missing: those paths (refuted below). *)
Theorem C76_proper_path_partial : forall p,
  (exists r, proper_path p = r ++ u "/") /\
  ((exists r, proper_path p = u "./" ++ r) <-> ~ dotted p) /\
  (~ dotted p -> proper_path (proper_path p) = proper_path p).
Proof. exact proper_path_spec. Qed.
Print Assumptions C76_proper_path_partial.

Example C76_case : proper_path (u "/a") = u "./a/" /\ proper_path (u ".././x") = u "././x/" /\ proper_path (u "..x") = u "x/" /\
  dotted (u "..x").
Proof. split; [reflexivity|]. split; [reflexivity|]. split; [reflexivity|]. exists 1%nat, (u "x"). split; [reflexivity|split; discriminate]. Qed.

(** "." and ".." become the root directory, ".x" loses its dot, and a second call changes it again *)
Theorem C76_proper_path_refuted : proper_path (u ".") = u "/" /\ proper_path (u "..") = u "/" /\
  proper_path (u ".x") = u "x/" /\ proper_path (proper_path (u ".x")) = u "./x/".
Proof. vm_compute. repeat split; reflexivity. Qed.
Print Assumptions C76_proper_path_refuted.

(** C77: a name with one colon is split there, one with more is refused; without colon it is split at
    the last dot, and refused if there is none. *)
Theorem C77_modsplit : forall name,
  (forall m c, name = m ++ u ":" ++ c -> ~ In 58 m -> ~ In 58 c -> modsplit name = Ok (m, c)) /\
  ((2 <= count_occ N.eq_dec name 58%N)%nat -> modsplit name = Err EValueError) /\
  (~ In 58 name -> In 46 name -> exists m c, modsplit name = Ok (m, c) /\ name = m ++ u "." ++ c /\ ~ In 46 c) /\
  (~ In 58 name -> ~ In 46 name -> modsplit name = Err EValueError).
Proof. exact modsplit_spec. Qed.
Print Assumptions C77_modsplit.

Example C77_case : modsplit (u "a.b:C") = Ok (u "a.b", u "C") /\ modsplit (u "a.b.C") = Ok (u "a.b", u "C") /\
  modsplit (u "a:b:C") = Err EValueError /\ modsplit (u "C") = Err EValueError.
Proof. vm_compute. repeat split; reflexivity. Qed.

(** C83: if add_base_path returns, every path that it was to complete is absolute ... *)
Theorem C83_absolute_partial : forall items conf v, add_base_path items conf = Ok tt -> addressed items conf v -> absolute v.
Proof. exact paths_absolute. Qed.
Print Assumptions C83_absolute_partial.

(** ... if it raises NameError there is a relative one, and AttributeError if there is something else or no place to look for it ... *)
Theorem C83_refused_partial : forall items conf e, description items -> add_base_path items conf = Err e ->
  (e = ENameError /\ exists v, addressed items conf v /\ relative v) \/
  (e = EAttributeError /\ ((exists v, addressed items conf v /\ forall p, v <> VStr p) \/ (exists v, looked_in items conf v /\ forall d, ~ mapping v d))).
Proof. exact why_refused. Qed.
Print Assumptions C83_refused_partial.

Theorem C83_undescribed_partial : forall items conf, (forall l, items <> VDict l) -> (forall c l, items <> VMsg c l) ->
  add_base_path items conf = Err EAttributeError.
Proof. exact not_described. Qed.
Print Assumptions C83_undescribed_partial.

(** ... as it raises NameError for every relative path it is to complete.  Full statement: [add_base_path items base conf] returns [conf]
    with [base/p] in the place of each relative path [p] with [addressed items conf (VStr p)], everything else unchanged. *)
Theorem C83_base_path_refuted : forall section a part conf p, section <> [] ->
  dget conf section = Some (VDict part) -> dget part a = Some (VStr p) -> p <> [] -> ~ (exists r, p = u "/" ++ r) ->
  add_base_path (VDict [(section, VList [VStr a])]) (VDict conf) = Err ENameError.
Proof. exact relative_path. Qed.
Print Assumptions C83_base_path_refuted.

Example C83_case : let items := VDict [(u "keys", VList [VStr (u "private_path"); VStr (u "public_path")])] in
  add_base_path items (VDict [(u "keys", VDict [(u "public_path", VStr (u "jwks.json"))])]) = Err ENameError /\
  add_base_path items (VDict [(u "keys", VDict [(u "public_path", VStr (u "/jwks.json"))])]) = Ok tt.
Proof. vm_compute. split; reflexivity. Qed.
(** a description with all three kinds of sections *)
Example C83_nested : let items := VDict [(u "a", VDict [(u "b", VList [VStr (u "p")]); (u "q", VNone)]); ([], VList [VStr (u "log")])] in
  let conf p q := VDict [(u "log", VStr (u "/log")); (u "a", VDict [(u "b", VDict [(u "p", p)]); (u "q", q)])] in
  description items /\ add_base_path items (conf (VStr (u "/p")) (VStr (u "/q"))) = Ok tt /\
  addressed items (conf (VStr (u "/p")) (VStr (u "/q"))) (VStr (u "/p")) /\
  add_base_path items (conf (VStr (u "p")) (VStr (u "/q"))) = Err ENameError /\ add_base_path items (conf (VStr (u "/p")) (VStr (u "q"))) = Err ENameError /\
  add_base_path items (conf (VInt 1) VNone) = Err EAttributeError /\ add_base_path items (VDict [(u "a", VStr (u "b"))]) = Err EAttributeError.
Proof. exact nested_paths. Qed.

(** C89: iterating over a LabeledDict with a label raises ValueError as soon as there is an entry. *)
Theorem C89_iteration_refuted : forall label h k v, label <> [] -> dlatest k h = Some v ->
  snd (ld_exec (render label) (fst (ld_run (render label) [] h)) DIter) = RItems (Err EValueError).
Proof. exact iteration_fails. Qed.
Print Assumptions C89_iteration_refuted.
(** Without a label it works only if every key has two characters; these are given out instead of the keys and values. *)
Theorem C89_unlabelled : forall h l, let d := fst (ld_run (render []) [] h) in
  (snd (ld_exec (render []) d DIter) = RItems (Ok l) <-> Forall2 (fun (kv : ustr * value) (p : ustr * value) => exists a b, fst kv = [a; b] /\ p = ([a], VStr [b])) d l) /\
  (forall e, snd (ld_exec (render []) d DIter) = RItems (Err e) -> e = EValueError).
Proof. exact iteration_pairs. Qed.
Print Assumptions C89_unlabelled.
Example C89_case_unlabelled : let d := fst (ld_run (render []) [] [DSet (u "ab") (VInt 1); DSet (u "cd") VNone]) in
  snd (ld_exec (render []) d DIter) = RItems (Ok [(u "a", VStr (u "b")); (u "c", VStr (u "d"))]).
Proof. vm_compute. reflexivity. Qed.

Example C89_case : let h := [DSet (u "a") (VInt 1); DSet (u "b") (VInt 2); DDel (u "b")] in dlatest (u "a") h = Some (VInt 1) /\
  snd (ld_exec (render (u "op")) (fst (ld_run (render (u "op")) [] h)) DIter) = RItems (Err EValueError).
Proof. vm_compute. split; reflexivity. Qed.

(** C90: add_issuer puts the quoted issuer into every section but abstract_storage_cls, and changes
    nothing else. *)
Theorem C90_add_issuer : forall conf issuer q, quote_plus issuer = Some q ->
  Forall (fun kv => fst kv = u "abstract_storage_cls" \/ exists d, snd kv = VDict d) conf ->
  exists r, add_issuer conf issuer = Ok r /\ map fst r = map fst conf /\
    forall k v, In (k, v) r -> exists v0, In (k, v0) conf /\
      (k = u "abstract_storage_cls" -> v = v0) /\
      (k <> u "abstract_storage_cls" -> exists d0 d, v0 = VDict d0 /\ v = VDict d /\ dget d (u "issuer") = Some (VStr q) /\
        forall x, x <> u "issuer" -> dget d x = dget d0 x).
Proof. exact issuer_conf. Qed.
Print Assumptions C90_add_issuer.

Example C90_case : quote_plus (u "https://op/") = Some (u "https%3A%2F%2Fop%2F") /\
  add_issuer [(u "abstract_storage_cls", VStr (u "c")); (u "state", VDict [(u "fdir", VStr (u "db"))])] (u "https://op/") =
  Ok [(u "abstract_storage_cls", VStr (u "c")); (u "state", VDict [(u "fdir", VStr (u "db")); (u "issuer", VStr (u "https%3A%2F%2Fop%2F"))])].
Proof. vm_compute. split; reflexivity. Qed.
