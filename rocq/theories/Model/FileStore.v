(** src/oidcmsg/storage/abfile.py: AbstractFileSystem on a model of a file system. *)
From Coq Require Import List NArith ZArith Bool String.
From Verif Require Import Base.Ustr Base.Utf8 Model.Value Model.Converter.
Import ListNotations.
Open Scope list_scope.
Open Scope N_scope.

(** ** The file system
    Files by their absolute path without "." and "..", with text and modification time (ns); the
    directories by the same kind of path, "" is the root.  Simplifications: no links, no
    permissions, no limits on names; every text file is UTF-8. *)
Record world := mkW { w_files : dict (ustr * N); w_dirs : list ustr; w_cwd : ustr; w_clock : N }.

(** os.path.join(a, b) (posixpath); storage/abfile.py:93, 118, 129, 173, 215, 279 *)
Definition path_join (a b : ustr) : ustr :=
  if startswith (u "/") b then b
  else match a with [] => b | _ => if endswith (u "/") a then a ++ b else a ++ u "/" ++ b end.
(** the path of an entry of a directory; os.path.join in storage/abfile.py:99-126 *)
Definition child (d n : ustr) : ustr := d ++ 47 :: n.
(** the directory a directory is in; that of the root is the root; .. in a path, storage/abfile.py:128-138 *)
Definition parent (d : ustr) : ustr := rev (tl (snd (span (fun c => negb (c =? 47)) (rev d)))).
(** names that lead nowhere else in a path, storage/abfile.py:128-138 *)
Definition dot (n : ustr) : bool := ueqb n [] || ueqb n [46].
(** .. in a path, storage/abfile.py:128-138 *)
Definition dotdot (n : ustr) : bool := ueqb n [46; 46].
(** follow directory names; resolution of a path by open, storage/abfile.py:99-138 *)
Fixpoint walk (dirs : list ustr) (cur : ustr) (names : list ustr) : option ustr :=
  match names with
  | [] => Some cur
  | n :: r =>
      if dot n then walk dirs cur r
      else if dotdot n then walk dirs (parent cur) r
      else if umem (child cur n) dirs then walk dirs (child cur n) r else None
  end.
(** absolute and relative paths, storage/abfile.py:99-138 *)
Definition start (W : world) (s : ustr) : ustr := if startswith (u "/") s then [] else w_cwd W.
(** the directory a path names; storage/abfile.py:214, 251, 278 *)
Definition dir_at (W : world) (s : ustr) : option ustr := walk (w_dirs W) (start W s) (split_on 47 s).
(** where the file a path names is or would be; storage/abfile.py:99-138 *)
Definition locate (W : world) (s : ustr) : option ustr :=
  let names := split_on 47 s in
  let n := last names [] in
  match walk (w_dirs W) (start W s) (removelast names) with
  | Some d => if dot n || dotdot n || umem (child d n) (w_dirs W) then None else Some (child d n)
  | None => None
  end.

(** the file that a path names, storage/abfile.py:149-204 *)
Definition file_at (W : world) (s : ustr) : option (ustr * N) :=
  match locate W s with Some p => dget (w_files W) p | None => None end.
(** os.path.isfile; storage/abfile.py:130, 174, 193, 217, 281 *)
Definition isfile (W : world) (s : ustr) : bool := match file_at W s with Some _ => true | None => false end.
(** a file gets another content, storage/abfile.py:99-126 *)
Definition put (W : world) (p : ustr) (f : ustr * N) : world :=
  mkW (dset (w_files W) p f) (w_dirs W) (w_cwd W) (w_clock W).
(** open(s, 'w'): an empty file; storage/abfile.py:99-126 *)
Definition open_w (W : world) (s : ustr) : res world :=
  match locate W s with Some p => Ok (put W p ([], w_clock W)) | None => Err EOSError end.
(** fp.write(t) and closing; a surrogate cannot be encoded; storage/abfile.py:99-126 *)
Definition write (W : world) (s t : ustr) : res world :=
  match utf8_encode t, locate W s with
  | Some _, Some p => Ok (put W p (t, w_clock W))
  | None, _ => Err EUnicodeEncodeError
  | _, None => Err EOSError
  end.
(** FileLock(s + '.lock') entered and left, at one instant: the file is created or truncated
    (filelock: O_RDWR | O_CREAT | O_TRUNC) and stays; storage/abfile.py:99-138, 192-204 *)
Definition lock (W : world) (s : ustr) : res world := open_w W (s ++ u ".lock").
(** os.unlink, storage/abfile.py:128-138 *)
Definition unlink (W : world) (s : ustr) : world :=
  match locate W s with
  | Some p => mkW (ddel (w_files W) p) (w_dirs W) (w_cwd W) (w_clock W)
  | None => W
  end.
(** the names of the files in directory [d] (os.listdir without subdirectories, for which all the
    code does nothing).  Simplification: in the order of creation. storage/abfile.py:206-252 *)
Definition in_dir (d : ustr) (p : ustr) : option ustr :=
  if startswith (d ++ [47]) p then
    let n := skipn (S (List.length d)) p in if has_char 47 n then None else Some n
  else None.
(** the names of the files in a directory, storage/abfile.py:206-252 *)
Definition file_names (W : world) (d : ustr) : list ustr :=
  flat_map (fun e => match in_dir d (fst e) with Some n => [n] | None => [] end) (w_files W).
(** os.listdir, storage/abfile.py:206-252 *)
Definition listdir (W : world) (s : ustr) : res (list ustr) :=
  match dir_at W s with Some d => Ok (file_names W d) | None => Err EOSError end.

(** open(s, 'r').read(): universal newlines; storage/abfile.py:192-204 *)
Fixpoint newlines (s : ustr) : ustr :=
  match s with
  | [] => []
  | c :: r =>
      if c =? 13 then 10 :: newlines (match r with d :: r' => if d =? 10 then r' else r | [] => r end)
      else c :: newlines r
  end.

(** ** AbstractFileSystem
    The configuration: directory and value converter; the key converter is the default, QPKey.
    Simplification: the directory exists (lines 71-72, 110-111, 211-212 and 247-249 create it when
    it is missing) and stays; lines 45-69 only choose the directory and the converters. *)
Record conf := mkC { c_fdir : ustr; c_ser : value -> res ustr; c_deser : ustr -> res value }.
(** the instance attributes fmtime and storage; storage/abfile.py:26-74 *)
Record st := mkS { s_fmtime : dict N; s_storage : dict value }.
(** a new instance, storage/abfile.py:26-74 *)
Definition s_new : st := mkS [] [].

(** self.fmtime[f] = m, storage/abfile.py:99-126, 166-190 *)
Definition seen (S : st) (f : ustr) (m : N) : st := mkS (dset (s_fmtime S) f m) (s_storage S).
(** self.storage[f] = v, storage/abfile.py:82-126 *)
Definition cache (S : st) (f : ustr) (v : value) : st := mkS (s_fmtime S) (dset (s_storage S) f v).

(** __setitem__, abfile.py:99-126, in the steps that other processes can come between.
    Simplification: values are immutable, the cached object is not shared with the caller. *)
(** lock and open: lines 119-121 *)
Definition set_open (C : conf) (W : world) (f : ustr) : world * res unit :=
  let fname := path_join (c_fdir C) f in
  match lock W fname with
  | Ok W1 => match open_w W1 fname with Ok W2 => (W2, Ok tt) | Err e => (W1, Err e) end
  | Err e => (W, Err e)
  end.
(** line 122, the lock is released after it *)
Definition set_write (C : conf) (W : world) (f : ustr) (v : value) : world * res unit :=
  match c_ser C v with
  | Ok t => match write W (path_join (c_fdir C) f) t with Ok W' => (W', Ok tt) | Err e => (W, Err e) end
  | Err e => (W, Err e)
  end.
(** line 124 is [cache]; line 126: the modification time *)
Definition set_stat (C : conf) (W : world) (S : st) (f : ustr) : st * res unit :=
  match file_at W (path_join (c_fdir C) f) with
  | Some (_, m) => (seen S f m, Ok tt)
  | None => (S, Err EOSError)
  end.
(** __setitem__ as a whole, storage/abfile.py:99-126 *)
Definition set (C : conf) (W : world) (S : st) (key : ustr) (v : value) : world * st * res unit :=
  match qpkey_serialize key with
  | Err e => (W, S, Err e)
  | Ok f =>
      match set_open C W f with
      | (W1, Err e) => (W1, S, Err e)
      | (W1, Ok _) =>
          match set_write C W1 f v with
          | (W2, Err e) => (W2, S, Err e)
          | (W2, Ok _) => let (S', r) := set_stat C W2 (cache S f v) f in (W2, S', r)
          end
      end
  end.

(** __delitem__, 128-138: the key is used as it is *)
Definition del (C : conf) (W : world) (S : st) (key : ustr) : world * st * res unit :=
  let fname := path_join (c_fdir C) key in
  let S' := mkS (s_fmtime S) (ddel (s_storage S) key) in
  if isfile W fname then
    match lock W fname with
    | Ok W1 => (unlink W1 fname, S', Ok tt)
    | Err e => (W, S, Err e)
    end
  else (W, S', Ok tt).

(** is_changed, 166-190, with get_mtime, 148-164 (its second attempt concerns files that vanish in
    between) *)
Definition is_changed (C : conf) (W : world) (S : st) (f : ustr) : st * res bool :=
  match file_at W (path_join (c_fdir C) f) with
  | Some (_, m) =>
      match dget (s_fmtime S) f with
      | None => (seen S f m, Ok true)
      | Some t => if t <? m then (seen S f m, Ok true) else (S, Ok false)
      end
  | None => (S, Err EKeyError)
  end.
(** _read_info, 192-204 *)
Definition read_info (C : conf) (W : world) (f : ustr) : world * res value :=
  let fname := path_join (c_fdir C) f in
  if isfile W fname then
    match lock W fname with
    | Ok W1 => match file_at W1 fname with
               | Some (t, _) => (W1, c_deser C (strip (newlines t)))
               | None => (W1, Err EOSError)
               end
    | Err e => (W, Err e)
    end
  else (W, Ok VNone).

(** __getitem__, 82-97 *)
Definition getitem (C : conf) (W : world) (S : st) (key : ustr) : world * st * res value :=
  match qpkey_serialize key with
  | Err e => (W, S, Err e)
  | Ok f =>
      let answer S := match dget (s_storage S) f with Some v => Ok v | None => Err EKeyError end in
      match is_changed C W S f with
      | (S1, Err e) => (W, S1, Err e)
      | (S1, Ok false) => (W, S1, answer S1)
      | (S1, Ok true) =>
          match read_info C W f with
          | (W1, Err e) => (W1, S1, Err e)
          | (W1, Ok v) => let S2 := cache S1 f v in (W1, S2, answer S2)
          end
      end
  end.
(** get, 76-80 *)
Definition get (C : conf) (W : world) (S : st) (key : ustr) (default : value) : world * st * res value :=
  match getitem C W S key with
  | (W', S', Err EKeyError) => (W', S', Ok default)
  | r => r
  end.
(** __contains__, 264-265 *)
Definition contains (S : st) (key : ustr) : res bool :=
  do f <- qpkey_serialize key ; Ok (dhas (s_storage S) f).

(** synch, 206-232: one file, then all of them *)
Definition synch_file (C : conf) (W : world) (S : st) (f : ustr) : world * st * res unit :=
  match file_at W (path_join (c_fdir C) f) with
  | None => (W, S, Ok tt)
  | Some (_, m) =>
      if endswith (u ".lock") f then (W, S, Ok tt)
      else if dhas (s_fmtime S) f then
        match is_changed C W S f with
        | (S1, Err e) => (W, S1, Err e)
        | (S1, Ok false) => (W, S1, Ok tt)
        | (S1, Ok true) =>
            match read_info C W f with
            | (W1, Err e) => (W1, S1, Err e)
            | (W1, Ok v) => (W1, cache S1 f v, Ok tt)
            end
        end
      else
        match read_info C W f with
        | (W1, Err _) => (W1, S, Ok tt)
        | (W1, Ok v) => (W1, seen (cache S f v) f m, Ok tt)
        end
  end.
(** the loop of synch, storage/abfile.py:206-232 *)
Fixpoint synch_files (C : conf) (W : world) (S : st) (l : list ustr) : world * st * res unit :=
  match l with
  | [] => (W, S, Ok tt)
  | f :: l =>
      match synch_file C W S f with
      | (W1, S1, Ok _) => synch_files C W1 S1 l
      | r => r
      end
  end.
(** synch, storage/abfile.py:206-232 *)
Definition synch (C : conf) (W : world) (S : st) : world * st * res unit :=
  match listdir W (c_fdir C) with
  | Ok l => synch_files C W S l
  | Err e => (W, S, Err e)
  end.
(** __init__, 26-74, after the configuration has been read *)
Definition new (C : conf) (W : world) : world * st * res unit := synch C W s_new.

(** keys and items, 140-146 and 234-240 (__iter__, 267-268, is items): the generators run to their end *)
Definition items (C : conf) (W : world) (S : st) : world * st * res (list (ustr * value)) :=
  match synch C W S with
  | (W', S', Ok _) => (W', S', Ok (map (fun kv => (qpkey_deserialize (fst kv), snd kv)) (s_storage S')))
  | (W', S', Err e) => (W', S', Err e)
  end.
(** keys, storage/abfile.py:140-146 *)
Definition keys (C : conf) (W : world) (S : st) : world * st * res (list ustr) :=
  match items C W S with
  | (W', S', Ok l) => (W', S', Ok (map fst l))
  | (W', S', Err e) => (W', S', Err e)
  end.
(** __call__, 270-271: the keys of the cache *)
Definition call (S : st) : list ustr := map (fun kv => qpkey_deserialize (fst kv)) (s_storage S).
(** __len__, 273-287 *)
Definition len (C : conf) (W : world) : res nat :=
  do l <- listdir W (c_fdir C) ;
  Ok (List.length (filter (fun f => isfile W (path_join (c_fdir C) f) &&
                                    negb (endswith (u ".lock") (path_join (c_fdir C) f))) l)).

(** clear, 242-252 *)
Fixpoint del_all (C : conf) (W : world) (S : st) (l : list ustr) : world * st * res unit :=
  match l with
  | [] => (W, S, Ok tt)
  | f :: l =>
      match del C W S f with
      | (W1, S1, Ok _) => del_all C W1 S1 l
      | r => r
      end
  end.
(** clear, storage/abfile.py:242-252 *)
Definition clear (C : conf) (W : world) (S : st) : world * st * res unit :=
  match listdir W (c_fdir C) with
  | Ok l => del_all C W S l
  | Err e => (W, S, Err e)
  end.
(** update, 254-262 *)
Fixpoint update (C : conf) (W : world) (S : st) (l : dict value) : world * st * res unit :=
  match l with
  | [] => (W, S, Ok tt)
  | (k, v) :: l =>
      match set C W S k v with
      | (W1, S1, Ok _) => update C W1 S1 l
      | r => r
      end
  end.

(** ** Several processes on one directory, one operation after the other.  The clock of the file
    system advances with every operation. The methods of storage/abfile.py:76-287. *)
Inductive op :=
| OSet (k : ustr) (v : value) | OGet (k : ustr) | ODel (k : ustr) | OHas (k : ustr) | OKeys | OItems | OLen | OClear
| OUpdate (l : dict value).
(** what the methods of storage/abfile.py:76-287 return *)
Inductive outcome :=
| RUnit (r : res unit) | RVal (r : res value) | RBool (r : res bool) | RKeys (r : res (list ustr))
| RItems (r : res (list (ustr * value))) | RLen (r : res nat).
(** time passes between the operations of storage/abfile.py:76-287 *)
Definition tick (W : world) : world := mkW (w_files W) (w_dirs W) (w_cwd W) (w_clock W + 1).
(** one operation, storage/abfile.py:76-287 *)
Definition exec (C : conf) (W : world) (S : st) (o : op) : world * st * outcome :=
  let W := tick W in
  match o with
  | OSet k v => let '(W', S', r) := set C W S k v in (W', S', RUnit r)
  | OGet k => let '(W', S', r) := getitem C W S k in (W', S', RVal r)
  | ODel k => let '(W', S', r) := del C W S k in (W', S', RUnit r)
  | OHas k => (W, S, RBool (contains S k))
  | OKeys => let '(W', S', r) := keys C W S in (W', S', RKeys r)
  | OItems => let '(W', S', r) := items C W S in (W', S', RItems r)
  | OLen => (W, S, RLen (len C W))
  | OClear => let '(W', S', r) := clear C W S in (W', S', RUnit r)
  | OUpdate l => let '(W', S', r) := update C W S l in (W', S', RUnit r)
  end.
(** the states of the processes, by number; instances of the class of storage/abfile.py:16-290 *)
Definition procs := nat -> st.
(** the state of one process changes, storage/abfile.py:26-74 *)
Definition pset (P : procs) (i : nat) (S : st) : procs := fun j => if Nat.eqb j i then S else P j.
(** a history of operations, storage/abfile.py:76-287 *)
Fixpoint run (C : conf) (W : world) (P : procs) (l : list (nat * op)) : world * procs * list outcome :=
  match l with
  | [] => (W, P, [])
  | (i, o) :: l =>
      let '(W1, S1, r) := exec C W (P i) o in
      let '(W2, P2, rs) := run C W1 (pset P i S1) l in
      (W2, P2, r :: rs)
  end.

(** ** A process that dies during __setitem__, after [n] of the steps that other processes can see:
    opening the file (1), writing it (2). *)
Definition set_cut (n : nat) (C : conf) (W : world) (f : ustr) (v : value) : world :=
  match n with
  | O => W
  | S O => fst (set_open C W f)
  | _ => fst (set_write C (fst (set_open C W f)) f v)
  end.

(** ** Processes that set the same key at the same time.  Each does the steps of __setitem__
    (abfile.py:119-126) in order: 0 open under the lock, 1 write and release, 2 cache, 3 take the
    modification time.  A process that finds the lock taken waits. *)
Record race := mkR { r_W : world; r_P : procs; r_pc : nat -> nat; r_lock : option nat }.
(** one process changes, storage/abfile.py:99-126 *)
Definition nset {A} (F : nat -> A) (i : nat) (x : A) : nat -> A := fun j => if Nat.eqb j i then x else F j.
(** the next step of a process in __setitem__, storage/abfile.py:99-126 *)
Definition race_step (C : conf) (f : ustr) (vals : nat -> value) (R : race) (i : nat) : race :=
  let W := tick (r_W R) in
  let S := r_P R i in
  match r_pc R i with
  | 0 => match r_lock R with
         | Some _ => mkR W (r_P R) (r_pc R) (r_lock R)
         | None => mkR (fst (set_open C W f)) (r_P R) (nset (r_pc R) i 1%nat) (Some i)
         end
  | 1 => mkR (fst (set_write C W f (vals i))) (r_P R) (nset (r_pc R) i 2%nat) None
  | 2 => mkR W (pset (r_P R) i (cache S f (vals i))) (nset (r_pc R) i 3%nat) (r_lock R)
  | 3 => mkR W (pset (r_P R) i (fst (set_stat C W S f))) (nset (r_pc R) i 4%nat) (r_lock R)
  | _ => mkR W (r_P R) (r_pc R) (r_lock R)
  end%nat.
(** a schedule of such steps, storage/abfile.py:99-126 *)
Definition race_run (C : conf) (f : ustr) (vals : nat -> value) (R : race) (l : list nat) : race :=
  fold_left (race_step C f vals) l R.
