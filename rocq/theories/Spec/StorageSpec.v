(** What the properties of the file storage speak about. *)
From Coq Require Import List NArith Arith Bool String.
From Verif Require Import Base.Ustr Model.Value Model.FileStore Model.Labeled Model.Sql Spec.CodecSpec.
Import ListNotations.
Open Scope list_scope.
Open Scope N_scope.

(** The storage directory is [D], and it has no subdirectories. *)
Definition placed (C : conf) (W : world) (D : ustr) : Prop :=
  c_fdir C <> [] /\ dir_at W (c_fdir C) = Some D.
Definition flat (W : world) (D : ustr) : Prop := forall n, ~ In (D ++ u "/" ++ n) (w_dirs W).
(** a path directly inside [D] *)
Definition inside (D p : ustr) : Prop := exists n, p = D ++ u "/" ++ n /\ ~ In 47 n.
Definition no_files (W : world) (D : ustr) : Prop := forall p, inside D p -> dget (w_files W) p = None.

(** Keys the storage can hold: texts other than "", "." and ".." that do not end in ".lock". *)
Definition plain_key (k : ustr) : Prop :=
  encodable k /\ k <> [] /\ k <> u "." /\ k <> u ".." /\ ~ exists r, k = r ++ u ".lock".
(** Keys that are their own file names: letters, digits and _ . - ~ *)
Definition own_char (c : N) : Prop :=
  (65 <= c <= 90) \/ (97 <= c <= 122) \/ (48 <= c <= 57) \/ c = 95 \/ c = 46 \/ c = 45 \/ c = 126.
Definition own_name (k : ustr) : Prop := Forall own_char k.

(** The value can be written, and reads back as [w]. *)
Definition storable (C : conf) (v w : value) : Prop :=
  exists t, c_ser C v = Ok t /\ encodable t /\ c_deser C (strip (newlines t)) = Ok w.

(** The last write of a key in a history: who wrote and what. *)
Definition after_op (k : ustr) (a : option (nat * value)) (e : nat * op) : option (nat * value) :=
  match e with
  | (i, OSet k' v) => if ueq_dec k' k then Some (i, v) else a
  | (_, ODel k') => if ueq_dec k' k then None else a
  | (_, OClear) => None
  | (i, OUpdate d) => fold_left (fun a kv => if ueq_dec (fst kv) k then Some (i, snd kv) else a) d a
  | _ => a
  end.
Definition latest (k : ustr) (h : list (nat * op)) : option (nat * value) := fold_left (after_op k) h None.

(** The operations the theorems cover. *)
Definition legal (C : conf) (o : op) : Prop :=
  match o with
  | OSet k v => plain_key k /\ exists w, storable C v w
  | OGet k | OHas k => plain_key k
  | ODel k => plain_key k /\ own_name k
  | OUpdate d => Forall (fun kv => plain_key (fst kv) /\ exists w, storable C (snd kv) w) d
  | OKeys | OItems | OLen | OClear => True
  end.

(** What one process alone is answered when [g] is the last write of each key. *)
Definition answers (g : ustr -> option (nat * value)) (o : op) (r : outcome) : Prop :=
  match o with
  | OSet _ _ | ODel _ | OClear | OUpdate _ => r = RUnit (Ok tt)
  | OGet k => r = RVal (match g k with Some (_, v) => Ok v | None => Err EKeyError end)
  | OHas k => r = RBool (Ok (match g k with Some _ => true | None => false end))
  | OKeys => exists l, r = RKeys (Ok l) /\ NoDup l /\ forall k, In k l <-> g k <> None
  | OItems => exists l, r = RItems (Ok l) /\ NoDup (map fst l) /\
      forall k v, In (k, v) l <-> exists i, g k = Some (i, v)
  | OLen => exists l, r = RLen (Ok (List.length l)) /\ NoDup l /\ forall k : ustr, In k l <-> g k <> None
  end.

(** What a new instance on the directory answers for [k]. *)
Definition reading (C : conf) (W : world) (k : ustr) : res value :=
  match new C W with
  | (W', S', Ok _) => snd (getitem C W' S' k)
  | (_, _, Err e) => Err e
  end.
(** The operation does not delete by a key with a slash. *)
Definition tame (o : op) : Prop := match o with ODel k => ~ In 47 k | _ => True end.

(** ** Labelled views *)
(** Neither label is a prefix of the other. *)
Definition apart (L M : ustr) : Prop := (~ exists r, M = L ++ r) /\ (~ exists r, L = M ++ r).
(** What view [i] wrote last for its key [k]. *)
Definition vafter (i : nat) (k : ustr) (a : option value) (e : nat * vop) : option value :=
  match e with
  | (j, VSet k' v) => if Nat.eq_dec j i then if ueq_dec k' k then Some v else a else a
  | (j, VDel k') => if Nat.eq_dec j i then if ueq_dec k' k then None else a else a
  | _ => a
  end.
Definition vlatest (i : nat) (k : ustr) (h : list (nat * vop)) : option value := fold_left (vafter i k) h None.
Definition vlegal (C : conf) (L : ustr) (o : vop) : Prop :=
  match o with
  | VSet k v => plain_key (L ++ k) /\ exists w, storable C v w
  | VGet k | VHas k => plain_key (L ++ k)
  | VDel k => plain_key (L ++ k) /\ own_name (L ++ k)
  | VKeys | VItems | VLen | VUpdate _ => True
  end.
(** what a view is answered when [g] is what it wrote last; nothing is said about the length *)
Definition vanswers (g : ustr -> option value) (o : vop) (r : outcome) : Prop :=
  match o with
  | VSet _ _ | VDel _ => r = RUnit (Ok tt)
  | VGet k => r = RVal (Ok (match g k with Some v => v | None => VNone end))
  | VHas k => r = RBool (Ok (match g k with Some _ => true | None => false end))
  | VKeys => exists l, r = RKeys (Ok l) /\ NoDup l /\ forall k, In k l <-> g k <> None
  | VItems => exists l, r = RItems (Ok l) /\ NoDup (map fst l) /\ forall k v, In (k, v) l <-> g k = Some v
  | VLen => True
  | VUpdate _ => r = RUnit (Err EAttributeError)
  end.

(** ** LabeledDict *)
Definition dafter (k : ustr) (a : option value) (o : dop) : option value :=
  match o with
  | DSet k' v => if ueq_dec k' k then Some v else a
  | DDel k' => if ueq_dec k' k then None else a
  | _ => a
  end.
Definition dlatest (k : ustr) (h : list dop) : option value := fold_left (dafter k) h None.
(** nothing is said about update and iteration *)
Definition danswers (g : ustr -> option value) (o : dop) (r : outcome) : Prop :=
  match o with
  | DSet _ _ => r = RUnit (Ok tt)
  | DGet k x => r = RVal (Ok (match g k with Some v => v | None => x end))
  | DItem k => r = RVal (Ok (match g k with Some v => v | None => VNone end))
  | DDel k => r = RUnit (match g k with Some _ => Ok tt | None => Err EKeyError end)
  | DHas k => r = RBool (Ok (match g k with Some _ => true | None => false end))
  | DKeys => exists l, r = RKeys (Ok l) /\ NoDup l /\ forall k, In k l <-> g k <> None
  | DUpdate _ | DIter => True
  end.

(** ** SQL storage *)
(** The value of an owner after an operation. *)
Definition qafter (k : ustr) (a : option ustr) (o : qop) : option ustr :=
  match o with
  | QSet k' v => if ueq_dec k' k then Some v else a
  | QUpdate k' v => if ueq_dec k' k then match a with Some _ => Some v | None => None end else a
  | QDelete k' => if ueq_dec k' k then None else a
  | QFlush => a
  end.
Definition qlatest (k : ustr) (h : list qop) : option ustr := fold_left (qafter k) h None.
(** nothing or an operation other than a deletion comes last *)
Definition settled (h : list qop) : Prop := h = [] \/ exists h' o, h = h' ++ [o] /\ forall k, o <> QDelete k.

(** ** Races *)
(** nobody has begun *)
Definition start_race (W : world) (P : procs) : race := mkR W P (fun _ => O) None.
(** what process [j] is answered after the race *)
Definition race_get (C : conf) (R : race) (j : nat) (k : ustr) : res value := snd (getitem C (r_W R) (r_P R j) k).

(** ** Directories and paths *)
(** the directory holds a file whose name has at least [n] characters *)
Definition long_name (W : world) (D : ustr) (n : nat) : Prop :=
  exists f, ~ In 47 f /\ dget (w_files W) (D ++ u "/" ++ f) <> None /\ (n <= List.length f)%nat.
(** One or more dots, followed by the end or by neither a slash nor a dot: ".", "..", ".x". *)
Definition dotted (p : ustr) : Prop := exists n r, p = repeat 46 (Datatypes.S n) ++ r /\ match r with c :: _ => c <> 47 /\ c <> 46 | [] => True end.
(** an entry of a configuration *)
Definition entry (d : dict value) (k : ustr) : value := match dget d k with Some v => v | None => VNone end.
