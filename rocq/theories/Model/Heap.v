(** Instances of a message class as Python objects: what list objects they share.

    The model of message.py in Model/Message.v gives each message its own content.  Here the lists
    stored in messages are objects with an identity.  Simplifications: only the lists directly under
    a parameter are objects that can be changed in place (not the ones inside of dictionaries or of
    other lists), and callers pass lists of their own, used for one message only. *)
From Coq Require Import List NArith ZArith Bool String.
From Verif Require Import Base.Ustr Model.Value Model.Pspec Model.Message.
Import ListNotations.

(** a list object: the one in the [c_default] of the class under a key, or one made at run time; message.py:73-78, 322-441 *)
Inductive loc := LDef (k : ustr) | LNew (n : nat).
(** a value of a parameter, message.py:322-441 *)
Inductive hval := HVal (v : value) | HRef (l : loc).

(** the contents of the list objects, and the [_dict] of each instance in order of creation; message.py:37-47 *)
Record world := { w_def : dict (list value); w_new : list (list value); w_inst : list (dict hval) }.

Section Class.
  Variable C : clsdef.

  (** [c_default] of the class body: one list object for each list (oidc/__init__.py:633, 902-911) *)
  Definition class_default : dict hval :=
    map (fun kv => (fst kv, match snd kv with VList _ => HRef (LDef (fst kv)) | v => HVal v end)) (cd_default C).
  (** the module was imported and no instance made; c_default, message.py:29-47 *)
  Definition start : world :=
    {| w_def := List.concat (map (fun kv => match snd kv with VList l => [(fst kv, l)] | _ => [] end) (cd_default C));
       w_new := []; w_inst := [] |}.

  (** [self._dict[key] = val], message.py:343-441, with a list of its own *)
  Definition store (W : world) (d : dict hval) (k : ustr) (v : value) : world * dict hval :=
    match v with
    | VList l => ({| w_def := w_def W; w_new := w_new W ++ [l]; w_inst := w_inst W |},
                  dset d k (HRef (LNew (List.length (w_new W)))))
    | _ => (W, dset d k (HVal v))
    end.

  (** the loop of from_dict, message.py:284-320; None: an exception *)
  Fixpoint load (W : world) (d : dict hval) (l : dict value) : option (world * dict hval) :=
    match l with
    | [] => Some (W, d)
    | (k, v) :: r =>
        match fd_entry the_lib (cd_param C) k v with
        | Err _ => None
        | Ok None => load W d r
        | Ok (Some x) => let (W', d') := store W d k x in load W' d' r
        end
    end.

  (** put the [_dict] of an instance back; message.py:37-47 *)
  Fixpoint replace {A} (l : list A) (i : nat) (x : A) : list A :=
    match l, i with
    | [], _ => []
    | _ :: r, O => x :: r
    | y :: r, S i => y :: replace r i x
    end.
  (** the [_dict] of an instance changes, message.py:701-729 *)
  Definition put_inst (W : world) (i : nat) (d : dict hval) : world :=
    {| w_def := w_def W; w_new := w_new W; w_inst := replace (w_inst W) i d |}.
  (** another instance, message.py:37-47 *)
  Definition add_inst (W : world) (d : dict hval) : world :=
    {| w_def := w_def W; w_new := w_new W; w_inst := w_inst W ++ [d] |}.

  (** a list object gets a new content: append, extend, remove, clear, sort, ... a list that message.py:636-643 gave out *)
  Definition write (W : world) (o : loc) (l : list value) : world :=
    match o with
    | LDef k => {| w_def := dset (w_def W) k l; w_new := w_new W; w_inst := w_inst W |}
    | LNew n => {| w_def := w_def W; w_new := replace (w_new W) n l; w_inst := w_inst W |}
    end.

  (** what callers do, message.py:37-47, 636-643, 701-729 *)
  Inductive op :=
  | New (sd : bool) (kw : dict value)       (* cls(set_defaults, **kw) *)
  | Set_ (i : nat) (k : ustr) (v : value)   (* m_i[k] = v *)
  | Del (i : nat) (k : ustr)                (* del m_i[k] *)
  | Defaults (i : nat)                      (* m_i.set_defaults() *)
  | Change (i : nat) (k : ustr) (l : list value). (* m_i[k] is changed in place to l *)

  (** Message.__init__ message.py:37-47 ([self._dict = self.c_default.copy()], a shallow copy),
      __setitem__ 701-706, __delitem__ 728-729, set_defaults 73-78.  An operation that raises an
      exception leaves the world as it was; the instance of a failed constructor is garbage. *)
  Definition step (W : world) (o : op) : world :=
    match o with
    | New sd kw =>
        match load W (if sd then class_default else []) kw with
        | Some (W', d) => add_inst W' d
        | None => W
        end
    | Set_ i k v =>
        match nth_error (w_inst W) i with
        | None => W
        | Some d =>
            let r := match dget (cd_param C) k with Some s => add_val the_lib s v | None => Ok (Some v) end in
            match r with
            | Ok (Some x) => let (W', d') := store W d k x in put_inst W' i d'
            | Err EKeyError => let (W', d') := store W d k v in put_inst W' i d'
            | _ => W
            end
        end
    | Del i k =>
        match nth_error (w_inst W) i with Some d => put_inst W i (ddel d k) | None => W end
    | Defaults i =>
        match nth_error (w_inst W) i with
        | Some d => put_inst W i (fold_left (fun d kv => if dhas d (fst kv) then d else dset d (fst kv) (snd kv)) class_default d)
        | None => W
        end
    | Change i k l =>
        match nth_error (w_inst W) i with
        | Some d => match dget d k with Some (HRef o) => write W o l | _ => W end
        | None => W
        end
    end.
  (** a history, message.py:37-47, 636-643, 701-729 *)
  Definition run (W : world) (h : list op) : world := fold_left step h W.

  (** the value of a parameter of an instance; message.py:636-643 *)
  Definition content_of (W : world) (x : hval) : option value :=
    match x with
    | HVal v => Some v
    | HRef (LDef k) => option_map VList (dget (w_def W) k)
    | HRef (LNew n) => option_map VList (nth_error (w_new W) n)
    end.
  (** m[k], message.py:636-643 *)
  Definition look (W : world) (i : nat) (k : ustr) : option value :=
    match nth_error (w_inst W) i with
    | Some d => match dget d k with Some x => content_of W x | None => None end
    | None => None
    end.
End Class.
