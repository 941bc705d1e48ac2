(** The json module of CPython 3.11: [json.dumps(v)] with default arguments and
    [json.loads(s)].  Used by src/oidcmsg/message.py:125,454,465,557,899,903 and others.
    Numbers with fraction or exponent are read and written as binary64 numbers (Model/Float.v); NaN and
    Infinity are outside the model (OutOfModel), as are rational numbers that are no binary64 numbers; the recursion limit and the digit limit of int are ignored. *)
From Coq Require Import List NArith ZArith QArith_base Bool String Lia.
From Verif Require Import Base.Ustr Base.Percent Model.Cls Model.Value Model.Float.
Import ListNotations.
Open Scope list_scope.
Open Scope N_scope.

(** lower case hexadecimal digit;
    json of the standard library, used in message.py:443-466, 898-903 and storage/converter.py:14-19 *)
Definition hexl (n : N) : N := if n <? 10 then 48 + n else 87 + n.

(** [\uXXXX]; json of the standard library, used in message.py:443-466, 898-903 and storage/converter.py:14-19 *)
Definition jhex4 (c : N) : ustr :=
  [92; 117; hexl (c / 4096 mod 16); hexl (c / 256 mod 16); hexl (c / 16 mod 16); hexl (c mod 16)].

(** one character of a JSON string (ensure_ascii=True);
    json of the standard library, used in message.py:443-466, 898-903 and storage/converter.py:14-19 *)
Definition jchar (c : N) : ustr :=
  if c =? 34 then [92; 34]
  else if c =? 92 then [92; 92]
  else if c =? 10 then [92; 110]
  else if c =? 13 then [92; 114]
  else if c =? 9 then [92; 116]
  else if c =? 12 then [92; 102]
  else if c =? 8 then [92; 98]
  else if (32 <=? c) && (c <=? 126) then [c]
  else if c <? 65536 then jhex4 c
  else jhex4 (55296 + (c - 65536) / 1024) ++ jhex4 (56320 + (c - 65536) mod 1024).

(** a text in JSON, json of the standard library, used in message.py:443-466, 898-903 and storage/converter.py:14-19 *)
Definition jstring (s : ustr) : ustr := 34 :: flat_map jchar s ++ [34].

(** text of a value; only meaningful when [jerr] is [None];
    json of the standard library, used in message.py:443-466, 898-903 and storage/converter.py:14-19 *)
Fixpoint jtext (v : value) : ustr :=
  match v with
  | VNone => u "null"
  | VBool true => u "true"
  | VBool false => u "false"
  | VInt z => dec_Z z
  | VFlt q => match float_repr q with Some t => t | None => [] end
  | VStr s => jstring s
  | VList l =>
      91 :: (fix go (l : list value) : ustr :=
               match l with
               | [] => []
               | [x] => jtext x
               | x :: r => jtext x ++ [44; 32] ++ go r
               end) l ++ [93]
  | VDict d =>
      123 :: (fix go (d : list (ustr * value)) : ustr :=
                match d with
                | [] => []
                | [(k, x)] => jstring k ++ [58; 32] ++ jtext x
                | (k, x) :: r => jstring k ++ [58; 32] ++ jtext x ++ [44; 32] ++ go r
                end) d ++ [125]
  | VMsg _ _ => []
  end.

(** the first problem met when serializing: a message object is not JSON
    serializable (TypeError);
    json of the standard library, used in message.py:443-466, 898-903 and storage/converter.py:14-19 *)
Fixpoint jerr (v : value) : option exn :=
  match v with
  | VFlt q => match float_repr q with Some _ => None | None => Some OutOfModel end
  | VMsg _ _ => Some ETypeError
  | VList l =>
      (fix go (l : list value) : option exn :=
         match l with
         | [] => None
         | x :: r => match jerr x with Some e => Some e | None => go r end
         end) l
  | VDict d =>
      (fix go (d : list (ustr * value)) : option exn :=
         match d with
         | [] => None
         | (_, x) :: r => match jerr x with Some e => Some e | None => go r end
         end) d
  | _ => None
  end.

(** [json.dumps(v)]; json of the standard library, used in message.py:443-466, 898-903 and storage/converter.py:14-19 *)
Definition json_dumps (v : value) : res ustr :=
  match jerr v with Some e => Err e | None => Ok (jtext v) end.

(** ** reading; json of the standard library, used in message.py:443-466, 898-903 and storage/converter.py:14-19 *)
Definition jws (c : N) : bool := (c =? 32) || (c =? 9) || (c =? 10) || (c =? 13).
(** white space, json of the standard library, used in message.py:443-466, 898-903 and storage/converter.py:14-19 *)
Fixpoint skipws (s : ustr) : ustr :=
  match s with
  | c :: r => if jws c then skipws r else s
  | [] => []
  end.

(** four hexadecimal digits, json of the standard library, used in message.py:443-466, 898-903 and storage/converter.py:14-19 *)
Definition hex4 (a b c d : N) : option N :=
  match hexv a, hexv b, hexv c, hexv d with
  | Some a, Some b, Some c, Some d => Some (a * 4096 + b * 256 + c * 16 + d)
  | _, _, _, _ => None
  end.

(** an escape of one character, json of the standard library, used in message.py:443-466, 898-903 and storage/converter.py:14-19 *)
Definition simple_esc (c : N) : option N :=
  if c =? 34 then Some 34 else if c =? 92 then Some 92 else if c =? 47 then Some 47
  else if c =? 98 then Some 8 else if c =? 102 then Some 12 else if c =? 110 then Some 10
  else if c =? 114 then Some 13 else if c =? 116 then Some 9 else None.

(** py_scanstring (strict): text after the opening quote -> string, rest;
    json of the standard library, used in message.py:443-466, 898-903 and storage/converter.py:14-19 *)
Fixpoint jscan (s : ustr) : res (ustr * ustr) :=
  match s with
  | [] => Err EJSONDecodeError
  | c :: r =>
      if c =? 34 then Ok ([], r)
      else if c <=? 31 then Err EJSONDecodeError
      else if c =? 92 then
        match r with
        | [] => Err EJSONDecodeError
        | e :: r1 =>
            if e =? 117 then
              match r1 with
              | h1 :: h2 :: h3 :: h4 :: r5 =>
                  match hex4 h1 h2 h3 h4 with
                  | None => Err EJSONDecodeError
                  | Some uni =>
                      let single := match jscan r5 with
                                    | Ok (t, rest) => Ok (uni :: t, rest)
                                    | Err x => Err x
                                    end in
                      if (55296 <=? uni) && (uni <=? 56319) then
                        match r5 with
                        | b1 :: b2 :: g1 :: g2 :: g3 :: g4 :: r11 =>
                            if (b1 =? 92) && (b2 =? 117) then
                              match hex4 g1 g2 g3 g4 with
                              | None => Err EJSONDecodeError
                              | Some uni2 =>
                                  if (56320 <=? uni2) && (uni2 <=? 57343) then
                                    match jscan r11 with
                                    | Ok (t, rest) =>
                                        Ok ((65536 + (uni - 55296) * 1024 + (uni2 - 56320)) :: t, rest)
                                    | Err x => Err x
                                    end
                                  else single
                              end
                            else single
                        | _ => single
                        end
                      else single
                  end
              | _ => Err EJSONDecodeError
              end
            else
              match simple_esc e with
              | None => Err EJSONDecodeError
              | Some ch => match jscan r1 with
                           | Ok (t, rest) => Ok (ch :: t, rest)
                           | Err x => Err x
                           end
              end
        end
      else match jscan r with
           | Ok (t, rest) => Ok (c :: t, rest)
           | Err x => Err x
           end
  end.

(** the digits after a decimal point, if there are any, and the rest;
    json of the standard library, used in message.py:443-466, 898-903 and storage/converter.py:14-19 *)
Definition jfrac (s : ustr) : ustr * ustr :=
  match s with
  | c :: r => if c =? 46 then match span is_digit r with ([], _) => ([], s) | p => p end else ([], s)
  | [] => ([], s)
  end.

(** an exponent, if there is one, and the rest;
    json of the standard library, used in message.py:443-466, 898-903 and storage/converter.py:14-19 *)
Definition jexp (s : ustr) : option Z * ustr :=
  match s with
  | c :: r =>
      if (c =? 101) || (c =? 69) then
        let (neg, r1) := match r with
                         | x :: r' => if x =? 45 then (true, r') else if x =? 43 then (false, r') else (false, r)
                         | [] => (false, r)
                         end in
        match span is_digit r1 with
        | ([], _) => (None, s)
        | (ds, r2) => let n := Z.of_N (num_of_digits 0 ds) in (Some (if neg then - n else n)%Z, r2)
        end
      else (None, s)
  | [] => (None, s)
  end.

(** a number: [s] starts with a digit or with '-' (already removed, [neg]); a number with fraction or
    exponent that is too large for binary64 is infinity in Python and outside the model;
    json of the standard library, used in message.py:443-466, 898-903 and storage/converter.py:14-19 *)
Definition jnum (neg : bool) (s : ustr) : res (value * ustr) :=
  match s with
  | [] => Err EJSONDecodeError
  | c :: r =>
      if is_digit c then
        let (ds, rest) := if c =? 48 then ([48], r) else span is_digit s in
        let (fs, rest1) := jfrac rest in
        let (ex, rest2) := jexp rest1 in
        match fs, ex with
        | [], None =>
            let n := Z.of_N (num_of_digits 0 ds) in
            Ok (VInt (if neg then - n else n)%Z, rest2)
        | _, _ =>
            let k := (match ex with Some x => x | None => 0 end - Z.of_nat (List.length fs))%Z in
            match float_of (Z.of_N (num_of_digits 0 (ds ++ fs))) k with
            | Some q => Ok (VFlt (if neg then Qopp q else q), rest2)
            | None => Err OutOfModel
            end
        end
      else Err EJSONDecodeError
  end.

(** scan_once; [fuel] bounds the nesting, more than twice the length is always enough
    (Proofs/FuelJson.v); json of the standard library, used in message.py:443-466, 898-903 and storage/converter.py:14-19 *)
Fixpoint jval (fuel : nat) (s : ustr) : res (value * ustr) :=
  match fuel with
  | O => Err OutOfFuel
  | S n =>
      match s with
      | [] => Err EJSONDecodeError
      | c :: r =>
          if c =? 34 then
            match jscan r with Ok (t, rest) => Ok (VStr t, rest) | Err e => Err e end
          else if c =? 123 then
            match skipws r with
            | [] => Err EJSONDecodeError
            | c1 :: r1 =>
                if c1 =? 125 then Ok (VDict [], r1)
                else match jobj n (c1 :: r1) with
                     | Ok (d, rest) => Ok (VDict (dict_of d), rest)
                     | Err e => Err e
                     end
            end
          else if c =? 91 then
            match skipws r with
            | [] => Err EJSONDecodeError
            | c1 :: r1 =>
                if c1 =? 93 then Ok (VList [], r1)
                else match jarr n (c1 :: r1) with
                     | Ok (l, rest) => Ok (VList l, rest)
                     | Err e => Err e
                     end
            end
          else if startswith (u "null") s then Ok (VNone, skipn 4 s)
          else if startswith (u "true") s then Ok (VBool true, skipn 4 s)
          else if startswith (u "false") s then Ok (VBool false, skipn 5 s)
          else if startswith (u "NaN") s || startswith (u "Infinity") s || startswith (u "-Infinity") s
          then Err OutOfModel
          else if c =? 45 then jnum true r
          else jnum false s
      end
  end
with jarr (fuel : nat) (s : ustr) : res (list value * ustr) :=
  match fuel with
  | O => Err OutOfFuel
  | S n =>
      match jval n s with
      | Err e => Err e
      | Ok (v, rest) =>
          match skipws rest with
          | [] => Err EJSONDecodeError
          | c :: r =>
              if c =? 93 then Ok ([v], r)
              else if c =? 44 then
                match jarr n (skipws r) with
                | Ok (l, rest') => Ok (v :: l, rest')
                | Err e => Err e
                end
              else Err EJSONDecodeError
          end
      end
  end
with jobj (fuel : nat) (s : ustr) : res (list (ustr * value) * ustr) :=
  match fuel with
  | O => Err OutOfFuel
  | S n =>
      match s with
      | [] => Err EJSONDecodeError
      | q :: r0 =>
          if q =? 34 then
            match jscan r0 with
            | Err e => Err e
            | Ok (k, r1) =>
                match skipws r1 with
                | [] => Err EJSONDecodeError
                | c :: r2 =>
                    if c =? 58 then
                      match jval n (skipws r2) with
                      | Err e => Err e
                      | Ok (v, rest) =>
                          match skipws rest with
                          | [] => Err EJSONDecodeError
                          | c2 :: r3 =>
                              if c2 =? 125 then Ok ([(k, v)], r3)
                              else if c2 =? 44 then
                                match jobj n (skipws r3) with
                                | Ok (l, rest') => Ok ((k, v) :: l, rest')
                                | Err e => Err e
                                end
                              else Err EJSONDecodeError
                          end
                      end
                    else Err EJSONDecodeError
                end
            end
          else Err EJSONDecodeError
      end
  end.

(** [json.loads(s)]; json of the standard library, used in message.py:443-466, 898-903 and storage/converter.py:14-19 *)
Definition json_loads (s : ustr) : res value :=
  match s with
  | c :: _ => if c =? 65279 then Err EJSONDecodeError else
      match jval (S (2 * List.length s)) (skipws s) with
      | Ok (v, rest) =>
          match skipws rest with
          | [] => Ok v
          | _ => Err EJSONDecodeError
          end
      | Err e => Err e
      end
  | [] => Err EJSONDecodeError
  end.
