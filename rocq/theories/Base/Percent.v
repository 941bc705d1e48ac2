(** urllib.parse: quote_plus, unquote_plus, urlencode, parse_qs
    (CPython 3.11; separator '&', blank values dropped, errors='replace'). *)
From Coq Require Import List NArith ZArith Bool String Lia.
From Verif Require Import Base.Ustr Base.Utf8.
Import ListNotations.
Open Scope N_scope.

(** urllib.parse._ALWAYS_SAFE: letters, digits and _.-~ *)
Definition url_safe (c : N) : bool :=
  is_alpha c || is_digit c || (c =? 95) || (c =? 46) || (c =? 45) || (c =? 126).

(** upper case hexadecimal digit *)
Definition hexc (n : N) : N := if n <? 10 then 48 + n else 55 + n.

(** value of a hexadecimal digit, either case *)
Definition hexv (c : N) : option N :=
  if is_digit c then Some (c - 48)
  else if (65 <=? c) && (c <=? 70) then Some (c - 55)
  else if (97 <=? c) && (c <=? 102) then Some (c - 87)
  else None.

(** one byte, urllib.parse of the standard library, used in message.py:137-146, 177-234 and storage/converter.py:6-11 *)
Definition quote_byte (b : N) : ustr :=
  if url_safe b then [b]
  else if b =? 32 then [43]
  else [37; hexc (b / 16); hexc (b mod 16)].

(** [quote_plus] of bytes *)
Definition quote_bytes (bs : list N) : ustr := flat_map quote_byte bs.

(** [quote_plus(s)]; [None] = UnicodeEncodeError *)
Definition quote_plus (s : ustr) : option ustr := option_map quote_bytes (utf8_encode s).

(** [unquote_to_bytes] on an ASCII string *)
Fixpoint unquote_bytes (s : ustr) : list N :=
  match s with
  | [] => []
  | c :: r =>
      if c =? 37 then
        match r with
        | h :: (l :: r') as r1 =>
            match hexv h, hexv l with
            | Some a, Some b => (a * 16 + b) :: unquote_bytes r'
            | _, _ => c :: unquote_bytes r
            end
        | _ => c :: unquote_bytes r
        end
      else c :: unquote_bytes r
  end.

(** [unquote(s)]: each maximal run of ASCII characters is unquoted and decoded. *)
Fixpoint unquote_go (run s : ustr) : ustr :=
  match s with
  | [] => utf8_decode (unquote_bytes run)
  | c :: r =>
      if is_ascii c then unquote_go (run ++ [c]) r
      else utf8_decode (unquote_bytes run) ++ c :: unquote_go [] r
  end.
(** unquote, urllib.parse of the standard library, used in message.py:137-146, 177-234 and storage/converter.py:6-11 *)
Definition unquote (s : ustr) : ustr := unquote_go [] s.
(** unquote_plus, urllib.parse of the standard library, used in message.py:137-146, 177-234 and storage/converter.py:6-11 *)
Definition unquote_plus (s : ustr) : ustr := unquote (replace_char 43 32 s).

(** [urlencode(pairs)] where keys and values are strings (bytes of their UTF-8
    encoding give the same text); [None] = UnicodeEncodeError. *)
Definition urlencode1 (kv : ustr * ustr) : option ustr :=
  match quote_plus (fst kv), quote_plus (snd kv) with
  | Some k, Some v => Some (k ++ 61 :: v)
  | _, _ => None
  end.
(** no element raised; urlencode, urllib.parse of the standard library, used in message.py:137-146, 177-234 and storage/converter.py:6-11 *)
Fixpoint all_some {A} (l : list (option A)) : option (list A) :=
  match l with
  | [] => Some []
  | None :: _ => None
  | Some x :: r => option_map (cons x) (all_some r)
  end.
(** urlencode, urllib.parse of the standard library, used in message.py:137-146, 177-234 and storage/converter.py:6-11 *)
Definition urlencode (l : list (ustr * ustr)) : option ustr :=
  option_map (join [38]) (all_some (map urlencode1 l)).

(** one field of [parse_qsl]: fields without value are dropped *)
Definition parse_field (f : ustr) : list (ustr * ustr) :=
  match partition1 61 f with
  | (name, _, value) =>
      match value with
      | [] => []
      | _ => [(unquote_plus name, unquote_plus value)]
      end
  end.
(** parse_qsl, urllib.parse of the standard library, used in message.py:137-146, 177-234 and storage/converter.py:6-11 *)
Definition parse_qsl (s : ustr) : list (ustr * ustr) :=
  flat_map parse_field (split_on 38 s).

(** [parsed_result[name].append(value)], keys in order of first occurrence *)
Fixpoint qs_add (d : list (ustr * list ustr)) (k v : ustr) : list (ustr * list ustr) :=
  match d with
  | [] => [(k, [v])]
  | (k', l) :: r => if ueqb k k' then (k', l ++ [v]) :: r else (k', l) :: qs_add r k v
  end.
(** one more field; parse_qs, urllib.parse of the standard library, used in message.py:137-146, 177-234 and storage/converter.py:6-11 *)
Definition qs_group (l : list (ustr * ustr)) : list (ustr * list ustr) :=
  fold_left (fun d kv => qs_add d (fst kv) (snd kv)) l [].
(** parse_qs, urllib.parse of the standard library, used in message.py:137-146, 177-234 and storage/converter.py:6-11 *)
Definition parse_qs (s : ustr) : list (ustr * list ustr) := qs_group (parse_qsl s).
