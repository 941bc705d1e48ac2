(** UTF-8: [str.encode("utf-8")] (strict) and [bytes.decode("utf-8", "replace")]. *)
From Coq Require Import List NArith ZArith Bool Lia.
From Verif Require Import Base.Ustr.
Import ListNotations.
Open Scope N_scope.

(** encoding of one code point; [None] = UnicodeEncodeError (surrogate). *)
Definition utf8_enc1 (c : N) : option (list N) :=
  if c <? 128 then Some [c]
  else if c <? 2048 then Some [192 + c / 64; 128 + c mod 64]
  else if (55296 <=? c) && (c <=? 57343) then None
  else if c <? 65536 then
    Some [224 + c / 4096; 128 + (c / 64) mod 64; 128 + c mod 64]
  else if c <? 1114112 then
    Some [240 + c / 262144; 128 + (c / 4096) mod 64; 128 + (c / 64) mod 64; 128 + c mod 64]
  else None.

(** [s.encode("utf-8")] *)
Fixpoint utf8_encode (s : ustr) : option (list N) :=
  match s with
  | [] => Some []
  | c :: r =>
      match utf8_enc1 c, utf8_encode r with
      | Some a, Some b => Some (a ++ b)
      | _, _ => None
      end
  end.

(** a continuation byte; bytes.decode, message.py:177-234 *)
Definition cont (b : N) : bool := (128 <=? b) && (b <=? 191).
(** allowed second byte of a three byte sequence (no overlong, no surrogate) *)
Definition ok3 (b0 b1 : N) : bool :=
  if b0 =? 224 then (160 <=? b1) && (b1 <=? 191)
  else if b0 =? 237 then (128 <=? b1) && (b1 <=? 159)
  else cont b1.
(** allowed second byte of a four byte sequence *)
Definition ok4 (b0 b1 : N) : bool :=
  if b0 =? 240 then (144 <=? b1) && (b1 <=? 191)
  else if b0 =? 244 then (128 <=? b1) && (b1 <=? 143)
  else cont b1.

(** the replacement character; bytes.decode with errors="replace" in unquote, message.py:177-234 *)
Definition repl : N := 65533.

(** [b.decode("utf-8", "replace")]: each maximal invalid prefix becomes U+FFFD. *)
Fixpoint utf8_decode (s : list N) : ustr :=
  match s with
  | [] => []
  | b0 :: r0 =>
      if b0 <? 128 then b0 :: utf8_decode r0
      else if (194 <=? b0) && (b0 <=? 223) then
        match r0 with
        | [] => [repl]
        | b1 :: r1 =>
            if cont b1 then ((b0 - 192) * 64 + (b1 - 128)) :: utf8_decode r1
            else repl :: utf8_decode r0
        end
      else if (224 <=? b0) && (b0 <=? 239) then
        match r0 with
        | [] => [repl]
        | b1 :: r1 =>
            if ok3 b0 b1 then
              match r1 with
              | [] => [repl]
              | b2 :: r2 =>
                  if cont b2 then
                    ((b0 - 224) * 4096 + (b1 - 128) * 64 + (b2 - 128)) :: utf8_decode r2
                  else repl :: utf8_decode r1
              end
            else repl :: utf8_decode r0
        end
      else if (240 <=? b0) && (b0 <=? 244) then
        match r0 with
        | [] => [repl]
        | b1 :: r1 =>
            if ok4 b0 b1 then
              match r1 with
              | [] => [repl]
              | b2 :: r2 =>
                  if cont b2 then
                    match r2 with
                    | [] => [repl]
                    | b3 :: r3 =>
                        if cont b3 then
                          ((b0 - 240) * 262144 + (b1 - 128) * 4096 + (b2 - 128) * 64 + (b3 - 128))
                            :: utf8_decode r3
                        else repl :: utf8_decode r2
                    end
                  else repl :: utf8_decode r1
              end
            else repl :: utf8_decode r0
        end
      else repl :: utf8_decode r0
  end.
