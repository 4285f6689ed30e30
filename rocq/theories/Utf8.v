(** Model of [str.encode('utf-8')] and [bytes.decode('utf-8')] (strict error
    handling), used at pydarnio/dmap/dmap.py:716, 1086, 1089, 1095, 1101, 1143,
    1146. *)
From Coq Require Import ZArith List Bool.
From Verif Require Import Base.
Import ListNotations.
Open Scope Z_scope.

(** Encoding of one code point; [None] for surrogates and values outside
    0..0x10FFFF (Python raises UnicodeEncodeError for surrogates; other values
    cannot occur in a [str]). *)
Definition utf8_enc1 (c : Z) : option bytes :=
  if (c <? 0) then None else
  if c <? 128 then Some [c] else
  if c <? 2048 then Some [192 + c / 64; 128 + c mod 64] else
  if c <? 65536 then
    if (55296 <=? c) && (c <? 57344) then None
    else Some [224 + c / 4096; 128 + (c / 64) mod 64; 128 + c mod 64] else
  if c <? 1114112 then
    Some [240 + c / 262144; 128 + (c / 4096) mod 64;
          128 + (c / 64) mod 64; 128 + c mod 64]
  else None.

(** Encoding of a string (dmap.py:1086 and others). *)
Fixpoint utf8_enc (s : pystr) : option bytes :=
  match s with
  | [] => Some []
  | c :: s' =>
      match utf8_enc1 c, utf8_enc s' with
      | Some b, Some bs => Some (b ++ bs)
      | _, _ => None
      end
  end.

(** A continuation byte 10xxxxxx. *)
Definition is_cont (b : Z) : bool := (128 <=? b) && (b <? 192).

(** Strict UTF-8 decoding as CPython does it: shortest form only, no
    surrogates, nothing above U+10FFFF (dmap.py:716). *)
Fixpoint utf8_dec (bs : bytes) : option pystr :=
  match bs with
  | [] => Some []
  | b0 :: t =>
      if (0 <=? b0) && (b0 <? 128) then
        match utf8_dec t with Some s => Some (b0 :: s) | None => None end
      else if (194 <=? b0) && (b0 <? 224) then
        match t with
        | b1 :: t1 =>
            if is_cont b1 then
              match utf8_dec t1 with
              | Some s => Some ((b0 - 192) * 64 + (b1 - 128) :: s)
              | None => None end
            else None
        | [] => None
        end
      else if (224 <=? b0) && (b0 <? 240) then
        match t with
        | b1 :: b2 :: t2 =>
            if is_cont b1 && is_cont b2
               && (negb (b0 =? 224) || (160 <=? b1))
               && (negb (b0 =? 237) || (b1 <? 160)) then
              match utf8_dec t2 with
              | Some s =>
                  Some ((b0 - 224) * 4096 + (b1 - 128) * 64 + (b2 - 128) :: s)
              | None => None end
            else None
        | _ => None
        end
      else if (240 <=? b0) && (b0 <? 245) then
        match t with
        | b1 :: b2 :: b3 :: t3 =>
            if is_cont b1 && is_cont b2 && is_cont b3
               && (negb (b0 =? 240) || (144 <=? b1))
               && (negb (b0 =? 244) || (b1 <? 144)) then
              match utf8_dec t3 with
              | Some s =>
                  Some ((b0 - 240) * 262144 + (b1 - 128) * 4096
                        + (b2 - 128) * 64 + (b3 - 128) :: s)
              | None => None end
            else None
        | _ => None
        end
      else None
  end.
