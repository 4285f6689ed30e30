(** C100: reading from before the start of the file.  An slist of negative size moves the
    cursor back (pydarnio/dmap/dmap.py:808), possibly below 0; these theorems say what
    read_data and read_numerical_array (dmap.py:636-722, 775-810) find there. *)
From Coq Require Import ZArith List Bool Lia.
From Verif Require Import Base Bytes BytesSpec BytesProofs Utf8 DmapTypes DmapRead DmapSpec DmapBackProofs.
Import ListNotations.
Open Scope Z_scope.

(** The formats of numbers of more than a byte. *)
Definition wide (f : fmt) : Prop := f <> Fc /\ f <> Fs.

(** A number is read from the last bytes of the file, as if the cursor stood there, but
    the cursor stays below: it must end at the end of the file at the latest, otherwise
    struct.error is raised (CursorError if the whole file is too short). *)
Theorem C100_number f front tail : wide f -> tail <> [] -> zlen tail <= 2 ^ 63 -> zlen front < 2 ^ 63 ->
  let buf := front ++ tail in let n := Z.of_nat (wire_size f) in
  (n <= zlen tail -> exists v,
     read_data buf f (zlen front) = (Ok v, zlen front + n) /\ read_data buf f (- zlen tail) = (Ok v, - zlen tail + n)) /\
  (zlen tail < n <= zlen buf + zlen tail -> read_data buf f (- zlen tail) = (Raise StructError, - zlen tail)) /\
  (zlen buf + zlen tail < n -> read_data buf f (- zlen tail) = (Raise CursorError, - zlen tail)).
Proof.
  intros [F1 F2] T L F. cbv zeta.
  assert (P : 0 < zlen tail) by (destruct tail; [congruence|rewrite zlen_cons; pose proof (zlen_nonneg tail); lia]).
  assert (B : zlen (front ++ tail) = zlen front + zlen tail) by apply zlen_app. pose proof (zlen_nonneg front).
  split; [|split]; intros H1.
  - destruct (number_back f front tail F1 F2 T L F ltac:(lia)) as [N _]. destruct (N H1) as (v & V1 & V2). exists v.
    split; [exact V1|]. rewrite V2. f_equal. lia.
  - destruct (number_back f front tail F1 F2 T L F ltac:(lia)) as [_ N]. apply N. lia.
  - apply number_aligned; auto; lia.
Qed.
Print Assumptions C100_number.

(** A char is the byte counted from the end. *)
Theorem C100_char front b tail :
  read_data (front ++ b :: tail) Fc (- zlen (b :: tail)) = (Ok (VInt b), - zlen (b :: tail) + 1).
Proof. rewrite char_back. f_equal; lia. Qed.
Print Assumptions C100_char.

(** A text ends at the next 0 before the end of the file. *)
Theorem C100_text front s rest : Forall (fun b => b <> 0) s -> zlen (s ++ 0 :: rest) <= 2 ^ 63 ->
  read_data (front ++ s ++ 0 :: rest) Fs (- zlen (s ++ 0 :: rest)) =
  (match utf8_dec s with Some t => Ok (VStr t) | None => Raise UnicodeDecodeError end, - zlen rest).
Proof. intros H L. rewrite text_back by assumption. f_equal. rewrite zlen_app, zlen_cons. lia. Qed.
Print Assumptions C100_text.

(** Without one, the search goes on from the first byte of the file.  If that is the 0,
    the text is all of the last bytes; if a later one is, struct.error is raised; if there
    is none, IndexError. *)
Theorem C100_text_over tail : tail <> [] -> Forall (fun b => b <> 0) tail -> zlen tail <= 2 ^ 63 ->
  (forall rest, read_data (0 :: rest ++ tail) Fs (- zlen tail) =
     (match utf8_dec tail with Some t => Ok (VStr t) | None => Raise UnicodeDecodeError end, 1)) /\
  (forall s rest, s <> [] -> Forall (fun b => b <> 0) s ->
     read_data (s ++ 0 :: rest ++ tail) Fs (- zlen tail) = (Raise StructError, - zlen tail)) /\
  (forall front, Forall (fun b => b <> 0) front ->
     read_data (front ++ tail) Fs (- zlen tail) = (Raise IndexError, - zlen tail)).
Proof.
  intros T NZ L. split; [|split].
  - intros rest. now apply text_to_end.
  - intros s rest S NS. now apply text_over.
  - intros front NF. apply text_endless; auto. apply Forall_app. auto.
Qed.
Print Assumptions C100_text_over.

(** Further back than the first byte nothing can be read. *)
Theorem C100_beyond buf c : c < - zlen buf ->
  read_data buf Fc c = (Raise IndexError, c) /\ read_data buf Fs c = (Raise IndexError, c) /\
  forall f, wide f -> read_data buf f c =
    (Raise (if zlen buf - c <? Z.of_nat (wire_size f) then CursorError
            else if c <? - 2 ^ 63 then OverflowError else StructError), c).
Proof.
  intros H. pose proof (zlen_nonneg buf). split; [now apply char_beyond|]. split; [now apply text_beyond|]. intros f [F1 F2].
  destruct (zlen buf - c <? Z.of_nat (wire_size f)) eqn:E.
  - apply number_aligned; auto; lia.
  - apply number_beyond; auto; lia.
Qed.
Print Assumptions C100_beyond.

(** The elements of an array are never read from there.  Numbers of elements or positions
    beyond 64 bits are an OverflowError; a negative number of elements means all up to the
    end of the file, which must be a whole number of them. *)
Theorem C100_array buf shape f n c : f <> Fs ->
  let r := read_numerical_array buf shape f n c in
  (~ (- 2 ^ 63 <= n < 2 ^ 63) \/ ~ (- 2 ^ 63 <= c < 2 ^ 63) -> r = (Raise OverflowError, c)) /\
  (- 2 ^ 63 <= n < 2 ^ 63 -> - 2 ^ 63 <= c < 0 -> r = (Raise ValueError, c)) /\
  (- 2 ^ 63 <= n < 0 -> 0 <= c <= zlen buf -> c < 2 ^ 63 -> (zlen buf - c) mod Z.of_nat (wire_size f) <> 0 -> r = (Raise ValueError, c)) /\
  (forall a c', r = (Ok a, c') -> c' = c + n * Z.of_nat (wire_size f)).
Proof.
  intros F. cbv zeta. split; [|split; [|split]].
  - now apply array_count.
  - intros N C. apply array_back; auto; lia.
  - intros N C C' U. now apply array_uneven.
  - apply array_moves.
Qed.
Print Assumptions C100_array.

(** ** Cases *)

(** A file of one record and 46 bytes.  Its slist has size -46, so it holds the 11 bytes
    after it, and the cursor goes to -11, the position of the same bytes counted from the
    end: they are the head of the array b, of 23 int16.  Its elements start at 0 and are
    all the bytes of the file; the cursor ends where the record says. *)
Definition ex_twice : bytes :=
  [1;0;1;0; 46;0;0;0; 1;0;0;0; 2;0;0;0; 97;0;1;5;
   115;108;105;115;116;0;1; 1;0;0;0; 210;255;255;255;
   98;0;2; 1;0;0;0; 23;0;0;0].
Example C100_case :
  dmap_read ex_twice = Ok [[
    ([97], IScalar (mk_dscalar [97] (VInt 5) 1 Fc));
    ([115;108;105;115;116], IArray (mk_darray [115;108;105;115;116]
      (mk_ndarray DI8 false [11] [98;0;2; 1;0;0;0; 23;0;0;0]) 1 Fc 1 [-46]));
    ([98], IArray (mk_darray [98] (mk_ndarray DI16 false [23]
      [1;1;46;0;1;0;2;0;97;1281;27763;29545;116;257;0;-11776;-1;25343;512;1;0;23;0]) 2 Fh 1 [23])) ]].
Proof. vm_compute. reflexivity. Qed.

Example C100_number_case :
  read_data [9; 1; 0; 0; 0] Fi (-4) = (Ok (VInt 1), 0) /\
  read_data [9; 1; 0; 0; 0] Fi (-3) = (Raise StructError, -3) /\
  read_data [9] Fd (-1) = (Raise CursorError, -1) /\
  read_data [9] Fi (-5) = (Raise StructError, -5).
Proof. repeat split. Qed.
Example C100_text_case :
  read_data [7; 104; 105; 0; 5] Fs (-4) = (Ok (VStr [104; 105]), -1) /\
  read_data [0; 7; 104; 105] Fs (-2) = (Ok (VStr [104; 105]), 1) /\
  read_data [7; 0; 104; 105] Fs (-2) = (Raise StructError, -2) /\
  read_data [7; 7; 104; 105] Fs (-2) = (Raise IndexError, -2).
Proof. repeat split. Qed.
Example C100_array_case :
  read_numerical_array [7; 7; 7] [-1] Fh (-1) 0 = (Raise ValueError, 0) /\
  read_numerical_array [7; 7; 7] [-1] Fh (-1) 1 = (Ok (mk_ndarray DI16 false [1] [1799]), -1) /\
  read_numerical_array [7; 7; 7] [1] Fh 1 (-2) = (Raise ValueError, -2).
Proof. repeat split. Qed.
