(** Model of class DmapRead, pydarnio/dmap/dmap.py:86-810. *)
From Coq Require Import ZArith List Bool.
From Verif Require Import Base Bytes Utf8 FloatBits DmapTypes.
Import ListNotations.
Open Scope Z_scope.

(** A method of the reader: takes the value of [self.cursor], returns the
    result and the new value of [self.cursor]; the cursor change made before
    an exception persists, as the attribute does in Python (dmap.py:152, 439,
    695, 715, 721, 808). *)
Definition rd (A : Type) := Z -> res A * Z.

(** Normal return without cursor movement (for instance dmap.py:724). *)
Definition ret {A} (a : A) : rd A := fun c => (Ok a, c).

(** [raise e] (for instance dmap.py:251-255, 674, 683). *)
Definition fail {A} (e : exn) : rd A := fun c => (Raise e, c).

(** Sequencing of statements (for instance dmap.py:432-480). *)
Definition bind {A B} (m : rd A) (f : A -> rd B) : rd B :=
  fun c => match m c with
           | (Ok a, c') => f a c'
           | (Raise e, c') => (Raise e, c')
           end.

(** [self.cursor += n] (dmap.py:439, 695, 715, 721, 808). *)
Definition advance (n : Z) : rd unit := fun c => (Ok tt, c + n).

(** Reading [self.cursor] (dmap.py:432, 447, 667, 676). *)
Definition get_cursor : rd Z := fun c => (Ok c, c).

(** A pure call that may raise (dmap.py:711-713, 718-720, 803-809). *)
Definition lift {A} (r : res A) : rd A := fun c => (r, c).

(** Notation for [bind] (see there). *)
Notation "'do' x <- m ; k" := (bind m (fun x => k))
  (at level 200, x pattern, m at level 100, k at level 200).
(** Notation for [bind] without a result (see there). *)
Notation "'do_' m ; k" := (bind m (fun _ => k))
  (at level 200, m at level 100, k at level 200).

(** dmap.py:228-255 zero_negative_check. *)
Definition zero_negative_check (element : Z) : rd unit :=
  if element =? 0 then fail ZeroByteError
  else if element <? 0 then fail NegativeByteError
  else ret tt.

(** dmap.py:257-288 bytes_check. *)
Definition bytes_check (element byte_check : Z) : rd unit :=
  if byte_check <? element then fail MismatchByteError else ret tt.

(** dmap.py:290-310 check_data_type, returning DMAP_DATA_TYPES[data_type][0]
    which every caller looks up right after (dmap.py:508-511, 551-554). *)
Definition check_data_type (data_type : Z) : rd (option fmt) :=
  match dmap_data_types data_type with
  | Some f => ret f
  | None => fail DmapDataTypeError
  end.

Section Reader.

(** [self.dmap_bytearr] / [self.dmap_buffer]; [self.dmap_end_bytes] is its
    length (dmap.py:184-185).  Read-only. *)
Variable buf : bytes.

(** [self.dmap_end_bytes] (dmap.py:185). *)
Definition end_bytes : Z := zlen buf.

(** dmap.py:667-683: the two checks at the start of read_data. *)
Definition read_data_checks (data_fmt_bytes : Z) : rd unit :=
  do cursor <- get_cursor;
  if end_bytes <=? cursor then fail CursorError else
  let cursor_offset := end_bytes - cursor in
  if cursor_offset <? data_fmt_bytes then fail CursorError else ret tt.

(** dmap.py:690-696: read_data('c', 1); the value is an unsigned byte. *)
Definition read_data_c : rd Z :=
  do_ read_data_checks 1;
  do cursor <- get_cursor;
  do data <- lift (py_index buf cursor);
  do_ advance 1;
  ret data.

(** dmap.py:698-703: the loop that looks for the terminating NUL.  The second
    half of the loop condition can only be evaluated when the index is valid,
    i.e. it is always false then.  [fuel] bounds the number of iterations; the
    index cannot grow past the end without raising IndexError. *)
Fixpoint scan_nul (fuel : nat) (cursor byte_counter : Z) : res Z :=
  match fuel with
  | O => Raise OutOfFuel
  | S fuel' =>
      match py_index buf (cursor + byte_counter) with
      | Raise e => Raise e
      | Ok b =>
          if negb (b =? 0) || (end_bytes <=? cursor + byte_counter)
          then scan_nul fuel' cursor (byte_counter + 1)
          else Ok byte_counter
      end
  end.

(** dmap.py:697-716: read_data('s', 1). *)
Definition read_data_s : rd pystr :=
  do_ read_data_checks 1;
  do cursor <- get_cursor;
  do byte_counter <- lift (scan_nul (S (2 * length buf)) cursor 0);
  do_ bytes_check (cursor + byte_counter) end_bytes;
  do data <- lift (unpack_from buf cursor byte_counter);
  do_ advance (byte_counter + 1);
  match utf8_dec data with
  | Some s => ret s
  | None => fail UnicodeDecodeError
  end.

(** dmap.py:717-722: read_data for a format handled by struct.unpack_from;
    the bytes of the value. *)
Definition read_data_raw (size : nat) : rd bytes :=
  do_ read_data_checks (Z.of_nat size);
  do cursor <- get_cursor;
  do data <- lift (unpack_from buf cursor (Z.of_nat size));
  do_ advance (Z.of_nat size);
  ret data.

(** dmap.py:717-722: read_data('i', 4). *)
Definition read_data_i : rd Z :=
  do bs <- read_data_raw 4;
  ret (unpack_int true 4 bs).

(** dmap.py:636-722: read_data as called from read_scalar (line 514). *)
Definition read_data (f : fmt) : rd pyval :=
  match f with
  | Fc => do b <- read_data_c; ret (VInt b)
  | Fs => do s <- read_data_s; ret (VStr s)
  | Ff => do bs <- read_data_raw 4; ret (VFloat (widen (le_dec bs)))
  | Fd => do bs <- read_data_raw 8; ret (VFloat (le_dec bs))
  | _ => do bs <- read_data_raw (fmt_size f);
         ret (VInt (unpack_int (fmt_signed f) (fmt_size f) bs))
  end.

(** dmap.py:480-523 read_scalar. *)
Definition read_scalar : rd dscalar :=
  do scalar_name <- read_data_s;
  do scalar_type <- read_data_c;
  do scalar_type_fmt <- check_data_type scalar_type;
  match scalar_type_fmt with
  | Some f =>
      do scalar_value <- read_data f;
      ret (mk_dscalar scalar_name scalar_value scalar_type f)
  | None => fail DmapDataError
  end.

(** dmap.py:563-564: the list comprehension reading the sizes. *)
Fixpoint read_shape (n : nat) : rd (list Z) :=
  match n with
  | O => ret []
  | S n' => do x <- read_data_i; do xs <- read_shape n'; ret (x :: xs)
  end.

(** dmap.py:591-593: product of the sizes. *)
Definition prod (l : list Z) : Z := fold_left Z.mul l 1.

(** Largest number of dimensions numpy supports (NPY_MAXDIMS of numpy 1.x; for the
    reshape of dmap.py:809). *)
Definition npy_maxdims : Z := 32.

(** Replace the negative size by [v] ([numpy.reshape]'s unknown dimension,
    dmap.py:809). *)
Definition fill_unknown (v : Z) (shape : list Z) : list Z :=
  map (fun x => if x <? 0 then v else x) shape.

(** numpy.reshape(array, shape) for an array of [n] elements: the resulting
    shape (dmap.py:809).  One negative size is inferred, two are an error. *)
Definition np_reshape (n : Z) (shape : list Z) : res (list Z) :=
  if npy_maxdims <? zlen shape then Raise ValueError else
  let known := prod (filter (fun x => 0 <=? x) shape) in
  match filter (fun x => x <? 0) shape with
  | [] => if known =? n then Ok shape else Raise ValueError
  | [_] => if known =? 0 then Raise ValueError
           else if n mod known =? 0 then Ok (fill_unknown (n / known) shape)
           else Raise ValueError
  | _ => Raise ValueError
  end.

(** dmap.py:775-810 read_numerical_array. *)
Definition read_numerical_array (shape : list Z) (f : fmt)
  (total_number_cells : Z) : rd ndarray :=
  match fmt_dtype f with
  | None => fail OutOfModel        (* 's' is rejected by the caller *)
  | Some d =>
      do cursor <- get_cursor;
      do raw <- lift (frombuffer buf (fmt_size f) total_number_cells cursor);
      do_ advance (total_number_cells * Z.of_nat (fmt_size f));
      do shp <- lift (np_reshape (zlen raw) shape);
      ret (mk_ndarray d false shp (map (elem_dec d) raw))
  end.

(** DMAP_DATA_TYPES[array_type][1], 0 for the DMAP type (dmap.py:554). *)
Definition opt_size (f : option fmt) : Z :=
  match f with Some f => Z.of_nat (fmt_size f) | None => 0 end.

(** dmap.py:525-634 read_array. *)
Definition read_array (record_size : Z) : rd darray :=
  do array_name <- read_data_s;
  do array_type <- read_data_c;
  do array_type_fmt <- check_data_type array_type;
  do array_dimension <- read_data_i;
  do_ bytes_check array_dimension record_size;
  do_ zero_negative_check array_dimension;
  do array_shape0 <- read_shape (Z.to_nat array_dimension);
  let array_shape :=
    if 1 <? array_dimension then rev array_shape0 else array_shape0 in
  if existsb (fun x => x <=? 0) array_shape
     && negb (str_eqb array_name s_slist) then fail DmapDataError else
  if existsb (fun x => record_size <=? x) array_shape
  then fail DmapDataError else
  let total_num_cells := prod array_shape in
  do_ bytes_check total_num_cells record_size;
  do_ bytes_check (total_num_cells * opt_size array_type_fmt) record_size;
  match array_type_fmt with
  | Some Fs => fail DmapDataError
  | None => fail DmapDataError
  | Some f =>
      do array_value <- read_numerical_array array_shape f total_num_cells;
      ret (mk_darray array_name array_value array_type f array_dimension
                     array_shape)
  end.

(** dmap.py:464-466: the scalars of a record, in file order. *)
Fixpoint read_scalars (n : nat) : rd (list dscalar) :=
  match n with
  | O => ret []
  | S n' => do s <- read_scalar; do ss <- read_scalars n'; ret (s :: ss)
  end.

(** dmap.py:469-471: the arrays of a record, in file order. *)
Fixpoint read_arrays (record_size : Z) (n : nat) : rd (list darray) :=
  match n with
  | O => ret []
  | S n' => do a <- read_array record_size;
            do aa <- read_arrays record_size n'; ret (a :: aa)
  end.

(** dmap.py:409-478 read_record, returning the fields in the order they were
    read (before they are entered in the dictionary). *)
Definition read_record_fields : rd (list dscalar * list darray) :=
  do start_cursor_value <- get_cursor;
  do_ advance 4;
  do block_size <- read_data_i;
  do cursor <- get_cursor;
  let remaining_bytes := end_bytes - cursor + 2 * 4 in
  do_ bytes_check block_size remaining_bytes;
  do_ zero_negative_check block_size;
  do num_scalars <- read_data_i;
  do num_arrays <- read_data_i;
  do_ zero_negative_check num_scalars;
  do_ zero_negative_check num_arrays;
  do_ bytes_check (num_scalars + num_arrays) block_size;
  do scalars <- read_scalars (Z.to_nat num_scalars);
  do arrays <- read_arrays block_size (Z.to_nat num_arrays);
  do cursor' <- get_cursor;
  if negb (cursor' - start_cursor_value =? block_size) then fail CursorError
  else ret (scalars, arrays).

(** dmap.py:463-471: [record[name] = value] for each field read. *)
Definition record_of_fields (fs : list dscalar * list darray) : record :=
  fold_left (fun d a => dict_set d (ar_name a) (IArray a)) (snd fs)
    (fold_left (fun d s => dict_set d (sc_name s) (IScalar s)) (fst fs) []).

(** dmap.py:409-478 read_record. *)
Definition read_record : rd record :=
  do fs <- read_record_fields; ret (record_of_fields fs).

(** dmap.py:398-401: the loop of read_records, returning the fields of each
    block; [fuel] bounds the number of iterations. *)
Fixpoint read_blocks (fuel : nat) : rd (list (list dscalar * list darray)) :=
  do cursor <- get_cursor;
  if cursor <? end_bytes then
    match fuel with
    | O => fail OutOfFuel
    | S fuel' => do r <- read_record_fields;
                 do rs <- read_blocks fuel'; ret (r :: rs)
    end
  else ret [].

(** dmap.py:333-363: the loop of test_initial_data_integrity; returns
    total_block_size. *)
Fixpoint integrity_loop (fuel : nat) (total_block_size : Z) : rd Z :=
  do cursor <- get_cursor;
  if cursor <? end_bytes then
    match fuel with
    | O => fail OutOfFuel
    | S fuel' =>
        do_ advance 4;
        do block_size <- read_data_i;
        do_ zero_negative_check block_size;
        let total := total_block_size + block_size in
        do_ bytes_check total end_bytes;
        do_ advance (block_size - 2 * 4);
        integrity_loop fuel' total
    end
  else ret total_block_size.

(** dmap.py:312-373 test_initial_data_integrity.  The DmapDataError at the end
    evaluates [self.data_file], which does not exist: AttributeError. *)
Definition test_initial_data_integrity : rd unit :=
  do cursor <- get_cursor;
  if negb (cursor =? 0) then fail CursorError else
  do total_block_size <- integrity_loop (S (length buf)) 0;
  if negb (total_block_size =? end_bytes) then fail AttributeError else
  fun _ => (Ok tt, 0).

End Reader.

(** A reader object: bytes, [cursor], [_dmap_records] and [rec_num]
    (dmap.py:151-187). *)
Record reader : Type := mk_reader {
  rdr_buf     : bytes;
  rdr_cursor  : Z;
  rdr_records : list record;
  rdr_rec_num : Z
}.

(** dmap.py:127-187 DmapRead.__init__ once the bytes are known. *)
Definition reader_new (content : bytes) : res reader :=
  if zlen content =? 0 then Raise EmptyFileError
  else Ok (mk_reader content 0 [] 0).

(** The first argument of DmapRead together with [data_stream]
    (dmap.py:127, 167-183). *)
Inductive source : Type :=
| FromFile (name : pystr)
| FromStream (content : bytes).

(** dmap.py:127-187 DmapRead.__init__: a file is read completely into memory.
    Simplified: opening an existing file never fails. *)
Definition dmap_reader_init (fs : fsys) (src : source) : res reader :=
  match src with
  | FromFile name =>
      match fs name with
      | None => Raise FileNotFoundError
      | Some content => reader_new content
      end
  | FromStream content => reader_new content
  end.

(** dmap.py:312-373 test_initial_data_integrity as a method of the object: only
    the cursor changes. *)
Definition reader_integrity (r : reader) : res unit * reader :=
  match test_initial_data_integrity (rdr_buf r) (rdr_cursor r) with
  | (x, c) => (x, mk_reader (rdr_buf r) c (rdr_records r) (rdr_rec_num r))
  end.

(** dmap.py:398-401 as executed on an object: records read before a failure
    stay in [_dmap_records]. *)
Fixpoint read_records_loop (fuel : nat) (r : reader) : res unit * reader :=
  if rdr_cursor r <? end_bytes (rdr_buf r) then
    match fuel with
    | O => (Raise OutOfFuel, r)
    | S fuel' =>
        match read_record (rdr_buf r) (rdr_cursor r) with
        | (Raise e, c') =>
            (Raise e, mk_reader (rdr_buf r) c' (rdr_records r) (rdr_rec_num r))
        | (Ok new_record, c') =>
            read_records_loop fuel'
              (mk_reader (rdr_buf r) c' (rdr_records r ++ [new_record])
                         (rdr_rec_num r + 1))
        end
    end
  else (Ok tt, r).

(** dmap.py:375-407 read_records, up to the DMAP records ([get_dmap_records]);
    the conversion [dmap2dict] of line 406 is in Conversions.v. *)
Definition read_records (r : reader) : res (list record) * reader :=
  match read_records_loop (S (length (rdr_buf r))) r with
  | (Raise e, r') => (Raise e, r')
  | (Ok _, r') =>
      if end_bytes (rdr_buf r') <? rdr_cursor r' then (Raise MismatchByteError, r')
      else (Ok (rdr_records r'), r')
  end.

(** DmapRead(content, True).read_records(): a fresh reader on the bytes
    (dmap.py:127-185, 375-407). *)
Definition dmap_read (content : bytes) : res (list record) :=
  rlet r := reader_new content in fst (read_records r).

(** The same run without the dictionaries of dmap.py:463-471: the fields of
    each block in the order they were read (dmap.py:398-407). *)
Definition dmap_read_fields (content : bytes)
  : res (list (list dscalar * list darray)) :=
  if zlen content =? 0 then Raise EmptyFileError else
  match read_blocks content (S (length content)) 0 with
  | (Raise e, _) => Raise e
  | (Ok bl, c) => if end_bytes content <? c then Raise MismatchByteError else Ok bl
  end.
