(** The texts of the objects: __repr__ and __str__ (dmap.py:189-212, 899-916,
    borealis.py:148-162, 367-381, borealis_site.py:151-166, 381-392,
    borealis_array.py:140-154, 349-363, borealis_restructure.py:135-151,
    borealis_convert.py:252-259).  [cls] is self.__class__.__name__. *)
From Coq Require Import String ZArith List Bool.
From Verif Require Import Base Bytes DmapTypes DmapRead DmapWrite Conversions SDarnFormats SDarn BorealisTypes BorealisFormats BorealisTime BorealisFile.
Import ListNotations.
Open Scope list_scope.
Open Scope Z_scope.

(** ** DMAP readers *)

(** self.dmap_file (dmap.py:165, 182). *)
Definition source_name (src : source) : pystr :=
  match src with FromFile name => name | FromStream _ => str "stream" end.

(** dmap.py:189-199 DmapRead.__repr__. *)
Definition reader_repr (cls : pystr) (src : source) (r : DmapRead.reader) : pystr :=
  cls ++ str "(" ++ source_name src ++ str ", " ++ dec (rdr_cursor r) ++ str ", " ++ dec (rdr_rec_num r) ++ str ", " ++
  dec (end_bytes (rdr_buf r)) ++ str ")".

(** dmap.py:201-212 DmapRead.__str__. *)
Definition reader_str (src : source) (r : DmapRead.reader) : pystr :=
  str "Reading from " ++ source_name src ++ str " at cursor: " ++ dec (rdr_cursor r) ++ str " record number: " ++
  dec (rdr_rec_num r) ++ str " with a total number of bytes: " ++ dec (end_bytes (rdr_buf r)).

(** ** DMAP writers *)

(** self.rec_num after [for self.rec_num in range(len(self.dmap_records))]
    (dmap.py:1020-1022, superdarn.py:890-900): [converts n r] says whether the body of the
    loop ends without an exception; [last] is the number so far, [n] the next one. *)
Fixpoint loop_number (converts : Z -> record -> bool) (n last : Z) (rs : list record) : Z :=
  match rs with
  | [] => last
  | r :: rs' => if converts n r then loop_number converts (n + 1) n rs' else n
  end.

(** No exception (dmap.py:1020-1022, superdarn.py:890-900). *)
Definition fine {A} (x : res A) : bool := match x with Ok _ => true | Raise _ => false end.

(** dmap.py:1010-1022 dmap_records_to_bytes; [old] is the number before. *)
Definition dmap_number (old : Z) (rs : list record) : Z :=
  loop_number (fun _ r => fine (fst (dmap_record_to_bytes r))) 0 old rs.
(** superdarn.py:887-900: the number starts with 0. *)
Definition sdarn_number (t : sd_type) (rs : list record) : Z :=
  loop_number (fun n r => fine (write_checks (write_struct_list t) (write_optional_list t) r n) && fine (fst (dmap_record_to_bytes r))) 0 0 rs.

(** dmap.py:899-907: the repr of DmapWrite for the file name and the number. *)
Definition writer_repr (cls filename : pystr) (rec_num : Z) : pystr :=
  cls ++ str "(" ++ filename ++ str ", " ++ dec rec_num ++ str ")".
(** dmap.py:909-916: its str. *)
Definition writer_str (filename : pystr) (rec_num : Z) : pystr :=
  str "Writing to filename: " ++ filename ++ str " at record number: " ++ dec rec_num.

(** ** Borealis objects *)

(** The repr of BorealisSiteRead and BorealisSiteWrite (borealis_site.py:151-158, 381-386). *)
Definition file_repr (cls filename : pystr) : pystr := cls ++ str "(" ++ filename ++ str ")".
(** The repr of BorealisRead and BorealisArrayRead (borealis.py:148-156,
    borealis_array.py:140-148). *)
Definition typed_repr (cls filename borealis_filetype : pystr) : pystr :=
  cls ++ str "(" ++ filename ++ str ", " ++ borealis_filetype ++ str ")".

(** borealis_site.py:160-166. *)
Definition site_reader_str (filename : pystr) (sr : site_reader) : pystr :=
  str "Reading from " ++ filename ++ str " a total number of records: " ++ dec (zlen (map fst (sr_records sr))).
(** borealis.py:158-162 and borealis_array.py:150-154. *)
Definition reading_str (filename : pystr) : pystr := str "Reading from " ++ filename.
(** borealis_site.py:388-392. *)
Definition site_writer_str (filename : pystr) : pystr :=
  str "Writing to filename: " ++ filename ++ str " at record name: ".

(** The names of the attributes, properties and methods of a BorealisWrite object
    (borealis.py:320-366, 383-504). *)
Definition write_names : list pystr :=
  map str ["filename"; "data"; "borealis_filetype"; "_writer"; "_borealis_file_structure"; "borealis_file_structure";
           "compression"; "record_names"; "records"; "arrays"; "software_version"; "format"; "return_writer"]%string.
(** The same for a BorealisArrayWrite object (borealis_array.py:290-347, 365-458). *)
Definition array_write_names : list pystr :=
  map str ["filename"; "_arrays"; "borealis_filetype"; "_borealis_version"; "_format"; "compression"; "record_names"; "records";
           "arrays"; "software_version"; "format"; "write_file"]%string.

(** [self.name] for an attribute that is formatted: the text [v] if the object has it
    (borealis.py:372-373, borealis_array.py:354-355). *)
Definition attribute (names : list pystr) (name v : pystr) : res pystr :=
  if str_mem name names then Ok v else Raise AttributeError.

(** The repr (borealis.py:367-373) for [names] of BorealisWrite, and
    (borealis_array.py:349-355) for those of BorealisArrayWrite.  [current] stands for the text of the
    record name, should there be one. *)
Definition record_repr (names : list pystr) (cls filename current : pystr) : res pystr :=
  rlet f := attribute names (str "filename") filename in
  rlet c := attribute names (str "current_record_name") current in
  Ok (cls ++ str "(" ++ f ++ str ", " ++ c ++ str ")").
(** The str of the same (borealis.py:375-381, borealis_array.py:357-363). *)
Definition record_str (names : list pystr) (filename current : pystr) : res pystr :=
  rlet f := attribute names (str "filename") filename in
  rlet c := attribute names (str "current_record_name") current in
  Ok (str "Writing to filename: " ++ f ++ str " at record name: " ++ c).

(** borealis_restructure.py:135-142. *)
Definition restructure_repr (cls infile borealis_filetype outfile : pystr) : pystr :=
  cls ++ str "(" ++ infile ++ str ", " ++ borealis_filetype ++ str ", " ++ outfile ++ str ")".
(** borealis_restructure.py:144-151. *)
Definition restructure_str (infile structure outfile : pystr) : pystr :=
  str "Restructuring " ++ infile ++ str " to " ++ structure ++ str " and writing to file " ++ outfile ++ str ".".

(** borealis_convert.py:243-250 BorealisConvert.__repr__; [records_text] stands for what
    Python prints for the dictionary of the records. *)
Definition convert_repr (records_text : brecords -> pystr) (cls : pystr) (rs : brecords) (borealis_filetype sdarn_filename : pystr) : pystr :=
  cls ++ str "(" ++ records_text rs ++ borealis_filetype ++ sdarn_filename ++ str ")".
(** borealis_convert.py:252-259 BorealisConvert.__str__. *)
Definition convert_str (rs : brecords) (borealis_filetype sdarn_filename : pystr) : pystr :=
  str "Converting " ++ dec (zlen (map fst rs)) ++ str " " ++ borealis_filetype ++
  str " records into DMap SDARN records and writing to file " ++ sdarn_filename ++ str ".".
