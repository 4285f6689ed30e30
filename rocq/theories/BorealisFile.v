(** Model of the Borealis file layer: reading and writing HDF5 files, detection of
    version and structure, the reader and writer classes
    (pydarnio/borealis/base_format.py, borealis_utilities.py, borealis_site.py,
    borealis_array.py, borealis.py).

    What h5py does is modelled on the level of files, groups, datasets and
    attributes.  Not modelled: subgroups of groups, HDF5's limit of 64 KiB for
    attributes, the choice of chunks. *)
From Coq Require Import String ZArith List Bool.
From Verif Require Import Base Utf8 SDarnFormats BorealisTypes BorealisFormats BorealisChecks
  BorealisArrays BorealisTime.
Import ListNotations.
Open Scope list_scope.
Open Scope Z_scope.

(** ** HDF5 files *)

(** What [attrs[k]] can give (base_format.py:1278-1294): [np.bytes_] for a string of
    fixed length, [str] for one of variable length, h5py.Empty, any other scalar
    or array. *)
Inductive hattr : Type :=
| HBytes (b : bytes)
| HStr (s : pystr)
| HEmpty (t : btype)
| HValue (v : bval).

(** A dataset: its type, shape and elements; [hd_item] is its attribute 'itemsize'
    if it has the attribute 'strtype' (base_format.py:1270-1272, 1390-1395). *)
Record hdset : Type := mk_hdset {
  hd_type : btype;
  hd_shape : list nat;
  hd_data : list cell;
  hd_item : option nat
}.

(** A member of the root group (base_format.py:1261-1264, 1330-1332). *)
Inductive hitem : Type :=
| HGroup (dsets : dict hdset) (attrs : dict hattr)
| HDset (d : hdset) (attrs : dict hattr).

(** A file: the members and attributes of its root group (base_format.py:1260-1264,
    1327-1342). *)
Record hfile : Type := mk_hfile {
  h_items : dict hitem;
  h_attrs : dict hattr
}.

(** The attributes of a member ([f[name].attrs], borealis_site.py:125). *)
Definition item_attrs (i : hitem) : dict hattr :=
  match i with HGroup _ a => a | HDset _ a => a end.

(** A file of the file system (the argument of h5py.File, base_format.py:1260): an
    HDF5 file or something else. *)
Inductive hcontent : Type := Hdf (f : hfile) | NotHdf.
(** The file system: names to files (base_format.py:1260, 1381). *)
Definition hfs := pystr -> option hcontent.

(** [h5py.File(name, 'r')] (base_format.py:1260, 1327). *)
Definition h5_open (fs : hfs) (name : pystr) : res hfile :=
  match fs name with
  | None => Raise FileNotFoundError
  | Some NotHdf => Raise OSError
  | Some (Hdf f) => Ok f
  end.

(** [h5py.File(name, 'a')] (base_format.py:1381, 1416): a new file if there is none. *)
Definition h5_append (fs : hfs) (name : pystr) : res hfile :=
  match fs name with
  | None => Ok (mk_hfile [] [])
  | Some NotHdf => Raise OSError
  | Some (Hdf f) => Ok f
  end.

(** The file system after a file was written (the end of the with blocks
    base_format.py:1381-1397, 1416-1429). *)
Definition h5_close (fs : hfs) (name : pystr) (f : hfile) : hfs :=
  fun n => if str_eqb n name then Some (Hdf f) else fs n.

(** ** Sorting *)

(** [a <= b] for strings, by code points (base_format.py:1261). *)
Fixpoint str_leb (a b : pystr) : bool :=
  match a, b with
  | [], _ => true
  | _ :: _, [] => false
  | x :: a', y :: b' => (x <? y) || ((x =? y) && str_leb a' b')
  end.

(** [sorted(...)] of the entries of a dictionary, by key (base_format.py:1261,
    1330, borealis_site.py:119, 274): where one entry goes. *)
Fixpoint insert_entry {A} (p : pystr * A) (d : dict A) : dict A :=
  match d with
  | [] => [p]
  | q :: d' => if str_leb (fst p) (fst q) then p :: d else q :: insert_entry p d'
  end.
(** The sorted dictionary (base_format.py:1261, 1330, borealis_site.py:119, 274). *)
Definition sort_dict {A} (d : dict A) : dict A := fold_right insert_entry [] d.

(** ** Reading *)

(** Cutting a list into pieces of [n] elements, [k] of them (the view of
    base_format.py:1272, 1335). *)
Definition pieces {A} (k n : nat) (l : list A) : list (list A) := rows k n l.

(** Four bytes as a code point, little-endian (numpy's '<U' items;
    base_format.py:1272, 1335). *)
Definition code_point (l : list cell) : Z :=
  match l with
  | [CZ a; CZ b; CZ c; CZ d] => a + 256 * (b + 256 * (c + 256 * d))
  | _ => 0
  end.

(** One text item of [w] characters (base_format.py:1272, 1335); numpy drops trailing
    NULs. *)
Definition text_item (w : nat) (l : list cell) : cell :=
  CS (strip_nul (map code_point (pieces w 4 l))).

(** base_format.py:1269-1274, 1332-1337: the value of a dataset.  [dset[:]] is a
    ValueError for a dataset without dimensions; the view as texts needs a last
    dimension divisible by the size of a text. *)
Definition read_dset (d : hdset) : res bval :=
  match hd_shape d with
  | [] => Raise ValueError
  | s0 :: ss =>
      match hd_item d with
      | None => Ok (BArr (hd_type d) (hd_shape d) (hd_data d))
      | Some w =>
          if negb (btype_eqb (hd_type d) BU8) || Nat.eqb w 0 then Raise OutOfModel
          else
            let shape := s0 :: ss in
            let n := last shape 0%nat in
            if negb (Nat.eqb (n mod (4 * w)) 0) then Raise ValueError
            else
              let shape' := removelast shape ++ [(n / (4 * w))%nat] in
              Ok (BArr BNpStr shape' (map (text_item w) (pieces (size shape') (4 * w) (hd_data d))))
      end
  end.

(** [dtype()] of h5py.Empty's type (base_format.py:1288-1291); an empty byte string
    is decoded. *)
Definition empty_value (t : btype) : res bval :=
  match t with
  | BBytes => Ok (BText [])
  | BStr | BNpStr | BOther => Raise OutOfModel
  | BC64 | BC128 => Ok (BScalar t (CC 0 0))
  | _ => Ok (BScalar t (CZ 0))
  end.

(** base_format.py:1282-1294, 1345-1357: the value of an attribute. *)
Definition read_attr (a : hattr) : res bval :=
  match a with
  | HBytes b =>
      match utf8_dec b with
      | Some s => Ok (BText s)
      | None => Raise UnicodeDecodeError
      end
  | HStr s => Ok (BText s)
  | HEmpty t => empty_value t
  | HValue v => Ok v
  end.

(** base_format.py:1280, 1343: the attributes that are passed over. *)
Definition hidden_attrs : list pystr :=
  [str "CLASS"; str "TITLE"; str "VERSION"; str "DEEPDISH_IO_VERSION"; str "PYTABLES_FORMAT_VERSION"].

(** base_format.py:1278-1294, 1341-1357: all attributes. *)
Definition read_attrs (a : dict hattr) : res brecord :=
  mapM (fun p => rlet v := read_attr (snd p) in Ok (fst p, v))
       (filter (fun p => negb (str_mem (fst p) hidden_attrs)) a).

(** base_format.py:1264-1297: one record.  A member that is no group has no
    [keys]. *)
Definition read_record (i : hitem) : res brecord :=
  match i with
  | HDset _ _ => Raise AttributeError
  | HGroup dsets attrs =>
      rlet ds := mapM (fun p => rlet v := read_dset (snd p) in Ok (fst p, v)) dsets in
      rlet at_ := read_attrs attrs in
      Ok (dict_update (dict_update [] ds) at_)
  end.

(** base_format.py:1234-1299 read_records. *)
Definition read_records (f : hfile) : res brecords :=
  mapM (fun p => rlet r := read_record (snd p) in Ok (fst p, r)) (sort_dict (h_items f)).

(** base_format.py:1301-1360 read_arrays.  [dset[:]] on a group is a TypeError. *)
Definition read_arrays (f : hfile) : res brecord :=
  rlet ds := mapM (fun p => rlet v := match snd p with
                                      | HGroup _ _ => Raise TypeError
                                      | HDset d _ => read_dset d
                                      end in Ok (fst p, v)) (sort_dict (h_items f)) in
  rlet at_ := read_attrs (h_attrs f) in
  Ok (dict_update (dict_update [] ds) at_).

(** ** Writing *)

(** base_format.py:1385-1389, 1418-1422: the attribute that is written.  [np.bytes_]
    of a text encodes it as ASCII and drops trailing NULs.  h5py cannot store
    arrays of [np.str_]. *)
Definition write_attr (v : bval) : res hattr :=
  match v with
  | BText s | BScalar BNpStr (CS s) =>
      if forallb (fun c => (0 <=? c) && (c <? 128)) s then Ok (HBytes (strip_nul s))
      else Raise UnicodeEncodeError
  | BScalar BBytes (CS s) => Ok (HBytes s)
  | BScalar BStr _ | BScalar BNpStr _ | BScalar BBytes _ | BScalar BOther _ => Raise OutOfModel
  | BScalar t c => Ok (HValue (BScalar t c))
  | BArr BNpStr _ _ => Raise TypeError
  | BArr BStr _ _ | BArr BOther _ _ => Raise OutOfModel
  | BArr t s l => Ok (HValue (BArr t s l))
  | BEmpty BStr | BEmpty BNpStr | BEmpty BOther => Raise OutOfModel
  | BEmpty t => Ok (HEmpty t)
  | BPlain => Raise OutOfModel
  end.

(** A code point as four bytes, little-endian (base_format.py:1392, 1425). *)
Definition point_bytes (c : Z) : list cell :=
  [CZ (c mod 256); CZ (c / 256 mod 256); CZ (c / 65536 mod 256); CZ (c / 16777216)].

(** The number of characters of a text (base_format.py:1391, 1424). *)
Definition text_length (c : cell) : nat := match c with CS s => length s | _ => 0%nat end.

(** The characters per item of an array of texts (base_format.py:1391, 1424): those of
    the longest, at least one.  Simplified: the array may have been made with
    longer items; the texts read back are the same. *)
Definition item_width (data : list cell) : nat :=
  Nat.max 1 (list_max (map text_length data)).

(** The bytes of one item of [w] characters (base_format.py:1392, 1425). *)
Definition item_bytes (w : nat) (c : cell) : list cell :=
  match c with
  | CS s => flat_map point_bytes (s ++ repeat 0 (w - length s))
  | _ => []
  end.

Section Filters.
(** The names of the compression filters that the HDF5 library offers to h5py (for
    base_format.py:1393, 1397, 1425, 1429). *)
Variable available : pystr -> bool.

(** The check of [compression] in create_dataset (base_format.py:1392-1397,
    1425-1429): a dataset without dimensions
    cannot be compressed. *)
Definition check_filter (compression : option pystr) (shape : list nat) : res unit :=
  match compression, shape with
  | None, _ => Ok tt
  | Some _, [] => Raise TypeError
  | Some c, _ => if available c then Ok tt else Raise ValueError
  end.

(** base_format.py:1390-1397, 1423-1429: the dataset that is written.  Values
    without [dtype] are an AttributeError. *)
Definition write_dset (compression : option pystr) (v : bval) : res hdset :=
  match v with
  | BArr BNpStr shape data =>
      match shape with
      | [] => Raise ValueError
      | _ =>
          let w := item_width data in
          let shape' := removelast shape ++ [(last shape 0 * (4 * w))%nat] in
          rlet _ := check_filter compression shape' in
          Ok (mk_hdset BU8 shape' (flat_map (item_bytes w) data) (Some w))
      end
  | BArr BStr _ _ | BArr BOther _ _ => Raise OutOfModel
  | BArr t shape data =>
      rlet _ := check_filter compression shape in Ok (mk_hdset t shape data None)
  | BScalar BStr _ | BScalar BNpStr _ | BScalar BOther _ => Raise OutOfModel
  | BScalar t c =>
      rlet _ := check_filter compression [] in Ok (mk_hdset t [] [c] None)
  | BEmpty _ => Raise OutOfModel
  | BText _ | BPlain => Raise AttributeError
  end.

(** base_format.py:1384-1397: the fields of one record, in order, into a new
    group.  An exception leaves the fields written before. *)
Fixpoint write_fields (attrs : list pystr) (compression : option pystr) (r : brecord)
    (gd : dict hdset) (ga : dict hattr) : (dict hdset * dict hattr) * res unit :=
  match r with
  | [] => ((gd, ga), Ok tt)
  | (k, v) :: r' =>
      if str_mem k attrs then
        match write_attr v with
        | Ok a => write_fields attrs compression r' gd (dict_set ga k a)
        | Raise e => ((gd, ga), Raise e)
        end
      else
        match write_dset compression v with
        | Ok d => write_fields attrs compression r' (dict_set gd k d) ga
        | Raise e => ((gd, ga), Raise e)
        end
  end.

(** A name that [create_group] (base_format.py:1383) takes as one member of the root
    group; paths are not modelled. *)
Definition plain_name (n : pystr) : bool :=
  negb (str_eqb n []) && negb (str_eqb n (str ".")) && forallb (fun c => negb (c =? 47) && negb (c =? 0)) n.

(** base_format.py:1382-1397: all records.  A group of the same name is a
    ValueError. *)
Fixpoint write_groups (attrs : list pystr) (compression : option pystr) (rs : brecords) (f : hfile)
    : hfile * res unit :=
  match rs with
  | [] => (f, Ok tt)
  | (n, r) :: rs' =>
      if negb (plain_name n) then (f, Raise OutOfModel)
      else match dict_get (h_items f) n with
      | Some _ => (f, Raise ValueError)
      | None =>
          let '((gd, ga), e) := write_fields attrs compression r [] [] in
          let f' := mk_hfile (dict_set (h_items f) n (HGroup gd ga)) (h_attrs f) in
          match e with
          | Ok _ => write_groups attrs compression rs' f'
          | Raise e => (f', Raise e)
          end
      end
  end.

(** base_format.py:1362-1397 write_records. *)
Definition write_records (F : format) (fs : hfs) (name : pystr) (rs : brecords)
    (compression : option pystr) : hfs * res unit :=
  match site_single_element_types F, site_array_dtypes F, h5_append fs name with
  | Ok attrs, Ok _, Ok f =>
      let '(f', e) := write_groups (map fst attrs) compression rs f in (h5_close fs name f', e)
  | Raise e, _, _ | _, Raise e, _ | _, _, Raise e => (fs, Raise e)
  end.

(** base_format.py:1417-1429: the fields of the arrays, in order. *)
Fixpoint write_members (attrs : list pystr) (compression : option pystr) (a : brecord) (f : hfile)
    : hfile * res unit :=
  match a with
  | [] => (f, Ok tt)
  | (k, v) :: a' =>
      if str_mem k attrs then
        match write_attr v with
        | Ok x => write_members attrs compression a' (mk_hfile (h_items f) (dict_set (h_attrs f) k x))
        | Raise e => (f, Raise e)
        end
      else
        match write_dset compression v with
        | Ok d =>
            if negb (plain_name k) then (f, Raise OutOfModel)
            else match dict_get (h_items f) k with
            | Some _ => (f, Raise ValueError)
            | None => write_members attrs compression a' (mk_hfile (dict_set (h_items f) k (HDset d [])) (h_attrs f))
            end
        | Raise e => (f, Raise e)
        end
  end.

(** base_format.py:1399-1429 write_arrays. *)
Definition write_arrays (F : format) (fs : hfs) (name : pystr) (a : brecord)
    (compression : option pystr) : hfs * res unit :=
  match array_single_element_types F, array_array_dtypes F, unshared_fields F, h5_append fs name with
  | Ok attrs, Ok _, Ok _, Ok f =>
      let '(f', e) := write_members (map fst attrs) compression a f in (h5_close fs name f', e)
  | Raise e, _, _, _ | _, Raise e, _, _ | _, _, Raise e, _ | _, _, _, Raise e => (fs, Raise e)
  end.
End Filters.

(** ** Version and structure *)

(** [s.split(c)] (borealis_site.py:127-128). *)
Fixpoint split_at (c : Z) (s : pystr) : list pystr :=
  match s with
  | [] => [[]]
  | x :: s' =>
      if x =? c then [] :: split_at c s'
      else match split_at c s' with
           | p :: ps => (x :: p) :: ps
           | [] => [[x]]
           end
  end.

(** ['.'.join(l)] (borealis_site.py:128). *)
Fixpoint join_dot (l : list pystr) : pystr :=
  match l with
  | [] => []
  | [p] => p
  | p :: l' => p ++ 46 :: join_dot l'
  end.

(** borealis_site.py:127-128, 356-358, borealis_array.py:118-119, 326-327,
    borealis_utilities.py:612-613: the version in a git hash. *)
Definition version_of (hash : pystr) : pystr :=
  join_dot (firstn 2 (split_at 46 (hd [] (split_at 45 hash)))).

(** [v.decode('utf-8')] of an attribute (borealis_site.py:126): only [np.bytes_] has
    this method. *)
Definition attr_decode (a : hattr) : res pystr :=
  match a with
  | HBytes b => match utf8_dec b with Some s => Ok s | None => Raise UnicodeDecodeError end
  | _ => Raise AttributeError
  end.

(** The name of the field (borealis_site.py:125). *)
Definition s_hash : pystr := str "borealis_git_hash".

(** The file types known by name (borealis_site.py:113, borealis_array.py:110,
    borealis.py:127). *)
Definition filetype_of (s : pystr) : option filetype :=
  if str_eqb s (str "bfiq") then Some Bfiq
  else if str_eqb s (str "antennas_iq") then Some AntennasIq
  else if str_eqb s (str "rawacf") then Some BRawacf
  else if str_eqb s (str "rawrf") then Some Rawrf
  else None.

(** borealis_site.py:136-144, borealis_array.py:125-133: the format class for a
    version. *)
Definition generation_of (version : pystr) : res generation :=
  match version_generation version with
  | Some g => Ok g
  | None => Raise BorealisVersionError
  end.

(** ** Readers *)

(** A reader object: version, format and data (borealis_site.py:112-149). *)
Record site_reader : Type := mk_site_reader {
  sr_version : pystr;
  sr_gen : generation;
  sr_type : filetype;
  sr_records : brecords
}.
(** The same for arrays (borealis_array.py:108-138). *)
Record array_reader : Type := mk_array_reader {
  ar_version : pystr;
  ar_gen : generation;
  ar_type : filetype;
  ar_arrays : brecord
}.

(** borealis_site.py:234-275 BorealisSiteRead.read_file. *)
Definition site_read_file (F : format) (f : hfile) : res brecords :=
  rlet _ := site_single_element_types F in
  rlet _ := site_array_dtypes F in
  rlet rs := read_records f in
  rlet rs := ppo_site_fix rs in
  rlet _ := check_site_records F rs in
  Ok (sort_dict rs).

(** borealis_site.py:123-134: the hash of the first group; IndexError and KeyError
    become BorealisStructureError. *)
Definition site_hash (f : hfile) : res pystr :=
  match sort_dict (h_items f) with
  | [] => Raise BorealisStructureError
  | (_, i) :: _ =>
      match dict_get (item_attrs i) s_hash with
      | None => Raise BorealisStructureError
      | Some a => attr_decode a
      end
  end.

(** borealis_site.py:84-149 BorealisSiteRead.__init__. *)
Definition site_read (fs : hfs) (name ft : pystr) : res site_reader :=
  match filetype_of ft with
  | None => Raise BorealisFileTypeError
  | Some t =>
      rlet f := h5_open fs name in
      rlet hash := site_hash f in
      rlet g := generation_of (version_of hash) in
      rlet rs := site_read_file (format_class g t) f in
      Ok (mk_site_reader (version_of hash) g t rs)
  end.

(** borealis_array.py:219-252 BorealisArrayRead.read_file. *)
Definition array_read_file (F : format) (f : hfile) : res brecord :=
  rlet _ := array_single_element_types F in
  rlet _ := array_array_dtypes F in
  rlet _ := unshared_fields F in
  rlet a := read_arrays f in
  rlet a := ppo_array_fix a in
  rlet _ := check_array_dict F a in
  Ok a.

(** borealis_array.py:115-124: the hash of the file. *)
Definition array_hash (f : hfile) : res pystr :=
  match dict_get (h_attrs f) s_hash with
  | None => Raise BorealisStructureError
  | Some a => attr_decode a
  end.

(** borealis_array.py:82-138 BorealisArrayRead.__init__. *)
Definition array_read (fs : hfs) (name ft : pystr) : res array_reader :=
  match filetype_of ft with
  | None => Raise BorealisFileTypeError
  | Some t =>
      rlet f := h5_open fs name in
      rlet hash := array_hash f in
      rlet g := generation_of (version_of hash) in
      rlet a := array_read_file (format_class g t) f in
      Ok (mk_array_reader (version_of hash) g t a)
  end.

(** Any exception as BorealisRestructureError (borealis_site.py:204-208,
    borealis_array.py:182-186). *)
Definition wrap_restructure {A} (r : res A) : res A :=
  match r with
  | Ok a => Ok a
  | Raise OutOfModel => Raise OutOfModel
  | Raise _ => Raise BorealisRestructureError
  end.

(** borealis_site.py:186-217, 412-443: the arrays of a reader or writer of site
    records. *)
Definition site_arrays (g : generation) (t : filetype) (rs : brecords) : res brecord :=
  let F := format_class g t in
  if fm_restructureable F then
    wrap_restructure (rlet a := site_to_array F rs in
                      rlet _ := check_array_dict F a in Ok a)
  else Raise BorealisRestructureError.

(** borealis_array.py:166-194, 375-403: the records of a reader or writer of
    arrays. *)
Definition array_records (g : generation) (t : filetype) (a : brecord) : res brecords :=
  let F := format_class g t in
  if fm_restructureable F then
    wrap_restructure (rlet rs := array_to_site record_name F a in
                      rlet _ := check_site_records F rs in Ok rs)
  else Raise BorealisRestructureError.

(** BorealisRead: the reader it holds; its class gives borealis_file_structure
    (borealis.py:125-146). *)
Inductive reader : Type :=
| SiteReader (r : site_reader)
| ArrayReader (r : array_reader).

(** The exceptions after which the other structure is tried (borealis.py:250-252,
    489-491). *)
Definition falls_back (e : exn) : bool :=
  match e with
  | BorealisExtraFieldError _ | BorealisFieldMissingError _ | BorealisStructureError => true
  | _ => false
  end.

(** borealis.py:215-263 return_reader. *)
Definition return_reader (fs : hfs) (name ft : pystr) : res reader :=
  match array_read fs name ft with
  | Ok r => Ok (ArrayReader r)
  | Raise e =>
      if falls_back e then rlet r := site_read fs name ft in Ok (SiteReader r)
      else Raise e
  end.

(** borealis.py:98-146 BorealisRead.__init__. *)
Definition borealis_read (fs : hfs) (name ft : pystr) (structure : option pystr) : res reader :=
  match filetype_of ft with
  | None => Raise BorealisFileTypeError
  | Some _ =>
      match structure with
      | None => return_reader fs name ft
      | Some s =>
          if str_eqb s (str "site") then rlet r := site_read fs name ft in Ok (SiteReader r)
          else if str_eqb s (str "array") then rlet r := array_read fs name ft in Ok (ArrayReader r)
          else Raise BorealisStructureError
      end
  end.

(** The records of a BorealisRead (borealis.py:180-194). *)
Definition reader_records (r : reader) : res brecords :=
  match r with
  | SiteReader r => Ok (sr_records r)
  | ArrayReader r => array_records (ar_gen r) (ar_type r) (ar_arrays r)
  end.
(** The arrays of a BorealisRead (borealis.py:180-194). *)
Definition reader_arrays (r : reader) : res brecord :=
  match r with
  | SiteReader r => site_arrays (sr_gen r) (sr_type r) (sr_records r)
  | ArrayReader r => Ok (ar_arrays r)
  end.

(** ** Writers *)

(** The data handed to a writer: records or arrays (borealis.py:346). *)
Inductive bdata : Type :=
| DRecords (rs : brecords)
| DArrays (a : brecord).

(** [v.split('-')] (borealis_site.py:356, borealis_array.py:326): texts only. *)
Definition text_of (v : bval) : res pystr :=
  match v with
  | BText s | BScalar BNpStr (CS s) => Ok s
  | BScalar BBytes _ => Raise TypeError
  | BPlain => Raise OutOfModel
  | _ => Raise AttributeError
  end.

(** borealis_site.py:354-364: the hash of the first record.  IndexError becomes
    BorealisStructureError, KeyError does not.  Indexing an array or numpy scalar
    with a text is an IndexError, indexing a text or h5py.Empty a TypeError. *)
Definition records_hash (d : bdata) : res pystr :=
  match d with
  | DRecords rs =>
      match sort_dict rs with
      | [] => Raise BorealisStructureError
      | (_, r) :: _ => rlet v := dict_item r s_hash in text_of v
      end
  | DArrays a =>
      match sort_dict a with
      | [] => Raise BorealisStructureError
      | (_, v) :: _ =>
          match v with
          | BText _ | BEmpty _ | BScalar BNpStr _ | BScalar BBytes _ => Raise TypeError
          | BArr _ _ _ | BScalar _ _ => Raise BorealisStructureError
          | BPlain => Raise OutOfModel
          end
      end
  end.

(** borealis_array.py:325-333: the hash of the arrays; KeyError becomes
    BorealisStructureError.  A record has no [split]. *)
Definition arrays_hash (d : bdata) : res pystr :=
  match d with
  | DArrays a =>
      match dict_get a s_hash with
      | None => Raise BorealisStructureError
      | Some v => text_of v
      end
  | DRecords rs =>
      match dict_get rs s_hash with
      | None => Raise BorealisStructureError
      | Some _ => Raise AttributeError
      end
  end.

Section Writers.
(** See [Filters] above (base_format.py:1393-1429). *)
Variable available : pystr -> bool.

(** borealis_site.py:314-379 BorealisSiteWrite.__init__ and 460-491 write_file.  An
    unknown file type is an AttributeError: the message needs [self.filename],
    which is not set yet (350). *)
Definition site_write (fs : hfs) (name : pystr) (d : bdata) (ft : pystr) (compression : option pystr)
    : hfs * res unit :=
  match filetype_of ft with
  | None => (fs, Raise AttributeError)
  | Some t =>
      match (rlet hash := records_hash d in
             rlet g := generation_of (version_of hash) in
             match d with
             | DRecords rs => rlet _ := check_site_records (format_class g t) rs in Ok (g, rs)
             | DArrays _ => Raise OutOfModel
             end) with
      | Raise e => (fs, Raise e)
      | Ok (g, rs) => write_records available (format_class g t) fs name rs compression
      end
  end.

(** borealis_array.py:290-347 BorealisArrayWrite.__init__ and 428-458 write_file. *)
Definition array_write (fs : hfs) (name : pystr) (d : bdata) (ft : pystr) (compression : option pystr)
    : hfs * res unit :=
  match filetype_of ft with
  | None => (fs, Raise BorealisFileTypeError)
  | Some t =>
      match (rlet hash := arrays_hash d in
             rlet g := generation_of (version_of hash) in
             match d with
             | DArrays a => rlet _ := check_array_dict (format_class g t) a in Ok (g, a)
             | DRecords _ => Raise OutOfModel
             end) with
      | Raise e => (fs, Raise e)
      | Ok (g, a) => write_arrays available (format_class g t) fs name a compression
      end
  end.

(** The keyword hdf5_compression when it is not given: borealis_site.py:315.  [None] inside stands for Python's None. *)
Definition site_compression (c : option (option pystr)) : option pystr :=
  match c with Some c => c | None => None end.
(** The same for arrays: borealis_array.py:291. *)
Definition array_compression (c : option (option pystr)) : option pystr :=
  match c with Some c => c | None => Some (str "zlib") end.

(** What was written, as borealis_file_structure says (borealis.py:352-365). *)
Inductive written : Type := WroteSite | WroteArray.

(** borealis.py:447-504 return_writer. *)
Definition return_writer (fs : hfs) (name : pystr) (d : bdata) (ft : pystr) (c : option (option pystr))
    : hfs * res written :=
  match array_write fs name d ft (array_compression c) with
  | (fs', Ok _) => (fs', Ok WroteArray)
  | (fs', Raise e) =>
      if falls_back e then
        match site_write fs' name d ft (site_compression c) with
        | (fs'', Ok _) => (fs'', Ok WroteSite)
        | (fs'', Raise e) => (fs'', Raise e)
        end
      else (fs', Raise e)
  end.

(** borealis.py:320-365 BorealisWrite.__init__. *)
Definition borealis_write (fs : hfs) (name : pystr) (d : bdata) (ft : pystr) (structure : option pystr)
    (c : option (option pystr)) : hfs * res written :=
  match structure with
  | None => return_writer fs name d ft c
  | Some s =>
      if str_eqb s (str "site") then
        match site_write fs name d ft (site_compression c) with
        | (fs', Ok _) => (fs', Ok WroteSite)
        | (fs', Raise e) => (fs', Raise e)
        end
      else if str_eqb s (str "array") then
        match array_write fs name d ft (array_compression c) with
        | (fs', Ok _) => (fs', Ok WroteArray)
        | (fs', Raise e) => (fs', Raise e)
        end
      else (fs, Raise BorealisStructureError)
  end.
End Writers.

(** ** The structure of a file *)

(** The members of the root group as h5py lists them: by name, since the files are
    made without track_order (borealis_utilities.py:537, base_format.py:592,
    borealis_formats.py:764). *)
Definition members (f : hfile) : dict hitem := sort_dict (h_items f).

(** borealis_utilities.py:516-543 get_record_names: the members of the file, then its
    attributes. *)
Definition record_names (f : hfile) : list pystr :=
  map fst (members f) ++ filter (fun k => negb (str_mem k hidden_attrs)) (map fst (h_attrs f)).

(** borealis_utilities.py:545-566 get_borealis_structure. *)
Definition borealis_structure (names : list pystr) : pystr :=
  if str_mem s_hash names then str "array" else str "site".

(** borealis_utilities.py:568-617 get_borealis_version.  Only KeyError becomes
    BorealisStructureError: a site file without records is an IndexError. *)
Definition file_version (f : hfile) (structure : pystr) : res pystr :=
  if str_eqb structure (str "array") then
    rlet h := array_hash f in Ok (version_of h)
  else if str_eqb structure (str "site") then
    match members f with
    | [] => Raise IndexError
    | _ => rlet h := site_hash f in Ok (version_of h)
    end
  else Raise BorealisStructureError.
