# Machine-checked model of pyDARNio

Source: `/repo` (pyDARNio 1.3, Python).  Nothing in `/repo` is run; it is read
as text and modelled, function by function, in Rocq/Coq 8.16.1
(`rocq/theories`, logical name `Verif`).  Every definition of a model file
carries a comment with the file and lines it mirrors and says where it
simplifies.

## Layout of `rocq/theories`

There are four kinds of files.

* Model files mirror the Python code:

| file | mirrors |
|---|---|
| `Base.v` | results and exceptions as values, Python dictionaries |
| `Bytes.v`, `Utf8.v`, `FloatBits.v` | the Python/numpy primitives: `struct` integers, UTF-8 codec, float32/float64 conversion on bit patterns |
| `DmapTypes.v`, `DmapRead.v`, `DmapWrite.v`, `Conversions.v` | `dmap/dmap.py`, `dmap/datastructures.py`, `utils/conversions.py` |
| `DmapShare.v` | the writer of `dmap/dmap.py` on records that share shape lists |
| `SDarnFormats.v`, `SDarn.v` | `dmap/superdarn_formats.py`, `dmap/superdarn.py` |
| `BorealisTypes.v`, `BorealisFormats.v` | element types and arrays; the tables of `borealis/borealis_formats.py` and `base_format.py` |
| `BorealisChecks.v` | the checks of `borealis/borealis_utilities.py` |
| `BorealisArrays.v` | `_site_to_array` and `_array_to_site` of `borealis/base_format.py` |
| `BorealisTime.v` | timestamps: record names and dates |
| `BorealisFile.v` | HDF5 files, `borealis_site.py`, `borealis_array.py`, `borealis.py` |
| `BorealisRestructure.v` | `borealis_restructure.py` |
| `BorealisConvert.v` | `borealis_convert.py` |
| `BorealisScale.v` | the floating-point arithmetic of `borealis_convert.py` |

* `*Spec.v`, `BorealisShapes.v` and `BorealisCatalogue.v` are small independent
  specifications: the wire grammar, the field rules, what consistent records
  are, a catalogue of fields, what a file keeps, what a converted record says.
  They do not use the functions of the model files, apart from types, tables
  and trivial accessors.
* `*Proofs.v`, `*Facts.v`, `*Checks.v` hold the lemmas.
* `*Props.v` hold the theorems named in `MANIFEST.json`.  Each is followed by
  `Print Assumptions` and by a concrete case (`..._case`) that meets its
  hypotheses.  Theorems called `..._refuted` show that a stronger claim is
  false, by a concrete witness.

## Trusted base

* Coq's kernel (8.16.1), and `coqchk`.
* Axioms: none.  `Print Assumptions` says "Closed under the global context" for
  every theorem named in `MANIFEST.json`; the output is part of the build log of
  the `*Props.v` files.  `coqchk -o` on all files also lists the seven constants
  `Coq.ssr.ssrunder.Under_rel.*`: these belong to a module of the standard
  library that is loaded with `lia`'s libraries.  No theorem depends on them.
* The correspondence between the Python text and the model, as described by the
  comments and the next sections.

### Primitives outside the repository

* `struct`, `numpy.frombuffer`: native little-endian, the sizes of 64-bit Linux.
* `bytes.decode('utf-8')` and `str.encode('utf-8')`: strict, modelled in full;
  lone surrogates cannot be encoded.
* Floats are IEEE bit patterns (integers).  Widening and narrowing are modelled
  on the patterns, round to nearest even, signalling NaNs are quieted.  An integer
  becomes the nearest double, ties to even; numpy makes an int a double before a
  single.
* numpy follows the conventions of numpy 1.x on x86-64: value-based casting,
  float to integer conversions out of range give the smallest integer, at most
  32 dimensions, broadcasting drops leading dimensions of size 1.
* Python dictionaries are association lists in insertion order.  Objects are values:
  two fields do not share a list or an array, except in `DmapShare.v`, where shape lists
  have addresses (C91).
* HDF5 (h5py) is modelled at the level of groups, datasets and attributes, not at
  the level of bytes of the file.  Members are listed by name.  The compression
  filters h5py offers are a parameter (`available`) of the model; the statements
  about h5py as it is use gzip, lzf and szip.  Opening for appending keeps what
  is there; creating a group or dataset that exists is a ValueError.  The order of the
  fields inside one record that was read from a file is the order of writing.
  An attribute holding an empty byte string and a null attribute read back the
  same.
* The file system is a finite map from names to contents.  Files are written
  in one step (DMAP) or as the code writes them, group by group (HDF5), so that
  a failure leaves the groups written before.

### Modelled / not modelled

* Modelled: all code of `pydarnio/dmap`, `pydarnio/utils` and `pydarnio/borealis`
  that reads, checks, converts, restructures or writes data.  Exceptions are
  values that carry the class (and, where a property needs it, the number of
  the record); the cursor of the reader is an integer that survives an exception,
  as the attribute does in Python.
* The messages of the exceptions and warnings are modelled as functions of the arguments
  of their classes (`ExceptionTexts.v`, C96), apart from the model of the code that raises
  them.
* In `BorealisConvert.__repr__` the text Python prints for the records is a parameter.
* Not modelled: logging, memory exhaustion, failures of the operating system, bytes of HDF5
  files.
* Parameters of the converter model (`Section Convert` in `BorealisConvert.v`):
  the floating-point scaling of samples and correlations, the power of a scaled
  sample, and the text of a time (`strftime`).  The theorems C44-C49 and C60-C65 hold for all such
  functions.
* `BorealisScale.v` gives the first three (used by C68, C69): IEEE operations on bit
  patterns as numpy does them on complex64, with the reciprocal numpy uses for complex
  division.  Assumed there: value-based casting of the scalar to complex64 (so a
  normalization factor below 3.4e38 and a scaling factor from -32768 to 65535), no fused
  multiply-add, `** 0.5` as square root.  The bits of a NaN are not modelled.  `norm ** 2` in
  double precision is the C library's pow: a parameter with a bound on its error.
* `BorealisCtime.v` gives the text of a time (used by C74): `strftime("%c")` of glibc in the C
  locale.  A program that calls `setlocale` can get another text.

## How each property is approached

| id | model and proof |
|---|---|
| C01 | `DmapWrite` + `DmapRead` models; prove each field encoder is inverted by the matching reader at any offset inside any buffer, then induct over fields and records. |
| C02 | from C04 (soundness of the reader for the wire grammar) plus "the writer emits the canonical grammar word". |
| C03 | reader is structurally recursive/fuelled by the buffer length; prove out-of-fuel impossible and each raised exception is in the list; witnesses by computation for the leaks. |
| C04, C05 | inductive wire grammar in `DmapSpec.v`, independent of the reader; soundness and completeness by induction. |
| C06, C07 | spec "tiles" = list of positive block lengths; integrity loop related to it by induction. |
| C73 | faults of byte strings as inductive rules in `DmapFaultSpec.v`; every byte string is in the grammar or has a fault (by lists alone), and the reader raises the exception of each rule. |
| C74 | text of a time as a relation (calendar by `next_day`, weekday by `day_after`, numerals); the model's text is the one, dates and days determine each other by an increasing key. |
| C75 | texts with numerals (`numeral`), state of the object from `loop_state`, position of the failing record by induction on the records. |
| C76 | object with the attributes the methods set; induction on the calls; the blocks before the cut are read as in C04, then the cursor passes the end. |
| C77 | the site file is laid out as the format says and reads as the records (C66 strengthened to groups), then C67; the arrays of records that agree but for the names of the dimensions are equal. |
| C78 | the loop over records and fields either goes on or is a ValueError, and is one at the phase offsets of the bad record. |
| C79 | numpy.reshape leaves a shape without negative sizes alone and works out a single negative one; numpy.frombuffer with a negative count takes the rest of the buffer; then every array of the run. |
| C80 | the check and a read leave the cursor past 0, except a check that succeeds. |
| C81 | the setup of C67 as a lemma of its own; every assignment to an array under construction either succeeds and keeps its dimensions or is a ValueError; assigning the data of a wider record is one. |
| C82 | the writers as a chain of checks before the first write; each refusal by computing the chain up to it; the last from C36 and C37. |
| C83 | the conversion depends on the records only through the fields it reads; both readers give the same of these (C57, C67, C72) but for the phase offsets, which are compared by shape. |
| C84 | every step either succeeds or fails as its fault says, and sequences of steps fail as their first fault; lengths by summation over the fields. |
| C85 | the reported lists are characterised by membership, dictionary equality by double inclusion, the updated dictionary by the last group. |
| C86 | the failing record is found by induction over the list (C31), its error by C85 on the tables of the type or by C84. |
| C87 | the acceptable blocks are read off one by one; what follows is a block fault (C73) or a refused record; totality from C73. |
| C88 | every step is shown to fail exactly as its fault says or to give what is shown; mapM finds the first fault, sorting makes it the first by name; the field checks by C36/C37. |
| C89 | rounding to a multiple of the gap is nearest (as for C52); doubles lie on that grid or below the power of two; an equally near double on the other side has an odd mantissa; the single by C52 on the exact double; files by C01. |
| C90 | a record that cannot be converted stays so when its shapes are reversed (faults depend on no order of sizes), so every pass over the records stops there or before; the buffer is whole blocks or the object is blocked. |
| C91 | one pass over heap and records: a list at its turn is the first one reversed as often as arrays with it came before; alternation from the parity; reading by C01 on the blocks as they come out. |
| C92 | the dictionary of a block without names of both kinds is the fields of a block again, each one of the old, every name once; its fields are representable (a widened NaN is the widening of a quiet one); then C01. |
| C93 | for each step of the conversion a lemma that says when it succeeds and that it raises something otherwise (any exception is turned into the error of the type); the checks are decided record by record. |
| C94 | the stored form of each value and its faults are decided value by value; the first fault splits the record and the list of records; the writer runs over the part before it. |
| C95 | restructuring ends in dictionary updates, so names are distinct; the check that follows it is equivalent to fitting (C36–C38); the wrapper turns every exception into one. |
| C96 | every part is shown in a form that can be read off the beginning of a text (quotes with escapes, numerals up to the next space, lists up to the closing brace), so equal messages have equal parts. |
| C97 | the missing fields are a repetition-free part of all declared ones, so they are as many only if they are all and none is declared twice; both loops over types stop at a first failure. |
| C98 | a small executable reading of format texts is sound for the relation between a format text, the values and the message; each message is then checked by computation, with the values as variables. |
| C99 | numpy numbers are in the range of their type; `np.array` of a list is modelled for lists of integers (int64, float64 when empty, an array of objects beyond 64 bits). |
| C100 | the search for the end of a text is followed byte by byte through the last bytes of the file and on from its start. |
| C101 | every reading function is equivalent to its rule of a grammar with positions that may be negative; blocks always start at or after 0 as their size is checked against the rest of the file. |
| C102 | every reading function raises exactly as its fault rule says: a sequence raises if a step does, and the steps before are those of C101. |
| C103 | induction on the fuel of both loops with block_iff and block_raise of C101 and C102; chains are compared block by block. |
| C104 | the method as a function with the list of sizes as a further result; induction on the number of texts, each by C101 and C102. |
| C105 | every accepted file has a walk over its block sizes; the walk of a prefix is a prefix of the walk; blocks by C101. |
| C106 | the rules of C101 at positions not before the start of the second file hold there exactly if they hold in the joined file at the shifted position. |
| C107 | catalogue by field, made from the Python text separately from the tables of the model; comparison by computation; types told apart by a main field unknown to the other type. |
| C108 | values of floats in units of 2^-1074 as in C23; error and order of the three roundings (to microseconds, to seconds, to milliseconds); numerals of equal length are ordered as texts; the sign is the same in all three roundings, so times before 1970 mirror those after; groups of restructured files by C71. |
| C109 | five fields of the catalogue tell generation and type; the rows of the catalogue agree for antennas_iq and bfiq in generation 0.7; both readers look at the type only in the check (C88). |
| C08, C09 | corollaries of C04/C05 and unambiguity of the grammar. |
| C10 | reader object with state (cursor, accumulated records); induction on number of calls. |
| C11, C12 | direct from the writer model; offsets by arithmetic. |
| C13 | ordered-dictionary model; specification "first position, last value". |
| C14 | symbolic execution of the reader on the header. |
| C15, C16, C21 | codec lemmas about the primitives, then field level. |
| C17, C18, C19, C26 | writer object as a state machine with a file system (finite map from names to contents); induction on call sequences. |
| C20 | C01 for the positive part, witness for the negative one. |
| C22, C52 | integer arithmetic on bit patterns; nearest single among all singles. |
| C23, C24, C25 | model of `conversions.py`. |
| C27, C28, C30, C34, C35 | checks as boolean functions on (name, format) lists against a set-style specification; tables copied from `superdarn_formats.py`. |
| C29, C31, C32, C33, C51 | record loop with state; reuse C01/C05. |
| C36, C37, C38, C53 | checks and tables of the Borealis side against `BorealisSpec.v` and the catalogue. |
| C39, C50, C55-C59 | file layer: round trip of a group and of a file by induction over fields and records; detection of version and structure; what opening for appending does. |
| C40, C41, C42, C54 | n-dimensional arrays as shape plus row-major data, padding and slicing; consistent records in `BorealisShapes.v`; generic in the format, with facts about the twelve tables found by computation. |
| C43 | argument validation and detection of the structure. |
| C66, C67 | the loops of `borealis_restructure.py` give the files that the in-memory functions of C40-C42 describe; witnesses for the files it fails on. |
| C44-C49, C60-C65 | converter: integer parts, dates and texts are modelled exactly; floating-point scaling is an abstract function parameter of the model. |
| C68, C69 | each operation rounds to within half a unit of the exact rational value; errors are added up over the operations. |
| C71 | invariant of the loop over the timestamps: the output file is the old one followed by groups named by the rows so far; two equal names contradict success. |
| C72 | C67 gives the arrays, C66 the file made of them: the array file written has the layout C66 asks for; C40 relates the records; the fix of phase offsets commutes with renaming the dimensions. |
| C70 | each statement of the two record converters succeeds on a record of `BorealisConvertTotalSpec.v`; the values fit their wire types, so C29 applies to the file; the bytes of a record are bounded by the lengths of its texts and arrays. |

Properties that turn out false of the faithful model are restated in their true
form in `properties.jsonl`, with a `..._refuted` theorem for the stronger form.

## Mutation tests

`seeded/LOG.jsonl` records the wrong programs tried: the definition edited, the
edit, the claim it should break, the theorems whose proofs failed and the
theorems that were tightened as a result.  Each trial edits one definition of a
model file in a scratch copy and rebuilds everything that depends on it.
