(** The text of a date and time: strftime("%c") (borealis_convert.py:631-634, 925-928). *)
From Coq Require Import String ZArith List Bool.
From Verif Require Import Base SDarnFormats BorealisTime BorealisConvert.
Import ListNotations.
Open Scope list_scope.
Open Scope Z_scope.

(** The abbreviated names of the days in the C locale, the one a Python program
    starts with (borealis_convert.py:634, 928). *)
Definition day_names : list pystr :=
  map str ["Mon"; "Tue"; "Wed"; "Thu"; "Fri"; "Sat"; "Sun"]%string.
(** The same for the months (borealis_convert.py:634, 928). *)
Definition month_names : list pystr :=
  map str ["Jan"; "Feb"; "Mar"; "Apr"; "May"; "Jun"; "Jul"; "Aug"; "Sep"; "Oct"; "Nov"; "Dec"]%string.

(** A number in two places, filled up with [c] (borealis_convert.py:634, 928). *)
Definition padded (c n : Z) : pystr := if n <? 10 then c :: dec n else dec n.

(** [datetime.utcfromtimestamp(...).strftime("%c")] for [m] microseconds since 1970
    (borealis_convert.py:631-634, 925-928): "%a %b %e %H:%M:%S %Y" of the C library (glibc;
    years before 1000 are not filled up).  The day of the week is that of
    [datetime.weekday()], 0 for Monday; 1970-01-01 is 3.  Datetimes have years 1 to 9999
    only (see [micros]); elsewhere this is the empty text, which nothing uses. *)
Definition c_time (m : Z) : pystr :=
  if (m <? -62135596800000000) || (253402300800000000 <=? m) then []
  else
    let days := m / 86400000000 in
    let rest := m mod 86400000000 in
    let '(yr, mo, dy) := civil days in
    nth (Z.to_nat ((days + 3) mod 7)) day_names [] ++ str " " ++
    nth (Z.to_nat (mo - 1)) month_names [] ++ str " " ++ padded 32 dy ++ str " " ++
    padded 48 (rest / 3600000000) ++ str ":" ++ padded 48 (rest / 60000000 mod 60) ++ str ":" ++
    padded 48 (rest / 1000000 mod 60) ++ str " " ++ dec yr.
