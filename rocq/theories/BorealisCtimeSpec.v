(** What the text of a time is: "Thu May 23 03:59:51 2019". *)
From Coq Require Import String ZArith List Bool.
From Verif Require Import Base SDarnFormats BorealisConvertFieldSpec.
Import ListNotations.
Open Scope list_scope.
Open Scope Z_scope.

(** The day after a day of the week. *)
Definition day_after (w w' : pystr) : Prop :=
  In (w, w') [(str "Mon", str "Tue"); (str "Tue", str "Wed"); (str "Wed", str "Thu"); (str "Thu", str "Fri");
              (str "Fri", str "Sat"); (str "Sat", str "Sun"); (str "Sun", str "Mon")].

(** The day of the week of a number of days since 1970-01-01. *)
Inductive falls_on : Z -> pystr -> Prop :=
| falls_epoch : falls_on 0 (str "Thu")
| falls_next  : forall n w w', falls_on n w -> day_after w w' -> falls_on (n + 1) w'
| falls_prev  : forall n w w', falls_on n w' -> day_after w w' -> falls_on (n - 1) w.

(** The name of a month. *)
Definition month_name (mo : Z) (s : pystr) : Prop :=
  In (mo, s) [(1, str "Jan"); (2, str "Feb"); (3, str "Mar"); (4, str "Apr"); (5, str "May"); (6, str "Jun");
              (7, str "Jul"); (8, str "Aug"); (9, str "Sep"); (10, str "Oct"); (11, str "Nov"); (12, str "Dec")].

(** Two decimal digits; the first is [c] if it is 0. *)
Definition two (c n : Z) : pystr := [if n <? 10 then c else 48 + n / 10; 48 + n mod 10].

(** The text of [m] microseconds since 1970. *)
Definition time_text (m : Z) (s : pystr) : Prop :=
  exists yr mo dy hr mt sc us w mon year,
    is_time m yr mo dy hr mt sc us /\ falls_on (m / 86400000000) w /\ month_name mo mon /\ numeral yr year /\
    s = w ++ [32] ++ mon ++ [32] ++ two 32 dy ++ [32] ++ two 48 hr ++ [58] ++ two 48 mt ++ [58] ++ two 48 sc ++ [32] ++ year.
