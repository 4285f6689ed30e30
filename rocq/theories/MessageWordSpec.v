(** The wording of messages: format texts with named places, and the literals of Python
    for texts, sets and dictionaries. *)
From Coq Require Import String ZArith List.
From Verif Require Import Base Bytes SDarnFormats NumeralSpec.
Import ListNotations.
Open Scope list_scope.
Open Scope Z_scope.

(** [m] is the text [t] with the value of [env] in each place {name}; 123 and 125 are the
    braces. *)
Inductive formats (env : list (pystr * pystr)) : pystr -> pystr -> Prop :=
| formats_end   : formats env [] []
| formats_char  : forall c t m, c <> 123 -> c <> 125 -> formats env t m -> formats env (c :: t) (c :: m)
| formats_place : forall name v t m, In (name, v) env -> ~ In 125 name -> formats env t m ->
    formats env ([123] ++ name ++ [125] ++ t) (v ++ m).

(** ** Literals *)

(** A hexadecimal digit: 0-9 or a-f. *)
Definition hex_digit (v c : Z) : Prop := 0 <= v <= 9 /\ c - 48 = v \/ 10 <= v <= 15 /\ c - 97 = v - 10.
(** [k] hexadecimal digits with the value [v]. *)
Inductive hex : nat -> Z -> pystr -> Prop :=
| hex_none : hex 0 0 []
| hex_more : forall k v s d c, hex k v s -> hex_digit d c -> hex (S k) (16 * v + d) (s ++ [c]).

(** The character [c] in a literal between the quotes [q]; 92 is the backslash. *)
Inductive char_literal (q : Z) : Z -> pystr -> Prop :=
| cl_plain  : forall c, c <> q -> c <> 92 -> c <> 10 -> c <> 13 -> char_literal q c [c]
| cl_quote  : char_literal q q [92; q]
| cl_slash  : char_literal q 92 [92; 92]
| cl_tab    : char_literal q 9 (str "\t")
| cl_line   : char_literal q 10 (str "\n")
| cl_return : char_literal q 13 (str "\r")
| cl_x      : forall c s, hex 2 c s -> char_literal q c (str "\x" ++ s)
| cl_u      : forall c s, hex 4 c s -> char_literal q c (str "\u" ++ s)
| cl_U      : forall c s, hex 8 c s -> char_literal q c (str "\U" ++ s).
Inductive chars_literal (q : Z) : pystr -> pystr -> Prop :=
| chars_none : chars_literal q [] []
| chars_more : forall c s t u, char_literal q c t -> chars_literal q s u -> chars_literal q (c :: s) (t ++ u).
(** [t] is a literal of the text [s], between single or double quotes. *)
Definition text_literal (s t : pystr) : Prop :=
  exists q u, (q = 39 \/ q = 34) /\ chars_literal q s u /\ t = [q] ++ u ++ [q].

(** Literals of the elements, separated by commas. *)
Inductive listed {A} (literal : A -> pystr -> Prop) : list A -> pystr -> Prop :=
| listed_none : listed literal [] []
| listed_one  : forall x t, literal x t -> listed literal [x] t
| listed_more : forall x y l t u, literal x t -> listed literal (y :: l) u -> listed literal (x :: y :: l) (t ++ str ", " ++ u).

(** A set in the order of its iteration; {} would be a dictionary. *)
Definition set_literal (l : list pystr) (t : pystr) : Prop :=
  (l = [] /\ t = str "set()") \/ (l <> [] /\ exists u, listed text_literal l u /\ t = str "{" ++ u ++ str "}").
Definition entry_literal {A} (literal : A -> pystr -> Prop) (p : pystr * A) (t : pystr) : Prop :=
  exists k v, text_literal (fst p) k /\ literal (snd p) v /\ t = k ++ str ": " ++ v.
Definition dict_literal {A} (literal : A -> pystr -> Prop) (d : list (pystr * A)) (t : pystr) : Prop :=
  exists u, listed (entry_literal literal) d u /\ t = str "{" ++ u ++ str "}".
(** A tuple of numbers; a comma tells a tuple of one from a number in parentheses. *)
Definition tuple_literal (l : list Z) (t : pystr) : Prop :=
  exists u, listed numeral l u /\ t = str "(" ++ u ++ str (match l with [_] => "," | _ => "" end) ++ str ")".

(** Characters that are shown as they are. *)
Definition shown_as_is (printable : Z -> bool) (c : Z) : Prop := 32 <= c <= 126 \/ (127 < c /\ printable c = true).
