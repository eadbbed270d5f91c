(** * SpecReport: the final states of a message, as the carriers' protocol documents name
    them, and which one the simulating server picks (C80). *)
From Coq Require Import String Ascii.
From Verif Require Import Base.
Open Scope string_scope.
Open Scope list_scope.

Fixpoint chars (s : string) : bytes :=
  match s with EmptyString => [] | String c r => Z.of_nat (nat_of_ascii c) :: chars r end.

(** CMPP: state by the last two decimal digits of the report's number. *)
Definition cmpp_failures : list (Z * bytes) :=
  [(10, chars "CB:0000"); (11, chars "CA:0000"); (22, chars "MB:0000"); (33, chars "MA:0000"); (44, chars "EXPIRED");
   (55, chars "DELETED"); (66, chars "UNDELIV"); (77, chars "ACCEPTD"); (88, chars "UNKNOWN"); (99, chars "REJECTD")].
Definition delivered : bytes := chars "DELIVRD".
(** SMGP: error code and state by the last three digits of the second. *)
Definition smgp_failures : list (Z * (bytes * bytes)) :=
  [(1, (chars "001", chars "EXPIRED")); (2, (chars "002", chars "EXPIRED")); (3, (chars "003", chars "UNDELIV"));
   (4, (chars "004", chars "UNDELIV")); (5, (chars "005", chars "UNDELIV")); (6, (chars "006", chars "UNDELIV"));
   (7, (chars "007", chars "EXPIRED")); (8, (chars "008", chars "UNDELIV")); (9, (chars "009", chars "UNDELIV"));
   (10, (chars "010", chars "UNDELIV"))].
Definition one : bytes := chars "001".
Definition smgp_fine : bytes * bytes := (chars "000", delivered).

Inductive picks {A} (t : list (Z * A)) (other : A) (k : Z) : A -> Prop :=
| pick_listed : forall a, In (k, a) t -> picks t other k a
| pick_other : (forall a, ~ In (k, a) t) -> picks t other k other.

(** How many of the [n] numbers from [a] on satisfy [p]. *)
Fixpoint tally (p : Z -> bool) (a : Z) (n : nat) : Z :=
  match n with O => 0 | S m => (if p a then 1 else 0) + tally p (a + 1) m end.
