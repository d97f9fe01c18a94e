(** The Gregorian calendar and the format's rules for partial dates (specification.md:36),
    stated without reference to the code. *)
From Verif Require Import Base Model_Date.

Definition leap (y : Z) : Prop := (4 | y) /\ (~ (100 | y) \/ (400 | y)).

(** [has_day y m d]: day d exists in month m of year y. *)
Inductive has_day (y : Z) : Z -> Z -> Prop :=
| Long m d : In m [1; 3; 5; 7; 8; 10; 12] -> 1 <= d <= 31 -> has_day y m d
| Short m d : In m [4; 6; 9; 11] -> 1 <= d <= 30 -> has_day y m d
| Feb d : 1 <= d <= 28 -> has_day y 2 d
| Feb29 : leap y -> has_day y 2 29.

(** A date as the header fields may leave parts out. *)
Inductive valid_date : Date -> Prop :=
| Undefined : valid_date (mkDate 0 0 0)
| OnlyYear y : y <> 0 -> valid_date (mkDate y 0 0)
| YearMonth y m : y <> 0 -> 1 <= m <= 12 -> valid_date (mkDate y m 0)
| Complete y m d : y <> 0 -> has_day y m d -> valid_date (mkDate y m d).

Definition date_fields (d : Date) : Prop :=
  0 <= Year d < 65536 /\ 0 <= Month d < 256 /\ 0 <= Day d < 256.
