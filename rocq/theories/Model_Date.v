(** Model of /repo/date.go. *)
From Verif Require Import Base Model_Helpers.

(** date.go:8-12 *)
Record Date := mkDate { Year : Z; Month : Z; Day : Z }.

(** date.go:19-21 *)
Definition date_appendTo (d : Date) (data : list Z) : list Z :=
  AppendUint16LE data (Year d) ++ [Month d; Day d].

(** date.go:42-46 *)
Definition isLeapYear (year : Z) : bool :=
  if negb (Z.land year 3 =? 0) then false
  else if negb (year mod 100 =? 0) then true
  else year mod 400 =? 0.

(** date.go:48 *)
Definition monthDaysTable : list Z := [31; 28; 31; 30; 31; 30; 31; 31; 30; 31; 30; 31].

(** date.go:50-56; the index [self.Month - 1] is computed in uint8 *)
Definition monthDays (d : Date) : outcome Z :=
  if (Month d =? 2) && isLeapYear (Year d) then
    do n <- zget monthDaysTable (u8 (Month d - 1)); Ok (u8 (n + 1))
  else zget monthDaysTable (u8 (Month d - 1)).

(** date.go:25-31 *)
Definition date_IsValid (d : Date) : outcome bool :=
  if (Month d =? 0) && negb (Day d =? 0) then Ok false
  else if (Year d =? 0) && (negb (Month d =? 0) || negb (Day d =? 0)) then Ok false
  else if Month d >? 12 then Ok false
  else do n <- monthDays d; if Day d >? n then Ok false else Ok true.

(** date.go:34-36 *)
Definition date_IsComplete (d : Date) : bool :=
  negb (Year d =? 0) && negb (Month d =? 0) && negb (Day d =? 0).

(** date.go:75 *)
Definition monthNames : list string :=
  ["January"; "February"; "March"; "April"; "May"; "June"; "July"; "August"; "September";
   "October"; "November"; "December"]%string.

(** date.go:76-79 *)
Definition date_MonthName (d : Date) : outcome string :=
  if (Month d =? 0) || (Month d >? 12) then Ok "????"%string
  else zget monthNames (u8 (Month d - 1)).

(** Which of the formats of date.go:62-73 (String) is used; number formatting by package
    fmt is not modelled. *)
Inductive date_text :=
| UnknownDate
| YearText (y : Z)
| MonthYearText (m : string) (y : Z)
| FullText (d : Z) (m : string) (y : Z).

(** date.go:62-73 *)
Definition date_String (d : Date) : outcome date_text :=
  if Day d =? 0 then
    if Month d =? 0 then
      if Year d =? 0 then Ok UnknownDate else Ok (YearText (Year d))
    else do m <- date_MonthName d; Ok (MonthYearText m (Year d))
  else do m <- date_MonthName d; Ok (FullText (Day d) m (Year d)).
