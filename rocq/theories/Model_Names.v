(** Model of the name validation in /repo/internal/parsing_buffer.go:183-238. *)
From Verif Require Import Base.

(** parsing_buffer.go:236-238 *)
Definition isAZaz09 (c : Z) : bool :=
  ((c >=? 97) && (c <=? 122)) || ((c >=? 65) && (c <=? 90)) || ((c >=? 48) && (c <=? 57)).

(** Loop of parsing_buffer.go:195-209; the error value created on line 202 for consecutive
    hyphens is dropped by the code, so that branch only sets the flag again. *)
Fixpoint basic_name_loop (prevIsHyphen : bool) (name : list Z) : outcome bool :=
  match name with
  | [] => Ok prevIsHyphen
  | c :: rest =>
    if isAZaz09 c then basic_name_loop false rest
    else if c =? 45 then basic_name_loop true rest
    else Err "basic name contains invalid character"
  end.

(** parsing_buffer.go:189-215; Ok tt stands for a nil error *)
Definition ValidateBasicName (name : list Z) : outcome unit :=
  if zlen name >? 32 then Err "basic name can't exceed 32 characters"
  else if zlen name =? 0 then Err "basic name can't be empty"
  else do c0 <- zget name 0;
    if c0 =? 45 then Err "basic name can't start with a hyphen"
    else do prevIsHyphen <- basic_name_loop false name;
      if prevIsHyphen then Err "basic name can't end with a hyphen" else Ok tt.

(** Loop of parsing_buffer.go:228-231 *)
Fixpoint spaced_name_loop (name : list Z) : outcome unit :=
  match name with
  | [] => Ok tt
  | c :: rest =>
    if isAZaz09 c || (c =? 45) || (c =? 32) then spaced_name_loop rest
    else Err "name contains invalid character"
  end.

(** parsing_buffer.go:224-234 *)
Definition validateBasicSpacedName (name : list Z) : outcome unit :=
  if zlen name >? 32 then Err "name can't exceed 32 characters"
  else if zlen name =? 0 then Err "name can't be empty"
  else spaced_name_loop name.
