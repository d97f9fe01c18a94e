(** The format's regular expression for basic names (specification.md:40):
    [a-zA-Z](-?[A-Za-z0-9]+)* with at most 32 characters. *)
From Verif Require Import Base.

Definition letter (c : Z) : Prop := 97 <= c <= 122 \/ 65 <= c <= 90.
Definition alnum (c : Z) : Prop := letter c \/ 48 <= c <= 57.
Definition hyphen : Z := 45.

(** one repetition: -?[A-Za-z0-9]+ *)
Definition name_chunk (w : list Z) : Prop :=
  exists r, r <> [] /\ Forall alnum r /\ (w = r \/ w = hyphen :: r).

Inductive name_chunks : list Z -> Prop :=
| NCnil : name_chunks []
| NCcons w rest : name_chunk w -> name_chunks rest -> name_chunks (w ++ rest).

Definition basic_name (s : list Z) : Prop :=
  (exists c rest, s = c :: rest /\ letter c /\ name_chunks rest) /\ (length s <= 32)%nat.

(** What the code accepts instead (used to state the partial results): the same alphabet
    and length, no hyphen at either end. *)
Definition loose_name (s : list Z) : Prop :=
  s <> [] /\ (length s <= 32)%nat /\ Forall (fun c => alnum c \/ c = hyphen) s /\
  hd 0 s <> hyphen /\ last s 0 <> hyphen.

(** Free text names: letters, digits, hyphens and spaces. *)
Definition spaced_name (s : list Z) : Prop :=
  s <> [] /\ (length s <= 32)%nat /\ Forall (fun c => alnum c \/ c = hyphen \/ c = 32) s.

(** Two hyphens in a row somewhere. *)
Definition double_hyphen (s : list Z) : Prop := exists a b, s = a ++ hyphen :: hyphen :: b.
