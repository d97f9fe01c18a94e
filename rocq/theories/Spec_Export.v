(** Writers and files. *)
From Verif Require Import Base Model_Font Model_Parse Model_Export.

(** As io.Writer demands: a call takes no more than it is given, and reports when it takes less. *)
Fixpoint honest (w : writer) (calls : list (list Z)) : Prop :=
  match w, calls with
  | (n, e) :: w', c :: calls' => 0 <= n <= zlen c /\ (n < zlen c -> e <> None) /\ honest w' calls'
  | _, _ => True
  end.
(** a call among the first [k] fails *)
Definition fails_within (k : nat) (w : writer) : Prop := exists e, In e (firstn k w) /\ snd e <> None.
(** a ggfnt file is 'tggfnt' and gzip data *)
Definition file (gzip_data : list Z) : list Z := [116; 103; 103; 102; 110; 116] ++ gzip_data.
