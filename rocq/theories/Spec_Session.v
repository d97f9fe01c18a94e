(** How a tester is used: rules are added and removed, and sequences are run. *)
From Verif Require Import Base Model_Tester Spec_Tree Spec_Tester.

(** A sequence is begun, some pieces are fed, each followed by Break, and a last one followed by
    FinishSequence. [JAdd d r] adds the rule given by the bytes [d], which is meant to be [r]. *)
Inductive job {R : Type} :=
| JAdd (d : list Z) (r : R) | JRemove (d : list Z) | JRemoveAll
| JResync (e : env) | JRefresh (e : env)
| JSequence (e : env) (pieces : list (list Z)) (last : list Z).

Arguments job : clear implicits.

Section Session.
  Context {R : Type}.
  Variable k : tester_kind.
  (** feeding a piece and ending it; what was reported *)
  Definition run_piece (w : bool * tester) (piece : list Z) (ending : call) : outcome (bool * tester * list Z) :=
    do ' (w, reports) <- do_calls k w (map CFeed piece ++ [ending]); Ok (w, concat (map fst reports)).
  Fixpoint run_pieces (w : bool * tester) (pieces : list (list Z)) : outcome (bool * tester * list (list Z)) :=
    match pieces with
    | [] => Ok (w, [])
    | p :: rest => do ' (w, o) <- run_piece w p CBreak; do ' (w, os) <- run_pieces w rest; Ok (w, o :: os)
    end.
  (** A failed compilation ends the session. *)
  Definition checked (x : outcome (bool * tester * report)) : outcome (bool * tester) :=
    do ' (w, r) <- x; match snd r with Some m => Err m | None => Ok w end.
  Definition run_job (w : bool * tester) (j : job R) : outcome (bool * tester * option (list (list Z))) :=
    match j with
    | JAdd d _ => do ' (w, _) <- do_call k w (CAddRule d); Ok (w, None)
    | JRemove d => do ' (w, _) <- do_call k w (CRemoveRule d); Ok (w, None)
    | JRemoveAll => do ' (w, _) <- do_call k w CRemoveAllRules; Ok (w, None)
    | JResync e => do w <- checked (do_call k w (CResync e)); Ok (w, None)
    | JRefresh e => do ' (w, _) <- do_call k w (CRefreshConditions e); Ok (w, None)
    | JSequence e pieces last =>
        do w <- checked (do_call k w (CBeginSequence e));
        do ' (w, os) <- run_pieces w pieces;
        do ' (w, o) <- run_piece w last CFinishSequence;
        Ok (w, Some (os ++ [o]))
    end.
  (** the outputs of the sequences, piece by piece *)
  Fixpoint run_jobs (w : bool * tester) (js : list (job R)) : outcome (bool * tester * list (list (list Z))) :=
    match js with
    | [] => Ok (w, [])
    | j :: rest =>
        do ' (w, o) <- run_job w j;
        do ' (w, os) <- run_jobs w rest;
        Ok (w, match o with Some l => l :: os | None => os end)
    end.
End Session.

(** ** What should come out *)
(** The rules in force; whether the trees are out of date; and whether there were rules when
    they were last compiled. *)
Record session {R : Type} := mkSession { s_rules : list (list Z * R); s_pending : bool; s_room : bool }.
Arguments session : clear implicits.
Arguments mkSession {R}.
Section Expected.
Context {R : Type}.
Definition new_session : session R := mkSession [] false false.
Fixpoint without (d : list Z) (l : list (list Z * R)) : option (list (list Z * R)) :=
  match l with
  | [] => None
  | e :: rest => if list_eq_dec Z.eq_dec (fst e) d then Some rest
                 else match without d rest with Some l => Some (e :: l) | None => None end
  end.
Definition compiled (s : session R) : session R :=
  if s_pending s then mkSession (s_rules s) false (match s_rules s with [] => false | _ => true end) else s.
Definition next (s : session R) (j : job R) : session R :=
  match j with
  | JAdd d r => if zlen (s_rules s) <? 254 then mkSession (s_rules s ++ [(d, r)]) true (s_room s) else s
  | JRemove d => match without d (s_rules s) with Some l => mkSession l true (s_room s) | None => s end
  | JRemoveAll => mkSession [] false (s_room s)
  | JResync _ | JSequence _ _ _ => compiled s
  | JRefresh _ => s
  end.
(** the rules and the pieces of each sequence *)
Fixpoint expected (s : session R) (js : list (job R)) : list (list R * list (list Z)) :=
  match js with
  | [] => []
  | JSequence e pieces last :: rest => (map snd (s_rules s), pieces ++ [last]) :: expected (compiled s) rest
  | j :: rest => expected (next s j) rest
  end.
(** The rules in force each time the trees are compiled *)
Fixpoint compilations (s : session R) (js : list (job R)) : list (list R) :=
  match js with
  | [] => []
  | j :: rest =>
      match j with
      | JResync _ | JSequence _ _ _ => if s_pending s then [map snd (s_rules s)] else []
      | _ => []
      end ++ compilations (next s j) rest
  end.
End Expected.
(** The rules with the same condition may be too many or too long for a tree. *)
Definition crowded (rules : list rrule) : Prop := exists c, ~ within_limits (group c rules).

Section Legal.
  Context {R : Type}.
  (** when bytes are a rule *)
  Variable rule_of : list Z -> R -> Prop.
  Definition conditions_known (e : env) : Prop := forall c, exists b, e_cond e c = Ok b.
  (** A sequence may be run if there are rules, or there have been when the trees were last
      compiled. *)
  Definition legal (s : session R) (j : job R) : Prop :=
    match j with
    | JAdd d r => rule_of d r
    | JRemove _ | JRemoveAll => True
    | JResync e | JRefresh e => conditions_known e
    | JSequence e _ _ => conditions_known e /\ (s_rules s = [] -> s_pending s = false /\ s_room s = true)
    end.
  Fixpoint all_legal (s : session R) (js : list (job R)) : Prop :=
    match js with
    | [] => True
    | j :: rest => legal s j /\ all_legal (next s j) rest
    end.
End Legal.

(** The same session with other fonts and settings *)
Definition same_job {R} (j j' : job R) : Prop :=
  match j, j' with
  | JResync _, JResync _ | JRefresh _, JRefresh _ => True
  | JSequence _ pieces last, JSequence _ pieces' last' => pieces = pieces' /\ last = last'
  | _, _ => j = j'
  end.
