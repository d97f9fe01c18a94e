(** Reference semantics of the circular buffer: a plain list with a capacity and a
    look-ahead cursor. *)
From Verif Require Import Base Model_CircularBuffer.

Record lqueue (T : Type) := mkQ { q_items : list T; q_cap : Z; q_cursor : nat }.
Arguments mkQ {T}.
Arguments q_items {T}.
Arguments q_cap {T}.
Arguments q_cursor {T}.

Section Q.
  Context {T : Type} (zero : T).

  Definition q_init : lqueue T := mkQ [] 0 0.

  Definition q_setcap (q : lqueue T) (c : Z) : lqueue T * cb_obs T :=
    if c <? Z.of_nat (length (q_items q)) then (q, ObsBool false)
    else (mkQ (q_items q) c (q_cursor q), ObsBool true).

  Definition q_step (q : lqueue T) (op : cb_op T) : lqueue T * cb_obs T :=
    let '(mkQ items cap cur) := q in
    match op with
    | OpPush x =>
      if Z.of_nat (length items) <? cap then (mkQ (items ++ [x]) cap cur, ObsUnit) else (q, ObsPanic)
    | OpPopHead =>
      match items with [] => (q, ObsPanic) | x :: r => (mkQ r cap cur, ObsVal x) end
    | OpPopTail =>
      match rev items with [] => (q, ObsPanic) | x :: r => (mkQ (rev r) cap cur, ObsVal x) end
    | OpHead => (q, match items with [] => ObsPanic | x :: _ => ObsVal x end)
    | OpTail => (q, match rev items with [] => ObsPanic | x :: _ => ObsVal x end)
    | OpPeek =>
      match nth_error items (S cur), nth_error items cur with
      | Some x, _ => (mkQ items cap (S cur), ObsPeek x true)
      | None, Some x => (q, ObsPeek x false)
      | None, None => (q, ObsPeek zero false)
      end
    | OpDiscard => (mkQ items cap 0, ObsUnit)
    | OpConfirm => (mkQ (skipn cur items) cap 0, ObsUnit)
    | OpClear => (mkQ [] cap 0, ObsUnit)
    | OpSetCap c => q_setcap q c
    | OpSetMinCap c => if cap >=? c then (q, ObsBool true) else q_setcap q c
    | OpSize => (q, ObsNum (Z.of_nat (length items)))
    | OpCapacity => (q, ObsNum cap)
    end.

  Fixpoint q_run (q : lqueue T) (ops : list (cb_op T)) : lqueue T * list (cb_obs T) :=
    match ops with
    | [] => (q, [])
    | op :: r =>
      let (q', o) := q_step q op in
      let (q'', os) := q_run q' r in (q'', o :: os)
    end.

  (** Calls for which the refinement holds: capacities up to 32768, the capacity of an
      empty buffer is not reduced, and removing an element leaves a pending look-ahead on
      an element of the buffer. *)
  Definition q_guard (q : lqueue T) (op : cb_op T) : Prop :=
    match op with
    | OpPopHead | OpPopTail => q_cursor q = 0%nat \/ (S (q_cursor q) < length (q_items q))%nat
    | OpSetCap c => 0 <= c <= 32768 /\ (q_items q = [] -> q_cap q <= c)
    | OpSetMinCap c => 0 <= c <= 32768
    | _ => True
    end.

  Fixpoint q_guarded (q : lqueue T) (ops : list (cb_op T)) : Prop :=
    match ops with
    | [] => True
    | op :: r => q_guard q op /\ q_guarded (fst (q_step q op)) r
    end.
End Q.
