(** What the caches should do. *)
From Verif Require Import Base.

(** ** The settings cache: the user changes settings and caches evaluations. [evalCase] and
    [evalCondition] are any evaluations of switches and conditions under settings. *)
Inductive use := USet (key option : Z) | UCase (switch : Z) | UCondition (condition : Z).
Definition use_in_range (u : use) : Prop :=
  match u with USet k o => byte k /\ byte o | UCase k | UCondition k => byte k end.

(** The settings as a list and the switches and conditions cached since the last change. *)
Record ideal := mkIdeal { i_settings : list Z; i_cases : list Z; i_conditions : list Z }.
Definition ideal_step (i : ideal) (u : use) : ideal :=
  match u with
  | USet k o =>
      if k <? zlen (i_settings i)
      then mkIdeal (firstn (Z.to_nat k) (i_settings i) ++ o :: skipn (S (Z.to_nat k)) (i_settings i)) [] []
      else i
  | UCase k => mkIdeal (i_settings i) (k :: i_cases i) (i_conditions i)
  | UCondition k => mkIdeal (i_settings i) (i_cases i) (k :: i_conditions i)
  end.
Definition mem (k : Z) (l : list Z) : bool := existsb (Z.eqb k) l.

(** ** Lookups through a settings cache *)
Inductive request := RSet (key option : Z) | RLookup (codePoint : Z).
(** the answers without any cache: [lookup] under the settings of the moment *)
Fixpoint plain_lookups {A} (lookup : Z -> list Z -> A) (settings : list Z) (l : list request) : list A :=
  match l with
  | [] => []
  | RSet k o :: r => plain_lookups lookup (i_settings (ideal_step (mkIdeal settings [] []) (USet k o))) r
  | RLookup cp :: r => lookup cp settings :: plain_lookups lookup settings r
  end.
Definition request_in_range (r : request) : Prop :=
  match r with RSet k o => byte k /\ byte o | RLookup _ => True end.

(** ** The mapping cache together with a settings cache *)
Inductive action := AGet (codePoint : Z) | ADrop | ASet (key option : Z) | AReset.
Definition action_in_range (a : action) : Prop :=
  match a with ASet k o => byte k /\ byte o | _ => True end.
(** no lookup between a change of settings and the next drop *)
Fixpoint drops_follow (dirty : bool) (l : list action) : Prop :=
  match l with
  | [] => True
  | AGet _ :: r => dirty = false /\ drops_follow dirty r
  | ASet _ _ :: r => drops_follow true r
  | (ADrop | AReset) :: r => drops_follow false r
  end.
Definition drops (l : list action) : Z := zlen (filter (fun a => match a with ADrop => true | _ => false end) l).
Fixpoint plain_answers {A} (lookup : Z -> list Z -> A) (settings : list Z) (l : list action) : list A :=
  match l with
  | [] => []
  | AGet cp :: r => lookup cp settings :: plain_answers lookup settings r
  | ASet k o :: r => plain_answers lookup (i_settings (ideal_step (mkIdeal settings [] []) (USet k o))) r
  | (ADrop | AReset) :: r => plain_answers lookup settings r
  end.

(** ** Least recently used: which of the code points looked up before are among the [n] last
    distinct ones. [recent n l] for the accesses [l], latest first. *)
Fixpoint recent (n : nat) (l : list Z) : list Z :=
  match l, n with
  | [], _ | _, O => []
  | c :: r, S m => c :: recent m (filter (fun x => negb (x =? c)) r)
  end.

(** ** What a mapping cache of [n] entries keeps instead. The code points in use are in order of use,
    oldest first. The last of the n entries is filled last, and replaced by every further code point,
    until the oldest one is looked up again; from then on only the others are replaced, the oldest
    first, and entries not yet filled are lost. *)
Record kept := mkKept { k_used : list Z; k_last : option Z; k_filling : bool }.
Definition use_again (cp : Z) (l : list Z) : list Z := filter (fun x => negb (x =? cp)) l ++ [cp].
Definition kept_step (n : Z) (s : kept) (cp : Z) : kept :=
  if mem cp (k_used s) then
    match k_used s with
    | oldest :: _ :: _ => mkKept (use_again cp (k_used s)) (k_last s) (k_filling s && negb (cp =? oldest))
    | _ => s
    end
  else if match k_last s with Some c => cp =? c | None => false end then s
  else if k_filling s then
    if zlen (k_used s) <? n - 1 then mkKept (k_used s ++ [cp]) (k_last s) true else mkKept (k_used s) (Some cp) true
  else mkKept (tl (k_used s) ++ [cp]) (k_last s) false.
Definition kept_after (n : Z) (l : list Z) : kept := fold_left (kept_step n) l (mkKept [] None true).
Definition is_kept (s : kept) (cp : Z) : Prop := In cp (k_used s) \/ k_last s = Some cp.
