(** What should survive building. *)
From Verif Require Import Base Model_Helpers Model_Words Model_Font Model_Date Model_Builder Spec_Builder.

(** a word that is not one of the predefined ones *)
Definition own_word (w : list Z) : Prop := forall i, GetPredefinedWord i <> Ok w.
(** the options of all settings *)
Definition all_options (b : builder) : list (list Z) := concat (map snd (b_settings b)).
Definition at_most_one_own_word (b : builder) : Prop :=
  forall v w, In v (all_options b) -> In w (all_options b) -> own_word v -> own_word w -> v = w.
(** both times the words are written they are visited in the order of their indices *)
Definition words_in_index_order (o : order) (b : builder) : Prop :=
  forall builtin words, builtinWords = Ok builtin -> organizeWords o builtin (collect_words b) = Ok words ->
    map snd (o 2%nat _ words) = zseq (zlen words) /\ map snd (o 3%nat _ words) = zseq (zlen words).
(** the last kerning set between two glyphs *)
Definition last_kerning (ops : list bop) (prev next : Z) : Z :=
  fold_left (fun v op => match op with
    | OSetKerningPair p n k => if (p =? prev) && (n =? next) then k else v
    | _ => v end) ops 0.
(** glyphs in the order of their indices, one after the other *)
Definition consecutive (b : builder) (uids : list Z) : Prop :=
  exists first, forall k uid, zget uids k = Ok uid -> zget (b_order b) (first + k) = Ok uid.
(** what a call maps, when it succeeds: the code point, the kind of entry (255: one glyph,
    254: one group, otherwise the switch) and the glyphs of each case *)
Definition succeeds (r : builder * outcome unit) : bool := match snd r with Ok _ => true | _ => false end.
Definition mapping_call (b : builder) (op : bop) : option (Z * (Z * list (list Z))) :=
  match op with
  | OMap cp uid => if succeeds (Map b cp uid) then Some (cp, (255, [[uid]])) else None
  | OMapGroup cp fl uids => if succeeds (MapGroup b cp fl uids) then Some (cp, (254, [uids])) else None
  | OMapWithSwitchSingles cp sw uids =>
      if succeeds (MapWithSwitchSingles b cp sw uids) then Some (cp, (sw, map (fun uid => [uid]) uids)) else None
  | OMapWithSwitch cp sw groups fl => if succeeds (MapWithSwitch b cp sw groups fl) then Some (cp, (sw, groups)) else None
  | _ => None
  end.
(** the last successful mapping of a code point *)
Definition last_mapping (id : Z) (date : Date) (ops : list bop) (cp : Z) : option (Z * list (list Z)) :=
  snd (fold_left (fun '(b, last) op =>
         (bstep b op, match mapping_call b op with Some (c, m) => if c =? cp then Some m else last | None => last end))
       ops (New id date, None)).
(** the mapping entries take less than 16 MiB: mapping section without counts and tables *)
Definition mapping_fits (b : builder) (f : Font) : Prop :=
  OffsetToRewriteConditions f - OffsetToMapping f < 2 + 7 * zlen (b_mapping b) + 16777216.
