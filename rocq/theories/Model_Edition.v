(** Model of the edition data of a builder: ParseEditionData and ClearEditionData.

    ExportEditionData, ValidateEditionData and NewFrom panic ("unimplemented"). *)
From Verif Require Import Base Model_Helpers Model_Names Model_Words Model_Date Model_Mask Model_Font Model_Parse Model_Builder.

(** font_builder.go:28-103 with the edition data: [b_classes] holds the values of kerningClasses
    and [wk_classNames] their names, [b_conditions] the data of rewriteConditions and
    [wk_conditionNames] their EditorNames (font_builder_rewrite_condition.go:10-13,
    font_builder_subtypes.go:15-33) *)
Record wk := mkWk {
  wk_b : builder;
  wk_categories : list (list Z * Z);
  wk_classNames : list (list Z);
  wk_conditionNames : list (list Z) }.
(** a builder without edition data, as New returns it *)
Definition wk_new (b : builder) : wk := mkWk b [] [] (map (fun _ => []) (b_conditions b)).

Definition with_classes (b : builder) cs := mkBuilder (b_header b) (b_metrics b) (b_order b) (b_glyphs b) (b_dyes b)
  (b_palettes b) (b_settings b) (b_switches b) (b_mapping b) (b_conditions b) (b_glyphSets b) (b_setsOrder b)
  (b_runeSets b) (b_glyphRules b) (b_utf8Rules b) (b_horz b) (b_vert b) cs.

(** font_builder.go:823-835 *)
Definition unclassed (e : Z * Z * kpair) : Z * Z * kpair := (fst e, mkKPair 0 (kp_Value (snd e))).
Definition ClearEditionData (w : wk) : wk :=
  let b := wk_b w in
  mkWk (with_classes (with_kerning b (map unclassed (b_horz b)) (map unclassed (b_vert b))) [])
    [] [] (map (fun _ => []) (wk_conditionNames w)).

(** Steps that read and change the builder; the builder is kept when they fail. *)
Definition eaction (A : Type) : Type := wk -> pst -> wk * pres A.
Definition lift {A} (m : action A) : eaction A := fun w s => (w, m s).
Definition modify (f : wk -> wk) : eaction unit := fun w s => (f w, POk tt s).
Definition attempt (f : wk -> outcome wk) : eaction unit := fun w s =>
  match f w with Ok w' => (w', POk tt s) | Err m => (w, PErr m s) | Panic => (w, PPanic) | Hang => (w, PHang) end.
Definition ebind {A B} (m : eaction A) (k : A -> eaction B) : eaction B := fun w s =>
  match m w s with
  | (w', POk a s') => k a w' s'
  | (w', PErr e s') => (w', PErr e s')
  | (w', PPanic) => (w', PPanic)
  | (w', PHang) => (w', PHang)
  end.
Notation "'edo' x <- m ; k" := (ebind m (fun x => k))
  (at level 200, x name, m at level 100, k at level 200, right associativity).
(** for i := from; i < from + n; i++ *)
Fixpoint repeatedly (n : nat) (from : Z) (m : Z -> eaction unit) : eaction unit :=
  match n with
  | O => lift (pret tt)
  | S n' => edo _ <- m from; repeatedly n' (from + 1) m
  end.

(** internal/parsing_buffer.go:218-222 after ReadShortStr *)
Definition read_name : action (list Z) :=
  run name <- ReadShortStr;
  run _ <- on_bytes (fun _ => validateBasicSpacedName name);
  pret name.

(** font_builder.go:718-732 *)
Definition read_categories : eaction unit :=
  edo n <- lift ReadUint8;
  edo _ <- repeatedly (Z.to_nat n) 0 (fun _ =>
    edo name <- lift read_name;
    modify (fun w => mkWk (wk_b w) (wk_categories w ++ [(name, 0)]) (wk_classNames w) (wk_conditionNames w)));
  repeatedly (Z.to_nat n) 0 (fun i =>
    edo size <- lift ReadUint16;
    attempt (fun w =>
      do c <- zget (wk_categories w) i;
      do cs <- zset (wk_categories w) i (fst c, size);
      Ok (mkWk (wk_b w) cs (wk_classNames w) (wk_conditionNames w)))).
(** font_builder.go:734-746 *)
Definition read_classes : eaction unit :=
  edo n <- lift ReadUint16;
  edo _ <- repeatedly (Z.to_nat n) 0 (fun _ =>
    edo name <- lift read_name;
    modify (fun w => mkWk (with_classes (wk_b w) (b_classes (wk_b w) ++ [0])) (wk_categories w) (wk_classNames w ++ [name]) (wk_conditionNames w)));
  repeatedly (Z.to_nat n) 0 (fun i =>
    edo value <- lift ReadInt8;
    attempt (fun w =>
      do vs <- zset (b_classes (wk_b w)) i value;
      Ok (mkWk (with_classes (wk_b w) vs) (wk_categories w) (wk_classNames w) (wk_conditionNames w)))).
(** font_builder.go:761-768 and 784-791: the class of a pair, which may be a new one *)
Definition set_class (pairs : list (Z * Z * kpair)) (key : Z * Z) (class : Z) : list (Z * Z * kpair) :=
  match m_get pair_eqb pairs key with
  | Some k => m_set pair_eqb pairs key (mkKPair class (kp_Value k))
  | None => m_set pair_eqb pairs key (mkKPair class 0)
  end.
(** font_builder.go:748-769 and 771-792 *)
Definition read_pairs (set : builder -> Z * Z -> Z -> builder) : eaction unit :=
  edo n <- lift ReadUint32;
  repeatedly (Z.to_nat n) 0 (fun _ =>
    edo firstIndex <- lift ReadUint16;
    edo secondIndex <- lift ReadUint16;
    edo class <- lift ReadUint16;
    edo _ <- lift (when (class =? 0) "kerning pair class can't be zero");
    attempt (fun w =>
      do first <- zget (b_order (wk_b w)) firstIndex;
      do second <- zget (b_order (wk_b w)) secondIndex;
      Ok (mkWk (set (wk_b w) (first, second) class) (wk_categories w) (wk_classNames w) (wk_conditionNames w)))).
Definition set_horz (b : builder) (key : Z * Z) (class : Z) : builder := with_kerning b (set_class (b_horz b) key class) (b_vert b).
Definition set_vert (b : builder) (key : Z * Z) (class : Z) : builder := with_kerning b (b_horz b) (set_class (b_vert b) key class).
(** font_builder.go:794-812 *)
Definition read_conditions : eaction unit :=
  edo n <- lift ReadUint8;
  edo _ <- lift (when (n =? 255) "ConditionNames must have at most 254 elements");
  edo _ <- attempt (fun w =>
    if negb (n =? zlen (wk_conditionNames w)) then
      if zlen (wk_conditionNames w) >? 254 then Panic else Err "ConditionNames expected to have another number of elements"
    else Ok w);
  repeatedly (Z.to_nat n) 0 (fun i =>
    edo name <- lift read_name;
    attempt (fun w =>
      do names <- zset (wk_conditionNames w) i name;
      Ok (mkWk (wk_b w) (wk_categories w) (wk_classNames w) names))).
(** font_builder.go:712-817 *)
Definition read_edition : eaction unit :=
  edo id <- lift ReadUint64;
  edo _ <- attempt (fun w => if id =? bh_ID (b_header (wk_b w)) then Ok w else Err "edition data doesn't match current font ID");
  edo _ <- read_categories;
  edo _ <- read_classes;
  edo _ <- read_pairs set_horz;
  edo _ <- read_pairs set_vert;
  edo _ <- read_conditions;
  lift EnsureEOF.

(** font_builder.go:703 *)
Definition edition_signature : list Z := [119; 107; 103; 102; 110; 116].
(** font_builder.go:689-821; the arguments are those of Parse. The deferred call clears the
    edition data on errors and on panics. *)
Definition ParseEditionData (w : wk) (first : list Z * read_err) (gzip_init : option string) (i : stream) : wk * outcome unit :=
  let w := ClearEditionData w in
  let '(sig, err) := first in
  if negb (match err with NoErr => true | _ => false end) || negb (zlen sig =? 6) then (ClearEditionData w, Err "failed to read file signature")
  else if negb (list_eqb sig edition_signature) then (ClearEditionData w, Err "invalid signature") else
  match gzip_init with
  | Some m => (ClearEditionData w, Err m)
  | None =>
    match read_edition w (initial i) with
    | (w', POk _ _) => (w', Ok tt)
    | (w', PErr m _) => (ClearEditionData w', Err m)
    | (w', PPanic) => (ClearEditionData w', Panic)
    | (w', PHang) => (ClearEditionData w', Hang)
    end
  end.
