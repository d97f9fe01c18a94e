(** The settings cache (settings_cache.go), lookups through it (font.go:779-851) and the mapping
    cache (mapping_cache.go). Operations return the new state together with their outcome: a
    call that panics may have changed the cache before, and its caller may recover. *)
From Verif Require Import Base Model_Helpers Model_Font Model_Rewrites Spec_Caches.

(** settings_cache.go:12-28 *)
Record SettingsCache := mkCache {
  sc_mappingRelevance : BoolList; sc_conditionRelevance : BoolList;
  sc_mappingFlags : BoolList; sc_conditionFlags : BoolList;
  sc_mappingCases : list Z; sc_conditionBools : BoolList;
  sc_settings : list Z }.

(** settings_cache.go:30-53 *)
Definition NewSettingsCache (f : Font) : outcome SettingsCache :=
  do numSettings <- settings_Count f;
  do numSwitchTypes <- mapping_NumSwitchTypes f;
  do numConditions <- rewrites_NumConditions f;
  Ok (mkCache (bl_SetAllTrue (NewBoolList numSettings)) (bl_SetAllTrue (NewBoolList numSettings))
        (NewBoolList numSwitchTypes) (NewBoolList numConditions)
        (repeat 0 (Z.to_nat numSwitchTypes)) (NewBoolList numConditions)
        (repeat 0 (Z.to_nat numSettings))).

(** settings_cache.go:60-63; the key is a uint8 *)
Definition sc_Get (c : SettingsCache) (key : Z) : outcome Z :=
  if zlen (sc_settings c) <=? key then Ok 0 else zget (sc_settings c) key.

(** settings_cache.go:66-80 *)
Definition sc_Set (c : SettingsCache) (key option : Z) : SettingsCache * outcome (bool * bool) :=
  match zset (sc_settings c) key option with
  | Ok settings =>
      let c := mkCache (sc_mappingRelevance c) (sc_conditionRelevance c) (sc_mappingFlags c) (sc_conditionFlags c)
                 (sc_mappingCases c) (sc_conditionBools c) settings in
      match bl_Get (sc_mappingRelevance c) key with
      | Ok m =>
          let c := if m then mkCache (sc_mappingRelevance c) (sc_conditionRelevance c)
                     (bl_SetAllFalse (sc_mappingFlags c)) (sc_conditionFlags c)
                     (sc_mappingCases c) (sc_conditionBools c) (sc_settings c) else c in
          match bl_Get (sc_conditionRelevance c) key with
          | Ok r =>
              let c := if r then mkCache (sc_mappingRelevance c) (sc_conditionRelevance c)
                         (sc_mappingFlags c) (bl_SetAllFalse (sc_conditionFlags c))
                         (sc_mappingCases c) (sc_conditionBools c) (sc_settings c) else c in
              (c, Ok (m, r))
          | _ => (c, Panic)
          end
      | _ => (c, Panic)
      end
  | _ => (c, Panic)
  end.

(** settings_cache.go:84-88 *)
Definition sc_GetMappingCase (c : SettingsCache) (switchType : Z) : outcome (Z * bool) :=
  if switchType >=? 254 then Ok (0, true)
  else
    do isSet <- bl_GetU8 (sc_mappingFlags c) switchType;
    if negb isSet then Ok (0, false)
    else do v <- zget (sc_mappingCases c) switchType; Ok (v, true).

(** settings_cache.go:90-93; the flag is set before the value *)
Definition sc_CacheMappingCase (c : SettingsCache) (switchType result : Z) : SettingsCache * outcome unit :=
  match bl_SetU8 (sc_mappingFlags c) switchType true with
  | Ok flags =>
      let c := mkCache (sc_mappingRelevance c) (sc_conditionRelevance c) flags (sc_conditionFlags c)
                 (sc_mappingCases c) (sc_conditionBools c) (sc_settings c) in
      match zset (sc_mappingCases c) switchType result with
      | Ok cases => (mkCache (sc_mappingRelevance c) (sc_conditionRelevance c) flags (sc_conditionFlags c)
                       cases (sc_conditionBools c) (sc_settings c), Ok tt)
      | _ => (c, Panic)
      end
  | _ => (c, Panic)
  end.

(** settings_cache.go:98-102 *)
Definition sc_GetRewriteCondition (c : SettingsCache) (condition : Z) : outcome (bool * bool) :=
  if condition =? 255 then Ok (true, true)
  else
    do isSet <- bl_GetU8 (sc_conditionFlags c) condition;
    if negb isSet then Ok (false, false)
    else do v <- bl_GetU8 (sc_conditionBools c) condition; Ok (v, true).

(** settings_cache.go:104-107 *)
Definition sc_CacheRewriteCondition (c : SettingsCache) (condition : Z) (satisfied : bool) : SettingsCache * outcome unit :=
  match bl_SetU8 (sc_conditionFlags c) condition true with
  | Ok flags =>
      let c := mkCache (sc_mappingRelevance c) (sc_conditionRelevance c) (sc_mappingFlags c) flags
                 (sc_mappingCases c) (sc_conditionBools c) (sc_settings c) in
      match bl_SetU8 (sc_conditionBools c) condition satisfied with
      | Ok bools => (mkCache (sc_mappingRelevance c) (sc_conditionRelevance c) (sc_mappingFlags c) flags
                       (sc_mappingCases c) bools (sc_settings c), Ok tt)
      | _ => (c, Panic)
      end
  | _ => (c, Panic)
  end.

(** font.go:824-832: the case of a switch, from the cache or evaluated and cached *)
Definition cached_case (f : Font) (c : SettingsCache) (switchType : Z) : SettingsCache * outcome Z :=
  match sc_GetMappingCase c switchType with
  | Ok (v, true) => (c, Ok v)
  | Ok (_, false) =>
      match mapping_EvaluateSwitch f switchType (sc_settings c) with
      | Ok v => let (c', o) := sc_CacheMappingCase c switchType v in (c', do _ <- o; Ok v)
      | Err e => (c, Err e)
      | Panic => (c, Panic)
      | Hang => (c, Hang)
      end
  | Err e => (c, Err e)
  | Panic => (c, Panic)
  | Hang => (c, Hang)
  end.

(** font.go:779-851 *)
Definition mapping_Utf8WithCache (f : Font) (codePoint : Z) (c : SettingsCache)
  : SettingsCache * outcome (option GlyphMappingGroup) :=
  match (do numEntries <- mapping_NumEntries f;
         do found <- mapping_search f (u32 codePoint) numEntries;
         match found with
         | None => Ok None
         | Some minIndex => do e <- mapping_entry f numEntries minIndex; Ok (Some e)
         end) with
  | Ok None => (c, Ok None)
  | Ok (Some (base, startOffset, endOffset, switchType)) =>
      if switchType =? 255 then (c, Ok (Some (mkGroup (base + startOffset) switchType 0 true)))
      else
        let (c', target) := if negb (switchType =? 254) then cached_case f c switchType else (c, Ok 0) in
        (c', do target <- target;
             do off <- skip_groups (Z.to_nat target) f base startOffset endOffset;
             Ok (Some (mkGroup (base + off) switchType target false)))
  | Err e => (c, Err e)
  | Panic => (c, Panic)
  | Hang => (c, Hang)
  end.

(** ** The mapping cache *)
(** mapping_cache.go:7 *)
Definition noEntry : Z := 65535.

(** mapping_cache.go:9-20 *)
Record mappingEntry := mkEntry {
  e_dropSignature : Z; e_prev : Z; e_next : Z; e_codePoint : Z;
  e_mappingOffset : Z; e_caseBranch : Z; e_directMapping : bool; e_switchType : Z }.
Definition noMapping : mappingEntry := mkEntry 0 0 0 0 0 0 false 0.

(** mapping_cache.go:22-29: the switch type is left out *)
Definition e_ToMappingGroup (e : mappingEntry) : GlyphMappingGroup :=
  mkGroup (e_mappingOffset e) 0 (e_caseBranch e) (e_directMapping e).
(** mapping_cache.go:31-37 *)
Definition e_Update (e : mappingEntry) (dropCounter : Z) (g : GlyphMappingGroup) : mappingEntry :=
  mkEntry dropCounter (e_prev e) (e_next e) (e_codePoint e) (gg_offset g) (gg_caseBranch g) (gg_directMapping g) (gg_switchType g).
Definition e_with_links (e : mappingEntry) (prev next : Z) : mappingEntry :=
  mkEntry (e_dropSignature e) prev next (e_codePoint e) (e_mappingOffset e) (e_caseBranch e) (e_directMapping e) (e_switchType e).
Definition e_with_signature (e : mappingEntry) (s : Z) : mappingEntry :=
  mkEntry s (e_prev e) (e_next e) (e_codePoint e) (e_mappingOffset e) (e_caseBranch e) (e_directMapping e) (e_switchType e).
Definition e_with_code (e : mappingEntry) (c : Z) : mappingEntry :=
  mkEntry (e_dropSignature e) (e_prev e) (e_next e) c (e_mappingOffset e) (e_caseBranch e) (e_directMapping e) (e_switchType e).

(** mapping_cache.go:44-51; the Go map is a list of pairs without repeated keys *)
Record MappingCache := mkMapping {
  mc_font : Font; mc_dropCounter : Z; mc_mru : Z; mc_lru : Z;
  mc_cached : list (Z * Z); mc_entries : list mappingEntry }.
Definition map_get (m : list (Z * Z)) (k : Z) : option Z :=
  match find (fun p => fst p =? k) m with Some p => Some (snd p) | None => None end.
Definition map_delete (m : list (Z * Z)) (k : Z) : list (Z * Z) := filter (fun p => negb (fst p =? k)) m.
Definition map_put (m : list (Z * Z)) (k v : Z) : list (Z * Z) := (k, v) :: map_delete m k.

(** mapping_cache.go:81-89; [size] is at most 65000 *)
Definition init_entries (size : Z) : list mappingEntry :=
  map (fun i => e_with_links noMapping
                  (if i =? 0 then noEntry else i - 1) (if i =? size - 1 then noEntry else i + 1)) (zseq size).
(** mapping_cache.go:54-69 *)
Definition NewMappingCache (f : Font) (size : Z) : outcome MappingCache :=
  if size <=? 0 then Panic else if size >? 65000 then Panic
  else Ok (mkMapping f 0 noEntry 0 [] (init_entries size)).
(** mapping_cache.go:72-79 *)
Definition mc_Reset (c : MappingCache) (f : Font) : MappingCache :=
  mkMapping f (mc_dropCounter c) noEntry 0 [] (init_entries (zlen (mc_entries c))).
(** mapping_cache.go:92-96 *)
Definition mc_Drop (c : MappingCache) : MappingCache :=
  mkMapping (mc_font c) (u32 (mc_dropCounter c + 1)) (mc_mru c) (mc_lru c) (mc_cached c) (mc_entries c).

(** [self.mappingEntries[i] = h(self.mappingEntries[i])] *)
Definition entry_update (l : list mappingEntry) (i : Z) (h : mappingEntry -> mappingEntry) : outcome (list mappingEntry) :=
  do e <- zget l i; zset l i (h e).
Definition set_prev (p : Z) (e : mappingEntry) : mappingEntry := e_with_links e p (e_next e).
Definition set_next (n : Z) (e : mappingEntry) : mappingEntry := e_with_links e (e_prev e) n.

(** mapping_cache.go:139-163: the new mru index, lru index and entries. [entry] points to the
    entry at [index]. *)
Definition updateMRU (mru lru : Z) (l : list mappingEntry) (index : Z) : outcome (Z * Z * list mappingEntry) :=
  do entry <- zget l index;
  let prevNext := e_next entry in
  if prevNext =? noEntry then Ok (mru, lru, l)
  else
    let prevPrev := e_prev entry in
    if prevPrev =? noEntry then
      do l <- entry_update l prevNext (set_prev noEntry);
      do l <- entry_update l index (set_next noEntry);
      do l <- entry_update l index (set_prev mru);
      do l <- (if negb (mru =? noEntry) then entry_update l mru (set_next index) else Ok l);
      Ok (index, prevNext, l)
    else
      do l <- (if negb (mru =? noEntry) then entry_update l mru (set_next index) else Ok l);
      do l <- entry_update l prevPrev (set_next prevNext);
      do l <- entry_update l prevNext (set_prev prevPrev);
      do l <- entry_update l index (set_next noEntry);
      do l <- entry_update l index (set_prev mru);
      Ok (index, lru, l).

(** mapping_cache.go:99-137. A panic inside [updateMRU] is modelled as leaving the entries as
    they were; Proofs_Caches.v shows that it never happens. *)
Definition mc_Get (m : MappingCache) (codePoint : Z) (settings : SettingsCache)
  : MappingCache * SettingsCache * outcome (option GlyphMappingGroup) :=
  match map_get (mc_cached m) codePoint with
  | Some entryIndex =>
      match updateMRU (mc_mru m) (mc_lru m) (mc_entries m) entryIndex with
      | Ok (mru, lru, entries) =>
          let m := mkMapping (mc_font m) (mc_dropCounter m) mru lru (mc_cached m) entries in
          match zget entries entryIndex with
          | Ok entry =>
              if e_dropSignature entry =? mc_dropCounter m then (m, settings, Ok (Some (e_ToMappingGroup entry)))
              else
                match sc_GetMappingCase settings (e_switchType entry) with
                | Ok (caseBranch, cached) =>
                    if cached && (caseBranch =? e_caseBranch entry) then
                      let entry := e_with_signature entry (mc_dropCounter m) in
                      match zset entries entryIndex entry with
                      | Ok entries => (mkMapping (mc_font m) (mc_dropCounter m) mru lru (mc_cached m) entries, settings,
                                       Ok (Some (e_ToMappingGroup entry)))
                      | _ => (m, settings, Panic)
                      end
                    else
                      let (settings, o) := mapping_Utf8WithCache (mc_font m) codePoint settings in
                      match o with
                      | Ok (Some g) =>
                          match zset entries entryIndex (e_Update entry (mc_dropCounter m) g) with
                          | Ok entries => (mkMapping (mc_font m) (mc_dropCounter m) mru lru (mc_cached m) entries, settings, Ok (Some g))
                          | _ => (m, settings, Panic)
                          end
                      | Ok None => (m, settings, Panic)
                      | Err e => (m, settings, Err e)
                      | Panic => (m, settings, Panic)
                      | Hang => (m, settings, Hang)
                      end
                | _ => (m, settings, Panic)
                end
          | _ => (m, settings, Panic)
          end
      | _ => (m, settings, Panic)
      end
  | None =>
      let (settings, o) := mapping_Utf8WithCache (mc_font m) codePoint settings in
      match o with
      | Ok None => (m, settings, Ok None)
      | Ok (Some g) =>
          match zget (mc_entries m) (mc_lru m) with
          | Ok entry =>
              match zset (mc_entries m) (mc_lru m) (e_with_code (e_Update entry (mc_dropCounter m) g) codePoint) with
              | Ok entries =>
                  let cached := map_put (map_delete (mc_cached m) (e_codePoint entry)) codePoint (mc_lru m) in
                  match updateMRU (mc_mru m) (mc_lru m) entries (mc_lru m) with
                  | Ok (mru, lru, entries) => (mkMapping (mc_font m) (mc_dropCounter m) mru lru cached entries, settings, Ok (Some g))
                  | _ => (mkMapping (mc_font m) (mc_dropCounter m) (mc_mru m) (mc_lru m) cached entries, settings, Panic)
                  end
              | _ => (m, settings, Panic)
              end
          | _ => (m, settings, Panic)
          end
      | Err e => (m, settings, Err e)
      | Panic => (m, settings, Panic)
      | Hang => (m, settings, Hang)
      end
  end.

(** A user of the settings cache, who evaluates with the settings of the moment and whose
    panics are recovered from; Spec_Caches.v has the operations. *)
Definition sc_step (evalCase : list Z -> Z -> Z) (evalCondition : list Z -> Z -> bool) (c : SettingsCache) (u : use) : SettingsCache :=
  match u with
  | USet k o => fst (sc_Set c k o)
  | UCase k => fst (sc_CacheMappingCase c k (evalCase (sc_settings c) k))
  | UCondition k => fst (sc_CacheRewriteCondition c k (evalCondition (sc_settings c) k))
  end.

(** A history of setting changes and lookups through one cache: the answers to the lookups and
    the final state. *)
Fixpoint cached_lookups (f : Font) (c : SettingsCache) (l : list request) : list (outcome (option GlyphMappingGroup)) * SettingsCache :=
  match l with
  | [] => ([], c)
  | RSet k o :: r => cached_lookups f (fst (sc_Set c k o)) r
  | RLookup cp :: r =>
      let (c', a) := mapping_Utf8WithCache f cp c in
      let (answers, c'') := cached_lookups f c' r in (a :: answers, c'')
  end.

(** A history of a mapping cache used with one settings cache: the answers to the lookups. *)
Fixpoint cached_answers (m : MappingCache) (c : SettingsCache) (l : list action) : list (outcome (option GlyphMappingGroup)) :=
  match l with
  | [] => []
  | AGet cp :: r => let '(m', c', a) := mc_Get m cp c in a :: cached_answers m' c' r
  | ADrop :: r => cached_answers (mc_Drop m) c r
  | ASet k o :: r => cached_answers m (fst (sc_Set c k o)) r
  | AReset :: r => cached_answers (mc_Reset m (mc_font m)) c r
  end.
(** the states after looking up some code points *)
Definition after_gets (m : MappingCache) (c : SettingsCache) (l : list Z) : MappingCache * SettingsCache :=
  fold_left (fun s cp => fst (mc_Get (fst s) cp (snd s))) l (m, c).

(** What a group tells its user: the switch type is not accessible. *)
Definition without_switch (g : GlyphMappingGroup) : GlyphMappingGroup :=
  mkGroup (gg_offset g) 0 (gg_caseBranch g) (gg_directMapping g).
Definition visible (o : outcome (option GlyphMappingGroup)) : outcome (option GlyphMappingGroup) :=
  match o with Ok (Some g) => Ok (Some (without_switch g)) | _ => o end.
(** whether the next lookup of a code point is answered from the cache *)
Definition hit (m : MappingCache) (cp : Z) : Prop := exists i, map_get (mc_cached m) cp = Some i.
