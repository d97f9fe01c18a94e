(** Properties of the setters of a builder: C62 (texts), C63 (glyphs), C64 (versions, dates, metrics). *)
From Verif Require Import Base BaseFacts Spec_Helpers Model_Helpers Model_Names Spec_Names Model_Words Model_Date Spec_Date Model_Mask Spec_Mask Model_Font Model_Parse Spec_Parse
  Model_Builder Spec_Builder Sample_Builder Proofs_Typed Spec_Texts Spec_Props Model_Export Proofs_Texts Proofs_Props Proofs_Export Properties_Build.

(** ** C62 *)
Definition set_the_text (t : text) : builder -> list Z -> builder * outcome unit :=
  match t with TName => SetName | TFamily => SetFamily | TAuthor => SetAuthor | TAbout => SetAbout end.
(** A text is taken if and only if it is UTF-8 without control characters and within its limit; then
    nothing else changes. A refused text changes nothing. *)
Theorem C62_texts : forall t b s b' r, bytes s -> set_the_text t b s = (b', r) ->
  (r = Ok tt <-> plain_text s /\ zlen s <= text_limit t) /\
  (r = Ok tt -> text_of t b' = s /\ (forall u, u <> t -> text_of u b' = text_of u b) /\ id_of b' = id_of b /\
     version_of b' = version_of b /\ (forall m, date_of m b' = date_of m b) /\ but_header b' = but_header b) /\
  (r <> Ok tt -> b' = b /\ exists m, r = Err m).
Proof. exact set_text_spec. Qed.
Print Assumptions C62_texts.
(** "ß€😀" is taken, the encoding of a surrogate, a too long encoding of '/' and a tabulator are not. *)
Example C62_ex : utf8 223 ++ utf8 8364 ++ utf8 128512 = [195; 159; 226; 130; 172; 240; 159; 152; 128] /\
  plain_text [195; 159; 226; 130; 172; 240; 159; 152; 128] /\
  snd (SetName sample_builder [195; 159; 226; 130; 172; 240; 159; 152; 128]) = Ok tt /\
  Forall (fun s => snd (SetName sample_builder s) <> Ok tt) [[237; 160; 128]; [192; 175]; [65; 9]; [65; 128]; [245; 128; 128; 128]].
Proof.
  split; [reflexivity|]. split; [exists [223; 8364; 128512]; split; [split; [|reflexivity]|]; repeat constructor; unfold scalar; lia|].
  split; [vm_compute; reflexivity|]. repeat constructor; vm_compute; discriminate.
Qed.

(** ** C63 *)
(** A glyph is added if and only if there is room for it, its drawn part lies within the metrics, and
    one of four random numbers is free. It then is the last one, without a name. *)
Theorem C63_add_glyph : forall b m random b' r, (forall k, byte (metric_of k b)) -> alpha_readable m ->
  rx0 (Rect m) <= rx1 (Rect m) -> ry0 (Rect m) <= ry1 (Rect m) -> AddGlyph b m random = (b', r) ->
  match r with
  | Ok uid => zlen (b_glyphs b) < 56789 /\ fits b m /\ drawn b random uid /\
      (exists gd, glyph_at b' uid = Some gd /\ gd_Name gd = [] /\ gd_Mask gd = m /\ first_placement b m (gd_Placement gd)) /\
      (forall u, u <> uid -> glyph_at b' u = glyph_at b u) /\ b_order b' = b_order b ++ [uid] /\ but_glyphs b' = but_glyphs b
  | Err _ => b' = b /\ ~ (zlen (b_glyphs b) < 56789 /\ fits b m /\ exists uid, drawn b random uid)
  | _ => False
  end.
Proof. exact add_glyph_spec. Qed.
Print Assumptions C63_add_glyph.
Theorem C63_set_placement : forall b uid p b' r, SetGlyphPlacement b uid p = (b', r) ->
  match glyph_at b uid with
  | Some gd => r = Ok tt /\ glyph_at b' uid = Some (mkGlyphData (gd_Name gd) p (gd_Mask gd)) /\
      (forall u, u <> uid -> glyph_at b' u = glyph_at b u) /\ b_order b' = b_order b /\ but_glyphs b' = but_glyphs b
  | None => b' = b /\ exists m, r = Err m
  end.
Proof. exact set_placement_spec. Qed.
Print Assumptions C63_set_placement.
(** [loose_name] is what C11 says of the accepted names *)
Theorem C63_set_name : forall b uid name b' r, SetGlyphName b uid name = (b', r) ->
  match glyph_at b uid with
  | Some gd => (r = Ok tt <-> loose_name name) /\
      (r = Ok tt -> glyph_at b' uid = Some (mkGlyphData name (gd_Placement gd) (gd_Mask gd)) /\
        (forall u, u <> uid -> glyph_at b' u = glyph_at b u) /\ b_order b' = b_order b /\ but_glyphs b' = but_glyphs b) /\
      (r <> Ok tt -> b' = b /\ exists m, r = Err m)
  | None => b' = b /\ exists m, r = Err m
  end.
Proof. exact set_name_spec. Qed.
Print Assumptions C63_set_name.
(** The third random number is the first free one; a glyph that goes one row below the descent is refused. *)
Example C63_ex : (forall k, byte (metric_of k sample_builder)) /\ alpha_readable (sample_mask 7 8) /\
  snd (AddGlyph sample_builder (sample_mask 7 8) [1001; 56789; 1006; 1007]) = Ok 1006 /\
  snd (AddGlyph sample_builder (sample_mask 7 8) [1001; 1002; 1003; 1004; 1006]) = Err "failed to generate unique glyph UID" /\
  snd (AddGlyph sample_builder (mkAlpha [1] 1 (mkRect 0 4 1 5)) [1006]) = Ok 1006 /\
  snd (AddGlyph sample_builder (mkAlpha [1] 1 (mkRect 0 5 1 6)) [1006]) = Err "glyph exceeds font descent" /\
  snd (AddGlyph sample_builder (mkAlpha [1] 1 (mkRect 0 (-10) 1 (-9))) [1006]) = Err "glyph exceeds font ascent" /\
  snd (SetGlyphName sample_builder 1003 (str_bytes "new-name")) = Ok tt.
Proof.
  split; [intros []; vm_compute; split; congruence|]. split.
  { intros x y H. unfold inside in H. cbn [sample_mask Rect rx0 rx1 ry0 ry1 Stride Pix] in *. change (zlen [7; 8]) with 2. lia. }
  repeat (split; [vm_compute; reflexivity|]). vm_compute; reflexivity.
Qed.

(** ** C64 *)
Definition set_the_date (m : moment) : builder -> Date -> builder * outcome unit :=
  match m with First => SetFirstVerDate | Major => SetMajorVerDate | Minor => SetMinorVerDate end.
(** Full statement: raising a version makes it newer, the dates taken are the valid ones, and without
    a vertical layout there are no vertical line widths and gaps (specification.md:96-97).

    Versions wrap around. *)
Theorem C64_raise_refuted : exists id date ops now, Forall op_typed ops /\ let b := history id date ops in
  newer (version_of (RaiseMajorVersion b now)) (version_of b) /\ newer (version_of (RaiseMinorVersion b now)) (version_of b).
Proof.
  exists 1, sample_date, [OSetVersion 65535 65535 sample_date], sample_date. split; [apply all_typed; vm_compute; reflexivity|].
  vm_compute. split; [left; reflexivity|right; split; reflexivity].
Qed.
Print Assumptions C64_raise_refuted.
(** A date that leaves out the month is valid, but makes the setters panic. *)
Theorem C64_date_refuted : forall m b d, Month d = 0 -> Day d = 0 -> valid_date d /\ set_the_date m b d = (b, Panic).
Proof.
  intros m b d H1 H2. destruct (Proofs_Date.isvalid_month0 d H1 H2) as [V P]. split; [exact V|].
  destruct m; cbn [set_the_date]; unfold SetFirstVerDate, SetMajorVerDate, SetMinorVerDate, set_date; rewrite P; reflexivity.
Qed.
Print Assumptions C64_date_refuted.
(** Switching the vertical layout off keeps the width and gap of vertical lines; the font built, which
    contradicts the specification, is parsed and validated. *)
Theorem C64_vertical_refuted : exists ops b' f, Forall op_typed ops /\
  Build no_order no_sort (history sample_id sample_date ops) = (b', Ok f) /\ ~ vert_consistent (history sample_id sample_date ops) /\
  parse_payload [(Data f, EOF)] = Ok f /\ font_Validate f FmtDefault = Ok tt /\
  metrics_HasVertLayout (Data f) (OffsetToMetrics f) = Ok false /\
  metrics_VertLineWidth (Data f) (OffsetToMetrics f) = Ok 7 /\ metrics_VertLineGap (Data f) (OffsetToMetrics f) = Ok 2.
Proof.
  exists (sample_glyphs ++ [OSetVertLayoutUsed true; OSetMetric VertLineWidth 7; OSetMetric VertLineGap 2; OSetVertLayoutUsed false]).
  match goal with |- exists b' f, _ /\ Build no_order no_sort ?b = (b', Ok f) /\ _ =>
    let B := eval vm_compute in (Build no_order no_sort b) in match B with (?b', Ok ?f) => exists b', f end end.
  split; [apply all_typed; vm_compute; reflexivity|]. split; [vm_compute; reflexivity|]. split; [intros H; vm_compute in H; destruct (H eq_refl); discriminate|].
  repeat (split; [vm_compute; reflexivity|]). vm_compute; reflexivity.
Qed.
Print Assumptions C64_vertical_refuted.

(** Missing in each of the following: the cases above. *)
Theorem C64_raise_partial : forall b now, 0 <= fst (version_of b) < 65535 -> 0 <= snd (version_of b) < 65535 ->
  (newer (version_of b) (version_of (RaiseMajorVersion b now)) /\ newer (version_of b) (version_of (RaiseMinorVersion b now))) /\
  version_of (RaiseMajorVersion b now) = (fst (version_of b) + 1, 0) /\ version_of (RaiseMinorVersion b now) = (fst (version_of b), snd (version_of b) + 1).
Proof. exact raise_spec. Qed.
Print Assumptions C64_raise_partial.
Theorem C64_raise_changes : forall b b' now,
  b' = RaiseMajorVersion b now \/ b' = RaiseMinorVersion b now \/ (exists x y, b' = SetVersion b x y now) ->
  date_of First b' = date_of First b /\ date_of Minor b' = now /\
  (b' = RaiseMajorVersion b now \/ (exists x y, b' = SetVersion b x y now) -> date_of Major b' = now) /\
  (b' = RaiseMinorVersion b now -> date_of Major b' = date_of Major b) /\
  id_of b' = id_of b /\ same_texts b b' /\ but_header b' = but_header b.
Proof. exact raise_frame. Qed.
Print Assumptions C64_raise_changes.
Theorem C64_set_version : forall b x y now, version_of (SetVersion b x y now) = (x, y).
Proof. reflexivity. Qed.
Print Assumptions C64_set_version.
Theorem C64_dates_partial : forall m b d b' r, date_fields d -> Month d <> 0 -> set_the_date m b d = (b', r) ->
  (r = Ok tt <-> valid_date d) /\
  (r = Ok tt -> date_of m b' = d /\ (forall k, k <> m -> date_of k b' = date_of k b) /\ id_of b' = id_of b /\
     version_of b' = version_of b /\ same_texts b b' /\ but_header b' = but_header b) /\
  (r <> Ok tt -> b' = b /\ exists e, r = Err e).
Proof. exact set_date_spec. Qed.
Print Assumptions C64_dates_partial.
Theorem C64_metrics : forall b k v b' r, SetMetric b k v = (b', r) ->
  (r = Ok tt <-> metric_allowed b k v) /\
  (r = Ok tt -> metric_of k b' = v /\ (forall j, j <> k -> metric_of j b' = metric_of j b) /\ vertical b' = vertical b /\ but_metrics b' = but_metrics b) /\
  (r <> Ok tt -> b' = b /\ exists m, r = Err m).
Proof. exact set_metric_spec. Qed.
Print Assumptions C64_metrics.
Theorem C64_vert_layout : forall b used, vertical (SetVertLayoutUsed b used) = used /\
  (forall k, metric_of k (SetVertLayoutUsed b used) = metric_of k b) /\ but_metrics (SetVertLayoutUsed b used) = but_metrics b.
Proof. exact vert_used_spec. Qed.
Print Assumptions C64_vert_layout.
(** over every history in which the vertical layout is not switched off *)
Theorem C64_vertical_partial : forall id date ops, ~ In (OSetVertLayoutUsed false) ops -> vert_consistent (history id date ops).
Proof. exact vert_history. Qed.
Print Assumptions C64_vertical_partial.
(** New takes the first of up to eight random font ids that has enough entropy, and panics when there
    is none; the builder has version 0.1, the same date three times and a consistent vertical layout. *)
Theorem C64_new : forall random date, match builder_New random date with
  | Ok b => (exists before after, random = before ++ id_of b :: after /\ (length before < 8)%nat /\ entropy_too_low (id_of b) = false /\
               Forall (fun x => entropy_too_low x = true) before) /\
      version_of b = (0, 1) /\ (forall m, date_of m b = date) /\ vert_consistent b /\ b_glyphs b = [] /\
      (forall t, plain_text (text_of t b) /\ 0 < zlen (text_of t b) <= text_limit t)
  | Panic => forall before id after, random = before ++ id :: after -> (length before < 8)%nat -> entropy_too_low id = true
  | _ => False
  end.
Proof. exact new_spec. Qed.
Print Assumptions C64_new.

Example C64_ex :
  version_of sample_builder = (0, 1) /\ version_of (RaiseMinorVersion sample_builder sample_date) = (0, 2) /\
  date_fields (mkDate 2024 2 29) /\ snd (SetMajorVerDate sample_builder (mkDate 2024 2 29)) = Ok tt /\
  snd (SetMajorVerDate sample_builder (mkDate 2023 2 29)) = Err "invalid date" /\
  snd (SetMetric sample_builder VertLineWidth 5) = Err "can't set vert line width without enabling vert layout first" /\
  snd (SetMetric (SetVertLayoutUsed sample_builder true) VertLineWidth 5) = Ok tt /\
  ~ In (OSetVertLayoutUsed false) sample_ops /\ builder_New [0; 1; sample_id; 5] sample_date = Ok (New sample_id sample_date) /\ builder_New [0; 1] sample_date = Panic.
Proof.
  repeat (split; [first [unfold date_fields; cbn; lia | vm_compute; reflexivity | (intros H; repeat destruct H as [H|H]; try discriminate H; exact H)]|]). vm_compute; reflexivity.
Qed.
