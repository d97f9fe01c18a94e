(** Properties of what Parse demands beyond the layout: C73. *)
From Verif Require Import Base BaseFacts Spec_Helpers Model_Helpers Model_Font Model_Parse Spec_Parse
  Spec_Format Spec_Layout Spec_LayoutFont Spec_Accept Proofs_Accept Proofs_Accept2 Sample Model_Date Spec_Date Spec_Names Spec_Demands.

(** ** C73 *)

(** The demands that Parse does check hold of every font it takes. Missing: the others. *)
Theorem C73_checked_partial : forall d l i f, In d checked -> encodable l -> delivers i (font_bytes l) ->
  parse_payload i = Ok f -> asks d l.
Proof.
  intros d l i f HD HE HV HP. destruct (parser_exact l i HE HV) as [[_ A]|[[m E] _]]; [|congruence].
  destruct HD as [<-|[<-|[<-|[<-|[<-|[]]]]]]; cbn [asks].
  - destruct (pa_header _ _ A) as (_ & _ & N). destruct (h_name (l_header l)) as [|c r]; [contradiction|]. rewrite zlen_cons. pose proof (zlen_nonneg r). lia.
  - apply (pa_metrics _ _ A).
  - apply (pa_metrics _ _ A).
  - apply (pa_palettes _ _ A).
  - pose proof (pa_switches _ _ A). lia.
Qed.
Print Assumptions C73_checked_partial.

(** For each of the other demands there is a font that breaks it and is parsed. *)
Definition alter (h : header_fields -> header_fields) (m : metrics_fields -> metrics_fields) (l : layout) : layout :=
  mkLayout (h (l_header l)) (m (l_metrics l)) (l_dyes l) (l_palettes l) (l_names l) (l_glyphs l) (l_words l) (l_settings l)
    (l_switches l) (l_mapping l) (l_conditions l) (l_utf8_sets l) (l_glyph_sets l) (l_utf8_rules l) (l_glyph_rules l) (l_horz l) (l_vert l).
Definition plain (names : list (list Z * Z)) (glyphs : list (placement * list Z)) (words : list (list Z)) (settings : list (list Z * list Z))
  (mapping : list (Z * entry)) (conditions : list condition) (rules : list rewrite_rule) (horz vert : list (Z * Z * Z)) : layout :=
  mkLayout (l_header sample) (mkMetrics (zlen glyphs) false 0 7 1 3 1 6 4 1 0 1 0 0) [] [] names glyphs words settings [] mapping conditions [] []
    rules [] horz vert.
Definition dot : placement * list Z := (mkPl 3 0 0 0, []).
Definition two : list (placement * list Z) := [dot; dot].
Definition long_block : list (list Z * list Z) := repeat ([], repeat 97 15) 17.
Definition breaks (d : demand) : layout :=
  match d with
  | GlyphMaximum => plain [] (repeat dot (Z.to_nat 57000)) [] [] [] [] [] [] []
  | ExtraAscentBelow => alter (fun h => h) (fun _ => mkMetrics 4 false 0 7 7 3 1 6 4 1 0 1 0 0) sample
  | LineWidthNeedsVert => alter (fun h => h) (fun _ => mkMetrics 4 false 0 7 1 3 1 6 4 1 0 1 9 0) sample
  | LineGapNeedsVert => alter (fun h => h) (fun _ => mkMetrics 4 false 0 7 1 3 1 6 4 1 0 1 0 9) sample
  | DatesValid => alter (fun h => mkHeader (h_format h) (h_id h) (h_major h) (h_minor h) (0, 11, 5) (h_major_date h) (h_minor_date h)
      (h_name h) (h_family h) (h_author h) (h_about h)) (fun m => m) sample
  | GlyphNamesBasic => plain [([48], 1)] two [] [] [] [] [] [] []
  | GlyphNamesOrdered => plain [([98], 1); ([97], 0)] two [] [] [] [] [] [] []
  | WordsBasic => plain [] two [[48]] [] [] [] [] [] []
  | SettingNamesBasic => plain [] two [[97]] [([48], [0])] [] [] [] [] []
  | OptionsBelow255 => plain [] two [[97]] [([97], [255])] [] [] [] [] []
  | MappingOrdered => plain [] two [] [] [(66, EGlyph 0); (65, EGlyph 1)] [] [] [] []
  | GroupsOfTwo => plain [] two [[97]] [([97], [0])] [] [COr [CConst Equal 0 0]] [] [] []
  | BodiesLongEnough => plain [] two [] [] [] [] [mkRule 255 [([], [97])] [] [([], [98])] [99]] [] []
  | BlocksSmall | RulesSmall => plain [] two [] [] [] []
      (mkRule 255 long_block long_block long_block (repeat 98 255) :: repeat (mkRule 255 [] [([], [97; 98])] [] [99]) 4) [] []
  | KerningOrdered => plain [] two [] [] [] [] [] [(1, 0, 2); (0, 1, -2)] []
  | KerningNeedsVert => plain [] two [] [] [] [] [] [] [(1, 0, 2)]
  | _ => sample
  end.
Lemma bytes_by l : forallb (fun b => (0 <=? b) && (b <? 256)) l = true -> bytes l.
Proof. intros H. apply Forall_forall. intros b Hb. rewrite forallb_forall in H. specialize (H b Hb). unfold byte. lia. Qed.
Lemma not_basic : ~ basic_name [48].
Proof. intros [(c & r & [= <- <-] & H & _) _]. destruct H; lia. Qed.
Theorem C73_unchecked_refuted : forall d, In d unchecked -> exists l i f, encodable l /\ delivers i (font_bytes l) /\
  parse_payload i = Ok f /\ ~ asks d l.
Proof.
  intros d HD. exists (breaks d), [(font_bytes (breaks d), EOF)]. 
  assert (Q : encodable (breaks d) /\ is_ok (parse_payload [(font_bytes (breaks d), EOF)]) = true /\ ~ asks d (breaks d)).
  { cbn [In unchecked] in HD. repeat (destruct HD as [<-|HD]; [|]); try contradiction.
    all: split; [constructor; [apply bytes_by; vm_compute; reflexivity|..]; vm_compute; repeat split; try reflexivity; discriminate|].
    all: (split; [vm_compute; reflexivity|]).
    - vm_compute. intros H. apply H. reflexivity.
    - cbn. lia.
    - cbn. intros H. discriminate (H eq_refl).
    - cbn. intros H. discriminate (H eq_refl).
    - cbn. intros (H & _). inversion H; congruence.
    - intros H. apply Forall_inv in H. exact (not_basic H).
    - cbn. intros (H & _). specialize (H [97] (or_introl eq_refl)). cbn in H. lia.
    - intros H. apply Forall_inv in H. exact (not_basic H).
    - intros H. apply Forall_inv in H. exact (not_basic H).
    - intros H. apply Forall_inv in H. cbn in H. apply Forall_inv in H. lia.
    - cbn. intros (H & _). specialize (H 65 (or_introl eq_refl)). lia.
    - intros H. apply Forall_inv in H. destruct H as [H _]. vm_compute in H. apply H. reflexivity.
    - intros H. apply Forall_inv in H. cbn in H. lia.
    - intros H. apply Forall_inv in H. revert H. vm_compute. intros H. apply H. reflexivity.
    - intros H. apply Forall_inv in H. revert H. vm_compute. intros H. apply H. reflexivity.
    - cbn. intros ((H & _) & _). specialize (H 1 (or_introl eq_refl)). lia.
    - intros H. discriminate (H eq_refl). }
  destruct Q as (Q1 & Q2 & Q3). destruct (parse_payload [(font_bytes (breaks d), EOF)]) as [f| | |]; try discriminate.
  exists f. split; [exact Q1|]. split; [|split; [reflexivity|exact Q3]]. split; [cbn; destruct (font_bytes (breaks d)); exact I|reflexivity].
Qed.
Print Assumptions C73_unchecked_refuted.

(** The specification describes version 1 (specification.md:3, 57); Parse takes version 2 only, and
    rejects a font that meets every demand and all limits. *)
Definition versioned (v : Z) : layout -> layout :=
  alter (fun h => mkHeader v (h_id h) (h_major h) (h_minor h) (h_first_date h) (h_major_date h) (h_minor_date h)
    (h_name h) (h_family h) (h_author h) (h_about h)) (fun m => m).
Lemma basic_by c r : letter c -> Forall alnum r -> (length r <= 31)%nat -> basic_name (c :: r).
Proof.
  intros H1 H2 H3. split; [|cbn; lia]. exists c, r. split; [reflexivity|]. split; [exact H1|]. destruct r as [|x r]; [constructor|].
  rewrite <- (app_nil_r (x :: r)). constructor; [|constructor]. exists (x :: r). split; [discriminate|]. split; [exact H2|left; reflexivity].
Qed.
Lemma sample_demands d : In d (checked ++ unchecked) -> asks d (versioned 1 sample).
Proof.
  assert (L : forall c, (97 <=? c) && (c <=? 122) = true -> letter c) by (unfold letter; intros; lia).
  assert (B : forall c r, forallb (fun c => (97 <=? c) && (c <=? 122)) (c :: r) = true -> (length r <= 31)%nat -> basic_name (c :: r)).
  { intros c r H1 H2. cbn [forallb] in H1. apply andb_prop in H1. destruct H1 as [H1 H3]. apply basic_by; [auto| |exact H2].
    apply Forall_forall. intros x Hx. rewrite forallb_forall in H3. left. auto. }
  intros HD. cbn [In checked unchecked app] in HD. repeat (destruct HD as [<-|HD]; [|]); try contradiction.
  all: try (vm_compute; first [discriminate | reflexivity | (intros; reflexivity)]).
  - cbn. repeat split; (apply Complete; [lia|]); try (apply Short; [cbn; tauto|lia]). apply Feb29. split; [exists 506; reflexivity|left; intros [k Hk]; lia].
  - repeat (apply Forall_cons; [apply B; [reflexivity|cbn; lia]|]). apply Forall_nil.
  - cbn. repeat split; try (intros y H; intuition (subst; cbn; lia)).
  - repeat (apply Forall_cons; [apply B; [reflexivity|cbn; lia]|]). apply Forall_nil.
  - repeat (apply Forall_cons; [apply B; [reflexivity|cbn; lia]|]). apply Forall_nil.
  - cbn. repeat constructor.
  - cbn. repeat split; try (intros y H; intuition (subst; cbn; lia)).
  - cbn. repeat constructor; vm_compute; try discriminate.
  - cbn. repeat constructor; vm_compute; try discriminate.
  - cbn. repeat constructor; vm_compute; try discriminate.
  - cbn. repeat constructor; vm_compute; try discriminate.
  - cbn. repeat split; try (intros y H; intuition (subst; cbn; lia)).
Qed.
Theorem C73_version_refuted : exists l i m, h_format (l_header l) = 1 /\ (forall d, In d (checked ++ unchecked) -> asks d l) /\
  parser_accepts (fun id => entropy_too_low id = false) (versioned 2 l) /\ encodable l /\ delivers i (font_bytes l) /\ parse_payload i = Err m.
Proof.
  exists (versioned 1 sample), [(font_bytes (versioned 1 sample), EOF)]. eexists.
  split; [reflexivity|]. split; [exact sample_demands|].
  split; [constructor; vm_compute; repeat split; try reflexivity; try discriminate; right; discriminate|].
  split; [constructor; [apply bytes_by; vm_compute; reflexivity|..]; vm_compute; repeat split; try reflexivity; discriminate|].
  split; [split; [vm_compute; exact I|vm_compute; reflexivity]|]. vm_compute. reflexivity.
Qed.
Print Assumptions C73_version_refuted.

Example C73_ex : encodable sample /\ delivers [(font_bytes sample, EOF)] (font_bytes sample) /\ is_ok (parse_payload [(font_bytes sample, EOF)]) = true /\ In ColorMaximum checked.
Proof.
  split; [constructor; [apply bytes_by; vm_compute; reflexivity|..]; vm_compute; repeat split; try reflexivity; discriminate|].
  split; [split; [vm_compute; exact I|vm_compute; reflexivity]|]. split; [vm_compute; reflexivity|]. cbn. tauto.
Qed.
