(** The code point 0 in mapping caches: C34. *)
From Verif Require Import Base BaseFacts Model_Helpers Model_Font Model_Parse Model_Rewrites Model_Caches Spec_Caches
  Spec_Layout Spec_LayoutFont Spec_Format Spec_Parse Sample Proofs_Caches Proofs_Caches2 Proofs_Caches3 Proofs_Zero.

(** a font that maps the code points 0, 65 and 66 *)
Definition zero_mapped : layout :=
  {| l_header := l_header sample; l_metrics := l_metrics sample; l_dyes := l_dyes sample; l_palettes := l_palettes sample;
     l_names := []; l_glyphs := l_glyphs sample; l_words := []; l_settings := []; l_switches := [];
     l_mapping := [(0, EGlyph 0); (65, EGlyph 1); (66, EGlyph 1)];
     l_conditions := []; l_utf8_sets := []; l_glyph_sets := []; l_utf8_rules := []; l_glyph_rules := []; l_horz := []; l_vert := [] |}.

(** ** C34 *)
(** Full statement: the hits are the last [n] different code points. Unused entries are marked with the code point 0, so whenever
    one of them is taken the code point 0 is forgotten: after 0 and 65 it is missing in a cache of four entries, after 0, 65
    and 0 it takes a third entry, and after one more code point it is missing again. The parser accepts the font. *)
Theorem C34_zero_refuted : exists f m c,
  (exists payload, parse_payload [(payload, NoErr)] = Ok f) /\ bytes (Data f) /\
  NewMappingCache f 4 = Ok m /\ NewSettingsCache f = Ok c /\ Forall (mapped f (sc_settings c)) [0; 65; 66] /\
  In 0 (recent 4 (rev [0; 65])) /\ ~ hit (fst (after_gets m c [0; 65])) 0 /\
  map_get (mc_cached (fst (after_gets m c [0; 65; 0]))) 0 = Some 2 /\
  In 0 (recent 4 (rev [0; 65; 0; 66])) /\ ~ hit (fst (after_gets m c [0; 65; 0; 66])) 0.
Proof.
  exists (font_of zero_mapped). eexists _, _. split; [exists (font_bytes zero_mapped); vm_compute; reflexivity|].
  split.
  { apply Forall_forall. intros b Hb. assert (H : forallb (fun b => (0 <=? b) && (b <? 256)) (Data (font_of zero_mapped)) = true) by (vm_compute; reflexivity).
    rewrite forallb_forall in H. specialize (H b Hb). unfold byte. lia. }
  split; [vm_compute; reflexivity|]. split; [vm_compute; reflexivity|]. split; [repeat constructor; eexists; vm_compute; reflexivity|].
  split; [vm_compute; tauto|]. split; [intros [i E]; vm_compute in E; discriminate|]. split; [vm_compute; reflexivity|].
  split; [vm_compute; tauto|]. intros [i E]. vm_compute in E. discriminate.
Qed.
Print Assumptions C34_zero_refuted.

(** So it is in general: with two unused entries left, the code point 0 is gone after any other code point that is not kept,
    although it is the second last one. *)
Theorem C34_zero_general_refuted : forall f n m c l cp, bytes (Data f) -> NewMappingCache f n = Ok m -> NewSettingsCache f = Ok c ->
  Forall (mapped f (sc_settings c)) (l ++ [0; cp]) -> ~ In 0 l -> cp <> 0 ->
  k_filling (kept_after n l) = true -> zlen (k_used (kept_after n l)) <= n - 2 -> ~ is_kept (kept_after n l) cp ->
  In 0 (recent (Z.to_nat n) (rev (l ++ [0; cp]))) /\ ~ hit (fst (after_gets m c (l ++ [0; cp]))) 0.
Proof.
  intros f n m c l cp HB HM HC HF Nz Ncp KF KL NK. split; [|exact (zero_lost f n m c l cp HB HM HC HF Nz Ncp KF KL NK)].
  pose proof (zlen_nonneg (k_used (kept_after n l))). rewrite rev_app_distr. cbn [rev app]. destruct (Z.to_nat n) as [|[|k]] eqn:E; try lia.
  cbn [recent filter]. replace (0 =? cp) with false by lia. cbn [negb recent]. right. left. reflexivity.
Qed.
Print Assumptions C34_zero_general_refuted.
Example C34_zero_general_example : exists m c, NewMappingCache (font_of zero_mapped) 4 = Ok m /\ NewSettingsCache (font_of zero_mapped) = Ok c /\
  Forall (mapped (font_of zero_mapped) (sc_settings c)) ([65] ++ [0; 66]) /\ kept_after 4 [65] = mkKept [65] None true /\
  map (map_get (mc_cached (fst (after_gets m c [65; 0; 66])))) [65; 0; 66] = [Some 0; None; Some 2].
Proof.
  eexists _, _. split; [vm_compute; reflexivity|]. split; [vm_compute; reflexivity|]. split; [repeat constructor; eexists; vm_compute; reflexivity|].
  split; [reflexivity|]. vm_compute. reflexivity.
Qed.
