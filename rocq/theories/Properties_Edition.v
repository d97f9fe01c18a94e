(** Theorems about the edition data of a builder: ParseEditionData and ClearEditionData. The
    builders of the examples are those of Sample_Builder: five glyphs with UIDs 1001 to 1005,
    kerning -1 from 1002 to 1001 and 2 from 1001 to 1003. *)
From Verif Require Import Base Spec_Helpers Model_Helpers Spec_Names Model_Words Spec_Format Model_Font Model_Parse Spec_Parse Model_Builder Sample_Builder
  Model_Edition Spec_Edition Spec_EditionBuilder Proofs_Edition Proofs_Edition2 Proofs_Edition3.
From Coq Require Import Lia.
Ltac splits := repeat match goal with |- _ /\ _ => split end.

Definition sample_wk : wk := wk_new sample_builder.
(** what [ParseEditionData] makes of a file with the contents [P] that arrives in one piece *)
Definition load (w : wk) (P : list Z) : wk * outcome unit := ParseEditionData w (str_bytes "wkgfnt", NoErr) None [(P, NoErr)].
Lemma delivers_one P : P <> [] -> delivers [(P, NoErr)] P.
Proof. intros H. split; [|cbn; apply app_nil_r]. destruct P; [congruence|]. cbn. repeat split. Qed.
Definition edition_ok (w : wk) (e : edition) : Prop :=
  edition_typed e /\ edition_valid (bh_ID (b_header (wk_b w))) (zlen (b_order (wk_b w))) (zlen (wk_conditionNames w)) e.
Definition char_ok (c : Z) : bool := (48 <=? c) && (c <=? 57) || (65 <=? c) && (c <=? 90) || (97 <=? c) && (c <=? 122) || (c =? 45) || (c =? 32).
Lemma chars_ok s : forallb char_ok s = true -> Forall (fun c => alnum c \/ c = hyphen \/ c = 32) s.
Proof. intros H. rewrite forallb_forall in H. apply Forall_forall. intros c Hc. specialize (H c Hc). unfold char_ok, alnum, letter, hyphen in *. lia. Qed.
Definition plain (limit : nat) (s : list Z) : bool := negb (length s =? 0)%nat && (length s <=? limit)%nat && forallb char_ok s.
Lemma plain_ok limit s : plain limit s = true -> s <> [] /\ (length s <= limit)%nat /\ Forall (fun c => alnum c \/ c = hyphen \/ c = 32) s.
Proof.
  unfold plain. intros H. apply andb_true_iff in H. destruct H as [H H3]. apply andb_true_iff in H. destruct H as [H1 H2].
  split; [now destruct s|]. split; [now apply Nat.leb_le|now apply chars_ok].
Qed.
Lemma plain_all {A} (f : A -> list Z) limit l : forallb (fun x => plain limit (f x)) l = true ->
  Forall (fun x => f x <> [] /\ (length (f x) <= limit)%nat /\ Forall (fun c => alnum c \/ c = hyphen \/ c = 32) (f x)) l.
Proof. intros H. rewrite forallb_forall in H. apply Forall_forall. intros x Hx. now apply plain_ok, H. Qed.
Definition bytesb (l : list Z) : bool := forallb (fun b => (0 <=? b) && (b <? 256)) l.
Lemma bytesb_ok l : bytesb l = true -> bytes l.
Proof. intros H. unfold bytesb in H. rewrite forallb_forall in H. apply Forall_forall. intros x Hx. specialize (H x Hx). unfold byte. lia. Qed.
(** a test for [edition_typed] *)
Definition typedb (e : edition) : bool :=
  let named lo hi (c : list Z * Z) := bytesb (fst c) && (zlen (fst c) <? 256) && (lo <=? snd c) && (snd c <? hi) in
  let small (p : Z * Z * Z) := (0 <=? fst (fst p)) && (fst (fst p) <? 65536) && ((0 <=? snd (fst p)) && (snd (fst p) <? 65536)) && ((0 <=? snd p) && (snd p <? 65536)) in
  (0 <=? e_id e) && (e_id e <? 2 ^ 64) && (zlen (e_categories e) <? 256) && forallb (named 0 65536) (e_categories e) &&
  (zlen (e_classes e) <? 65536) && forallb (named (-128) 128) (e_classes e) && forallb small (e_horz e ++ e_vert e) &&
  (zlen (e_horz e) <? 2 ^ 24) && (zlen (e_vert e) <? 2 ^ 24) && (zlen (e_conditions e) <? 255) &&
  forallb (fun n => bytesb n && (zlen n <? 256)) (e_conditions e).
Lemma typedb_ok e : typedb e = true -> edition_typed e.
Proof.
  unfold typedb. intros H. repeat (apply andb_true_iff in H; let K := fresh "K" in destruct H as [H K]). unfold edition_typed.
  repeat match goal with K : forallb _ _ = true |- _ => rewrite forallb_forall in K end.
  assert (L : forall a b, (a <? b) = true -> a < b) by (intros; lia).
  splits; try (apply L; assumption); try lia; apply Forall_forall; intros x Hx.
  - specialize (K6 x Hx). repeat (apply andb_true_iff in K6; let K := fresh "K" in destruct K6 as [K6 K]). splits; try lia. now apply bytesb_ok.
  - specialize (K4 x Hx). repeat (apply andb_true_iff in K4; let K := fresh "K" in destruct K4 as [K4 K]). splits; try lia. now apply bytesb_ok.
  - specialize (K3 x Hx). lia.
  - specialize (K x Hx). apply andb_true_iff in K. destruct K. splits; try lia. now apply bytesb_ok.
Qed.
Definition pairsb (glyphs classes : Z) (l : list (Z * Z * Z)) : bool :=
  forallb (fun p => (fst (fst p) <? glyphs) && (snd (fst p) <? glyphs) && (1 <=? snd p) && (snd p <=? classes)) l.
(** a test for [edition_valid], for lists of pairs without repetition *)
Definition validb (id glyphs conditions : Z) (e : edition) : bool :=
  (e_id e =? id) && forallb (fun c => plain 60 (fst c)) (e_categories e) && (fold_right Z.add 0 (map snd (e_categories e)) =? glyphs) &&
  forallb (fun c => plain 32 (fst c)) (e_classes e) && pairsb glyphs (zlen (e_classes e)) (e_horz e) && pairsb glyphs (zlen (e_classes e)) (e_vert e) &&
  (zlen (e_conditions e) =? conditions) && forallb (plain 32) (e_conditions e).
Lemma validb_ok id glyphs conditions e : validb id glyphs conditions e = true -> NoDup (map fst (e_horz e)) -> NoDup (map fst (e_vert e)) ->
  edition_valid id glyphs conditions e.
Proof.
  unfold validb. intros H N1 N2. repeat (apply andb_true_iff in H; let K := fresh "K" in destruct H as [H K]). unfold edition_valid.
  assert (PV : forall l, NoDup (map fst l) -> pairsb glyphs (zlen (e_classes e)) l = true -> pairs_valid glyphs (zlen (e_classes e)) l).
  { intros l N HP. split; [assumption|]. unfold pairsb in HP. rewrite forallb_forall in HP. apply Forall_forall. intros x Hx. specialize (HP x Hx). lia. }
  splits; try lia; auto.
  - apply (plain_all fst 60). assumption.
  - apply (plain_all fst 32). assumption.
  - apply (plain_all (fun x => x) 32). assumption.
Qed.
Ltac distinct := cbn; repeat (constructor; [cbn; intuition congruence|]); constructor.

(** two categories, two classes, and pairs: class 1 for the glyphs 1001 and 1002, class 2 for 1002
    and 1001 *)
Definition sample_edition : edition := mkEdition 7777
  [(str_bytes "Latin", 3); (str_bytes "other signs", 2)] [(str_bytes "tight", -2); (str_bytes "wide", 3)]
  [(0, 1, 1); (1, 0, 2)] [(2, 2, 1)] [].
Lemma sample_ok : edition_ok sample_wk sample_edition.
Proof. split; [apply typedb_ok; vm_compute; reflexivity|]. apply validb_ok; [vm_compute; reflexivity|distinct..]. Qed.

(** ** C60: edition data laid out as specified is read *)

(** Full statement: for every builder and every edition data [e] that is valid for it, a file
    with the bytes of [e] as the specification lays them out is read, and afterwards the builder
    has the categories, classes and names of [e], the pairs of [e] have their classes, and nothing
    else is changed; data that is not valid is refused. False: the code reads the numbers of pairs
    from four bytes, where the specification has three. The wrong numbers and indices even lead to
    a panic. *)
Theorem C60_width_refuted : exists w e, edition_ok w e /\ snd (load w (edition_bytes 3 e)) = Panic.
Proof. exists sample_wk, sample_edition. split; [exact sample_ok|vm_compute; reflexivity]. Qed.
Print Assumptions C60_width_refuted.
(** even without pairs *)
Theorem C60_width_no_pairs_refuted : exists w e msg, edition_ok w e /\ e_horz e = [] /\ e_vert e = [] /\ snd (load w (edition_bytes 3 e)) = Err msg.
Proof.
  exists sample_wk, (mkEdition 7777 [(str_bytes "all", 5)] [] [] [] []). eexists.
  splits; [|reflexivity|reflexivity|vm_compute; reflexivity]. split; [apply typedb_ok; vm_compute; reflexivity|]. apply validb_ok; [vm_compute; reflexivity|distinct..].
Qed.
Print Assumptions C60_width_no_pairs_refuted.
(** names of categories may have 60 characters, the code takes 32 ([w] is the width of the numbers
    of pairs: neither is accepted) *)
Definition long_name : list Z := str_bytes "Latin letters with rings and other marks".
Theorem C60_category_name_refuted : exists w e, edition_ok w e /\
  (exists msg, snd (load w (edition_bytes 3 e)) = Err msg) /\ (exists msg, snd (load w (edition_bytes 4 e)) = Err msg).
Proof.
  exists sample_wk, (mkEdition 7777 [(long_name, 5)] [] [] [] []).
  split; [split; [apply typedb_ok; vm_compute; reflexivity|]; apply validb_ok; [vm_compute; reflexivity|distinct..]|].
  split; eexists; vm_compute; reflexivity.
Qed.
Print Assumptions C60_category_name_refuted.
(** the sizes of the categories are not compared with the number of glyphs *)
Theorem C60_sizes_refuted : exists w e, edition_typed e /\ fold_right Z.add 0 (map snd (e_categories e)) <> zlen (b_order (wk_b w)) /\
  snd (load w (edition_bytes 4 e)) = Ok tt.
Proof.
  exists sample_wk, (mkEdition 7777 [(str_bytes "all", 9)] [] [] [] []).
  split; [apply typedb_ok; vm_compute; reflexivity|]. split; [vm_compute; discriminate|vm_compute; reflexivity].
Qed.
Print Assumptions C60_sizes_refuted.
(** classes that don't exist are accepted, and then the font can't be built *)
Theorem C60_class_refuted : exists w e, edition_typed e /\ ~ pairs_valid (zlen (b_order (wk_b w))) (zlen (e_classes e)) (e_horz e) /\
  snd (load w (edition_bytes 4 e)) = Ok tt /\
  is_ok (snd (Build no_order no_sort (wk_b w))) = true /\ snd (Build no_order no_sort (wk_b (fst (load w (edition_bytes 4 e))))) = Panic.
Proof.
  exists sample_wk, (mkEdition 7777 [] [(str_bytes "tight", -2)] [(0, 1, 2)] [] []).
  split; [apply typedb_ok; vm_compute; reflexivity|]. split; [|split; [vm_compute; reflexivity|split; vm_compute; reflexivity]].
  intros [_ H]. inversion H as [|? ? (_ & _ & K) _]. destruct K as [_ K]. vm_compute in K. now apply K.
Qed.
Print Assumptions C60_class_refuted.

(** What holds: with numbers of pairs in four bytes, names of at most 32 characters and any sizes
    and classes but zero, the data is read. Missing: the layout of the specification. *)
Theorem C60_read_partial : forall w i e, delivers i (edition_bytes 4 e) -> edition_typed e -> zlen (edition_bytes 4 e) <= MaxFontDataSize ->
  edition_taken (bh_ID (b_header (wk_b w))) (zlen (b_order (wk_b w))) (zlen (wk_conditionNames w)) e ->
  exists w', ParseEditionData w (str_bytes "wkgfnt", NoErr) None i = (w', Ok tt) /\ edition_loaded w e w'.
Proof. exact parse_accepts. Qed.
Print Assumptions C60_read_partial.
(** And nothing else is accepted, except for data behind the end that the reader has buffered. *)
Theorem C60_only_partial : forall w i P w', delivers i P -> bytes P -> zlen P <= MaxFontDataSize ->
  ParseEditionData w (str_bytes "wkgfnt", NoErr) None i = (w', Ok tt) ->
  exists e trailing, P = edition_bytes 4 e ++ trailing /\ edition_typed e /\
    edition_taken (bh_ID (b_header (wk_b w))) (zlen (b_order (wk_b w))) (zlen (wk_conditionNames w)) e /\ edition_loaded w e w'.
Proof. exact parse_only. Qed.
Print Assumptions C60_only_partial.
(** Only files with the signature are read. *)
Theorem C60_signature : forall w first g i w', ParseEditionData w first g i = (w', Ok tt) -> first = (str_bytes "wkgfnt", NoErr) /\ g = None.
Proof.
  intros w [sig err] g i w' E. unfold ParseEditionData in E. destruct err; cbn [negb orb] in E; try discriminate. destruct (zlen sig =? 6); cbn [negb] in E; [|discriminate].
  destruct (list_eqb sig edition_signature) eqn:S; cbn [negb] in E; [|discriminate]. apply Proofs_Builder.list_eqb_true in S. rewrite S. destruct g; [discriminate|]. split; reflexivity.
Qed.
Print Assumptions C60_signature.
(** the sample meets the hypotheses, and its kerning classes end up in the font *)
Example C60_sample : delivers [(edition_bytes 4 sample_edition, NoErr)] (edition_bytes 4 sample_edition) /\ edition_typed sample_edition /\
  zlen (edition_bytes 4 sample_edition) <= MaxFontDataSize /\
  edition_taken (bh_ID (b_header (wk_b sample_wk))) (zlen (b_order (wk_b sample_wk))) (zlen (wk_conditionNames sample_wk)) sample_edition /\
  let w' := fst (load sample_wk (edition_bytes 4 sample_edition)) in
  b_horz (wk_b w') = [(1002, 1001, mkKPair 2 (-1)); (1001, 1003, mkKPair 0 2); (1001, 1002, mkKPair 1 0)] /\
  wk_categories w' = e_categories sample_edition /\ b_classes (wk_b w') = [-2; 3].
Proof.
  split; [apply delivers_one; vm_compute; discriminate|]. split; [apply sample_ok|]. split; [vm_compute; discriminate|].
  split.
  - destruct sample_ok as [_ (V1 & V2 & V3 & V4 & (V5 & V5') & (V6 & V6') & V7 & V8)]. unfold edition_taken. splits; auto.
    + apply (plain_all fst 32). vm_compute. reflexivity.
    + eapply Forall_impl; [|exact V5']. cbn. lia.
    + eapply Forall_impl; [|exact V6']. cbn. lia.
  - cbv zeta. split; [vm_compute; reflexivity|]. split; vm_compute; reflexivity.
Qed.
Example C60_sample_pairs : listed (b_order sample_builder) (e_horz sample_edition) 1002 1001 (Some 2) /\
  listed (b_order sample_builder) (e_horz sample_edition) 1001 1003 None.
Proof.
  split.
  - exists [(0, 1, 1)], (1, 0, 2), []. splits; try reflexivity; try (vm_compute; reflexivity). constructor.
  - repeat (constructor; [intros [A B]; vm_compute in A, B; congruence|]). constructor.
Qed.

(** ** C61: edition data that is not read leaves the builder without edition data and otherwise
    unchanged, and never panics *)

(** Full statement: whenever ParseEditionData fails it returns an error, and the builder is as it
    was except that it has no edition data. False: a glyph index out of range is a panic. *)
Theorem C61_index_refuted : exists w P, snd (load w P) = Panic.
Proof. exists sample_wk, (edition_bytes 4 (mkEdition 7777 [] [(str_bytes "tight", -2)] [(0, 5, 1)] [] [])). vm_compute. reflexivity. Qed.
Print Assumptions C61_index_refuted.
(** bytes behind the end are a panic too, when they arrive with a later read *)
Theorem C61_trailing_refuted : exists w e i, delivers i (edition_bytes 4 e ++ [0]) /\
  snd (load w (edition_bytes 4 e)) = Ok tt /\ snd (ParseEditionData w (str_bytes "wkgfnt", NoErr) None i) = Panic.
Proof.
  exists sample_wk, sample_edition, [(edition_bytes 4 sample_edition, NoErr); ([0], NoErr)].
  split; [|split; vm_compute; reflexivity]. split; [cbn; repeat split|vm_compute; reflexivity].
Qed.
Print Assumptions C61_trailing_refuted.
(** pairs that were read before the failure stay in the builder, and in the fonts it builds *)
Theorem C61_leftover_refuted : exists w P msg, snd (load w P) = Err msg /\
  m_get pair_eqb (b_horz (wk_b w)) (1001, 1002) = None /\ m_get pair_eqb (b_horz (wk_b (fst (load w P)))) (1001, 1002) = Some (mkKPair 0 0) /\
  exists f f', snd (Build no_order no_sort (wk_b w)) = Ok f /\ snd (Build no_order no_sort (wk_b (fst (load w P)))) = Ok f' /\ zlen (Data f) < zlen (Data f').
Proof.
  exists sample_wk, (firstn 30 (edition_bytes 4 (mkEdition 7777 [] [(str_bytes "tight", -2)] [(0, 1, 1)] [] []))). eexists.
  split; [vm_compute; reflexivity|]. split; [vm_compute; reflexivity|]. split; [vm_compute; reflexivity|].
  do 2 eexists. split; [vm_compute; reflexivity|]. split; [vm_compute; reflexivity|]. vm_compute. reflexivity.
Qed.
Print Assumptions C61_leftover_refuted.

(** What holds for every builder, signature, gzip header and reader: after a failure (a panic
    included) there is no edition data, pairs keep their values, new pairs are pairs of glyphs of
    the font with kerning 0, and nothing else is changed. *)
Theorem C61_cleared_partial : forall w first g i w' r, ParseEditionData w first g i = (w', r) -> r <> Ok tt -> edition_cleared w w'.
Proof. exact failure_cleared. Qed.
Print Assumptions C61_cleared_partial.
(** The function always ends. *)
Theorem C61_ends : forall w first g i, stream_bytes i -> snd (ParseEditionData w first g i) <> Hang.
Proof. exact edition_ends. Qed.
Print Assumptions C61_ends.
(** a failure in the second list of pairs, in a builder that has edition data *)
Example C61_sample : let w := fst (load sample_wk (edition_bytes 4 sample_edition)) in
  exists msg, snd (load w (edition_bytes 4 (mkEdition 7777 [] [(str_bytes "tight", -2)] [(0, 1, 1); (3, 3, 1)] [(0, 1, 0)] []))) = Err msg /\
  wk_categories w <> [] /\ b_classes (wk_b w) <> [] /\
  let w' := fst (load w (edition_bytes 4 (mkEdition 7777 [] [(str_bytes "tight", -2)] [(0, 1, 1); (3, 3, 1)] [(0, 1, 0)] []))) in
  wk_categories w' = [] /\ b_horz (wk_b w') = [(1002, 1001, mkKPair 0 (-1)); (1001, 1003, mkKPair 0 2); (1001, 1002, mkKPair 0 0); (1004, 1004, mkKPair 0 0)].
Proof.
  cbv zeta. eexists. split; [vm_compute; reflexivity|]. split; [vm_compute; discriminate|]. split; [vm_compute; discriminate|].
  split; vm_compute; reflexivity.
Qed.
