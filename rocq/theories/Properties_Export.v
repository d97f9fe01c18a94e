(** Properties of validating and exporting fonts: C65 (Validate), C66 (Export). *)
From Coq Require Import Permutation.
From Verif Require Import Base BaseFacts Spec_Helpers Model_Helpers Model_Names Model_Words Model_Date Model_Mask Model_Font Model_Parse Spec_Parse
  Model_Builder Spec_Builder Sample_Builder Spec_Build Proofs_Build Proofs_Build9 Proofs_Typed Model_Export Spec_Export Proofs_Export Properties_Parse Properties_Build.

(** ** C65 *)
(** Full statement: every font that Parse or Build gives is valid in both modes.

    In strict mode Validate panics: its methods are not finished. *)
Theorem C65_strict_refuted : exists i f, parse_payload i = Ok f /\ font_Validate f FmtStrict = Panic.
Proof. exists [(tiny_font, EOF)]. eexists. split; [vm_compute; reflexivity|]. vm_compute; reflexivity. Qed.
Print Assumptions C65_strict_refuted.
(** A built font need not be valid: its name may be empty. *)
Theorem C65_built_refuted : exists ops b' f m, Forall op_typed ops /\
  Build no_order no_sort (history sample_id sample_date ops) = (b', Ok f) /\ font_Validate f FmtDefault = Err m.
Proof.
  exists (sample_glyphs ++ [OSetName []]).
  match goal with |- exists b' f m, _ /\ Build no_order no_sort ?b = (b', Ok f) /\ _ =>
    let B := eval vm_compute in (Build no_order no_sort b) in match B with (?b', Ok ?f) => exists b', f end end.
  eexists. split; [apply all_typed; vm_compute; reflexivity|]. split; [vm_compute; reflexivity|]. vm_compute; reflexivity.
Qed.
Print Assumptions C65_built_refuted.
(** Missing: strict mode. *)
Theorem C65_parsed_partial : forall first g i f, stream_bytes i -> Parse first g i = Ok f ->
  font_Validate f FmtDefault = Ok tt /\ font_Validate f FmtStrict = Panic.
Proof. exact parsed_valid. Qed.
Print Assumptions C65_parsed_partial.
(** Missing: fonts beyond the limits of the parser, for which see Properties_Valid65.v. *)
Theorem C65_built_partial : forall id date ops o sort b' f,
  date_typed date -> 0 <= id < 2 ^ 64 -> entropy_too_low id = false -> Forall op_typed ops ->
  perm_order o -> (forall l, Permutation l (sort l)) ->
  Build o sort (history id date ops) = (b', Ok f) -> parser_limits b' f -> font_Validate f FmtDefault = Ok tt.
Proof.
  intros id date ops o sort b' f H1 H2 H3 H4 H5 H6 B L.
  assert (D : delivers [(Data f, EOF)] (Data f)) by (split; [cbn; destruct (Data f); exact I|reflexivity]).
  pose proof (built_parses id date ops o sort b' f _ H1 H2 H3 H4 H5 H6 B L D) as P.
  apply (parsed_valid (signature, NoErr) None [(Data f, EOF)] f); [|exact P]. constructor; [exact (built_data_bytes id date ops o sort b' f H1 H2 H3 H4 H5 H6 B L)|constructor].
Qed.
Print Assumptions C65_built_partial.
Example C65_ex : exists b' f, Build rev_order no_sort (history sample_id sample_date sample_ops) = (b', Ok f) /\ bytes (Data f) /\
  stream_bytes [(Data f, EOF)] /\ parse_payload [(Data f, EOF)] = Ok f /\ font_Validate f FmtDefault = Ok tt.
Proof.
  let B := eval vm_compute in (Build rev_order no_sort (history sample_id sample_date sample_ops)) in
  match B with (?b', Ok ?f) => exists b', f end.
  split; [vm_compute; reflexivity|].
  match goal with |- bytes ?d /\ _ => assert (B : bytes d) by (apply bytes_check; vm_compute; reflexivity) end.
  split; [exact B|]. split; [constructor; [exact B|constructor]|]. split; vm_compute; reflexivity.
Qed.

(** Glyph ranges *)
Theorem C65_ranges : forall first last n g, (NewRange first last = Ok (first, last) <-> first <= last) /\ (NewRange first last = Panic <-> last < first) /\
  (range_Validate (first, last) n = Ok tt <-> first <= last < n) /\ (range_Contains (first, last) g = true <-> first <= g <= last).
Proof.
  intros first last n g. unfold NewRange, range_Validate, range_Contains. cbn [fst snd].
  destruct (Z.ltb_spec last first); destruct (first >? last) eqn:?; destruct (last >=? n) eqn:?; destruct (g >=? first) eqn:?; destruct (g <=? last) eqn:?; cbn;
    repeat split; intros; try discriminate; try reflexivity; lia.
Qed.
Print Assumptions C65_ranges.

(** ** C66 *)
(** What is written: the whole file when no call of Write fails, else a beginning of it and an error. *)
Theorem C66_written : forall body closing w out r, honest w (signature :: body ++ closing) -> Export body closing w = (out, r) ->
  (r = Ok tt <-> ~ fails_within (1 + length body + length closing) w) /\
  (r = Ok tt -> out = file (concat body ++ concat closing)) /\
  (r <> Ok tt -> (exists m, r = Err m) /\ exists t, file (concat body ++ concat closing) = out ++ t).
Proof. exact export_spec. Qed.
Print Assumptions C66_written.
Example C66_written_ex :
  honest [(6, None); (2, None); (1, Some "disk full"%string)] [signature; [31; 139]; [8; 0]; [1]] /\
  Export [[31; 139]; [8; 0]] [[1]] [(6, None); (2, None); (1, Some "disk full"%string)] = ([116; 103; 103; 102; 110; 116; 31; 139; 8], Err "disk full"%string) /\
  Export [[31; 139]; [8; 0]] [[1]] [(6, None)] = ([116; 103; 103; 102; 110; 116; 31; 139; 8; 0; 1], Ok tt) /\
  Export [[31; 139]] [] [(4, None)] = ([116; 103; 103; 102], Err "short write"%string).
Proof. split; [cbn; repeat split; try lia; discriminate|]. repeat split; reflexivity. Qed.

(** Full statement: an exported font is read back. False: a parsed font may have kept bytes after its
    last section, and whether these are accepted depends on how they are read. *)
Theorem C66_read_back_refuted : exists i f i', within_bounds (payload i) /\ delivers i (payload i) /\ parse_payload i = Ok f /\
  delivers i' (Data f) /\ parse_payload i' = Panic.
Proof.
  exists [(tiny_font ++ [7], EOF)]. eexists. exists [(tiny_font, NoErr); ([7], NoErr)].
  split; [split; [apply bytes_check; vm_compute; reflexivity|vm_compute; discriminate]|].
  split; [split; vm_compute; auto|]. split; [vm_compute; reflexivity|]. split; [split; vm_compute; auto|]. vm_compute; reflexivity.
Qed.
Print Assumptions C66_read_back_refuted.

(** Missing: bytes after the last section. The file is read back by a reader that inverts gzip: [gzip]
    gives the chunks written for some data, [reader] the reads of a gzip.Reader. *)
Definition inverts (gzip : list Z -> list (list Z) * list (list Z)) (reader : list Z -> stream) : Prop :=
  forall data, delivers (reader (concat (fst (gzip data)) ++ concat (snd (gzip data)))) data.
Theorem C66_read_back_partial : forall i f gzip reader w out, within_bounds (payload i) -> delivers i (payload i) -> parse_payload i = Ok f ->
  inverts gzip reader -> honest w (signature :: fst (gzip (Data f)) ++ snd (gzip (Data f))) ->
  Export (fst (gzip (Data f))) (snd (gzip (Data f))) w = (out, Ok tt) ->
  let again := Parse (firstn 6 out, NoErr) None (reader (skipn 6 out)) in
  (zlen (Data f) <= content_end f (Data f) -> again = Ok f) /\
  ((exists d t, again = Ok (set_Data f d) /\ Data f = d ++ t) \/ again = Panic).
Proof.
  intros i f gzip reader w out HB D P I H E. destruct (export_spec _ _ _ _ _ H E) as (_ & F & _). rewrite (F eq_refl).
  cbn [file app firstn skipn]. destruct (reparse i (payload i) f _ HB D P (I (Data f))) as (_ & R1 & R2).
  split; [exact R1|]. destruct R2 as [R2|[R2 _]]; [left; exact R2|right; exact R2].
Qed.
Print Assumptions C66_read_back_partial.
(** what a builder exports is read back, within the limits of the parser *)
Theorem C66_built_partial : forall id date ops o sort gzip reader w b' f out, date_typed date -> 0 <= id < 2 ^ 64 -> entropy_too_low id = false -> Forall op_typed ops ->
  perm_order o -> (forall l, Permutation l (sort l)) -> Build o sort (history id date ops) = (b', Ok f) -> parser_limits b' f ->
  inverts gzip reader -> honest w (signature :: fst (gzip (Data f)) ++ snd (gzip (Data f))) ->
  builder_Export o sort (history id date ops) gzip w = (b', (out, Ok tt)) ->
  Parse (firstn 6 out, NoErr) None (reader (skipn 6 out)) = Ok f.
Proof.
  intros id date ops o sort gzip reader w b' f out H1 H2 H3 H4 H5 H6 B L I H E.
  unfold builder_Export in E. rewrite B in E. destruct (gzip (Data f)) as [body closing] eqn:G. injection E as E.
  cbn [fst snd] in H. destruct (export_spec _ _ _ _ _ H E) as (_ & F & _). rewrite (F eq_refl).
  cbn [file app firstn skipn]. apply (built_parses id date ops o sort b' f _ H1 H2 H3 H4 H5 H6 B L).
  pose proof (I (Data f)) as D. rewrite G in D. exact D.
Qed.
Print Assumptions C66_built_partial.
(** nothing is written when Build fails *)
Theorem C66_failed_build : forall o sort b gzip w b' out r, builder_Export o sort b gzip w = (b', (out, r)) ->
  (forall f, snd (Build o sort b) <> Ok f) -> out = [] /\ r <> Ok tt /\ b' = fst (Build o sort b).
Proof.
  intros o sort b gzip w b' out r E N. unfold builder_Export in E. destruct (Build o sort b) as [b0 [f|m| |]]; [destruct (N f eq_refl)|..];
    injection E as <- <- <-; (split; [reflexivity|split; [discriminate|reflexivity]]).
Qed.
Print Assumptions C66_failed_build.
(** a "compression" that stores, read in one piece *)
Definition store (d : list Z) : list (list Z) * list (list Z) := ([[31; 139]; d], [[0]]).
Definition unstore (z : list Z) : stream := [(removelast (skipn 2 z), EOF)].
Example C66_ex : inverts store unstore /\ exists b' f out, Build rev_order no_sort (history sample_id sample_date sample_ops) = (b', Ok f) /\
  builder_Export rev_order no_sort (history sample_id sample_date sample_ops) store [] = (b', (out, Ok tt)) /\ zlen out = 377 /\
  Parse (firstn 6 out, NoErr) None (unstore (skipn 6 out)) = Ok f /\ zlen (Data f) <= content_end f (Data f).
Proof.
  split.
  { intros d. unfold unstore, store. cbn [fst snd concat app skipn]. rewrite app_nil_r, removelast_last. split; [cbn; destruct d; exact I|reflexivity]. }
  let B := eval vm_compute in (Build rev_order no_sort (history sample_id sample_date sample_ops)) in
  match B with (?b', Ok ?f) => exists b', f end.
  eexists. split; [vm_compute; reflexivity|]. split; [vm_compute; reflexivity|]. split; [vm_compute; reflexivity|]. split; [vm_compute; reflexivity|]. vm_compute; discriminate.
Qed.

