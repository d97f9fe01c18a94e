(** Theorems C02 (length-prefixed strings) and C18-C21 (Parse). *)
From Verif Require Import Base BaseFacts Spec_Helpers Model_Helpers Model_Font Model_Parse Spec_Parse Proofs_Parse9 Proofs_Parse8.

(** A smallest font: one glyph with an empty mask, no colors, nothing else. *)
Definition tiny_font : list Z :=
  [2;0;0;0; 17;94;201;33;250;7;140;66; 1;0; 0;0; 232;7;1;1; 232;7;1;1; 0;0;0;0] (* version, ID, versions, dates *)
  ++ [1;97] ++ [0] ++ [0] ++ [0;0]                   (* name, family, author, about *)
  ++ [1;0; 0; 0; 5; 0; 3; 0; 3; 2; 1; 0; 1; 0; 0]    (* metrics *)
  ++ [0] ++ [0]                                      (* dyes, palettes *)
  ++ [0;0] ++ [1;0;0; 3]                             (* glyph names, glyph masks *)
  ++ [0] ++ [0] ++ [0]                               (* words, settings, switches *)
  ++ [0;0] ++ [0] ++ [0] ++ [0] ++ [0;0] ++ [0;0]    (* mapping, conditions, sets, rules *)
  ++ [0;0;0] ++ [0;0;0].                             (* kernings *)

(** ** C02 *)

(** A short string placed anywhere in the payload is read back byte for byte, whatever way the
    reader splits the payload, and the index ends up right behind it. *)
Theorem C02_short_string_roundtrip : forall i pre str post enc,
  bytes str -> within_bounds (pre ++ enc ++ post) ->
  AppendShortString [] str = Ok enc -> delivers i (pre ++ enc ++ post) ->
  exists s', (run _ <- AdvanceBytes (zlen pre); ReadShortStr) (initial i) = POk str s' /\
    Index s' = zlen (pre ++ enc) /\ exists t, pre ++ enc ++ post = Bytes s' ++ t.
Proof. exact short_string_read. Qed.
Print Assumptions C02_short_string_roundtrip.

Theorem C02_long_string_roundtrip : forall i pre str post enc,
  bytes str -> within_bounds (pre ++ enc ++ post) ->
  AppendString [] str = Ok enc -> delivers i (pre ++ enc ++ post) ->
  exists s', (run _ <- AdvanceBytes (zlen pre); ReadString) (initial i) = POk str s' /\
    Index s' = zlen (pre ++ enc) /\ exists t, pre ++ enc ++ post = Bytes s' ++ t.
Proof. exact long_string_read. Qed.
Print Assumptions C02_long_string_roundtrip.

(** Skipping a short slice advances over exactly the same bytes. *)
Theorem C02_short_slice_skipped : forall i pre str post enc,
  bytes str -> within_bounds (pre ++ enc ++ post) ->
  AppendShortString [] str = Ok enc -> delivers i (pre ++ enc ++ post) ->
  exists s', (run _ <- AdvanceBytes (zlen pre); AdvanceShortSlice) (initial i) = POk tt s' /\
    Index s' = zlen (pre ++ enc).
Proof. exact short_slice_skip. Qed.
Print Assumptions C02_short_slice_skipped.

(** Encoding appends to the buffer, succeeds exactly up to the maximal length and panics beyond. *)
Theorem C02_encoding_total : forall buffer str,
  (zlen str <= 255 -> exists enc, AppendShortString [] str = Ok enc /\ AppendShortString buffer str = Ok (buffer ++ enc) /\ zlen enc = 1 + zlen str) /\
  (255 < zlen str -> AppendShortString buffer str = Panic) /\
  (zlen str <= 65535 -> exists enc, AppendString [] str = Ok enc /\ AppendString buffer str = Ok (buffer ++ enc) /\ zlen enc = 2 + zlen str) /\
  (65535 < zlen str -> AppendString buffer str = Panic).
Proof. exact string_encoding. Qed.
Print Assumptions C02_encoding_total.

Example C02_example :
  let pre := [9; 9] in let str := [104; 105] in
  AppendShortString [] str = Ok [2; 104; 105] /\
  delivers [([9], NoErr); ([], NoErr); ([9; 2; 104], NoErr); ([105; 7], EOF)] (pre ++ [2; 104; 105] ++ [7]) /\
  (exists s', (run _ <- AdvanceBytes 2; ReadShortStr)
    (initial [([9], NoErr); ([], NoErr); ([9; 2; 104], NoErr); ([105; 7], EOF)]) = POk str s').
Proof. vm_compute. repeat split; auto. eexists; reflexivity. Qed.

(** ** C18 *)

(** Full statement: for all [i1], [i2] delivering the same payload, [parse_payload i1 =
    parse_payload i2]; and the signature may arrive in pieces.
    False: a payload with trailing bytes is accepted or makes EnsureEOF panic depending on the
    chunks; a signature arriving as 3 + 3 bytes is refused. *)
Theorem C18_reader_independence_refuted :
  (exists p i1 i2 f, within_bounds p /\ delivers i1 p /\ delivers i2 p /\
     parse_payload i1 = Ok f /\ parse_payload i2 = Panic) /\
  (exists i f, Parse (signature, NoErr) None i = Ok f /\
     exists m, Parse (firstn 3 signature, NoErr) None i = Err m).
Proof.
  split.
  - exists (tiny_font ++ [7]), [(tiny_font ++ [7], EOF)], [(tiny_font, NoErr); ([7], NoErr)].
    eexists. split; [|split; [|split; [|split; vm_compute; reflexivity]]].
    + split; [apply bytes_check; vm_compute; reflexivity|vm_compute; discriminate].
    + split; vm_compute; auto.
    + split; vm_compute; auto.
  - exists [(tiny_font, EOF)]. eexists. split; [vm_compute; reflexivity|]. eexists. vm_compute. reflexivity.
Qed.
Print Assumptions C18_reader_independence_refuted.

(** Errors never depend on the reader, and neither does the font when the content reaches the
    end of the payload. Missing: payloads with trailing bytes, payloads over 32 MiB, readers
    that fail, and signatures read in pieces. *)
Theorem C18_same_error_partial : forall i1 i2 p e, within_bounds p -> delivers i1 p -> delivers i2 p ->
  parse_payload i1 = Err e -> parse_payload i2 = Err e.
Proof. exact same_errors. Qed.
Print Assumptions C18_same_error_partial.

Theorem C18_same_font_partial : forall i1 i2 p f, within_bounds p -> delivers i1 p -> delivers i2 p ->
  parse_payload i1 = Ok f -> zlen p <= content_end f p -> parse_payload i2 = Ok f /\ Data f = p.
Proof. exact same_font. Qed.
Print Assumptions C18_same_font_partial.

Example C18_example : exists f,
  let i1 := [(tiny_font, EOF)] in
  let i2 := map (fun b => ([b], NoErr)) tiny_font ++ [([], NoErr); ([], NoErr)] in
  delivers i1 tiny_font /\ delivers i2 tiny_font /\ within_bounds tiny_font /\
  parse_payload i1 = Ok f /\ zlen tiny_font <= content_end f tiny_font.
Proof.
  eexists. cbv zeta. split; [split; vm_compute; auto|]. split; [split; vm_compute; auto|].
  split; [split; [apply bytes_check; vm_compute; reflexivity|vm_compute; discriminate]|].
  split; [vm_compute; reflexivity|]. vm_compute. discriminate.
Qed.

(** ** C19 *)

(** For every reader whatsoever: the sections of an accepted font are in order inside its data. *)
Theorem C19_sections_in_order : forall first gzip_init i f, stream_bytes i ->
  Parse first gzip_init i = Ok f -> offsets_in_order f (zlen (Data f)) /\ bytes (Data f).
Proof. exact offsets_for_all. Qed.
Print Assumptions C19_sections_in_order.

(** The data is the whole payload if io.EOF is reported alone or the content reaches the end of
    the payload ([C18_same_font_partial]); it is a prefix of it in all cases. Missing: payloads
    over 32 MiB and failing readers. *)
Theorem C19_data_is_payload_partial : forall i p f, within_bounds p -> stream_bytes i -> delivers i p ->
  eof_alone i -> parse_payload i = Ok f -> Data f = p.
Proof. exact data_payload. Qed.
Print Assumptions C19_data_is_payload_partial.

Theorem C19_data_is_prefix_partial : forall i p f, within_bounds p -> delivers i p -> parse_payload i = Ok f ->
  exists t, p = Data f ++ t.
Proof. exact data_prefix. Qed.
Print Assumptions C19_data_is_prefix_partial.

(** The full statement is false of a reader that returns trailing bytes together with io.EOF:
    Data is assigned before the final read. *)
Theorem C19_data_is_payload_refuted : exists i p f, within_bounds p /\ delivers i p /\
  parse_payload i = Ok f /\ Data f <> p.
Proof.
  exists [(tiny_font, NoErr); ([7], EOF)], (tiny_font ++ [7]). eexists.
  split; [split; [apply bytes_check; vm_compute; reflexivity|vm_compute; discriminate]|].
  split; [split; vm_compute; auto|]. split; [vm_compute; reflexivity|]. vm_compute. discriminate.
Qed.
Print Assumptions C19_data_is_payload_refuted.

Example C19_example : exists f, let i := [(firstn 40 tiny_font, NoErr); (skipn 40 tiny_font, NoErr); ([], EOF)] in
  stream_bytes i /\ eof_alone i /\ delivers i tiny_font /\ parse_payload i = Ok f.
Proof.
  eexists. cbv zeta. split; [repeat (apply Forall_cons; [apply bytes_check; vm_compute; reflexivity|]); apply Forall_nil|].
  split; [repeat (apply Forall_cons; [cbn; intros; congruence|]); apply Forall_nil|]. split; [split; vm_compute; auto|vm_compute; reflexivity].
Qed.

(** ** C20 *)

(** Full statement: [Parse first gzip_init i <> Panic] for all arguments. False: bytes behind
    the content make EnsureEOF panic ("broken code") instead of reporting them. *)
Theorem C20_never_panics_refuted : exists i p, within_bounds p /\ delivers i p /\ parse_payload i = Panic.
Proof.
  exists [(tiny_font, NoErr); ([7], NoErr)], (tiny_font ++ [7]).
  split; [split; [apply bytes_check; vm_compute; reflexivity|vm_compute; discriminate]|].
  split; [split; vm_compute; auto|vm_compute; reflexivity].
Qed.
Print Assumptions C20_never_panics_refuted.

(** That is the only panic: it needs a payload of which a proper prefix is a complete font.
    Missing: payloads over 32 MiB and failing readers. *)
Theorem C20_panics_only_on_trailing_data_partial : forall i p, within_bounds p -> delivers i p ->
  parse_payload i = Panic ->
  exists k f, 0 <= k < zlen p /\ parse_payload [(firstn (Z.to_nat k) p, EOF)] = Ok f.
Proof. exact panic_trailing. Qed.
Print Assumptions C20_panics_only_on_trailing_data_partial.

(** For every reader, also failing ones: no panic before the end-of-file check, and
    termination. *)
Theorem C20_sections_never_panic : forall i, stream_bytes i ->
  parse_sections (initial i) <> PPanic /\ parse_sections (initial i) <> PHang.
Proof. exact sections_no_panic. Qed.
Print Assumptions C20_sections_never_panic.

Theorem C20_terminates : forall first gzip_init i, stream_bytes i -> Parse first gzip_init i <> Hang.
Proof. exact no_hang. Qed.
Print Assumptions C20_terminates.

Example C20_example : exists f m,
  parse_payload [(tiny_font, NoErr)] = Ok f /\
  parse_payload [(firstn 30 tiny_font, NoErr); ([], Fail m)] = Err m /\
  stream_bytes [(firstn 30 tiny_font, NoErr); ([], Fail m)].
Proof.
  eexists. exists "disk on fire"%string. split; [vm_compute; reflexivity|]. split; [vm_compute; reflexivity|].
  repeat (apply Forall_cons; [apply bytes_check; vm_compute; reflexivity|]); apply Forall_nil.
Qed.

(** ** C21 *)

(** Full statement: if [parse_payload i = Ok f] then the parse of every proper prefix and of
    every extension of the payload is an error. False: cuts inside the counters of the kerning
    sections are accepted, and so is padding. *)
Theorem C21_truncation_refuted : exists i p f k f',
  within_bounds p /\ delivers i p /\ parse_payload i = Ok f /\ zlen p = content_end f p /\
  0 <= k < zlen p /\ parse_payload [(firstn (Z.to_nat k) p, EOF)] = Ok f'.
Proof.
  exists [(tiny_font, EOF)], tiny_font. eexists. exists 70. eexists.
  split; [split; [apply bytes_check; vm_compute; reflexivity|vm_compute; discriminate]|].
  split; [split; vm_compute; auto|]. split; [vm_compute; reflexivity|]. split; [vm_compute; reflexivity|].
  split; [vm_compute; split; [discriminate|reflexivity]|]. vm_compute. reflexivity.
Qed.
Print Assumptions C21_truncation_refuted.

Theorem C21_padding_refuted : exists i p f q f',
  within_bounds p /\ delivers i p /\ parse_payload i = Ok f /\ q <> [] /\
  parse_payload [(p ++ q, EOF)] = Ok f'.
Proof.
  exists [(tiny_font, EOF)], tiny_font. eexists. exists [7]. eexists.
  split; [split; [apply bytes_check; vm_compute; reflexivity|vm_compute; discriminate]|].
  split; [split; vm_compute; auto|]. split; [vm_compute; reflexivity|]. split; [discriminate|].
  vm_compute. reflexivity.
Qed.
Print Assumptions C21_padding_refuted.

(** Exactly which cuts inside the content are rejected: all but those in the two counters. *)
Theorem C21_truncation_partial : forall i p f k i', within_bounds p -> delivers i p ->
  parse_payload i = Ok f -> 0 <= k < zlen p -> k < content_end f p ->
  delivers i' (firstn (Z.to_nat k) p) ->
  let h := OffsetToHorzKernings f in let v := OffsetToVertKernings f in
  (h <= k < h + 3 \/ v <= k < v + 3 -> exists f', parse_payload i' = Ok f') /\
  (~ (h <= k < h + 3 \/ v <= k < v + 3) -> exists e, parse_payload i' = Err e).
Proof. exact truncated. Qed.
Print Assumptions C21_truncation_partial.

Example C21_example : exists f m,
  parse_payload [(tiny_font, EOF)] = Ok f /\ 60 < content_end f tiny_font /\
  ~ (OffsetToHorzKernings f <= 60 < OffsetToHorzKernings f + 3 \/ OffsetToVertKernings f <= 60 < OffsetToVertKernings f + 3) /\
  parse_payload [(firstn 60 tiny_font, NoErr)] = Err m.
Proof.
  eexists. eexists. split; [vm_compute; reflexivity|]. split; [vm_compute; reflexivity|].
  split; [|vm_compute; reflexivity]. vm_compute. intuition discriminate.
Qed.
