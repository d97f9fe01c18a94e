(** What the parser theorems talk about: payloads and the ways a reader may deliver them. *)
From Verif Require Import Base Spec_Helpers Model_Font Model_Parse.

(** The bytes a reader delivers: all chunks up to the first io.EOF. *)
Fixpoint payload (i : stream) : list Z :=
  match i with
  | [] => []
  | (chunk, EOF) :: _ => chunk
  | (chunk, _) :: rest => chunk ++ payload rest
  end.

(** A well-behaved reader: it reports no error other than io.EOF and never returns three
    empty results without error in a row; [idle] is how many more it may return now. *)
Fixpoint well_behaved (idle : nat) (i : stream) : Prop :=
  match i with
  | [] => True
  | (_, EOF) :: _ => True
  | (_, Fail _) :: _ => False
  | ([], NoErr) :: rest => match idle with O => False | S n => well_behaved n rest end
  | (_ :: _, NoErr) :: rest => well_behaved 2 rest
  end.

(** [i] is a way of delivering the payload [p] *)
Definition delivers (i : stream) (p : list Z) : Prop := well_behaved 2 i /\ payload i = p.

Definition stream_bytes (i : stream) : Prop := Forall (fun r => bytes (fst r)) i.

(** a file whose signature arrives in one piece and whose gzip header is fine *)
Definition parse_payload (i : stream) := Parse (signature, NoErr) None i.

(** The section offsets of [f] are in order, each section large enough for its counters, and
    the last one starts inside [n] bytes. *)
Definition offsets_in_order (f : Font) (n : Z) : Prop :=
  33 <= OffsetToMetrics f /\ OffsetToMetrics f + 15 <= OffsetToDyes f /\
  OffsetToDyes f + 1 <= OffsetToPalettes f /\ OffsetToPalettes f + 1 <= OffsetToGlyphNames f /\
  OffsetToGlyphNames f + 2 <= OffsetToGlyphMasks f /\ OffsetToGlyphMasks f + 3 <= OffsetToWords f /\
  OffsetToWords f + 1 <= OffsetToSettingNames f /\
  OffsetToSettingNames f + 1 <= OffsetToSettingDefinitions f /\
  OffsetToSettingDefinitions f <= OffsetToMappingSwitches f /\
  OffsetToMappingSwitches f + 1 <= OffsetToMapping f /\
  OffsetToMapping f + 2 <= OffsetToRewriteConditions f /\
  OffsetToRewriteConditions f + 1 <= OffsetToRewriteUtf8Sets f /\
  OffsetToRewriteUtf8Sets f + 1 <= OffsetToRewriteGlyphSets f /\
  OffsetToRewriteGlyphSets f + 1 <= OffsetToUtf8Rewrites f /\
  OffsetToUtf8Rewrites f + 2 <= OffsetToGlyphRewrites f /\
  OffsetToGlyphRewrites f + 2 <= OffsetToHorzKernings f /\
  OffsetToHorzKernings f <= OffsetToVertKernings f /\ OffsetToVertKernings f <= n.

(** Where the content of the payload [p] parsed into [f] ends: after the vertical kernings. *)
Definition content_end (f : Font) (p : list Z) : Z :=
  OffsetToVertKernings f + 3 +
  5 * le_value (firstn 3 (skipn (Z.to_nat (OffsetToVertKernings f)) p)).

(** io.EOF is only reported by reads that return no bytes *)
Definition eof_alone (i : stream) : Prop := Forall (fun r => snd r = EOF -> fst r = []) i.

(** a payload of at most 32 MiB *)
Definition within_bounds (p : list Z) : Prop := bytes p /\ zlen p <= 33554432.
