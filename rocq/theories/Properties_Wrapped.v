(** C22 and C68, continued: what the header accessors return for texts behind which positions no
    longer fit a byte. *)
From Coq Require Import Permutation.
From Verif Require Import Base BaseFacts Spec_Helpers Proofs_Helpers Spec_Format Spec_Layout Spec_LayoutFont Model_Helpers Model_Date Model_Words Model_Font
  Model_Builder Spec_Builder Spec_Props Spec_Kept Spec_Parsed Sample_Builder Proofs_Typed Proofs_Builder Proofs_Build Proofs_Build2 Proofs_Build3 Proofs_Build4 Proofs_Build5 Proofs_Build6 Proofs_Build7 Proofs_Build8 Proofs_Build9 Proofs_Order Proofs_Survive Proofs_Kept Properties_Kept Proofs_Wrapped.

(** The family starts again at the start of the file when the name has 226 bytes, and its length
    too is read from there when the name is longer; the same for the author. The text about the
    font cannot be read at all when the three texts before it have 223, 224 or 479 bytes; behind
    more it is what lies at the start of the file, or a panic (in Go: foreign memory) if that is
    longer than the file. *)
Theorem C22_wrapped : forall d h post, d = header_bytes h ++ post -> header_in_range h -> post <> [] -> bytes d ->
  let n := zlen (h_name h) in let s := n + zlen (h_family h) in let t := s + zlen (h_author h) in
  (n = 226 -> header_Family d = Ok (part d 0 (zlen (h_family h)))) /\
  (226 < n -> header_Family d = Ok (part d (n - 226) (n - 226 + num 1 d (n - 227)))) /\
  (n < 226 -> s = 225 -> header_Author d = Ok (part d 0 (zlen (h_author h)))) /\
  (n < 226 -> 225 < s -> header_Author d = Ok (part d (s - 225) (s - 225 + num 1 d (s - 226)))) /\
  (s < 225 -> t = 223 \/ t = 224 -> header_About d = Panic) /\
  (s < 225 -> t = 479 -> header_About d = Panic) /\
  (s < 225 -> 224 < t < 479 -> t - 223 + num 2 d (t - 225) <= zlen d ->
    header_About d = Ok (part d (t - 223) (t - 223 + num 2 d (t - 225)))) /\
  (s < 225 -> 224 < t < 479 -> zlen d < t - 223 + num 2 d (t - 225) -> header_About d = Panic).
Proof. exact wrapped. Qed.
Print Assumptions C22_wrapped.

(** In particular [About] panics although every text is within its limit *)
Theorem C22_about_refuted : exists h post,
  header_in_range h /\ bytes (header_bytes h ++ post) /\ header_About (header_bytes h ++ post) = Panic.
Proof.
  exists (mkHeader 2 17 1 0 (2024, 1, 1) (2024, 1, 1) (0, 0, 0) (repeat 97 100) (repeat 98 100) (repeat 99 23) [100]), [1].
  split; [vm_compute; repeat split; discriminate || reflexivity|].
  split; [apply bytesb_true; vm_compute; reflexivity|]. vm_compute. reflexivity.
Qed.
Print Assumptions C22_about_refuted.

Lemma built_header id date ops b f : built_from id date ops b f -> exists h post, Data f = header_bytes h ++ post /\ header_in_range h /\ post <> [] /\
  h_name h = text_of TName b /\ h_family h = text_of TFamily b /\ h_author h = text_of TAuthor b.
Proof.
  from_builder. destruct (built_history id date ops o sort b' f HD HT HO HS HB) as (l & E & DS & BT & FN & _).
  pose proof (kept_header_range id date ops o sort b' f HD HT HO HS HB l HI FN DS BT) as R.
  destruct (kept_builder id date ops o sort b' f HD HT HO HS HB) as (_ & _ & EH & _).
  exists (l_header l). assert (HP : exists post, Data f = header_bytes (l_header l) ++ post /\ post <> []).
  { rewrite E. cbn [font_of Data]. unfold font_bytes, sections. cbn [concat]. eexists. split; [reflexivity|]. unfold metrics_bytes. intros X. discriminate. }
  destruct HP as (post & P1 & P2). exists post. split; [exact P1|]. split; [exact R|]. split; [exact P2|].
  rewrite (ds_header _ _ DS). cbn [h_name h_family h_author]. rewrite EH. repeat split; reflexivity.
Qed.

Theorem C68_wrapped : forall id date ops b f, built_from id date ops b f -> let d := Data f in bytes d ->
  let n := zlen (text_of TName b) in let s := n + zlen (text_of TFamily b) in let t := s + zlen (text_of TAuthor b) in
  (n = 226 -> header_Family d = Ok (part d 0 (zlen (text_of TFamily b)))) /\
  (226 < n -> header_Family d = Ok (part d (n - 226) (n - 226 + num 1 d (n - 227)))) /\
  (n < 226 -> s = 225 -> header_Author d = Ok (part d 0 (zlen (text_of TAuthor b)))) /\
  (n < 226 -> 225 < s -> header_Author d = Ok (part d (s - 225) (s - 225 + num 1 d (s - 226)))) /\
  (s < 225 -> t = 223 \/ t = 224 \/ t = 479 -> header_About d = Panic) /\
  (s < 225 -> 224 < t < 479 -> header_About d =
    if t - 223 + num 2 d (t - 225) <=? zlen d then Ok (part d (t - 223) (t - 223 + num 2 d (t - 225))) else Panic).
Proof.
  intros id date ops b f H d HB. destruct (built_header _ _ _ _ _ H) as (h & post & P & R & NE & <- & <- & <-).
  destruct (wrapped d h post P R NE HB) as (W1 & W2 & W3 & W4 & W5 & W6 & W7 & W8). cbv zeta in *. repeat match goal with |- _ /\ _ => split end; auto.
  - intros L [T|[T|T]]; auto.
  - intros L T. destruct (Z.leb_spec (zlen (h_name h) + zlen (h_family h) + zlen (h_author h) - 223 +
      num 2 d (zlen (h_name h) + zlen (h_family h) + zlen (h_author h) - 225)) (zlen d)); auto.
Qed.
Print Assumptions C68_wrapped.

(** a font whose name, family and default author have 223 bytes together, and one with a name of
    231 bytes, whose family is taken from its identifier, versions, dates and name *)
Definition long_ops (n m : Z) : list bop := sample_glyphs ++ [OSetName (repeat 97 (Z.to_nat n)); OSetFamily (repeat 98 (Z.to_nat m)); OSetAbout (str_bytes "x")].
Example C68_wrapped_example : exists f g,
  built_from 7777 sample_date (long_ops 110 103) (history 7777 sample_date (long_ops 110 103)) f /\ header_About (Data f) = Panic /\
  built_from 7777 sample_date (long_ops 231 3) (history 7777 sample_date (long_ops 231 3)) g /\ bytes (Data g) /\ num 1 (Data g) 4 = 97 /\
  zlen (text_of TName (history 7777 sample_date (long_ops 231 3))) = 231 /\
  header_Family (Data g) = Ok (part (Data g) 5 102).
Proof.
  let B := eval vm_compute in (font_from (long_ops 110 103)) in match B with Ok ?f => exists f end.
  let B := eval vm_compute in (font_from (long_ops 231 3)) in match B with Ok ?f => exists f end.
  split; [built|]. split; [vm_compute; reflexivity|]. split; [built|]. split; [apply bytesb_true; vm_compute; reflexivity|]. split; [vm_compute; reflexivity|]. split; vm_compute; reflexivity.
Qed.
