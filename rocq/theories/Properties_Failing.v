(** C82: errors of the reader while a font is parsed. *)
From Verif Require Import Base BaseFacts Spec_Helpers Model_Helpers Model_Font Model_Parse Spec_Parse Proofs_Parse Spec_Failing Proofs_Failing Properties_Parse
  Spec_Format Spec_Layout Spec_LayoutFont Sample.

(** Theorems about all readers; those that go on failing are in Properties_Sticky.v. *)

(** A failure before the kernings is reported, by its own error or, when the last end offset of
    the rewrite rules was to be read, by one that blames that offset. Missing: the two messages,
    and failures later on. *)
Theorem C82_reported_partial : forall g q p c m rest f, undisturbed g -> within_bounds p -> delivers (g ++ [(q, EOF)]) p ->
  parse_payload [(p, EOF)] = Ok f -> zlen (sent g) < OffsetToHorzKernings f -> zlen (sent g ++ c) <= 33554432 ->
  exists e, parse_payload (g ++ (c, Fail m) :: rest) = Err e /\ (e = m \/ In e misreported).
Proof. exact failure_reported. Qed.
Print Assumptions C82_reported_partial.

(** For every reader, whatever it had sent: the failure is reported, or the error is the same
    whatever would have come instead, or all that comes before the kernings had arrived. *)
Theorem C82_prefix_partial : forall g c m rest, stream_bytes g -> undisturbed g -> zlen (sent g ++ c) <= 33554432 ->
  (exists e, parse_payload (g ++ (c, Fail m) :: rest) = Err e /\ (e = m \/ In e misreported)) \/
  (exists e, forall r, parse_payload (g ++ r) = Err e) \/
  (exists k, k <= zlen (sent g) /\ forall r f, parse_payload (g ++ r) = Ok f -> OffsetToHorzKernings f = k).
Proof. exact failing_reader. Qed.
Print Assumptions C82_prefix_partial.

(** So a font that is returned although the reader failed had arrived up to the kernings. (This
    takes a reader that fails and then says that the data is complete.) *)
Theorem C82_accepted : forall g c m rest f, stream_bytes g -> undisturbed g -> zlen (sent g ++ c) <= 33554432 ->
  parse_payload (g ++ (c, Fail m) :: rest) = Ok f -> OffsetToHorzKernings f <= zlen (sent g).
Proof.
  intros g c m rest f H1 H2 H3 H4. destruct (failing_reader g c m rest H1 H2 H3) as [(e & E & _)|[(e & E)|(k & K & H)]].
  - rewrite H4 in E. discriminate.
  - rewrite E in H4. discriminate.
  - now rewrite (H _ _ H4).
Qed.
Print Assumptions C82_accepted.

(** Failures after 50 bytes and after 70 bytes of a font whose kernings start at 69. *)
Example C82_failing_example : exists f f', let g n := [(firstn n tiny_font, NoErr); ([], NoErr)] in let m := "disk on fire"%string in
  undisturbed (g 50%nat) /\ delivers (g 50%nat ++ [(skipn 50 tiny_font, EOF)]) tiny_font /\
  parse_payload [(tiny_font, EOF)] = Ok f /\ OffsetToHorzKernings f = 69 /\
  parse_payload (g 50%nat ++ [([1], Fail m)]) = Err m /\ parse_payload (g 70%nat ++ [([], Fail m)]) = Ok f' /\ zlen (sent (g 70%nat)) = 70.
Proof.
  eexists. eexists. cbv zeta. split; [repeat constructor|]. split; [split; vm_compute; auto|]. split; [vm_compute; reflexivity|].
  split; [vm_compute; reflexivity|]. split; [vm_compute; reflexivity|]. split; vm_compute; reflexivity.
Qed.
