(** C82: errors of the reader while a font is parsed, for readers that go on failing. gzip.Reader,
    from which Parse reads, keeps its first error and returns it for every later call. *)
From Verif Require Import Base BaseFacts Spec_Helpers Model_Helpers Model_Font Model_Parse Spec_Parse Proofs_Parse Spec_Failing Proofs_Failing Spec_Sticky Proofs_Sticky Properties_Parse
  Spec_Format Spec_Layout Spec_LayoutFont Sample.

(** Full statement: a reader that fails before it has said that the font is complete makes Parse
    return its error, unless what had arrived was refused already. False: errors met while the last
    end offset of the rewrite rules is read are taken for a wrong offset. *)
Theorem C82_misreported_refuted : exists g q p m f e, undisturbed g /\ within_bounds p /\ delivers (g ++ [(q, EOF)]) p /\
  parse_payload [(p, EOF)] = Ok f /\ e <> m /\ forall k, parse_payload (g ++ ([], Fail m) :: fails m k) = Err e.
Proof.
  exists [(firstn (Z.to_nat 284) (font_bytes sample), NoErr)], (skipn (Z.to_nat 284) (font_bytes sample)), (font_bytes sample), "disk on fire"%string. eexists. eexists.
  split; [repeat constructor|]. split; [split; [apply bytes_check; vm_compute; reflexivity|vm_compute; discriminate]|].
  split; [split; vm_compute; auto|]. split; [vm_compute; reflexivity|]. split; [|intros k; vm_compute; reflexivity]. discriminate.
Qed.
Print Assumptions C82_misreported_refuted.
(** Bytes that come with an error at the first kerning counter are taken for the second counter, so
    a third message is possible when they are no counter. *)
Example C82_counter_example : let m := "disk on fire"%string in
  is_ok (parse_payload ([(firstn 69 tiny_font, NoErr)] ++ [(skipn 69 tiny_font, NoErr)])) = true /\ parse_payload ([(firstn 69 tiny_font, NoErr)] ++ ([255; 255; 255], Fail m) :: fails m 2) = Err "NumVertKerningPairs can't exceed NumGlyphs^2".
Proof. cbv zeta. split; vm_compute; reflexivity. Qed.

(** A failure while something could still have come that makes a font of what had arrived is
    reported, by its own error or by one of three messages. Missing: that it is its own. *)
Theorem C82_partial : forall g c m k, stream_bytes g -> bytes c -> undisturbed g -> zlen (sent g ++ c) <= 33554432 ->
  (exists r f, parse_payload (g ++ r) = Ok f) ->
  exists e, parse_payload (g ++ (c, Fail m) :: fails m (S (S k))) = Err e /\ (e = m \/ In e blamed).
Proof.
  intros g c m k H1 H2 H3 H4 (r & f & E). destruct (sticky g c m k H1 H2 H3 H4) as [H|(res & N & H)]; [exact H|]. rewrite H in E. now apply N in E.
Qed.
Print Assumptions C82_partial.
(** All other failures don't change the result. *)
Theorem C82_decided_partial : forall g c m k, stream_bytes g -> bytes c -> undisturbed g -> zlen (sent g ++ c) <= 33554432 ->
  (exists e, parse_payload (g ++ (c, Fail m) :: fails m (S (S k))) = Err e /\ (e = m \/ In e blamed)) \/
  (exists res, (forall f, res <> Ok f) /\ forall r, parse_payload (g ++ r) = res).
Proof. exact sticky. Qed.
Print Assumptions C82_decided_partial.
(** So no font is returned. *)
Theorem C82_refused : forall g c m k f, stream_bytes g -> bytes c -> undisturbed g -> zlen (sent g ++ c) <= 33554432 ->
  parse_payload (g ++ (c, Fail m) :: fails m (S (S k))) <> Ok f.
Proof.
  intros g c m k f H1 H2 H3 H4. destruct (sticky g c m k H1 H2 H3 H4) as [(e & E & _)|(res & N & E)]; rewrite E; [discriminate|apply N].
Qed.
Print Assumptions C82_refused.

(** Failures of a reader of a font whose kernings start at 69, after any number of its bytes: the
    error is always reported. *)
Example C82_example : let m := "disk on fire"%string in zlen tiny_font = 75 /\ is_ok (parse_payload ([(tiny_font, NoErr)] ++ [])) = true /\
  Forall (fun n => parse_payload ([(firstn n tiny_font, NoErr)] ++ ([], Fail m) :: fails m 2) = Err m) (seq 0 76).
Proof.
  cbv zeta. split; [vm_compute; reflexivity|]. split; [vm_compute; reflexivity|].
  cbn [seq]. repeat (apply Forall_cons; [vm_compute; reflexivity|]). apply Forall_nil.
Qed.
