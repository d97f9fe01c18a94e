(** C83: errors of the reader while edition data is read. *)
From Verif Require Import Base BaseFacts Spec_Helpers Model_Helpers Model_Words Model_Font Model_Parse Spec_Parse Model_Builder Sample_Builder Model_Edition Spec_Edition Spec_EditionBuilder
  Proofs_Edition3 Spec_Failing Proofs_Failing Proofs_EdFailing Properties_Edition.

(** A reader that fails while something could still have been read that would have been accepted
    makes ParseEditionData return its error, and leaves the builder without edition data, whatever
    edition data the builder had before. *)
Theorem C83_reported : forall w g c m rest, undisturbed g -> zlen (sent g ++ c) <= 33554432 ->
  (exists r w', ParseEditionData w (str_bytes "wkgfnt", NoErr) None (g ++ r) = (w', Ok tt)) ->
  exists w', ParseEditionData w (str_bytes "wkgfnt", NoErr) None (g ++ (c, Fail m) :: rest) = (w', Err m) /\ edition_cleared w w'.
Proof.
  intros w g c m rest U L (r & w' & E). destruct (edition_failing w g c m rest U L) as [(w2 & E2)|(w2 & res & N & E2)].
  - exists w2. split; [exact E2|]. apply (failure_cleared _ _ _ _ _ _ E2). discriminate.
  - exfalso. change (str_bytes "wkgfnt") with edition_signature in E. rewrite E2 in E. injection E as _ ->. now apply N.
Qed.
Print Assumptions C83_reported.

(** For all other readers that fail, the failure doesn't change the result. *)
Theorem C83_decided : forall w g c m rest, undisturbed g -> zlen (sent g ++ c) <= 33554432 ->
  (exists w', ParseEditionData w (str_bytes "wkgfnt", NoErr) None (g ++ (c, Fail m) :: rest) = (w', Err m)) \/
  (exists w' res, res <> Ok tt /\ forall r, ParseEditionData w (str_bytes "wkgfnt", NoErr) None (g ++ r) = (w', res)).
Proof. exact edition_failing. Qed.
Print Assumptions C83_decided.

(** So nothing is accepted from a reader that fails before it has said that the data is complete. *)
Theorem C83_refused : forall w g c m rest, undisturbed g -> zlen (sent g ++ c) <= 33554432 ->
  snd (ParseEditionData w (str_bytes "wkgfnt", NoErr) None (g ++ (c, Fail m) :: rest)) <> Ok tt.
Proof.
  intros w g c m rest U L. destruct (edition_failing w g c m rest U L) as [(w2 & E)|(w2 & res & N & E)];
    change edition_signature with (str_bytes "wkgfnt") in E; rewrite E; [discriminate|exact N].
Qed.
Print Assumptions C83_refused.

(** The sample in two pieces, with a failure after the first piece and one after the second. *)
Example C83_example : let P := edition_bytes 4 sample_edition in let g := [(firstn 20 P, NoErr)] in let g' := [(firstn 20 P, NoErr); (skipn 20 P, NoErr)] in
  let m := "disk on fire"%string in
  undisturbed g' /\ zlen P = 73 /\ snd (ParseEditionData sample_wk (str_bytes "wkgfnt", NoErr) None (g' ++ [])) = Ok tt /\
  snd (ParseEditionData sample_wk (str_bytes "wkgfnt", NoErr) None (g ++ [([7], Fail m)])) = Err m /\
  snd (ParseEditionData sample_wk (str_bytes "wkgfnt", NoErr) None (g' ++ [([], Fail m)])) = Err m.
Proof.
  cbv zeta. split; [repeat (apply Forall_cons; [reflexivity|]); apply Forall_nil|]. split; [vm_compute; reflexivity|]. split; [vm_compute; reflexivity|]. split; vm_compute; reflexivity.
Qed.
