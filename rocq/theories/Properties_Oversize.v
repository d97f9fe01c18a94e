(** C19, continued: readers that fail, and payloads of more than 32 MiB. *)
From Verif Require Import Base BaseFacts Spec_Helpers Model_Helpers Model_Font Model_Parse Spec_Parse Proofs_Parse Spec_Failing Properties_Parse Proofs_Oversize.

(** Full statement: the data of an accepted font is what was sent. For payloads of more than
    32 MiB not even a prefix of it is: the read that exceeds the limit has already made the buffer
    longer, by zeros that were never sent, and its error is dropped at the kerning counters. *)
Theorem C19_oversize_refuted : exists i p f, stream_bytes i /\ delivers i p /\ parse_payload i = Ok f /\
  33554432 < zlen (Data f) /\ ~ exists t, p = Data f ++ t.
Proof.
  pose (c := repeat 7 (Z.to_nat 33554432)). assert (LC : zlen c = 33554432) by (unfold c, zlen; rewrite repeat_length; lia).
  assert (BC : bytes c) by (apply Forall_forall; intros x I1; apply repeat_spec in I1; subst x; unfold byte; lia).
  clearbody c. destruct (never_sent 7 7 7 c ltac:(lia)) as (f & E & _ & D).
  exists [(before_kernings, NoErr); (7 :: 7 :: 7 :: c, NoErr)], (before_kernings ++ 7 :: 7 :: 7 :: c), f.
  split; [apply Forall_cons; [apply bytes_check; vm_compute; reflexivity|]; apply Forall_cons; [|apply Forall_nil]; cbn [fst];
    do 3 (apply Forall_cons; [unfold byte; lia|]); exact BC|].
  split; [split; [vm_compute; auto|cbn [payload]; now rewrite app_nil_r]|]. split; [exact E|].
  rewrite D. split; [rewrite zlen_app; unfold zlen at 2; rewrite repeat_length; pose proof (zlen_nonneg before_kernings); fold (zlen (7 :: 7 :: 7 :: c)); rewrite !zlen_cons; lia|].
  intros (t & T). rewrite <- app_assoc in T. apply app_inv_head in T. discriminate T.
Qed.
Print Assumptions C19_oversize_refuted.

(** For every reader that sends bytes, failing or not and whatever it sends: everything before
    the kernings is what was sent. *)
Theorem C19_before_kernings : forall i f, stream_bytes i -> parse_payload i = Ok f ->
  OffsetToHorzKernings f <= zlen (payload i) /\
  firstn (Z.to_nat (OffsetToHorzKernings f)) (Data f) = firstn (Z.to_nat (OffsetToHorzKernings f)) (payload i).
Proof. exact data_before_kernings. Qed.
Print Assumptions C19_before_kernings.

(** A reader that fails at the kerning counters. *)
Example C19_before_kernings_example : exists f, let i := [(firstn 30 tiny_font, NoErr); (firstn 41 (skipn 30 tiny_font), Fail "disk on fire"%string)] in
  stream_bytes i /\ parse_payload i = Err "disk on fire"%string /\
  let i := [(firstn 30 tiny_font, NoErr); (firstn 40 (skipn 30 tiny_font), NoErr); ([9], Fail "disk on fire"%string)] in
  stream_bytes i /\ parse_payload i = Ok f /\ OffsetToHorzKernings f = 69 /\ payload i = firstn 70 tiny_font ++ [9] /\ Data f = payload i.
Proof.
  eexists. cbv zeta. split; [repeat (apply Forall_cons; [apply bytes_check; vm_compute; reflexivity|]); apply Forall_nil|].
  split; [vm_compute; reflexivity|]. split; [repeat (apply Forall_cons; [apply bytes_check; vm_compute; reflexivity|]); apply Forall_nil|].
  split; [vm_compute; reflexivity|]. split; [vm_compute; reflexivity|]. split; vm_compute; reflexivity.
Qed.
