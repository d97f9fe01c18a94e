(** C19, continued: data that was never sent, from a reader that returns at most 1024 bytes at a
    time, as the buffer of the code demands. *)
From Verif Require Import Base BaseFacts Spec_Helpers Model_Helpers Model_Font Model_Parse Spec_Parse Proofs_Parse Spec_Failing Properties_Parse Proofs_Oversize2.
From Coq Require Import Lia.

(** 32 MiB of data are sent, and then six bytes that start with a kerning counter other than zero:
    the font is accepted, but the six bytes in its data are zeros. *)
Theorem C19_oversize_chunks_refuted : exists i p f, Forall (fun r => bytes (fst r) /\ snd r = NoErr /\ 0 < zlen (fst r) <= 1024) i /\
  payload i = p /\ zlen p = 33554438 /\ parse_payload i = Ok f /\ zlen (Data f) = zlen p /\ Data f <> p.
Proof.
  destruct (some_ones 49149 ltac:(lia)) as (g1 & A1 & B1 & C1). destruct (some_ones 16777215 ltac:(lia)) as (g2 & A2 & B2 & C2).
  destruct (some_ones 98301 ltac:(lia)) as (g3 & A3 & B3 & C3). destruct (some_ones len2 ltac:(unfold len2; lia)) as (g4 & A4 & B4 & C4).
  assert (H : long_chunks g1 g2 g3 g4) by (split; [|split; [|split]]; split; assumption).
  destruct (long_accepted g1 g2 g3 g4 7 0 0 H) as (f & E & D).
  exists (long_reader g1 g2 g3 g4 [7; 0; 0; 0; 0; 0]), (long_data g1 g2 g3 g4 ++ [7; 0; 0; 0; 0; 0]), f.
  assert (X : forall g, full_chunks g -> Forall (fun r => bytes (fst r) /\ zlen (fst r) <= 1024) g ->
    Forall (fun r : list Z * read_err => bytes (fst r) /\ snd r = NoErr /\ 0 < zlen (fst r) <= 1024) g).
  { intros g U V. apply Forall_forall. intros r I. unfold full_chunks in U. rewrite Forall_forall in U, V. destruct (U r I) as [U1 U2]. destruct (V r I) as [V1 V2].
    split; [exact V1|]. split; [exact U1|]. split; [|exact V2]. destruct (fst r) as [|a l]; [congruence|]. rewrite zlen_cons. pose proof (zlen_nonneg l). lia. }
  split.
  { unfold long_reader.
    repeat first [apply Forall_app; split; [apply X; assumption|] | apply Forall_cons; [split; [apply bytes_check; vm_compute; reflexivity|split; [reflexivity|vm_compute; split; [reflexivity|discriminate]]]|] | apply Forall_nil]. }
  split; [apply long_payload, H|]. split; [rewrite zlen_app, (long_length _ _ _ _ H); reflexivity|]. split; [exact E|].
  rewrite D. split; [rewrite !zlen_app; reflexivity|]. intros K. apply app_inv_head in K. discriminate K.
Qed.
Print Assumptions C19_oversize_chunks_refuted.
