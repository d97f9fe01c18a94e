(** What of the data of an accepted font was sent, for every reader. *)
From Verif Require Import Base BaseFacts Model_Helpers Spec_Helpers Proofs_Helpers Model_Font Model_Parse Spec_Parse
  Proofs_Parse Proofs_Parse2 Proofs_Parse3 Proofs_Parse4 Proofs_Parse5 Proofs_Parse6 Proofs_Parse7 Proofs_Parse8 Proofs_Parse9.
From Verif Require Import Spec_Reader Proofs_Reader Spec_Failing Proofs_Failing Properties_Parse.
From Coq Require Import Lia.

Lemma received_payload n : forall i got, exists t, got ++ payload i = fst (fst (received n got i)) ++ t.
Proof.
  induction i as [|[chunk err] i IH]; intros got; cbn [received]; (destruct (n <=? zlen got); [eexists; reflexivity|]).
  - exists []. reflexivity.
  - destruct err; cbn [payload].
    + destruct (IH (got ++ chunk)) as [t E]. exists t. rewrite <- E, app_assoc. reflexivity.
    + exists []. cbn [fst]. now rewrite app_nil_r.
    + destruct (IH (got ++ chunk)) as [t E]. exists t. rewrite <- E, app_assoc. reflexivity.
Qed.
Lemma firstn_prefix {A} n (a b : list A) : (n <= length a)%nat -> firstn n (a ++ b) = firstn n a.
Proof. intros H. rewrite firstn_app. replace (n - length a)%nat with 0%nat by lia. cbn [firstn]. apply app_nil_r. Qed.

Lemma data_before_kernings i f : stream_bytes i -> parse_payload i = Ok f ->
  let k := OffsetToHorzKernings f in k <= zlen (payload i) /\ firstn (Z.to_nat k) (Data f) = firstn (Z.to_nat k) (payload i).
Proof.
  intros HB. rewrite parse_payload_body. unfold parse_body, pbind at 1. destruct (parse_sections (initial i)) as [f0 s| | |] eqn:E; try discriminate.
  intros H. unfold pbind, on_bytes in H. destruct (EnsureEOF s) as [u s'| | |]; try discriminate. injection H as <-.
  assert (I0 : inv (initial i)) by (unfold inv, initial; cbn; change (zlen []) with 0; splits; try lia; [constructor|assumption]).
  pose proof (wp_prefix _ I0 eq_refl) as WP. unfold wp in WP. destruct (parse_prefix (initial i)) as [[mk n] s0| | |] eqn:EP; try contradiction;
    [|rewrite sections_split in E; unfold pbind in E; rewrite EP in E; discriminate].
  destruct WP as [(_ & _ & I1) _]. pose proof (prefix_yields _ _ _ EP) as Y. cbn [fst] in Y.
  destruct (section_offsets _ _ _ _ _ _ EP E) as (h & sh & v & Eh & Ev & ->).
  pose proof (wp_kernings n horz_msg s0 I1) as W1. unfold wp in W1. rewrite Eh in W1. destruct W1 as (X1 & -> & _).
  pose proof (wp_kernings n vert_msg sh (proj2 (proj2 X1))) as W2. unfold wp in W2. rewrite Ev in W2. destruct W2 as (X2 & _ & _).
  destruct (ext_trans _ _ _ X1 X2) as ((t & _ & EB & _) & _ & _).
  cbn [set_Data OffsetToHorzKernings Data]. cbv zeta. rewrite Y, EB.
  assert (S0 : strong i (initial i)) by (unfold strong; cbn [Index Bytes eof input initial]; apply received_stop; change (zlen []) with 0; lia).
  pose proof (keeps_prefix i _ _ _ S0 EP) as S1. unfold strong in S1.
  destruct (received_payload (Index s0) i []) as [t2 E2]. rewrite S1 in E2. cbn [fst app] in E2.
  destruct I1 as ((I2 & I3) & _). rewrite E2. split; [rewrite zlen_app; pose proof (zlen_nonneg t2); lia|].
  rewrite !firstn_prefix by (unfold zlen in I3; lia). reflexivity.
Qed.

(** ** bytes that were never sent *)
Definition before_kernings : list Z := firstn 69 tiny_font.
Lemma prefix_tiny : exists mk n, (forall h v, OffsetToHorzKernings (mk h v) = h) /\
  forall r, parse_prefix (initial ((before_kernings, NoErr) :: r)) = POk (mk, n) (mkP before_kernings 69 false r).
Proof. eexists. eexists. split; [|intros r; vm_compute; reflexivity]. intros h v. reflexivity. Qed.
Lemma never_sent x y z c : 33554432 < 72 + zlen c ->
  exists f, parse_payload [(before_kernings, NoErr); (x :: y :: z :: c, NoErr)] = Ok f /\ OffsetToHorzKernings f = 69 /\
    Data f = before_kernings ++ repeat 0 (length (x :: y :: z :: c)).
Proof.
  intros L. destruct prefix_tiny as (mk & n & Y & R). rewrite parse_payload_body. unfold parse_body, pbind at 1. rewrite sections_split. unfold pbind at 1.
  rewrite R. remember (x :: y :: z :: c) as c' eqn:EC. assert (L' : 33554432 < 69 + zlen c') by (rewrite EC, !zlen_cons; lia).
  assert (LB : zlen before_kernings = 69) by reflexivity.
  assert (E1 : parse_kernings n horz_msg (mkP before_kernings 69 false [(c', NoErr)]) = POk 69 (mkP (before_kernings ++ repeat 0 (length c')) 69 false [])).
  { unfold parse_kernings, pbind at 1, get_index at 1. unfold pbind at 1, ignore_err, ReadUint24, read_with, pbind at 1, get_index, pbind at 1, readUpTo.
    cbn [Index input length]. change (69 + 3 <=? 69) with false. cbv iota. cbn [readUpTo_loop Bytes eof]. rewrite LB. change (69 <? 69 + 3) with true. cbv iota.
    unfold pbind, readMore. cbn [readMore_loop input next_read Bytes Index eof]. rewrite LB. unfold MaxFontDataSize.
    destruct (Z.ltb_spec 0 (zlen c')); [|lia]. destruct (Z.ltb_spec 33554432 (69 + zlen c')); [|lia]. reflexivity. }
  unfold pbind at 1. rewrite E1.
  assert (E2 : parse_kernings n vert_msg (mkP (before_kernings ++ repeat 0 (length c')) 69 false []) = POk 69 (mkP (before_kernings ++ repeat 0 (length c')) 72 false [])).
  { rewrite EC. cbn [length repeat]. generalize (repeat 0 (length c)). intros l.
    assert (LL : zlen (before_kernings ++ 0 :: 0 :: 0 :: l) = 72 + zlen l) by (rewrite zlen_app, !zlen_cons, LB; lia). pose proof (zlen_nonneg l).
    assert (E3 : zfrom (before_kernings ++ 0 :: 0 :: 0 :: l) 69 = Ok (0 :: 0 :: 0 :: l)).
    { unfold zfrom, zslice. rewrite LL. destruct (Z.leb_spec 69 (72 + zlen l)); [|lia]. reflexivity || (cbn; reflexivity). }
    assert (ED : DecodeUint24LE (0 :: 0 :: 0 :: l) = Ok 0).
    { unfold DecodeUint24LE. rewrite !zlen_cons. destruct (Z.ltb_spec (1 + (1 + (1 + zlen l))) 3); [lia|]. reflexivity. }
    unfold parse_kernings, pbind at 1, get_index at 1. unfold pbind at 1, ignore_err, ReadUint24, read_with, pbind at 1, get_index, pbind at 1, readUpTo.
    cbn [Index input length]. change (69 + 3 <=? 69) with false. cbv iota. cbn [readUpTo_loop Bytes eof]. rewrite LL.
    destruct (Z.ltb_spec (72 + zlen l) (69 + 3)); [lia|]. unfold on_bytes. cbn [Bytes]. rewrite E3. cbn [bind]. rewrite ED. reflexivity. }
  unfold pbind at 1. rewrite E2. exists (set_Data (mk 69 69) (before_kernings ++ repeat 0 (length c'))). split; [reflexivity|]. split; [apply Y|]. reflexivity.
Qed.
