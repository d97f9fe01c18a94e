(** Proofs about helpers.go. *)
From Coq Require Import Sorted.
From Verif Require Import Base BaseFacts Model_Helpers Spec_Helpers.

(** ** little endian *)
Lemma lor_add_mul a b n : 0 <= n -> 0 <= a < 2 ^ n -> Z.lor a (b * 2 ^ n) = a + b * 2 ^ n.
Proof. intros Hn Ha. rewrite <- shiftl_mul by assumption. rewrite lor_add_shift by assumption. rewrite shiftl_mul; auto. Qed.

Lemma u16_shl b n : byte b -> 0 <= n <= 8 -> u16 (Z.shiftl b n) = b * 2 ^ n.
Proof.
  intros Hb Hn. rewrite shiftl_mul by lia. unfold u16, byte in *. apply Z.mod_small.
  assert (2 ^ n <= 2 ^ 8) by (apply Z.pow_le_mono_r; lia).
  assert (0 < 2 ^ n) by (apply Z.pow_pos_nonneg; lia).
  change (2 ^ 8) with 256 in *. nia.
Qed.
Lemma u32_shl b n : byte b -> 0 <= n <= 24 -> u32 (Z.shiftl b n) = b * 2 ^ n.
Proof.
  intros Hb Hn. rewrite shiftl_mul by lia. unfold u32, byte in *. apply Z.mod_small.
  assert (2 ^ n <= 2 ^ 24) by (apply Z.pow_le_mono_r; lia).
  assert (0 < 2 ^ n) by (apply Z.pow_pos_nonneg; lia).
  change (2 ^ 24) with 16777216 in *. nia.
Qed.
Lemma u64_shl b n : byte b -> 0 <= n <= 56 -> u64 (Z.shiftl b n) = b * 2 ^ n.
Proof.
  intros Hb Hn. rewrite shiftl_mul by lia. unfold u64, byte in *. apply Z.mod_small.
  assert (2 ^ n <= 2 ^ 56) by (apply Z.pow_le_mono_r; lia).
  assert (0 < 2 ^ n) by (apply Z.pow_pos_nonneg; lia).
  change (2 ^ 56) with 72057594037927936 in *. nia.
Qed.

Ltac pow2 :=
  change (2 ^ 0) with 1 in *; change (2 ^ 8) with 256 in *; change (2 ^ 16) with 65536 in *;
  change (2 ^ 24) with 16777216 in *; change (2 ^ 32) with 4294967296 in *;
  change (2 ^ 40) with 1099511627776 in *; change (2 ^ 48) with 281474976710656 in *;
  change (2 ^ 56) with 72057594037927936 in *.

Ltac lor_to_add n :=
  rewrite (lor_add_mul _ _ n) by (unfold byte in *; pow2; lia).

Lemma decode16_spec buf : bytes buf ->
  DecodeUint16LE buf = if zlen buf <? 2 then Panic else Ok (le_value (firstn 2 buf)).
Proof.
  intros Hb. unfold DecodeUint16LE. destruct (Z.ltb_spec (zlen buf) 2) as [|H]; [reflexivity|].
  destruct buf as [|b0 [|b1 r]]; [unfold zlen in H; simpl in H; lia..|].
  rewrite !bytes_cons in Hb. destruct Hb as (H0 & H1 & _).
  zget_lit. cbn [firstn le_value]. f_equal. rewrite u16_shl by (auto; lia). lor_to_add 8. pow2. lia.
Qed.

Lemma decode24_spec buf : bytes buf ->
  DecodeUint24LE buf = if zlen buf <? 3 then Panic else Ok (le_value (firstn 3 buf)).
Proof.
  intros Hb. unfold DecodeUint24LE. destruct (Z.ltb_spec (zlen buf) 3) as [|H]; [reflexivity|].
  destruct buf as [|b0 [|b1 [|b2 r]]]; [unfold zlen in H; simpl in H; lia..|].
  rewrite !bytes_cons in Hb. destruct Hb as (H0 & H1 & H2 & _).
  zget_lit. cbn [firstn le_value]. f_equal. rewrite !u32_shl by (auto; lia). lor_to_add 8. lor_to_add 16. pow2. lia.
Qed.

Lemma decode32_spec buf : bytes buf ->
  DecodeUint32LE buf = if zlen buf <? 4 then Panic else Ok (le_value (firstn 4 buf)).
Proof.
  intros Hb. unfold DecodeUint32LE. destruct (Z.ltb_spec (zlen buf) 4) as [|H]; [reflexivity|].
  destruct buf as [|b0 [|b1 [|b2 [|b3 r]]]]; [unfold zlen in H; simpl in H; lia..|].
  rewrite !bytes_cons in Hb. destruct Hb as (H0 & H1 & H2 & H3 & _).
  zget_lit. cbn [firstn le_value]. f_equal. rewrite !u32_shl by (auto; lia). lor_to_add 8. lor_to_add 16. lor_to_add 24. pow2. lia.
Qed.

Lemma decode64_spec buf : bytes buf ->
  DecodeUint64LE buf = if zlen buf <? 8 then Panic else Ok (le_value (firstn 8 buf)).
Proof.
  intros Hb. unfold DecodeUint64LE. destruct (Z.ltb_spec (zlen buf) 8) as [|H]; [reflexivity|].
  destruct buf as [|b0 [|b1 [|b2 [|b3 [|b4 [|b5 [|b6 [|b7 r]]]]]]]]; [unfold zlen in H; simpl in H; lia..|].
  rewrite !bytes_cons in Hb. destruct Hb as (H0 & H1 & H2 & H3 & H4 & H5 & H6 & H7 & _).
  zget_lit. cbn [firstn le_value]. f_equal. rewrite !u64_shl by (auto; lia).
  lor_to_add 8. lor_to_add 16. lor_to_add 24. lor_to_add 32. lor_to_add 40. lor_to_add 48. lor_to_add 56.
  pow2. lia.
Qed.

Lemma shr_digit v n m : 0 <= n -> 2 ^ n = m -> u8 (Z.shiftr v n) = (v / m) mod 256.
Proof. intros Hn <-. unfold u8. rewrite shiftr_div by assumption. reflexivity. Qed.

Lemma append16_spec buf v : AppendUint16LE buf v = buf ++ le_digits 2 v.
Proof. unfold AppendUint16LE. rewrite (shr_digit v 8 256) by (lia || reflexivity). reflexivity. Qed.
Lemma append24_spec buf v : AppendUint24LE buf v = buf ++ le_digits 3 v.
Proof.
  unfold AppendUint24LE. rewrite (shr_digit v 8 256), (shr_digit v 16 (256*256)) by (lia || reflexivity).
  cbn [le_digits]. rewrite !Z.div_div by lia. reflexivity.
Qed.
Lemma append32_spec buf v : AppendUint32LE buf v = buf ++ le_digits 4 v.
Proof.
  unfold AppendUint32LE.
  rewrite (shr_digit v 8 256), (shr_digit v 16 (256*256)), (shr_digit v 24 (256*(256*256))) by (lia || reflexivity).
  cbn [le_digits]. rewrite !Z.div_div by lia. reflexivity.
Qed.
Lemma append64_spec buf v : AppendUint64LE buf v = buf ++ le_digits 8 v.
Proof.
  unfold AppendUint64LE.
  rewrite (shr_digit v 8 256), (shr_digit v 16 (256*256)), (shr_digit v 24 (256*(256*256))),
    (shr_digit v 32 (256*(256*(256*256)))), (shr_digit v 40 (256*(256*(256*(256*256))))),
    (shr_digit v 48 (256*(256*(256*(256*(256*256)))))), (shr_digit v 56 (256*(256*(256*(256*(256*(256*256)))))))
    by (lia || reflexivity).
  cbn [le_digits]. rewrite !Z.div_div by lia. reflexivity.
Qed.

Lemma le_digits_length n v : length (le_digits n v) = n.
Proof. revert v; induction n; intros; cbn; auto. Qed.
Lemma le_digits_bytes n v : bytes (le_digits n v).
Proof. revert v; induction n; intros; cbn; constructor; [unfold byte; lia|apply IHn]. Qed.
Lemma le_value_digits n v : le_value (le_digits n v) = v mod 256 ^ Z.of_nat n.
Proof.
  revert v; induction n as [|n IH]; intros v; cbn [le_digits le_value].
  - change (256 ^ Z.of_nat 0) with 1. rewrite Z.mod_1_r. reflexivity.
  - rewrite IH, Nat2Z.inj_succ, Z.pow_succ_r by lia.
    rewrite (Z.rem_mul_r v 256 (256 ^ Z.of_nat n)); [reflexivity|lia|].
    apply Z.pow_pos_nonneg; lia.
Qed.
Lemma le_digits_value l : bytes l -> le_digits (length l) (le_value l) = l.
Proof.
  induction l as [|b l IH]; intros H; [reflexivity|].
  apply bytes_cons in H. destruct H as [Hb Hl]. cbn [length le_digits le_value].
  unfold byte in Hb.
  replace ((b + 256 * le_value l) mod 256) with b by lia.
  replace ((b + 256 * le_value l) / 256) with (le_value l) by lia.
  rewrite IH by assumption. reflexivity.
Qed.
Lemma le_value_range l : bytes l -> 0 <= le_value l < 256 ^ zlen l.
Proof.
  induction l as [|b l IH]; intros H; [change (0 <= 0 < 1); lia|].
  apply bytes_cons in H. destruct H as [Hb Hl]. specialize (IH Hl). unfold byte in Hb.
  rewrite zlen_cons, Z.pow_add_r, Z.pow_1_r by (pose proof (zlen_nonneg l); lia).
  cbn [le_value]. lia.
Qed.

Lemma encode_gen n buf v : (n <= length buf)%nat -> length (le_digits n v ++ skipn n buf) = length buf.
Proof. intros. rewrite app_length, le_digits_length, skipn_length. lia. Qed.

Lemma encode16_spec buf v :
  EncodeUint16LE buf v = if zlen buf <? 2 then Panic else Ok (le_digits 2 v ++ skipn 2 buf).
Proof.
  unfold EncodeUint16LE. destruct (Z.ltb_spec (zlen buf) 2) as [|H]; [reflexivity|].
  destruct buf as [|b0 [|b1 r]]; [unfold zlen in H; simpl in H; lia..|].
  rewrite zset_ok by lia. cbn [bind]. rewrite zset_ok by (rewrite zlen_upd; lia).
  rewrite (shr_digit v 8 256) by (lia || reflexivity). reflexivity.
Qed.
Lemma encode24_spec buf v :
  EncodeUint24LE buf v = if zlen buf <? 3 then Panic else Ok (le_digits 3 v ++ skipn 3 buf).
Proof.
  unfold EncodeUint24LE. destruct (Z.ltb_spec (zlen buf) 3) as [|H]; [reflexivity|].
  destruct buf as [|b0 [|b1 [|b2 r]]]; [unfold zlen in H; simpl in H; lia..|].
  rewrite zset_ok by lia. cbn [bind]. rewrite zset_ok by (rewrite zlen_upd; lia).
  cbn [bind]. rewrite zset_ok by (rewrite !zlen_upd; lia).
  rewrite (shr_digit v 8 256), (shr_digit v 16 (256*256)) by (lia || reflexivity).
  cbn [le_digits]. rewrite !Z.div_div by lia. reflexivity.
Qed.
Lemma encode32_spec buf v :
  EncodeUint32LE buf v = if zlen buf <? 4 then Panic else Ok (le_digits 4 v ++ skipn 4 buf).
Proof.
  unfold EncodeUint32LE. destruct (Z.ltb_spec (zlen buf) 4) as [|H]; [reflexivity|].
  destruct buf as [|b0 [|b1 [|b2 [|b3 r]]]]; [unfold zlen in H; simpl in H; lia..|].
  rewrite zset_ok by lia. cbn [bind]. rewrite zset_ok by (rewrite zlen_upd; lia).
  cbn [bind]. rewrite zset_ok by (rewrite !zlen_upd; lia).
  cbn [bind]. rewrite zset_ok by (rewrite !zlen_upd; lia).
  rewrite (shr_digit v 8 256), (shr_digit v 16 (256*256)), (shr_digit v 24 (256*(256*256))) by (lia || reflexivity).
  cbn [le_digits]. rewrite !Z.div_div by lia. reflexivity.
Qed.

Lemma decode_date_spec buf : bytes buf ->
  DecodeDate buf = if zlen buf <? 4 then Panic else
    match buf with
    | y0 :: y1 :: m :: d :: _ => Ok (le_value [y0; y1], m, d)
    | _ => Panic end.
Proof.
  intros Hb. unfold DecodeDate. destruct (Z.ltb_spec (zlen buf) 4) as [|H]; [reflexivity|].
  destruct buf as [|b0 [|b1 [|b2 [|b3 r]]]]; [unfold zlen in H; simpl in H; lia..|].
  rewrite zslice_ok by lia. cbn [bind Z.to_nat Z.sub]. 
  change (Z.to_nat (2 - 0)) with 2%nat. change (Z.to_nat 0) with 0%nat. cbn [firstn skipn].
  rewrite decode16_spec.
  - reflexivity.
  - rewrite !bytes_cons in *. intuition. apply bytes_nil.
Qed.

Lemma firstn_le_digits n v r : firstn n (le_digits n v ++ r) = le_digits n v.
Proof.
  pose proof (le_digits_length n v) as Hn.
  rewrite <- Hn at 1. rewrite firstn_app, firstn_all, Nat.sub_diag. cbn [firstn]. apply app_nil_r.
Qed.

Lemma codec_gen decode append w :
  (forall buf, bytes buf -> decode buf = if zlen buf <? Z.of_nat w then Panic else Ok (le_value (firstn w buf))) ->
  (forall buf v, append buf v = buf ++ le_digits w v) ->
  codec_round_trip decode append w.
Proof.
  intros Hd Ha. repeat split; auto.
  - intros v rest Hr. rewrite Ha. cbn [app]. rewrite Hd.
    + destruct (Z.ltb_spec (zlen (le_digits w v ++ rest)) (Z.of_nat w)) as [H|H].
      * rewrite zlen_app in H. unfold zlen in H. rewrite le_digits_length in H. lia.
      * rewrite firstn_le_digits, le_value_digits. reflexivity.
    + apply bytes_app. split; [apply le_digits_bytes|exact Hr].
  - intros. rewrite Hd in H1 by assumption. destruct (_ <? _); [discriminate|]. inversion H1; subst.
    rewrite firstn_app, Nat.sub_diag, firstn_all in *. cbn [firstn]. rewrite app_nil_r in *.
    apply bytes_app in H. pose proof (le_value_range b (proj1 H)) as Hr. unfold zlen in Hr. lia.
  - intros. rewrite Hd in H1 by assumption. destruct (_ <? _); [discriminate|]. inversion H1; subst.
    rewrite firstn_app, Nat.sub_diag, firstn_all in *. cbn [firstn]. rewrite app_nil_r in *.
    apply bytes_app in H. pose proof (le_value_range b (proj1 H)) as Hr. unfold zlen in Hr. lia.
  - intros. rewrite Hd in H1 by assumption. destruct (_ <? _); [discriminate|]. inversion H1; subst.
    rewrite firstn_app, Nat.sub_diag, firstn_all in *. cbn [firstn]. rewrite app_nil_r in *.
    apply bytes_app in H. rewrite Ha. cbn [app]. apply le_digits_value. apply H.
Qed.

(** ** digits *)
Lemma digits_spec value str : byte value ->
  exists d, AppendByteDigits value str = str ++ d /\
    Forall (fun c => 48 <= c <= 57) d /\ d <> [] /\
    decimal_value d = value /\ (value <> 0 -> hd 0 d <> 48) /\ (value = 0 -> d = [48]).
Proof.
  intros Hb. unfold byte in Hb. unfold AppendByteDigits.
  destruct (Z.gtb_spec value 99) as [H1|H1]; destruct (Z.gtb_spec value 9) as [H2|H2]; try lia;
    rewrite <- ?app_assoc; cbn [app]; eexists; (split; [reflexivity|]);
    cbn [decimal_value fold_left hd]; unfold decimal_value, u8; cbn [fold_left];
    (split; [repeat constructor; lia|]); (split; [discriminate|]); (split; [lia|]);
    (split; [lia|]); intros ->; lia || reflexivity.
Qed.

(** ** BoolList *)
Definition bit_at (bools : list Z) (i : Z) : bool := Z.testbit (nth (Z.to_nat (i / 8)) bools 0) (i mod 8).

Definition bl_inv (s : BoolList) : Prop :=
  0 <= bl_size s /\ zlen (bl_bools s) = (bl_size s + 7) / 8 /\ bytes (bl_bools s).

Definition bl_ref (s : BoolList) (l : list bool) : Prop :=
  bl_inv s /\ zlen l = bl_size s /\
  forall i, 0 <= i < bl_size s -> bit_at (bl_bools s) i = nth (Z.to_nat i) l false.

Lemma land_7 i : Z.land i 7 = i mod 8.
Proof. change 7 with (Z.ones 3). rewrite Z.land_ones by lia. reflexivity. Qed.
Lemma shr_3 i : Z.shiftr i 3 = i / 8.
Proof. rewrite shiftr_div by lia. reflexivity. Qed.

Lemma bl_read_bit w i : byte w -> negb (Z.land w (bl_mask i) =? 0) = Z.testbit w (i mod 8).
Proof.
  intros Hw. unfold bl_mask. rewrite land_7.
  assert (Hm : In (i mod 8) (zseq 8)) by (apply in_zseq; lia).
  revert w Hw.
  assert (H : forallb (fun m => forallb (fun w => Bool.eqb (negb (Z.land w (u8 (Z.shiftl 1 m)) =? 0)) (Z.testbit w m)) (zseq 256)) (zseq 8) = true)
    by (vm_compute; reflexivity).
  rewrite forallb_forall in H. specialize (H _ Hm).
  intros w Hw. apply (byte_forallb _ H) in Hw. apply eqb_prop in Hw. exact Hw.
Qed.

Lemma bl_write_bit w i v : byte w ->
  byte (bl_write w i v) /\
  forall j, 0 <= j < 8 -> Z.testbit (bl_write w i v) j = if j =? i mod 8 then v else Z.testbit w j.
Proof.
  intros Hw. unfold bl_write, bl_mask. rewrite land_7.
  assert (Hm : In (i mod 8) (zseq 8)) by (apply in_zseq; lia).
  assert (H : forallb (fun v : bool => forallb (fun m : Z => forallb (fun w : Z =>
      let r := if v then Z.lor w (u8 (Z.shiftl 1 m)) else Z.land w (255 - u8 (Z.shiftl 1 m)) in
      ((0 <=? r) && (r <? 256)) && forallb (fun j => Bool.eqb (Z.testbit r j) (if j =? m then v else Z.testbit w j)) (zseq 8))
      (zseq 256)) (zseq 8)) [true; false] = true) by (vm_compute; reflexivity).
  rewrite forallb_forall in H. specialize (H v). rewrite forallb_forall in H.
  specialize (H ltac:(destruct v; simpl; auto) _ Hm).
  apply (byte_forallb _ H) in Hw. cbv zeta in Hw.
  apply andb_true_iff in Hw. destruct Hw as [Hb Hj]. split; [unfold byte; lia|].
  intros j Hjr. rewrite forallb_forall in Hj. specialize (Hj j ltac:(apply in_zseq; lia)).
  apply eqb_prop in Hj. exact Hj.
Qed.

Lemma bytes_upd l n v : bytes l -> byte v -> bytes (upd l n v).
Proof.
  revert n; induction l as [|x r IH]; intros n Hl Hv; [exact Hl|].
  apply bytes_cons in Hl. destruct Hl. destruct n; cbn [upd]; apply bytes_cons; split; auto.
Qed.

Lemma nth_upd {A} (l : list A) n v k d : (n < length l)%nat ->
  nth k (upd l n v) d = if Nat.eqb k n then v else nth k l d.
Proof.
  intros Hn. destruct (nth_error (upd l n v) k) eqn:E.
  - rewrite (nth_error_nth _ _ d E). rewrite nth_error_upd in E.
    destruct (Nat.eqb_spec k n); destruct (Nat.ltb_spec k (length l)); cbn [andb] in E; try lia.
    + inversion E; reflexivity.
    + symmetry; apply nth_error_nth; exact E.
    + symmetry; apply nth_error_nth; exact E.
  - assert (length l <= k)%nat by (apply nth_error_None in E; rewrite length_upd in E; lia).
    destruct (Nat.eqb_spec k n); [lia|]. rewrite !nth_overflow; auto. rewrite length_upd; lia.
Qed.

Lemma bl_raw_write bools i v :
  bytes bools -> 0 <= i -> i / 8 < zlen bools ->
  exists b', (do w <- zget bools (Z.shiftr i 3); zset bools (Z.shiftr i 3) (bl_write w i v)) = Ok b' /\
    bytes b' /\ zlen b' = zlen bools /\
    forall j, 0 <= j -> bit_at b' j = if j =? i then v else bit_at bools j.
Proof.
  intros Hb Hi Hr. rewrite shr_3. assert (0 <= i / 8) by lia.
  rewrite (zget_nth bools (i / 8) 0) by lia. cbn [bind].
  rewrite zset_ok by lia.
  assert (Hw : byte (nth (Z.to_nat (i / 8)) bools 0)).
  { apply (bytes_get bools (i / 8)); auto. apply zget_nth. lia. }
  destruct (bl_write_bit _ i v Hw) as [Hb' Hbits].
  eexists. split; [reflexivity|]. split; [apply bytes_upd; auto|]. split; [apply zlen_upd|].
  intros j Hj. unfold bit_at. rewrite nth_upd by (unfold zlen in Hr; lia).
  destruct (Nat.eqb_spec (Z.to_nat (j / 8)) (Z.to_nat (i / 8))) as [E|E].
  - rewrite Hbits by lia. assert (j / 8 = i / 8) by lia.
    destruct (Z.eqb_spec (j mod 8) (i mod 8)); destruct (Z.eqb_spec j i); try lia; try reflexivity.
    replace (Z.to_nat (j / 8)) with (Z.to_nat (i / 8)) by lia. reflexivity.
  - destruct (Z.eqb_spec j i); [subst; lia|reflexivity].
Qed.

Lemma barr_set_nth l i v k : nth k (barr_step l (BSet i v)) false =
  if (Z.of_nat k =? i) && Nat.ltb k (length l) then v else nth k l false.
Proof.
  cbn [barr_step].
  set (f := fun p : nat * bool => if Z.of_nat (fst p) =? i then v else snd p).
  assert (G : forall l s k, nth k (map f (combine (seq s (length l)) l)) false =
     if (Z.of_nat (s + k) =? i) && Nat.ltb k (length l) then v else nth k l false).
  { clear l k. induction l as [|x l IH]; intros s k.
    - cbn. destruct k; rewrite andb_false_r; reflexivity.
    - destruct k as [|k]; cbn [length seq combine map nth].
      + unfold f; cbn [fst snd]. rewrite Nat.add_0_r. rewrite andb_true_r. reflexivity.
      + rewrite IH. replace (S s + k)%nat with (s + S k)%nat by lia.
        replace (Nat.ltb (S k) (S (length l))) with (Nat.ltb k (length l)); [reflexivity|].
        apply eq_true_iff_eq. rewrite !Nat.ltb_lt. lia. }
  apply (G l O k).
Qed.
Lemma barr_set_len l i v : length (barr_step l (BSet i v)) = length l.
Proof. cbn [barr_step]. rewrite map_length, combine_length, seq_length. lia. Qed.

Lemma bl_new_ref n : bl_ref (NewBoolList n) (repeat false (Z.to_nat n)).
Proof.
  unfold NewBoolList. destruct (Z.leb_spec n 0).
  - replace (Z.to_nat n) with O by lia. split; [|split].
    + repeat split; cbn; try lia. constructor.
    + reflexivity.
    + cbn; intros; lia.
  - assert (E : forall m k, nth k (repeat 0 m) 0 = 0) by (intros m; induction m; intros [|k]; cbn; auto).
    assert (E' : forall m k, nth k (repeat false m) false = false) by (intros m; induction m; intros [|k]; cbn; auto).
    rewrite shr_3. split; [|split].
    + unfold bl_inv. cbn [bl_size bl_bools]. repeat split; try lia.
      * rewrite zlen_repeat. lia.
      * apply Forall_forall. intros x Hx. apply repeat_spec in Hx. subst. unfold byte; lia.
    + cbn. rewrite zlen_repeat. lia.
    + cbn. intros i Hi. unfold bit_at. rewrite E, E'. apply Z.bits_0.
Qed.

Lemma bl_set_ref s l i v : bl_ref s l -> 0 <= i < bl_size s ->
  exists s', bl_Set s i v = Ok s' /\ bl_SetU8 s i v = Ok s' /\ bl_ref s' (barr_step l (BSet i v)).
Proof.
  intros ((H1 & H2 & H3) & H4 & H5) Hi. unfold bl_Set, bl_SetU8.
  replace ((i <? 0) || (i >=? bl_size s)) with false by lia.
  destruct (bl_raw_write (bl_bools s) i v H3 ltac:(lia) ltac:(lia)) as (b' & E & Hb & Hl & Hbit).
  revert E. destruct (zget (bl_bools s) (Z.shiftr i 3)) as [w| | |]; cbn [bind]; try discriminate.
  intros E. rewrite E. cbn [bind].
  eexists. split; [reflexivity|]. split; [reflexivity|].
  split; [|split].
  - unfold bl_inv; cbn. rewrite Hl. auto.
  - cbn [bl_size]. unfold zlen. rewrite barr_set_len. exact H4.
  - cbn [bl_bools bl_size]. intros j Hj. rewrite Hbit by lia. rewrite barr_set_nth.
    unfold zlen in H4.
    destruct (Z.eqb_spec j i); destruct (Z.eqb_spec (Z.of_nat (Z.to_nat j)) i); try lia;
      destruct (Nat.ltb_spec (Z.to_nat j) (length l)); try lia; cbn [andb]; auto.
Qed.

Lemma bl_set_oob s i v : i < 0 \/ bl_size s <= i -> bl_Set s i v = Panic.
Proof. intros H. unfold bl_Set. replace ((i <? 0) || (i >=? bl_size s)) with true by lia. reflexivity. Qed.
Lemma barr_set_oob l i v : i < 0 \/ zlen l <= i -> barr_step l (BSet i v) = l.
Proof.
  intros H. apply nth_ext with (d := false) (d' := false); [apply barr_set_len|].
  intros n Hn. rewrite barr_set_len in Hn. rewrite barr_set_nth. unfold zlen in H.
  destruct (Z.eqb_spec (Z.of_nat n) i); [lia|reflexivity].
Qed.

Lemma bl_setu8_oob s l i v : bl_ref s l -> 0 <= i -> bl_size s <= i ->
  match bl_SetU8 s i v with Ok s' => bl_ref s' l | _ => True end.
Proof.
  intros ((H1 & H2 & H3) & H4 & H5) Hi0 Hi. unfold bl_SetU8.
  destruct (Z_lt_dec (i / 8) (zlen (bl_bools s))) as [Hr|Hr].
  - destruct (bl_raw_write (bl_bools s) i v H3 ltac:(lia) Hr) as (b' & E & Hb & Hl & Hbit).
    revert E. destruct (zget (bl_bools s) (Z.shiftr i 3)) as [w| | |]; cbn [bind]; try discriminate.
    intros E. rewrite E. cbn [bind]. split; [|split].
    + unfold bl_inv; cbn. rewrite Hl. auto.
    + exact H4.
    + cbn. intros j Hj. rewrite Hbit by lia. destruct (Z.eqb_spec j i); [lia|]. auto.
  - rewrite zget_panic by (rewrite shr_3; lia). exact I.
Qed.

Lemma bl_push_ref s l v : bl_ref s l -> exists s', bl_Push s v = Ok s' /\ bl_ref s' (l ++ [v]).
Proof.
  intros ((H1 & H2 & H3) & H4 & H5). unfold bl_Push. cbn [bl_size bl_bools].
  set (bools := if Z.shiftr (bl_size s) 3 >=? zlen (bl_bools s) then bl_bools s ++ [0] else bl_bools s).
  assert (Hlen : zlen bools = (bl_size s + 1 + 7) / 8).
  { unfold bools. rewrite shr_3. destruct (Z.geb_spec (bl_size s / 8) (zlen (bl_bools s))).
    - rewrite zlen_app, zlen_cons, zlen_nil. lia.
    - lia. }
  assert (Hb : bytes bools).
  { unfold bools. destruct (_ >=? _); [apply bytes_app; split; auto|auto].
    repeat constructor; unfold byte; lia. }
  assert (R : bl_ref (mkBoolList (bl_size s + 1) bools) (l ++ [bit_at bools (bl_size s)])).
  { split; [|split].
    - unfold bl_inv; cbn. split; [lia|auto].
    - cbn. rewrite zlen_app, zlen_cons, zlen_nil. lia.
    - cbn. intros i Hi. destruct (Z.eq_dec i (bl_size s)) as [->|Hne].
      + rewrite app_nth2 by (unfold zlen in H4; lia).
        replace (Z.to_nat (bl_size s) - length l)%nat with O by (unfold zlen in H4; lia). reflexivity.
      + rewrite app_nth1 by (unfold zlen in H4; lia). rewrite <- H5 by lia.
        unfold bools. destruct (_ >=? _); [|reflexivity].
        unfold bit_at. rewrite app_nth1; [reflexivity|]. unfold zlen in H2. lia. }
  destruct (bl_set_ref _ _ (bl_size s) v R ltac:(cbn; lia)) as (s' & E & _ & R').
  exists s'. split.
  - replace (bl_size s + 1 - 1) with (bl_size s) by lia. exact E.
  - replace (l ++ [v]) with (barr_step (l ++ [bit_at bools (bl_size s)]) (BSet (bl_size s) v)); [exact R'|].
    apply nth_ext with (d := false) (d' := false).
    + rewrite barr_set_len, !app_length. reflexivity.
    + intros n Hn. rewrite barr_set_len, app_length in Hn. cbn [length] in Hn.
      rewrite barr_set_nth. rewrite app_length. cbn [length].
      unfold zlen in H4.
      destruct (Z.eqb_spec (Z.of_nat n) (bl_size s)) as [E2|E2].
      * destruct (Nat.ltb_spec n (length l + 1)); [|lia]. cbn [andb].
        rewrite app_nth2 by lia. replace (n - length l)%nat with O by lia. reflexivity.
      * cbn [andb]. rewrite !app_nth1 by lia. reflexivity.
Qed.

Lemma nth_repeat_lt {A} (x : A) n k d : (k < n)%nat -> nth k (repeat x n) d = x.
Proof. revert k; induction n; intros [|k] H; cbn; try lia; auto. apply IHn. lia. Qed.

Lemma bl_all_ref s l (v : bool) c : bl_ref s l -> byte c -> (forall j, 0 <= j < 8 -> Z.testbit c j = v) ->
  bl_ref (mkBoolList (bl_size s) (map (fun _ => c) (bl_bools s))) (barr_step l (BAll v)).
Proof.
  intros ((H1 & H2 & H3) & H4 & H5) Hc Hv. split; [|split].
  - unfold bl_inv; cbn. rewrite zlen_map. split; [auto|]. split; [auto|].
    apply Forall_forall. intros x Hx. apply in_map_iff in Hx. destruct Hx as (? & <- & _). exact Hc.
  - cbn. rewrite zlen_repeat. exact H4.
  - cbn. intros i Hi. unfold zlen in *. rewrite nth_repeat_lt by lia.
    unfold bit_at. rewrite nth_indep with (d' := c) by (rewrite map_length; lia).
    rewrite (map_nth (fun _ => c) (bl_bools s) 0). apply Hv. lia.
Qed.

Lemma bl_step_ref s l op : bl_op_wf op -> bl_ref s l -> bl_ref (bl_step s op) (barr_step l (bl_abs op)).
Proof.
  intros Hwf R. pose proof R as (_ & Hlen & _). destruct op as [v|i v|i v| |]; unfold bl_step, bl_abs; cbv beta iota.
  - destruct (bl_push_ref s l v R) as (s' & -> & R'). exact R'.
  - destruct (Z_lt_dec i 0); [rewrite bl_set_oob, barr_set_oob by lia; exact R|].
    destruct (Z_lt_dec i (bl_size s)).
    + destruct (bl_set_ref s l i v R ltac:(lia)) as (s' & -> & _ & R'). exact R'.
    + rewrite bl_set_oob, barr_set_oob by lia. exact R.
  - cbn in Hwf. destruct (Z_lt_dec i (bl_size s)).
    + destruct (bl_set_ref s l i v R ltac:(lia)) as (s' & _ & -> & R'). exact R'.
    + rewrite barr_set_oob by lia. pose proof (bl_setu8_oob s l i v R ltac:(lia) ltac:(lia)) as H.
      destruct (bl_SetU8 s i v); auto.
  - apply bl_all_ref; [exact R|unfold byte; lia|].
    intros j Hj. assert (Hin : In j (zseq 8)) by (apply in_zseq; lia).
    assert (F : forallb (Z.testbit 255) (zseq 8) = true) by reflexivity.
    rewrite forallb_forall in F. auto.
  - apply bl_all_ref; [exact R|unfold byte; lia|]. intros; apply Z.bits_0.
Qed.

Lemma bl_get_ref s l i : bl_ref s l -> bl_Get s i =
  if (0 <=? i) && (i <? zlen l) then Ok (nth (Z.to_nat i) l false) else Panic.
Proof.
  intros ((H1 & H2 & H3) & H4 & H5). unfold bl_Get. rewrite H4.
  destruct (Z.ltb_spec i 0); destruct (Z.geb_spec i (bl_size s)); destruct (Z.leb_spec 0 i);
    destruct (Z.ltb_spec i (bl_size s)); try lia; cbn [orb andb]; try reflexivity.
  rewrite shr_3, (zget_nth _ _ 0) by lia. cbn [bind]. rewrite bl_read_bit.
  - rewrite <- H5 by lia. reflexivity.
  - apply (bytes_get (bl_bools s) (i / 8)); auto. apply zget_nth. lia.
Qed.

Lemma bl_get_u8 s l i : bl_ref s l -> 0 <= i < zlen l -> bl_GetU8 s i = bl_Get s i.
Proof.
  intros R Hi. pose proof R as ((H1 & H2 & H3) & H4 & H5). unfold bl_Get, bl_GetU8.
  replace ((i <? 0) || (i >=? bl_size s)) with false by lia. reflexivity.
Qed.

Lemma bl_raw_get s i : 
  bl_RawGetU8 s (fst (bl_GetWordAndBitMaskU8 i)) (snd (bl_GetWordAndBitMaskU8 i)) = bl_GetU8 s i.
Proof. reflexivity. Qed.

Lemma bl_history_ref n ops : Forall bl_op_wf ops ->
  bl_ref (fold_left bl_step ops (NewBoolList n))
         (fold_left barr_step (map bl_abs ops) (repeat false (Z.to_nat n))).
Proof.
  intros Hwf. generalize (bl_new_ref n).
  generalize (NewBoolList n) (repeat false (Z.to_nat n)).
  induction Hwf as [|op ops Hop _ IH]; intros s l R; cbn [fold_left map]; [exact R|].
  apply IH. apply bl_step_ref; auto.
Qed.

Lemma bl_history n ops : Forall bl_op_wf ops ->
  let s := fold_left bl_step ops (NewBoolList n) in
  let l := fold_left barr_step (map bl_abs ops) (repeat false (Z.to_nat n)) in
  (forall i, bl_Get s i = if (0 <=? i) && (i <? zlen l) then Ok (nth (Z.to_nat i) l false) else Panic) /\
  (forall i, 0 <= i < zlen l -> bl_GetU8 s i = bl_Get s i /\
     bl_RawGetU8 s (fst (bl_GetWordAndBitMaskU8 i)) (snd (bl_GetWordAndBitMaskU8 i)) = bl_Get s i) /\
  (forall i v, bl_Set s i v = Panic <-> ~ 0 <= i < zlen l) /\
  (forall v, exists s', bl_Push s v = Ok s').
Proof.
  intros Hwf s l. pose proof (bl_history_ref n ops Hwf) as R. fold s l in R.
  split; [|split; [|split]].
  - intros i. apply bl_get_ref. exact R.
  - intros i Hi. split.
    + apply (bl_get_u8 s l); auto.
    + rewrite bl_raw_get. apply (bl_get_u8 s l); auto.
  - intros i v. pose proof R as (_ & H4 & _). split.
    + intros H Hi. destruct (bl_set_ref s l i v R ltac:(lia)) as (s' & E & _). congruence.
    + intros H. apply bl_set_oob. lia.
  - intros v. destruct (bl_push_ref s l v R) as (s' & E & _). eauto.
Qed.

(** ** sorted slices *)
Section Ordered.
  Context {T : Type} (ltb eqb : T -> T -> bool) (zero : T) (Hord : strict_total_order ltb eqb).

  Let Heq : forall x y, eqb x y = true <-> x = y := proj1 Hord.
  Let Hirr : forall x, ltb x x = false := proj1 (proj2 Hord).
  Let Htr : forall x y z, ltb x y = true -> ltb y z = true -> ltb x z = true := proj1 (proj2 (proj2 Hord)).
  Let Htot : forall x y, ltb x y = true \/ x = y \/ ltb y x = true := proj2 (proj2 (proj2 Hord)).

  Lemma sorted_le_nth l i j a b : sorted_le ltb l -> (i <= j)%nat ->
    nth_error l i = Some a -> nth_error l j = Some b -> ltb b a = false.
  Proof.
    intros Hs. revert i j. induction Hs as [|x l Hs IH Hx]; intros i j Hij Ha Hb.
    - destruct i; discriminate.
    - destruct i as [|i], j as [|j]; cbn in Ha, Hb; try lia.
      + inversion Ha; inversion Hb; subst. subst. apply Hirr.
      + inversion Ha; subst. rewrite Forall_forall in Hx. apply Hx. eapply nth_error_In; eauto.
      + apply (IH i j); auto. lia.
  Qed.

  Lemma lt_mono_back x y t : ltb y x = false -> ltb y t = true -> ltb x t = true.
  Proof.
    intros H1 H2. destruct (Htot x y) as [H|[->|H]]; [eapply Htr; eauto|assumption|congruence].
  Qed.

  Lemma sorted_lt_le l : sorted_lt ltb l -> sorted_le ltb l.
  Proof.
    intros H. induction H as [|x l Hs IH Hx]; constructor; auto.
    eapply Forall_impl; [|exact Hx]. cbn. intros a Ha.
    destruct (ltb a x) eqn:E; [|reflexivity]. rewrite <- (Hirr x). symmetry. eapply Htr; eauto.
  Qed.

  Lemma count_less_split l t r : sorted_le ltb l -> (r <= length l)%nat ->
    (forall k a, (k < r)%nat -> nth_error l k = Some a -> ltb a t = true) ->
    (forall k a, (r <= k)%nat -> nth_error l k = Some a -> ltb a t = false) ->
    count_less ltb t l = r.
  Proof.
    intros _ Hr H1 H2. unfold count_less.
    rewrite <- (firstn_skipn r l) at 1. rewrite filter_app, app_length.
    assert (E1 : filter (fun x => ltb x t) (firstn r l) = firstn r l).
    { apply filter_all. intros x Hx. apply In_nth_error in Hx. destruct Hx as [k Hk].
      rewrite nth_error_firstn in Hk. destruct (Nat.ltb_spec k r); [|discriminate].
      eapply H1; eauto. }
    assert (E2 : filter (fun x => ltb x t) (skipn r l) = []).
    { apply filter_none. intros x Hx. apply In_nth_error in Hx. destruct Hx as [k Hk].
      rewrite nth_error_skipn in Hk. apply (H2 (r + k)%nat x); [lia|exact Hk]. }
    rewrite E1, E2. cbn [length]. rewrite firstn_length. lia.
  Qed.

  Lemma search_spec sl target : sorted_le ltb sl -> zlen sl < 2 ^ 63 ->
    exists found, BadBinarySearch ltb eqb sl target = Ok (Z.of_nat (count_less ltb target sl), found) /\
      (found = true <-> In target sl).
  Proof.
    intros Hs Hlen. unfold BadBinarySearch.
    set (p := fun i => match nth_error sl (Z.to_nat i) with Some x => ltb x target | None => false end).
    destruct (lower_bound_loop_spec 64 (fun i => do x <- zget sl i; Ok (ltb x target)) p 0 (zlen sl))
      as (r & Er & Hr & Hlo & Hhi).
    - apply zlen_nonneg.
    - change (Z.of_nat 64) with 64. assert (2 ^ 63 < 2 ^ 64) by (apply Z.pow_lt_mono_r; lia). lia.
    - intros i Hi. unfold p. destruct (zget_in_range sl i Hi) as [a Ha]. rewrite Ha. cbn [bind].
      apply zget_some in Ha. destruct Ha as [_ ->]. reflexivity.
    - intros i j Hi Hij Hj. unfold p.
      destruct (nth_error sl (Z.to_nat j)) eqn:Ej; [|discriminate].
      destruct (nth_error sl (Z.to_nat i)) eqn:Ei.
      + intros H. apply (lt_mono_back t0 t target); auto.
        apply (sorted_le_nth sl (Z.to_nat i) (Z.to_nat j)); auto. lia.
      + apply nth_error_None in Ei. unfold zlen in Hj. lia.
    - rewrite Er. cbn [bind].
      assert (Hc : count_less ltb target sl = Z.to_nat r).
      { apply count_less_split; auto.
        - unfold zlen in Hr; lia.
        - intros k a Hk Ha. specialize (Hlo (Z.of_nat k) ltac:(lia)). unfold p in Hlo.
          rewrite Nat2Z.id, Ha in Hlo. exact Hlo.
        - intros k a Hk Ha. assert (k < length sl)%nat by (apply nth_error_Some; congruence).
          specialize (Hhi (Z.of_nat k) ltac:(unfold zlen; lia)). unfold p in Hhi.
          rewrite Nat2Z.id, Ha in Hhi. exact Hhi. }
      rewrite Hc. rewrite Z2Nat.id by lia.
      destruct (Z.ltb_spec r (zlen sl)) as [Hlt|Hge].
      + destruct (zget_in_range sl r ltac:(lia)) as [x Hx]. rewrite Hx. cbn [bind].
        exists (eqb x target). split; [reflexivity|]. rewrite Heq. split.
        * intros <-. eapply zget_in; eauto.
        * intros Hin. apply In_nth_error in Hin. destruct Hin as [k Hk].
          apply zget_some in Hx. destruct Hx as [_ Hx].
          destruct (Nat.lt_ge_cases k (Z.to_nat r)) as [Hkr|Hkr].
          -- specialize (Hlo (Z.of_nat k) ltac:(lia)). unfold p in Hlo.
             rewrite Nat2Z.id, Hk, Hirr in Hlo. discriminate.
          -- pose proof (sorted_le_nth sl (Z.to_nat r) k x target Hs Hkr Hx Hk) as Hle.
             specialize (Hhi r ltac:(lia)). unfold p in Hhi. rewrite Hx in Hhi.
             destruct (Htot x target) as [H|[H|H]]; congruence.
      + exists false. split; [reflexivity|]. split; [discriminate|].
        intros Hin. apply In_nth_error in Hin. destruct Hin as [k Hk].
        assert (k < length sl)%nat by (apply nth_error_Some; congruence).
        specialize (Hlo (Z.of_nat k) ltac:(unfold zlen in *; lia)). unfold p in Hlo.
        rewrite Nat2Z.id, Hk, Hirr in Hlo. discriminate.
  Qed.

  (** insertion *)
  Lemma insertion_index_spec l e i : (i <= length l)%nat ->
    (forall k a, (i <= k)%nat -> nth_error l k = Some a -> ltb e a = true) ->
    match insertion_index ltb eqb l e i with
    | Ok None => exists k, (k < i)%nat /\ nth_error l k = Some e
    | Ok (Some j) => (j <= i)%nat /\
        (forall k a, (j <= k)%nat -> nth_error l k = Some a -> ltb e a = true) /\
        (forall a, nth_error l (j - 1) = Some a -> (0 < j)%nat -> ltb a e = true)
    | _ => False
    end.
  Proof.
    induction i as [|j IH]; intros Hi Hup; cbn [insertion_index].
    - split; [lia|]. split; [exact Hup|]. intros; lia.
    - destruct (zget_in_range l (Z.of_nat j)) as [c Hc]; [unfold zlen; lia|].
      rewrite Hc. cbn [bind]. apply zget_some in Hc. destruct Hc as [_ Hc]. rewrite Nat2Z.id in Hc.
      destruct (ltb c e) eqn:E1.
      + split; [lia|]. split; [exact Hup|]. intros a Ha _. replace (S j - 1)%nat with j in Ha by lia.
        congruence.
      + destruct (eqb c e) eqn:E2.
        * apply Heq in E2. subst. exists j. split; [lia|assumption].
        * assert (Hce : ltb e c = true).
          { destruct (Htot c e) as [H|[H|H]]; [congruence| |assumption].
            apply Heq in H. congruence. }
          specialize (IH ltac:(lia)).
          assert (Hup' : forall k a, (j <= k)%nat -> nth_error l k = Some a -> ltb e a = true).
          { intros k a Hk Ha. destruct (Nat.eq_dec k j) as [->|Hne]; [congruence|].
            apply (Hup k a); [lia|assumption]. }
          specialize (IH Hup').
          destruct (insertion_index ltb eqb l e j) as [[m|]| | |]; auto.
          -- destruct IH as (IH1 & IH2 & IH3). split; [lia|]. auto.
          -- destruct IH as (k & Hk & H). exists k. split; [lia|assumption].
  Qed.

  Lemma sorted_lt_split l r : sorted_lt ltb (l ++ r) <->
    sorted_lt ltb l /\ sorted_lt ltb r /\ (forall a b, In a l -> In b r -> ltb a b = true).
  Proof.
    induction l as [|x l IH]; cbn [app].
    - split; [intros H; split; [constructor|split; [exact H|intros a b []]]|tauto].
    - split.
      + intros H. inversion H; subst. apply IH in H2. destruct H2 as (A & B & C).
        rewrite Forall_app in H3. destruct H3 as [F1 F2]. split; [constructor; auto|]. split; auto.
        intros a b [<-|Ha] Hb; [rewrite Forall_forall in F2; auto|auto].
      + intros (A & B & C). inversion A; subst. constructor.
        * apply IH. split; auto. split; auto. intros; apply C; cbn; auto.
        * apply Forall_app. split; auto. rewrite Forall_forall. intros b Hb. apply C; cbn; auto.
  Qed.

  Lemma insert_list (l : list T) e i x : (i <= length l)%nat ->
    zset (if Nat.eqb i (length l) then l ++ [x] else copy_into (l ++ [x]) (S i) (length (l ++ [x])) (skipn i (l ++ [x])))
      (Z.of_nat i) e = Ok (firstn i l ++ e :: skipn i l).
  Proof.
    intros Hi. destruct (Nat.eqb_spec i (length l)) as [->|Hne].
    - rewrite zset_ok by (rewrite zlen_app, zlen_cons, zlen_nil; unfold zlen; lia).
      rewrite Nat2Z.id, upd_middle, firstn_all, skipn_all. reflexivity.
    - assert (Hlt : (i < length l)%nat) by lia.
      destruct (nth_error l i) as [y|] eqn:Ey; [|apply nth_error_None in Ey; lia].
      unfold copy_into. rewrite skipn_length, app_length. cbn [length].
      replace (Nat.min (length l + 1 - S i) (length l + 1 - i)) with (length l - i)%nat by lia.
      rewrite (@skipn_all2 T (S i + (length l - i)) (l ++ [x])) by (rewrite app_length; cbn [length]; lia). rewrite app_nil_r.
      rewrite firstn_app. replace (S i - length l)%nat with O by lia. rewrite firstn_O, app_nil_r.
      rewrite skipn_app. replace (i - length l)%nat with O by lia. cbn [skipn].
      rewrite (firstn_app (length l - i)), skipn_length, Nat.sub_diag, firstn_O, app_nil_r.
      rewrite (firstn_all2 (skipn i l)) by (rewrite skipn_length; lia).
      assert (E : firstn (S i) l = firstn i l ++ [y]).
      { rewrite (firstn_skipn_cons l i y Ey) at 1. rewrite firstn_app.
        rewrite firstn_length. replace (S i - Nat.min i (length l))%nat with 1%nat by lia.
        rewrite firstn_all2 by (rewrite firstn_length; lia). reflexivity. }
      rewrite E, <- app_assoc. cbn [app].
      rewrite zset_ok.
      + rewrite Nat2Z.id. assert (Li : length (firstn i l) = i) by (rewrite firstn_length; lia).
        pose proof (upd_middle (firstn i l) (skipn i l) y e) as U. rewrite Li in U. rewrite U. reflexivity.
      + rewrite zlen_app, zlen_cons, zlen_firstn. pose proof (zlen_nonneg (skipn i l)). unfold zlen at 1. lia.
  Qed.

  Lemma insert_spec b e : sorted_lt ltb (elems b) ->
    exists b', BasicOrderedNonRepeatInsert ltb eqb zero b e = Ok b' /\
      sorted_lt ltb (elems b') /\ (forall x, In x (elems b') <-> In x (elems b) \/ x = e).
  Proof.
    intros Hs. unfold BasicOrderedNonRepeatInsert.
    pose proof (insertion_index_spec (elems b) e (length (elems b)) (Nat.le_refl _)) as H.
    assert (Hup : forall k a, (length (elems b) <= k)%nat -> nth_error (elems b) k = Some a -> ltb e a = true).
    { intros k a Hk Ha. assert (k < length (elems b))%nat by (apply nth_error_Some; congruence). lia. }
    specialize (H Hup). clear Hup.
    destruct (insertion_index ltb eqb (elems b) e (length (elems b))) as [[j|]| | |]; cbn [bind]; try contradiction.
    - destruct H as (Hj & Hhi & Hlo).
      assert (E : exists x, elems (GrowSliceByOne zero b) = elems b ++ [x]).
      { unfold GrowSliceByOne. destruct (spare b) as [|x s]; cbn [elems]; eauto. }
      destruct E as [x Ex]. rewrite Ex. rewrite insert_list by assumption. cbn [bind].
      eexists. split; [reflexivity|]. cbn [elems]. split.
      + assert (Hs' := Hs). rewrite <- (firstn_skipn j (elems b)) in Hs'.
        apply sorted_lt_split in Hs'. destruct Hs' as (S1 & S2 & S3).
        apply sorted_lt_split. split; [exact S1|]. split.
        * constructor; [exact S2|]. apply Forall_forall. intros a Ha.
          apply In_nth_error in Ha. destruct Ha as [k Hk]. rewrite nth_error_skipn in Hk.
          apply (Hhi (j + k)%nat); [lia|assumption].
        * assert (Hless : forall a, In a (firstn j (elems b)) -> ltb a e = true).
          { intros a Ha. apply In_nth_error in Ha. destruct Ha as [k Hk].
            rewrite nth_error_firstn in Hk. destruct (Nat.ltb_spec k j) as [Hkj|]; [|discriminate].
            destruct (nth_error (elems b) (j - 1)) as [c|] eqn:Ec;
              [|apply nth_error_None in Ec; lia].
            specialize (Hlo c eq_refl ltac:(lia)).
            pose proof (sorted_le_nth (elems b) k (j - 1) a c (sorted_lt_le _ Hs) ltac:(lia) Hk Ec) as Hle.
            eapply lt_mono_back; eauto. }
          intros a c Ha [<-|Hc]; [auto|]. apply S3; auto.
      + intros y. rewrite in_app_iff. cbn [In].
        rewrite <- (firstn_skipn j (elems b)) at 3. rewrite in_app_iff. intuition.
    - destruct H as (k & Hk & Hke). exists b. split; [reflexivity|]. split; [exact Hs|].
      intros x. split; [auto|]. intros [H| ->]; [exact H|]. eapply nth_error_In; eauto.
  Qed.
End Ordered.

Lemma delete_spec {T} (b : slice T) index : 0 <= index ->
  exists b', DeleteElementAt b index = Ok b' /\
    elems b' = firstn (Z.to_nat index) (elems b) ++ skipn (S (Z.to_nat index)) (elems b).
Proof.
  intros Hi. unfold DeleteElementAt. set (l := elems b).
  destruct (Z.gtb_spec (index + 1) (zlen l)) as [H|H].
  - exists b. split; [reflexivity|]. fold l.
    rewrite firstn_all2, skipn_all2, app_nil_r; [reflexivity|unfold zlen in H; lia..].
  - destruct (Z.eqb_spec (index + 1) (zlen l)) as [H1|H1].
    + destruct (skipn (Z.to_nat (zlen l - 1)) l) as [|x r] eqn:E.
      * assert (L : length (skipn (Z.to_nat (zlen l - 1)) l) = O) by (rewrite E; reflexivity).
        rewrite skipn_length in L. unfold zlen in *. lia.
      * eexists. split; [reflexivity|]. cbn [elems].
        rewrite (skipn_all2 l) by (unfold zlen in *; lia). rewrite app_nil_r. f_equal. lia.
    + destruct (zget_in_range l index) as [m Hm]; [lia|]. rewrite Hm. cbn [bind].
      rewrite zfrom_ok by lia. cbn [bind].
      unfold copy_into. rewrite skipn_length.
      set (i := Z.to_nat index). set (n := length l).
      assert (Hn : zlen l = Z.of_nat n) by reflexivity.
      replace (Z.to_nat (zlen l - 1)) with (n - 1)%nat by lia.
      replace (Z.to_nat (index + 1)) with (S i) by lia.
      replace (Nat.min (n - 1 - i) (n - S i)) with (n - S i)%nat by lia.
      rewrite (firstn_all2 (skipn (S i) l)) by (rewrite skipn_length; fold n; lia).
      replace (i + (n - S i))%nat with (n - 1)%nat by lia.
      set (moved := firstn i l ++ skipn (S i) l ++ skipn (n - 1) l).
      assert (Lm : length moved = n).
      { unfold moved. rewrite !app_length, firstn_length, !skipn_length. fold n. lia. }
      assert (Zm : zlen moved = zlen l) by (unfold zlen; rewrite Lm; reflexivity).
      rewrite zset_ok by lia.
      cbn [bind]. eexists. split; [reflexivity|]. cbn [elems].
      replace (Z.to_nat (zlen l - 1)) with (n - 1)%nat by lia.
      apply nth_error_ext. intros k. rewrite nth_error_firstn, nth_error_upd.
      destruct (Nat.ltb_spec k (n - 1)) as [Hk|Hk].
      * destruct (Nat.eqb_spec k (n - 1)); [lia|]. cbn [andb]. unfold moved.
        rewrite app_assoc, nth_error_app1; [reflexivity|].
        rewrite app_length, firstn_length, skipn_length. fold n. lia.
      * symmetry. apply nth_error_None. rewrite app_length, firstn_length, skipn_length. fold n. lia.
Qed.

Lemma Zltb_order : strict_total_order Z.ltb Z.eqb.
Proof. repeat split; intros; lia. Qed.
