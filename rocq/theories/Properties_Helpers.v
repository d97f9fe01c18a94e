(** Theorems C01 (codecs), C03 (BoolList), C04 (sorted slices), C05 (byte digits). *)
From Verif Require Import Base Model_Helpers Spec_Helpers Proofs_Helpers.

(** ** C01 *)
Theorem C01_uint16_codec : codec_round_trip DecodeUint16LE AppendUint16LE 2.
Proof. exact (codec_gen _ _ 2 decode16_spec append16_spec). Qed.
Print Assumptions C01_uint16_codec.
Example C01_uint16_ex : DecodeUint16LE (AppendUint16LE [] 51966 ++ [7]) = Ok 51966
  /\ AppendUint16LE [1] 51966 = [1; 254; 202] /\ DecodeUint16LE [9] = Panic.
Proof. repeat split. Qed.

Theorem C01_uint24_codec : codec_round_trip DecodeUint24LE AppendUint24LE 3.
Proof. exact (codec_gen _ _ 3 decode24_spec append24_spec). Qed.
Print Assumptions C01_uint24_codec.
Example C01_uint24_ex : DecodeUint24LE (AppendUint24LE [] 16777215) = Ok 16777215
  /\ DecodeUint24LE (AppendUint24LE [] 16777217) = Ok 1.
Proof. repeat split. Qed.

Theorem C01_uint32_codec : codec_round_trip DecodeUint32LE AppendUint32LE 4.
Proof. exact (codec_gen _ _ 4 decode32_spec append32_spec). Qed.
Print Assumptions C01_uint32_codec.
Example C01_uint32_ex : DecodeUint32LE (AppendUint32LE [] 3735928559) = Ok 3735928559.
Proof. reflexivity. Qed.

Theorem C01_uint64_codec : codec_round_trip DecodeUint64LE AppendUint64LE 8.
Proof. exact (codec_gen _ _ 8 decode64_spec append64_spec). Qed.
Print Assumptions C01_uint64_codec.
Example C01_uint64_ex :
  DecodeUint64LE (AppendUint64LE [] 13464654573299691533) = Ok 13464654573299691533.
Proof. reflexivity. Qed.

(** The in-place encoders write the digits over the first bytes and nothing else. *)
Theorem C01_encode_in_place : forall buf v,
  EncodeUint16LE buf v = (if zlen buf <? 2 then Panic else Ok (le_digits 2 v ++ skipn 2 buf)) /\
  EncodeUint24LE buf v = (if zlen buf <? 3 then Panic else Ok (le_digits 3 v ++ skipn 3 buf)) /\
  EncodeUint32LE buf v = (if zlen buf <? 4 then Panic else Ok (le_digits 4 v ++ skipn 4 buf)).
Proof. exact (fun buf v => conj (encode16_spec buf v) (conj (encode24_spec buf v) (encode32_spec buf v))). Qed.
Print Assumptions C01_encode_in_place.
Example C01_encode_ex : EncodeUint24LE [9; 9; 9; 9] 66051 = Ok [3; 2; 1; 9].
Proof. reflexivity. Qed.

(** The digits are the digits of the value: bytes whose value is [v] modulo 256^n. *)
Theorem C01_digits : forall n v,
  length (le_digits n v) = n /\ bytes (le_digits n v) /\ le_value (le_digits n v) = v mod 256 ^ Z.of_nat n.
Proof. exact (fun n v => conj (le_digits_length n v) (conj (le_digits_bytes n v) (le_value_digits n v))). Qed.
Print Assumptions C01_digits.

Theorem C01_decode_date : forall buf, bytes buf ->
  DecodeDate buf = if zlen buf <? 4 then Panic else
    match buf with
    | y0 :: y1 :: m :: d :: _ => Ok (le_value [y0; y1], m, d)
    | _ => Panic end.
Proof. exact decode_date_spec. Qed.
Print Assumptions C01_decode_date.
Example C01_date_ex : DecodeDate [232; 7; 2; 29; 5] = Ok (2024, 2, 29).
Proof. reflexivity. Qed.

(** ** C03 *)
Theorem C03_boollist_history : forall n ops, Forall bl_op_wf ops ->
  let s := fold_left bl_step ops (NewBoolList n) in
  let l := fold_left barr_step (map bl_abs ops) (repeat false (Z.to_nat n)) in
  (forall i, bl_Get s i = if (0 <=? i) && (i <? zlen l) then Ok (nth (Z.to_nat i) l false) else Panic) /\
  (forall i, 0 <= i < zlen l -> bl_GetU8 s i = bl_Get s i /\
     bl_RawGetU8 s (fst (bl_GetWordAndBitMaskU8 i)) (snd (bl_GetWordAndBitMaskU8 i)) = bl_Get s i) /\
  (forall i v, bl_Set s i v = Panic <-> ~ 0 <= i < zlen l) /\
  (forall v, exists s', bl_Push s v = Ok s').
Proof. exact bl_history. Qed.
Print Assumptions C03_boollist_history.
Example C03_ex :
  let ops := [BLSet 2 true; BLAllTrue; BLPush false; BLSet 9 false; BLSetU8 0 false; BLSet 10 true] in
  Forall bl_op_wf ops /\
  map (bl_Get (fold_left bl_step ops (NewBoolList 9))) [0; 2; 8; 9; 10] =
    [Ok false; Ok true; Ok true; Ok false; Panic].
Proof. split; [repeat constructor; cbn; discriminate|reflexivity]. Qed.

(** ** C04 *)
Theorem C04_search : forall T (ltb eqb : T -> T -> bool), strict_total_order ltb eqb ->
  forall sl target, sorted_le ltb sl -> zlen sl < 2 ^ 63 ->
  exists found, BadBinarySearch ltb eqb sl target = Ok (Z.of_nat (count_less ltb target sl), found) /\
    (found = true <-> In target sl).
Proof. exact @search_spec. Qed.
Print Assumptions C04_search.
Example C04_search_ex : BadBinarySearch Z.ltb Z.eqb [1; 4; 4; 9; 12] 9 = Ok (3, true)
  /\ BadBinarySearch Z.ltb Z.eqb [1; 4; 4; 9; 12] 5 = Ok (3, false).
Proof. split; reflexivity. Qed.

Theorem C04_insert : forall T (ltb eqb : T -> T -> bool) (zero : T), strict_total_order ltb eqb ->
  forall b e, sorted_lt ltb (elems b) ->
  exists b', BasicOrderedNonRepeatInsert ltb eqb zero b e = Ok b' /\
    sorted_lt ltb (elems b') /\ (forall x, In x (elems b') <-> In x (elems b) \/ x = e).
Proof. exact @insert_spec. Qed.
Print Assumptions C04_insert.
Example C04_insert_ex :
  BasicOrderedNonRepeatInsert Z.ltb Z.eqb 0 (mkSlice [1; 4; 9] [7; 8]) 5 = Ok (mkSlice [1; 4; 5; 9] [8]).
Proof. reflexivity. Qed.
Example C04_order_ex : strict_total_order Z.ltb Z.eqb.
Proof. exact Zltb_order. Qed.

Theorem C04_delete : forall T (b : slice T) index, 0 <= index ->
  exists b', DeleteElementAt b index = Ok b' /\
    elems b' = firstn (Z.to_nat index) (elems b) ++ skipn (S (Z.to_nat index)) (elems b).
Proof. exact @delete_spec. Qed.
Print Assumptions C04_delete.
Example C04_delete_ex : DeleteElementAt (mkSlice [1; 4; 9; 5] []) 1 = Ok (mkSlice [1; 9; 5] [4]).
Proof. reflexivity. Qed.

(** ** C05 *)
Theorem C05_byte_digits : forall value str, byte value ->
  exists d, AppendByteDigits value str = str ++ d /\
    Forall (fun c => 48 <= c <= 57) d /\ d <> [] /\
    decimal_value d = value /\ (value <> 0 -> hd 0 d <> 48) /\ (value = 0 -> d = [48]).
Proof. exact digits_spec. Qed.
Print Assumptions C05_byte_digits.
Example C05_ex : AppendByteDigits 205 [65] = [65; 50; 48; 53] /\ AppendByteDigits 0 [] = [48].
Proof. split; reflexivity. Qed.
