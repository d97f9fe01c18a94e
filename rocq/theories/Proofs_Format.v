(** Facts about stored blocks and EndOffset arrays. *)
From Verif Require Import Base BaseFacts Spec_Helpers Model_Helpers Proofs_Helpers Spec_Format Model_Font.

(** ** stored blocks *)
Lemma stored_range d off b : stored d off b -> 0 <= off /\ off + zlen b <= zlen d.
Proof.
  intros (pre & post & -> & <-). rewrite !zlen_app.
  pose proof (zlen_nonneg pre); pose proof (zlen_nonneg post). lia.
Qed.
Lemma stored_at d off b off' : stored d off b -> off = off' -> stored d off' b.
Proof. now intros H <-. Qed.
Lemma stored_app d off a b : stored d off (a ++ b) -> stored d off a /\ stored d (off + zlen a) b.
Proof.
  intros (pre & post & -> & <-). split.
  - exists pre, (b ++ post). now rewrite <- app_assoc.
  - exists (pre ++ a), post. split; [now rewrite !app_assoc|now rewrite zlen_app].
Qed.
Lemma stored_cons d off x b : stored d off (x :: b) -> zget d off = Ok x /\ stored d (off + 1) b.
Proof.
  intros H. change (x :: b) with ([x] ++ b) in H. apply stored_app in H. destruct H as [H1 H2].
  split; [|exact H2]. destruct H1 as (pre & post & -> & <-). rewrite zget_app_r by lia.
  now rewrite Z.sub_diag.
Qed.
Lemma stored_get d off b i : stored d off b -> 0 <= i < zlen b -> zget d (off + i) = zget b i.
Proof.
  intros (pre & post & -> & <-) Hi. rewrite zget_app_r by lia. rewrite zget_app_l by lia. f_equal. lia.
Qed.
Lemma stored_slice d off b : stored d off b -> zslice d off (off + zlen b) = Ok b.
Proof. intros (pre & post & -> & <-). now apply zslice_app. Qed.
Lemma stored_slice_eq d off b e : stored d off b -> e = off + zlen b -> zslice d off e = Ok b.
Proof. intros H ->. now apply stored_slice. Qed.
Lemma stored_from d off b : stored d off b -> exists post, zfrom d off = Ok (b ++ post).
Proof. intros (pre & post & -> & <-). exists post. now apply zfrom_app. Qed.
Lemma stored_string d off b n : stored d off b -> n = zlen b -> b <> [] -> unsafe_string d off n = Ok b.
Proof.
  intros H -> Hb. unfold unsafe_string. rewrite stored_slice by assumption.
  destruct b as [|x b]; [congruence|]. apply stored_cons in H. destruct H as [-> _]. reflexivity.
Qed.
(** an empty string at the very end of the data panics in Go, elsewhere it is empty *)
Lemma stored_string_in d off b n : stored d off b -> n = zlen b -> off < zlen d -> unsafe_string d off n = Ok b.
Proof.
  intros H -> Hb. unfold unsafe_string. rewrite stored_slice by assumption.
  pose proof (stored_range _ _ _ H) as [H0 _].
  destruct (zget_in_range d off ltac:(lia)) as [x ->]. reflexivity.
Qed.

(** ** little endian numbers *)
Lemma zlen_le_digits w v : zlen (le_digits w v) = Z.of_nat w.
Proof. unfold zlen. now rewrite le_digits_length. Qed.
Lemma decode16_digits v post : DecodeUint16LE (le_digits 2 v ++ post) = Ok (v mod 65536).
Proof.
  unfold DecodeUint16LE. rewrite zlen_app, zlen_le_digits. pose proof (zlen_nonneg post).
  destruct (Z.ltb_spec (Z.of_nat 2 + zlen post) 2); [lia|].
  pose proof (decode16_spec (le_digits 2 v) (le_digits_bytes 2 v)) as E.
  rewrite zlen_le_digits in E. cbn [Z.of_nat] in E. unfold DecodeUint16LE in E.
  rewrite zlen_le_digits in E. change (Z.of_nat 2 <? 2) with false in E. cbv iota in E.
  rewrite firstn_all2, le_value_digits in E by (rewrite le_digits_length; lia).
  change (256 ^ Z.of_nat 2) with 65536 in E. rewrite !zget_app_l by (rewrite zlen_le_digits; lia). exact E.
Qed.
Lemma decode24_digits v post : DecodeUint24LE (le_digits 3 v ++ post) = Ok (v mod 16777216).
Proof.
  unfold DecodeUint24LE. rewrite zlen_app, zlen_le_digits. pose proof (zlen_nonneg post).
  destruct (Z.ltb_spec (Z.of_nat 3 + zlen post) 3); [lia|].
  pose proof (decode24_spec (le_digits 3 v) (le_digits_bytes 3 v)) as E.
  rewrite zlen_le_digits in E. cbn [Z.of_nat] in E. unfold DecodeUint24LE in E.
  rewrite zlen_le_digits in E. change (Z.of_nat 3 <? 3) with false in E. cbv iota in E.
  rewrite firstn_all2, le_value_digits in E by (rewrite le_digits_length; lia).
  change (256 ^ Z.of_nat 3) with 16777216 in E. rewrite !zget_app_l by (rewrite zlen_le_digits; lia). exact E.
Qed.
Lemma decode32_digits v post : DecodeUint32LE (le_digits 4 v ++ post) = Ok (v mod 4294967296).
Proof.
  unfold DecodeUint32LE. rewrite zlen_app, zlen_le_digits. pose proof (zlen_nonneg post).
  destruct (Z.ltb_spec (Z.of_nat 4 + zlen post) 4); [lia|].
  pose proof (decode32_spec (le_digits 4 v) (le_digits_bytes 4 v)) as E.
  rewrite zlen_le_digits in E. cbn [Z.of_nat] in E. unfold DecodeUint32LE in E.
  rewrite zlen_le_digits in E. change (Z.of_nat 4 <? 4) with false in E. cbv iota in E.
  rewrite firstn_all2, le_value_digits in E by (rewrite le_digits_length; lia).
  change (256 ^ Z.of_nat 4) with 4294967296 in E. rewrite !zget_app_l by (rewrite zlen_le_digits; lia). exact E.
Qed.
Lemma decode64_digits v : DecodeUint64LE (le_digits 8 v) = Ok (v mod 18446744073709551616).
Proof.
  rewrite decode64_spec by apply le_digits_bytes. rewrite zlen_le_digits.
  change (Z.of_nat 8 <? 8) with false. cbv iota.
  rewrite firstn_all2, le_value_digits by (rewrite le_digits_length; lia). reflexivity.
Qed.

Lemma from16 d i v : stored d i (le_digits 2 v) -> 0 <= v < 65536 ->
  (do b <- zfrom d i; DecodeUint16LE b) = Ok v.
Proof.
  intros H Hv. destruct (stored_from _ _ _ H) as [post ->]. cbn [bind].
  rewrite decode16_digits. f_equal. now apply Z.mod_small.
Qed.
Lemma from24 d i v : stored d i (le_digits 3 v) -> 0 <= v < 16777216 ->
  (do b <- zfrom d i; DecodeUint24LE b) = Ok v.
Proof.
  intros H Hv. destruct (stored_from _ _ _ H) as [post ->]. cbn [bind].
  rewrite decode24_digits. f_equal. now apply Z.mod_small.
Qed.
Lemma from32 d i v : stored d i (le_digits 4 v) -> 0 <= v < 4294967296 ->
  (do b <- zfrom d i; DecodeUint32LE b) = Ok v.
Proof.
  intros H Hv. destruct (stored_from _ _ _ H) as [post ->]. cbn [bind].
  rewrite decode32_digits. f_equal. now apply Z.mod_small.
Qed.
Lemma slice16 d i e v : stored d i (le_digits 2 v) -> e = i + 2 -> 0 <= v < 65536 ->
  (do b <- zslice d i e; DecodeUint16LE b) = Ok v.
Proof.
  intros H -> Hv. rewrite (stored_slice_eq _ _ _ _ H) by now rewrite zlen_le_digits. cbn [bind].
  rewrite <- (app_nil_r (le_digits 2 v)), decode16_digits. f_equal. now apply Z.mod_small.
Qed.
Lemma slice24 d i e v : stored d i (le_digits 3 v) -> e = i + 3 -> 0 <= v < 16777216 ->
  (do b <- zslice d i e; DecodeUint24LE b) = Ok v.
Proof.
  intros H -> Hv. rewrite (stored_slice_eq _ _ _ _ H) by now rewrite zlen_le_digits. cbn [bind].
  rewrite <- (app_nil_r (le_digits 3 v)), decode24_digits. f_equal. now apply Z.mod_small.
Qed.
Lemma slice32 d i e v : stored d i (le_digits 4 v) -> e = i + 4 -> 0 <= v < 4294967296 ->
  (do b <- zslice d i e; DecodeUint32LE b) = Ok v.
Proof.
  intros H -> Hv. rewrite (stored_slice_eq _ _ _ _ H) by now rewrite zlen_le_digits. cbn [bind].
  rewrite <- (app_nil_r (le_digits 4 v)), decode32_digits. f_equal. now apply Z.mod_small.
Qed.
Lemma slice64 d i e v : stored d i (le_digits 8 v) -> e = i + 8 -> 0 <= v < 18446744073709551616 ->
  (do b <- zslice d i e; DecodeUint64LE b) = Ok v.
Proof.
  intros H -> Hv. rewrite (stored_slice_eq _ _ _ _ H) by now rewrite zlen_le_digits. cbn [bind].
  rewrite decode64_digits. f_equal. now apply Z.mod_small.
Qed.

(** ** arrays of fixed size elements *)
Lemma zlen_concat_fixed {A B} (f : A -> list B) w (l : list A) : (forall x, zlen (f x) = w) ->
  zlen (concat (map f l)) = w * zlen l.
Proof.
  intros Hw. induction l as [|x l IH]; cbn [map concat]; [rewrite !zlen_nil; lia|].
  rewrite zlen_app, zlen_cons, Hw, IH. lia.
Qed.
Lemma stored_array {A} (f : A -> list Z) w (l : list A) d off i x :
  (forall x, zlen (f x) = w) -> stored d off (concat (map f l)) -> zget l i = Ok x ->
  stored d (off + w * i) (f x).
Proof.
  intros Hw. revert off i. induction l as [|y l IH]; intros off i H E.
  - apply zget_ok_range in E. rewrite zlen_nil in E. lia.
  - pose proof (zget_ok_range _ _ _ E) as R. cbn [map concat] in H. apply stored_app in H. destruct H as [H1 H2].
    destruct (Z.eq_dec i 0) as [->|Hi].
    + rewrite zget_cons_0 in E. assert (y = x) by congruence. subst. now rewrite Z.mul_0_r, Z.add_0_r.
    + rewrite zget_cons_S in E by lia. apply IH with (off := off + zlen (f y)) in E; [|exact H2].
      rewrite Hw in E. replace (off + w * i) with (off + w + w * (i - 1)) by lia. exact E.
Qed.

(** ** EndOffset arrays *)
(** where element [i] starts *)
Definition start_of {A} (l : list (list A)) (i : Z) : Z := zlen (concat (firstn (Z.to_nat i) l)).

Lemma start_0 {A} (l : list (list A)) : start_of l 0 = 0.
Proof. unfold start_of. now rewrite Z2Nat.inj_0, firstn_O. Qed.
Lemma start_cons {A} (b : list A) l i : 0 < i -> start_of (b :: l) i = zlen b + start_of l (i - 1).
Proof.
  intros H. unfold start_of. replace (Z.to_nat i) with (S (Z.to_nat (i - 1))) by lia.
  cbn [firstn concat]. now rewrite zlen_app.
Qed.
Lemma start_nonneg {A} (l : list (list A)) i : 0 <= start_of l i.
Proof. apply zlen_nonneg. Qed.
Lemma start_next {A} (l : list (list A)) i b : zget l i = Ok b -> start_of l (i + 1) = start_of l i + zlen b.
Proof.
  revert i. induction l as [|x l IH]; intros i E.
  - apply zget_ok_range in E. rewrite zlen_nil in E. lia.
  - pose proof (zget_ok_range _ _ _ E) as R. rewrite start_cons by lia.
    destruct (Z.eq_dec i 0) as [->|Hi].
    + rewrite zget_cons_0 in E. assert (x = b) by congruence. subst. rewrite start_0.
      replace (0 + 1 - 1) with 0 by lia. rewrite start_0. lia.
    + rewrite zget_cons_S in E by lia. apply IH in E. rewrite start_cons by lia.
      replace (i + 1 - 1) with (i - 1 + 1) by lia. rewrite E. lia.
Qed.
Lemma start_all {A} (l : list (list A)) : start_of l (zlen l) = zlen (concat l).
Proof. unfold start_of, zlen at 2. now rewrite Nat2Z.id, firstn_all. Qed.
Lemma start_le {A} (l : list (list A)) i : start_of l i <= zlen (concat l).
Proof.
  unfold start_of. rewrite <- (firstn_skipn (Z.to_nat i) l) at 2. rewrite concat_app, zlen_app.
  pose proof (zlen_nonneg (concat (skipn (Z.to_nat i) l))). lia.
Qed.
Lemma end_le {A} (l : list (list A)) i b : zget l i = Ok b -> start_of l i + zlen b <= zlen (concat l).
Proof. intros E. rewrite <- (start_next _ _ _ E). apply start_le. Qed.

Lemma zlen_end_offsets {A} acc (l : list (list A)) : zlen (end_offsets acc l) = zlen l.
Proof. revert acc. induction l; intros; cbn [end_offsets]; [reflexivity|]. now rewrite !zlen_cons, IHl. Qed.
Lemma end_offsets_get {A} (l : list (list A)) : forall acc i b, zget l i = Ok b ->
  zget (end_offsets acc l) i = Ok (acc + start_of l i + zlen b).
Proof.
  induction l as [|x l IH]; intros acc i b E.
  - apply zget_ok_range in E. rewrite zlen_nil in E. lia.
  - pose proof (zget_ok_range _ _ _ E) as R. cbn [end_offsets].
    destruct (Z.eq_dec i 0) as [->|Hi].
    + rewrite zget_cons_0 in E. rewrite zget_cons_0. assert (x = b) by congruence. subst. rewrite start_0. f_equal. lia.
    + rewrite zget_cons_S in E by lia. rewrite zget_cons_S by lia. rewrite (IH _ _ _ E), start_cons by lia. f_equal. lia.
Qed.
Lemma zlen_offsets {A} w (l : list (list A)) : zlen (offsets w l) = Z.of_nat w * zlen l.
Proof.
  unfold offsets. rewrite (zlen_concat_fixed _ (Z.of_nat w)) by (intros; apply zlen_le_digits).
  now rewrite zlen_end_offsets.
Qed.
(** the entry of element [i] *)
Lemma stored_end {A} w (l : list (list A)) d off i b : stored d off (offsets w l) -> zget l i = Ok b ->
  stored d (off + Z.of_nat w * i) (le_digits w (start_of l i + zlen b)).
Proof.
  intros H E. unfold offsets in H. apply end_offsets_get with (acc := 0) in E.
  apply (stored_array _ (Z.of_nat w) _ _ _ _ _ (fun x => zlen_le_digits w x) H) in E. exact E.
Qed.
(** the entry before it *)
Lemma zget_prev {A} (l : list A) i b : zget l i = Ok b -> 0 < i -> exists c, zget l (i - 1) = Ok c.
Proof. intros E H. apply zget_ok_range in E. apply zget_in_range. lia. Qed.
Lemma stored_start {A} w (l : list (list A)) d off i b : stored d off (offsets w l) -> zget l i = Ok b -> 0 < i ->
  stored d (off + Z.of_nat w * (i - 1)) (le_digits w (start_of l i)).
Proof.
  intros H E Hi. destruct (zget_prev _ _ _ E Hi) as [c Ec].
  replace i with (i - 1 + 1) at 2 by lia. rewrite (start_next _ _ _ Ec). now apply stored_end.
Qed.
(** the element itself *)
Lemma stored_blob (l : list (list Z)) d off i b : stored d off (concat l) -> zget l i = Ok b ->
  stored d (off + start_of l i) b.
Proof.
  revert off i. induction l as [|x l IH]; intros off i H E.
  - apply zget_ok_range in E. rewrite zlen_nil in E. lia.
  - pose proof (zget_ok_range _ _ _ E) as R. cbn [concat] in H. apply stored_app in H. destruct H as [H1 H2].
    destruct (Z.eq_dec i 0) as [->|Hi].
    + rewrite zget_cons_0 in E. assert (x = b) by congruence. subst. now rewrite start_0, Z.add_0_r.
    + rewrite zget_cons_S in E by lia. rewrite start_cons by lia. rewrite Z.add_assoc. now apply IH.
Qed.
Lemma stored_indexed w l d off : stored d off (indexed w l) ->
  stored d off (offsets w l) /\ stored d (off + Z.of_nat w * zlen l) (concat l).
Proof. intros H. apply stored_app in H. now rewrite zlen_offsets in H. Qed.
