(** Facts about the shared vocabulary. *)
From Coq Require Export Lia ZifyBool ZifyNat ZifyN.
From Verif Require Export Base.
Ltac Zify.zify_post_hook ::= Z.div_mod_to_equations.
Arguments u8 : simpl never.
Arguments u16 : simpl never.
Arguments u24 : simpl never.
Arguments u32 : simpl never.
Arguments u64 : simpl never.
Arguments i8 : simpl never.
Arguments i32 : simpl never.
Arguments Z.add : simpl never.
Arguments Z.mul : simpl never.
Arguments Z.sub : simpl never.
Arguments Z.div : simpl never.
Arguments Z.modulo : simpl never.
Arguments Z.of_nat : simpl never.
Arguments Z.to_nat : simpl never.
Arguments Z.shiftr : simpl never.
Arguments Z.shiftl : simpl never.
Arguments Z.land : simpl never.
Arguments Z.lor : simpl never.
Arguments Z.leb : simpl never.
Arguments Z.ltb : simpl never.
Arguments Z.eqb : simpl never.

Lemma bind_ok {A B} (o : outcome A) (f : A -> outcome B) b :
  bind o f = Ok b <-> exists a, o = Ok a /\ f a = Ok b.
Proof.
  split.
  - destruct o; simpl; intros H; try discriminate. eauto.
  - intros (a & -> & H). exact H.
Qed.

Lemma bind_assoc {A B C} (o : outcome A) (f : A -> outcome B) (g : B -> outcome C) :
  bind (bind o f) g = bind o (fun a => bind (f a) g).
Proof. destruct o; reflexivity. Qed.

(** ** lengths *)
Lemma zlen_nonneg {A} (l : list A) : 0 <= zlen l.
Proof. unfold zlen; lia. Qed.
Lemma zlen_nil A : zlen (@nil A) = 0.
Proof. reflexivity. Qed.
Lemma zlen_cons {A} (x : A) l : zlen (x :: l) = 1 + zlen l.
Proof. unfold zlen; cbn [length]; lia. Qed.
Lemma zlen_app {A} (l r : list A) : zlen (l ++ r) = zlen l + zlen r.
Proof. unfold zlen; rewrite app_length; lia. Qed.
Lemma zlen_map {A B} (f : A -> B) l : zlen (map f l) = zlen l.
Proof. unfold zlen; rewrite map_length; lia. Qed.
Lemma zlen_firstn {A} n (l : list A) : zlen (firstn n l) = Z.min (Z.of_nat n) (zlen l).
Proof. unfold zlen; rewrite firstn_length; lia. Qed.
Lemma zlen_skipn {A} n (l : list A) : zlen (skipn n l) = Z.max 0 (zlen l - Z.of_nat n).
Proof. unfold zlen; rewrite skipn_length; lia. Qed.
Lemma zlen_rev {A} (l : list A) : zlen (rev l) = zlen l.
Proof. unfold zlen; rewrite rev_length; lia. Qed.
Lemma zlen_repeat {A} (x : A) n : zlen (repeat x n) = Z.of_nat n.
Proof. unfold zlen; rewrite repeat_length; lia. Qed.
Lemma zlen_0_nil {A} (l : list A) : zlen l = 0 -> l = [].
Proof. destruct l; [reflexivity|rewrite zlen_cons; pose proof (zlen_nonneg l); lia]. Qed.
Lemma length_upd {A} (l : list A) n v : length (upd l n v) = length l.
Proof. revert n; induction l as [|x r IH]; intros [|n]; cbn [upd length]; auto. Qed.
Lemma zlen_upd {A} (l : list A) n v : zlen (upd l n v) = zlen l.
Proof. unfold zlen; rewrite length_upd; reflexivity. Qed.

(** ** element access *)
Lemma zget_some {A} (l : list A) i a :
  zget l i = Ok a <-> 0 <= i /\ nth_error l (Z.to_nat i) = Some a.
Proof.
  unfold zget. destruct (Z.ltb_spec i 0) as [Hi|Hi].
  - split; [discriminate|lia].
  - destruct (nth_error l (Z.to_nat i)) eqn:E.
    + split; [intros H; inversion H; subst; auto|intros [_ H]; inversion H; reflexivity].
    + split; [discriminate|intros [_ H]; discriminate].
Qed.

Lemma zget_nth {A} (l : list A) i d :
  0 <= i < zlen l -> zget l i = Ok (nth (Z.to_nat i) l d).
Proof.
  intros H. apply zget_some. split; [lia|].
  apply nth_error_nth'. unfold zlen in H. lia.
Qed.

Lemma zget_in_range {A} (l : list A) i :
  0 <= i < zlen l -> exists a, zget l i = Ok a.
Proof.
  intros H. unfold zget. destruct (Z.ltb_spec i 0) as [Hi|Hi]; [lia|].
  destruct (nth_error l (Z.to_nat i)) eqn:E; [eauto|].
  apply nth_error_None in E. unfold zlen in H. lia.
Qed.

Lemma zget_panic {A} (l : list A) i : i < 0 \/ zlen l <= i -> zget l i = Panic.
Proof.
  intros H. unfold zget. destruct (Z.ltb_spec i 0) as [Hi|Hi]; [reflexivity|].
  destruct (nth_error l (Z.to_nat i)) eqn:E; [|reflexivity].
  assert (Hlt : (Z.to_nat i < length l)%nat) by (apply nth_error_Some; congruence).
  unfold zlen in H. lia.
Qed.

Lemma zget_ok_range {A} (l : list A) i a : zget l i = Ok a -> 0 <= i < zlen l.
Proof.
  intros H. apply zget_some in H. destruct H as [H1 H2].
  assert (Hlt : (Z.to_nat i < length l)%nat) by (apply nth_error_Some; congruence).
  unfold zlen. lia.
Qed.

Lemma zget_cases {A} (l : list A) i : (exists a, zget l i = Ok a) \/ zget l i = Panic.
Proof.
  destruct (Z_lt_dec i 0) as [H|H]; [right; apply zget_panic; lia|].
  destruct (Z_lt_dec i (zlen l)); [left; apply zget_in_range; lia|right; apply zget_panic; lia].
Qed.

Lemma zget_app_l {A} (l r : list A) i : i < zlen l -> zget (l ++ r) i = zget l i.
Proof.
  intros H. unfold zget. destruct (Z.ltb_spec i 0); [reflexivity|].
  rewrite nth_error_app1; [reflexivity|]. unfold zlen in H. lia.
Qed.

Lemma zget_app_r {A} (l r : list A) i : zlen l <= i -> zget (l ++ r) i = zget r (i - zlen l).
Proof.
  intros H. unfold zget. pose proof (zlen_nonneg l) as Hl.
  destruct (Z.ltb_spec i 0); [lia|]. destruct (Z.ltb_spec (i - zlen l) 0); [lia|].
  rewrite nth_error_app2; [|unfold zlen in *; lia].
  replace (Z.to_nat i - length l)%nat with (Z.to_nat (i - zlen l)) by (unfold zlen in *; lia).
  reflexivity.
Qed.

Lemma zget_cons_0 {A} (x : A) l : zget (x :: l) 0 = Ok x.
Proof. reflexivity. Qed.
Lemma zget_cons_S {A} (x : A) l i : 0 < i -> zget (x :: l) i = zget l (i - 1).
Proof. intros H. change (x :: l) with ([x] ++ l). rewrite zget_app_r; [reflexivity|]. rewrite zlen_cons, zlen_nil. lia. Qed.

Lemma zget_in {A} (l : list A) i a : zget l i = Ok a -> In a l.
Proof. intros H. apply zget_some in H. eapply nth_error_In. apply H. Qed.

Lemma zget_map {A B} (f : A -> B) l i :
  zget (map f l) i = bind (zget l i) (fun a => Ok (f a)).
Proof.
  unfold zget. destruct (i <? 0); [reflexivity|].
  rewrite nth_error_map. destruct (nth_error l (Z.to_nat i)); reflexivity.
Qed.

Lemma nth_error_upd {A} (l : list A) n v k :
  nth_error (upd l n v) k =
  if (Nat.eqb k n && Nat.ltb k (length l))%bool then Some v else nth_error l k.
Proof.
  revert n k; induction l as [|x r IH]; intros [|n] [|k]; cbn [upd nth_error length]; try reflexivity.
  - rewrite andb_false_r. reflexivity.
  - rewrite IH. replace (Nat.eqb (S k) (S n)) with (Nat.eqb k n) by reflexivity.
    replace (Nat.ltb (S k) (S (length r))) with (Nat.ltb k (length r)); [reflexivity|].
    apply eq_true_iff_eq. rewrite !Nat.ltb_lt. lia.
Qed.

Lemma zset_ok {A} (l : list A) i v : 0 <= i < zlen l -> zset l i v = Ok (upd l (Z.to_nat i) v).
Proof. intros H. unfold zset. replace ((0 <=? i) && (i <? zlen l)) with true by lia. reflexivity. Qed.

Lemma zget_upd_same {A} (l : list A) i v : 0 <= i < zlen l -> zget (upd l (Z.to_nat i) v) i = Ok v.
Proof.
  intros H. apply zget_some. split; [lia|]. rewrite nth_error_upd.
  rewrite Nat.eqb_refl. unfold zlen in H.
  destruct (Nat.ltb_spec (Z.to_nat i) (length l)); [reflexivity|lia].
Qed.

Lemma zget_upd_other {A} (l : list A) i j v : 0 <= i -> i <> j -> zget (upd l (Z.to_nat i) v) j = zget l j.
Proof.
  intros Hi Hij. unfold zget. destruct (Z.ltb_spec j 0); [reflexivity|].
  rewrite nth_error_upd. destruct (Nat.eqb_spec (Z.to_nat j) (Z.to_nat i)); [lia|reflexivity].
Qed.

Lemma upd_app_r {A} (l r : list A) n v : upd (l ++ r) (length l + n) v = l ++ upd r n v.
Proof. induction l; cbn [app length upd Nat.add]; [reflexivity|f_equal; assumption]. Qed.

Lemma upd_middle {A} (l r : list A) x v : upd (l ++ x :: r) (length l) v = l ++ v :: r.
Proof. rewrite <- (Nat.add_0_r (length l)), upd_app_r. reflexivity. Qed.

(** ** extensionality by index *)
Lemma nth_error_ext {A} (l r : list A) : (forall n, nth_error l n = nth_error r n) -> l = r.
Proof.
  revert r; induction l as [|x l IH]; intros [|y r] H; auto.
  - specialize (H O); discriminate.
  - specialize (H O); discriminate.
  - f_equal; [specialize (H O); inversion H; reflexivity|].
    apply IH. intros n. apply (H (S n)).
Qed.

Lemma zget_ext {A} (l r : list A) : (forall i, 0 <= i -> zget l i = zget r i) -> l = r.
Proof.
  intros H. apply nth_error_ext. intros n. specialize (H (Z.of_nat n) ltac:(lia)).
  unfold zget in H. replace (Z.of_nat n <? 0) with false in H by lia.
  rewrite Nat2Z.id in H.
  destruct (nth_error l n), (nth_error r n); congruence.
Qed.

(** reads at literal indices *)
Ltac zget_lit :=
  repeat match goal with
  | |- context [zget (?x :: ?l) ?i] =>
    let n := eval vm_compute in (Z.to_nat i) in
    change (zget (x :: l) i) with
      (match nth_error (x :: l) n with Some a => Ok a | None => Panic end);
    cbn [nth_error]
  end; cbn [bind].

(** ** slices *)
Lemma zslice_ok {A} (l : list A) a b :
  0 <= a <= b -> b <= zlen l ->
  zslice l a b = Ok (firstn (Z.to_nat (b - a)) (skipn (Z.to_nat a) l)).
Proof.
  intros H1 H2. unfold zslice.
  replace ((0 <=? a) && (a <=? b) && (b <=? zlen l)) with true by lia. reflexivity.
Qed.

Lemma zslice_ok_inv {A} (l : list A) a b s :
  zslice l a b = Ok s ->
  0 <= a <= b /\ b <= zlen l /\ s = firstn (Z.to_nat (b - a)) (skipn (Z.to_nat a) l) /\ zlen s = b - a.
Proof.
  unfold zslice. destruct ((0 <=? a) && (a <=? b) && (b <=? zlen l)) eqn:E; [|discriminate].
  intros H; inversion H; subst. repeat split; try lia.
  rewrite zlen_firstn, zlen_skipn. lia.
Qed.

Lemma zslice_app {A} (p m s : list A) a b :
  a = zlen p -> b = zlen p + zlen m -> zslice (p ++ m ++ s) a b = Ok m.
Proof.
  intros -> ->. pose proof (zlen_nonneg p); pose proof (zlen_nonneg m); pose proof (zlen_nonneg s).
  rewrite zslice_ok; [|lia|rewrite !zlen_app; lia].
  f_equal.
  replace (Z.to_nat (zlen p + zlen m - zlen p)) with (length m) by (unfold zlen; lia).
  replace (Z.to_nat (zlen p)) with (length p) by (unfold zlen; lia).
  rewrite skipn_app, skipn_all, Nat.sub_diag. cbn [skipn app].
  rewrite firstn_app, firstn_all, Nat.sub_diag. cbn [firstn]. apply app_nil_r.
Qed.

Lemma zfrom_ok {A} (l : list A) a : 0 <= a <= zlen l -> zfrom l a = Ok (skipn (Z.to_nat a) l).
Proof. intros H. unfold zfrom. replace ((0 <=? a) && (a <=? zlen l)) with true by lia. reflexivity. Qed.

Lemma zfrom_app {A} (p s : list A) a : a = zlen p -> zfrom (p ++ s) a = Ok s.
Proof.
  intros ->. pose proof (zlen_nonneg p); pose proof (zlen_nonneg s).
  rewrite zfrom_ok; [|rewrite zlen_app; lia]. f_equal. unfold zlen. rewrite Nat2Z.id.
  rewrite skipn_app, skipn_all, Nat.sub_diag. reflexivity.
Qed.

(** ** bytes *)
Lemma bytes_app l r : bytes (l ++ r) <-> bytes l /\ bytes r.
Proof. apply Forall_app. Qed.
Lemma bytes_cons x l : bytes (x :: l) <-> byte x /\ bytes l.
Proof. split; [intros H; inversion H; auto|intros [? ?]; constructor; auto]. Qed.
Lemma bytes_nil : bytes [].
Proof. constructor. Qed.
Lemma bytes_get l i b : bytes l -> zget l i = Ok b -> byte b.
Proof. intros Hl H. apply zget_in in H. unfold bytes in Hl. rewrite Forall_forall in Hl. auto. Qed.
Lemma bytes_firstn n l : bytes l -> bytes (firstn n l).
Proof. unfold bytes. rewrite !Forall_forall. intros H x Hx. apply H. rewrite <- (firstn_skipn n l). apply in_or_app. auto. Qed.
Lemma bytes_skipn n l : bytes l -> bytes (skipn n l).
Proof. unfold bytes. rewrite !Forall_forall. intros H x Hx. apply H. rewrite <- (firstn_skipn n l). apply in_or_app. auto. Qed.
Lemma u8_byte x : byte (u8 x).
Proof. unfold byte, u8; lia. Qed.
Lemma u8_id x : byte x -> u8 x = x.
Proof. unfold byte, u8; lia. Qed.

(** ** bit operations as arithmetic *)
Lemma shiftl_mul x n : 0 <= n -> Z.shiftl x n = x * 2 ^ n.
Proof. intros. apply Z.shiftl_mul_pow2. assumption. Qed.
Lemma shiftr_div x n : 0 <= n -> Z.shiftr x n = x / 2 ^ n.
Proof. intros. apply Z.shiftr_div_pow2. assumption. Qed.

Lemma lor_add_shift a b n : 0 <= n -> 0 <= a < 2 ^ n -> Z.lor a (Z.shiftl b n) = a + b * 2 ^ n.
Proof.
  intros Hn Ha.
  rewrite <- shiftl_mul by assumption.
  symmetry.
  rewrite <- Z.lxor_lor.
  - apply Z.add_nocarry_lxor. apply Z.bits_inj'. intros k Hk.
    rewrite Z.land_spec, Z.bits_0.
    destruct (Z_lt_dec k n).
    + rewrite Z.shiftl_spec_low by lia. apply andb_false_r.
    + assert (Hb : Z.testbit a k = false).
      { destruct (Z.eq_dec a 0) as [->|Hne]; [apply Z.bits_0|].
        apply Z.bits_above_log2; [lia|].
        apply Z.lt_le_trans with n; [|lia]. apply Z.log2_lt_pow2; lia. }
      rewrite Hb. reflexivity.
  - apply Z.bits_inj'. intros k Hk.
    rewrite Z.land_spec, Z.bits_0.
    destruct (Z_lt_dec k n).
    + rewrite Z.shiftl_spec_low by lia. apply andb_false_r.
    + assert (Hb : Z.testbit a k = false).
      { destruct (Z.eq_dec a 0) as [->|Hne]; [apply Z.bits_0|].
        apply Z.bits_above_log2; [lia|].
        apply Z.lt_le_trans with n; [|lia]. apply Z.log2_lt_pow2; lia. }
      rewrite Hb. reflexivity.
Qed.

(** ** the lower-bound loop *)
Lemma lower_bound_loop_spec (fuel : nat) (less : Z -> outcome bool) (p : Z -> bool) lo hi :
  lo <= hi -> hi - lo < 2 ^ Z.of_nat fuel ->
  (forall i, lo <= i < hi -> less i = Ok (p i)) ->
  (forall i j, lo <= i -> i <= j -> j < hi -> p j = true -> p i = true) ->
  exists r, lower_bound_loop fuel less lo hi = Ok r /\ lo <= r <= hi /\
    (forall i, lo <= i < r -> p i = true) /\ (forall i, r <= i < hi -> p i = false).
Proof.
  revert lo hi. induction fuel as [|fuel IH]; intros lo hi Hle Hf Hless Hmono; cbn [lower_bound_loop].
  - change (2 ^ Z.of_nat 0) with 1 in Hf. destruct (Z.ltb_spec lo hi); [lia|].
    exists lo. repeat split; auto; lia.
  - destruct (Z.ltb_spec lo hi) as [Hlt|Hge].
    + rewrite shiftr_div by lia. change (2 ^ 1) with 2.
      set (mid := (lo + hi) / 2).
      assert (Hmid : lo <= mid < hi) by (unfold mid; lia).
      rewrite Nat2Z.inj_succ, Z.pow_succ_r in Hf by lia.
      rewrite (Hless mid Hmid). cbn [bind].
      destruct (p mid) eqn:Ep.
      * destruct (IH (mid + 1) hi) as (r & Hr & Hr1 & Hr2 & Hr3).
        -- lia.
        -- unfold mid; lia.
        -- intros i Hi. apply Hless. lia.
        -- intros i j Hi Hij Hj. apply Hmono; lia.
        -- exists r. split; [exact Hr|]. split; [lia|]. split; [|exact Hr3].
           intros i Hi. destruct (Z_le_dec i mid); [apply (Hmono i mid); lia || auto|apply Hr2; lia].
      * destruct (IH lo mid) as (r & Hr & Hr1 & Hr2 & Hr3).
        -- lia.
        -- unfold mid; lia.
        -- intros i Hi. apply Hless. lia.
        -- intros i j Hi Hij Hj. apply Hmono; lia.
        -- exists r. split; [exact Hr|]. split; [lia|]. split; [exact Hr2|].
           intros i Hi. destruct (Z_lt_dec i mid); [apply Hr3; lia|].
           destruct (p i) eqn:Ei; [|reflexivity].
           rewrite <- Ep. symmetry. apply (Hmono mid i); auto; lia.
    + exists lo. repeat split; auto; lia.
Qed.

(** A search whose comparisons all succeed never panics, whatever the data. *)
Lemma lower_bound_loop_total (fuel : nat) (less : Z -> outcome bool) lo hi :
  lo <= hi -> hi - lo < 2 ^ Z.of_nat fuel ->
  (forall i, lo <= i < hi -> exists b, less i = Ok b) ->
  exists r, lower_bound_loop fuel less lo hi = Ok r /\ lo <= r <= hi.
Proof.
  revert lo hi. induction fuel as [|fuel IH]; intros lo hi Hle Hf Hless; cbn [lower_bound_loop].
  - change (2 ^ Z.of_nat 0) with 1 in Hf. destruct (Z.ltb_spec lo hi); [lia|].
    exists lo. split; [reflexivity|lia].
  - destruct (Z.ltb_spec lo hi) as [Hlt|Hge].
    + rewrite shiftr_div by lia. change (2 ^ 1) with 2.
      set (mid := (lo + hi) / 2).
      assert (Hmid : lo <= mid < hi) by (unfold mid; lia).
      rewrite Nat2Z.inj_succ, Z.pow_succ_r in Hf by lia.
      destruct (Hless mid Hmid) as [b ->]. cbn [bind]. destruct b.
      * destruct (IH (mid + 1) hi) as (r & Hr & Hr1); [lia|unfold mid; lia|intros; apply Hless; lia|].
        exists r. split; [exact Hr|lia].
      * destruct (IH lo mid) as (r & Hr & Hr1); [lia|unfold mid; lia|intros; apply Hless; lia|].
        exists r. split; [exact Hr|lia].
    + exists lo. split; [reflexivity|lia].
Qed.

(** ** monadic folds *)
Lemma ofold_app {A S} (f : S -> A -> outcome S) l r s :
  ofold f (l ++ r) s = bind (ofold f l s) (ofold f r).
Proof.
  revert s; induction l as [|x l IH]; intros s; cbn [app ofold]; [reflexivity|].
  rewrite bind_assoc. destruct (f s x); cbn [bind]; auto.
Qed.

Lemma zlen_zseq n : 0 <= n -> zlen (zseq n) = n.
Proof. intros. unfold zseq. rewrite zlen_map. unfold zlen. rewrite seq_length. lia. Qed.

Lemma in_zseq n i : In i (zseq n) <-> 0 <= i < n.
Proof.
  unfold zseq. rewrite in_map_iff. split.
  - intros (k & <- & Hk). apply in_seq in Hk. lia.
  - intros H. exists (Z.to_nat i). split; [lia|]. apply in_seq. lia.
Qed.

(** ** finite checks over bytes *)
Lemma byte_forallb (p : Z -> bool) : forallb p (zseq 256) = true -> forall b, byte b -> p b = true.
Proof.
  intros H b Hb. rewrite forallb_forall in H. apply H. apply in_zseq. exact Hb.
Qed.

(** ** more list facts *)
Lemma filter_all {A} (p : A -> bool) l : (forall x, In x l -> p x = true) -> filter p l = l.
Proof.
  induction l as [|x l IH]; intros H; cbn [filter]; [reflexivity|].
  rewrite (H x) by (left; auto). f_equal. apply IH. intros; apply H; right; auto.
Qed.
Lemma filter_none {A} (p : A -> bool) l : (forall x, In x l -> p x = false) -> filter p l = [].
Proof.
  induction l as [|x l IH]; intros H; cbn [filter]; [reflexivity|].
  rewrite (H x) by (left; auto). apply IH. intros; apply H; right; auto.
Qed.
Lemma nth_error_firstn {A} (l : list A) n k :
  nth_error (firstn n l) k = if Nat.ltb k n then nth_error l k else None.
Proof.
  revert n k; induction l as [|x l IH]; intros [|n] [|k]; cbn [firstn nth_error]; try reflexivity.
  - destruct (Nat.ltb _ _); reflexivity.
  - rewrite IH. reflexivity.
Qed.
Lemma nth_error_skipn {A} (l : list A) n k : nth_error (skipn n l) k = nth_error l (n + k).
Proof.
  revert n; induction l as [|x l IH]; intros [|n]; cbn [skipn Nat.add nth_error]; try reflexivity.
  - destruct k; reflexivity.
  - apply IH.
Qed.
Lemma firstn_skipn_cons {A} (l : list A) n x :
  nth_error l n = Some x -> l = firstn n l ++ x :: skipn (S n) l.
Proof.
  revert n; induction l as [|y l IH]; intros [|n] H; cbn in *; try discriminate.
  - inversion H; reflexivity.
  - f_equal. apply IH. exact H.
Qed.
Lemma firstn_length_app {A} (l r : list A) n : n = length l -> firstn n (l ++ r) = l.
Proof. intros ->. rewrite firstn_app, firstn_all, Nat.sub_diag. cbn [firstn]. apply app_nil_r. Qed.
Lemma skipn_length_app {A} (l r : list A) n : n = length l -> skipn n (l ++ r) = r.
Proof. intros ->. rewrite skipn_app, skipn_all, Nat.sub_diag. reflexivity. Qed.

Lemma bytes_check (l : list Z) : forallb (fun b => (0 <=? b) && (b <? 256)) l = true -> bytes l.
Proof.
  intros H. apply Forall_forall. intros x Hx. rewrite forallb_forall in H. specialize (H x Hx).
  apply andb_true_iff in H as [H1 H2]. apply Z.leb_le in H1. apply Z.ltb_lt in H2. unfold byte. lia.
Qed.
