(** Edition data is read without looking ahead, and every error of the reader is reported. *)
From Verif Require Import Base BaseFacts Model_Helpers Spec_Helpers Proofs_Helpers Model_Font Model_Parse Spec_Parse
  Model_Builder Model_Edition Spec_Failing Proofs_Failing.
From Coq Require Import Lia.

Definition steady {A} (a : eaction A) (w : wk) (b : list Z) (j : Z) (g : stream) : Prop :=
  exists w' v b' j' g', undisturbed g' /\ b' ++ sent g' = b ++ sent g /\ j' <= zlen b' /\
    forall r, a w (at_ b j (g ++ r)) = (w', POk v (at_ b' j' (g' ++ r))).
Definition settled {A} (a : eaction A) (w : wk) (b : list Z) (j : Z) (g : stream) : Prop :=
  exists w', (exists e, forall r, exists s', a w (at_ b j (g ++ r)) = (w', PErr e s')) \/
    (forall r, a w (at_ b j (g ++ r)) = (w', PPanic)) \/ (forall r, a w (at_ b j (g ++ r)) = (w', PHang)).
Definition tells {A} (a : eaction A) (w : wk) (b : list Z) (j : Z) (g : stream) : Prop :=
  forall c m rest, zlen (b ++ sent g ++ c) <= MaxFontDataSize -> exists w' s', a w (at_ b j (g ++ (c, Fail m) :: rest)) = (w', PErr m s').
Definition open {A} (a : eaction A) : Prop := forall w b j g, undisturbed g -> j <= zlen b -> steady a w b j g \/ settled a w b j g \/ tells a w b j g.

Lemma open_bind {A B} (a : eaction A) (k : A -> eaction B) : open a -> (forall v, open (k v)) -> open (ebind a k).
Proof.
  intros H1 H2 w b j g U J. destruct (H1 w b j g U J) as [(w' & v & b' & j' & g' & U' & E & J' & R)|[(w' & [(e & R)|[R|R]])|R]].
  - destruct (H2 v w' b' j' g' U' J') as [(w2 & x & b2 & j2 & g2 & U2 & E2 & J2 & R2)|[(w2 & [(e & R2)|[R2|R2]])|R2]].
    + left. exists w2, x, b2, j2, g2. split; [exact U2|]. split; [congruence|]. split; [exact J2|]. intros r. unfold ebind. rewrite R. apply R2.
    + right. left. exists w2. left. exists e. intros r. unfold ebind. rewrite R. apply R2.
    + right. left. exists w2. right. left. intros r. unfold ebind. rewrite R. apply R2.
    + right. left. exists w2. right. right. intros r. unfold ebind. rewrite R. apply R2.
    + right. right. intros c m rest L. unfold ebind. rewrite R. apply R2. rewrite app_assoc in *. rewrite E. exact L.
  - right. left. exists w'. left. exists e. intros r. unfold ebind. destruct (R r) as [s' ->]. eauto.
  - right. left. exists w'. right. left. intros r. unfold ebind. now rewrite R.
  - right. left. exists w'. right. right. intros r. unfold ebind. now rewrite R.
  - right. right. intros c m rest L. unfold ebind. destruct (R c m rest L) as (w' & s' & ->). eauto.
Qed.
Lemma lift_bind {A B} (a : action A) (k : A -> action B) : open (lift a) -> (forall v, open (lift (k v))) -> open (lift (pbind a k)).
Proof.
  intros H1 H2 w b j g U J.
  assert (X : forall s, lift (pbind a k) w s = ebind (lift a) (fun v => lift (k v)) w s).
  { intros s. unfold lift, ebind, pbind. destruct (a s); reflexivity. }
  pose proof (open_bind _ _ H1 H2 w b j g U J) as K. unfold steady, settled, tells in *.
  destruct K as [(w' & v & b' & j' & g' & U' & E & J' & R)|[(w' & [(e & R)|[R|R]])|R]].
  - left. exists w', v, b', j', g'. split; [exact U'|]. split; [exact E|]. split; [exact J'|]. intros r. rewrite X. apply R.
  - right. left. exists w'. left. exists e. intros r. rewrite X. apply R.
  - right. left. exists w'. right. left. intros r. rewrite X. apply R.
  - right. left. exists w'. right. right. intros r. rewrite X. apply R.
  - right. right. intros c m rest L. rewrite X. now apply R.
Qed.
Lemma open_ret {A} (v : A) : open (lift (pret v)).
Proof. intros w b j g U J. left. exists w, v, b, j, g. auto. Qed.
Lemma open_when x e : open (lift (when x e)).
Proof.
  unfold when. destruct x; [|apply open_ret]. intros w b j g U J. right. left. exists w. left. exists e. intros r. eexists. reflexivity.
Qed.
Lemma open_index : open (lift get_index).
Proof. intros w b j g U J. left. exists w, j, b, j, g. auto. Qed.
Lemma open_on {A} (f : list Z -> outcome A) : open (lift (on_bytes f)).
Proof.
  intros w b j g U J. unfold steady, settled, lift, on_bytes. cbn [at_ Bytes]. destruct (f b) as [v|e| |].
  - left. exists w, v, b, j, g. auto.
  - right. left. exists w. left. exists e. intros r. eauto.
  - right. left. exists w. right. left. reflexivity.
  - right. left. exists w. right. right. reflexivity.
Qed.
Lemma open_readUpTo n : open (lift (readUpTo n)).
Proof.
  intros w b j g U J. unfold steady, settled, tells, lift, readUpTo. cbn [at_ Index input]. destruct (n <=? j); [right; left; exists w; right; left; reflexivity|].
  assert (LF : forall r : stream, (length g < S (S (length (g ++ r))))%nat) by (intros r; rewrite app_length; lia).
  destruct (prompt_upto n (length g) b j g (le_n _) U) as [(b' & g' & U' & E & N & R)|[(e & R)|R]].
  - left. exists w, tt, b', n, g'. split; [exact U'|]. split; [exact E|]. split; [exact N|]. intros r. now rewrite (R r _ (LF r)).
  - right. left. exists w. left. exists e. intros r. destruct (R r _ (LF r)) as [s' E]. exists s'. now rewrite E.
  - right. right. intros c m rest L. destruct (R c m rest _ L (LF ((c, Fail m) :: rest))) as [s' E]. exists w, s'. now rewrite E.
Qed.
Lemma open_read {A} n (d : list Z -> outcome A) : open (lift (read_with n d)).
Proof. unfold read_with. apply lift_bind; [apply open_index|]. intros. apply lift_bind; [apply open_readUpTo|]. intros. apply open_on. Qed.
Lemma open_str n : open (lift (read_str n)).
Proof.
  unfold read_str. destruct (n =? 0); [apply open_ret|]. apply lift_bind; [apply open_index|]. intros. apply lift_bind; [apply open_readUpTo|]. intros. apply open_on.
Qed.
Lemma open_name : open (lift read_name).
Proof.
  unfold read_name, ReadShortStr. apply lift_bind; [apply lift_bind; [apply open_read|intros; apply open_str]|]. intros v. apply lift_bind; [apply open_on|].
  intros. apply open_ret.
Qed.
Lemma open_modify f : open (modify f).
Proof. intros w b j g U J. left. exists (f w), tt, b, j, g. auto. Qed.
Lemma open_attempt f : open (attempt f).
Proof.
  intros w b j g U J. unfold steady, settled, attempt. destruct (f w) as [w'|e| |].
  - left. exists w', tt, b, j, g. auto.
  - right. left. exists w. left. exists e. intros r. eauto.
  - right. left. exists w. right. left. reflexivity.
  - right. left. exists w. right. right. reflexivity.
Qed.
Lemma open_repeatedly m : (forall i, open (m i)) -> forall n from, open (repeatedly n from m).
Proof.
  intros H. induction n as [|n IH]; intros from; cbn [repeatedly]; [apply open_ret|]. apply open_bind; [apply H|]. intros _. apply IH.
Qed.
(** the end of the file: never reached without the reader saying so *)
Lemma eof_open w b j g : undisturbed g -> settled (lift EnsureEOF) w b j g \/ tells (lift EnsureEOF) w b j g.
Proof.
  intros U. unfold settled, tells, lift.
  assert (X : forall i, EnsureEOF (at_ b j i) = match readMore_loop 3 (at_ b j i) with
    | POk _ s' => if Index s' >? j then PErr "file continues beyond the expected end" s' else if negb (eof s') then PPanic else POk tt s' | r => r end).
  { intros i. reflexivity. }
  destruct (prompt_more 3 b j g U) as [(b' & g' & _ & _ & _ & _ & R)|[(e & R)|R]].
  - left. exists w. right. left. intros r. rewrite X, R. cbn [at_ Index eof]. rewrite Z.gtb_ltb, Z.ltb_irrefl. reflexivity.
  - left. exists w. left. exists e. intros r. destruct (R r) as [s' E]. exists s'. now rewrite X, E.
  - right. intros c m rest L. destruct (R c m rest L) as [s' E]. exists w, s'. now rewrite X, E.
Qed.

Lemma edition_open w g : undisturbed g -> settled read_edition w [] 0 g \/ tells read_edition w [] 0 g.
Proof.
  intros U.
  assert (X : exists pre : eaction unit, open pre /\ forall w s, read_edition w s = ebind pre (fun _ => lift EnsureEOF) w s).
  { exists (edo id <- lift ReadUint64;
      edo _ <- attempt (fun w => if id =? bh_ID (b_header (wk_b w)) then Ok w else Err "edition data doesn't match current font ID");
      edo _ <- read_categories; edo _ <- read_classes; edo _ <- read_pairs set_horz; edo _ <- read_pairs set_vert; read_conditions).
    split.
    - assert (P : forall set, open (read_pairs set)).
      { intros set. unfold read_pairs. apply open_bind; [apply open_read|]. intros n. apply open_repeatedly. intros i.
        repeat (apply open_bind; [first [apply open_read|apply open_when]|intro]). apply open_attempt. }
      apply open_bind; [apply open_read|]. intros id. apply open_bind; [apply open_attempt|]. intros _.
      apply open_bind.
      { unfold read_categories. apply open_bind; [apply open_read|]. intros n. apply open_bind.
        - apply open_repeatedly. intros i. apply open_bind; [apply open_name|]. intros. apply open_modify.
        - intros _. apply open_repeatedly. intros i. apply open_bind; [apply open_read|]. intros. first [apply open_modify|apply open_attempt]. }
      intros _. apply open_bind.
      { unfold read_classes. apply open_bind; [apply open_read|]. intros n. apply open_bind.
        - apply open_repeatedly. intros i. apply open_bind; [apply open_name|]. intros. apply open_modify.
        - intros _. apply open_repeatedly. intros i. apply open_bind; [apply open_read|]. intros. first [apply open_modify|apply open_attempt]. }
      intros _. apply open_bind; [apply P|]. intros _. apply open_bind; [apply P|]. intros _.
      unfold read_conditions. apply open_bind; [apply open_read|]. intros n. apply open_bind; [apply open_when|]. intros _. apply open_bind; [apply open_attempt|].
      intros _. apply open_repeatedly. intros i. apply open_bind; [apply open_name|]. intros. apply open_attempt.
    - intros w0 s. unfold read_edition.
      assert (AS : forall A B C (a : eaction A) (k : A -> eaction B) (h : B -> eaction C) w s, ebind a (fun x => ebind (k x) h) w s = ebind (ebind a k) h w s).
      { intros A B C a k h w1 s1. unfold ebind. destruct (a w1 s1) as [w2 [v s2|e s2| |]]; reflexivity. }
      assert (EX : forall A B (a : eaction A) (k k' : A -> eaction B) w s, (forall v w s, k v w s = k' v w s) -> ebind a k w s = ebind a k' w s).
      { intros A B a k k' w1 s1 H. unfold ebind. destruct (a w1 s1) as [w2 [v s2|e s2| |]]; auto. }
      rewrite <- AS. apply EX. intros id w1 s1. rewrite <- AS. apply EX. intros _ w2 s2. rewrite <- AS. apply EX. intros _ w3 s3.
      rewrite <- AS. apply EX. intros _ w4 s4. rewrite <- AS. apply EX. intros _ w5 s5. rewrite <- AS. apply EX. intros _ w6 s6. reflexivity. }
  destruct X as (pre & O & X). unfold settled, tells.
  destruct (O w [] 0 g U ltac:(change (zlen []) with 0; lia)) as [(w' & v & b' & j' & g' & U' & E & J' & R)|[(w' & [(e & R)|[R|R]])|R]].
  - destruct (eof_open w' b' j' g' U') as [(w2 & [(e & R2)|[R2|R2]])|R2].
    + left. exists w2. left. exists e. intros r. rewrite X. unfold ebind. rewrite R. apply R2.
    + left. exists w2. right. left. intros r. rewrite X. unfold ebind. rewrite R. apply R2.
    + left. exists w2. right. right. intros r. rewrite X. unfold ebind. rewrite R. apply R2.
    + right. intros c m rest L. rewrite X. unfold ebind. rewrite R. apply R2. rewrite app_assoc in *. rewrite E. exact L.
  - left. exists w'. left. exists e. intros r. rewrite X. unfold ebind. destruct (R r) as [s' ->]. eauto.
  - left. exists w'. right. left. intros r. rewrite X. unfold ebind. now rewrite R.
  - left. exists w'. right. right. intros r. rewrite X. unfold ebind. now rewrite R.
  - right. intros c m rest L. rewrite X. unfold ebind. destruct (R c m rest L) as (w' & s' & ->). eauto.
Qed.

Lemma edition_failing w g c m rest : undisturbed g -> zlen (sent g ++ c) <= MaxFontDataSize ->
  (exists w', ParseEditionData w (edition_signature, NoErr) None (g ++ (c, Fail m) :: rest) = (w', Err m)) \/
  (exists w' res, res <> Ok tt /\ forall r, ParseEditionData w (edition_signature, NoErr) None (g ++ r) = (w', res)).
Proof.
  intros U L.
  assert (P : forall i, ParseEditionData w (edition_signature, NoErr) None i = match read_edition (ClearEditionData w) (initial i) with
    | (w', POk _ _) => (w', Ok tt) | (w', PErr m _) => (ClearEditionData w', Err m) | (w', PPanic) => (ClearEditionData w', Panic) | (w', PHang) => (ClearEditionData w', Hang) end).
  { intros i. reflexivity. }
  destruct (edition_open (ClearEditionData w) g U) as [(w' & [(e & R)|[R|R]])|R].
  - right. exists (ClearEditionData w'), (Err e). split; [discriminate|]. intros r. rewrite P. change (initial (g ++ r)) with (at_ [] 0 (g ++ r)).
    destruct (R r) as [s' ->]. reflexivity.
  - right. exists (ClearEditionData w'), Panic. split; [discriminate|]. intros r. rewrite P. change (initial (g ++ r)) with (at_ [] 0 (g ++ r)). now rewrite R.
  - right. exists (ClearEditionData w'), Hang. split; [discriminate|]. intros r. rewrite P. change (initial (g ++ r)) with (at_ [] 0 (g ++ r)). now rewrite R.
  - left. destruct (R c m rest L) as (w' & s' & E). exists (ClearEditionData w'). rewrite P.
    change (initial (g ++ (c, Fail m) :: rest)) with (at_ [] 0 (g ++ (c, Fail m) :: rest)). now rewrite E.
Qed.
