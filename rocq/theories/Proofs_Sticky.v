(** Parse over readers that go on failing never returns a font. *)
From Verif Require Import Base BaseFacts Model_Helpers Spec_Helpers Proofs_Helpers Model_Font Model_Parse Spec_Parse
  Proofs_Parse Proofs_Parse2 Proofs_Parse3 Proofs_Parse4 Proofs_Parse5 Proofs_Parse6 Proofs_Parse7 Proofs_Parse8.
From Verif Require Import Spec_Reader Proofs_Reader Proofs_Parse9 Spec_Failing Proofs_Failing Spec_Sticky.
From Coq Require Import Lia.

Notation total b g := (zlen b + zlen (sent g)).
Lemma total_app b g c : zlen (b ++ sent g ++ c) = total b g + zlen c.
Proof. rewrite !zlen_app. lia. Qed.

(** ** Reading, with the states after errors *)
Lemma states_more : forall k b j g, undisturbed g -> j <= zlen b ->
  (exists b' g', undisturbed g' /\ total b' g' = total b g /\ j <= zlen b' /\ (length g' < length g)%nat /\
     forall r, readMore_loop k (at_ b j (g ++ r)) = POk tt (at_ b' j (g' ++ r))) \/
  (exists e b' g', undisturbed g' /\ total b' g' = total b g /\ j <= zlen b' /\ forall r, readMore_loop k (at_ b j (g ++ r)) = PErr e (at_ b' j (g' ++ r))) \/
  (forall c m rest, total b g + zlen c <= MaxFontDataSize -> exists b', j <= zlen b' /\ readMore_loop k (at_ b j (g ++ (c, Fail m) :: rest)) = PErr m (at_ b' j rest)).
Proof.
  induction k as [|k IH]; intros b j g U J; [right; left; eexists; exists b, g; split; [exact U|]; split; [reflexivity|]; split; [exact J|]; intros r; reflexivity|].
  destruct g as [|[chunk err] g].
  - right. right. intros c m rest L. change (zlen (sent [])) with 0 in L. exists (b ++ c). split; [rewrite zlen_app; pose proof (zlen_nonneg c); lia|].
    cbn [app readMore_loop at_ input next_read Bytes].
    destruct (Z.ltb_spec MaxFontDataSize (zlen b + zlen c)); [lia|]. rewrite andb_false_r. reflexivity.
  - pose proof (Forall_inv U) as U1. cbn [snd] in U1. subst err. apply Forall_inv_tail in U. change (sent ((chunk, NoErr) :: g)) with (chunk ++ sent g). rewrite zlen_app.
    pose proof (zlen_nonneg chunk) as PC. cbn [app readMore_loop at_ input next_read Bytes Index eof].
    destruct ((0 <? zlen chunk) && (MaxFontDataSize <? zlen b + zlen chunk)) eqn:E1.
    { right. left. eexists. exists (b ++ repeat 0 (length chunk)), g. split; [exact U|].
      assert (ZR : zlen (repeat 0 (length chunk)) = zlen chunk) by (unfold zlen; now rewrite repeat_length).
      split; [rewrite zlen_app; lia|]. split; [rewrite zlen_app; lia|]. intros r. reflexivity. }
    destruct (0 <? zlen chunk) eqn:E2.
    + left. exists (b ++ chunk), g. split; [exact U|]. split; [rewrite zlen_app; lia|]. split; [rewrite zlen_app; lia|].
      split; [cbn [length]; lia|]. reflexivity.
    + assert (chunk = []) by (destruct chunk; [reflexivity|rewrite zlen_cons in E2; pose proof (zlen_nonneg chunk); apply Z.ltb_ge in E2; lia]). subst chunk.
      rewrite app_nil_r. change (zlen []) with 0. replace (zlen b + (0 + zlen (sent g))) with (total b g) by lia.
      destruct (IH b j g U J) as [(b' & g' & H1 & H2 & H3 & H4 & H5)|[(e & b' & g' & H1 & H2 & H3 & R)|R]].
      * left. exists b', g'. split; [exact H1|]. split; [exact H2|]. split; [exact H3|]. split; [cbn [length]; lia|exact H5].
      * right. left. exists e, b', g'. split; [exact H1|]. split; [exact H2|]. split; [exact H3|]. exact R.
      * right. right. exact R.
Qed.
Lemma states_upto n : forall l b j g, (length g <= l)%nat -> undisturbed g -> j <= zlen b ->
  (exists b' g', undisturbed g' /\ total b' g' = total b g /\ n <= zlen b' /\
     forall r fuel, (length g < fuel)%nat -> readUpTo_loop fuel n (at_ b j (g ++ r)) = POk tt (at_ b' n (g' ++ r))) \/
  (exists e b' g', undisturbed g' /\ total b' g' = total b g /\ j <= zlen b' /\
     forall r fuel, (length g < fuel)%nat -> readUpTo_loop fuel n (at_ b j (g ++ r)) = PErr e (at_ b' j (g' ++ r))) \/
  (forall c m rest fuel, total b g + zlen c <= MaxFontDataSize -> (length g < fuel)%nat -> exists b', j <= zlen b' /\
     readUpTo_loop fuel n (at_ b j (g ++ (c, Fail m) :: rest)) = PErr m (at_ b' j rest)).
Proof.
  induction l as [|l IH]; intros b j g L U J; (destruct (Z.ltb_spec (zlen b) n) as [Hn|Hn];
    [|left; exists b, g; split; [exact U|]; split; [reflexivity|]; split; [exact Hn|]; intros r fuel _; destruct fuel; cbn [readUpTo_loop at_ Bytes];
      (destruct (Z.ltb_spec (zlen b) n); [lia|reflexivity])]).
  - assert (g = []) by (destruct g; [reflexivity|cbn in L; lia]). subst g.
    right. right. intros c m rest fuel LS LF. destruct fuel as [|fuel]; [cbn in LF; lia|].
    destruct (states_more 3 b j [] U J) as [(b' & g' & _ & _ & _ & X & _)|[(e & b' & g' & _ & _ & _ & R)|R]]; [cbn in X; lia| |].
    + specialize (R []). discriminate R.
    + destruct (R c m rest LS) as (b' & J' & R'). exists b'. split; [exact J'|].
      transitivity (pbind (readMore_loop 3) (fun _ => readUpTo_loop fuel n) (at_ b j ([] ++ (c, Fail m) :: rest))).
      * cbn [readUpTo_loop at_ Bytes eof app]. destruct (Z.ltb_spec (zlen b) n); [reflexivity|lia].
      * unfold pbind. rewrite R'. reflexivity.
  - assert (ST : forall r fuel, readUpTo_loop (S fuel) n (at_ b j (g ++ r)) = pbind (readMore_loop 3) (fun _ => readUpTo_loop fuel n) (at_ b j (g ++ r))).
    { intros r fuel. cbn [readUpTo_loop at_ Bytes eof]. destruct (Z.ltb_spec (zlen b) n); [reflexivity|lia]. }
    destruct (states_more 3 b j g U J) as [(b' & g' & U' & E & LB & X & R)|[(e & b' & g' & U' & E & LB & R)|R]].
    + destruct (IH b' j g' ltac:(lia) U' LB) as [(b2 & g2 & U2 & E2 & N2 & R2)|[(e & b2 & g2 & U2 & E2 & N2 & R2)|R2]].
      * left. exists b2, g2. split; [exact U2|]. split; [congruence|]. split; [exact N2|]. intros r fuel LF. destruct fuel as [|fuel]; [lia|].
        rewrite ST. unfold pbind. rewrite R. apply R2. lia.
      * right. left. exists e, b2, g2. split; [exact U2|]. split; [congruence|]. split; [exact N2|]. intros r fuel LF. destruct fuel as [|fuel]; [lia|].
        rewrite ST. unfold pbind. rewrite R. apply R2. lia.
      * right. right. intros c m rest fuel LS LF. destruct fuel as [|fuel]; [lia|]. rewrite ST. unfold pbind. rewrite R. apply R2; [|lia]. rewrite E. exact LS.
    + right. left. exists e, b', g'. split; [exact U'|]. split; [exact E|]. split; [exact LB|]. intros r fuel LF. destruct fuel as [|fuel]; [lia|]. rewrite ST. unfold pbind. now rewrite R.
    + right. right. intros c m rest fuel LS LF. destruct fuel as [|fuel]; [lia|]. rewrite ST. unfold pbind. destruct (R c m rest LS) as (b' & J' & ->). eauto.
Qed.
Lemma states_readUpTo n b j g : undisturbed g -> j <= zlen b ->
  (exists b' g', undisturbed g' /\ total b' g' = total b g /\ n <= zlen b' /\ forall r, readUpTo n (at_ b j (g ++ r)) = POk tt (at_ b' n (g' ++ r))) \/
  (exists e b' g', undisturbed g' /\ total b' g' = total b g /\ j <= zlen b' /\ forall r, readUpTo n (at_ b j (g ++ r)) = PErr e (at_ b' j (g' ++ r))) \/
  (forall r, readUpTo n (at_ b j r) = PPanic) \/
  (forall c m rest, total b g + zlen c <= MaxFontDataSize -> exists b', j <= zlen b' /\ readUpTo n (at_ b j (g ++ (c, Fail m) :: rest)) = PErr m (at_ b' j rest)).
Proof.
  intros U J. unfold readUpTo. cbn [at_ Index input]. destruct (n <=? j); [right; right; left; reflexivity|].
  assert (LF : forall r : stream, (length g < S (S (length (g ++ r))))%nat) by (intros r; rewrite app_length; lia).
  destruct (states_upto n (length g) b j g (le_n _) U J) as [(b' & g' & U' & E & N & R)|[(e & b' & g' & U' & E & N & R)|R]].
  - left. exists b', g'. split; [exact U'|]. split; [exact E|]. split; [exact N|]. intros r. apply (R r _ (LF r)).
  - right. left. exists e, b', g'. split; [exact U'|]. split; [exact E|]. split; [exact N|]. intros r. apply (R r _ (LF r)).
  - right. right. right. intros c m rest L. exact (R c m rest _ L (LF ((c, Fail m) :: rest))).
Qed.

(** ** The kernings before the failure *)
Lemma kernings_form n msg b j i : parse_kernings n msg (at_ b j i) =
  match ReadUint24 (at_ b j i) with
  | POk num s => (if num >? 0 then run _ <- when (num >? n * n) msg; run _ <- AdvanceBytes (num * 5); pret j else pret j) s
  | PErr _ s => POk j s | PPanic => PPanic | PHang => PHang end.
Proof. unfold parse_kernings. unfold pbind at 1. cbn [get_index at_ Index]. unfold pbind at 1, ignore_err. destruct (ReadUint24 _); reflexivity. Qed.
Lemma read24_form b j i : ReadUint24 (at_ b j i) =
  match readUpTo (j + 3) (at_ b j i) with POk _ s => on_bytes (fun b => do t <- zfrom b j; DecodeUint24LE t) s | PErr e s => PErr e s | PPanic => PPanic | PHang => PHang end.
Proof. reflexivity. Qed.
Lemma advance_form n b j i : AdvanceBytes n (at_ b j i) = if n =? 0 then POk tt (at_ b j i) else if n <? 0 then PPanic else readUpTo (j + n) (at_ b j i).
Proof. unfold AdvanceBytes. destruct (n =? 0); [reflexivity|]. destruct (n <? 0); reflexivity. Qed.

Definition same_end {A} (a : action A) (b : list Z) (j : Z) (g : stream) : Prop :=
  (exists e, forall r, exists s', a (at_ b j (g ++ r)) = PErr e s') \/ (forall r, a (at_ b j (g ++ r)) = PPanic) \/ (forall r, a (at_ b j (g ++ r)) = PHang).
Lemma kernings_before n msg b j g : undisturbed g -> j <= zlen b -> let a := parse_kernings n msg in
  (exists v b' j' g', undisturbed g' /\ total b' g' = total b g /\ j' <= zlen b' /\ forall r, a (at_ b j (g ++ r)) = POk v (at_ b' j' (g' ++ r))) \/
  same_end a b j g \/
  (forall c m rest, total b g + zlen c <= MaxFontDataSize -> (exists s', a (at_ b j (g ++ (c, Fail m) :: rest)) = PErr m s') \/
     (exists v b' j', j' <= zlen b' /\ a (at_ b j (g ++ (c, Fail m) :: rest)) = POk v (at_ b' j' rest))).
Proof.
  intros U J a. unfold a, same_end.
  destruct (states_readUpTo (j + 3) b j g U J) as [(b' & g' & U' & E & N & R)|[(e & b' & g' & U' & E & N & R)|[R|R]]].
  - assert (F : forall r, ReadUint24 (at_ b j (g ++ r)) = on_bytes (fun b => do t <- zfrom b j; DecodeUint24LE t) (at_ b' (j + 3) (g' ++ r))).
    { intros r. rewrite read24_form, R. reflexivity. }
    unfold on_bytes in F. cbn [at_ Bytes] in F. destruct (do t <- zfrom b' j; DecodeUint24LE t) as [num|e| |] eqn:ED.
    + destruct (Z.gtb_spec num 0) as [Hn|Hn].
      * destruct (num >? n * n) eqn:EW.
        { right. left. left. exists msg. intros r. exists (at_ b' (j + 3) (g' ++ r)). rewrite kernings_form, F. destruct (Z.gtb_spec num 0); [|lia]. rewrite EW. reflexivity. }
        assert (K : forall r, parse_kernings n msg (at_ b j (g ++ r)) = match readUpTo (j + 3 + num * 5) (at_ b' (j + 3) (g' ++ r)) with
          | POk _ s => POk j s | PErr e s => PErr e s | PPanic => PPanic | PHang => PHang end).
        { intros r. rewrite kernings_form, F. destruct (Z.gtb_spec num 0); [|lia]. unfold pbind, when. rewrite EW. cbn [pret].
          change (mkP b' (j + 3) false (g' ++ r)) with (at_ b' (j + 3) (g' ++ r)).
          rewrite advance_form. destruct (Z.eqb_spec (num * 5) 0); [lia|]. destruct (Z.ltb_spec (num * 5) 0); [lia|]. reflexivity. }
        destruct (states_readUpTo (j + 3 + num * 5) b' (j + 3) g' U' N) as [(b2 & g2 & U2 & E2 & N2 & R2)|[(e & b2 & g2 & U2 & E2 & N2 & R2)|[R2|R2]]].
        -- left. exists j, b2, (j + 3 + num * 5), g2. split; [exact U2|]. split; [lia|]. split; [exact N2|]. intros r. now rewrite K, R2.
        -- right. left. left. exists e. intros r. eexists. rewrite K, R2. reflexivity.
        -- right. left. right. left. intros r. now rewrite K, R2.
        -- right. right. intros c m rest L. left. destruct (R2 c m rest ltac:(lia)) as (b3 & _ & E3). eexists. rewrite K, E3. reflexivity.
      * left. exists j, b', (j + 3), g'. split; [exact U'|]. split; [exact E|]. split; [exact N|]. intros r. rewrite kernings_form, F. destruct (Z.gtb_spec num 0); [lia|]. reflexivity.
    + left. exists j, b', (j + 3), g'. split; [exact U'|]. split; [exact E|]. split; [exact N|]. intros r. rewrite kernings_form, F. reflexivity.
    + right. left. right. left. intros r. now rewrite kernings_form, F.
    + right. left. right. right. intros r. now rewrite kernings_form, F.
  - left. exists j, b', j, g'. split; [exact U'|]. split; [exact E|]. split; [exact N|]. intros r. rewrite kernings_form, read24_form, R. reflexivity.
  - right. left. right. left. intros r. now rewrite kernings_form, read24_form, R.
  - right. right. intros c m rest L. right. destruct (R c m rest L) as (b' & J' & E). exists j, b', j. split; [exact J'|]. now rewrite kernings_form, read24_form, E.
Qed.

(** ** After the failure *)
Lemma upto_after n b j m k : let a := readUpTo n (at_ b j (fails m (S k))) in
  (n <= j /\ a = PPanic) \/ (n <= zlen b /\ a = POk tt (at_ b n (fails m (S k)))) \/ (zlen b < n /\ a = PErr m (at_ b j (fails m k))).
Proof.
  intros a. unfold a, readUpTo. cbn [at_ Index input]. destruct (Z.leb_spec n j); [left; auto|]. right. cbn [readUpTo_loop at_ Bytes eof].
  destruct (Z.ltb_spec (zlen b) n) as [Hn|Hn]; [|left; split; [exact Hn|reflexivity]]. right. split; [exact Hn|].
  unfold pbind, readMore, fails, at_. cbn [repeat readMore_loop next_read input Bytes Index eof]. change (0 <? zlen []) with false. cbn [andb]. now rewrite app_nil_r.
Qed.
Lemma kernings_after n msg b j m k : j <= zlen b -> let a := parse_kernings n msg (at_ b j (fails m (S k))) in
  (exists e s', a = PErr e s' /\ (e = m \/ e = msg)) \/ (exists v j' k', j' <= zlen b /\ (k <= k')%nat /\ a = POk v (at_ b j' (fails m k'))) \/ a = PPanic \/ a = PHang.
Proof.
  intros J a. unfold a. rewrite kernings_form, read24_form. destruct (upto_after (j + 3) b j m k) as [[_ ->]|[[N ->]|[N ->]]].
  - right. right. left. reflexivity.
  - unfold on_bytes. cbn [at_ Bytes]. destruct (do t <- zfrom b j; DecodeUint24LE t) as [num|e| |].
    + destruct (num >? 0) eqn:Hn; [|right; left; exists j, (j + 3), (S k); split; [exact N|]; split; [lia|reflexivity]].
      unfold pbind, when. destruct (num >? n * n); [left; do 2 eexists; split; [reflexivity|right; reflexivity]|]. cbn [pret].
      change (mkP b (j + 3) false (fails m (S k))) with (at_ b (j + 3) (fails m (S k))). rewrite advance_form.
      destruct (num * 5 =? 0); [right; left; exists j, (j + 3), (S k); split; [exact N|]; split; [lia|reflexivity]|].
      destruct (num * 5 <? 0); [right; right; left; reflexivity|].
      destruct (upto_after (j + 3 + num * 5) b (j + 3) m k) as [[_ ->]|[[N2 ->]|[N2 ->]]].
      * right. right. left. reflexivity.
      * right. left. exists j, (j + 3 + num * 5), (S k). split; [exact N2|]. split; [lia|reflexivity].
      * left. do 2 eexists. split; [reflexivity|]. left. reflexivity.
    + right. left. exists j, (j + 3), (S k). split; [exact N|]. split; [lia|reflexivity].
    + right. right. left. reflexivity.
    + right. right. right. reflexivity.
  - right. left. exists j, j, k. split; [exact J|]. split; [lia|reflexivity].
Qed.
Lemma eof_after b j m k : exists s', EnsureEOF (at_ b j (fails m (S k))) = PErr m s'.
Proof. eexists. reflexivity. Qed.
Lemma eof_before b j g : undisturbed g -> j <= zlen b -> same_end EnsureEOF b j g \/
  (forall c m rest, total b g + zlen c <= MaxFontDataSize -> exists s', EnsureEOF (at_ b j (g ++ (c, Fail m) :: rest)) = PErr m s').
Proof.
  intros U J. unfold same_end.
  assert (X : forall i, EnsureEOF (at_ b j i) = match readMore_loop 3 (at_ b j i) with
    | POk _ s' => if Index s' >? j then PErr "file continues beyond the expected end" s' else if negb (eof s') then PPanic else POk tt s' | r => r end).
  { intros i. reflexivity. }
  destruct (states_more 3 b j g U J) as [(b' & g' & _ & _ & _ & _ & R)|[(e & b' & g' & _ & _ & _ & R)|R]].
  - left. right. left. intros r. rewrite X, R. cbn [at_ Index eof]. rewrite Z.gtb_ltb, Z.ltb_irrefl. reflexivity.
  - left. left. exists e. intros r. eexists. rewrite X, R. reflexivity.
  - right. intros c m rest L. destruct (R c m rest L) as (b' & _ & E). eexists. rewrite X, E. reflexivity.
Qed.

(** ** Parse *)
Definition tail_of (mk : Z -> Z -> Font) (n : Z) : action Font :=
  run h <- parse_kernings n horz_msg; run v <- parse_kernings n vert_msg; run data <- on_bytes (fun b => Ok b); run _ <- EnsureEOF; pret (set_Data (mk h v) data).
Lemma body_split s : parse_body s = match parse_prefix s with POk (mk, n) s' => tail_of mk n s' | PErr e s' => PErr e s' | PPanic => PPanic | PHang => PHang end.
Proof.
  unfold parse_body, tail_of. unfold pbind at 1. rewrite sections_split. unfold pbind at 1. destruct (parse_prefix s) as [[mk n] s'| | |]; [|reflexivity..].
  unfold pbind. destruct (parse_kernings n horz_msg s') as [h s1| | |]; [|reflexivity..]. destruct (parse_kernings n vert_msg s1) as [v s2| | |]; reflexivity.
Qed.
Lemma tail_form mk n s : tail_of mk n s = match parse_kernings n horz_msg s with
  | POk h s1 => match parse_kernings n vert_msg s1 with
    | POk v s2 => match EnsureEOF s2 with POk _ s3 => POk (set_Data (mk h v) (Bytes s2)) s3 | PErr e s3 => PErr e s3 | PPanic => PPanic | PHang => PHang end
    | PErr e s2 => PErr e s2 | PPanic => PPanic | PHang => PHang end
  | PErr e s1 => PErr e s1 | PPanic => PPanic | PHang => PHang end.
Proof.
  unfold tail_of, pbind, on_bytes. destruct (parse_kernings n horz_msg s) as [h s1| | |]; [|reflexivity..]. destruct (parse_kernings n vert_msg s1) as [v s2| | |]; [|reflexivity..].
  destruct (EnsureEOF s2); reflexivity.
Qed.

Definition ends_same (g : stream) : Prop := exists res, (forall f, res <> Ok f) /\ forall r, parse_payload (g ++ r) = res.
Lemma sticky g c m k : stream_bytes g -> bytes c -> undisturbed g -> zlen (sent g ++ c) <= MaxFontDataSize ->
  (exists e, parse_payload (g ++ (c, Fail m) :: fails m (S (S k))) = Err e /\ (e = m \/ In e blamed)) \/ ends_same g.
Proof.
  intros HB HC U L. rewrite zlen_app in L. unfold ends_same.
  set (i := g ++ (c, Fail m) :: fails m (S (S k))).
  assert (NP : parse_sections (initial i) <> PPanic /\ parse_sections (initial i) <> PHang).
  { apply sections_no_panic. unfold i. apply Forall_app. split; [exact HB|]. apply Forall_cons; [exact HC|]. apply Forall_forall. intros x I. apply repeat_spec in I. subst x. constructor. }
  assert (PB : forall i, parse_payload i = match parse_body (initial i) with POk f _ => Ok f | PErr e _ => Err e | PPanic => Panic | PHang => Hang end) by reflexivity.
  assert (SI : parse_prefix (initial i) <> PPanic /\ parse_prefix (initial i) <> PHang /\ forall mk n s, parse_prefix (initial i) = POk (mk, n) s ->
    parse_kernings n horz_msg s <> PPanic /\ parse_kernings n horz_msg s <> PHang /\ forall h s1, parse_kernings n horz_msg s = POk h s1 ->
      parse_kernings n vert_msg s1 <> PPanic /\ parse_kernings n vert_msg s1 <> PHang).
  { destruct NP as [N1 N2]. rewrite sections_split in N1, N2. unfold pbind in N1, N2.
    destruct (parse_prefix (initial i)) as [[mk n] s| | |]; [|split; [discriminate|split; [discriminate|intros; discriminate]]|congruence|congruence].
    split; [discriminate|]. split; [discriminate|]. intros mk' n' s' X. injection X as <- <- <-.
    destruct (parse_kernings n horz_msg s) as [h s1| | |]; [|split; [discriminate|split; [discriminate|intros; discriminate]]|congruence|congruence].
    split; [discriminate|]. split; [discriminate|]. intros h' s1' X. injection X as <- <-.
    destruct (parse_kernings n vert_msg s1); [split; discriminate|split; discriminate|congruence|congruence]. }
  destruct SI as (_ & _ & SI).
  destruct (prompt_prefix [] 0 g U ltac:(change (zlen []) with 0; lia)) as [([mk n] & b' & j' & g' & U' & E & J' & R)|[[(e & R)|[R|R]]|R]].
  2:{ right. exists (Err e). split; [discriminate|]. intros r. rewrite PB, body_split. change (initial (g ++ r)) with (at_ [] 0 (g ++ r)). destruct (R r) as [s' ->]. reflexivity. }
  2:{ right. exists Panic. split; [discriminate|]. intros r. rewrite PB, body_split. change (initial (g ++ r)) with (at_ [] 0 (g ++ r)). now rewrite R. }
  2:{ right. exists Hang. split; [discriminate|]. intros r. rewrite PB, body_split. change (initial (g ++ r)) with (at_ [] 0 (g ++ r)). now rewrite R. }
  2:{ left. rewrite PB, body_split. change (initial i) with (at_ [] 0 i). destruct (R c m (fails m (S (S k)))) as (e & s' & Ee & M); [cbn [app]; rewrite zlen_app; lia|].
      exists e. unfold i. rewrite Ee. split; [reflexivity|]. destruct M as [M|M]; [left; exact M|right; apply in_or_app; left; exact M]. }
  cbn [app] in E. apply (f_equal (@zlen Z)) in E. rewrite zlen_app in E.
  assert (P1 : forall r, parse_payload (g ++ r) = match tail_of mk n (at_ b' j' (g' ++ r)) with POk f _ => Ok f | PErr e _ => Err e | PPanic => Panic | PHang => Hang end).
  { intros r. rewrite PB, body_split. change (initial (g ++ r)) with (at_ [] 0 (g ++ r)). now rewrite R. }
  specialize (SI _ _ _ (R ((c, Fail m) :: fails m (S (S k))))). destruct SI as (NA & NB & SI).
  destruct (kernings_before n horz_msg b' j' g' U' J') as [(h & b1 & j1 & g1 & U1 & E1 & J1 & R1)|[[(e & R1)|[R1|R1]]|R1]].
  2:{ right. exists (Err e). split; [discriminate|]. intros r. rewrite P1, tail_form. destruct (R1 r) as [s' ->]. reflexivity. }
  2:{ right. exists Panic. split; [discriminate|]. intros r. now rewrite P1, tail_form, R1. }
  2:{ right. exists Hang. split; [discriminate|]. intros r. now rewrite P1, tail_form, R1. }
  2:{ left. unfold i. rewrite P1, tail_form. destruct (R1 c m (fails m (S (S k))) ltac:(lia)) as [(s' & ->)|(h & b1 & j1 & J1 & E1)]; [exists m; split; [reflexivity|left; reflexivity]|].
      specialize (SI _ _ E1). rewrite E1. destruct (kernings_after n vert_msg b1 j1 m (S k) J1) as [(e & s' & -> & M)|[(v & j2 & k2 & J2 & K2 & ->)|[X|X]]].
      - exists e. split; [reflexivity|]. destruct M as [M|M]; [left; exact M|right; rewrite M; right; right; left; reflexivity].
      - destruct k2 as [|k2]; [lia|]. destruct (eof_after b1 j2 m k2) as [s' ->]. exists m. split; [reflexivity|left; reflexivity].
      - exfalso. apply (proj1 SI). exact X.
      - exfalso. apply (proj2 SI). exact X. }
  destruct (kernings_before n vert_msg b1 j1 g1 U1 J1) as [(v & b2 & j2 & g2 & U2 & E2 & J2 & R2)|[[(e & R2)|[R2|R2]]|R2]].
  2:{ right. exists (Err e). split; [discriminate|]. intros r. rewrite P1, tail_form, R1. destruct (R2 r) as [s' ->]. reflexivity. }
  2:{ right. exists Panic. split; [discriminate|]. intros r. now rewrite P1, tail_form, R1, R2. }
  2:{ right. exists Hang. split; [discriminate|]. intros r. now rewrite P1, tail_form, R1, R2. }
  2:{ left. unfold i. rewrite P1, tail_form, R1. destruct (R2 c m (fails m (S (S k))) ltac:(lia)) as [(s' & ->)|(v & b2 & j2 & J2 & ->)]; [exists m; split; [reflexivity|left; reflexivity]|].
      destruct (eof_after b2 j2 m (S k)) as [s' ->]. exists m. split; [reflexivity|left; reflexivity]. }
  destruct (eof_before b2 j2 g2 U2 J2) as [[(e & R3)|[R3|R3]]|R3].
  - right. exists (Err e). split; [discriminate|]. intros r. rewrite P1, tail_form, R1, R2. destruct (R3 r) as [s' ->]. reflexivity.
  - right. exists Panic. split; [discriminate|]. intros r. now rewrite P1, tail_form, R1, R2, R3.
  - right. exists Hang. split; [discriminate|]. intros r. now rewrite P1, tail_form, R1, R2, R3.
  - left. unfold i. rewrite P1, tail_form, R1, R2. destruct (R3 c m (fails m (S (S k))) ltac:(lia)) as [s' ->]. exists m. split; [reflexivity|left; reflexivity].
Qed.
