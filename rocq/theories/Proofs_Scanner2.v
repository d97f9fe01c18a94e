(** The scanner reads back rules laid out as the format says. *)
From Coq Require Import Lia.
From Verif Require Import Base BaseFacts Model_Helpers Spec_Helpers Proofs_Helpers Spec_Format Spec_Layout Proofs_Format
  Model_Scanner Spec_Scanner Proofs_Scanner.

Lemma u8_small x : 0 <= x < 256 -> u8 x = x.
Proof. apply Z.mod_small. Qed.

Lemma scan_end k fuel s : HasNext s = false -> scan_loop fuel k s = Ok [].
Proof. intros H. destruct fuel; cbn [scan_loop]; rewrite H; reflexivity. Qed.

Lemma block_nonneg b : 0 <= block_length b.
Proof.
  unfold block_length. induction b as [|f b IH]; cbn; [lia|]. unfold fragment_length at 1.
  pose proof (zlen_nonneg (fst f)). pose proof (zlen_nonneg (snd f)). lia.
Qed.

Lemma block_nonempty w b : block_shaped b -> block_bytes w b <> [].
Proof. intros [->|(N & _)]; [discriminate|]. destruct b; [congruence|]. discriminate. Qed.

Lemma shaped_cases b : block_shaped b -> (b = [([], [])] /\ block_length b = 0) \/
  (exists f fs, b = f :: fs /\ Forall (fun f => 0 < fragment_length f) b /\ 0 < block_length b).
Proof.
  intros [->|(N & A)]; [left; split; reflexivity|]. right. destruct b as [|f fs]; [congruence|]. exists f, fs.
  split; [reflexivity|]. split; [exact A|]. pose proof (Forall_inv A) as F. cbv beta in F.
  pose proof (block_nonneg fs). unfold block_length in *. cbn. lia.
Qed.

Section Read.
  Variable k : kind.
  Variable w : nat.
  Variable dec : Z -> Z.
  Hypothesis KW : k_width k = Z.of_nat w.
  Hypothesis W : 2 <= k_width k <= 4.
  Hypothesis DEC : forall x r, 0 <= x < 256 ^ Z.of_nat w -> bytes r -> k_decode k (le_digits w x ++ r) = Ok (dec x).
  Variable d : list Z.
  Hypothesis BD : bytes d.
  Hypothesis SMALL : zlen d < 60000.

  Notation st := (mkScanner d).
  Definition cont (fuel : nat) (s : scanner) : outcome (list element) :=
    do s <- after_element s; scan_loop fuel k s.
  Definition values (l : list Z) : list Z := concat (map (le_digits w) l).
  Definition vals_ok (l : list Z) : Prop := Forall (fun x => 0 <= x < 256 ^ Z.of_nat w /\ k_valid k (dec x) = true) l.

  Lemma zlen_values l : zlen (values l) = k_width k * zlen l.
  Proof.
    unfold values. induction l as [|x l IH]; [rewrite !zlen_nil; lia|]. cbn [map concat].
    rewrite zlen_app, zlen_le_digits, zlen_cons, IH, KW. lia.
  Qed.

  Lemma read_values : forall E pre rest fuel blk left aS aE, E <> [] -> vals_ok E -> d = pre ++ values E ++ rest ->
    scan_loop (length E + fuel) k (st (zlen pre) blk 0 (zlen E) left aS aE) =
    do r <- cont fuel (st (zlen pre + zlen (values E)) blk 0 0 left aS aE);
    Ok (map (fun x => Single (dec x)) E ++ r).
  Proof.
    induction E as [|x E IH]; intros pre rest fuel blk left aS aE NE V D; [congruence|].
    inversion V as [|? ? (VX & VV) VE]; subst x0 l.
    pose proof (zlen_nonneg pre). pose proof (zlen_nonneg E). pose proof (zlen_nonneg rest).
    assert (LD : zlen d = zlen pre + (k_width k + k_width k * zlen E) + zlen rest).
    { rewrite D, !zlen_app, zlen_values, zlen_cons. lia. }
    assert (D2 : d = (pre ++ le_digits w x) ++ values E ++ rest) by (rewrite D; unfold values; cbn; rewrite <- !app_assoc; reflexivity).
    assert (P2 : zlen (pre ++ le_digits w x) = zlen pre + k_width k) by (rewrite zlen_app, zlen_le_digits; lia).
    cbn [length plus scan_loop].
    assert (HN : HasNext (st (zlen pre) blk 0 (zlen (x :: E)) left aS aE) = true).
    { unfold HasNext. cbn [sc_index sc_data]. nia. }
    rewrite HN. unfold Next.
    cbn [sc_data sc_index sc_block sc_sets sc_elems sc_left sc_accSets sc_accElems].
    change (0 >? 0) with false. cbv iota. rewrite zlen_cons.
    destruct (1 + zlen E >? 0) eqn:C1; [|lia].
    destruct (zlen pre + (k_width k - 1) >=? zlen d) eqn:C2; [nia|].
    assert (ZF : zfrom d (zlen pre) = Ok (le_digits w x ++ values E ++ rest)).
    { rewrite D2, <- app_assoc. apply zfrom_app. reflexivity. }
    rewrite ZF. cbn [bind]. rewrite DEC; [|exact VX|rewrite D2 in BD; apply bytes_app in BD; tauto]. cbn [bind].
    rewrite VV. cbn [negb]. rewrite u16_small by nia.
    replace (1 + zlen E - 1) with (zlen E) by lia.
    destruct E as [|y E].
    - cbn [length plus map app]. unfold cont.
      replace (zlen pre + zlen (values [x])) with (zlen pre + k_width k) by (rewrite zlen_values, zlen_cons, zlen_nil; lia).
      change (zlen []) with 0. destruct (after_element _); reflexivity.
    - unfold after_element at 1. cbn [sc_data sc_index sc_sets sc_elems].
      pose proof (zlen_nonneg E). rewrite zlen_cons in *.
      destruct (zlen pre + k_width k >=? zlen d) eqn:C3; [nia|].
      destruct (1 + zlen E =? 0) eqn:C4; [lia|]. rewrite andb_false_r. cbn [bind].
      rewrite <- P2. specialize (IH (pre ++ le_digits w x) rest fuel blk left aS aE).
      rewrite IH; [|discriminate|exact VE|exact D2].
      replace (zlen (pre ++ le_digits w x) + zlen (values (y :: E))) with (zlen pre + zlen (values (x :: y :: E)))
        by (rewrite P2, !zlen_values, !zlen_cons; lia).
      clear IH; destruct (cont _ _); reflexivity.
  Qed.

  Lemma read_fragment : forall S E pre rest fuel blk left aS aE, 0 < zlen S + zlen E -> vals_ok E ->
    d = pre ++ S ++ values E ++ rest ->
    scan_loop (length S + length E + fuel) k (st (zlen pre) blk (zlen S) (zlen E) left aS aE) =
    do r <- cont fuel (st (zlen pre + zlen S + zlen (values E)) blk 0 0 left aS aE);
    Ok (map InSet S ++ map (fun x => Single (dec x)) E ++ r).
  Proof.
    induction S as [|x S IH]; intros E pre rest fuel blk left aS aE NE V D.
    { destruct E as [|y E]; [rewrite zlen_nil in NE; cbn in NE; lia|].
      rewrite zlen_nil, Z.add_0_r. cbn [length plus map app].
      apply (read_values (y :: E)) with (rest := rest); [discriminate|exact V|exact D]. }
    pose proof (zlen_nonneg pre). pose proof (zlen_nonneg E). pose proof (zlen_nonneg rest). pose proof (zlen_nonneg S).
    assert (LD : zlen d = zlen pre + (1 + zlen S) + k_width k * zlen E + zlen rest).
    { rewrite D, !zlen_app, zlen_values, zlen_cons. lia. }
    assert (D2 : d = (pre ++ [x]) ++ S ++ values E ++ rest) by (rewrite D, <- app_assoc; reflexivity).
    assert (P2 : zlen (pre ++ [x]) = zlen pre + 1) by (rewrite zlen_app, zlen_cons, zlen_nil; lia).
    cbn [length plus scan_loop].
    assert (HN : HasNext (st (zlen pre) blk (zlen (x :: S)) (zlen E) left aS aE) = true).
    { unfold HasNext. cbn [sc_index sc_data]. nia. }
    rewrite HN. unfold Next.
    cbn [sc_data sc_index sc_block sc_sets sc_elems sc_left sc_accSets sc_accElems].
    rewrite zlen_cons. destruct (1 + zlen S >? 0) eqn:C1; [|lia].
    destruct (zlen pre >=? zlen d) eqn:C2; [nia|].
    assert (ZG : zget d (zlen pre) = Ok x).
    { rewrite D, zget_app_r by lia. rewrite Z.sub_diag. reflexivity. }
    rewrite ZG. cbn [bind]. rewrite u16_small by nia.
    replace (1 + zlen S - 1) with (zlen S) by lia.
    destruct (Z.eq_dec (zlen S + zlen E) 0) as [Z0|Z0].
    - assert (S = []) by (apply zlen_0_nil; lia). assert (E = []) by (apply zlen_0_nil; lia). subst S E.
      cbn [length plus map app]. unfold cont. cbn [values concat map]. rewrite zlen_nil.
      replace (zlen pre + (1 + 0) + 0) with (zlen pre + 1) by lia. destruct (after_element _); reflexivity.
    - unfold after_element at 1. cbn [sc_data sc_index sc_sets sc_elems].
      destruct (zlen pre + 1 >=? zlen d) eqn:C3; [nia|].
      destruct ((zlen S =? 0) && (zlen E =? 0)) eqn:C4; [lia|]. cbn [bind].
      rewrite <- P2. rewrite (IH E (pre ++ [x]) rest fuel blk left aS aE); [|lia|exact V|exact D2].
      replace (zlen (pre ++ [x]) + zlen S + zlen (values E)) with (zlen pre + (1 + zlen S) + zlen (values E)) by lia.
      destruct (cont _ _); reflexivity.
  Qed.

  (** reading a fragment control byte *)
  Definition open (fuel : nat) (s : scanner) : outcome (list element) :=
    do ' (s, ok) <- parseFragmentControl s; if ok : bool then scan_loop fuel k s else invalid_rule.

  Lemma nibbles_of x y : 0 <= x <= 15 -> 0 <= y <= 15 ->
    Z.shiftr (Z.land (16 * x + y) 240) 4 = x /\ Z.land (16 * x + y) 15 = y.
  Proof.
    intros X Y. destruct (nibbles (16 * x + y)) as (A & C & D); [unfold byte; lia|]. lia.
  Qed.

  Definition block_ok (b : list fragment) : Prop :=
    Forall (fun f => zlen (fst f) <= 15 /\ zlen (snd f) <= 15 /\ vals_ok (snd f)) b.

  Lemma parse_control pre f rest blk left aS aE L : zget d (1 + blk) = Ok L ->
    d = pre ++ fragment_bytes w f ++ rest -> zlen (fst f) <= 15 -> zlen (snd f) <= 15 ->
    0 <= aS -> 0 <= aE -> 0 <= left -> aS + aE + left = L -> L <= 255 ->
    0 < fragment_length f <= left \/ (fragment_length f = 0 /\ L = 0) ->
    parseFragmentControl (st (zlen pre) blk 0 0 left aS aE) =
    Ok (st (zlen pre + 1) blk (zlen (fst f)) (zlen (snd f)) (left - fragment_length f) (aS + zlen (fst f)) (aE + zlen (snd f)), true).
  Proof.
    intros GL D S15 E15 A1 A2 A3 A L255 FL. unfold fragment_length in *.
    pose proof (zlen_nonneg pre). pose proof (zlen_nonneg rest). pose proof (zlen_nonneg (fst f)). pose proof (zlen_nonneg (snd f)).
    assert (LD : zlen pre < zlen d).
    { rewrite D. unfold fragment_bytes. rewrite !zlen_app, zlen_cons, !zlen_app. pose proof (zlen_nonneg (concat (map (le_digits w) (snd f)))). lia. }
    unfold parseFragmentControl. cbn [sc_data sc_index sc_block sc_sets sc_elems sc_left sc_accSets sc_accElems].
    assert (ZG : zget d (zlen pre) = Ok (16 * zlen (fst f) + zlen (snd f))).
    { rewrite D, zget_app_r by lia. rewrite Z.sub_diag. reflexivity. }
    rewrite ZG, GL. cbn [bind].
    destruct (nibbles_of (zlen (fst f)) (zlen (snd f))) as (-> & ->); [lia|lia|].
    rewrite u16_small by lia.
    rewrite (u8_small (zlen (fst f) + zlen (snd f))) by lia.
    rewrite (u8_small (aS + zlen (fst f))) by lia. rewrite (u8_small (aE + zlen (snd f))) by lia.
    rewrite (u8_small (_ + _ + _)) by lia.
    destruct (Z.eqb_spec (zlen (fst f) + zlen (snd f)) 0) as [Z0|Z0].
    - destruct (Z.eqb_spec (aS + zlen (fst f) + (aE + zlen (snd f))) L); [|lia]. cbn [negb].
      rewrite u8_small by lia. reflexivity.
    - destruct (Z.ltb_spec (aS + zlen (fst f) + (aE + zlen (snd f))) (aS + zlen (fst f))); [lia|].
      destruct (_ >? L) eqn:C1; [lia|]. destruct (_ >? left) eqn:C2; [lia|].
      rewrite u8_small by lia. reflexivity.
  Qed.

  Lemma open_block : forall fs f pre rest fuel blk left aS aE L, zget d (1 + blk) = Ok L ->
    d = pre ++ block_bytes w (f :: fs) ++ rest -> block_ok (f :: fs) ->
    Forall (fun f => 0 < fragment_length f) (f :: fs) ->
    0 <= aS -> 0 <= aE -> left = block_length (f :: fs) -> aS + aE + left = L -> L <= 255 ->
    exists aS' aE', 0 <= aS' /\ 0 <= aE' /\ aS' + aE' = L /\
    open (Z.to_nat left + fuel) (st (zlen pre) blk 0 0 left aS aE) =
    do r <- cont fuel (st (zlen pre + zlen (block_bytes w (f :: fs))) blk 0 0 0 aS' aE');
    Ok (block_elements dec (f :: fs) ++ r).
  Proof.
    induction fs as [|g fs IH]; intros f pre rest fuel blk left aS aE L GL D OK NE A1 A2 EL A L255.
    - pose proof (Forall_inv OK) as (S15 & E15 & V). pose proof (Forall_inv NE) as NF. cbv beta in NF. subst left.
      unfold block_length in *. cbn [map fold_right] in *. rewrite Z.add_0_r in *.
      unfold block_bytes, block_elements. cbn [map concat]. rewrite app_nil_r.
      unfold block_bytes in D. cbn [map concat] in D. rewrite app_nil_r in D.
      exists (aS + zlen (fst f)), (aE + zlen (snd f)). unfold fragment_length in *.
      pose proof (zlen_nonneg (fst f)). pose proof (zlen_nonneg (snd f)).
      split; [lia|]. split; [lia|]. split; [lia|].
      unfold open. rewrite (parse_control pre f rest blk _ aS aE _ GL D); unfold fragment_length; try lia.
      cbn [bind].
      replace (Z.to_nat (zlen (fst f) + zlen (snd f)) + fuel)%nat with (length (fst f) + length (snd f) + fuel)%nat by (unfold zlen; lia).
      assert (D2 : d = (pre ++ [16 * zlen (fst f) + zlen (snd f)]) ++ fst f ++ values (snd f) ++ rest).
      { rewrite D. unfold fragment_bytes. cbn [app]. rewrite <- !app_assoc. reflexivity. }
      assert (P2 : zlen (pre ++ [16 * zlen (fst f) + zlen (snd f)]) = zlen pre + 1) by (rewrite zlen_app, zlen_cons, zlen_nil; lia).
      rewrite <- P2, (read_fragment (fst f) (snd f) _ rest); [|lia|exact V|exact D2].
      replace (zlen (pre ++ [16 * zlen (fst f) + zlen (snd f)]) + zlen (fst f) + zlen (values (snd f)))
        with (zlen pre + zlen (fragment_bytes w f)).
      2:{ rewrite P2. unfold fragment_bytes. rewrite zlen_cons, zlen_app. fold (values (snd f)). lia. }
      replace (zlen (fst f) + zlen (snd f) - (zlen (fst f) + zlen (snd f))) with 0 by lia.
      unfold fragment_elements. rewrite app_nil_r. destruct (cont _ _); cbn [bind]; [rewrite <- app_assoc|..]; reflexivity.
    - pose proof (Forall_inv OK) as (S15 & E15 & V). pose proof (Forall_inv_tail OK) as OK'.
      pose proof (Forall_inv NE) as NF. cbv beta in NF. pose proof (Forall_inv_tail NE) as NE'. subst left.
      unfold block_length in *. cbn [map fold_right] in *.
      set (rl := fragment_length g + fold_right Z.add 0 (map fragment_length fs)) in *.
      assert (RL : 0 < rl).
      { subst rl. inversion NE' as [|? ? NG NEF]; subst. clear -NG NEF.
        assert (0 <= fold_right Z.add 0 (map fragment_length fs)).
        { induction NEF as [|x l Hx Hl IHl]; cbn; lia. } lia. }
      assert (BB : block_bytes w (f :: g :: fs) = fragment_bytes w f ++ block_bytes w (g :: fs)) by reflexivity.
      rewrite BB in *. rewrite <- app_assoc in D.
      unfold fragment_length in *. fold (fragment_length g) in *.
      pose proof (zlen_nonneg (fst f)). pose proof (zlen_nonneg (snd f)).
      assert (D3 : d = (pre ++ fragment_bytes w f) ++ block_bytes w (g :: fs) ++ rest) by (rewrite D, <- app_assoc; reflexivity).
      destruct (IH g (pre ++ fragment_bytes w f) rest fuel blk rl (aS + zlen (fst f)) (aE + zlen (snd f))
         _ GL D3 OK' NE' ltac:(lia) ltac:(lia) eq_refl ltac:(lia) L255) as (aS' & aE' & P1 & P2 & P3 & IHE).
      exists aS', aE'. split; [exact P1|]. split; [exact P2|]. split; [lia|].
      unfold open. rewrite (parse_control pre f (block_bytes w (g :: fs) ++ rest) blk _ aS aE _ GL D); unfold fragment_length; try lia.
      cbn [bind].
      replace (Z.to_nat (zlen (fst f) + zlen (snd f) + rl) + fuel)%nat
        with (length (fst f) + length (snd f) + (Z.to_nat rl + fuel))%nat by (unfold zlen; lia).
      assert (D2 : d = (pre ++ [16 * zlen (fst f) + zlen (snd f)]) ++ fst f ++ values (snd f) ++ block_bytes w (g :: fs) ++ rest).
      { rewrite D. unfold fragment_bytes. cbn [app]. rewrite <- !app_assoc. reflexivity. }
      assert (PP : zlen (pre ++ [16 * zlen (fst f) + zlen (snd f)]) = zlen pre + 1) by (rewrite zlen_app, zlen_cons, zlen_nil; lia).
      rewrite <- PP, (read_fragment (fst f) (snd f) _ (block_bytes w (g :: fs) ++ rest)); [|lia|exact V|exact D2].
      replace (zlen (pre ++ [16 * zlen (fst f) + zlen (snd f)]) + zlen (fst f) + zlen (values (snd f)))
        with (zlen (pre ++ fragment_bytes w f)).
      2:{ rewrite PP, zlen_app. unfold fragment_bytes. rewrite zlen_cons, zlen_app. fold (values (snd f)). lia. }
      replace (zlen (fst f) + zlen (snd f) + rl - (zlen (fst f) + zlen (snd f))) with rl by lia.
      assert (CE : cont (Z.to_nat rl + fuel) (st (zlen (pre ++ fragment_bytes w f)) blk 0 0 rl (aS + zlen (fst f)) (aE + zlen (snd f))) =
                   open (Z.to_nat rl + fuel) (st (zlen (pre ++ fragment_bytes w f)) blk 0 0 rl (aS + zlen (fst f)) (aE + zlen (snd f)))).
      { unfold cont, open, after_element, advanceControl, enterBlock. cbn [sc_data sc_index sc_block sc_sets sc_elems sc_left sc_accSets sc_accElems].
        assert (LD : zlen (pre ++ fragment_bytes w f) < zlen d).
        { pose proof (f_equal zlen D3) as LL. rewrite !zlen_app in LL.
          assert (1 <= zlen (block_bytes w (g :: fs))).
          { unfold block_bytes. cbn [map concat]. unfold fragment_bytes at 1. cbn [app]. rewrite zlen_cons.
            match goal with |- 1 <= 1 + zlen ?l => pose proof (zlen_nonneg l) end. lia. }
          pose proof (zlen_nonneg rest). rewrite zlen_app. lia. }
        destruct (_ >=? zlen d) eqn:C1; [lia|]. change (0 =? 0) with true. cbn [andb].
        destruct (Z.eqb_spec rl 0); [lia|]. cbn [bind].
        destruct (parseFragmentControl _) as [[s ok]| | |]; [|reflexivity..]. cbn [bind]. destruct ok; reflexivity. }
      rewrite CE, IHE.
      replace (zlen (pre ++ fragment_bytes w f) + zlen (block_bytes w (g :: fs))) with (zlen pre + zlen (fragment_bytes w f ++ block_bytes w (g :: fs)))
        by (rewrite !zlen_app; lia).
      change (block_elements dec (f :: g :: fs)) with (fragment_elements dec f ++ block_elements dec (g :: fs)).
      clear IHE CE IH. unfold fragment_elements. destruct (cont _ _); cbn [bind]; [rewrite <- !app_assoc|..]; reflexivity.
  Qed.

  (** from one block to the next *)
  Lemma enter pre rest blk aS aE L L2 fuel : zget d (1 + blk) = Ok L -> zget d (1 + (blk + 1)) = Ok L2 -> 0 <= blk <= 1 ->
    0 <= aS -> 0 <= aE -> aS + aE = L -> L <= 255 -> d = pre ++ rest -> rest <> [] ->
    cont fuel (st (zlen pre) blk 0 0 0 aS aE) = open fuel (st (zlen pre) (blk + 1) 0 0 L2 0 0).
  Proof.
    intros G1 G2 K A1 A2 A LL D NE. unfold cont, open, after_element, advanceControl, enterBlock.
    cbn [sc_data sc_index sc_block sc_sets sc_elems sc_left sc_accSets sc_accElems].
    assert (LD : zlen pre < zlen d).
    { rewrite D, zlen_app. destruct rest; [congruence|]. rewrite zlen_cons. pose proof (zlen_nonneg rest). lia. }
    destruct (_ >=? zlen d) eqn:C1; [lia|]. change (0 =? 0) with true. cbn [andb]. rewrite G1. cbn [bind].
    rewrite u8_small by lia. destruct (Z.eqb_spec L (aE + aS)); [|lia]. cbn [negb].
    destruct ((blk =? 0) || (blk =? 1)) eqn:C2; [|lia]. rewrite G2. cbn [bind].
    destruct (parseFragmentControl _) as [[s ok]| | |]; [|reflexivity..]. cbn [bind]. destruct ok; reflexivity.
  Qed.

  (** the end of the rule *)
  Lemma finish fuel aS aE L : zget d 3 = Ok L -> 0 <= aS -> 0 <= aE -> aS + aE = L -> L <= 255 ->
    cont fuel (st (zlen d) 2 0 0 0 aS aE) = Ok [].
  Proof.
    intros G A1 A2 A LL. unfold cont, after_element. cbn [sc_data sc_index].
    destruct (_ >=? _) eqn:C; [|lia]. unfold checkTermination. cbn [sc_data sc_index sc_block sc_sets sc_elems sc_left sc_accSets sc_accElems].
    change (0 >? 0) with false. cbn [orb]. change (2 =? 0) with false. change (2 =? 1) with false. change (2 =? 2) with true. cbv iota.
    rewrite G. cbn [bind]. rewrite u8_small by lia. destruct (Z.eqb_spec L (aS + aE)); [|lia]. cbn [negb bind].
    assert (HN : HasNext (st (zlen d) 2 0 0 0 aS aE) = false) by (unfold HasNext; cbn [sc_index sc_data]; lia).
    destruct fuel; cbn [scan_loop]; rewrite HN; reflexivity.
  Qed.

  Lemma whole_block b pre rest fuel blk : zget d (1 + blk) = Ok (block_length b) ->
    d = pre ++ block_bytes w b ++ rest -> block_ok b -> block_shaped b -> 0 < block_length b <= 255 ->
    exists aS' aE', 0 <= aS' /\ 0 <= aE' /\ aS' + aE' = block_length b /\
    open (Z.to_nat (block_length b) + fuel) (st (zlen pre) blk 0 0 (block_length b) 0 0) =
    do r <- cont fuel (st (zlen (pre ++ block_bytes w b)) blk 0 0 0 aS' aE');
    Ok (block_elements dec b ++ r).
  Proof.
    intros G D OK SH L. destruct (shaped_cases b SH) as [(T & L0)|(f & fs & T & A & L0)]; [lia|]. rewrite zlen_app. subst b.
    apply (open_block fs f pre rest fuel blk _ 0 0 _ G D OK A); lia.
  Qed.

  Variables (hd bd tl : list fragment).
  Hypothesis (OKH : block_ok hd) (OKB : block_ok bd) (OKT : block_ok tl).
  Hypothesis (SHH : block_shaped hd) (SHB : block_shaped bd) (SHT : block_shaped tl).
  Hypothesis (GH : zget d 1 = Ok (block_length hd)) (GB : zget d 2 = Ok (block_length bd)) (GT : zget d 3 = Ok (block_length tl)).
  Hypothesis (LEN : block_length hd + block_length bd + block_length tl <= 255) (LB : 0 < block_length bd).

  Lemma tail_part pre fuel : d = pre ++ block_bytes w tl ->
    open (Z.to_nat (block_length tl) + fuel) (st (zlen pre) 2 0 0 (block_length tl) 0 0) = Ok (block_elements dec tl).
  Proof.
    intros D. pose proof (block_nonneg hd).
    destruct (shaped_cases tl SHT) as [(T & L0)|(f & fs & T & A & L0)].
    - assert (GT0 : zget d 3 = Ok 0) by (rewrite GT, L0; reflexivity). rewrite L0. rewrite T. rewrite T in D. cbn [Z.to_nat plus].
      assert (FL0 : fragment_length (@nil Z, @nil Z) = 0) by reflexivity.
      assert (D0 : d = pre ++ fragment_bytes w ([], []) ++ []) by (rewrite D; reflexivity).
      unfold open. rewrite (parse_control pre ([], []) [] 2 0 0 0 0 GT0 D0); cbn [fst snd]; rewrite ?FL0; change (zlen (@nil Z)) with 0; try lia.
      cbn [bind].
      assert (HN : forall a b c, HasNext (st (zlen pre + 1) 2 0 0 a b c) = false).
      { intros. unfold HasNext. cbn [sc_data sc_index]. rewrite D, zlen_app. unfold block_bytes, fragment_bytes. cbn [map concat app fst snd].
        rewrite zlen_cons, zlen_nil. lia. }
      rewrite scan_end by apply HN. reflexivity.
    - assert (D' : d = pre ++ block_bytes w tl ++ []) by (rewrite app_nil_r; exact D).
      destruct (whole_block tl pre [] fuel 2 GT D' OKT SHT) as (aS & aE & A1 & A2 & A3 & E); [lia|]. rewrite E.
      rewrite <- D. rewrite (finish fuel aS aE _ GT) by lia. cbn [bind]. rewrite app_nil_r. reflexivity.
  Qed.

  Lemma body_part pre fuel : d = pre ++ block_bytes w bd ++ block_bytes w tl ->
    open (Z.to_nat (block_length bd) + (Z.to_nat (block_length tl) + fuel)) (st (zlen pre) 1 0 0 (block_length bd) 0 0) =
    Ok (block_elements dec bd ++ block_elements dec tl).
  Proof.
    intros D. pose proof (block_nonneg hd). pose proof (block_nonneg tl).
    destruct (whole_block bd pre (block_bytes w tl) (Z.to_nat (block_length tl) + fuel) 1 GB D OKB SHB)
      as (aS & aE & A1 & A2 & A3 & E); [lia|]. rewrite E.
    assert (D2 : d = (pre ++ block_bytes w bd) ++ block_bytes w tl) by (rewrite D, app_assoc; reflexivity).
    rewrite (enter _ (block_bytes w tl) 1 aS aE (block_length bd) (block_length tl) _ GB GT); try lia;
      [|exact D2|apply block_nonempty; exact SHT].
    change (1 + 1) with 2. rewrite tail_part by exact D2. reflexivity.
  Qed.

  Lemma head_part pre fuel : d = pre ++ block_bytes w hd ++ block_bytes w bd ++ block_bytes w tl -> 0 < block_length hd ->
    open (Z.to_nat (block_length hd) + (Z.to_nat (block_length bd) + (Z.to_nat (block_length tl) + fuel)))
      (st (zlen pre) 0 0 0 (block_length hd) 0 0) =
    Ok (block_elements dec hd ++ block_elements dec bd ++ block_elements dec tl).
  Proof.
    intros D LH. pose proof (block_nonneg tl).
    destruct (whole_block hd pre (block_bytes w bd ++ block_bytes w tl) (Z.to_nat (block_length bd) + (Z.to_nat (block_length tl) + fuel)) 0
       GH D OKH SHH) as (aS & aE & A1 & A2 & A3 & E); [lia|]. rewrite E.
    assert (D2 : d = (pre ++ block_bytes w hd) ++ block_bytes w bd ++ block_bytes w tl) by (rewrite D, app_assoc; reflexivity).
    rewrite (enter _ (block_bytes w bd ++ block_bytes w tl) 0 aS aE (block_length hd) (block_length bd) _ GH GB); try lia;
      [|exact D2|].
    2:{ intros X. apply app_eq_nil in X. apply (block_nonempty w bd SHB). tauto. }
    change (0 + 1) with 1. rewrite body_part by exact D2. reflexivity.
  Qed.

  Lemma start_open fuel s r : open fuel s = Ok r -> (do ' (s, _) <- parseFragmentControl s; scan_loop fuel k s) = Ok r.
  Proof.
    unfold open. destruct (parseFragmentControl s) as [[s' ok]| | |]; cbn [bind]; [|discriminate..].
    destruct ok; [auto|discriminate].
  Qed.
End Read.

(** lengths *)
Lemma values_size w l : zlen (concat (map (le_digits w) l)) = Z.of_nat w * zlen l.
Proof.
  induction l as [|x l IH]; [rewrite !zlen_nil; lia|]. cbn [map concat].
  rewrite zlen_app, zlen_le_digits, zlen_cons, IH. lia.
Qed.
Lemma fragment_size w f : zlen (fragment_bytes w f) = 1 + zlen (fst f) + Z.of_nat w * zlen (snd f).
Proof.
  unfold fragment_bytes. rewrite zlen_cons, zlen_app. fold (values w (snd f)).
  assert (zlen (values w (snd f)) = Z.of_nat w * zlen (snd f)); [|lia].
  unfold values. induction (snd f) as [|x l IH]; [rewrite !zlen_nil; lia|]. cbn [map concat].
  rewrite zlen_app, zlen_le_digits, zlen_cons, IH. lia.
Qed.

Lemma block_size w b : (1 <= w)%nat -> block_length b + zlen b <= zlen (block_bytes w b) <= (Z.of_nat w) * block_length b + zlen b.
Proof.
  intros W1. unfold block_length, block_bytes. induction b as [|f b IH]; [rewrite !zlen_nil; cbn; lia|].
  cbn [map concat fold_right]. rewrite zlen_app, fragment_size, zlen_cons. unfold fragment_length at 1 3.
  pose proof (zlen_nonneg (fst f)). pose proof (zlen_nonneg (snd f)). nia.
Qed.

Lemma shaped_zlen b : block_shaped b -> zlen b <= block_length b + 1.
Proof.
  intros [->|(_ & A)]; [vm_compute; discriminate|]. unfold block_length. induction A as [|f b F A IH]; [vm_compute; discriminate|].
  rewrite zlen_cons. cbn. lia.
Qed.

Theorem scan_reads k w dec t : fair k -> k_width k = Z.of_nat w ->
  (forall x r, 0 <= x < 256 ^ Z.of_nat w -> bytes r -> k_decode k (le_digits w x ++ r) = Ok (dec x)) ->
  scannable k w dec t -> scan k (rule_bytes w t) = Ok (rule_elements dec t).
Proof.
  intros FA KW DEC SC.
  destruct SC as [CO HH HB HT OU LE SO SZ].
  destruct HH as (SHH & AH). destruct HB as (SHB & AB). destruct HT as (SHT & AT).
  pose proof (fair_width k FA) as W.
  assert (W1 : (1 <= w)%nat) by lia.
  set (d := rule_bytes w t) in *.
  pose proof (block_nonneg (rule_head t)) as NH. pose proof (block_nonneg (rule_tail t)) as NT.
  pose proof (block_size w (rule_head t) W1) as ZH. pose proof (block_size w (rule_body t) W1) as ZB.
  pose proof (block_size w (rule_tail t) W1) as ZT.
  pose proof (shaped_zlen _ SHH) as YH. pose proof (shaped_zlen _ SHB) as YB. pose proof (shaped_zlen _ SHT) as YT.
  assert (ZO : zlen (concat (map (le_digits w) (rule_out t))) = k_width k * zlen (rule_out t)) by (rewrite KW; apply values_size).
  assert (LD : zlen d = 5 + k_width k * zlen (rule_out t) + zlen (block_bytes w (rule_head t)) +
                 zlen (block_bytes w (rule_body t)) + zlen (block_bytes w (rule_tail t))).
  { subst d. unfold rule_bytes. rewrite !zlen_app, ZO, !zlen_cons, zlen_nil. lia. }
  assert (SM : zlen d < 60000 /\ 5 + zlen (rule_out t) * k_width k + 1 < 60000).
  { assert (WV : k_width k = 2 \/ k_width k = 3 \/ k_width k = 4) by lia. rewrite <- KW in ZH, ZB, ZT.
    destruct WV as [WV|[WV|WV]]; rewrite WV in ZH, ZB, ZT, LD |- *; lia. }
  destruct SM as [SM SM2].
  assert (BB : forall b, Forall (fun f => zlen (fst f) <= 15 /\ zlen (snd f) <= 15 /\ Forall byte (fst f) /\
                   Forall (fun x => 0 <= x < 256 ^ Z.of_nat w /\ k_valid k (dec x) = true) (snd f)) b -> bytes (block_bytes w b)).
  { intros b A. unfold block_bytes. induction A as [|f b (A1 & A2 & A3 & A4) A IH]; [constructor|]. cbn [map concat].
    apply bytes_app. split; [|exact IH]. unfold fragment_bytes. apply bytes_cons. pose proof (zlen_nonneg (fst f)). pose proof (zlen_nonneg (snd f)).
    split; [unfold byte; lia|]. apply bytes_app. split; [exact A3|]. clear. induction (snd f) as [|x l IH]; [constructor|].
    cbn [map concat]. apply bytes_app. split; [apply le_digits_bytes|exact IH]. }
  assert (BD : bytes d).
  { subst d. unfold rule_bytes. apply bytes_app. split.
    - pose proof (block_nonneg (rule_body t)). pose proof (zlen_nonneg (rule_out t)).
      repeat (apply bytes_cons; split; [unfold byte in *; lia|]). constructor.
    - apply bytes_app. split.
      + clear. induction (rule_out t) as [|x l IH]; [constructor|]. cbn [map concat]. apply bytes_app. split; [apply le_digits_bytes|exact IH].
      + apply bytes_app. split; [apply BB; exact AH|]. apply bytes_app. split; apply BB; assumption. }
  assert (OK : forall b, Forall (fun f => zlen (fst f) <= 15 /\ zlen (snd f) <= 15 /\ Forall byte (fst f) /\
                   Forall (fun x => 0 <= x < 256 ^ Z.of_nat w /\ k_valid k (dec x) = true) (snd f)) b -> block_ok k w dec b).
  { intros b A. eapply Forall_impl; [|exact A]. intros f (A1 & A2 & _ & A4). split; [exact A1|]. split; [exact A2|exact A4]. }
  assert (G1 : zget d 1 = Ok (block_length (rule_head t))) by reflexivity.
  assert (G2 : zget d 2 = Ok (block_length (rule_body t))) by reflexivity.
  assert (G3 : zget d 3 = Ok (block_length (rule_tail t))) by reflexivity.
  assert (G4 : zget d 4 = Ok (zlen (rule_out t))) by reflexivity.
  unfold scan, Start, startChecks.
  destruct (Z.ltb_spec (zlen d) (k_min k)); [lia|]. rewrite G4. cbn [bind].
  destruct (Z.eqb_spec (zlen (rule_out t)) 0); [lia|]. rewrite G1, G2, G3. cbn [bind].
  rewrite (u8_small (block_length (rule_head t) + block_length (rule_body t))) by lia.
  rewrite (u8_small (_ + _ + _)) by lia.
  destruct (block_length (rule_head t) >? _) eqn:C1; [lia|].
  destruct (block_length (rule_tail t) >? _) eqn:C2; [lia|].
  destruct (Z.ltb_spec (block_length (rule_body t)) (zlen (rule_out t))); [lia|].
  pose proof (zlen_nonneg (rule_out t)). rewrite (u16_small (5 + _)) by (split; [|lia]; apply Z.add_nonneg_nonneg; [lia|apply Z.mul_nonneg_nonneg; lia]).
  set (head := [rule_condition t; block_length (rule_head t); block_length (rule_body t); block_length (rule_tail t); zlen (rule_out t)] ++
    concat (map (le_digits w) (rule_out t))).
  assert (LHD : zlen head = 5 + zlen (rule_out t) * k_width k).
  { subst head. rewrite zlen_app, ZO, !zlen_cons, zlen_nil. lia. }
  assert (D : d = head ++ block_bytes w (rule_head t) ++ block_bytes w (rule_body t) ++ block_bytes w (rule_tail t)).
  { subst d head. unfold rule_bytes. rewrite <- app_assoc. reflexivity. }
  assert (LN : exists x, length d = (Z.to_nat (block_length (rule_head t)) + (Z.to_nat (block_length (rule_body t)) + (Z.to_nat (block_length (rule_tail t)) + x)))%nat).
  { exists (length d - (Z.to_nat (block_length (rule_head t)) + (Z.to_nat (block_length (rule_body t)) + (Z.to_nat (block_length (rule_tail t))))))%nat.
    assert (block_length (rule_head t) + block_length (rule_body t) + block_length (rule_tail t) <= zlen d).
    { pose proof (zlen_nonneg (rule_head t)). pose proof (zlen_nonneg (rule_body t)). pose proof (zlen_nonneg (rule_tail t)). nia. }
    unfold zlen in *. lia. }
  destruct LN as (x & LN). rewrite LN.
  unfold rule_elements.
  destruct (Z.eqb_spec (block_length (rule_head t)) 0) as [HL0|HL0].
  - destruct (Z.eqb_spec (block_length (rule_body t)) 0); [lia|]. cbn [orb bind].
    destruct (shaped_cases _ SHH) as [(T & _)|(f & fs & _ & _ & X)]; [|lia].
    rewrite bind_assoc. rewrite HL0. cbn [Z.to_nat plus].
    rewrite u16_small by (split; [|lia]; apply Z.add_nonneg_nonneg; [|lia]; apply Z.add_nonneg_nonneg; [lia|apply Z.mul_nonneg_nonneg; lia]). rewrite <- LHD.
    assert (D2 : d = (head ++ [0]) ++ block_bytes w (rule_body t) ++ block_bytes w (rule_tail t)).
    { rewrite D, T, <- app_assoc. reflexivity. }
    assert (L2 : zlen (head ++ [0]) = zlen head + 1) by (rewrite zlen_app; reflexivity).
    rewrite <- L2. rewrite T. cbn [block_elements map concat fragment_elements fst snd app].
    erewrite <- (start_open k); [|apply (body_part k w dec KW W DEC d BD SM (rule_head t)); try eassumption; try (apply OK; assumption); lia].
    destruct (parseFragmentControl _) as [[? ?]| | |]; reflexivity.
  - rewrite bind_assoc. cbn [bind]. rewrite <- LHD.
    erewrite <- (start_open k); [|apply (head_part k w dec KW W DEC d BD SM); try eassumption; try (apply OK; assumption); lia].
    destruct (parseFragmentControl _) as [[? ?]| | |]; reflexivity.
Qed.

Lemma read_glyph t : scannable glyph_kind 2 (fun x => x) t -> scan glyph_kind (rule_bytes 2 t) = Ok (rule_elements (fun x => x) t).
Proof.
  apply scan_reads; [exact fair_glyph|reflexivity|]. intros x r X B. cbn [k_decode glyph_kind].
  rewrite decode16_digits, Z.mod_small by (change (256 ^ Z.of_nat 2) with 65536 in X; lia). reflexivity.
Qed.

Lemma read_utf8 t : scannable utf8_kind 4 i32 t -> scan utf8_kind (rule_bytes 4 t) = Ok (rule_elements i32 t).
Proof.
  apply scan_reads; [exact fair_utf8|reflexivity|]. intros x r X B. cbn [k_decode utf8_kind].
  rewrite decode32_digits, Z.mod_small by (change (256 ^ Z.of_nat 4) with 4294967296 in X; lia). reflexivity.
Qed.
