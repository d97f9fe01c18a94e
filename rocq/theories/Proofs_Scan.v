(** Proofs for C48 and C77: exactly what the scanner makes of every byte string. *)
From Coq Require Import Lia.
From Verif Require Import Base BaseFacts Model_Helpers Spec_Helpers Proofs_Helpers Spec_Format Spec_Layout Proofs_Format
  Model_Scanner Spec_Scanner Proofs_Scanner Proofs_Scanner2 Spec_Scan.
Lemma skipn_twice {A} : forall a b (l : list A), skipn a (skipn b l) = skipn (b + a) l.
Proof. intros a b. induction b as [|b IH]; intros l; [reflexivity|]. destruct l as [|x l]; [destruct a; reflexivity|]. apply IH. Qed.
Ltac splits := repeat match goal with |- _ /\ _ => split end.

Definition high (c : Z) : Z := Z.shiftr (Z.land c 240) 4.
Definition low (c : Z) : Z := Z.land c 15.
Lemma nibbles_here x y : 0 <= x <= 15 -> 0 <= y <= 15 -> high (16 * x + y) = x /\ low (16 * x + y) = y.
Proof. intros X Y. unfold high, low. destruct (nibbles (16 * x + y)) as (A & C & D); [unfold byte; lia|]. lia. Qed.
Lemma announced_of c : byte c -> announced c = high c + low c.
Proof. intros B. destruct (nibbles c B) as (H1 & H2 & H3). fold (high c) (low c) in *. unfold announced. rewrite H3 at 1 2. Z.div_mod_to_equations. lia. Qed.

Section Ref.
  Variable k : kind.
  Variables h b t : Z.
  Notation len := (block_len h b t).
  (** the scanner on the bytes that are left; [left] is -1 when the first control byte announced
      too much *)
  Fixpoint ref (n : nat) (blk sets elems left : Z) (rest : list Z) : outcome (list element) :=
    match rest with
    | [] => Ok []
    | c0 :: r0 =>
      match n with
      | O => Hang
      | S n =>
        let aft sets elems (rest : list Z) :=
          match rest with
          | [] => if (sets >? 0) || (elems >? 0) || negb (left =? 0) then invalid_rule
                  else if blk =? 0 then invalid_rule else if (blk =? 1) && negb (t =? 0) then invalid_rule else Ok []
          | c :: r =>
            if (sets =? 0) && (elems =? 0) then
              let blk' := if left =? 0 then blk + 1 else blk in
              let left' := if left =? 0 then len (blk + 1) else left in
              if blk' =? 3 then invalid_rule
              else if high c + low c =? 0 then if left' =? 0 then ref n blk' 0 0 0 r else invalid_rule
              else if high c + low c >? left' then invalid_rule
              else ref n blk' (high c) (low c) (left' - (high c + low c)) r
            else ref n blk sets elems left rest
          end in
        if sets >? 0 then do x <- aft (sets - 1) elems r0; Ok (InSet c0 :: x)
        else if elems >? 0 then
          if zlen rest <? k_width k then invalid_rule
          else do v <- k_decode k rest; if negb (k_valid k v) then invalid_rule
               else do x <- aft sets (elems - 1) (skipn (Z.to_nat (k_width k)) rest); Ok (Single v :: x)
        else Panic
      end
    end.
  Definition aft (n : nat) (blk sets elems left : Z) (rest : list Z) : outcome (list element) :=
    match rest with
    | [] => if (sets >? 0) || (elems >? 0) || negb (left =? 0) then invalid_rule
            else if blk =? 0 then invalid_rule else if (blk =? 1) && negb (t =? 0) then invalid_rule else Ok []
    | c :: r =>
      if (sets =? 0) && (elems =? 0) then
        let blk' := if left =? 0 then blk + 1 else blk in
        let left' := if left =? 0 then len (blk + 1) else left in
        if blk' =? 3 then invalid_rule
        else if high c + low c =? 0 then if left' =? 0 then ref n blk' 0 0 0 r else invalid_rule
        else if high c + low c >? left' then invalid_rule
        else ref n blk' (high c) (low c) (left' - (high c + low c)) r
      else ref n blk sets elems left rest
    end.
  Lemma ref_nil n blk x y l : ref n blk x y l [] = Ok [].
  Proof. destruct n; reflexivity. Qed.
  Lemma ref_step n blk sets elems left c r : ref (S n) blk sets elems left (c :: r) =
    if sets >? 0 then do x <- aft n blk (sets - 1) elems left r; Ok (InSet c :: x)
    else if elems >? 0 then
      if zlen (c :: r) <? k_width k then invalid_rule
      else do v <- k_decode k (c :: r); if negb (k_valid k v) then invalid_rule
           else do x <- aft n blk sets (elems - 1) left (skipn (Z.to_nat (k_width k)) (c :: r)); Ok (Single v :: x)
    else Panic.
  Proof. reflexivity. Qed.
End Ref.

Section Sim.
  Variable k : kind.
  Hypothesis F : fair k.
  Variable data : list Z.
  Hypothesis B : bytes data.
  Hypothesis L : 11 <= zlen data.
  Variables h b t : Z.
  Hypothesis H1 : zget data 1 = Ok h.
  Hypothesis H2 : zget data 2 = Ok b.
  Hypothesis H3 : zget data 3 = Ok t.
  Hypothesis BP : 0 < b.
  Notation good := (good data h b t).
  Notation len := (block_len h b t).

  Definition level (s : scanner) : Z := if sc_accSets s + sc_accElems s + sc_left s =? len (sc_block s) then sc_left s else -1.
  Definition from (s : scanner) : list Z := skipn (Z.to_nat (sc_index s)) data.
  Lemma BLB x : 0 <= x <= 2 -> 0 <= len x < 256.
  Proof. intros X. exact (block_len_byte data B h b t H1 H2 H3 BP x X). Qed.
  Lemma later_nonneg x : 0 <= later b t x.
  Proof. pose proof (bytes_get _ _ _ B H3) as BT. unfold byte in BT. unfold later. destruct (x =? 0), (x =? 1); lia. Qed.
  Lemma from_nil s : good s -> sc_index s >=? zlen data = true -> from s = [].
  Proof. intros [_ _ I _ _ _] E. unfold from. apply skipn_all2. unfold zlen in E. lia. Qed.
  Lemma from_cons s : good s -> sc_index s >=? zlen data = false ->
    exists c, zget data (sc_index s) = Ok c /\ byte c /\ from s = c :: skipn (Z.to_nat (sc_index s + 1)) data.
  Proof.
    intros [_ _ I _ _ _] E. destruct (zget_in_range data (sc_index s)) as (c & C); [lia|]. exists c. split; [exact C|]. split; [exact (bytes_get _ _ _ B C)|].
    unfold from. unfold zget in C. destruct (sc_index s <? 0); [discriminate|]. destruct (nth_error data (Z.to_nat (sc_index s))) eqn:N; [|discriminate]. injection C as ->.
    replace (Z.to_nat (sc_index s + 1)) with (S (Z.to_nat (sc_index s))) by lia. clear - N. revert N. generalize (Z.to_nat (sc_index s)) as n. intros n. revert data.
    induction n as [|n IH]; intros [|y l] N; try discriminate; cbn in *; [injection N as ->; reflexivity|]. apply IH in N. exact N.
  Qed.
  Lemma hn s : good s -> HasNext s = negb (sc_index s >=? zlen data).
  Proof. intros [D _ _ _ _ _]. unfold HasNext. rewrite D. lia. Qed.

  Lemma after_sim n : (forall s, good s -> scan_loop n k s = ref k h b t n (sc_block s) (sc_sets s) (sc_elems s) (level s) (from s)) ->
    forall s, good s -> (do s' <- after_element s; scan_loop n k s') = aft k h b t n (sc_block s) (sc_sets s) (sc_elems s) (level s) (from s).
  Proof.
    intros IH s G. pose proof G as [D K I (R1 & R2 & R3) (A1 & A2 & A) P].
      pose proof (BLB _ K) as BL.
      unfold after_element. rewrite D. destruct (sc_index s >=? zlen data) eqn:E1.
      - rewrite (from_nil s G E1). cbn [aft]. unfold checkTermination. rewrite D.
        assert (EL : (sc_sets s >? 0) || (sc_elems s >? 0) || (sc_left s >? 0) = (sc_sets s >? 0) || (sc_elems s >? 0) || negb (level s =? 0)).
        { f_equal. unfold level. destruct (Z.eqb_spec (sc_accSets s + sc_accElems s + sc_left s) (len (sc_block s))); [|destruct A; lia].
          destruct (Z.eqb_spec (sc_left s) 0); lia. }
        rewrite <- EL. destruct (_ || _) eqn:EE; [reflexivity|]. destruct (Z.eqb_spec (sc_block s) 0) as [K0|K0]; [reflexivity|].
        destruct (Z.eqb_spec (sc_block s) 1) as [K1|K1].
        + rewrite H3. cbn [bind andb]. destruct (t =? 0); cbn [negb bind]; [|reflexivity]. apply scan_end. rewrite (hn s G), E1. reflexivity.
        + destruct (Z.eqb_spec (sc_block s) 2) as [K2|]; [|lia]. rewrite H3. cbn [bind andb]. rewrite K2 in A, BL.
          change (len 2) with t in A, BL. rewrite u8_small by (unfold byte in *; lia).
          destruct (Z.eqb_spec t (sc_accSets s + sc_accElems s)) as [T|T]; [|lia]. cbn [negb bind]. apply scan_end. rewrite (hn s G), E1. reflexivity.
      - destruct (from_cons s G E1) as (c & C & BC & EF). rewrite EF. cbn [aft].
        destruct ((sc_sets s =? 0) && (sc_elems s =? 0)) eqn:E2; [|rewrite <- EF; cbn [bind]; now apply IH].
        unfold advanceControl.
        assert (PC : forall s1, good s1 -> sc_index s1 = sc_index s -> sc_sets s1 = 0 -> sc_elems s1 = 0 ->
          (level s1 = 0 -> sc_index s + 5 * later b t (sc_block s1) + (2 - sc_block s1) < 10000) ->
          (do s' <- (do ' (s0, ok) <- parseFragmentControl s1; if ok : bool then Ok s0 else invalid_rule); scan_loop n k s') =
          if high c + low c =? 0 then if level s1 =? 0 then ref k h b t n (sc_block s1) 0 0 0 (skipn (Z.to_nat (sc_index s + 1)) data) else invalid_rule
          else if high c + low c >? level s1 then invalid_rule
          else ref k h b t n (sc_block s1) (high c) (low c) (level s1 - (high c + low c)) (skipn (Z.to_nat (sc_index s + 1)) data)).
        { intros s1 G1 I1 S1 S2 HPOT. pose proof G1 as [D1 K1 J1 (Q1 & Q2 & Q3) (B1 & B2 & AA) P1]. pose proof (BLB _ K1) as BL1.
          unfold parseFragmentControl. rewrite D1, I1, C. cbn [bind]. rewrite (get_block data h b t H1 H2 H3 _ K1). cbn [bind].
          fold (high c) (low c). destruct (nibbles c BC) as (N1 & N2 & _). fold (high c) in N1. fold (low c) in N2.
          assert (W1 : 0 <= later b t (sc_block s1)) by apply later_nonneg.
          rewrite (u8_small (high c + low c)) by lia. rewrite (u16_small (sc_index s + 1)) by lia.
          assert (LV : level s1 = sc_left s1 /\ sc_accSets s1 + sc_accElems s1 + sc_left s1 = len (sc_block s1) \/
                       level s1 = -1 /\ len (sc_block s1) < sc_accSets s1 + sc_accElems s1 <= 30 /\ 0 < sc_left s1).
          { unfold level. destruct (Z.eqb_spec (sc_accSets s1 + sc_accElems s1 + sc_left s1) (len (sc_block s1))); [left|right]; lia. }
          assert (GO : forall left, 0 <= left -> sc_accSets s1 + high c + (sc_accElems s1 + low c) + left = len (sc_block s1) -> sc_index s + 1 + 4 * (high c + low c) + 5 * left + 5 * later b t (sc_block s1) + (2 - sc_block s1) <= 10000 ->
            good (mkScanner data (sc_index s + 1) (sc_block s1) (high c) (low c) left (sc_accSets s1 + high c) (sc_accElems s1 + low c)) /\
            level (mkScanner data (sc_index s + 1) (sc_block s1) (high c) (low c) left (sc_accSets s1 + high c) (sc_accElems s1 + low c)) = left).
          { intros left HL HS HQ. split.
            - constructor; cbn; [reflexivity|lia|lia|lia| |lia]. split; [lia|]. split; [lia|]. left. lia.
            - unfold level. cbn. destruct (Z.eqb_spec (sc_accSets s1 + high c + (sc_accElems s1 + low c) + left) (len (sc_block s1))); [reflexivity|lia]. }
          destruct (Z.eqb_spec (high c + low c) 0) as [Z0|Z0].
          - assert (high c = 0) as X0 by lia. assert (low c = 0) as Y0 by lia. rewrite X0, Y0 in *. rewrite !Z.add_0_r in *.
            rewrite (u8_small (sc_accSets s1)), (u8_small (sc_accElems s1)) by lia. rewrite (u8_small (sc_accSets s1 + sc_accElems s1)) by lia.
            destruct (Z.eqb_spec (sc_accSets s1 + sc_accElems s1) (len (sc_block s1))) as [E3|E3]; cbn [negb bind].
            + destruct LV as [(LV0 & LV)|LV]; [|lia]. rewrite LV0 in *. destruct (Z.eqb_spec (sc_left s1) 0) as [E4|E4]; [|lia]. specialize (HPOT E4).
              rewrite Z.sub_0_r, (u8_small (sc_left s1)) by lia. destruct (GO (sc_left s1)) as [G2 L2]; [lia..|].
              rewrite (IH _ G2), L2. cbn [sc_block sc_sets sc_elems from sc_index]. now rewrite E4.
            + destruct (Z.eqb_spec (level s1) 0); [lia|]. reflexivity.
          - destruct (high c + low c >? level s1) eqn:E3.
            + destruct LV as [(LV & LS)|(LV & LS & LP)].
              * destruct (_ <? _); [reflexivity|]. destruct (_ >? len _); [reflexivity|]. destruct (high c + low c >? sc_left s1) eqn:E4; [reflexivity|lia].
              * rewrite (u8_small (sc_accSets s1 + high c)), (u8_small (sc_accElems s1 + low c)) by lia. rewrite (u8_small (_ + _ + _)) by lia.
                destruct (_ <? _); [reflexivity|]. destruct (_ >? len _) eqn:E5; [reflexivity|lia].
            + destruct LV as [(LV & LS)|(LV & LS & LP)]; [|lia]. rewrite LV in *.
              rewrite (u8_small (sc_accSets s1 + high c)), (u8_small (sc_accElems s1 + low c)) by lia. rewrite (u8_small (_ + _ + _)) by lia.
              destruct (Z.ltb_spec (sc_accSets s1 + high c + (sc_accElems s1 + low c)) (sc_accSets s1 + high c)); [lia|].
              destruct (_ >? len _) eqn:E5; [lia|]. rewrite E3. cbn [bind]. rewrite u8_small by lia.
              destruct (GO (sc_left s1 - (high c + low c))) as [G2 L2]; [lia..|]. rewrite (IH _ G2), L2. reflexivity. }
        unfold enterBlock. destruct (Z.eqb_spec (sc_left s) 0) as [L0|L0].
        + assert (LS : sc_accSets s + sc_accElems s + sc_left s = len (sc_block s)) by (destruct A as [A|A]; lia).
          assert (LV : level s = 0) by (unfold level; rewrite LS, Z.eqb_refl; exact L0). rewrite LV. change (0 =? 0) with true. cbv iota zeta.
          rewrite D, (get_block data h b t H1 H2 H3 _ K). cbn [bind]. rewrite (u8_small (sc_accElems s + sc_accSets s)) by lia.
          destruct (Z.eqb_spec (len (sc_block s)) (sc_accElems s + sc_accSets s)); [|lia]. cbn [negb].
          destruct ((sc_block s =? 0) || (sc_block s =? 1)) eqn:KK.
          * rewrite (get_block data h b t H1 H2 H3 (sc_block s + 1)) by lia. cbn [bind]. destruct (Z.eqb_spec (sc_block s + 1) 3); [lia|].
            pose proof (BLB (sc_block s + 1) ltac:(lia)) as BL2.
            assert (W2 : later b t (sc_block s) = len (sc_block s + 1) + later b t (sc_block s + 1)).
            { unfold later, block_len. assert (X : sc_block s = 0 \/ sc_block s = 1) by lia.
              destruct X as [-> | ->]; [change (0 + 1) with 1|change (1 + 1) with 2]; cbv [Z.eqb Pos.eqb]; lia. }
            assert (S0 : sc_sets s = 0) by lia. assert (E0 : sc_elems s = 0) by lia. rewrite S0, E0.
            rewrite PC; cbn [sc_index sc_sets sc_elems sc_block]; try reflexivity.
            -- unfold level. cbn [sc_accSets sc_accElems sc_left sc_block]. rewrite !Z.add_0_l, Z.eqb_refl. reflexivity.
            -- constructor; cbn; [reflexivity|lia|lia|lia| |lia]. split; [lia|]. split; [lia|]. left. lia.
            -- intros _. lia.
          * destruct (Z.eqb_spec (sc_block s + 1) 3); [reflexivity|lia].
        + cbn [bind]. assert (LV : level s <> 0) by (unfold level; destruct (_ =? len _); [exact L0|discriminate]). destruct (Z.eqb_spec (level s) 0); [lia|]. cbv zeta.
          destruct (Z.eqb_spec (sc_block s) 3); [lia|]. rewrite PC; [reflexivity|exact G|reflexivity|lia|lia|lia].
  Qed.
  Lemma sim : forall n s, good s -> scan_loop n k s = ref k h b t n (sc_block s) (sc_sets s) (sc_elems s) (level s) (from s).
  Proof.
    induction n as [|n IH]; intros s G; pose proof (hn s G) as HN; cbn [scan_loop]; rewrite HN; (destruct (sc_index s >=? zlen data) eqn:E1; [rewrite (from_nil s G E1); reflexivity|]);
      destruct (from_cons s G E1) as (c & C & BC & EF); rewrite EF; cbn [negb]; [reflexivity|]. rewrite ref_step.
    pose proof (after_sim n IH) as AF. pose proof G as [D K I (R1 & R2 & R3) (A1 & A2 & A) P]. destruct F as [FW FM FD FP].
    assert (W1 : 0 <= later b t (sc_block s)) by apply later_nonneg.
    unfold Next. rewrite D. destruct (sc_sets s >? 0) eqn:E2.
    - rewrite E1, C. cbn [bind]. rewrite (u16_small (sc_index s + 1)) by lia.
      match goal with |- context [after_element ?x] => set (s1 := x) end.
      assert (G1 : good s1) by (constructor; cbn; [reflexivity|lia|lia|lia|tauto|lia]).
      specialize (AF s1 G1). change (level s1) with (level s) in AF. change (from s1) with (skipn (Z.to_nat (sc_index s + 1)) data) in AF.
      cbn [s1 sc_block sc_sets sc_elems] in AF. rewrite <- AF. destruct (after_element s1); reflexivity.
    - destruct (sc_elems s >? 0) eqn:E3; [|reflexivity].
      assert (ZL : zlen (c :: skipn (Z.to_nat (sc_index s + 1)) data) = zlen data - sc_index s) by (rewrite <- EF; unfold from; rewrite zlen_skipn; lia).
      rewrite ZL. destruct (Z.ltb_spec (zlen data - sc_index s) (k_width k)) as [E4|E4].
      + destruct (sc_index s + (k_width k - 1) >=? zlen data) eqn:E5; [reflexivity|lia].
      + destruct (sc_index s + (k_width k - 1) >=? zlen data) eqn:E5; [lia|]. rewrite zfrom_ok by lia. cbn [bind].
        change (skipn (Z.to_nat (sc_index s)) data) with (from s). rewrite <- EF. destruct (k_decode k (from s)) as [v| | |]; cbn [bind]; try reflexivity.
        destruct (negb (k_valid k v)); [reflexivity|]. rewrite (u16_small (sc_index s + k_width k)) by lia.
        match goal with |- context [after_element ?x] => set (s1 := x) end.
        assert (G1 : good s1) by (constructor; cbn; [reflexivity|lia|lia|lia|tauto|lia]).
        specialize (AF s1 G1). change (level s1) with (level s) in AF.
        assert (EF2 : from s1 = skipn (Z.to_nat (k_width k)) (from s)).
        { unfold from. cbn [s1 sc_index]. rewrite skipn_twice. f_equal. lia. }
        rewrite EF2 in AF. cbn [s1 sc_block sc_sets sc_elems] in AF. rewrite <- AF. destruct (after_element s1); reflexivity.
  Qed.
End Sim.

Section Lists.
  Variable k : kind.
  Variable w : nat.
  Variable dec : Z -> Z.
  Hypothesis KW : k_width k = Z.of_nat w.
  Hypothesis W : 2 <= k_width k <= 4.
  Hypothesis DEC : forall x r, 0 <= x < 256 ^ Z.of_nat w -> bytes r -> k_decode k (le_digits w x ++ r) = Ok (dec x).
  Variables h b t : Z.
  Hypothesis HH : 0 <= h.
  Hypothesis HB : 0 < b.
  Hypothesis HT : 0 <= t.
  Notation len := (block_len h b t).
  Notation ref := (ref k h b t).
  Notation aft := (aft k h b t).
  Notation values := (values w).
  Notation vals_ok := (vals_ok k w dec).
  Notation good_fragment := (fragment_valid w (k_valid k) dec).

  Lemma bytes_values E : bytes (values E).
  Proof. induction E as [|x E IH]; [constructor|]. unfold Proofs_Scanner2.values. cbn [map concat]. apply bytes_app. split; [apply le_digits_bytes|exact IH]. Qed.
  Lemma values_length E : zlen (values E) = k_width k * zlen E.
  Proof. unfold Proofs_Scanner2.values. induction E as [|x E IH]; [rewrite !zlen_nil; lia|]. cbn [map concat]. rewrite zlen_app, zlen_le_digits, zlen_cons, IH, KW. lia. Qed.
  Lemma ref_more : forall n m blk x y l rest, (length rest <= n)%nat -> (length rest <= m)%nat -> ref n blk x y l rest = ref m blk x y l rest.
  Proof.
    induction n as [|n IH]; intros m blk x y l rest N M.
    { destruct rest; [rewrite !ref_nil; reflexivity|cbn in N; lia]. }
    destruct rest as [|c r]; [rewrite !ref_nil; reflexivity|]. destruct m as [|m]; [cbn in M; lia|]. rewrite !ref_step.
    assert (AF : forall x y r', (length r' <= length r)%nat -> aft n blk x y l r' = aft m blk x y l r').
    { intros x' y' [|c' r'] LE; [reflexivity|]. cbn in N, M, LE. unfold Proofs_Scan.aft. cbv zeta.
      rewrite !(IH m _ _ _ _ r') by lia. rewrite (IH m _ _ _ _ (c' :: r')) by (cbn; lia). reflexivity. }
    rewrite AF by lia. rewrite AF; [reflexivity|]. replace (Z.to_nat (k_width k)) with (S (Z.to_nat (k_width k - 1))) by lia. cbn. rewrite skipn_length. lia.
  Qed.
  Lemma aft_more n m blk x y l rest : (length rest <= n)%nat -> (length rest <= m)%nat -> aft n blk x y l rest = aft m blk x y l rest.
  Proof.
    intros N M. destruct rest as [|c r]; [reflexivity|]. cbn in N, M. unfold Proofs_Scan.aft. cbv zeta.
    rewrite !(ref_more n m _ _ _ _ r) by lia. rewrite (ref_more n m _ _ _ _ (c :: r)) by (cbn; lia). reflexivity.
  Qed.
  Definition at_end (blk l : Z) (rest : list Z) : outcome (list element) := aft (length rest) blk 0 0 l rest.
  Lemma at_end_of n blk l rest : (length rest <= n)%nat -> aft n blk 0 0 l rest = at_end blk l rest.
  Proof. intros N. apply aft_more; lia. Qed.
  Definition pre (l : list element) (o : outcome (list element)) : outcome (list element) := do x <- o; Ok (l ++ x).
  Lemma pre_nil o : pre [] o = o.
  Proof. destruct o; reflexivity. Qed.
  Lemma pre_pre l1 l2 o : pre l1 (pre l2 o) = pre (l1 ++ l2) o.
  Proof. destruct o; cbn; rewrite ?app_assoc; reflexivity. Qed.

  (** the elements of a fragment *)
  Lemma aft_ref n blk x y l c r : 0 <= x -> 0 <= y -> 0 < x + y -> aft n blk x y l (c :: r) = ref n blk x y l (c :: r).
  Proof. intros. unfold Proofs_Scan.aft. destruct ((x =? 0) && (y =? 0)) eqn:E; [lia|reflexivity]. Qed.
  Lemma inner_forward : forall S E r n blk l, vals_ok E -> bytes (S ++ values E ++ r) -> (length (S ++ values E ++ r) <= n)%nat ->
    aft n blk (zlen S) (zlen E) l (S ++ values E ++ r) = pre (map InSet S ++ map (fun x => Single (dec x)) E) (at_end blk l r).
  Proof.
    induction S as [|s S IH]; intros E r n blk l V BY N.
    - revert n V BY N. induction E as [|x E IHE]; intros n V BY N.
      { cbn [app map]. rewrite pre_nil. apply at_end_of. exact N. }
      inversion V as [|? ? (VX & VV) VE]; subst. cbn [app] in *. unfold Proofs_Scanner2.values in *. cbn [map concat] in *. rewrite <- app_assoc in *.
      fold (values E) in *.
      assert (exists c q, le_digits w x ++ values E ++ r = c :: q) as (c & q & EQ).
      { destruct (le_digits w x) as [|c q] eqn:Q; [pose proof (zlen_le_digits w x) as X; rewrite Q, zlen_nil in X; lia|eexists; eexists; reflexivity]. }
      assert (ZL : k_width k <= zlen (c :: q)).
      { rewrite <- EQ, zlen_app, zlen_le_digits. pose proof (zlen_nonneg (values E ++ r)). lia. }
      apply bytes_app in BY as BY2. destruct BY2 as [_ BY2].
      assert (DC : k_decode k (c :: q) = Ok (dec x)) by (rewrite <- EQ; apply DEC; [exact VX|exact BY2]).
      assert (SK : skipn (Z.to_nat (k_width k)) (c :: q) = values E ++ r).
      { rewrite <- EQ. apply skipn_length_app. rewrite le_digits_length. lia. }
      rewrite EQ in *. rewrite zlen_cons, zlen_nil. pose proof (zlen_nonneg E). rewrite aft_ref by lia.
      destruct n as [|n]; [cbn in N; lia|]. rewrite ref_step. change (0 >? 0) with false. cbv iota. destruct (1 + zlen E >? 0) eqn:C1; [|lia].
      destruct (Z.ltb_spec (zlen (c :: q)) (k_width k)); [lia|]. rewrite DC. cbn [bind]. rewrite VV. cbn [negb]. rewrite SK.
      replace (1 + zlen E - 1) with (zlen E) by lia. change 0 with (zlen (@nil Z)) at 1.
      rewrite (IHE n VE); [| exact BY2 | rewrite <- SK; replace (Z.to_nat (k_width k)) with (Datatypes.S (Z.to_nat (k_width k - 1))) by lia; cbn; cbn in N; rewrite skipn_length; lia].
      cbn [map app]. destruct (at_end blk l r); reflexivity.
    - cbn [app]. rewrite zlen_cons. pose proof (zlen_nonneg S). pose proof (zlen_nonneg E). rewrite aft_ref by lia.
      destruct n as [|n]; [cbn in N; lia|]. rewrite ref_step. destruct (1 + zlen S >? 0) eqn:C1; [|lia]. replace (1 + zlen S - 1) with (zlen S) by lia.
      cbn [app] in BY. apply bytes_cons in BY as [_ BY]. rewrite IH; [|exact V|exact BY|cbn in N; lia]. cbn [map app]. destruct (at_end blk l r); reflexivity.
  Qed.
  Lemma inner_cases : forall rest n blk x y l, bytes rest -> (length rest <= n)%nat -> 0 <= x -> 0 <= y ->
    aft n blk x y l rest = invalid_rule \/ exists S E r, rest = S ++ values E ++ r /\ zlen S = x /\ zlen E = y /\ vals_ok E.
  Proof.
    assert (G : forall m rest n blk x y l, (length rest <= m)%nat -> bytes rest -> (length rest <= n)%nat -> 0 <= x -> 0 <= y ->
      aft n blk x y l rest = invalid_rule \/ exists S E r, rest = S ++ values E ++ r /\ zlen S = x /\ zlen E = y /\ vals_ok E).
    2:{ intros rest n blk x y l. apply (G (length rest)). lia. }
    induction m as [|m IH]; intros rest n blk x y l M BY N X Y; (destruct (Z.eq_dec (x + y) 0) as [Z0|Z0];
      [right; exists [], [], rest; rewrite zlen_nil; splits; [reflexivity|lia|lia|constructor]|]);
      (destruct rest as [|c r]; [left; cbn; destruct ((x >? 0) || (y >? 0)) eqn:E; [reflexivity|lia]|]); [cbn in M; lia|].
    rewrite aft_ref by lia. destruct n as [|n]; [cbn in N; lia|]. rewrite ref_step. cbn in M, N. destruct (x >? 0) eqn:EX.
    - apply bytes_cons in BY as [BC BY]. destruct (IH r n blk (x - 1) y l) as [->|(S & E & q & -> & L1 & L2 & V)]; [lia|exact BY|lia|lia|lia|left; reflexivity|].
      right. exists (c :: S), E, q. rewrite zlen_cons. splits; [reflexivity|lia|lia|exact V].
    - destruct (y >? 0) eqn:EY; [|lia]. destruct (Z.ltb_spec (zlen (c :: r)) (k_width k)) as [LW|LW]; [left; reflexivity|].
      set (v := le_value (firstn w (c :: r))).
      assert (EQ : c :: r = le_digits w v ++ skipn w (c :: r)).
      { rewrite <- (firstn_skipn w (c :: r)) at 1. f_equal. unfold v. rewrite <- (le_digits_value (firstn w (c :: r))) at 1 by (apply bytes_firstn, BY).
        f_equal. rewrite firstn_length. unfold zlen in LW. lia. }
      assert (VR : 0 <= v < 256 ^ Z.of_nat w).
      { unfold v. pose proof (le_value_range (firstn w (c :: r)) (bytes_firstn _ _ BY)) as R. unfold zlen in R, LW. rewrite firstn_length in R.
        replace (Z.of_nat (Nat.min w (length (c :: r)))) with (Z.of_nat w) in R by lia. exact R. }
      assert (DC : k_decode k (c :: r) = Ok (dec v)) by (rewrite EQ; apply DEC; [exact VR|apply bytes_skipn, BY]).
      rewrite DC. cbn [bind]. destruct (k_valid k (dec v)) eqn:VV; [|left; reflexivity]. cbn [negb].
      replace (Z.to_nat (k_width k)) with w by lia.
      assert (SL : (length (skipn w (c :: r)) <= length r)%nat) by (rewrite skipn_length; cbn [length]; lia).
      destruct (IH (skipn w (c :: r)) n blk x (y - 1) l) as [->|(S & E & q & EQ2 & L1 & L2 & V)]; [lia|apply bytes_skipn, BY|lia|lia|lia|left; reflexivity|].
      right. exists [], (v :: E), q. assert (S = []) by (apply zlen_0_nil; lia). subst S. rewrite zlen_cons, zlen_nil. splits; [|lia|lia|constructor; [split; [exact VR|exact VV]|exact V]].
      rewrite EQ, EQ2. unfold Proofs_Scanner2.values. cbn [map concat app]. now rewrite <- app_assoc.
  Qed.

  (** a control byte *)
  Definition opened (blk l c : Z) (r : list Z) : outcome (list element) :=
    if high c + low c =? 0 then if l =? 0 then ref (length r) blk 0 0 0 r else invalid_rule
    else if high c + low c >? l then invalid_rule
    else ref (length r) blk (high c) (low c) (l - (high c + low c)) r.
  Lemma at_end_nil blk l : at_end blk l [] = if negb (l =? 0) then invalid_rule
    else if blk =? 0 then invalid_rule else if (blk =? 1) && negb (t =? 0) then invalid_rule else Ok [].
  Proof. reflexivity. Qed.
  Lemma at_end_cons blk l c r : 0 <= blk <= 2 -> at_end blk l (c :: r) =
    if l =? 0 then if blk =? 2 then invalid_rule else opened (blk + 1) (len (blk + 1)) c r else opened blk l c r.
  Proof.
    intros K. unfold at_end. cbn [length]. unfold Proofs_Scan.aft, opened. change ((0 =? 0) && (0 =? 0)) with true. cbv zeta.
    rewrite !(ref_more (Datatypes.S (length r)) (length r)) by lia. destruct (l =? 0) eqn:LZ.
    - destruct (Z.eqb_spec blk 2), (Z.eqb_spec (blk + 1) 3); try lia; reflexivity.
    - destruct (Z.eqb_spec blk 3); [lia|]. rewrite LZ. reflexivity.
  Qed.
  Lemma opened_nil blk l c : byte c -> 1 <= announced c -> announced c <= l -> opened blk l c [] = Ok [].
  Proof.
    intros BC A1 A2. rewrite (announced_of c BC) in *. unfold opened. rewrite !ref_nil. destruct (Z.eqb_spec (high c + low c) 0); [lia|].
    destruct (high c + low c >? l) eqn:E; [lia|reflexivity].
  Qed.
  Lemma opened_forward blk l f r : good_fragment f -> fragment_length f <= l -> bytes r ->
    exists c q, byte c /\ fragment_bytes w f ++ r = c :: q /\ opened blk l c q = pre (fragment_elements dec f) (at_end blk (l - fragment_length f) r).
  Proof.
    intros (FL & S15 & E15 & BS & V) LE BR. unfold fragment_bytes, fragment_length in *. pose proof (zlen_nonneg (fst f)). pose proof (zlen_nonneg (snd f)).
    exists (16 * zlen (fst f) + zlen (snd f)), (fst f ++ values (snd f) ++ r). split; [unfold byte; lia|]. split; [cbn; rewrite <- app_assoc; reflexivity|].
    destruct (nibbles_here (zlen (fst f)) (zlen (snd f))) as [N1 N2]; [lia..|]. unfold opened. rewrite N1, N2.
    destruct (Z.eqb_spec (zlen (fst f) + zlen (snd f)) 0); [lia|]. destruct (_ >? l) eqn:E; [lia|].
    destruct (fst f ++ values (snd f) ++ r) as [|c q] eqn:Q.
    { apply app_eq_nil in Q as [Q1 Q2]. apply app_eq_nil in Q2 as [Q2 _]. pose proof (values_length (snd f)) as ZV. rewrite Q1 in *. rewrite Q2 in ZV. rewrite !zlen_nil in *. nia. }
    rewrite <- aft_ref by lia. rewrite <- Q.
    apply inner_forward; [exact V| |lia]. apply bytes_app. split; [exact BS|]. apply bytes_app. split; [|exact BR].
    apply bytes_values.
  Qed.
  Lemma opened_cases blk l c r : byte c -> bytes r -> 1 <= l ->
    opened blk l c r = invalid_rule \/
    (r = [] /\ 1 <= announced c <= l) \/
    (exists f q, good_fragment f /\ fragment_length f <= l /\ c :: r = fragment_bytes w f ++ q).
  Proof.
    intros BC BR L1. destruct (nibbles c BC) as (N1 & N2 & N3). fold (high c) (low c) in *. rewrite (announced_of c BC). unfold opened.
    destruct (Z.eqb_spec (high c + low c) 0) as [Z0|Z0]; [destruct (Z.eqb_spec l 0); [lia|left; reflexivity]|].
    destruct (_ >? l) eqn:E; [left; reflexivity|]. destruct r as [|d r]; [right; left; split; [reflexivity|lia]|].
    rewrite <- aft_ref by lia. destruct (inner_cases (d :: r) (length (d :: r)) blk (high c) (low c) (l - (high c + low c)) BR) as [X|(S & E' & q & EQ & L2 & L3 & V)]; [lia..|left; exact X|].
    right. right. exists (S, E'), q. unfold fragment_valid, fragment_length, fragment_bytes. cbn [fst snd]. splits; [lia|lia|lia| |exact V|lia|].
    - rewrite EQ in BR. apply bytes_app in BR. tauto.
    - rewrite EQ, L2, L3, N3 at 1. cbn [app]. unfold Proofs_Scanner2.values. rewrite <- app_assoc. reflexivity.
  Qed.

  (** the fragments of a block *)
  Lemma block_forward blk : 0 <= blk <= 2 -> forall fs l r, Forall good_fragment fs -> block_length fs <= l -> bytes r ->
    at_end blk l (block_bytes w fs ++ r) = pre (block_elements dec fs) (at_end blk (l - block_length fs) r).
  Proof.
    intros K. induction fs as [|f fs IH]; intros l r V LE BR.
    { cbn. rewrite pre_nil, Z.sub_0_r. reflexivity. }
    inversion V as [|? ? VF VS]; subst. unfold block_length, block_bytes, block_elements in *. cbn [map concat fold_right] in *.
    pose proof (block_nonneg fs) as NN. unfold block_length in NN. assert (FL : 1 <= fragment_length f) by apply VF.
    rewrite <- app_assoc. destruct (opened_forward blk l f (block_bytes w fs ++ r)) as (c & q & BC & EQ & OP); [exact VF|lia| |].
    { apply bytes_app. split; [|exact BR]. clear - VS. unfold block_bytes. induction VS as [|f fs (A1 & A2 & A3 & A4 & A5) VS IH]; [constructor|].
      cbn [map concat]. apply bytes_app. split; [|exact IH]. unfold fragment_bytes, fragment_length in *. apply bytes_cons. pose proof (zlen_nonneg (fst f)). pose proof (zlen_nonneg (snd f)).
      split; [unfold byte; lia|]. apply bytes_app. split; [exact A4|]. apply bytes_values. }
    unfold block_bytes in EQ, OP. rewrite EQ. rewrite at_end_cons by exact K. destruct (Z.eqb_spec l 0); [lia|]. rewrite OP.
    rewrite IH by (try assumption; lia). rewrite pre_pre. f_equal. f_equal. lia.
  Qed.
  Lemma block_cases blk : 0 <= blk <= 2 -> forall rest l, bytes rest -> 0 <= l ->
    at_end blk l rest = invalid_rule \/
    (exists fs c, rest = block_bytes w fs ++ [c] /\ Forall good_fragment fs /\ byte c /\ 1 <= announced c /\ block_length fs + announced c <= l) \/
    (exists fs r, rest = block_bytes w fs ++ r /\ bytes r /\ Forall good_fragment fs /\ block_length fs = l).
  Proof.
    intros K. assert (G : forall m rest l, (length rest <= m)%nat -> bytes rest -> 0 <= l ->
      at_end blk l rest = invalid_rule \/
      (exists fs c, rest = block_bytes w fs ++ [c] /\ Forall good_fragment fs /\ byte c /\ 1 <= announced c /\ block_length fs + announced c <= l) \/
      (exists fs r, rest = block_bytes w fs ++ r /\ bytes r /\ Forall good_fragment fs /\ block_length fs = l)).
    2:{ intros rest l. apply (G (length rest)). lia. }
    induction m as [|m IH]; intros rest l M BR L0;
      (destruct (Z.eq_dec l 0) as [->|LN]; [right; right; exists [], rest; splits; [reflexivity|exact BR|constructor|reflexivity]|]);
      (destruct rest as [|c r]; [left; rewrite at_end_nil; destruct (Z.eqb_spec l 0); [lia|reflexivity]|]); [cbn in M; lia|].
    apply bytes_cons in BR as BR2. destruct BR2 as [BC BR2].
    rewrite at_end_cons by exact K. destruct (Z.eqb_spec l 0); [lia|].
    destruct (opened_cases blk l c r BC BR2) as [X|[(-> & A)|(f & q & VF & FL & EQ)]]; [lia|left; exact X| |].
    { right. left. exists [], c. splits; [reflexivity|constructor|exact BC|lia|cbn; lia]. }
    assert (F1 : 1 <= fragment_length f) by apply VF.
    assert (BQ : bytes q) by (rewrite EQ in BR; apply bytes_app in BR; tauto).
    destruct (opened_forward blk l f q VF FL BQ) as (c' & r' & _ & EQ2 & OP). rewrite <- EQ in EQ2. injection EQ2 as <- <-. rewrite OP.
    assert (LQ : (length q <= m)%nat).
    { apply (f_equal (@length Z)) in EQ. rewrite app_length in EQ. unfold fragment_bytes in EQ. cbn in EQ, M. lia. }
    destruct (IH q (l - fragment_length f) LQ BQ ltac:(lia)) as [->|[(fs & d & -> & A1 & A2 & A3 & A4)|(fs & d & -> & A1 & A2 & A3)]].
    - left. reflexivity.
    - right. left. exists (f :: fs), d. unfold block_bytes, block_length in *. cbn [map concat fold_right]. rewrite <- app_assoc. splits; [exact EQ|constructor; assumption|assumption|lia|lia].
    - right. right. exists (f :: fs), d. unfold block_bytes, block_length in *. cbn [map concat fold_right]. rewrite <- app_assoc. splits; [exact EQ|assumption|constructor; assumption|lia].
  Qed.

  (** the blocks *)
  Lemma valid_bytes fs : Forall good_fragment fs -> bytes (block_bytes w fs).
  Proof.
    intros VS. unfold block_bytes. induction VS as [|f fs (A1 & A2 & A3 & A4 & A5) VS IH]; [constructor|].
    cbn [map concat]. apply bytes_app. split; [|exact IH]. unfold fragment_bytes, fragment_length in *. apply bytes_cons. pose proof (zlen_nonneg (fst f)). pose proof (zlen_nonneg (snd f)).
    split; [unfold byte; lia|]. apply bytes_app. split; [exact A4|]. apply bytes_values.
  Qed.
  Lemma valid_zero fs : Forall good_fragment fs -> block_length fs = 0 -> fs = [].
  Proof.
    intros V Z0. destruct V as [|f fs (A1 & _) V]; [reflexivity|]. pose proof (block_nonneg fs). unfold block_length in *. cbn in Z0. lia.
  Qed.
  Lemma valid_some fs : 0 < block_length fs -> block_bytes w fs <> [].
  Proof. destruct fs as [|f fs]; [cbn; lia|]. discriminate. Qed.
  Lemma enter blk rest : 0 <= blk <= 1 -> 0 < len (blk + 1) -> rest <> [] -> at_end blk 0 rest = at_end (blk + 1) (len (blk + 1)) rest.
  Proof.
    intros K P N. destruct rest as [|c r]; [congruence|]. rewrite !at_end_cons by lia. change (0 =? 0) with true. cbv iota.
    destruct (Z.eqb_spec blk 2); [lia|]. destruct (Z.eqb_spec (len (blk + 1)) 0); [lia|]. reflexivity.
  Qed.
  Definition first_block : Z := if h =? 0 then 1 else 0.
  Definition whole (rest : list Z) : outcome (list element) := at_end first_block (len first_block) rest.
  Lemma head_forward fh r : Forall good_fragment fh -> block_length fh = h -> bytes r -> r <> [] ->
    whole (block_bytes w fh ++ r) = pre (block_elements dec fh) (at_end 1 b r).
  Proof.
    intros V E BR NR. unfold whole, first_block. destruct (Z.eqb_spec h 0) as [Z0|Z0].
    - rewrite (valid_zero fh V) by lia. cbn [block_bytes map concat app block_elements]. rewrite pre_nil. reflexivity.
    - rewrite block_forward by (try assumption; try (change (len 0) with h); lia). f_equal. change (len 0) with h. rewrite E, Z.sub_diag.
      apply enter; [lia|exact HB|exact NR].
  Qed.
  Lemma body_forward fb r : Forall good_fragment fb -> block_length fb <= b -> bytes r -> at_end 1 b (block_bytes w fb ++ r) = pre (block_elements dec fb) (at_end 1 (b - block_length fb) r).
  Proof. intros V E BR. apply block_forward; [lia|assumption..]. Qed.
  Lemma one_more blk l c : 0 <= blk <= 2 -> byte c -> 1 <= announced c <= l -> at_end blk l [c] = Ok [].
  Proof. intros K BC A. rewrite at_end_cons by exact K. destruct (Z.eqb_spec l 0); [lia|]. apply opened_nil; [exact BC|lia..]. Qed.
  Lemma pre_ok l x : pre l (Ok x) = Ok (l ++ x).
  Proof. reflexivity. Qed.
  Lemma zero_announced c : byte c -> (announced c = 0 <-> c = 0).
  Proof. unfold announced, byte. intros. Z.div_mod_to_equations. lia. Qed.
  Lemma elements_app a c : block_elements dec (a ++ c) = block_elements dec a ++ block_elements dec c.
  Proof. unfold block_elements. now rewrite map_app, concat_app. Qed.
  Lemma bytes_of_app a c : block_bytes w (a ++ c) = block_bytes w a ++ block_bytes w c.
  Proof. unfold block_bytes. now rewrite map_app, concat_app. Qed.

  Lemma tail_taken ft last : Forall good_fragment ft ->
    (block_length ft = t /\ (last = [] \/ t = 0 /\ last = [0])) \/ (exists c, byte c /\ last = [c] /\ 1 <= announced c /\ block_length ft + announced c <= t) ->
    at_end 1 0 (block_bytes w ft ++ last) = Ok (block_elements dec ft).
  Proof.
    intros V C. pose proof (block_nonneg ft) as NN. destruct (Z.eq_dec t 0) as [T0|T0].
    - assert (F0 : ft = []) by (apply valid_zero; [exact V|destruct C as [(C & _)|(c & _ & _ & C1 & C2)]; lia]). subst ft. cbn [block_bytes map concat app block_elements].
      destruct C as [(_ & [->|(_ & ->)])|(c & _ & _ & C1 & C2)]; [| |cbn in C2; lia].
      + rewrite at_end_nil. destruct (Z.eqb_spec t 0); [reflexivity|lia].
      + rewrite at_end_cons by lia. change (0 =? 0) with true. change (1 =? 2) with false. cbv iota. change (len (1 + 1)) with t. unfold opened.
        change (high 0 + low 0 =? 0) with true. destruct (Z.eqb_spec t 0); [reflexivity|lia].
    - assert (NE : block_bytes w ft ++ last <> []).
      { destruct C as [(C & _)|(c & _ & -> & _)]; [|intros Q; apply app_eq_nil in Q as [_ Q]; discriminate]. intros Q. apply app_eq_nil in Q as [Q _]. revert Q. apply valid_some. lia. }
      assert (BL : bytes last) by (destruct C as [(_ & [->|(_ & ->)])|(c & BC & -> & _)]; repeat constructor; try lia; apply BC).
      rewrite enter by (first [lia|exact NE|change (len (1 + 1)) with t; lia]). change (1 + 1) with 2. change (len 2) with t.
      rewrite block_forward; [|lia|exact V|destruct C as [(C & _)|(c & _ & _ & C1 & C2)]; lia|exact BL].
      destruct C as [(C & [->|(C1 & _)])|(c & BC & -> & C1 & C2)]; [| |].
      + rewrite at_end_nil, C, Z.sub_diag. change (pre (block_elements dec ft) (Ok []) = Ok (block_elements dec ft)). rewrite pre_ok. now rewrite app_nil_r.
      + lia.
      + rewrite one_more by (try exact BC; lia). cbn. now rewrite app_nil_r.
  Qed.
  Lemma stops_whole fh fb ft last rest : rest <> [] -> rest = block_bytes w (fh ++ fb ++ ft) ++ last -> Forall good_fragment (fh ++ fb ++ ft) ->
    stops h b t fh fb ft last -> whole rest = Ok (block_elements dec (fh ++ fb ++ ft)).
  Proof.
    intros NE -> V ST. apply Forall_app in V as [VH V]. apply Forall_app in V as [VB VT]. rewrite !bytes_of_app, <- !app_assoc in *. rewrite !elements_app.
    assert (BL : bytes last).
    { destruct ST as [(_ & _ & _ & [->|(_ & ->)])|(c & BC & -> & _)]; repeat constructor; try lia; apply BC. }
    assert (BT : bytes (block_bytes w ft ++ last)) by (apply bytes_app; split; [apply valid_bytes, VT|exact BL]).
    pose proof (block_nonneg fh). pose proof (block_nonneg fb). pose proof (block_nonneg ft).
    assert (FULL : block_length fh = h -> block_length fb = b ->
      (block_length ft = t /\ (last = [] \/ t = 0 /\ last = [0])) \/ (exists c, byte c /\ last = [c] /\ 1 <= announced c /\ block_length ft + announced c <= t) ->
      whole (block_bytes w fh ++ block_bytes w fb ++ block_bytes w ft ++ last) = Ok (block_elements dec fh ++ block_elements dec fb ++ block_elements dec ft)).
    { intros LH LB C. rewrite head_forward; [|exact VH|exact LH|apply bytes_app; split; [apply valid_bytes, VB|exact BT]|].
      - rewrite body_forward by (try assumption; lia). rewrite LB, Z.sub_diag, tail_taken by assumption. reflexivity.
      - intros Q. apply app_eq_nil in Q as [Q _]. revert Q. apply valid_some. lia. }
    destruct ST as [(LH & LB & LT & C)|(c & BC & E & C1 & [(C2 & -> & ->)|[(LH & C2 & ->)|(LH & LB & C2)]])].
    - apply FULL; tauto.
    - subst last. change (block_bytes w [] ++ block_bytes w [] ++ [c]) with [c]. change (block_elements dec [] ++ block_elements dec []) with (@nil element). unfold whole, first_block. destruct (Z.eqb_spec h 0); [lia|]. change (len 0) with h.
      rewrite block_forward by (try assumption; lia). rewrite one_more by (try exact BC; lia). cbn. now rewrite app_nil_r.
    - subst last. change (block_bytes w [] ++ [c]) with [c]. change (block_elements dec []) with (@nil element). rewrite ?app_nil_r.
      rewrite head_forward; [|exact VH|exact LH|apply bytes_app; split; [apply valid_bytes, VB|exact BL]|intros Q; apply app_eq_nil in Q as [_ Q]; discriminate].
      rewrite body_forward by (try assumption; lia). rewrite one_more by (try exact BC; lia). cbn. now rewrite !app_nil_r.
    - apply FULL; [exact LH|exact LB|]. right. eauto.
  Qed.
  Lemma goes_on_whole rest : bytes rest -> goes_on w (k_valid k) dec h b t rest -> whole rest = Panic.
  Proof.
    intros BR (fh & fb & post & T0 & -> & NP & V & LH & LB). apply Forall_app in V as [VH VB]. rewrite bytes_of_app, <- app_assoc in *.
    apply bytes_app in BR as [_ BR]. pose proof BR as BR2. apply bytes_app in BR as [_ BR]. 
    rewrite head_forward; [|exact VH|exact LH|exact BR2|intros Q; apply app_eq_nil in Q as [_ Q]; discriminate].
    rewrite body_forward by (try assumption; lia). rewrite LB, Z.sub_diag. rewrite at_end_cons by lia. change (0 =? 0) with true. change (1 =? 2) with false. cbv iota.
    change (len (1 + 1)) with t. unfold opened. change (high 0 + low 0 =? 0) with true. destruct (Z.eqb_spec t 0); [|lia]. destruct post as [|c r]; [congruence|].
    cbn [length]. rewrite ref_step. reflexivity.
  Qed.
  Lemma whole_cases rest : bytes rest -> rest <> [] ->
    whole rest = invalid_rule \/ (exists es, taken_as w (k_valid k) dec h b t rest es) \/ goes_on w (k_valid k) dec h b t rest.
  Proof.
    intros BR NE. pose proof (fun fh fb ft last A B C => ex_intro _ _ (ex_intro _ fh (ex_intro _ fb (ex_intro _ ft (ex_intro _ last (conj A (conj B (conj C eq_refl))))))) : exists es, taken_as w (k_valid k) dec h b t rest es) as TK.
    assert (BODY : forall fh r, rest = block_bytes w fh ++ r -> r <> [] -> bytes r -> Forall good_fragment fh -> block_length fh = h ->
      at_end 1 b r = invalid_rule \/ (exists es, taken_as w (k_valid k) dec h b t rest es) \/ goes_on w (k_valid k) dec h b t rest).
    { intros fh r E NR BY VH LH. destruct (block_cases 1 ltac:(lia) r b BY ltac:(lia)) as [X|[(fs & c & -> & V & BC & A1 & A2)|(fb & q & -> & BQ & VB & LB)]]; [left; exact X| |].
      - right. left. apply (TK fh fs [] [c]).
        + rewrite bytes_of_app, bytes_of_app, <- !app_assoc. exact E.
        + rewrite app_nil_r. apply Forall_app. now split.
        + right. exists c. splits; [exact BC|reflexivity|exact A1|]. right. left. splits; [exact LH|exact A2|reflexivity].
      - rewrite body_forward by (try assumption; lia). rewrite LB, Z.sub_diag. destruct q as [|c q].
        { rewrite at_end_nil. change (negb (0 =? 0)) with false. change (1 =? 0) with false. change (1 =? 1) with true. cbv iota. destruct (Z.eqb_spec t 0) as [T0|T0]; [|left; reflexivity].
          right. left. apply (TK fh fb [] []).
          - rewrite bytes_of_app, bytes_of_app, <- !app_assoc. exact E.
          - rewrite app_nil_r. apply Forall_app. now split.
          - left. splits; [exact LH|exact LB|cbn; lia|left; reflexivity]. }
        apply bytes_cons in BQ as BQ2. destruct BQ2 as [BC BQ2].
        destruct (Z.eq_dec t 0) as [T0|T0].
        { rewrite at_end_cons by lia. change (0 =? 0) with true. change (1 =? 2) with false. cbv iota. change (len (1 + 1)) with t. unfold opened. rewrite <- (announced_of c BC).
          destruct (Z.eqb_spec (announced c) 0) as [A0|A0]; [|pose proof (nibbles c BC) as NB; fold (high c) (low c) in NB; pose proof (announced_of c BC); destruct (_ >? t) eqn:Q; [left; reflexivity|lia]].
          apply (zero_announced c BC) in A0. subst c. right. destruct q as [|d q].
          - left. apply (TK fh fb [] [0]).
            + rewrite bytes_of_app, bytes_of_app, <- !app_assoc. exact E.
            + rewrite app_nil_r. apply Forall_app. now split.
            + left. splits; [exact LH|exact LB|cbn; lia|right; split; [exact T0|reflexivity]].
          - right. exists fh, fb, (d :: q). splits; [exact T0| |discriminate|apply Forall_app; now split|exact LH|exact LB].
            rewrite bytes_of_app, <- app_assoc. exact E. }
        rewrite enter by (first [lia|discriminate|change (len (1 + 1)) with t; lia]). change (1 + 1) with 2. change (len 2) with t.
        destruct (block_cases 2 ltac:(lia) (c :: q) t BQ HT) as [X|[(ft & d & EQ & V & BD & A1 & A2)|(ft & r & EQ & BR3 & VT & LT)]]; [left; rewrite X; reflexivity| |].
        + right. left. apply (TK fh fb ft [d]).
          * rewrite !bytes_of_app, <- !app_assoc, <- EQ. exact E.
          * apply Forall_app. split; [exact VH|]. apply Forall_app. now split.
          * right. exists d. splits; [exact BD|reflexivity|exact A1|]. right. right. splits; [exact LH|exact LB|exact A2].
        + rewrite EQ, block_forward by (try assumption; lia). rewrite LT, Z.sub_diag. destruct r as [|d r].
          * right. left. apply (TK fh fb ft []).
            -- rewrite !bytes_of_app, <- !app_assoc, <- EQ. exact E.
            -- apply Forall_app. split; [exact VH|]. apply Forall_app. now split.
            -- left. splits; [exact LH|exact LB|exact LT|left; reflexivity].
          * left. rewrite at_end_cons by lia. reflexivity. }
    destruct (Z.eq_dec h 0) as [Z0|Z0].
    - destruct (BODY [] rest) as [X|X]; [reflexivity|exact NE|exact BR|constructor|cbn; lia| |right; exact X]. left. unfold whole, first_block. destruct (Z.eqb_spec h 0); [exact X|lia].
    - assert (FB : first_block = 0) by (unfold first_block; destruct (Z.eqb_spec h 0); [lia|reflexivity]).
      assert (WH : whole rest = at_end 0 h rest) by (unfold whole; rewrite FB; reflexivity).
      destruct (block_cases 0 ltac:(lia) rest h BR HH) as [X|[(fs & c & E & V & BC & A1 & A2)|(fh & r & E & BQ & VH & LH)]]; [left; congruence| |].
      + right. left. apply (TK fs [] [] [c]).
        * rewrite !app_nil_r. exact E.
        * rewrite !app_nil_r. exact V.
        * right. exists c. splits; [exact BC|reflexivity|exact A1|]. left. splits; [exact A2|reflexivity|reflexivity].
      + destruct r as [|c r].
        { left. rewrite WH, E, block_forward by (try assumption; lia). rewrite LH, Z.sub_diag. reflexivity. }
        destruct (BODY fh (c :: r) E) as [X|X]; [discriminate|exact BQ|exact VH|exact LH| |right; exact X].
        left. rewrite E, head_forward by (try assumption; discriminate). rewrite X. reflexivity.
  Qed.

  (** the first control byte: what it announces is not checked *)
  Definition begin (rest : list Z) : outcome (list element) :=
    match rest with
    | [] => Panic
    | c :: r =>
      if high c + low c =? 0 then ref (length r) first_block 0 0 (len first_block) r
      else if high c + low c >? len first_block then ref (length r) first_block (high c) (low c) (-1) r
      else ref (length r) first_block (high c) (low c) (len first_block - (high c + low c)) r
    end.
  Lemma first_positive : 0 < len first_block.
  Proof. unfold first_block. destruct (Z.eqb_spec h 0); [exact HB|]. change (len 0) with h. lia. Qed.
  Lemma first_range : 0 <= first_block <= 1.
  Proof. unfold first_block. destruct (h =? 0); lia. Qed.
  Lemma minus_one n blk x y rest : 0 <= blk <= 2 -> bytes rest -> (length rest <= n)%nat -> 0 <= x -> 0 <= y -> aft n blk x y (-1) rest = invalid_rule.
  Proof.
    intros K BR N X Y. destruct (inner_cases rest n blk x y (-1) BR N X Y) as [E|(S & E & r & -> & <- & <- & V)]; [exact E|].
    rewrite inner_forward by assumption. apply bytes_app in BR as [_ BR]. apply bytes_app in BR as [_ BR]. destruct r as [|c r]; [reflexivity|].
    rewrite at_end_cons by exact K. change (-1 =? 0) with false. cbv iota. apply bytes_cons in BR as [BC BR]. unfold opened. pose proof (nibbles c BC) as NB. fold (high c) (low c) in NB.
    destruct (Z.eqb_spec (high c + low c) 0); [reflexivity|]. destruct (_ >? -1) eqn:Q; [reflexivity|lia].
  Qed.
  Lemma begin_nil : begin [] = Panic.
  Proof. reflexivity. Qed.
  Lemma begin_one c : begin [c] = Ok [].
  Proof. unfold begin. rewrite !ref_nil. destruct (high c + low c =? 0), (high c + low c >? len first_block); reflexivity. Qed.
  Lemma begin_zero r : r <> [] -> begin (0 :: r) = Panic.
  Proof. intros N. destruct r as [|d r]; [congruence|]. unfold begin. change (high 0 + low 0 =? 0) with true. cbv iota. cbn [length]. rewrite ref_step. reflexivity. Qed.
  Lemma begin_more c r : byte c -> bytes r -> r <> [] -> c <> 0 -> begin (c :: r) = whole (c :: r).
  Proof.
    intros BC BR N CN. pose proof (announced_of c BC) as AN. pose proof (nibbles c BC) as NB. fold (high c) (low c) in NB. pose proof first_positive. pose proof first_range.
    pose proof (zero_announced c BC) as ZA. destruct r as [|d r]; [congruence|]. unfold begin, whole. rewrite at_end_cons by lia. destruct (Z.eqb_spec (len first_block) 0); [lia|]. unfold opened.
    destruct (Z.eqb_spec (high c + low c) 0); [lia|]. destruct (_ >? len first_block) eqn:Q; [|reflexivity].
    rewrite <- aft_ref by lia. apply minus_one; [lia|exact BR|lia|lia|lia].
  Qed.
  Lemma whole_zero r : whole (0 :: r) = invalid_rule.
  Proof.
    pose proof first_positive. pose proof first_range. unfold whole. rewrite at_end_cons by lia. destruct (Z.eqb_spec (len first_block) 0); [lia|]. unfold opened.
    change (high 0 + low 0 =? 0) with true. cbv iota. destruct (Z.eqb_spec (len first_block) 0); [lia|reflexivity].
  Qed.
  Lemma whole_one c : byte c -> whole [c] = Ok [] \/ whole [c] = invalid_rule.
  Proof.
    intros BC. pose proof first_positive. pose proof first_range. unfold whole. rewrite at_end_cons by lia. destruct (Z.eqb_spec (len first_block) 0); [lia|]. unfold opened.
    rewrite !ref_nil. destruct (high c + low c =? 0), (len first_block =? 0), (high c + low c >? len first_block); auto.
  Qed.
  Lemma taken_some rest es : taken_as w (k_valid k) dec h b t rest es -> rest <> [].
  Proof.
    intros (fh & fb & ft & last & -> & V & ST & ->) Q. apply app_eq_nil in Q as [Q1 Q2]. rewrite !bytes_of_app in Q1. apply app_eq_nil in Q1 as [_ Q1]. apply app_eq_nil in Q1 as [Q1 _].
    destruct ST as [(_ & LB & _)|(c & _ & -> & _)]; [|discriminate]. revert Q1. apply valid_some. lia.
  Qed.
  Lemma taken_whole rest es : taken_as w (k_valid k) dec h b t rest es -> whole rest = Ok es.
  Proof. intros T. pose proof (taken_some rest es T) as NE. destruct T as (fh & fb & ft & last & E & V & ST & ->). eapply stops_whole; eassumption. Qed.
  Theorem begin_exact rest : bytes rest ->
    (forall es, begin rest = Ok es <-> (exists c, rest = [c] /\ es = []) \/ taken_as w (k_valid k) dec h b t rest es) /\
    (begin rest = Panic <-> rest = [] \/ (exists r, rest = 0 :: r /\ r <> []) \/ goes_on w (k_valid k) dec h b t rest) /\
    (begin rest = invalid_rule \/ begin rest = Panic \/ exists es, begin rest = Ok es).
  Proof.
    intros BR.
    assert (GW : goes_on w (k_valid k) dec h b t rest -> whole rest = Panic) by (apply goes_on_whole; exact BR).
    pose proof (taken_whole rest) as TW.
    destruct rest as [|c [|d r]].
    - rewrite begin_nil. splits; [|tauto|tauto]. intros es. split; [discriminate|]. intros [(c & Q & _)|T]; [discriminate|]. exfalso. exact (taken_some _ _ T eq_refl).
    - apply bytes_cons in BR as [BC _]. rewrite begin_one. splits; [|split; [discriminate|]|right; right; eauto].
      + intros es. split; [intros Q; injection Q as <-; left; eauto|]. intros [(c' & _ & ->)|T]; [reflexivity|]. apply TW in T. destruct (whole_one c BC); (unfold invalid_rule in *; congruence).
      + intros [Q|[(r & Q & N)|G]]; [discriminate|(unfold invalid_rule in *; congruence)|]. apply GW in G. destruct (whole_one c BC); (unfold invalid_rule in *; congruence).
    - apply bytes_cons in BR as BR2. destruct BR2 as [BC BR2]. destruct (Z.eq_dec c 0) as [->|CN].
      + rewrite begin_zero by discriminate. splits; [|split; [intros _; right; left; exists (d :: r); split; [reflexivity|discriminate]|reflexivity]|tauto].
        intros es. split; [discriminate|]. intros [(c' & Q & _)|T]; [discriminate|]. apply TW in T. rewrite whole_zero in T. discriminate.
      + rewrite begin_more by (try assumption; discriminate).
        assert (NE : c :: d :: r <> []) by discriminate.
        destruct (whole_cases (c :: d :: r) BR NE) as [X|[(es' & T)|G]].
        * rewrite X. splits; [|split; [discriminate|]|tauto].
          -- intros es. split; [discriminate|]. intros [(c' & Q & _)|T]; [discriminate|]. apply TW in T. (unfold invalid_rule in *; congruence).
          -- intros [Q|[(q & Q & N)|G]]; [discriminate|(unfold invalid_rule in *; congruence)|]. apply GW in G. (unfold invalid_rule in *; congruence).
        * pose proof (TW _ T) as E. rewrite E. splits; [|split; [discriminate|]|eauto].
          -- intros es. split; [intros Q; injection Q as <-; right; exact T|]. intros [(c' & Q & _)|T']; [discriminate|]. apply TW in T'. (unfold invalid_rule in *; congruence).
          -- intros [Q|[(q & Q & N)|G]]; [discriminate|(unfold invalid_rule in *; congruence)|]. apply GW in G. (unfold invalid_rule in *; congruence).
        * pose proof (GW G) as E. rewrite E. splits; [|split; [intros _; tauto|reflexivity]|tauto].
          intros es. split; [discriminate|]. intros [(c' & Q & _)|T]; [discriminate|]. apply TW in T. (unfold invalid_rule in *; congruence).
  Qed.
End Lists.

(** what both kinds decode *)
Definition reads_as (k : kind) (w : nat) (dec : Z -> Z) : Prop :=
  fair k /\ k_width k = Z.of_nat w /\ forall x r, 0 <= x < 256 ^ Z.of_nat w -> bytes r -> k_decode k (le_digits w x ++ r) = Ok (dec x).
Lemma glyph_reads : reads_as glyph_kind 2 (fun x => x).
Proof.
  split; [exact fair_glyph|]. split; [reflexivity|]. intros x r X _. cbn [k_decode glyph_kind]. rewrite decode16_digits. f_equal. apply Z.mod_small. exact X.
Qed.
Lemma utf8_reads : reads_as utf8_kind 4 i32.
Proof.
  split; [exact fair_utf8|]. split; [reflexivity|]. intros x r X _. cbn [k_decode utf8_kind]. rewrite decode32_digits. cbn [bind]. f_equal. f_equal. apply Z.mod_small. exact X.
Qed.

Lemma skipn_get (data : list Z) i c : zget data i = Ok c -> skipn (Z.to_nat i) data = c :: skipn (Z.to_nat (i + 1)) data.
Proof.
  unfold zget. destruct (Z.ltb_spec i 0) as [I|I]; [discriminate|]. destruct (nth_error data (Z.to_nat i)) eqn:N; [|discriminate]. intros Q. injection Q as ->.
  replace (Z.to_nat (i + 1)) with (S (Z.to_nat i)) by lia. revert N. generalize (Z.to_nat i) as n. intros n. revert data.
  induction n as [|n IH]; intros [|y l] N; try discriminate; cbn in *; [injection N as ->; reflexivity|]. apply IH in N. exact N.
Qed.
Lemma scan_begin k w dec data : reads_as k w dec -> bytes data ->
  (~ lengths_fit k data /\ scan k data = invalid_rule) \/
  (lengths_fit k data /\ 0 <= nth 1 data 0 /\ 0 < nth 2 data 0 /\ 0 <= nth 3 data 0 /\
   scan k data = begin k (nth 1 data 0) (nth 2 data 0) (nth 3 data 0) (skipn (Z.to_nat (first_control (k_width k) data)) data)).
Proof.
  intros (F & KW & DEC) B. pose proof F as [FW FM FD FP]. unfold lengths_fit.
  destruct (Z_lt_le_dec (zlen data) (k_min k)) as [SH|SH].
  { left. split; [lia|]. unfold scan, Start, startChecks. destruct (Z.ltb_spec (zlen data) (k_min k)); [reflexivity|lia]. }
  destruct (zget_in_range data 4 ltac:(lia)) as (o & H4).
  destruct (zget_in_range data 1 ltac:(lia)) as (h & H1).
  destruct (zget_in_range data 2 ltac:(lia)) as (b & H2).
  destruct (zget_in_range data 3 ltac:(lia)) as (t & H3).
  pose proof (bytes_get _ _ _ B H1) as Bh. pose proof (bytes_get _ _ _ B H2) as Bb.
  pose proof (bytes_get _ _ _ B H3) as Bt. pose proof (bytes_get _ _ _ B H4) as Bo. unfold byte in *.
  rewrite (zget_nth0 data 4 o H4 : nth 4 data 0 = o), (zget_nth0 data 1 h H1 : nth 1 data 0 = h), (zget_nth0 data 2 b H2 : nth 2 data 0 = b), (zget_nth0 data 3 t H3 : nth 3 data 0 = t).
  assert (U1 : h > u8 (h + b) <-> 256 <= h + b) by (unfold u8; Z.div_mod_to_equations; lia).
  assert (CH : ~ (1 <= o <= b /\ h + b + t <= 255) -> startChecks k data = invalid_rule).
  { intros N. unfold startChecks. destruct (Z.ltb_spec (zlen data) (k_min k)); [lia|]. rewrite H4. cbn [bind]. destruct (Z.eqb_spec o 0); [reflexivity|].
    rewrite H1, H2, H3. cbn [bind]. destruct (h >? u8 (h + b)) eqn:C1; [reflexivity|]. assert (h + b < 256) by lia. rewrite (u8_small (h + b)) by lia.
    destruct (t >? u8 (h + b + t)) eqn:C2; [reflexivity|]. assert (h + b + t < 256) by (revert C2; unfold u8; Z.div_mod_to_equations; lia).
    destruct (Z.ltb_spec b o); [reflexivity|lia]. }
  destruct (Z_le_gt_dec 1 o) as [O1|O1]; [|left; split; [lia|]; unfold scan, Start; rewrite CH by lia; reflexivity].
  destruct (Z_le_gt_dec o b) as [O2|O2]; [|left; split; [lia|]; unfold scan, Start; rewrite CH by lia; reflexivity].
  destruct (Z_le_gt_dec (h + b + t) 255) as [O3|O3]; [|left; split; [lia|]; unfold scan, Start; rewrite CH by lia; reflexivity].
  right. splits; [lia|lia|lia|lia|lia|lia|lia|].
  destruct (checks_cases k data F B) as [(m & X)|(h' & b' & t' & o' & H1' & H2' & H3' & H4' & _ & _ & _ & _ & FC & ST)].
  { exfalso. revert X. unfold startChecks. destruct (Z.ltb_spec (zlen data) (k_min k)); [lia|]. rewrite H4. cbn [bind]. destruct (Z.eqb_spec o 0); [lia|].
    rewrite H1, H2, H3. cbn [bind]. rewrite (u8_small (h + b)) by lia. destruct (h >? h + b) eqn:C1; [lia|]. rewrite (u8_small (h + b + t)) by lia.
    destruct (t >? h + b + t) eqn:C2; [lia|]. destruct (Z.ltb_spec b o); [lia|]. destruct (Z.eqb_spec h 0), (Z.eqb_spec b 0); cbn [orb]; try lia; discriminate. }
  rewrite H1 in H1'. injection H1' as <-. rewrite H2 in H2'. injection H2' as <-. rewrite H3 in H3'. injection H3' as <-. rewrite H4 in H4'. injection H4' as <-.
  unfold scan, Start. rewrite ST. cbn [bind]. set (fc := first_control (k_width k) data) in *.
  assert (FR : 5 <= fc <= 1026) by (destruct (h =? 0); nia).
  set (L0 := block_len h b t (first_block h)).
  assert (LP : 0 < L0 <= 255).
  { unfold L0, first_block. destruct (Z.eqb_spec h 0); unfold block_len; cbv [Z.eqb Pos.eqb]; lia. }
  replace (if h =? 0 then _ else _) with (mkScanner data fc (first_block h) 0 0 L0 0 0)
    by (unfold L0, first_block; destruct (h =? 0); reflexivity).
  assert (FB : 0 <= first_block h <= 1) by (unfold first_block; destruct (h =? 0); lia).
  assert (LT : 0 <= later b t (first_block h) <= 255) by (unfold later, first_block; destruct (h =? 0); cbv [Z.eqb Pos.eqb]; lia).
  unfold parseFragmentControl. cbn [sc_data sc_index sc_block sc_left sc_accSets sc_accElems].
  destruct (Z_lt_le_dec fc (zlen data)) as [R|R].
  2:{ rewrite zget_panic by lia. rewrite skipn_all2 by (unfold zlen in R; lia). reflexivity. }
  destruct (zget_in_range data fc ltac:(lia)) as (c & C). rewrite C. cbn [bind].
  pose proof (skipn_get data fc c C) as SK.
  rewrite SK. pose proof (bytes_get _ _ _ B C) as BC. destruct (nibbles c BC) as (N1 & N2 & _). fold (high c) (low c) in *. cbv zeta.
  rewrite (get_block data h b t H1 H2 H3 (first_block h) (conj (proj1 FB) (Z.le_trans _ _ 2 (proj2 FB) ltac:(discriminate)))). fold L0. cbn [bind]. rewrite !Z.add_0_l. rewrite !(u8_small (high c)), !(u8_small (low c)), !(u8_small (high c + low c)), (u16_small (fc + 1)) by lia.
  assert (L11 : 11 <= zlen data) by lia. assert (BP : 0 < b) by lia.
  assert (GO : forall left, 0 <= left -> (high c + low c + left = L0 \/ L0 < high c + low c <= 30 /\ 0 < left <= L0) ->
     scan_loop (length data) k (mkScanner data (fc + 1) (first_block h) (high c) (low c) left (high c) (low c)) =
     ref k h b t (length (skipn (Z.to_nat (fc + 1)) data)) (first_block h) (high c) (low c) (if high c + low c + left =? L0 then left else -1) (skipn (Z.to_nat (fc + 1)) data)).
  { intros left HL HS.
    assert (G : good data h b t (mkScanner data (fc + 1) (first_block h) (high c) (low c) left (high c) (low c))).
    { constructor; cbn; [reflexivity|lia|lia|lia| |lia]. split; [lia|]. split; [lia|]. fold L0. lia. }
    rewrite (sim k F data B h b t H1 H2 H3 BP _ _ G). unfold level, from. cbn [sc_block sc_sets sc_elems sc_accSets sc_accElems sc_left sc_index]. fold L0.
    apply (ref_more k w dec FW DEC); [rewrite skipn_length; lia|lia]. }
  unfold begin. fold L0. destruct (Z.eqb_spec (high c + low c) 0) as [Z0|Z0].
  - assert (X0 : high c = 0) by lia. assert (Y0 : low c = 0) by lia. rewrite X0, Y0 in *. change (0 + 0) with 0 in *. destruct (Z.eqb_spec 0 L0); [lia|]. cbn [negb bind].
    rewrite GO by lia. destruct (Z.eqb_spec (0 + L0) L0); [reflexivity|lia].
  - destruct (Z.ltb_spec (high c + low c) (high c)); [lia|]. destruct (high c + low c >? L0) eqn:Q; cbn [bind].
    + rewrite GO by lia. destruct (Z.eqb_spec (high c + low c + L0) L0); [lia|]. reflexivity.
    + rewrite (u8_small (L0 - (high c + low c))) by lia. cbn [bind]. rewrite GO by lia. destruct (Z.eqb_spec (high c + low c + (L0 - (high c + low c))) L0); [reflexivity|lia].
Qed.

Theorem scan_exact k w dec data : reads_as k w dec -> bytes data ->
  let h := nth 1 data 0 in let b := nth 2 data 0 in let t := nth 3 data 0 in
  let rest := skipn (Z.to_nat (first_control (k_width k) data)) data in
  (forall es, scan k data = Ok es <-> lengths_fit k data /\ ((exists c, rest = [c] /\ es = []) \/ taken_as w (k_valid k) dec h b t rest es)) /\
  (scan k data = Panic <-> lengths_fit k data /\ (rest = [] \/ (exists r, rest = 0 :: r /\ r <> []) \/ goes_on w (k_valid k) dec h b t rest)) /\
  ((exists es, scan k data = Ok es) \/ scan k data = Panic \/ scan k data = Err "invalid rewrite rule").
Proof.
  intros R B h b t rest. pose proof R as (F & KW & DEC). pose proof F as [FW FM FD FP].
  destruct (scan_begin k w dec data R B) as [(N & E)|(LF & HH & HB & HT & E)]; rewrite E.
  - splits; [|split; [discriminate|tauto]|auto]. intros es. split; [discriminate|tauto].
  - fold rest. destruct (begin_exact k w dec KW FW DEC (nth 1 data 0) (nth 2 data 0) (nth 3 data 0) HH HB HT rest (bytes_skipn _ _ B)) as (X1 & X2 & X3). unfold invalid_rule in X3.
    splits; [|rewrite X2; tauto|tauto]. intros es. rewrite X1. tauto.
Qed.

Lemma elements_count dec b : zlen (block_elements dec b) = block_length b.
Proof.
  unfold block_elements, block_length. induction b as [|f b IH]; [reflexivity|]. cbn [map concat fold_right]. rewrite zlen_app, IH.
  unfold fragment_elements, fragment_length. now rewrite zlen_app, !zlen_map.
Qed.
Lemma length_app a c : block_length (a ++ c) = block_length a + block_length c.
Proof. unfold block_length. induction a as [|f a IH]; cbn; [reflexivity|]. cbn in IH. lia. Qed.
(** as many elements as announced: then the data is a rule, but for the bytes of empty blocks *)
Theorem scan_complete k w dec data es : reads_as k w dec -> bytes data -> scan k data = Ok es ->
  let h := nth 1 data 0 in let b := nth 2 data 0 in let t := nth 3 data 0 in
  let rest := skipn (Z.to_nat (first_control (k_width k) data)) data in
  zlen es <= h + b + t /\
  (zlen es = h + b + t <-> exists fh fb ft last, rest = block_bytes w (fh ++ fb ++ ft) ++ last /\ (last = [] \/ t = 0 /\ last = [0]) /\
     Forall (fragment_valid w (k_valid k) dec) (fh ++ fb ++ ft) /\ block_length fh = h /\ block_length fb = b /\ block_length ft = t /\
     es = block_elements dec (fh ++ fb ++ ft)).
Proof.
  intros R B E h b t rest. destruct (scan_exact k w dec data R B) as (X & _). cbv zeta in X. fold h b t rest in X.
  destruct (scan_begin k w dec data R B) as [(_ & N)|(_ & HH & HB & HT & _)]; [rewrite N in E; discriminate|]. fold h in HH. fold b in HB. fold t in HT.
  apply X in E. destruct E as [_ [(c & E & ->)|(fh & fb & ft & last & E & V & ST & ->)]].
  - rewrite zlen_nil. split; [lia|]. split; [lia|]. intros (fh & fb & ft & last & _ & _ & _ & LH & LB & LT & Q).
    apply (f_equal zlen) in Q. rewrite elements_count, !length_app, zlen_nil in Q. lia.
  - rewrite elements_count, !length_app. split.
    + destruct ST as [(LH & LB & LT & _)|(c & _ & _ & A & [(C & -> & ->)|[(LH & C & ->)|(LH & LB & C)]])]; cbn [block_length map fold_right]; try (change (block_length []) with 0); lia.
    + split.
      * intros Q. exists fh, fb, ft, last. destruct ST as [(LH & LB & LT & LL)|(c & _ & _ & A & [(C & -> & ->)|[(LH & C & ->)|(LH & LB & C)]])]; [splits; auto| | |]; exfalso; try (change (block_length []) with 0 in *); lia.
      * intros (fh' & fb' & ft' & last' & _ & _ & _ & LH & LB & LT & Q). apply (f_equal zlen) in Q. rewrite !elements_count, !length_app in Q. lia.
Qed.
