(** C48 and C77: exactly what the rule scanners make of every byte string. *)
From Verif Require Import Base BaseFacts Spec_Helpers Model_Helpers Spec_Format Spec_Layout Model_Scanner Spec_Scanner Proofs_Scanner
  Spec_Scan Proofs_Scan.

(** ** C48 *)

(** Full statement: [scan] never panics. What is true: for every byte string, exactly when it is
    scanned (and with which elements), exactly when it makes the scanner panic, and that all
    others are refused. Outputs are not looked at. *)
Theorem C48_exact_glyph_partial : forall data, bytes data ->
  let h := nth 1 data 0 in let b := nth 2 data 0 in let t := nth 3 data 0 in
  let rest := skipn (Z.to_nat (first_control 2 data)) data in
  (forall es, scan glyph_kind data = Ok es <-> lengths_fit glyph_kind data /\
     ((exists c, rest = [c] /\ es = []) \/ taken_as 2 (fun g => g <? 56789) (fun x => x) h b t rest es)) /\
  (scan glyph_kind data = Panic <-> lengths_fit glyph_kind data /\
     (rest = [] \/ (exists r, rest = 0 :: r /\ r <> []) \/ goes_on 2 (fun g => g <? 56789) (fun x => x) h b t rest)) /\
  ((exists es, scan glyph_kind data = Ok es) \/ scan glyph_kind data = Panic \/ scan glyph_kind data = Err "invalid rewrite rule").
Proof. intros data B. exact (scan_exact glyph_kind 2 (fun x => x) data glyph_reads B). Qed.
Print Assumptions C48_exact_glyph_partial.
Theorem C48_exact_utf8_partial : forall data, bytes data ->
  let h := nth 1 data 0 in let b := nth 2 data 0 in let t := nth 3 data 0 in
  let rest := skipn (Z.to_nat (first_control 4 data)) data in
  (forall es, scan utf8_kind data = Ok es <-> lengths_fit utf8_kind data /\
     ((exists c, rest = [c] /\ es = []) \/ taken_as 4 (fun x => negb (x =? 65533)) i32 h b t rest es)) /\
  (scan utf8_kind data = Panic <-> lengths_fit utf8_kind data /\
     (rest = [] \/ (exists r, rest = 0 :: r /\ r <> []) \/ goes_on 4 (fun x => negb (x =? 65533)) i32 h b t rest)) /\
  ((exists es, scan utf8_kind data = Ok es) \/ scan utf8_kind data = Panic \/ scan utf8_kind data = Err "invalid rewrite rule").
Proof. intros data B. exact (scan_exact utf8_kind 4 i32 data utf8_reads B). Qed.
Print Assumptions C48_exact_utf8_partial.

(** a head, a body of two fragments and a tail, whole and cut after the second control byte; one
    byte more than a rule without tail; one byte more than a rule with a tail *)
Definition long_rule : list Z := [255; 1; 3; 1; 1; 3; 0] ++ [16; 7] ++ [17; 8; 2; 0] ++ [1; 3; 0] ++ [1; 4; 0].
Example C48_exact_ex : bytes long_rule /\ lengths_fit glyph_kind long_rule /\
  taken_as 2 (fun g => g <? 56789) (fun x => x) 1 3 1 (skipn 7 long_rule) [InSet 7; InSet 8; Single 2; Single 3; Single 4] /\
  scan glyph_kind long_rule = Ok [InSet 7; InSet 8; Single 2; Single 3; Single 4] /\
  scan glyph_kind (firstn 14 long_rule) = Ok [InSet 7; InSet 8; Single 2] /\
  scan glyph_kind (firstn 13 long_rule) = Err "invalid rewrite rule" /\
  scan glyph_kind (long_rule ++ [0]) = Err "invalid rewrite rule" /\
  goes_on 2 (fun g => g <? 56789) (fun x => x) 0 1 0 [1; 2; 0; 0; 7] /\ scan glyph_kind [255; 0; 1; 0; 1; 3; 0; 0; 1; 2; 0; 0; 7] = Panic /\
  scan utf8_kind [255; 0; 1; 0; 1; 65; 0; 0; 0; 99; 1; 66; 0; 0; 0] = Ok [Single 66].
Proof.
  assert (V : forall s e, (1 <=? zlen s + zlen e) && (zlen s <=? 15) && (zlen e <=? 15) && forallb (fun x => (0 <=? x) && (x <? 256)) s &&
    forallb (fun x => (0 <=? x) && (x <? 56789)) e = true -> fragment_valid 2 (fun g => g <? 56789) (fun x => x) (s, e)).
  { intros s e H. repeat (apply andb_prop in H as [H ?]). unfold fragment_valid, fragment_length. cbn [fst snd].
    rewrite forallb_forall in *. repeat split; try (now apply Z.leb_le); apply Forall_forall; intros x X.
    - match goal with A : forall x, In x s -> _ |- _ => specialize (A x X); apply andb_prop in A as [A1 A2] end. split; [now apply Z.leb_le|now apply Z.ltb_lt].
    - match goal with A : forall x, In x e -> _ |- _ => specialize (A x X); apply andb_prop in A as [A1 A2] end. split; [|exact A2].
      apply Z.leb_le in A1. apply Z.ltb_lt in A2. split; [exact A1|]. apply (Z.lt_trans _ _ _ A2). reflexivity. }
  split; [apply bytes_check; vm_compute; reflexivity|]. split; [unfold lengths_fit; vm_compute; repeat split; discriminate|].
  split. { exists [([7], [])], [([8], [2]); ([], [3])], [([], [4])], []. split; [reflexivity|]. split; [cbn [app]; repeat (apply Forall_cons; [apply V; reflexivity|]); apply Forall_nil|].
    split; [left; repeat split; left; reflexivity|reflexivity]. }
  split; [vm_compute; reflexivity|]. split; [vm_compute; reflexivity|]. split; [vm_compute; reflexivity|]. split; [vm_compute; reflexivity|].
  split. { exists [], [([], [2])], [7]. split; [reflexivity|]. split; [reflexivity|]. split; [discriminate|]. split; [cbn [app]; repeat (apply Forall_cons; [apply V; reflexivity|]); apply Forall_nil|]. split; reflexivity. }
  split; vm_compute; reflexivity.
Qed.

(** ** C77 *)

(** Full statement: the scanner takes exactly the byte strings that the format describes as
    rules. False: data that ends behind any control byte is taken, with the elements it
    announces missing; if that is the first control byte, it may even announce more than the
    whole rule has, or nothing; the byte of an empty head is not looked at; that of an empty
    tail may be missing. *)
Theorem C77_cut_refuted : exists rule cut more es, bytes rule /\ rule = cut ++ more /\ more <> [] /\
  scan glyph_kind rule = Ok (es ++ [Single 3]) /\ scan glyph_kind cut = Ok es.
Proof.
  exists [255; 0; 3; 0; 1; 9; 0; 0; 2; 1; 0; 2; 0; 1; 3; 0; 0], [255; 0; 3; 0; 1; 9; 0; 0; 2; 1; 0; 2; 0; 1], [3; 0; 0], [Single 1; Single 2].
  split; [apply bytes_check; reflexivity|]. split; [reflexivity|]. split; [discriminate|]. split; vm_compute; reflexivity.
Qed.
Print Assumptions C77_cut_refuted.
Theorem C77_first_control_refuted : exists start, forall c, byte c -> bytes (start ++ [c]) /\ scan glyph_kind (start ++ [c]) = Ok [].
Proof.
  exists [255; 0; 3; 0; 3; 1; 0; 2; 0; 3; 0; 0]. intros c C. split.
  { apply bytes_app. split; [apply bytes_check; reflexivity|]. constructor; [exact C|constructor]. }
  apply (proj1 (C48_exact_glyph_partial _ (proj2 (bytes_app [255; 0; 3; 0; 3; 1; 0; 2; 0; 3; 0; 0] [c]) (conj (bytes_check [255; 0; 3; 0; 3; 1; 0; 2; 0; 3; 0; 0] eq_refl) (Forall_cons _ C (Forall_nil _))))) []).
  split; [unfold lengths_fit; vm_compute; repeat split; discriminate|]. left. exists c. split; reflexivity.
Qed.
Print Assumptions C77_first_control_refuted.
Theorem C77_empty_blocks_refuted : exists rule other short, bytes rule /\ bytes other /\ bytes short /\ rule <> other /\ rule = short ++ [0] /\
  scan glyph_kind rule = Ok [Single 2; Single 3] /\ scan glyph_kind other = Ok [Single 2; Single 3] /\ scan glyph_kind short = Ok [Single 2; Single 3].
Proof.
  exists [255; 0; 2; 0; 1; 9; 0; 0; 2; 2; 0; 3; 0; 0], [255; 0; 2; 0; 1; 9; 0; 77; 2; 2; 0; 3; 0; 0], [255; 0; 2; 0; 1; 9; 0; 0; 2; 2; 0; 3; 0].
  do 3 (split; [apply bytes_check; reflexivity|]). split; [discriminate|]. split; [reflexivity|]. repeat split; vm_compute; reflexivity.
Qed.
Print Assumptions C77_empty_blocks_refuted.

(** What is true: no scan gives more elements than the lengths announce, and one that gives as
    many is one of fragments of the announced lengths behind the first control byte, with nothing
    but the zero of an empty tail behind them. *)
Theorem C77_glyph_partial : forall data es, bytes data -> scan glyph_kind data = Ok es ->
  let h := nth 1 data 0 in let b := nth 2 data 0 in let t := nth 3 data 0 in
  let rest := skipn (Z.to_nat (first_control 2 data)) data in
  zlen es <= h + b + t /\
  (zlen es = h + b + t <-> exists fh fb ft last, rest = block_bytes 2 (fh ++ fb ++ ft) ++ last /\ (last = [] \/ t = 0 /\ last = [0]) /\
     Forall (fragment_valid 2 (fun g => g <? 56789) (fun x => x)) (fh ++ fb ++ ft) /\ block_length fh = h /\ block_length fb = b /\ block_length ft = t /\
     es = block_elements (fun x => x) (fh ++ fb ++ ft)).
Proof. intros data es B E. exact (scan_complete glyph_kind 2 (fun x => x) data es glyph_reads B E). Qed.
Print Assumptions C77_glyph_partial.
Theorem C77_utf8_partial : forall data es, bytes data -> scan utf8_kind data = Ok es ->
  let h := nth 1 data 0 in let b := nth 2 data 0 in let t := nth 3 data 0 in
  let rest := skipn (Z.to_nat (first_control 4 data)) data in
  zlen es <= h + b + t /\
  (zlen es = h + b + t <-> exists fh fb ft last, rest = block_bytes 4 (fh ++ fb ++ ft) ++ last /\ (last = [] \/ t = 0 /\ last = [0]) /\
     Forall (fragment_valid 4 (fun x => negb (x =? 65533)) i32) (fh ++ fb ++ ft) /\ block_length fh = h /\ block_length fb = b /\ block_length ft = t /\
     es = block_elements i32 (fh ++ fb ++ ft)).
Proof. intros data es B E. exact (scan_complete utf8_kind 4 i32 data es utf8_reads B E). Qed.
Print Assumptions C77_utf8_partial.
Example C77_ex : bytes long_rule /\ scan glyph_kind long_rule = Ok [InSet 7; InSet 8; Single 2; Single 3; Single 4] /\
  nth 1 long_rule 0 + nth 2 long_rule 0 + nth 3 long_rule 0 = 5 /\ scan glyph_kind (firstn 14 long_rule) = Ok [InSet 7; InSet 8; Single 2].
Proof. split; [apply bytes_check; vm_compute; reflexivity|]. vm_compute. auto. Qed.
