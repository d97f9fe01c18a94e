(** The sections of Parse behave the same on every reader delivering the payload. *)
From Verif Require Import Base BaseFacts Model_Helpers Spec_Helpers Proofs_Helpers Model_Font Model_Parse Spec_Parse Proofs_Parse.
From Coq Require Import Lia.

(** ** Inversion of successful steps on a loaded buffer *)
Lemma full_inj P i j : full P i = full P j -> i = j.
Proof. intros E. now injection E. Qed.

Lemma advance_inv P i n a j : 0 <= n -> 0 <= i <= zlen P -> AdvanceBytes n (full P i) = POk a (full P j) ->
  j = i + n /\ j <= zlen P.
Proof.
  intros Hn Hi. rewrite advance_full by lia. destruct (Z.leb_spec (i + n) (zlen P)); [|discriminate].
  intros E. injection E as _ <-. lia.
Qed.
Lemma u8_inv P i a j : 0 <= i <= zlen P -> bytes P -> ReadUint8 (full P i) = POk a (full P j) ->
  a = byte_at P i /\ j = i + 1 /\ j <= zlen P /\ 0 <= a < 256.
Proof.
  intros Hi HP. rewrite u8_full by lia. destruct (Z.leb_spec (i + 1) (zlen P)); [|discriminate].
  intros E. injection E as <- <-. pose proof (byte_at_range P i HP). unfold byte in *. repeat apply conj; auto; lia.
Qed.
Lemma u16_inv P i a j : 0 <= i <= zlen P -> bytes P -> ReadUint16 (full P i) = POk a (full P j) ->
  a = le_at 2 P i /\ j = i + 2 /\ j <= zlen P /\ 0 <= a < 65536.
Proof.
  intros Hi HP. rewrite u16_full by (auto; lia). destruct (Z.leb_spec (i + 2) (zlen P)); [|discriminate].
  intros E. injection E as <- <-. pose proof (le_at_range 2 P i HP). repeat apply conj; auto; lia.
Qed.
Lemma u24_inv P i a j : 0 <= i <= zlen P -> bytes P -> ReadUint24 (full P i) = POk a (full P j) ->
  a = le_at 3 P i /\ j = i + 3 /\ j <= zlen P /\ 0 <= a < 16777216.
Proof.
  intros Hi HP. rewrite u24_full by (auto; lia). destruct (Z.leb_spec (i + 3) (zlen P)); [|discriminate].
  intros E. injection E as <- <-. pose proof (le_at_range 3 P i HP). repeat apply conj; auto; lia.
Qed.
Lemma ign24_full P i : 0 <= i <= zlen P -> bytes P -> ignore_err ReadUint24 (full P i) =
  if i + 3 <=? zlen P then POk (le_at 3 P i) (full P (i + 3)) else POk 0 (full P i).
Proof.
  intros Hi HP. unfold ignore_err. rewrite u24_full by (auto; lia).
  destruct (i + 3 <=? zlen P); reflexivity.
Qed.
Lemma ign24_inv P i a j : 0 <= i <= zlen P -> bytes P -> ignore_err ReadUint24 (full P i) = POk a (full P j) ->
  (a = le_at 3 P i /\ j = i + 3 /\ j <= zlen P \/ a = 0 /\ j = i /\ zlen P < i + 3) /\ 0 <= a < 16777216.
Proof.
  intros Hi HP. rewrite ign24_full by (auto; lia). destruct (Z.leb_spec (i + 3) (zlen P)); intros E; injection E as <- <-.
  - pose proof (le_at_range 3 P i HP). lia.
  - lia.
Qed.
Lemma read_str_inv P i n a j : 0 <= i <= zlen P -> 0 <= n -> read_str n (full P i) = POk a (full P j) ->
  a = firstn (Z.to_nat n) (skipn (Z.to_nat i) P) /\ j = i + n /\ j <= zlen P.
Proof.
  intros Hi Hn. rewrite read_str_full by lia. destruct (Z.leb_spec (i + n) (zlen P)); [|discriminate].
  intros E. injection E as <- <-. repeat apply conj; auto; lia.
Qed.
Lemma bind_inv {A B} (m : action A) (k : A -> action B) s b s' : pbind m k s = POk b s' ->
  exists a s1, m s = POk a s1 /\ k a s1 = POk b s'.
Proof. unfold pbind. destruct (m s); try discriminate. eauto. Qed.

(** every action built from the primitives keeps the buffer loaded *)
Definition keeps {A} (P : list Z) (m : action A) : Prop := forall i, 0 <= i <= zlen P ->
  match m (full P i) with
  | POk _ s | PErr _ s => exists j, s = full P j /\ i <= j <= zlen P
  | _ => True
  end.
Lemma keeps_ok {A} P (m : action A) i a s : keeps P m -> 0 <= i <= zlen P -> m (full P i) = POk a s ->
  exists j, s = full P j /\ i <= j <= zlen P.
Proof. intros H Hi E. specialize (H i Hi). now rewrite E in H. Qed.
Lemma keeps_bind {A B} P (m : action A) (k : A -> action B) : keeps P m -> (forall a, keeps P (k a)) -> keeps P (pbind m k).
Proof.
  intros Hm Hk i Hi. specialize (Hm i Hi). unfold pbind. destruct (m (full P i)); auto.
  destruct Hm as (j & -> & Hj). specialize (Hk a j). destruct (k a (full P j)); auto;
  (destruct Hk as (j' & -> & Hj'); [lia|]); exists j'; (split; [reflexivity|lia]).
Qed.
Lemma keeps_ret {A} P (a : A) : keeps P (pret a).
Proof. intros i Hi. cbn. eauto with zarith. Qed.
Lemma keeps_err {A} P e : keeps P (perr e : action A).
Proof. intros i Hi. cbn. eauto with zarith. Qed.
Lemma keeps_when P b e : keeps P (when b e).
Proof. destruct b; [apply keeps_err|apply keeps_ret]. Qed.
Lemma keeps_index P : keeps P get_index.
Proof. intros i Hi. cbn. eauto with zarith. Qed.
Lemma keeps_advance P n : keeps P (AdvanceBytes n).
Proof.
  intros i Hi. destruct (Z.leb_spec 0 n).
  - rewrite advance_full by lia. destruct (Z.leb_spec (i + n) (zlen P)); eexists; (split; [reflexivity|lia]).
  - unfold AdvanceBytes. destruct (Z.eqb_spec n 0); [lia|]. destruct (Z.ltb_spec n 0); [exact I|lia].
Qed.
Lemma keeps_on_bytes {A} P (f : list Z -> outcome A) : keeps P (on_bytes f).
Proof. intros i Hi. unfold on_bytes. destruct (f (Bytes (full P i))); eauto with zarith. Qed.
Lemma keeps_u8 P : keeps P ReadUint8.
Proof. intros i Hi. rewrite u8_full by lia. destruct (Z.leb_spec (i + 1) (zlen P)); eexists; (split; [reflexivity|lia]). Qed.
Lemma keeps_u16 P : bytes P -> keeps P ReadUint16.
Proof. intros HP i Hi. rewrite u16_full by (auto; lia). destruct (Z.leb_spec (i + 2) (zlen P)); eexists; (split; [reflexivity|lia]). Qed.
Lemma keeps_u24 P : bytes P -> keeps P ReadUint24.
Proof. intros HP i Hi. rewrite u24_full by (auto; lia). destruct (Z.leb_spec (i + 3) (zlen P)); eexists; (split; [reflexivity|lia]). Qed.
Lemma keeps_ign24 P : bytes P -> keeps P (ignore_err ReadUint24).
Proof. intros HP i Hi. rewrite ign24_full by (auto; lia). destruct (Z.leb_spec (i + 3) (zlen P)); eexists; (split; [reflexivity|lia]). Qed.
Lemma keeps_read_str P n : 0 <= n -> keeps P (read_str n).
Proof. intros Hn i Hi. rewrite read_str_full by lia. destruct (Z.leb_spec (i + n) (zlen P)); eexists; (split; [reflexivity|lia]). Qed.
Lemma keeps_short_str P : bytes P -> keeps P ReadShortStr.
Proof.
  intros HP i Hi. unfold ReadShortStr, pbind. rewrite u8_full by lia.
  destruct (Z.leb_spec (i + 1) (zlen P)); [|eexists; (split; [reflexivity|lia])].
  pose proof (byte_at_range P i HP) as Hb. unfold byte in Hb.
  rewrite read_str_full by lia. destruct (Z.leb_spec (i + 1 + byte_at P i) (zlen P)); eexists; (split; [reflexivity|lia]).
Qed.
Lemma keeps_string P : bytes P -> keeps P ReadString.
Proof.
  intros HP i Hi. unfold ReadString, pbind. rewrite u16_full by (auto; lia).
  destruct (Z.leb_spec (i + 2) (zlen P)); [|eexists; (split; [reflexivity|lia])].
  pose proof (le_at_range 2 P i HP) as Hb.
  rewrite read_str_full by lia. destruct (Z.leb_spec (i + 2 + le_at 2 P i) (zlen P)); eexists; (split; [reflexivity|lia]).
Qed.
Lemma short_str_inv P i a j : 0 <= i <= zlen P -> bytes P -> ReadShortStr (full P i) = POk a (full P j) ->
  a = firstn (Z.to_nat (byte_at P i)) (skipn (Z.to_nat (i + 1)) P) /\ j = i + 1 + byte_at P i /\ j <= zlen P /\
  0 <= byte_at P i < 256.
Proof.
  intros Hi HP E. apply bind_inv in E as (n & s1 & E1 & E2).
  destruct (keeps_ok _ _ _ _ _ (keeps_u8 P) Hi E1) as (k & -> & Hk).
  apply u8_inv in E1 as (-> & -> & ? & ?); auto. apply read_str_inv in E2 as (-> & -> & ?); auto; lia.
Qed.
Lemma string_inv P i a j : 0 <= i <= zlen P -> bytes P -> ReadString (full P i) = POk a (full P j) ->
  a = firstn (Z.to_nat (le_at 2 P i)) (skipn (Z.to_nat (i + 2)) P) /\ j = i + 2 + le_at 2 P i /\ j <= zlen P /\
  0 <= le_at 2 P i < 65536.
Proof.
  intros Hi HP E. apply bind_inv in E as (n & s1 & E1 & E2).
  destruct (keeps_ok _ _ _ _ _ (keeps_u16 P HP) Hi E1) as (k & -> & Hk).
  apply u16_inv in E1 as (-> & -> & ? & ?); auto. apply read_str_inv in E2 as (-> & -> & ?); auto; lia.
Qed.
Lemma when_inv b e P i a j : when b e (full P i) = POk a (full P j) -> b = false /\ j = i.
Proof. destruct b; [discriminate|]. intros E. injection E as _ <-. auto. Qed.
Lemma on_bytes_inv {A} (f : list Z -> outcome A) P i a j : on_bytes f (full P i) = POk a (full P j) -> f P = Ok a /\ j = i.
Proof.
  unfold on_bytes. change (Bytes (full P i)) with P. destruct (f P) eqn:E; try discriminate.
  intros E2. injection E2 as -> ->. auto.
Qed.
Lemma index_inv P i a j : get_index (full P i) = POk a (full P j) -> a = i /\ j = i.
Proof. intros E. injection E as <- <-. auto. Qed.
Lemma ret_inv {A} P i (x a : A) j : pret x (full P i) = POk a (full P j) -> a = x /\ j = i.
Proof. intros E. injection E as -> ->. auto. Qed.

(** use a recorded successful step *)
Ltac step_inv E :=
  first
  [ apply index_inv in E as [? ?]
  | apply when_inv in E as [? ?]
  | apply on_bytes_inv in E as [? ?]
  | apply ret_inv in E as [? ?]
  | apply advance_inv in E as (? & ?); [|lia|lia]
  | apply u8_inv in E as (? & ? & ? & ?); [|lia|assumption]
  | apply u16_inv in E as (? & ? & ? & ?); [|lia|assumption]
  | apply u24_inv in E as (? & ? & ? & ?); [|lia|assumption]
  | apply ign24_inv in E as (? & ?); [|lia|assumption]
  | apply short_str_inv in E as (? & ? & ? & ?); [|lia|assumption]
  | apply string_inv in E as (? & ? & ? & ?); [|lia|assumption]
  | idtac ].

Ltac bool_facts := repeat match goal with
  | H : (_ >? _) = true |- _ => apply Z.gtb_lt in H
  | H : (_ >? _) = false |- _ => rewrite Z.gtb_ltb in H; apply Z.ltb_ge in H
  | H : (_ <? _) = true |- _ => apply Z.ltb_lt in H
  | H : (_ <? _) = false |- _ => apply Z.ltb_ge in H
  end.

Ltac sim_prim := first
  [ apply sim_ret | apply sim_when | apply sim_err | apply sim_index | apply sim_u8 | apply sim_u16 | apply sim_u24
  | apply sim_ignore, sim_u24 | apply sim_short_str | apply sim_string | apply sim_advance; bool_facts; lia ].

Ltac sim_step := first
  [ sim_prim
  | apply sim_bind; [sim_prim|]; let a := fresh "a" in let j := fresh "j" in let E := fresh "E" in
    intros a j E ?; step_inv E; try subst j
  | match goal with |- sim_at _ _ (if ?c then _ else _) => let H := fresh "C" in destruct c eqn:H end ].
Ltac sim_auto := repeat sim_step.

Section Sim.
  Variable P : list Z.
  Hypothesis HP : bytes P.

  Lemma sim_dyes i : 0 <= i <= zlen P -> sim_at P i parse_dyes.
  Proof. intros Hi. unfold parse_dyes. sim_auto. Qed.
  Lemma sim_palettes i used : 0 <= i <= zlen P -> sim_at P i (parse_palettes used).
  Proof. intros Hi. unfold parse_palettes. sim_auto. Qed.
  Lemma sim_words i : 0 <= i <= zlen P -> sim_at P i parse_words.
  Proof. intros Hi. unfold parse_words. sim_auto. Qed.
  Lemma sim_settings i : 0 <= i <= zlen P -> sim_at P i parse_settings.
  Proof. intros Hi. unfold parse_settings. sim_auto. Qed.
  Lemma sim_switches i n : 0 <= i <= zlen P -> sim_at P i (parse_switches n).
  Proof. intros Hi. unfold parse_switches. sim_auto. Qed.
  Lemma sim_mapping i : 0 <= i <= zlen P -> sim_at P i parse_mapping.
  Proof. intros Hi. unfold parse_mapping. sim_auto. Qed.
  Lemma sim_u16_blocks i f m : 0 <= i <= zlen P -> sim_at P i (parse_u16_blocks f m).
  Proof. intros Hi. unfold parse_u16_blocks. sim_auto. Qed.
  Lemma sim_rules i n m1 m2 : 0 <= i <= zlen P -> sim_at P i (parse_rules n m1 m2).
  Proof. intros Hi. unfold parse_rules. sim_auto. Qed.
  Lemma sim_kernings i n m : 0 <= i <= zlen P -> sim_at P i (parse_kernings n m).
  Proof. intros Hi. unfold parse_kernings. sim_auto. Qed.
  Lemma sim_masks i n v : 0 <= i <= zlen P -> sim_at P i (parse_glyph_masks n v).
  Proof.
    intros Hi. unfold parse_glyph_masks.
    assert (0 <= u16 (n - 1)) by (unfold u16; apply Z.mod_pos_bound; lia). sim_auto.
  Qed.

  Lemma local_header i : 29 + byte_at P 28 < i -> i <= zlen P -> local_at P i header_Validate.
  Proof.
    intros Hn Hi. unfold header_Validate. pose proof (byte_at_range P 28 HP) as Hb. unfold byte in Hb.
    apply (local_bind P i header_FormatVersion).
    { apply (local_bind P i (fun d => zslice d 0 4) (fun b _ => DecodeUint32LE b)); [apply local_slice; lia|].
      intros. apply local_const. }
    intros v _. apply (local_if P i _ (fun _ => Err _)); [apply local_const|].
    apply (local_bind P i header_ID).
    { apply (local_bind P i (fun d => zslice d 4 12) (fun b _ => DecodeUint64LE b)); [apply local_slice; lia|].
      intros. apply local_const. }
    intros id _. apply (local_if P i _ (fun _ => Err _)); [apply local_const|].
    apply (local_bind P i header_Name (fun name _ => if zlen name =? 0 then Err _ else Ok tt)); [|intros; apply local_const].
    apply (local_bind P i (fun d => zget d 28) (fun n d => unsafe_string d 29 n)); [apply local_get; lia|].
    intros n En. apply local_unsafe_string; [lia|].
    rewrite (zget_nth P 28 0) in En by lia. injection En as <-. change (nth (Z.to_nat 28) P 0) with (byte_at P 28). lia.
  Qed.

  Lemma sim_header : 0 <= 0 <= zlen P -> sim_at P 0 parse_header.
  Proof.
    intros Hi. unfold parse_header. sim_auto.
    change (0 + 28) with 28 in *. apply sim_on_bytes, local_header; lia.
  Qed.
End Sim.
