(** C20, continued: the panics of Parse for every reader, failing or not, and any amount of data. *)
From Verif Require Import Base BaseFacts Spec_Helpers Model_Helpers Model_Font Model_Parse Spec_Parse Proofs_Parse Proofs_AnyReader Properties_Parse.

(** Parse panics only when, after results that alone give a font, the next result that is not
    empty has bytes and no error; it then panics whatever follows. Missing from the full
    statement: that there is no panic. *)
Theorem C20_any_reader_partial : forall i, stream_bytes i -> parse_payload i = Panic ->
  exists used between chunk rest f, i = used ++ between ++ (chunk, NoErr) :: rest /\
    Forall (fun r => r = ([], NoErr)) between /\ (length between <= 2)%nat /\ chunk <> [] /\
    parse_payload used = Ok f /\ zlen (Data f) + zlen chunk <= 33554432 /\
    forall rest', parse_payload (used ++ between ++ (chunk, NoErr) :: rest') = Panic.
Proof. exact panic_any. Qed.
Print Assumptions C20_any_reader_partial.

(** The reader fails after the bytes that are too many. *)
Example C20_any_reader_example : exists f, let i := [(tiny_font, NoErr); ([], NoErr); ([7], NoErr); ([], Fail "disk on fire"%string)] in
  stream_bytes i /\ parse_payload i = Panic /\ i = [(tiny_font, NoErr)] ++ [([], NoErr)] ++ ([7], NoErr) :: [([], Fail "disk on fire"%string)] /\
  parse_payload [(tiny_font, NoErr)] = Ok f /\
  parse_payload [(tiny_font, NoErr); ([], NoErr); ([], Fail "disk on fire"%string)] = Err "disk on fire"%string.
Proof.
  eexists. cbv zeta. split; [repeat (apply Forall_cons; [apply bytes_check; vm_compute; reflexivity|]); apply Forall_nil|].
  split; [vm_compute; reflexivity|]. split; [reflexivity|]. split; vm_compute; reflexivity.
Qed.
