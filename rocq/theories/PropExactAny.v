(** C53: exactly when the provided exact reads panic, for any TextSubstr. *)
From Coq Require Import NArith Arith List Bool Lia.
From Verif Require Import Base Chars TextUtils Utf8 Utf8Facts Input ReadFacts ReadSession SpecText TextFacts SpecRead ReadProps ScalarFacts SpecPrompt Copy CopyProps ExactProps ExactBuf ExactAny.
Import ListNotations.
Local Open Scope N_scope.

(** The provided exact read into any valid TextSubstr [t], after any history of
    reads, panics exactly when the text its reads have given ends inside a
    character of [t]; when it succeeds, or reports the end of the stream, so does
    the reader's own exact read of as many bytes, in the same final state. *)
Theorem C53_default_exact_any : forall nel lsps script sizes0 rs0 i sc fuel t e j sc', script_scalars script -> reads (new_input nel lsps) script sizes0 = (rs0, i, sc) ->
  scalars t -> substring_ok t -> default_exact fuel i sc (encode_all t) = Some (e, j, sc') ->
  (exists sizes rs, reads i sc sizes = (rs, j, sc') /\ (e = DefPanic <-> ~ whole_chars t (str_len (received rs)))) /\
  (e = DefOk -> exists u, read_exact false fuel i sc (str_len t) = Some (ExactOk, u, j, sc')) /\
  (e = DefEof -> exists u, read_exact false fuel i sc (str_len t) = Some (ExactEof, u, j, sc')).
Proof. intros nel lsps script sizes0 rs0 i sc fuel t e j sc' SS R ST SO H. apply any_exact; auto. now exists nel, lsps, script, sizes0, rs0. Qed.
Print Assumptions C53_default_exact_any.
(** The variant with a status: the same, and as for a buffer of one-byte
    characters it succeeds only with a full buffer and an active status, and
    reports an unexpected end only at the end of the stream. *)
Theorem C53_default_exact_status_any : forall nel lsps script sizes0 rs0 i sc fuel t e j sc', script_scalars script -> reads (new_input nel lsps) script sizes0 = (rs0, i, sc) ->
  scalars t -> substring_ok t -> default_exact_status fuel i sc (encode_all t) = Some (e, j, sc') ->
  exists sizes rs, reads i sc sizes = (rs, j, sc') /\
  (e = StPanic <-> ~ whole_chars t (str_len (received rs))) /\
  match e with
  | StOk s => str_len (received rs) = str_len t /\ s = Active /\ ~ reached_end rs
  | StEof => (str_len (received rs) < str_len t)%nat /\ reached_end rs
  | StErr => ~ reached_end rs
  | StPanic => True
  end.
Proof. intros nel lsps script sizes0 rs0 i sc fuel t e j sc' SS R ST SO H. apply (any_exact_status fuel); auto. now exists nel, lsps, script, sizes0, rs0. Qed.
Print Assumptions C53_default_exact_status_any.
(** A read gives the four bytes of a line. No panic when they end between two
    characters of the buffer (the next read then fails, for lack of room); a panic
    when they end inside one. *)
Definition ex_lines : list event := [Chunk [0x78; 0x79; 0x7A; 0xA] Active].
Example C53_any_example :
  script_scalars ex_lines /\ scalars ([0xE9; 0xE9] ++ repeat 0x61 132) /\ substring_ok ([0xE9; 0xE9] ++ repeat 0x61 132) /\
  (exists j sc, default_exact 5 (new_input false false) ex_lines (encode_all ([0xE9; 0xE9] ++ repeat 0x61 132)) = Some (DefErr, j, sc)) /\
  (exists j sc, default_exact_status 5 (new_input false false) ex_lines (encode_all ([0x61; 0xE9; 0xE9] ++ repeat 0x61 131)) = Some (StPanic, j, sc)).
Proof.
  split; [intros cs s [H|[]]; injection H as <- _; apply Forall_forall; rewrite <- forallb_forall; vm_compute; reflexivity|].
  split; [apply Forall_forall; rewrite <- forallb_forall; vm_compute; reflexivity|]. split; [apply substr_spec; vm_compute; reflexivity|].
  split; do 2 eexists; vm_compute; reflexivity.
Qed.
