(** C49: the result of every exact read. *)
From Coq Require Import NArith Arith List Bool Lia.
From Verif Require Import Base Utf8 Input SpecRead SpecText TextFacts Copy SpecExact ExactFull.
Import ListNotations.
Local Open Scope N_scope.

(** ** C49 *)
(** The stream below does not fail.  [rs] is what reads with a buffer of [B]
    bytes give up to the end when that buffer is never filled.  An exact read of
    [blen] bytes then succeeds exactly when these pieces fit (SpecExact.v), reports
    an unexpected end exactly when at least 136 bytes are missing at the end, and
    otherwise fails because it has come to read into less than 136 bytes. *)
Theorem C49_exact_result : forall nel lsps script B k rs j rest, no_fail script -> reads (new_input nel lsps) script (repeat B k) = (rs, j, rest) -> reached_end rs ->
  Forall (fun r => (str_len (snd r) + 4 <= B)%nat) rs -> forall blen fuel, (0 < blen)%nat -> (k < fuel)%nat ->
  exists e t i sc, read_exact false fuel (new_input nel lsps) script blen = Some (e, t, i, sc) /\
  (e = ExactOk <-> fits (map snd rs) blen) /\ (e = ExactEof <-> (str_len (delivered rs) + 136 <= blen)%nat).
Proof. exact exact_result_iff. Qed.
Print Assumptions C49_exact_result.
(** Every buffer that is large enough will do. *)
Theorem C49_large_buffers : forall nel lsps script, exists B0, forall B, (B0 <= B)%nat -> exists k rs j rest, reads (new_input nel lsps) script (repeat B k) = (rs, j, rest) /\ reached_end rs /\
  Forall (fun r => (str_len (snd r) + 4 <= B)%nat) rs.
Proof. exact large_buffers. Qed.
Print Assumptions C49_large_buffers.
Definition ex_two : list event := [Chunk (repeat 0x61 100 ++ [0xA]) Active; Chunk (repeat 0x62 132 ++ [0x1F600; 0x63; 0xA]) End].
Example C49_result_example : no_fail ex_two /\ exists rs j rest, reads (new_input false false) ex_two (repeat 1000%nat 2) = (rs, j, rest) /\ reached_end rs /\
  Forall (fun r => (str_len (snd r) + 4 <= 1000)%nat) rs /\ fits (map snd rs) 237 /\
  exists i sc, read_exact false 3 (new_input false false) ex_two 237 = Some (ExactOk, repeat 0x61 100 ++ [0xA] ++ repeat 0x62 132 ++ [0x1F600], i, sc).
Proof.
  split; [intros [H|[H|[]]]; discriminate|]. do 3 eexists. split; [vm_compute; reflexivity|]. split; [eexists [_]; do 2 eexists; reflexivity|].
  split; [constructor; [|constructor; [|constructor]]; vm_compute; lia|]. split; [|do 2 eexists; vm_compute; reflexivity].
  exists [repeat 0x61 100 ++ [0xA]], (repeat 0x62 132), 0x1F600, [0x63; 0xA], []. split; [reflexivity|]. split; [lia|]. split; [vm_compute; lia|reflexivity].
Qed.
(** So a stream that ends too early need not be reported as ended. *)
Theorem C49_eof_refuted : exists sc t blen fuel j rest u, stream_text sc = t /\ string_ok t /\ line_terminated t /\ no_fail sc /\ (136 <= blen)%nat /\ (str_len t < blen)%nat /\
  read_exact false fuel (new_input false false) sc blen = Some (ExactErr, u, j, rest).
Proof.
  exists [Chunk (repeat 0x61 100 ++ [0xA]) End], (repeat 0x61 100 ++ [0xA]), 200%nat, 10%nat. do 3 eexists. split; [reflexivity|].
  split; [apply basic_text_spec; vm_compute; reflexivity|]. split; [right; now exists (repeat 0x61 100)|]. split; [intros [H|[]]; discriminate|]. split; [lia|]. split; [vm_compute; lia|].
  vm_compute. reflexivity.
Qed.
Print Assumptions C49_eof_refuted.
