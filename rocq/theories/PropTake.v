(** Properties: exactly when Take fails (C97). *)
From Coq Require Import NArith Arith List Bool Lia.
From Verif Require Import Base Ucd Norm Chars TextUtils SpecText TextFacts Utf8 Utf8Facts Input SpecRead SpecCat Copy StdIo StdBuf SpecBuf StdAdapt AdaptProps TakeExact.
Import ListNotations.
Local Open Scope N_scope.

(** ** C97 *)
(** A text that no error interrupts, read through a Take to the end: a limit at least 136
    bytes beyond the text does not matter.  With any other limit there is an error, unless a
    character of four bytes ends exactly at the limit, and then what was given is the text up
    to it. *)
Theorem C97_take_exact : forall nel lsps script t l, no_fail script -> gives nel lsps script t -> (0 < l)%nat ->
  exists k, forall sizes rs t', (k <= length sizes)%nat -> legal_sizes sizes -> take_reads (mktake (new_reader nel lsps script) l) sizes = (rs, t') ->
  ((str_len t + 136 <= l)%nat -> bytes_given rs = encode_all t /\ ~ In BErr rs) /\
  ((l < str_len t + 136)%nat -> In BErr rs \/ exists u c v, t = u ++ c :: v /\ 0x10000 <= c /\ bytes_given rs = encode_all (u ++ [c]) /\ str_len (u ++ [c]) = l).
Proof. exact take_exact. Qed.
Print Assumptions C97_take_exact.
(** Without characters of four bytes: an error exactly when the limit is less than 136 bytes
    beyond the text. *)
Theorem C97_take_exact_narrow : forall nel lsps script t l, no_fail script -> gives nel lsps script t -> (0 < l)%nat -> Forall (fun c => c < 0x10000) t ->
  exists k, forall sizes rs t', (k <= length sizes)%nat -> legal_sizes sizes -> take_reads (mktake (new_reader nel lsps script) l) sizes = (rs, t') ->
  (In BErr rs <-> (l < str_len t + 136)%nat).
Proof. exact take_exact_narrow. Qed.
Print Assumptions C97_take_exact_narrow.
(** 132 "a"s, U+10000 and LF with a limit of 136: the text is cut before LF without an error.
    With a limit of 137, where the "a"s are 133, there is one. *)
Definition ex97w (n : nat) : list N := repeat 0x61 n ++ [0x10000; 0xA].
Example C97_take_exact_example : let script n := [Chunk (ex97w n) End] in no_fail (script 132%nat) /\ gives false false (script 132%nat) (ex97w 132) /\
  fst (take_reads (mktake (new_reader false false (script 132%nat)) 136) [136; 136; 136]%nat) = [BOk (encode_all (repeat 0x61 132 ++ [0x10000])); BOk []; BOk []] /\
  fst (take_reads (mktake (new_reader false false (script 133%nat)) 137) [136; 136; 136]%nat) = [BOk (repeat 0x61 133); BErr; BErr] /\
  Forall (fun c => c < 0x10000) [0x61; 0xA].
Proof.
  cbv zeta. split; [intros [H|[]]; discriminate|]. split.
  { exists [136; 136; 136]%nat. do 3 eexists. split; [vm_compute; reflexivity|]. split; [first [eexists []; do 2 eexists; reflexivity|eexists [_]; do 2 eexists; reflexivity|eexists [_; _]; do 2 eexists; reflexivity]|vm_compute; reflexivity]. }
  split; [vm_compute; reflexivity|]. split; [vm_compute; reflexivity|]. repeat constructor.
Qed.
