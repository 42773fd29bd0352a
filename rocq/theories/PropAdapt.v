(** C97: std's adaptors chain, take and bytes over TextReaders. *)
From Coq Require Import NArith Arith List Bool Lia.
From Verif Require Import Base Ucd Norm Chars TextUtils SpecText TextFacts Utf8 Utf8Facts Input SpecRead SpecCat Copy StdIo StdBuf SpecBuf StdAdapt AdaptProps.
Import ListNotations.
Local Open Scope N_scope.

(** ** Chain *)
(** Whatever fails, what was given is what reads of the first reader gave and then, once it
    is at its end, what reads of the second gave. *)
Theorem C97_chain : forall nel1 lsps1 nel2 lsps2 script1 script2 sizes rs c', legal_sizes sizes -> chain_reads (new_chain nel1 lsps1 nel2 lsps2 script1 script2) sizes = (rs, c') ->
  exists ns1 xs1 ns2 xs2, legal_sizes ns1 /\ legal_sizes ns2 /\ reads (new_input nel1 lsps1) script1 ns1 = (xs1, state_of (first c'), stream_of (first c')) /\
  reads (new_input nel2 lsps2) script2 ns2 = (xs2, state_of (second c'), stream_of (second c')) /\ (ns2 = [] \/ reached_end xs1) /\
  bytes_given rs = encode_all (received xs1 ++ received xs2) /\ errors_given rs = (reads_failed xs1 + reads_failed xs2)%nat.
Proof. exact chain_text. Qed.
Print Assumptions C97_chain.
Theorem C97_chain_no_error : forall nel1 lsps1 nel2 lsps2 script1 script2 sizes rs c', legal_sizes sizes -> no_fail script1 -> no_fail script2 ->
  chain_reads (new_chain nel1 lsps1 nel2 lsps2 script1 script2) sizes = (rs, c') -> ~ In BErr rs.
Proof. exact chain_no_error. Qed.
Print Assumptions C97_chain_no_error.
(** Ok(0) is the end of both. *)
Theorem C97_chain_end : forall nel1 lsps1 nel2 lsps2 script1 script2 sizes n rs c', legal_sizes (sizes ++ [n]) ->
  chain_reads (new_chain nel1 lsps1 nel2 lsps2 script1 script2) (sizes ++ [n]) = (rs ++ [BOk []], c') ->
  exists ns1 xs1 j1 rest1 ns2 xs2 j2 rest2, legal_sizes ns1 /\ legal_sizes ns2 /\ reads (new_input nel1 lsps1) script1 ns1 = (xs1, j1, rest1) /\ reads (new_input nel2 lsps2) script2 ns2 = (xs2, j2, rest2) /\
  reached_end xs1 /\ reached_end xs2 /\ bytes_given rs = encode_all (received xs1 ++ received xs2).
Proof. exact chain_end. Qed.
Print Assumptions C97_chain_end.
Theorem C97_chain_ends : forall nel1 lsps1 nel2 lsps2 script1 script2, exists k, forall sizes rs c', (k <= length sizes)%nat -> legal_sizes sizes ->
  chain_reads (new_chain nel1 lsps1 nel2 lsps2 script1 script2) sizes = (rs, c') -> In (BOk []) rs.
Proof. exact chain_ends. Qed.
Print Assumptions C97_chain_ends.
(** "a", without a line end, and "b" LF: each text is complete. *)
Example C97_chain_example : legal_sizes [136; 136; 136]%nat /\ fst (chain_reads (new_chain false false false false [Chunk [0x61] End] [Chunk [0x62; 0xA] End]) [136; 136; 136]%nat) = [BOk [0x61; 0xA]; BOk [0x62; 0xA]; BOk []].
Proof. split; [repeat constructor|vm_compute; reflexivity]. Qed.

(** ** Take *)
(** Whatever fails, what was given is what reads of the reader gave, and never more than the
    limit.  Further reads fail only when fewer than 136 bytes are left. *)
Theorem C97_take : forall nel lsps script l sizes rs t', legal_sizes sizes -> take_reads (mktake (new_reader nel lsps script) l) sizes = (rs, t') ->
  exists ns xs k, legal_sizes ns /\ reads (new_input nel lsps) script ns = (xs, state_of (taken t'), stream_of (taken t')) /\ bytes_given rs = encode_all (received xs) /\
  (length (bytes_given rs) + limit t' = l)%nat /\ errors_given rs = (reads_failed xs + k)%nat /\ (k <> 0 -> 0 < limit t' < 136)%nat.
Proof. exact take_text. Qed.
Print Assumptions C97_take.
(** Ok(0): the limit is reached, or the end. *)
Theorem C97_take_end : forall nel lsps script l sizes n rs t', legal_sizes (sizes ++ [n]) -> take_reads (mktake (new_reader nel lsps script) l) (sizes ++ [n]) = (rs ++ [BOk []], t') ->
  length (bytes_given rs) = l \/ exists ns xs j rest, legal_sizes ns /\ reads (new_input nel lsps) script ns = (xs, j, rest) /\ reached_end xs /\ bytes_given rs = encode_all (received xs).
Proof. exact take_end. Qed.
Print Assumptions C97_take_end.
(** A limit 136 bytes beyond the text does not matter. *)
Theorem C97_take_beyond : forall nel lsps script t l, no_fail script -> gives nel lsps script t -> (str_len t + 136 <= l)%nat ->
  exists k, forall sizes rs t', (k <= length sizes)%nat -> legal_sizes sizes -> take_reads (mktake (new_reader nel lsps script) l) sizes = (rs, t') ->
  bytes_given rs = encode_all t /\ ~ In BErr rs.
Proof. exact take_beyond. Qed.
Print Assumptions C97_take_beyond.
(** A limit below the length of the text: an error, unless the reads happen to end there. *)
Theorem C97_take_cut : forall nel lsps script t l, no_fail script -> gives nel lsps script t -> (l < str_len t)%nat ->
  exists k, forall sizes rs t', (k <= length sizes)%nat -> legal_sizes sizes -> take_reads (mktake (new_reader nel lsps script) l) sizes = (rs, t') ->
  length (bytes_given rs) = l \/ In BErr rs.
Proof. exact take_cut. Qed.
Print Assumptions C97_take_cut.
(** A limit below 136 lets nothing through. *)
Theorem C97_take_short : forall nel lsps script l sizes, (0 < l < 136)%nat ->
  take_reads (mktake (new_reader nel lsps script) l) sizes = (map (fun _ => BErr) sizes, mktake (new_reader nel lsps script) l).
Proof. exact take_short. Qed.
Print Assumptions C97_take_short.
(** "ab" LF: a limit of 138 is refused after the text was given, 139 is not. *)
Definition ex97 : list event := [Chunk [0x61; 0x62; 0xA] Active].
Example C97_take_example : no_fail ex97 /\ gives false false ex97 [0x61; 0x62; 0xA] /\
  fst (take_reads (mktake (new_reader false false ex97) 139) [200; 200]%nat) = [BOk [0x61; 0x62; 0xA]; BOk []] /\
  fst (take_reads (mktake (new_reader false false ex97) 138) [200; 200]%nat) = [BOk [0x61; 0x62; 0xA]; BErr].
Proof.
  split; [intros [H|[]]; discriminate|]. split.
  { exists [136; 136]%nat. do 3 eexists. split; [vm_compute; reflexivity|]. split; [eexists [_]; do 2 eexists; reflexivity|vm_compute; reflexivity]. }
  split; vm_compute; reflexivity.
Qed.
(** A whole text within the limit, and yet an error: *)
Theorem C97_take_refuted : exists script t l, no_fail script /\ gives false false script t /\ (str_len t <= l)%nat /\
  forall sizes, fst (take_reads (mktake (new_reader false false script) l) sizes) = map (fun _ => BErr) sizes.
Proof.
  exists ex97, [0x61; 0x62; 0xA], 3%nat. destruct C97_take_example as (A & B & _). split; [exact A|]. split; [exact B|]. split; [vm_compute; repeat constructor|].
  intro sizes. rewrite take_short; [reflexivity|]. split; repeat constructor.
Qed.
Print Assumptions C97_take_refuted.

(** ** Bytes *)
(** The iterator of bytes gives errors only, and never ends. *)
Theorem C97_bytes : forall fuel t, bytes_next (S fuel) t = Some (Some None, t).
Proof. exact bytes_refused. Qed.
Print Assumptions C97_bytes.
Theorem C97_bytes_refuted : exists script t, gives false false script t /\ t <> [] /\ forall fuel, bytes_next (S fuel) (new_reader false false script) = Some (Some None, new_reader false false script).
Proof. exists ex97, [0x61; 0x62; 0xA]. split; [exact (proj1 (proj2 C97_take_example))|]. split; [discriminate|]. intro fuel. apply bytes_refused. Qed.
Print Assumptions C97_bytes_refuted.
