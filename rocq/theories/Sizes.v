(** Model of the buffer sizes that readers, writers and duplexers ask for. *)
From Coq Require Import NArith List Bool.
From Verif Require Import Base Ucd Norm Chars TextUtils Utf8 Input Output Duplex Copy.
Import ListNotations.

(** /repo/src/text_input.rs:490-498 minimum_buffer_size; [inner_min]: what the stream
    below asks for *)
Definition minimum_buffer_size (inner_min : nat) : nat := Nat.max NORMALIZATION_BUFFER_SIZE inner_min.
(** text_input.rs:510-518 suggested_buffer_size; [inner_sug]: what the stream below
    suggests *)
Definition reader_suggested (inner_min inner_sug : nat) : nat := Nat.max (minimum_buffer_size inner_min) inner_sug.
(** /repo/src/text_output.rs:444-448 suggested_buffer_size *)
Definition writer_suggested (inner_sug : nat) : nat := inner_sug.
(** /repo/src/text_duplexer.rs:248-254 suggested_buffer_size *)
Definition duplexer_suggested (inner_min inner_sug : nat) : nat := Nat.max (reader_suggested inner_min inner_sug) (writer_suggested inner_sug).
(** /repo/src/copy.rs:13-16, 42-45: the length of the buffer, from what the reader and the
    writer suggest *)
Definition copy_buffer (reader writer : nat) : nat := Nat.max reader writer.
(** text_input.rs:415-416: the size of the buffer for the stream below.  A reader over
    a reader over … over a stream that asks for [m]: the sizes asked for at each layer. *)
Definition below : nat := 4096.
(** text_input.rs:490-498 minimum_buffer_size of each layer *)
Fixpoint tower (layers : nat) (m : nat) : nat := match layers with O => m | S n => minimum_buffer_size (tower n m) end.
