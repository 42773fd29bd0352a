(** Model of the adaptors of std::io::Read, take, chain and bytes, over TextReaders.  (The
    standard library is in the trusted base; what is used of /repo is
    text_reader.rs:183-186 read.) *)
From Coq Require Import NArith List Bool.
From Verif Require Import Base Utf8 Input Copy StdIo StdBuf.
Import ListNotations.
Local Open Scope N_scope.

(** A TextReader and its stream. *)
Record text_reader := mkreader { state_of : input; stream_of : list event }.
(** text_reader.rs:45-91 *)
Definition new_reader (nel lsps : bool) (script : list event) : text_reader := mkreader (new_input nel lsps) script.
(** Read::read into [n] bytes (text_reader.rs:183-186, text_input.rs:520-526) *)
Definition std_read (t : text_reader) (n : nat) : buf_result * text_reader :=
  let '(r, cs, i, sc) := read (state_of t) (stream_of t) n in
  (match std_result false r with SOk _ => BOk (encode_all cs) | SInterrupted => BInterrupted | SErr => BErr end, mkreader i sc).

(** * Take *)
(** std io/mod.rs: Take *)
Record take := mktake { taken : text_reader; limit : nat }.
(** Take::read: nothing is read once the limit is reached; otherwise at most up to the
    limit (the assertion that no more was read holds: BufProps.read_length) *)
Definition take_read (t : take) (n : nat) : buf_result * take :=
  if Nat.eqb (limit t) 0 then (BOk [], t)
  else let '(r, k) := std_read (taken t) (Nat.min n (limit t)) in
       (r, mktake k (limit t - match r with BOk bs => length bs | _ => 0 end)).
Fixpoint take_reads (t : take) (sizes : list nat) : list buf_result * take :=
  match sizes with
  | [] => ([], t)
  | n :: m => let '(r, t') := take_read t n in let '(rs, t'') := take_reads t' m in (r :: rs, t'')
  end.

(** * Chain *)
(** std io/mod.rs: Chain *)
Record chain := mkchain { first : text_reader; second : text_reader; done_first : bool }.
(** Read::chain *)
Definition new_chain (nel1 lsps1 nel2 lsps2 : bool) (script1 script2 : list event) : chain := mkchain (new_reader nel1 lsps1 script1) (new_reader nel2 lsps2 script2) false.
(** Chain::read: the second reader is read once the first has returned Ok(0) *)
Definition chain_second (c : chain) (n : nat) : buf_result * chain :=
  let '(r, k) := std_read (second c) n in (r, mkchain (first c) k (done_first c)).
Definition chain_read (c : chain) (n : nat) : buf_result * chain :=
  if done_first c then chain_second c n
  else match std_read (first c) n with
       | (BOk [], k) => if Nat.eqb n 0 then (BOk [], mkchain k (second c) false) else chain_second (mkchain k (second c) true) n
       | (r, k) => (r, mkchain k (second c) false)
       end.
Fixpoint chain_reads (c : chain) (sizes : list nat) : list buf_result * chain :=
  match sizes with
  | [] => ([], c)
  | n :: m => let '(r, c') := chain_read c n in let '(rs, c'') := chain_reads c' m in (r :: rs, c'')
  end.

(** * Bytes *)
(** std io/mod.rs: Bytes::next reads into a buffer of one byte, again if interrupted.
    The outer [None]: the fuel is used up; [Some (None, _)]: the iterator is at its end;
    an inner [None]: an error. *)
Fixpoint bytes_next (fuel : nat) (t : text_reader) : option (option (option N) * text_reader) :=
  match fuel with
  | O => None
  | S f => match std_read t 1 with
           | (BOk [], t') => Some (None, t')
           | (BOk (b :: _), t') => Some (Some (Some b), t')
           | (BInterrupted, t') => bytes_next f t'
           | (BErr, t') => Some (Some None, t')
           end
  end.
