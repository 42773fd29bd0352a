(** The model against the repository's own tests: every expectation collected in
    RepoTests.v is met by running the model.  These are tests of the model, not
    properties. *)
From Coq Require Import NArith List Bool.
From Verif Require Import Base Ucd Norm Chars TextUtils Utf8 Input Output Strings Lines Copy RepoTests NfcTests.
Import ListNotations.
Local Open Scope N_scope.

Fixpoint eqs (a b : list N) : bool :=
  match a, b with
  | [], [] => true
  | x :: a', y :: b' => (x =? y) && eqs a' b'
  | _, _ => false
  end.

Definition big : nat := (64 * 128)%nat.
(** Everything delivered from one chunk, with buffers of a given size. *)
Definition run_read (nel lsps : bool) (size times : nat) (s : list N) : list N :=
  let '(rs, _, _) := reads (new_input nel lsps) [Chunk s Active] (repeat size times) in delivered rs.
Definition run_lossy (s : list N) : option (list N) := lossy_result s (run_read false false big 8 s).
Definition is_ok (r : option (list N)) (t : list N) : bool := match r with Some s => eqs s t | None => false end.
(** write_all, then close_into_inner three times *)
Definition run_write (w : option writer) (s : list N) : option (list N) :=
  match w with
  | None => None
  | Some w => match and_then (write_str w s) close_into_inner with
              | (None, w') => Some (emitted (inner w'))
              | (Some _, _) => None
              end
  end.
Definition plain_writer (cr : bool) : option writer := Some (new_writer cr false vec_sink).
Definition bom_writer : option writer := new_bom_writer vec_sink.
Definition on (f : list N -> option (list N)) (l : list (list N * list N)) : bool := forallb (fun p => is_ok (f (fst p)) (snd p)) l.
Definition errs (f : list N -> option (list N)) (l : list (list N)) : bool := forallb (fun s => match f s with None => true | _ => false end) l.
Definition strict (s : list N) : option (list N) := match string_from_text is_basic_text s with TOk t => Some t | TErr _ => None end.
Fixpoint are_lines (l : list item) (e : list (list N)) : bool :=
  match l, e with
  | [], [] => true
  | Line s :: l', t :: e' => eqs s t && are_lines l' e'
  | _, _ => false
  end.
Definition lines_test (f : list N -> option (list item)) (t : list (list N)) : bool :=
  match t with
  | src :: e => match f (encode_all src) with Some l => are_lines l e | None => false end
  | [] => false
  end.

Example strings_strict : on strict t_strict = true. Proof. vm_compute. reflexivity. Qed.
Example strings_lossy : on run_lossy t_lossy = true. Proof. vm_compute. reflexivity. Qed.
Example strings_cjk : on run_lossy t_cjk = true. Proof. vm_compute. reflexivity. Qed.
Example reader_input : on (fun s => Some (run_read false false big 8 s)) t_read = true. Proof. vm_compute. reflexivity. Qed.
Example reader_nel : on (fun s => Some (run_read true false big 8 s)) t_nel = true. Proof. vm_compute. reflexivity. Qed.
Example reader_lsps : on (fun s => Some (run_read false true big 8 s)) t_lsps = true. Proof. vm_compute. reflexivity. Qed.
Example reader_disallowed : on (fun s => Some (run_read false false big 8 s)) (map (fun s => (s, [REPL; LF])) t_disallowed) = true.
Proof. vm_compute. reflexivity. Qed.
Example reader_large : on (fun s => Some (run_read false false big 8 s)) t_reader = true. Proof. vm_compute. reflexivity. Qed.
Example reader_small : on (fun s => Some (run_read false false NORMALIZATION_BUFFER_SIZE 8 s)) t_reader = true. Proof. vm_compute. reflexivity. Qed.
Example writer_ok : on (run_write (plain_writer false)) (t_writer ++ t_write) = true. Proof. vm_compute. reflexivity. Qed.
Example writer_err : errs (run_write (plain_writer false)) (t_writer_err ++ t_write_err ++ map (fun s => s ++ [LF]) t_disallowed) = true.
Proof. vm_compute. reflexivity. Qed.
Example writer_bom : on (run_write bom_writer) t_bom = true. Proof. vm_compute. reflexivity. Qed.
Example writer_crlf : on (run_write (plain_writer true)) t_crlf && errs (run_write (plain_writer true)) t_crlf_err = true.
Proof. vm_compute. reflexivity. Qed.
Example lines : lines_test (text_lines true) t_lines = true. Proof. vm_compute. reflexivity. Qed.
Example lines_lossy : lines_test (text_lines_lossy true run_lossy) t_lines_lossy = true. Proof. vm_compute. reflexivity. Qed.
Example sample_example : forallb is_basic_text t_example = true. Proof. vm_compute. reflexivity. Qed.
(** from_text_bytes_lossy, then a line end *)
Example sample_invalid : on (fun bs => match run_lossy (utf8_lossy bs) with Some t => Some (push_text t [LF]) | None => None end) t_sample = true.
Proof. vm_compute. reflexivity. Qed.

(** src/copy.rs:61-99 *)
Definition snowman : list N := [0x68; 0x65; 0x6C; 0x6C; 0x6F; 0x20; 0x77; 0x6F; 0x72; 0x6C; 0x64; 0x20; 0x2603].
Example test_copy_text :
  match copy_text false 8 (new_input false false) [Chunk (snowman ++ [LF]) Active] (new_writer false false vec_sink) big 0 with
  | Some (CopyOk n, _, _, w) => match close_into_inner w with (None, w') => eqs (emitted (inner w')) (snowman ++ [LF]) && Nat.eqb n 16 | _ => false end
  | _ => false
  end = true.
Proof. vm_compute. reflexivity. Qed.
Example test_copy_text_using_status :
  match copy_status 8 (new_input false false) [Chunk snowman Active] (new_writer false false vec_sink) big 0 with
  | Some (CopyOk n, _, _, w) => match close_into_inner w with (None, w') => eqs (emitted (inner w')) (snowman ++ [LF]) | _ => false end
  | _ => false
  end = true.
Proof. vm_compute. reflexivity. Qed.
(** src/text_input.rs:548-570 *)
Example test_clear_to_char_boundary : clear_to_char_boundary [0x80; 0x80; 7] = [0; 0; 7]. Proof. reflexivity. Qed.
(** tests/string.rs *)
Definition text (l : list N) : list N := match run_lossy l with Some t => t | None => [] end.
Example text_string_extend :
  extend [0x61; 0x62; 0x63; 0x64; 0x65; 0x66] [[0x67; 0x68; 0x69]; [0x6A; 0x6B; 0x6C]; [0x6D; 0x6E; 0x6F]]
  = [0x61; 0x62; 0x63; 0x64; 0x65; 0x66; 0x67; 0x68; 0x69; 0x6A; 0x6B; 0x6C; 0x6D; 0x6E; 0x6F].
Proof. reflexivity. Qed.
Example text_string_concat_no_compose : push_text (text [0x68; 0x65]) (text [0x308; 0x77]) = [0x68; 0x65; 0x34F; 0x308; 0x77].
Proof. vm_compute. reflexivity. Qed.
Example text_string_concat_lossy : push_text (text [0x6F; 0x110BD]) (text [0x308; 0x77]) = [0x6F; 0x110BD; 0x34F; 0x308; 0x77].
Proof. vm_compute. reflexivity. Qed.

(** src/text_string.rs:1513-1563 normalize_string, validate_string, split_escape *)
Definition bytes_test (bs : list N) (r : text_result) : bool :=
  match from_bytes (str_from_text is_basic_text) bs, r with
  | TOk a, TOk b => eqs a b
  | TErr (Some m), TErr (Some n) => Nat.eqb m n
  | _, _ => false
  end.
Example normalize_string :
  bytes_test (encode_all [0x41; 0x30A]) (TErr (Some 1%nat)) && bytes_test (encode_all [0x30A]) (TErr (Some 0%nat)) &&
  bytes_test (encode_all [0xC5]) (TOk [0xC5]) && is_ok (run_lossy [0x41; 0x30A]) [0xC5] && is_ok (run_lossy [0x41; 0x30A; 0xA]) [0xC5; 0xA] = true.
Proof. vm_compute. reflexivity. Qed.
Example validate_string : bytes_test [] (TOk []) && bytes_test [0xFF] (TErr (Some 0%nat)) = true.
Proof. vm_compute. reflexivity. Qed.
Example split_escape : forallb (fun bs => bytes_test bs (TErr (Some 0%nat))) [[0x1B; 0x5B; 0x70]; [0x1B; 0x5B; 0x21]; [0x1B; 0x5B]; [0x1B]] = true.
Proof. vm_compute. reflexivity. Qed.

(** src/text_substring.rs:1316-1372 the same for TextSubstr *)
Definition substr_test (bs : list N) (r : text_result) : bool :=
  match from_bytes (str_from_text is_basic_text_substr) bs, r with
  | TOk a, TOk b => eqs a b
  | TErr (Some m), TErr (Some n) => Nat.eqb m n
  | _, _ => false
  end.
Example substr_normalize_string :
  substr_test (encode_all [0x41; 0x30A]) (TErr (Some 1%nat)) && substr_test (encode_all [0x30A]) (TOk [0x30A]) && substr_test (encode_all [0xC5]) (TOk [0xC5]) &&
  substr_test (encode_all [0xC5; 0xA]) (TOk [0xC5; 0xA]) = true.
Proof. vm_compute. reflexivity. Qed.
Example substr_validate_string : substr_test [] (TOk []) && substr_test [0xFF] (TErr (Some 0%nat)) = true.
Proof. vm_compute. reflexivity. Qed.
Example substr_split_escape : forallb (fun bs => substr_test bs (TErr (Some 0%nat))) [[0x1B; 0x5B; 0x70]; [0x1B; 0x5B; 0x21]; [0x1B; 0x5B]; [0x1B]] = true.
Proof. vm_compute. reflexivity. Qed.

(** Normalization against another implementation (perl's Unicode::Normalize). *)
Example normal_forms : forallb (fun p => let '(s, (d, c, k)) := p in eqs (nfd s) d && eqs (nfc s) c && eqs (order (flat_map kd s)) k) t_nfc = true.
Proof. vm_compute. reflexivity. Qed.
