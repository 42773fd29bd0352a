(** The iterators of unicode-normalization 0.1.23 used by /repo, as functions on
    the whole list of characters.  (Dependency; trusted base.  Simplification:
    the Rust code computes the same lists lazily, as in NormIter.v.) *)
From Coq Require Import NArith List Bool.
From Verif Require Import Base Ucd.
Import ListNotations.
Local Open Scope N_scope.

(** U+034F, stream_safe.rs COMBINING_GRAPHEME_JOINER; also
    /repo/internals/src/unicode.rs:51 *)
Definition CGJ : N := 0x34F.

(** decompose.rs: sort_pending, a stable sort of a run of pending non-starters
    by combining class (insertion sort: [x] moves right past strictly smaller
    non-zero classes). *)
Fixpoint ins (x : N) (l : list N) : list N :=
  match l with
  | [] => [x]
  | y :: t => if negb (ccc y =? 0) && (ccc y <? ccc x) then y :: ins x t else x :: l
  end.

(** decompose.rs: sort_pending on the whole run. *)
Definition sort_pending (l : list N) : list N := fold_right ins [] l.

(** decompose.rs: push_back / next.  A starter flushes (sorts) the pending
    run; the end of input does too. *)
Fixpoint order_go (pending : list N) (s : list N) : list N :=
  match s with
  | [] => sort_pending pending
  | c :: t =>
      if ccc c =? 0 then sort_pending pending ++ c :: order_go [] t
      else order_go (pending ++ [c]) t
  end.

(** decompose.rs: Decompositions, without the decompositions themselves. *)
Definition order (s : list N) : list N := order_go [] s.

(** decompose.rs: Decompositions (canonical). *)
Definition nfd (s : list N) : list N := order (flat_map cd s).

(** recompose.rs: Recompositions::next, with composee [k], [buf] and last_ccc
    [l]. *)
Fixpoint rc (k : N) (buf : list N) (l : option N) (s : list N) : list N :=
  match s with
  | [] => k :: buf
  | ch :: t =>
      let cls := ccc ch in
      match l with
      | None =>
          match compose k ch with
          | Some r => rc r buf None t
          | None =>
              if cls =? 0 then k :: rc ch buf None t
              else rc k (buf ++ [ch]) (Some cls) t
          end
      | Some lc =>
          if cls <=? lc then
            if cls =? 0 then k :: buf ++ rc ch [] None t
            else rc k (buf ++ [ch]) (Some cls) t
          else
            match compose k ch with
            | Some r => rc r buf l t
            | None => rc k (buf ++ [ch]) (Some cls) t
            end
      end
  end.

(** recompose.rs: no composee yet; non-starters are passed through. *)
Fixpoint recomp (s : list N) : list N :=
  match s with
  | [] => []
  | ch :: t => if ccc ch =? 0 then rc ch [] None t else ch :: recomp t
  end.

(** UnicodeNormalization::nfc, used in /repo/src/text_input.rs:121, 271,
    /repo/src/text_output.rs:329 and /repo/examples/nfc-cat.rs:18 *)
Definition nfc (s : list N) : list N := recomp (nfd s).

(** stream_safe.rs: MAX_NONSTARTERS *)
Definition MAX_NONSTARTERS : nat := 30.

(** stream_safe.rs: a character with a non-zero combining class. *)
Definition nonstarter (c : N) : bool := negb (ccc c =? 0).

(** stream_safe.rs: the number of non-starters at the front of a decomposition. *)
Fixpoint leading (l : list N) : nat :=
  match l with
  | [] => 0
  | c :: t => if nonstarter c then S (leading t) else 0
  end%nat.

(** stream_safe.rs: classify_nonstarters (leading, trailing, length of the
    compatibility decomposition). ASCII and Hangul never contain non-starters. *)
Definition cl_leading (c : N) : nat :=
  if (c <=? 0x7F) || is_hangul_syllable c then 0%nat else leading (kd c).
(** stream_safe.rs: trailing_nonstarters *)
Definition cl_trailing (c : N) : nat :=
  if (c <=? 0x7F) || is_hangul_syllable c then 0%nat else leading (rev (kd c)).
(** stream_safe.rs: decomposition_len *)
Definition cl_len (c : N) : nat := length (kd c).

(** The counter update shared by stream_safe.rs and quick_check.rs. *)
Definition count_next (n : nat) (c : N) : nat :=
  if Nat.eqb (cl_leading c) (cl_len c) then (n + cl_len c)%nat else cl_trailing c.

(** stream_safe.rs: StreamSafe::next.  After emitting CGJ the counter is 0 and
    the same character is classified again; as no character has more than 30
    leading non-starters (proved in UcdFacts.v) it is then emitted. *)
Fixpoint stream_safe_go (n : nat) (s : list N) : list N :=
  match s with
  | [] => []
  | c :: t =>
      if Nat.ltb MAX_NONSTARTERS (n + cl_leading c)
      then CGJ :: c :: stream_safe_go (count_next 0 c) t
      else c :: stream_safe_go (count_next n c) t
  end.

(** UnicodeNormalization::stream_safe, used in /repo/src/text_input.rs:120, 270,
    /repo/src/text_output.rs:328 and /repo/examples/ssnfc-cat.rs:20 *)
Definition stream_safe (s : list N) : list N := stream_safe_go 0 s.

(** quick_check.rs: quick_check with stream_safe = true and tables::qc_nfc. *)
Fixpoint quick_check (last_cc : N) (n : nat) (result : is_normalized) (s : list N) : is_normalized :=
  match s with
  | [] => result
  | ch :: t =>
      if ch <=? 0x7F then quick_check 0 0 result t
      else
        let cc := ccc ch in
        if (cc <? last_cc) && negb (cc =? 0) then No
        else
          match qc_nfc ch with
          | No => No
          | q =>
              let result' := match q with Maybe => Maybe | _ => result end in
              if Nat.ltb MAX_NONSTARTERS (n + cl_leading ch) then No
              else quick_check cc (count_next n ch) result' t
          end
  end.

(** quick_check.rs: is_nfc_stream_safe_quick, used in /repo/src/text_input.rs:253,
    /repo/src/text_output.rs:300 and /repo/internals/src/text_utils.rs:78 *)
Definition is_nfc_stream_safe_quick (s : list N) : is_normalized := quick_check 0 0 Yes s.

(** quick_check.rs: is_nfc_stream_safe, used in /repo/internals/src/text_utils.rs:63 *)
Definition is_nfc_stream_safe (s : list N) : bool :=
  match is_nfc_stream_safe_quick s with
  | Yes => true
  | No => false
  | Maybe => list_eqb s (nfc (stream_safe s))
  end.

(** replace.rs: cjk_compat_variants (ASCII unchanged, table lookup, itself). *)
Definition cjk1 (c : N) : list N :=
  if c <=? 0x7F then [c]
  else match cjk_variant c with Some (b, v) => [b; v] | None => [c] end.

(** UnicodeNormalization::cjk_compat_variants, used in /repo/src/text_input.rs:119, 269
    and /repo/src/text_output.rs:327 *)
Definition cjk_compat_variants (s : list N) : list N := flat_map cjk1 s.
