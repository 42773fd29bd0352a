(** The conversion chain as it runs: one character at a time, each iterator asking
    the one below for more only when it has to.  Norm.v and TextUtils.v have the
    same conversions as functions on lists; NormIterProps.v proves that the
    iterators deliver these lists.  The iterators of unicode-normalization 0.1.23
    are a dependency (trusted base).  Every [next] gives the character (or the
    end) and the state after. *)
From Coq Require Import NArith List Bool.
From Verif Require Import Base Ucd Norm Chars TextUtils Output.
Import ListNotations.
Local Open Scope N_scope.

(** /repo/internals/src/categorize.rs:9-17: the characters to come and the error
    cell shared with the writer.  (/repo/src/text_input.rs:266-271 has no
    Categorize; there [checking] is false.) *)
Record source := mksource { chars : list N; checking : bool; cell : option basic_text_error }.
(** categorize.rs:26-43 record_error and Categorize::next *)
Definition source_next (s : source) : option N * source :=
  match chars s with
  | [] => (None, s)
  | c :: t =>
      if checking s then
        match check_basic_text_char c with
        | None => (Some c, mksource t true (cell s))
        | Some e => (Some SUB, mksource t true (Some e))
        end
      else (Some c, mksource t false (cell s))
  end.

(** /repo/internals/src/isolate_unassigned.rs:7-13 *)
Record isolater := mkiso { iso_src : source; need_cgj : bool; have_cgj : bool; deferred : option N }.
(** isolate_unassigned.rs:30-63 IsolateUnassigned::next *)
Definition iso_next (i : isolater) : option N * isolater :=
  match deferred i with
  | Some c => (Some c, mkiso (iso_src i) (need_cgj i) (have_cgj i) None)
  | None =>
      match source_next (iso_src i) with
      | (Some c, s) =>
          if (need_cgj i && negb (c =? CGJ)) || (negb (is_assigned c) && negb (have_cgj i))
          then (Some CGJ, mkiso s (negb (is_assigned c)) false (Some c))
          else (Some c, mkiso s false (c =? CGJ) None)
      | (None, s) =>
          if need_cgj i then (Some CGJ, mkiso s false (have_cgj i) None)
          else (None, mkiso s false (have_cgj i) None)
      end
  end.

(** replace.rs: Replacements (cjk_compat_variants), with a buffer for the second
    character of a replacement. *)
Record replacer := mkrep { rep_src : isolater; rep_buf : option N }.
(** replace.rs: Replacements::next *)
Definition rep_next (r : replacer) : option N * replacer :=
  match rep_buf r with
  | Some c => (Some c, mkrep (rep_src r) None)
  | None =>
      match iso_next (rep_src r) with
      | (None, i) => (None, mkrep i None)
      | (Some c, i) =>
          match cjk1 c with
          | [] => (Some c, mkrep i None)
          | d :: t => (Some d, mkrep i (head_opt t))
          end
      end
  end.

(** stream_safe.rs: StreamSafe *)
Record safer := mksafe { safe_src : replacer; nonstarter_count : nat; safe_buf : option N }.
(** stream_safe.rs: StreamSafe::next *)
Definition safe_next (s : safer) : option N * safer :=
  let '(o, r) := match safe_buf s with Some c => (Some c, safe_src s) | None => rep_next (safe_src s) end in
  match o with
  | None => (None, mksafe r (nonstarter_count s) None)
  | Some c =>
      if Nat.ltb MAX_NONSTARTERS (nonstarter_count s + cl_leading c) then (Some CGJ, mksafe r 0 (Some c))
      else (Some c, mksafe r (count_next (nonstarter_count s) c) None)
  end.

(** decompose.rs: Decompositions (canonical): a buffer whose part [ready_start, ready_end)
    is ready to be handed out; the rest waits for its order. *)
Record decomposer := mkdec { dec_src : safer; pending : list N; ready_start : nat; ready_end : nat }.
(** decompose.rs: sort_pending *)
Definition dec_sort (d : decomposer) : decomposer :=
  mkdec (dec_src d) (firstn (ready_end d) (pending d) ++ sort_pending (skipn (ready_end d) (pending d))) (ready_start d) (length (pending d)).
(** decompose.rs: push_back *)
Definition push_back (d : decomposer) (c : N) : decomposer :=
  let d' := if ccc c =? 0 then dec_sort d else d in
  mkdec (dec_src d') (pending d' ++ [c]) (ready_start d') (ready_end d').
(** decompose.rs: reset_buffer, increment_next_ready *)
Definition increment_next_ready (d : decomposer) : decomposer :=
  if Nat.eqb (S (ready_start d)) (ready_end d) then mkdec (dec_src d) (skipn (ready_end d) (pending d)) 0 0
  else mkdec (dec_src d) (pending d) (S (ready_start d)) (ready_end d).
(** decompose.rs: the loop of Decompositions::next, which asks for more characters
    until something is ready.  ([fuel] bounds the number of rounds; the callers
    give more than there are characters.) *)
Fixpoint dec_fill (fuel : nat) (d : decomposer) : decomposer :=
  match fuel with
  | O => d
  | S fuel' =>
      if Nat.eqb (ready_end d) 0 then
        match safe_next (dec_src d) with
        | (Some c, s) => dec_fill fuel' (fold_left push_back (cd c) (mkdec s (pending d) (ready_start d) (ready_end d)))
        | (None, s) => dec_sort (mkdec s (pending d) (ready_start d) (ready_end d))
        end
      else d
  end.
(** decompose.rs: Decompositions::next *)
Definition dec_next (fuel : nat) (d : decomposer) : option N * decomposer :=
  let d := dec_fill fuel d in
  match nth_error (pending d) (ready_start d) with
  | None => (None, d)
  | Some c => (Some c, increment_next_ready d)
  end.

(** recompose.rs: RecompositionState *)
Inductive recomposition := Composing | Purging (next : nat) | Finished (next : nat).
(** recompose.rs: Recompositions *)
Record recomposer := mkrec { rec_src : decomposer; rec_state : recomposition; rec_buf : list N; composee : option N; last_ccc : option N }.
(** recompose.rs: Recompositions::next *)
Fixpoint rec_next (fuel : nat) (r : recomposer) : option N * recomposer :=
  match fuel with
  | O => (None, r)
  | S fuel' =>
      match rec_state r with
      | Composing =>
          match dec_next fuel' (rec_src r) with
          | (None, d) =>
              match composee r with
              | Some k => (Some k, mkrec d (Finished 0) (rec_buf r) None (last_ccc r))
              | None => rec_next fuel' (mkrec d (Finished 0) (rec_buf r) None (last_ccc r))
              end
          | (Some ch, d) =>
              match composee r with
              | None =>
                  if ccc ch =? 0 then rec_next fuel' (mkrec d Composing (rec_buf r) (Some ch) (last_ccc r))
                  else (Some ch, mkrec d Composing (rec_buf r) None (last_ccc r))
              | Some k =>
                  match last_ccc r with
                  | None =>
                      match compose k ch with
                      | Some x => rec_next fuel' (mkrec d Composing (rec_buf r) (Some x) None)
                      | None =>
                          if ccc ch =? 0 then (Some k, mkrec d Composing (rec_buf r) (Some ch) None)
                          else rec_next fuel' (mkrec d Composing (rec_buf r ++ [ch]) (Some k) (Some (ccc ch)))
                      end
                  | Some l =>
                      if ccc ch <=? l then
                        if ccc ch =? 0 then (Some k, mkrec d (Purging 0) (rec_buf r) (Some ch) None)
                        else rec_next fuel' (mkrec d Composing (rec_buf r ++ [ch]) (Some k) (Some (ccc ch)))
                      else
                        match compose k ch with
                        | Some x => rec_next fuel' (mkrec d Composing (rec_buf r) (Some x) (Some l))
                        | None => rec_next fuel' (mkrec d Composing (rec_buf r ++ [ch]) (Some k) (Some (ccc ch)))
                        end
                  end
              end
          end
      | Purging n =>
          match nth_error (rec_buf r) n with
          | None => rec_next fuel' (mkrec (rec_src r) Composing [] (composee r) (last_ccc r))
          | Some c => (Some c, mkrec (rec_src r) (Purging (S n)) (rec_buf r) (composee r) (last_ccc r))
          end
      | Finished n =>
          match nth_error (rec_buf r) n with
          | None => (composee r, mkrec (rec_src r) (Finished n) [] None (last_ccc r))
          | Some c => (Some c, mkrec (rec_src r) (Finished (S n)) (rec_buf r) (composee r) (last_ccc r))
          end
      end
  end.

(** The chain over the characters [s] (/repo/src/text_input.rs:112-122, 266-271;
    /repo/src/text_output.rs:322-330). *)
Definition convert_iter (checking : bool) (s : list N) : recomposer :=
  mkrec (mkdec (mksafe (mkrep (mkiso (mksource s checking None) false false None) None) 0 None) [] 0 0) Composing [] None None.
(** The error cell of a chain. *)
Definition iter_cell (r : recomposer) : option basic_text_error :=
  cell (iso_src (rep_src (safe_src (dec_src (rec_src r))))).
(** More rounds than any call needs (see convert_enough). *)
Definition rounds (s : list N) : nat := (1000 + 100 * length s)%nat.

(** All the characters an iterator delivers, as [collect] in
    /repo/examples/nfc-cat.rs:18 and ssnfc-cat.rs:18-22. *)
Fixpoint collect (n fuel : nat) (r : recomposer) : list N :=
  match n with
  | O => []
  | S n' => match rec_next fuel r with (None, _) => [] | (Some c, r') => c :: collect n' fuel r' end
  end.

(** The result of writing: no error, a refusal by the check of characters with the
    error found in the cell ([None]: [unwrap] panics), or another error. *)
Inductive write_outcome := WFine | WRefused (e : option basic_text_error) | WOther (e : werror).
(** /repo/src/text_output.rs:318-335 state_machine_slow_path, with 366-368. *)
Fixpoint slow_path (n fuel : nat) (w : writer) (r : recomposer) : write_outcome * writer :=
  match n with
  | O => (WFine, w)
  | S n' =>
      match rec_next fuel r with
      | (None, _) => (WFine, w)
      | (Some c, r') =>
          match sm_char w c with
          | (None, w') => slow_path n' fuel w' r'
          | (Some EWCheck, w') => (WRefused (iter_cell r'), w')
          | (Some e, w') => (WOther e, w')
          end
      end
  end.
(** text_output.rs:303-308, the fast path. *)
Fixpoint fast_path (w : writer) (s : source) (cs : list N) : write_outcome * writer :=
  match cs with
  | [] => (WFine, w)
  | _ :: t =>
      match source_next s with
      | (None, _) => (WFine, w)
      | (Some c, s') =>
          match sm_char w c with
          | (None, w') => fast_path w' s' t
          | (Some EWCheck, w') => (WRefused (cell s'), w')
          | (Some e, w') => (WOther e, w')
          end
      end
  end.
(** text_output.rs:294-316 state_machine, with the error it returns. *)
Definition write_chars (w : writer) (s : list N) : write_outcome * writer :=
  if (match is_nfc_stream_safe_quick s with Yes => true | _ => false end) && forallb is_public_assigned s
  then fast_path w (mksource s true None) s
  else slow_path (rounds s) (rounds s) w (convert_iter true s).
