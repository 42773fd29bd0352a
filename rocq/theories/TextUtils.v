(** String-level functions of /repo/internals/src. *)
From Coq Require Import NArith List Bool.
From Verif Require Import Base Ucd Norm Chars.
Import ListNotations.
Local Open Scope N_scope.

(** /repo/internals/src/isolate_unassigned.rs:39 *)
Definition is_assigned (c : N) : bool := is_public_assigned c || is_private_use_area c.

(** /repo/internals/src/isolate_unassigned.rs:30-63 IsolateUnassigned::next,
    run to exhaustion; [need] and [have] are need_cgj and have_cgj; a deferred
    character directly follows the emitted CGJ. *)
Fixpoint isolate_go (need have : bool) (s : list N) : list N :=
  match s with
  | [] => if need then [CGJ] else []
  | c :: t =>
      let assigned := is_assigned c in
      let is_cgj := c =? CGJ in
      if (need && negb is_cgj) || (negb assigned && negb have)
      then CGJ :: c :: isolate_go (negb assigned) false t
      else c :: isolate_go false is_cgj t
  end.

(** isolate_unassigned.rs:14-24 *)
Definition isolate_unassigned (s : list N) : list N := isolate_go false false s.

(** /repo/internals/src/categorize.rs:32-43 Categorize::next: an error becomes
    SUB (the error itself is recorded out of band). *)
Definition categorize1 (c : N) : N := match check_basic_text_char c with None => c | Some _ => SUB end.
(** categorize.rs:19-23, 32-43: the adapter on a whole string *)
Definition categorize (s : list N) : list N := map categorize1 s.

(** The conversion chain built in /repo/src/text_input.rs:266-271 and
    /repo/src/text_output.rs:323-329. *)
Definition pipeline (s : list N) : list N :=
  nfc (stream_safe (cjk_compat_variants (isolate_unassigned s))).

(** /repo/internals/src/text_utils.rs:59-64 *)
Definition is_basic_text_substr (s : list N) : bool :=
  negb (existsb (fun c => (c =? SUB) || (c =? ESC)) (categorize s))
  && is_nfc_stream_safe s.

(** /repo/internals/src/text_utils.rs:42-55 *)
Definition is_basic_text (s : list N) : bool :=
  if negb (opt_all is_basic_text_start (head_opt s)) then false
  else if negb (opt_all is_basic_text_end (last_opt s)) then false
  else is_basic_text_substr s.

(** /repo/internals/src/text_utils.rs:69-83 (the condition is as in the source). *)
Definition is_basic_text_substr_quick (s : list N) : option bool :=
  if negb (existsb (fun c => (c =? SUB) || (c =? ESC)) (categorize s)) then Some false
  else match is_nfc_stream_safe_quick s with
       | Yes => Some true
       | No => Some false
       | Maybe => None
       end.
