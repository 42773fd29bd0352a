(** Vocabulary for statements about reading: what a script of inner reads
    carries, and what a caller sees. *)
From Coq Require Import NArith List Bool.
From Verif Require Import Base Input.
Import ListNotations.
Local Open Scope N_scope.

(** All the text of the underlying stream. *)
Fixpoint stream_text (script : list event) : list N :=
  match script with
  | [] => []
  | Chunk cs End :: _ => cs
  | Chunk cs _ :: t => cs ++ stream_text t
  | Fail :: t => stream_text t
  end.

(** The stream never signals a push. *)
Definition no_push (script : list event) : Prop := forall cs, ~ In (Chunk cs Push) script.
(** The stream never fails. *)
Definition no_fail (script : list event) : Prop := ~ In Fail script.
(** Only scalar values. *)
Definition scalar_stream (script : list event) : Prop := forall cs s, In (Chunk cs s) script -> scalars cs.

(** What the caller of a session gets: the text of the successful calls. *)
Definition received (rs : list (read_result * list N)) : list N :=
  flat_map (fun r => match fst r with ROk _ _ => snd r | _ => [] end) rs.

(** The last call reported the end of the stream. *)
Definition reached_end (rs : list (read_result * list N)) : Prop :=
  exists rs' n cs, rs = rs' ++ [(ROk n End, cs)].

(** Buffers long enough for read_with_status. *)
Definition legal_sizes (sizes : list nat) : Prop := Forall (fun b => (136 <= b)%nat) sizes.

(** The text of the stream after an initial BOM. *)
Definition without_bom (s : list N) : list N :=
  match s with c :: t => if c =? 0xFEFF then t else s | [] => [] end.

(** The first read of the stream is not empty, or there is no initial BOM. *)
Definition bom_visible (script : list event) : Prop :=
  (forall t, stream_text script <> 0xFEFF :: t) \/ exists c cs s t, script = Chunk (c :: cs) s :: t.

(** The reader's replacement of a character that belongs to no longer sequence:
    with NEL or LSPS compatibility the line separators become U+A. *)
From Verif Require Import Chars.
Definition char_rep (nel lsps : bool) (c : N) : list N :=
  if (nel && (c =? 0x85)) || (lsps && ((c =? 0x2028) || (c =? 0x2029))) then [0xA] else replace c.

(** U+34F before text that starts with a Basic Text non-starter. *)
Definition guard_start (s : list N) : list N :=
  match s with c :: _ => if is_basic_text_start c then s else 0x34F :: s | [] => [] end.
(** U+34F after text that ends with a Basic Text non-ender. *)
Definition guard_end (s : list N) : list N :=
  match last_opt s with Some c => if is_basic_text_end c then s else s ++ [0x34F] | None => s end.
