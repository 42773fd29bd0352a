(** Specification of error messages. *)
From Coq Require Import NArith List Bool String.
From Verif Require Import Base DocErrors.
Import ListNotations.
Local Open Scope N_scope.

(** The Error column for one scalar value. *)
Definition doc_error (c : N) : option message :=
  match find (fun r => in_range c (fst (fst r)) (snd (fst r))) doc_error_rows with Some r => Some (snd r) | None => None end.
(** The message is the documented one; it may print in addition the character
    that is refused. *)
Definition says (c : N) (doc m : message) : Prop :=
  m = doc \/ exists t, doc = Message t [] /\ m = Message (t ++ ": _") [[c]].
(** The rows for which it is not:
    U+D; characters for which the table names a replacement that the reader does
    not use; U+F77 and U+F79, with a partly composed replacement; and characters
    that are replaced by normalization only. *)
Definition other_message : list (N * N) := [
  (0xD, 0xD);
  (0x9E4, 0x9E5); (0xA64, 0xA65); (0xAE4, 0xAE5); (0xB64, 0xB65); (0xBE4, 0xBE5); (0xC64, 0xC65); (0xCE4, 0xCE5); (0xD64, 0xD65);
  (0x2072, 0x2073); (0x2329, 0x232A);
  (0x1D455, 0x1D455); (0x1D49D, 0x1D49D); (0x1D4A0, 0x1D4A1); (0x1D4A3, 0x1D4A4); (0x1D4A7, 0x1D4A8); (0x1D4AD, 0x1D4AD); (0x1D4BA, 0x1D4BA);
  (0x1D4BC, 0x1D4BC); (0x1D4C4, 0x1D4C4); (0x1D506, 0x1D506); (0x1D50B, 0x1D50C); (0x1D515, 0x1D515); (0x1D51D, 0x1D51D); (0x1D53A, 0x1D53A);
  (0x1D53F, 0x1D53F); (0x1D545, 0x1D545); (0x1D547, 0x1D549); (0x1D551, 0x1D551);
  (0xF77, 0xF77); (0xF79, 0xF79);
  (0x2126, 0x2126); (0x212A, 0x212B);
  (0xF900, 0xFA0D); (0xFA10, 0xFA10); (0xFA12, 0xFA12); (0xFA15, 0xFA1E); (0xFA20, 0xFA20); (0xFA22, 0xFA22); (0xFA25, 0xFA26); (0xFA2A, 0xFA6D); (0xFA70, 0xFAD9);
  (0x2F800, 0x2FA1D)].

(** The Error column for color escape sequences (docs/BasicText.md:59), which the
    writer accepts only with [ansi_color]. *)
Definition color_sequence (s : list N) : Prop := exists ps, s = [0x1B; 0x5B] ++ ps ++ [0x6D] /\ Forall (fun c => 0x20 <= c <= 0x3F) ps.
Definition doc_color_error : message := Message "Color escape sequences are not enabled" [].
