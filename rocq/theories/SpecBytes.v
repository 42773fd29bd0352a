(** What the bytes of a text can hold. *)
From Coq Require Import NArith List.
From Verif Require Import Base Output.
Import ListNotations.
Local Open Scope N_scope.

(** The control codes but U+9 and U+A: C0, U+7F and C1. *)
Definition control (c : N) : Prop := (c < 0x20 /\ c <> 0x9 /\ c <> 0xA) \/ 0x7F <= c <= 0x9F.
(** U+2028 and U+2029. *)
Definition separator (c : N) : Prop := 0x2028 <= c <= 0x2029.
(** The explicit directional formatting characters. *)
Definition directional (c : N) : Prop := 0x202A <= c <= 0x202E \/ 0x2066 <= c <= 0x2069.
(** U+FDD0-U+FDEF and the last two of each plane. *)
Definition noncharacter (c : N) : Prop := 0xFDD0 <= c <= 0xFDEF \/ (c <= 0x10FFFF /\ 0xFFFE <= c mod 0x10000).
(** Interlinear annotations, the object replacement character and the byte order
    mark. *)
Definition out_of_band (c : N) : Prop := 0xFFF9 <= c <= 0xFFFC \/ c = 0xFEFF.
(** The characters for which plain text has no use. *)
Definition not_text (c : N) : Prop := control c \/ separator c \/ directional c \/ noncharacter c \/ out_of_band c.

(** A POSIX text file: lines, each of them ended by the byte 0xA, without the
    byte 0. *)
Definition text_file (lines : list (list N)) (bytes : list N) : Prop :=
  bytes = concat (map (fun l => l ++ [0xA]) lines) /\ Forall (fun l => ~ In 0xA l /\ ~ In 0 l) lines.

(** The strings given to a writer hold scalar values (a byte string can hold
    anything). *)
Definition op_scalars (o : wop) : Prop := match o with OpWriteStr s | OpWriteText s => scalars s | _ => True end.
