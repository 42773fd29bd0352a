(** Vocabulary for streams that are cut off. *)
From Coq Require Import NArith List.
From Verif Require Import Base Utf8 SpecMore.
Import ListNotations.
Local Open Scope N_scope.

Definition beginning (a b : list N) : Prop := exists c, b = a ++ c.
(** The bytes [b] are what is left of the stored text [t], cut off anywhere. *)
Definition cut_off (bom cr : bool) (t b : list N) : Prop := beginning b (encode_all (stored bom cr t)).
(** The part [q] of the text is all there in [b]. *)
Definition survives (bom cr : bool) (q b : list N) : Prop := beginning (encode_all (stored bom cr q)) b.
(** What may have to be added to make text that is cut off end well: nothing, a line end,
    U+34F where it may not end and a line end, or U+FFFD for half a character and a line
    end. *)
Definition repairs : list (list N) := [[]; [0xA]; [0x34F; 0xA]; [0xFFFD; 0xA]].
