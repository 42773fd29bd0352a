(** The conversion as it runs, one character at a time (NormIter.v): it delivers what
    the functions on lists give (C91), and when a write is refused, which error is
    reported (C63); and it holds few characters at a time (C94). *)
From Coq Require Import NArith List Bool.
From Verif Require Import Base Ucd Norm Chars TextUtils Output Errors Strings NormIter SpecAhead AheadProps HeldProps.
Import ListNotations.
Local Open Scope N_scope.

(** ** C91 *)
(** Called again and again until the end, the chain of iterators gives the converted
    text, with and without the check of characters, and 1000 + 100 n rounds are
    enough for n characters. *)
Theorem C91_iterators : forall b s n fuel, (rounds s <= n)%nat -> (rounds s <= fuel)%nat ->
  collect n fuel (convert_iter b s) = pipeline (if b then categorize s else s).
Proof. exact collected. Qed.
Print Assumptions C91_iterators.
Example C91_iterators_example : collect (rounds [0x61; 0x302; 0x323; 0x378; 0x1112; 0x1161; 0x11AB; 0xF900]) (rounds [0x61; 0x302; 0x323; 0x378; 0x1112; 0x1161; 0x11AB; 0xF900])
    (convert_iter false [0x61; 0x302; 0x323; 0x378; 0x1112; 0x1161; 0x11AB; 0xF900]) = [0x1EAD; CGJ; 0x378; CGJ; 0xD55C; 0x8C48; 0xFE00].
Proof. vm_compute. reflexivity. Qed.

(** ** C63 *)
(** Exactly which error is reported.  Writing does what [state_machine] does, and
    when it refuses a character, the text is [a ++ c :: b] with [c] the first
    refused character, and the error is that of the last refused one of [c] and the
    first [k] characters of [b]: none of them when the text needs no conversion,
    else those up to the second one of combining class 0. *)
Theorem C63_exact : forall w x, exists e, write_chars w x = outcome_of (state_machine w x) e /\
  forall w', state_machine w x = (Some EWCheck, w') -> exists a c b k, x = a ++ c :: b /\
    Forall (fun y => check_basic_text_char y = None) a /\ check_basic_text_char c <> None /\
    e = recorded (c :: firstn k b) /\ (quick_text x -> k = 0%nat) /\ (~ quick_text x -> looked_at b k).
Proof. exact write_exact. Qed.
Print Assumptions C63_exact.
(** So there always is an error: taking it out of the cell does not panic. *)
Theorem C63_no_panic : forall w x w', write_chars w x <> (WRefused None, w').
Proof. exact write_some. Qed.
Print Assumptions C63_no_panic.
(** The error of the first refused character, if the text needs no conversion. *)
Theorem C63_first : forall w x e w', quick_text x -> write_chars w x = (WRefused e, w') ->
  exists a c b, x = a ++ c :: b /\ Forall (fun y => check_basic_text_char y = None) a /\ e = check_basic_text_char c /\ e <> None.
Proof. exact write_first. Qed.
Print Assumptions C63_first.
(** U+2028 is reported.  After an accent, which needs conversion, it is the second
    character after U+2028 that is reported, U+149, and not U+7 or U+8. *)
Example C63_exact_example :
  fst (write_chars (new_writer false false vec_sink) [0x61; 0x2028; 0x7; 0x149; 0x8]) = WRefused (check_basic_text_char 0x2028) /\
  fst (write_chars (new_writer false false vec_sink) [0x61; 0x301; 0x2028; 0x7; 0x149; 0x8]) = WRefused (check_basic_text_char 0x149) /\
  looked_at [0x7; 0x149; 0x8] 2 /\ check_basic_text_char 0x149 <> check_basic_text_char 0x2028.
Proof.
  split; [vm_compute; reflexivity|]. split; [vm_compute; reflexivity|]. split; [|vm_compute; discriminate].
  split; [repeat constructor|]. split; [|right; vm_compute; repeat constructor].
  intros [|[|j]] H; [vm_compute; repeat constructor..|]. do 2 apply PeanoNat.Nat.succ_lt_mono in H. now apply PeanoNat.Nat.nlt_0_r in H.
Qed.

(** ** C94 *)
(** However long the text is, whatever follows what in it, and however many
    characters have been asked for, the buffers hold at most 69 characters. *)
Theorem C94_bounded : forall b s n fuel, (rounds s <= fuel)%nat -> (held (after n fuel (convert_iter b s)) <= 69)%nat.
Proof. exact held_bounded. Qed.
Print Assumptions C94_bounded.
(** 66 are reached, with hundreds of combining characters to come. *)
Example C94_example : let s := [0x78] ++ repeat 0x334 30 ++ [0x1F82] ++ repeat 0x334 27 ++ [0x1F82] ++ repeat 0x334 300 in
  held (after 1 (rounds s) (convert_iter true s)) = 66%nat /\ Forall (fun n => Nat.leb (held (after n (rounds s) (convert_iter true s))) 66 = true) (seq 0 50).
Proof. split; [vm_compute; reflexivity|]. apply Forall_forall. rewrite <- forallb_forall. vm_compute. reflexivity. Qed.
