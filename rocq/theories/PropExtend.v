(** C16: exactly when extending by several strings gives a valid string. *)
From Coq Require Import NArith Arith List Bool Lia.
From Verif Require Import Base Chars TextUtils SpecText TextFacts Strings SpecString StringProps ExtendProps.
Import ListNotations.
Local Open Scope N_scope.

(** Extending by several strings gives a valid string exactly if at none of them two Hangul
    letters meet that compose. *)
Theorem C16_extend_exact : forall l a, string_ok a -> Forall string_ok l ->
  string_ok (extend a l) <-> forall l1 b l2, l = l1 ++ b :: l2 -> ~ joined (extend a l1) b.
Proof. exact extend_exact. Qed.
Print Assumptions C16_extend_exact.
(** An empty string between two Hangul letters does not keep them apart. *)
Example C16_extend_exact_example : string_ok [0x61] /\ Forall string_ok [[0x1100]; []; [0x1161]] /\ joined (extend [0x61] [[0x1100]; []]) [0x1161] /\
  is_basic_text (extend [0x61] [[0x1100]; []; [0x1161]]) = false /\ is_basic_text (extend [0x61] [[0x1161]; []; [0x1100]]) = true.
Proof.
  split; [apply basic_text_spec; vm_compute; reflexivity|]. split; [do 3 (apply Forall_cons; [apply basic_text_spec; vm_compute; reflexivity|]); apply Forall_nil|].
  split; [exists [0x61], 0x1100, 0x1161, []; do 2 (split; [reflexivity|]); left; lia|]. split; vm_compute; reflexivity.
Qed.
