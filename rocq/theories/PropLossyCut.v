From Coq Require Import NArith List Lia.
From Verif Require Import Base Input Strings SpecRead SpecString SpecCat SpecPush SpecNewlines SpecEscape SpecWellCut WellCut LossyProps SpecLossyCut LossyCut.
Import ListNotations.
Local Open Scope N_scope.

(** ** C92 *)
(** The lossy conversion of two strings that differ in how their lines end, of any text.
    If the first is not read again between U+34F and an unassigned character, the results
    are equal exactly if the second is not either. *)
Theorem C92_lossy_exact : forall s1 s2 v1 v2 r1 r2, lossy_by s1 v1 r1 -> lossy_by s2 v2 r2 -> same_lines v1 v2 -> whole_ends (without_bom v1) (without_bom v2) ->
  well_cut false false s1 -> (r1 = r2 <-> well_cut false false s2).
Proof. exact lossy_exact. Qed.
Print Assumptions C92_lossy_exact.
(** The results of the lossy conversion are those for some reads of the string. *)
Theorem C92_lossy_by : forall v r, lossy v r <-> exists script, lossy_by script v r.
Proof. exact lossy_by_lossy. Qed.
Print Assumptions C92_lossy_by.
(** Strings that are one read each. *)
Theorem C92_lossy_one_read : forall v1 v2 r1 r2, lossy_by [Chunk v1 End] v1 r1 -> lossy_by [Chunk v2 End] v2 r2 -> same_lines v1 v2 -> whole_ends (without_bom v1) (without_bom v2) -> r1 = r2.
Proof. intros v1 v2 r1 r2 L1 L2 S W. apply (lossy_exact _ _ _ _ _ _ L1 L2 S W); apply one_read_well. Qed.
Print Assumptions C92_lossy_one_read.
(** U+34F, an unassigned character and a line end: in one read, with U+D U+A in one read,
    and with U+D U+A where the second read begins with the unassigned character. *)
Ltac by_reads := split; [reflexivity|]; split; [first [intros c [K|[]]; discriminate|intros c [K|[K|[]]]; discriminate]|]; split; [first [intros [K|[]]; discriminate|intros [K|[K|[]]]; discriminate]|]; split; [left; discriminate|];
  eexists; split; [exists [136; 136; 136]%nat; do 3 eexists; split; [vm_compute; reflexivity|]; split; [first [eexists []; do 2 eexists; reflexivity|eexists [_]; do 2 eexists; reflexivity|eexists [_; _]; do 2 eexists; reflexivity]|vm_compute; reflexivity]|vm_compute; reflexivity].
Example C92_lossy_exact_example : lossy_by [Chunk [0x61; 0x34F; 0x378; 0xA] End] [0x61; 0x34F; 0x378; 0xA] (Some [0x61; 0x34F; 0x378; 0xA]) /\
  lossy_by [Chunk [0x61; 0x34F; 0x378; 0xD; 0xA] End] [0x61; 0x34F; 0x378; 0xD; 0xA] (Some [0x61; 0x34F; 0x378; 0xA]) /\
  lossy_by [Chunk [0x61; 0x34F] Active; Chunk [0x378; 0xD; 0xA] End] [0x61; 0x34F; 0x378; 0xD; 0xA] (Some [0x61; 0x34F; 0x34F; 0x378; 0x34F; 0xA]) /\
  same_lines [0x61; 0x34F; 0x378; 0xA] [0x61; 0x34F; 0x378; 0xD; 0xA] /\ whole_ends [0x61; 0x34F; 0x378; 0xA] [0x61; 0x34F; 0x378; 0xD; 0xA] /\
  well_cut false false [Chunk [0x61; 0x34F; 0x378; 0xA] End].
Proof.
  split; [by_reads|]. split; [by_reads|]. split; [by_reads|].
  split; [do 3 (apply sl_char; [discriminate|discriminate|]); apply sl_crlf, sl_nil|].
  split; [|apply one_read_well]. left. intros (a & b & E). assert (K : In 0x5B [0x61; 0x34F; 0x378; 0xA]) by (rewrite E; apply in_or_app; right; right; now left).
  cbn in K. intuition discriminate.
Qed.
