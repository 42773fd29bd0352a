(** C36: exactly when copy_text_using_status copies everything. *)
From Coq Require Import NArith Arith List Bool Lia.
From Verif Require Import Base Ucd Norm Chars TextUtils SpecText TextFacts Utf8 Input Output SpecRead SpecWrite Copy SpecStatus StatusExact.
Import ListNotations.
Local Open Scope N_scope.

(** Without failures: everything is copied, and the writer can be closed, if at each push
    that the reader reports the text just read ends well and the next text read begins
    well; otherwise the writer refuses. *)
Theorem C36_using_status_exact : forall nel lsps sc blen cr p, no_fail sc -> (136 <= blen)%nat ->
  exists k rs j rest, reads (new_input nel lsps) sc (repeat blen k) = (rs, j, rest) /\ reached_end rs /\
  exists n, forall fuel, (n <= fuel)%nat -> exists res j' rest' w,
    copy_status fuel (new_input nel lsps) sc (new_writer cr false (mksink p [] false)) blen 0 = Some (res, j', rest', w) /\
    (push_safe rs -> res = CopyOk (str_len (received rs)) /\ j' = j /\ rest' = rest /\ emitted (inner w) = p ++ as_sent cr (received rs) /\
      exists w', close w = (None, w') /\ emitted (inner w') = emitted (inner w)) /\
    (~ push_safe rs -> exists e, res = CopyWrite e).
Proof. exact status_exact. Qed.
Print Assumptions C36_using_status_exact.
(** A push inside a line: "a" LF "b" is read as "a" LF at the push, then "bc" LF, and all is
    copied. *)
Example C36_using_status_exact_example : let sc := [Chunk [0x61; 0xA; 0x62] Push; Chunk [0x63; 0xA] End] in no_fail sc /\
  exists rs j rest, reads (new_input false false) sc (repeat 136%nat 2) = (rs, j, rest) /\ reached_end rs /\ push_safe rs /\ received rs = [0x61; 0xA; 0x62; 0x63; 0xA] /\
  exists j' rest' w, copy_status 9 (new_input false false) sc (new_writer false false (mksink [] [] false)) 136 0 = Some (CopyOk 5, j', rest', w) /\ emitted (inner w) = received rs.
Proof.
  cbv zeta. split; [intros [H|[H|[]]]; discriminate|]. do 3 eexists. split; [vm_compute; reflexivity|]. split; [eexists [_]; do 2 eexists; reflexivity|]. split.
  { intros a n cs b E. destruct a as [|x [|y [|z a]]]; try discriminate E. injection E as _ <- <-. split.
    - apply ends_ok_iff. vm_compute. reflexivity.
    - intros r c t E. injection E as _ <- _. apply starts_ok_iff. vm_compute. reflexivity. }
  split; [reflexivity|]. do 3 eexists. split; [vm_compute; reflexivity|reflexivity].
Qed.
