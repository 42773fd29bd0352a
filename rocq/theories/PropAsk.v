(** When a reader reads from its stream (C90). *)
From Coq Require Import NArith List Bool.
From Verif Require Import Base Ucd Norm Chars TextUtils Utf8 Input SpecText SpecRead SpecCat SpecPrompt SpecAsk AskProps PropPrompt.
Import ListNotations.
Local Open Scope N_scope.

(** ** C90 *)
(** A call reads the stream at most once, whatever the state of the reader. *)
Theorem C90_at_most_once : forall i script b r cs j script', read i script b = (r, cs, j, script') -> script' = script \/ asked script script'.
Proof. exact asks_once. Qed.
Print Assumptions C90_at_most_once.
(** It does so only after delivering all of what it has already, but for the
    beginning of a line; [held] is what would follow if the stream ended. *)
Theorem C90_not_too_early : forall nel lsps used script sizes rs i held b r cs j script', holds nel lsps used script sizes rs i held ->
  read i script b = (r, cs, j, script') -> script <> [] -> script' <> script ->
  exists given more line, cs = given ++ more /\ held = given ++ line /\ (str_len given + 4 <= b)%nat /\ (line = [] \/ exists l, line = l ++ [0xA] /\ ~ In 0xA l).
Proof. exact asks_late. Qed.
Print Assumptions C90_not_too_early.
(** After a call that left four bytes of its buffer, the next one does. *)
Theorem C90_not_too_late : forall nel lsps script sizes rs i script1 b r cs j script2, reads (new_input nel lsps) script sizes = (rs, i, script1) -> left_room sizes rs ->
  (136 <= b)%nat -> read i script1 b = (r, cs, j, script2) -> asked script1 script2.
Proof. exact asks_next. Qed.
Print Assumptions C90_not_too_late.
(** All calls do, but for one in 133 delivered bytes. *)
Theorem C90_how_often : forall nel lsps script sizes rs j rest, legal_sizes sizes -> still_open script -> (length sizes <= length script)%nat ->
  reads (new_input nel lsps) script sizes = (rs, j, rest) ->
  exists used, script = used ++ rest /\ (length used <= length sizes)%nat /\ (133 * (length sizes - length used) <= str_len (delivered rs))%nat.
Proof. exact asks_often. Qed.
Print Assumptions C90_how_often.

(** 140 bytes in one read, a push, then an open end: the second call delivers
    the rest without reading, the third reads again. *)
Definition ex90 : list event := [Chunk (repeat 0x61 140 ++ [0xA]) Push; Chunk [0x62; 0xA; 0x63] Active; Chunk [0xA] Active; Chunk [] Active].
Example C90_example : legal_sizes [136; 136; 136]%nat /\ still_open ex90 /\
  match reads (new_input false false) ex90 [136; 136; 136]%nat with
  | (rs, _, rest) => map (fun r => length (snd r)) rs = [133; 8; 2]%nat /\ rest = [Chunk [0xA] Active; Chunk [] Active] /\ left_room [136; 136; 136]%nat rs
  end.
Proof.
  split; [repeat constructor|]. split; [intros cs K; repeat (destruct K as [K|K]; [discriminate K|]); exact K|].
  vm_compute. split; [reflexivity|]. split; [reflexivity|]. exists [136; 136]%nat, 136%nat. eexists [_; _]. do 3 eexists. split; [reflexivity|]. split; [reflexivity|]. repeat constructor.
Qed.
(** "b" with an accent is held back when the stream is read again *)
Example C90_held_example : holds false false ex76 [Chunk [0x63; 0xA] Active] [136; 136; 136]%nat ex76_rs ex76_j [0x62; 0x301; 0xA] /\
  match read ex76_j [Chunk [0x63; 0xA] Active] 136 with (_, cs, _, script') => cs = [0x62; 0x301; 0x63; 0xA] /\ script' = [] end.
Proof. split; [exact (proj1 C76_example)|]. vm_compute. auto. Qed.
