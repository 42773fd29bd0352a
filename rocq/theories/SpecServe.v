(** Vocabulary for line servers. *)
From Coq Require Import NArith List Bool.
From Verif Require Import Base SpecText Output Duplex DuplexBuf SpecDuplexBuf Serve.
Import ListNotations.
Local Open Scope N_scope.

(** A text of complete lines. *)
Definition complete_lines (s : list N) : Prop := string_ok s /\ exists u, s = u ++ [0xA].
(** The conversation in which these lines were read and answered. *)
Definition dialogue (answer : list N -> list N) (ls : list (list N)) (e : served) : list bop :=
  flat_map (fun l => [BLine; BOut (OpWriteText (answer l))]) ls ++ match e with WriteFailed => [] | _ => [BLine] end.
(** What was read and what the writes returned in it: every line was read and every
    answer written without failure, up to the end. *)
Definition dialogue_results (ls : list (list N)) (e : served) (rs : list bresult) : Prop :=
  match e with
  | ServedAll => got rs = map (fun l => (l, true)) ls ++ [([], true)] /\ wrote rs = map (fun _ => DWrote None) ls
  | ReadFailed => (exists part, got rs = map (fun l => (l, true)) ls ++ [(part, false)]) /\ wrote rs = map (fun _ => DWrote None) ls
  | WriteFailed => got rs = map (fun l => (l, true)) ls /\ exists before last err, ls = before ++ [last] /\ wrote rs = map (fun _ => DWrote None) before ++ [DWrote (Some err)]
  end.
