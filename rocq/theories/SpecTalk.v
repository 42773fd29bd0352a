(** Specification of conversations: the history of one end. *)
From Coq Require Import NArith List Bool.
From Verif Require Import Base Chars TextUtils SpecText Input Output SpecRead SpecWrite Duplex SpecDuplex Talk.
Import ListNotations.
Local Open Scope N_scope.

(** The operations at one end, and their results. *)
Definition ops_at (w : bool) (os : list (bool * top)) : list dop :=
  flat_map (fun '(v, t) => if Bool.eqb v w then [match t with TRead n _ => DRead n | TOut o => DOut o end] else []) os.
Definition results_at (w : bool) (rs : list (bool * dresult)) : list dresult :=
  flat_map (fun '(v, r) => if Bool.eqb v w then [r] else []) rs.
(** The text it received. *)
Definition heard (w : bool) (rs : list (bool * dresult)) : list N := received (read_results (results_at w rs)).
(** The connection never failed, and never reported a push, when this end read. *)
Definition calm_line (w : bool) (os : list (bool * top)) : Prop :=
  Forall (fun '(v, t) => v = w -> match t with TRead _ None => False | TRead _ (Some (_, Push)) => False | _ => True end) os.
(** No write of this end was refused. *)
Definition all_written (w : bool) (rs : list (bool * dresult)) : Prop := Forall (fun r => match r with DWrote (Some _) => False | _ => True end) (results_at w rs).
(** The text with its last line ended. *)
Definition ended_text (t : list N) : list N :=
  match last_opt t with Some c => if c =? 0xA then t else t ++ [0xA] | None => [] end.

(** The settings of both ends, and the ends after a conversation. *)
Definition at_start (nel lsps cr an : bool -> bool) (o : bool -> list wout) (w : bool) : side := new_side (nel w) (lsps w) (cr w) (an w) (o w).
Definition end_of (w : bool) (e : side * side) : side := if w then fst e else snd e.
(** Nothing of what the other end has sent is still under way to this end. *)
Definition all_arrived (w : bool) (e : side * side) : Prop := taken (end_of w e) = length (emitted (inner (dout (here (end_of (negb w) e))))).
(** Once it has called close, this end writes nothing. *)
Definition no_writes (w : bool) (os : list (bool * top)) : Prop :=
  Forall (fun '(v, t) => v = w -> match t with TOut o => is_write o = false | _ => True end) os.
Definition closes_last (w : bool) (os : list (bool * top)) : Prop := forall a b, os = a ++ (w, TOut OpClose) :: b -> no_writes w b.
(** One of its calls of close has succeeded. *)
Definition has_closed (w : bool) (os : list (bool * top)) (rs : list (bool * dresult)) : Prop :=
  exists i, nth_error os i = Some (w, TOut OpClose) /\ nth_error rs i = Some (w, DWrote None).
(** [k] reads at one end, into buffers of [b] bytes; up to [m] characters are handed out. *)
Definition listen (w : bool) (b m k : nat) : list (bool * top) := repeat (w, TRead b (Some (m, Active))) k.

(** The connection never failed when this end read. *)
Definition no_failures (w : bool) (os : list (bool * top)) : Prop :=
  Forall (fun '(v, t) => v = w -> match t with TRead _ None => False | _ => True end) os.
(** It reported pushes to this end only after line ends. *)
Definition pushes_after_lines (nel lsps cr an : bool -> bool) (o : bool -> list wout) (w : bool) (os : list (bool * top)) : Prop :=
  forall a b n c, os = a ++ (w, TRead b (Some (n, Push))) :: c ->
  let e := snd (talk (at_start nel lsps cr an o true) (at_start nel lsps cr an o false) a) in
  line_terminated (firstn (taken (end_of w e) + n) (emitted (inner (dout (here (end_of (negb w) e)))))).
(** Every line of a text begins with a starter. *)
Definition lines_begin (t : list N) : Prop := starts_ok t /\ forall l u, t = l ++ [0xA] ++ u -> starts_ok u.
