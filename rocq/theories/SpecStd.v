(** Specification of writing bytes, and of what std::io::copy does to the texts read. *)
From Coq Require Import NArith List Bool.
From Verif Require Import Base Ucd Chars TextUtils Utf8 Input Output.
Import ListNotations.
Local Open Scope N_scope.

(** What write_all is to do: valid UTF-8 is written as a string; otherwise the longest
    valid part is written, if there is any, and then the writer fails. *)
Inductive wrote (w : writer) : list N -> wresult -> writer -> Prop :=
| wrote_nothing : wrote w [] None w
| wrote_text : forall s r w', scalars s -> s <> [] -> write_str w s = (r, w') -> wrote w (encode_all s) r w'
| wrote_part : forall s rest e w', scalars s -> s <> [] -> rest <> [] -> decode1 rest = None ->
    write_str w s = (Some e, w') -> wrote w (encode_all s ++ rest) (Some e) w'
| wrote_bad : forall s rest w', scalars s -> s <> [] -> rest <> [] -> decode1 rest = None ->
    write_str w s = (None, w') -> wrote w (encode_all s ++ rest) (Some EWUtf8) (prepare_failure w')
| wrote_first_bad : forall rest, rest <> [] -> decode1 rest = None -> wrote w rest (Some EWUtf8) (prepare_failure w).

(** Several buffers, one after the other, up to the first failure. *)
Inductive wrote_each (w : writer) : list (list N) -> wresult -> writer -> Prop :=
| each_done : wrote_each w [] None w
| each_next : forall b t w1 r w', wrote w b None w1 -> wrote_each w1 t r w' -> wrote_each w (b :: t) r w'
| each_stop : forall b t e w', wrote w b (Some e) w' -> wrote_each w (b :: t) (Some e) w'.

(** A text that is converted again: if its first character is unassigned, U+34F is added
    before it, and after it if there is none yet. *)
Definition followed (u : list N) : list N := match u with 0x34F :: _ => u | _ => 0x34F :: u end.
Definition recopied (t : list N) : list N :=
  match t with
  | [] => []
  | c :: u => if is_assigned c then t
              else 0x34F :: c :: followed u
  end.
(** The first character is assigned. *)
Definition begins_assigned (t : list N) : Prop := forall c u, t = c :: u -> is_assigned c = true.
(** The texts of the successful reads. *)
Definition texts_read (rs : list (read_result * list N)) : list (list N) :=
  flat_map (fun r => match fst r with ROk _ _ => [snd r] | _ => [] end) rs.
