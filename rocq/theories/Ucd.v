(** Lookups of the unicode-normalization 0.1.23 crate (a dependency of /repo,
    not part of it; part of the trusted base, see DESIGN.md). *)
From Coq Require Import NArith List Bool.
From Verif Require Import Base UcdTables.
Import ListNotations.
Local Open Scope N_scope.

(** raw_ccc as a trie (all the tries are computed once). *)
Definition trie_ccc : trie N := Eval vm_compute in of_list raw_ccc.
(** raw_canon as a trie. *)
Definition trie_canon : trie (list N) := Eval vm_compute in of_list raw_canon.
(** raw_compat as a trie. *)
Definition trie_compat : trie (list N) := Eval vm_compute in of_list raw_compat.
(** raw_cjk as a trie. *)
Definition trie_cjk : trie (N * N) := Eval vm_compute in of_list raw_cjk.
(** [true] = No, [false] = Maybe. *)
Definition trie_qc : trie bool :=
  Eval vm_compute in of_list (map (fun c => (c, true)) raw_qc_no ++ map (fun c => (c, false)) raw_qc_maybe).

(** Composition pairs grouped by first character. *)
Definition add_pair (e : N * N * N) (t : trie (list (N * N))) : trie (list (N * N)) :=
  let '(a, b, r) := e in
  nset a ((b, r) :: match nfind a t with Some l => l | None => [] end) t.
(** raw_comp as a trie. *)
Definition trie_comp : trie (list (N * N)) := Eval vm_compute in fold_right add_pair TE raw_comp.

(** raw_not_public as a search tree. *)
Definition rtree_not_public : rtree := Eval vm_compute in rtree_of raw_not_public.

(** unicode_normalization::char::canonical_combining_class, used in
    /repo/internals/src/unicode.rs:77 *)
Definition ccc (c : N) : N := match nfind c trie_ccc with Some v => v | None => 0 end.

(** unicode_normalization::char::is_public_assigned, used in
    /repo/internals/src/isolate_unassigned.rs:39, /repo/src/text_input.rs:260 and
    /repo/src/text_output.rs:301 *)
Definition is_public_assigned (c : N) : bool := negb (rmem c rtree_not_public).

(** normalize.rs: Hangul constants. *)
Definition S_BASE : N := 0xAC00.
Definition L_BASE : N := 0x1100.
Definition V_BASE : N := 0x1161.
Definition T_BASE : N := 0x11A7.
Definition L_COUNT : N := 19.
Definition V_COUNT : N := 21.
Definition T_COUNT : N := 28.
Definition N_COUNT : N := 588.
Definition S_COUNT : N := 11172.

(** normalize.rs: the range of the Hangul syllables *)
Definition is_hangul_syllable (c : N) : bool := (S_BASE <=? c) && (c <? S_BASE + S_COUNT).

(** normalize.rs: decompose_hangul *)
Definition decompose_hangul (s : N) : list N :=
  let i := s - S_BASE in
  let l := L_BASE + i / N_COUNT in
  let v := V_BASE + (i mod N_COUNT) / T_COUNT in
  let t := i mod T_COUNT in
  if t =? 0 then [l; v] else [l; v; T_BASE + t].

(** normalize.rs: decompose with the canonical table: ASCII, Hangul, table, itself. *)
Definition cd (c : N) : list N :=
  if c <=? 0x7F then [c]
  else if is_hangul_syllable c then decompose_hangul c
  else match nfind c trie_canon with Some d => d | None => [c] end.

(** stream_safe.rs: the decomposition inspected by classify_nonstarters:
    compatibility_fully_decomposed or else canonical_fully_decomposed. *)
Definition kd (c : N) : list N :=
  if c <=? 0x7F then [c]
  else if is_hangul_syllable c then decompose_hangul c
  else match nfind c trie_compat with
       | Some d => d
       | None => match nfind c trie_canon with Some d => d | None => [c] end
       end.

(** normalize.rs: compose_hangul *)
Definition compose_hangul (a b : N) : option N :=
  if in_range a L_BASE (L_BASE + L_COUNT - 1) && in_range b V_BASE (V_BASE + V_COUNT - 1) then
    Some (S_BASE + (a - L_BASE) * N_COUNT + (b - V_BASE) * T_COUNT)
  else if in_range a S_BASE (S_BASE + S_COUNT - 1) && in_range b (T_BASE + 1) (T_BASE + T_COUNT - 1)
          && ((a - S_BASE) mod T_COUNT =? 0) then
    Some (a + (b - T_BASE))
  else None.

(** The composition with a second character. *)
Fixpoint assoc (b : N) (l : list (N * N)) : option N :=
  match l with
  | [] => None
  | (x, r) :: t => if x =? b then Some r else assoc b t
  end.

(** lookups.rs: composition_table *)
Definition compose_table (a b : N) : option N :=
  match nfind a trie_comp with Some l => assoc b l | None => None end.

(** normalize.rs: compose *)
Definition compose (a b : N) : option N :=
  match compose_hangul a b with Some r => Some r | None => compose_table a b end.

(** quick_check.rs: IsNormalized *)
Inductive is_normalized := Yes | No | Maybe.

(** tables.rs: qc_nfc *)
Definition qc_nfc (c : N) : is_normalized :=
  match nfind c trie_qc with None => Yes | Some true => No | Some false => Maybe end.

(** lookups.rs: cjk_compat_variants_fully_decomposed *)
Definition cjk_variant (c : N) : option (N * N) := nfind c trie_cjk.
