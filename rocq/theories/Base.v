(** Generic helpers shared by the model files: tries, range tables, small list
    functions.  Nothing here models a specific piece of /repo. *)
From Coq Require Import NArith List Bool.
Import ListNotations.
Local Open Scope N_scope.

(** Binary tries keyed by [positive]; used to make the lookups in the Unicode
    tables computable in reasonable time. *)
Inductive trie (A : Type) : Type :=
| TE : trie A
| TN : trie A -> option A -> trie A -> trie A.
Arguments TE {A}.
Arguments TN {A} _ _ _.

(** The value at a key. *)
Fixpoint tfind {A} (p : positive) (t : trie A) : option A :=
  match t with
  | TE => None
  | TN l o r =>
      match p with
      | xH => o
      | xO p' => tfind p' l
      | xI p' => tfind p' r
      end
  end.

(** Setting the value at a key. *)
Fixpoint tset {A} (p : positive) (v : A) (t : trie A) : trie A :=
  match p, t with
  | xH, TE => TN TE (Some v) TE
  | xH, TN l _ r => TN l (Some v) r
  | xO p', TE => TN (tset p' v TE) None TE
  | xO p', TN l o r => TN (tset p' v l) o r
  | xI p', TE => TN TE None (tset p' v TE)
  | xI p', TN l o r => TN l o (tset p' v r)
  end.

(** All bindings of a trie satisfy [P]; [f] rebuilds the key. *)
Fixpoint tall_aux {A} (P : positive -> A -> bool) (f : positive -> positive) (t : trie A) : bool :=
  match t with
  | TE => true
  | TN l o r =>
      (match o with Some v => P (f xH) v | None => true end)
      && (tall_aux P (fun p => f (xO p)) l && tall_aux P (fun p => f (xI p)) r)
  end.

(** Lookup of a code point.  Code point 0 is in none of the tables. *)
Definition nfind {A} (c : N) (t : trie A) : option A :=
  match c with N0 => None | Npos p => tfind p t end.

(** The same for setting. *)
Definition nset {A} (c : N) (v : A) (t : trie A) : trie A :=
  match c with N0 => t | Npos p => tset p v t end.

(** All bindings, with the code point as key. *)
Definition tall {A} (P : N -> A -> bool) (t : trie A) : bool :=
  tall_aux (fun p v => P (Npos p) v) (fun p => p) t.

(** A trie from a list; earlier pairs win. *)
Definition of_list {A} (l : list (N * A)) : trie A :=
  fold_right (fun kv t => nset (fst kv) (snd kv) t) TE l.

Lemma tall_aux_spec : forall A (P : positive -> A -> bool) t f p v,
  tall_aux P f t = true -> tfind p t = Some v -> P (f p) v = true.
Proof.
  induction t as [|l IHl o r IHr]; intros f p v H F; [destruct p; discriminate|].
  cbn in H. apply andb_prop in H. destruct H as [H0 H]. apply andb_prop in H. destruct H as [H1 H2].
  destruct p as [p|p|]; cbn in F.
  - exact (IHr (fun q => f (xI q)) p v H2 F).
  - exact (IHl (fun q => f (xO q)) p v H1 F).
  - subst o. exact H0.
Qed.

Lemma tall_spec : forall A (P : N -> A -> bool) t c v,
  tall P t = true -> nfind c t = Some v -> P c v = true.
Proof.
  intros A P t [|p] v H F; [discriminate|].
  exact (tall_aux_spec _ (fun p v => P (Npos p) v) t (fun p => p) p v H F).
Qed.

(** Membership in an inclusive range and in a list of ranges (Rust
    [matches!(c, 'a'..='b' | ...)]). *)
Definition in_range (c lo hi : N) : bool := (lo <=? c) && (c <=? hi).

(** A list of inclusive ranges. *)
Definition in_ranges (c : N) (l : list (N * N)) : bool :=
  existsb (fun r => in_range c (fst r) (snd r)) l.

(** Binary search tree over disjoint sorted ranges, for the larger tables of
    the dependency. *)
Inductive rtree : Type :=
| RE : rtree
| RN : rtree -> N -> N -> rtree -> rtree.

(** Membership in such a tree. *)
Fixpoint rmem (c : N) (t : rtree) : bool :=
  match t with
  | RE => false
  | RN l lo hi r =>
      if c <? lo then rmem c l else if c <=? hi then true else rmem c r
  end.

(** Balanced tree from a sorted list of [n] ranges. *)
Fixpoint rbuild (fuel n : nat) (l : list (N * N)) : rtree * list (N * N) :=
  match fuel with
  | O => (RE, l)
  | S f =>
      match n with
      | O => (RE, l)
      | _ =>
          let half := Nat.div2 n in
          let '(lt, l1) := rbuild f half l in
          match l1 with
          | [] => (lt, [])
          | (lo, hi) :: l2 =>
              let '(rt, l3) := rbuild f (n - 1 - half)%nat l2 in
              (RN lt lo hi rt, l3)
          end
      end
  end.

(** The tree of a sorted list of ranges. *)
Definition rtree_of (l : list (N * N)) : rtree := fst (rbuild 20 (length l) l).

(** In-order contents, to state that the tree holds exactly the table. *)
Fixpoint rlist (t : rtree) : list (N * N) :=
  match t with
  | RE => []
  | RN l lo hi r => rlist l ++ (lo, hi) :: rlist r
  end.

(** Unicode scalar values ([char]). *)
Definition is_scalar (c : N) : bool :=
  (c <=? 0x10FFFF) && negb (in_range c 0xD800 0xDFFF).

(** Strings of scalar values. *)
Definition scalars (s : list N) : Prop := Forall (fun c => is_scalar c = true) s.

(** First and last element. *)
Definition head_opt {A} (l : list A) : option A :=
  match l with [] => None | x :: _ => Some x end.

(** Last element. *)
Fixpoint last_opt {A} (l : list A) : option A :=
  match l with [] => None | [x] => Some x | _ :: t => last_opt t end.

(** [Option::map_or(true, P)]. *)
Definition opt_all {A} (P : A -> bool) (o : option A) : bool :=
  match o with None => true | Some x => P x end.

(** Decidable equality on strings. *)
Fixpoint list_eqb (a b : list N) : bool :=
  match a, b with
  | [], [] => true
  | x :: a', y :: b' => (x =? y) && list_eqb a' b'
  | _, _ => false
  end.

Lemma list_eqb_eq : forall a b, list_eqb a b = true <-> a = b.
Proof.
  induction a as [|x a IH]; destruct b as [|y b]; cbn; split; intro H; try discriminate; auto.
  - apply andb_prop in H. destruct H as [H1 H2]. apply N.eqb_eq in H1. apply IH in H2. congruence.
  - injection H as -> ->. rewrite N.eqb_refl. cbn. now apply IH.
Qed.

Lemma list_eqb_refl : forall a, list_eqb a a = true.
Proof. intro a. now apply list_eqb_eq. Qed.
