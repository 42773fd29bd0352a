(** The buffer sizes asked for. *)
From Coq Require Import NArith Arith List Bool Lia.
From Verif Require Import Base Ucd Norm Chars TextUtils Utf8 Input Output Duplex SpecText SpecRead ReadSession SpecWrite Copy CopyProps Sizes.
Import ListNotations.

Lemma nbs_136 : NORMALIZATION_BUFFER_SIZE = 136%nat.
Proof. reflexivity. Qed.
Theorem refused_iff : forall i script blen, fst (fst (fst (read i script blen))) = RInvalid <-> (blen < 136)%nat.
Proof.
  intros i script blen. unfold read. rewrite nbs_136. destruct (Nat.ltb_spec blen 136) as [L|L].
  - split; [intros _; exact L|reflexivity].
  - split; [|intro K; lia]. intro H. exfalso. revert H. destruct (drain _ _ _) as [[cs1 ex] i1].
    repeat match goal with |- context [let '(_, _) := ?x in _] => destruct x | |- context [match ?x with _ => _ end] => destruct x end; cbn; discriminate.
Qed.
Theorem refused_nothing : forall i script blen, (blen < 136)%nat -> read i script blen = (RInvalid, [], i, script).
Proof. intros i script blen L. unfold read. rewrite nbs_136. apply Nat.ltb_lt in L. now rewrite L. Qed.
Theorem minimum_accepted : forall i script m blen, (minimum_buffer_size m <= blen)%nat -> fst (fst (fst (read i script blen))) <> RInvalid.
Proof. intros i script m blen L E. apply refused_iff in E. unfold minimum_buffer_size in L. rewrite nbs_136 in L. lia. Qed.
Lemma tower_eq : forall n m, tower (S n) m = Nat.max 136 m.
Proof. induction n as [|n IH]; intro m; [reflexivity|]. cbn [tower] in *. unfold minimum_buffer_size in *. rewrite nbs_136 in *. rewrite IH. lia. Qed.
Theorem tower_fits : forall n m, (tower n m <= below)%nat <-> (m <= below)%nat.
Proof. intros [|n] m; [reflexivity|]. rewrite tower_eq. unfold below. lia. Qed.
Theorem copy_buffer_accepted : forall m s ws, (136 <= copy_buffer (reader_suggested m s) (writer_suggested ws))%nat /\
  (136 <= duplexer_suggested m s)%nat /\ (m <= reader_suggested m s)%nat /\ (s <= reader_suggested m s)%nat /\
  (reader_suggested m s <= copy_buffer (reader_suggested m s) (writer_suggested ws))%nat /\ (ws <= copy_buffer (reader_suggested m s) (writer_suggested ws))%nat /\
  (m <= duplexer_suggested m s)%nat /\ (s <= duplexer_suggested m s)%nat.
Proof. intros m s ws. unfold copy_buffer, duplexer_suggested, reader_suggested, writer_suggested, minimum_buffer_size. rewrite nbs_136. lia. Qed.
