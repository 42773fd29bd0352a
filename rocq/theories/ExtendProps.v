(** Extending a TextString by several (C16). *)
From Coq Require Import NArith Arith List Bool Lia.
From Verif Require Import Base Ucd Norm Chars TextUtils Utf8 Input Output DocTable SpecText TextFacts PipelineFacts Utf8Facts IsoFacts SpecRead SpecConv SpecWrite Strings SpecString StringFacts
  EscapeCheck StringProps LossyProps JoinProps.
Import ListNotations.
Local Open Scope N_scope.

Lemma push_more : forall a b, exists more, push_text a b = a ++ more.
Proof. intros a [|c b]; cbn [push_text]; [exists []; now rewrite app_nil_r|]. destruct (_ && _); eauto. Qed.
Lemma extend_more : forall l a, exists more, extend a l = a ++ more.
Proof.
  induction l as [|b l IH]; intro a; [exists []; cbn; now rewrite app_nil_r|]. change (extend a (b :: l)) with (extend (push_text a b) l).
  destruct (IH (push_text a b)) as [m ->]. destruct (push_more a b) as [n ->]. exists (n ++ m). now rewrite app_assoc.
Qed.
Lemma joined_bad : forall a b more, string_ok a -> string_ok b -> joined a b -> ~ substring_ok ((a ++ b) ++ more).
Proof.
  intros a b more HA HB J S. apply (proj1 (app_ok a b HA HB)); [|exact J]. split; [|split].
  - apply substr_spec in S. apply substr_spec. exact (proj1 (substr_app _ _ S)).
  - destruct HA as (_ & SA & _). intros c t E. destruct a as [|x a]; [destruct J as (t0 & x0 & c0 & u0 & E0 & _); destruct t0; discriminate|]. injection E as -> _. exact (SA c a eq_refl).
  - destruct HB as (_ & _ & EB). intros t c E. destruct b as [|x b] using rev_ind; [destruct J as (t0 & x0 & c0 & u0 & _ & E0 & _); discriminate|]. rewrite app_assoc in E. apply app_inj_tail in E. destruct E as [_ ->]. exact (EB b c eq_refl).
Qed.
Theorem extend_exact : forall l a, string_ok a -> Forall string_ok l ->
  string_ok (extend a l) <-> forall l1 b l2, l = l1 ++ b :: l2 -> ~ joined (extend a l1) b.
Proof.
  induction l as [|b l IH]; intros a HA HL.
  { split; [|intros _; exact HA]. intros _ l1 b l2 E. destruct l1; discriminate. }
  inversion HL as [|? ? HB HL2]; subst. change (extend a (b :: l)) with (extend (push_text a b) l). split.
  - intros H l1 x l2 E. assert (NJ : ~ joined a b).
    { intro J. destruct (extend_more l (push_text a b)) as [m EM]. rewrite EM in H. assert (EP : push_text a b = a ++ b).
      { destruct b as [|c b]; [cbn; now rewrite app_nil_r|]. cbn [push_text]. destruct (N.eqb_spec c CGJ) as [->|]; [exfalso; exact (cgj_not_joined _ _ J b eq_refl)|reflexivity]. }
      rewrite EP in H. exact (joined_bad _ _ m HA HB J (proj1 H)). }
    destruct l1 as [|y l1]; [injection E as <- <-; exact NJ|]. injection E as <- E. change (extend a (b :: l1)) with (extend (push_text a b) l1).
    apply (proj1 (IH (push_text a b) (proj2 (push_text_ok a b HA HB) NJ) HL2) H l1 x l2 E).
  - intro H. pose proof (H [] b l eq_refl) as NJ. cbn in NJ. apply IH; [now apply push_text_ok|exact HL2|]. intros l1 x l2 E. apply (H (b :: l1) x l2). now rewrite E.
Qed.
