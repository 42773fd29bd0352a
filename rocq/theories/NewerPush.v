(** Text of later versions of Unicode on streams with pushes. *)
From Coq Require Import NArith Arith List Bool Lia ZifyBool ZifyNat ZifyN.
From Verif Require Import Base Ucd Norm Chars TextUtils Utf8 Input Strings UcdFacts NormFacts CharFacts SpecText SpecRead SpecString SpecEscape SpecConv SpecPush SpecAscii TextFacts PipelineFacts IsoFacts StringFacts StringProps ReadFacts ReadSession ReadChunk ReadPieces ReadProps LossyProps CanonProps AsciiProps PushProps CatProps LayerPush OptionProps Future FutureProps NewerProps.
Import ListNotations.
Local Open Scope N_scope.
Arguments N.add : simpl never.
Arguments N.leb : simpl never.
Arguments N.ltb : simpl never.
Arguments N.eqb : simpl never.
Local Opaque pipeline.

Lemma inserts_refl : forall s, inserts CGJ s s.
Proof. induction s; constructor; auto. Qed.
Lemma inserts_guard : forall s, inserts CGJ s (guard_end (guard_start s)).
Proof.
  assert (A : forall s, inserts CGJ s (guard_start s)) by (intros [|c s]; [constructor|]; cbn; destruct (is_basic_text_start c); [|apply ins_add]; apply inserts_refl).
  intro s. unfold guard_end. destruct (last_opt (guard_start s)) as [c|]; [|apply A]. destruct (is_basic_text_end c); [apply A|].
  rewrite <- (app_nil_r s) at 1. apply inserts_app; [apply A|]. repeat constructor.
Qed.
Lemma inserts_trans : forall a b c, inserts CGJ b c -> inserts CGJ a b -> inserts CGJ a c.
Proof.
  intros a b c H. revert a. induction H as [|x b c H IH|b c H IH]; intros a K; [exact K| |].
  - inversion K; subst; [apply ins_keep|apply ins_add]; auto.
  - now apply ins_add, IH.
Qed.
Lemma inserts_runs : forall s t, inserts CGJ s t -> runs_normal s -> runs_normal t.
Proof.
  intros s t I R a w b E A. apply normal_parts. intros x y z -> AY NY. assert (E' : t = (a ++ x) ++ y ++ z ++ b) by now rewrite E, <- !app_assoc.
  destruct (inserts_part _ _ I _ _ _ E' NY) as (a' & b' & ES). exact (R _ _ _ ES AY).
Qed.
Lemma clean_no_bom : forall s, all_clean s -> forall u, s <> BOM :: u.
Proof. intros s C u ->. inversion C as [|? ? K]; subst. vm_compute in K. discriminate. Qed.
Theorem runs_pushed : forall nel lsps script sizes out j rest, reads (new_input nel lsps) script sizes = (out, j, rest) -> reached_end out ->
  all_clean (stream_text script) -> runs_normal (stream_text script) -> inserts CGJ (stream_text script ++ missing_line_end (stream_text script)) (delivered out).
Proof.
  intros nel lsps script sizes out j rest H E C R. set (t := stream_text script) in *. pose proof (clean_no_bom t C) as NB.
  set (ss := segments script). set (rss := map (map (fun c : N => [c])) ss).
  assert (EC : concat ss = t) by (unfold ss; now rewrite segments_concat).
  assert (FC : Forall (fun s => all_clean s) ss) by (apply Forall_concat; now rewrite EC).
  assert (SR : segments_read script = ss).
  { unfold segments_read. fold ss. destruct ss as [|s r]; [reflexivity|]. f_equal. destruct s as [|c s]; [reflexivity|]. cbn. change 0xFEFF with BOM.
    destruct (c =? BOM) eqn:EB; [|reflexivity]. apply N.eqb_eq in EB. subst c. elim (NB (s ++ concat r)). now rewrite <- EC. }
  assert (F : Forall2 (replaced true (char_rep nel lsps)) (segments_read script) rss).
  { rewrite SR. unfold rss. clear - FC. induction FC as [|s r HS FC IH]; cbn; constructor; auto. now apply clean_replaced_any. }
  set (g := concat (map (fun s => guard_end (guard_start s)) ss)).
  assert (T : pushed_text rss = g ++ missing_line_end t).
  { unfold pushed_text, rss. rewrite <- concat_map, final_singles, EC. f_equal. unfold g. f_equal. rewrite map_map. apply map_ext. intro s. unfold SpecPush.guarded. now rewrite concat_singles. }
  assert (IG : inserts CGJ t g).
  { rewrite <- EC. unfold g. clear. induction ss as [|s r IH]; [constructor|]. cbn [concat map]. apply inserts_app; [apply inserts_guard|exact IH]. }
  assert (IP : inserts CGJ (t ++ missing_line_end t) (pushed_text rss)) by (rewrite T; apply inserts_app; [exact IG|apply inserts_refl]).
  assert (LM : all_clean (missing_line_end t) /\ runs_normal (t ++ missing_line_end t)).
  { unfold missing_line_end. destruct (last_opt t) as [c|]; [destruct (c =? _)|]; rewrite ?app_nil_r; try (split; [constructor|exact R]). split; [repeat constructor|now apply runs_line]. }
  destruct LM as [LM RM].
  assert (CP : all_clean (pushed_text rss)).
  { apply Forall_forall. intros c K. destruct (inserts_in _ _ IP c K) as [->|K']; [exact clean_CGJ|]. assert (Q : all_clean (t ++ missing_line_end t)) by (apply Forall_app; auto). rewrite Forall_forall in Q. auto. }
  assert (BV : bom_visible script) by (left; exact NB).
  destruct (session_pushed_pieces _ _ _ _ _ _ _ _ H E BV F) as (ps & EP & _ & ->). apply (inserts_trans _ (pushed_text rss)); [|exact IP].
  pose proof (inserts_runs _ _ IP RM) as RP. rewrite <- EP in RP, CP |- *. clear - RP CP. induction ps as [|p ps IH]; [constructor|]. cbn [concat map] in *. apply inserts_app.
  - rewrite runs_isolated; [apply iso_only_adds|now apply Forall_app in CP|]. exact (runs_part [] p (concat ps) RP).
  - apply IH; [now apply Forall_app in CP|]. apply (runs_part p (concat ps) []). now rewrite app_nil_r.
Qed.
Theorem newer_pushed : forall t nel lsps script sizes rs j rest, later t -> parts_normal t -> normal_in t (stream_text script) -> Forall allowed (stream_text script) -> line_terminated (stream_text script) ->
  reads (new_input nel lsps) script sizes = (rs, j, rest) -> reached_end rs -> inserts 0x34F (stream_text script) (delivered rs).
Proof.
  intros t nel lsps script sizes rs j rest L P N A LT R E. pose proof (runs_pushed _ _ _ _ _ _ _ R E (proj1 (Forall_allowed_clean _) A) (newer_runs t L _ P N)) as H.
  now rewrite valid_missing, app_nil_r in H.
Qed.
