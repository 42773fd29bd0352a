(** Exact conditions on where reads are cut: C05, C24, C54, C57. *)
From Coq Require Import NArith List Bool Lia.
From Verif Require Import Base Ucd Norm Chars TextUtils SpecText TextFacts PipelineFacts IsoFacts Utf8 Input Output SpecRead SpecWrite Strings SpecString Fuzz SpecMore SpecCut StringProps FuzzProps EscapeCheck ReadProps LossyProps CutProps.
Import ListNotations.
Local Open Scope N_scope.

(** ** C05 *)
(** Text without table sequences is delivered as if it had arrived in one read
    exactly if no read is cut between U+34F and an unassigned character; if one
    is, more is delivered. *)
Theorem C05_cut_exact : forall script sizes rs j rest sizes1 rs1 j1 rest1, no_push script -> strict_accepts (stream_text script) ->
  reads (new_input false false) script sizes = (rs, j, rest) -> reached_end rs ->
  reads (new_input false false) [Chunk (stream_text script) End] sizes1 = (rs1, j1, rest1) -> reached_end rs1 ->
  (delivered rs = delivered rs1 <-> ~ badly_cut script) /\ (badly_cut script -> (length (delivered rs1) < length (delivered rs))%nat).
Proof. exact cut_exact. Qed.
Print Assumptions C05_cut_exact.

(** ** C57 *)
(** A session delivers its input unchanged exactly if that is valid text, empty
    or ending with U+A, with U+34F before unassigned characters, and no read is
    cut after such a U+34F. *)
Theorem C57_kept_cut_exact : forall script sizes rs j rest, no_push script -> reads (new_input false false) script sizes = (rs, j, rest) -> reached_end rs ->
  delivered rs = stream_text script <->
  string_ok (stream_text script) /\ line_terminated (stream_text script) /\ preceded (stream_text script) /\ ~ badly_cut script.
Proof. exact kept_cut_exact. Qed.
Print Assumptions C57_kept_cut_exact.

(** ** C24 *)
(** from_text_lossy keeps valid text exactly if its unassigned characters are
    preceded by U+34F and no read is cut after such a U+34F. *)
Theorem C24_cut_exact : forall script sizes rs j rest, no_push script -> no_fail script -> string_ok (stream_text script) ->
  reads (new_input false false) script sizes = (rs, j, rest) -> reached_end rs ->
  lossy_result (stream_text script) (received rs) = Some (stream_text script) <-> preceded (stream_text script) /\ ~ badly_cut script.
Proof. exact lossy_cut_iff. Qed.
Print Assumptions C24_cut_exact.
(** In particular it keeps isolated text that arrives in one read. *)
Theorem C24_whole : forall v sizes rs j rest, string_ok v -> isolated v ->
  reads (new_input false false) [Chunk v Active] sizes = (rs, j, rest) -> reached_end rs -> lossy_result v (received rs) = Some v.
Proof.
  intros v sizes rs j rest OK I R E. pose proof (C24_cut_exact [Chunk v Active] sizes rs j rest) as H. cbn [stream_text] in H. rewrite app_nil_r in H.
  apply H; auto.
  - intros cs [K|[]]. discriminate.
  - intros [K|[]]. discriminate.
  - split; [|apply whole_then_end; now left]. intros a c b E2 U. apply (I a c b E2 U).
Qed.
Print Assumptions C24_whole.
(** ... but not all text with U+34F before unassigned characters. *)
Theorem C24_whole_preceded_refuted : exists v sizes rs j rest, string_ok v /\ preceded v /\
  reads (new_input false false) [Chunk v Active] sizes = (rs, j, rest) /\ reached_end rs /\ lossy_result v (received rs) <> Some v.
Proof.
  exists [0x61; 0x34F; 0x378], [136; 136]%nat. do 3 eexists. split; [apply basic_text_spec; vm_compute; reflexivity|].
  split; [apply prec_ok_spec; vm_compute; reflexivity|].
  split; [vm_compute; reflexivity|]. split; [eexists [_]; do 2 eexists; reflexivity|]. vm_compute. discriminate.
Qed.
Print Assumptions C24_whole_preceded_refuted.

(** ** C54 *)
(** An assertion of the fuzz target fails exactly if the writer accepts the bytes
    and a read is cut between U+34F and an unassigned character. *)
Theorem C54_cut_exact : forall bs script sizes rs j rest, stream_text script = utf8_lossy bs -> no_push script -> no_fail script -> bom_visible script ->
  reads (new_input false false) script sizes = (rs, j, rest) -> reached_end rs ->
  fuzz bs (received rs) = None <-> write_and_close bs = None \/ ~ badly_cut script.
Proof. exact fuzz_cut_exact. Qed.
Print Assumptions C54_cut_exact.

(** Cut before the unassigned character, or behind it within the line: bad.  Cut
    before U+34F, or after the line: not. *)
Example badly_cut_example : badly_cut [Chunk [0x61; 0x34F] Active; Chunk [0x378; 0x62; 0xA] End] /\ badly_cut [Chunk [0x61; 0x34F; 0x378] Active; Fail; Chunk [0x62; 0xA] End] /\
  ~ badly_cut [Chunk [0x61] Active; Chunk [0x34F; 0x378; 0x62; 0xA] End] /\ ~ badly_cut [Chunk [0x61; 0x34F; 0x378; 0x62; 0xA] Active; Chunk [0x62] End] /\
  strict_accepts [0x61; 0x34F; 0x378; 0x62; 0xA] /\ string_ok [0x61; 0x34F; 0x378; 0x62; 0xA] /\ ~ isolated [0x61; 0x34F; 0x378; 0x62; 0xA].
Proof.
  split; [|split; [|split; [|split; [|split; [|split]]]]].
  - exists [[0x61; 0x34F]], [0x378; 0x62; 0xA], []. split; [reflexivity|]. apply cutb_spec. vm_compute. reflexivity.
  - exists [[0x61; 0x34F; 0x378]], [0x62; 0xA], []. split; [reflexivity|]. apply cutb_spec. vm_compute. reflexivity.
  - intros (x & y & z & E & B). apply cutb_spec in B. destruct x as [|x0 [|x1 [|x2 x]]]; cbn in E; try discriminate; injection E as; subst; try (vm_compute in B; discriminate).
  - intros (x & y & z & E & B). apply cutb_spec in B. destruct x as [|x0 [|x1 [|x2 x]]]; cbn in E; try discriminate; injection E as; subst; try (vm_compute in B; discriminate).
  - apply ok_accepted, basic_text_spec. vm_compute. reflexivity.
  - apply basic_text_spec. vm_compute. reflexivity.
  - intro H. assert (U : is_assigned 0x378 = false) by (vm_compute; reflexivity). destruct (H [0x61; 0x34F] 0x378 [0x62; 0xA] eq_refl U) as [_ [b E]]. discriminate.
Qed.
