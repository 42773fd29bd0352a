From Coq Require Import NArith List Lia.
From Verif Require Import Base Ucd TextUtils Input Output SpecText TextFacts SpecRead SpecCat SpecMore SpecPush SpecCut CutProps SpecWellCut WellCut SpecRelay RelayProps.
Import ListNotations.
Local Open Scope N_scope.

(** ** C104 *)
(** Assigned text: whatever copies, however the streams are cut into reads, with which
    buffers and options, the last stream holds the text that the first hop has read. *)
Theorem C104_chain_partial : forall hs x y h t, chain (h :: hs) x y -> reads_text h t -> Forall (fun c => is_assigned c = true) t -> Forall (fun h => no_push (source h)) hs ->
  written_by (h :: hs) t y.
Proof. exact chain_assigned. Qed.
Print Assumptions C104_chain_partial.
(** Any text, by the tools that write text: exactly if no later stream is read again between
    U+34F and an unassigned character. *)
Theorem C104_exact : forall hs h x y t, chain (h :: hs) x y -> reads_text h t -> Forall (fun h => how h <> ByStd) (h :: hs) -> Forall (fun h => no_push (source h)) hs ->
  (written_by (h :: hs) t y <-> Forall (fun h => well_cut (nel h) (lsps h) (source h)) hs).
Proof. exact chain_exact. Qed.
Print Assumptions C104_exact.
(** So a stored text stays as it is. *)
Theorem C104_stored_exact : forall hs b c t y, chain hs (stored b c t) y -> string_ok t -> line_terminated t -> preceded t -> Forall (fun h => how h <> ByStd) hs -> Forall (fun h => no_push (source h)) hs ->
  (written_by hs t y <-> Forall (fun h => well_cut (nel h) (lsps h) (source h)) hs).
Proof. exact chain_stored. Qed.
Print Assumptions C104_stored_exact.
(** Every stream without pushes can be copied. *)
Theorem C104_total : forall h x, holds_text h x -> no_push (source h) -> (136 <= blen h)%nat -> exists y, hops h x y.
Proof. exact hop_total. Qed.
Print Assumptions C104_total.

(** Three hops: the first converts (A and a ring, CR LF, an escape sequence); the second
    removes the byte order mark and the CR of the first; all tools. *)
Definition hop1 : hop := mkhop [Chunk [0x41] Active; Chunk [0x30A; 0xD] Active; Chunk [0xA; 0x1B; 0x5B] Active; Chunk [0x31; 0x6D; 0x62] End] false false ByStatus 136 true true.
Definition hop2 : hop := mkhop [Chunk [0xFEFF; 0xC5; 0xD] Active; Chunk [0xA; 0x62; 0xD; 0xA] End] true true ByStd 200 false true.
Definition hop3 : hop := mkhop [Chunk [0xC5; 0xD; 0xA; 0x62; 0xD] Active; Chunk [0xA] End] false true ByText 136 false false.
Lemma scalar_by : forall sc, forallb (fun e => match e with Chunk cs _ => forallb is_scalar cs | Fail => true end) sc = true -> scalar_stream sc.
Proof. intros sc H cs s K. rewrite forallb_forall in H. apply H in K. cbn in K. apply Forall_forall. now rewrite forallb_forall in K. Qed.
Ltac a_hop := split; [split; [reflexivity|]; split; [first [intros [K|[]]; discriminate|intros [K|[K|[]]]; discriminate|intros [K|[K|[K|[]]]]; discriminate|intros [K|[K|[K|[K|[]]]]]; discriminate]|]; split; [apply scalar_by; vm_compute; reflexivity|right; do 4 eexists; reflexivity]|];
  exists 9%nat; do 5 eexists; split; [vm_compute; reflexivity|]; split; vm_compute; reflexivity.
Example C104_example : chain [hop1; hop2; hop3] [0x41; 0x30A; 0xD; 0xA; 0x1B; 0x5B; 0x31; 0x6D; 0x62] [0xC5; 0xA; 0x62; 0xA] /\ reads_text hop1 [0xC5; 0xA; 0x62; 0xA] /\
  Forall (fun c => is_assigned c = true) [0xC5; 0xA; 0x62; 0xA] /\ Forall (fun h => no_push (source h)) [hop2; hop3].
Proof.
  split. { eapply chain_more; [|eapply chain_more; [|apply chain_one]]; a_hop. }
  split. { exists [136; 136; 136; 136]%nat. do 3 eexists. split; [vm_compute; reflexivity|]. split; [eexists [_; _; _]; do 2 eexists; reflexivity|vm_compute; reflexivity]. }
  split; [repeat (apply Forall_cons; [vm_compute; reflexivity|]); apply Forall_nil|].
  repeat (apply Forall_cons; [intros cs [K|[K|[]]]; discriminate|]). apply Forall_nil.
Qed.
(** With an unassigned character it is not true of all hops: a later stream cut after U+34F. *)
Definition hop4 : hop := mkhop [Chunk [0x61; 0x378; 0xA] End] false false ByText 136 false false.
Definition hop5 : hop := mkhop [Chunk [0x61; 0x34F] Active; Chunk [0x378; 0x34F; 0xA] End] false false ByText 136 false false.
Theorem C104_refuted : exists hs x y t, chain (hop4 :: hs) x y /\ reads_text hop4 t /\ Forall (fun h => how h = ByText /\ no_push (source h)) hs /\ t = [0x61; 0x34F; 0x378; 0x34F; 0xA] /\
  y = [0x61; 0x34F; 0x34F; 0x378; 0x34F; 0xA] /\ ~ written_by (hop4 :: hs) t y.
Proof.
  exists [hop5], [0x61; 0x378; 0xA], [0x61; 0x34F; 0x34F; 0x378; 0x34F; 0xA], [0x61; 0x34F; 0x378; 0x34F; 0xA].
  split. { eapply chain_more; [|apply chain_one]; a_hop. }
  split. { exists [136]%nat. do 3 eexists. split; [vm_compute; reflexivity|]. split; [eexists []; do 2 eexists; reflexivity|vm_compute; reflexivity]. }
  split; [apply Forall_cons; [split; [reflexivity|intros cs [K|[K|[]]]; discriminate]|apply Forall_nil]|]. split; [reflexivity|]. split; [reflexivity|].
  intros (hs' & h & E & Y). change [hop4; hop5] with ([hop4] ++ [hop5]) in E. apply app_inj_tail in E. destruct E as [_ <-]. discriminate Y.
Qed.
Print Assumptions C104_refuted.
(** With pushes between the streams, if each text between two pushes begins and ends as a
    text may. *)
Theorem C104_pushed_partial : forall hs h x y t, chain (h :: hs) x y -> reads_text h t -> Forall (fun h => how h <> ByStd) (h :: hs) -> Forall (fun h => bom h = false /\ crlf h = false) (h :: hs) ->
  Forall (fun h => Forall (fun s => starts_ok s /\ ends_ok s) (segments (source h)) /\ ~ badly_cut (source h)) hs -> y = t.
Proof. exact chain_pushed. Qed.
Print Assumptions C104_pushed_partial.
Definition hop6 : hop := mkhop [Chunk [0x61; 0x301; 0xD; 0xA] Push; Chunk [0x62] End] false false ByStatus 136 false false.
Definition hop7 : hop := mkhop [Chunk [0xE1; 0xA] Push; Chunk [0x62] Active; Chunk [0xA] End] false false ByStatus 136 false false.
Example C104_pushed_example : chain [hop6; hop7] [0x61; 0x301; 0xD; 0xA; 0x62] [0xE1; 0xA; 0x62; 0xA] /\ reads_text hop6 [0xE1; 0xA; 0x62; 0xA] /\
  Forall (fun s => starts_ok s /\ ends_ok s) (segments (source hop7)) /\ ~ badly_cut (source hop7).
Proof.
  split. { eapply chain_more; [|apply chain_one]; a_hop. }
  split. { exists [136; 136; 136]%nat. do 3 eexists. split; [vm_compute; reflexivity|]. split; [eexists [_; _]; do 2 eexists; reflexivity|vm_compute; reflexivity]. }
  split.
  - cbn [hop7 source segments app]. repeat (apply Forall_cons; [split; [apply starts_ok_iff|apply ends_ok_iff]; vm_compute; reflexivity|]). apply Forall_nil.
  - intros (x & y & z & E & a & d & c & b & K & _). assert (I : In 0x34F (concat (pieces_read (source hop7)))).
    { rewrite E, concat_app. apply in_or_app. left. rewrite K. apply in_or_app. right. now left. }
    cbn in I. decompose [or] I; try discriminate. contradiction.
Qed.
