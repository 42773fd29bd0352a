(** Reading lines into a TextString: C85. *)
From Coq Require Import NArith List Bool Lia.
From Verif Require Import Base Chars TextUtils SpecText TextFacts Utf8 Utf8Facts Input ReadSession SpecRead Strings SpecString Lines LineIo SpecLine LineIoProps.
Import ListNotations.
Local Open Scope N_scope.

(** ** C85 *)
(** A source arrives in pieces and may fail at any point.  [next_part src line e
    rest] (SpecLine.v): [line] are the bytes up to and including the next 0xA, or
    up to the end of the file, or up to a failure ([e = Cut]).  Reading a line
    succeeds exactly when there is no failure, the line is the UTF-8 of some
    characters, and these after the old contents make valid text; then they are
    appended and their number of bytes is returned. *)
Theorem C85_line_read : forall buf src n buf' rest, read_text_line_io buf src = (LOk n, buf', rest) <->
  exists line s, next_part src line Complete rest /\ scalars s /\ line = encode_all s /\ n = length line /\ buf' = buf ++ s /\ string_ok buf'.
Proof. exact text_line_ok. Qed.
Print Assumptions C85_line_read.
Definition ex85 : list piece := [Bytes [0x61; 0xC3]; Bytes [0xA9; 0xA; 0x62]; Failure; Bytes [0xA]].
Example C85_example : read_text_line_io [0x78; 0xA] ex85 = (LOk 4, [0x78; 0xA; 0x61; 0xE9; 0xA], [Bytes [0x62]; Failure; Bytes [0xA]]) /\
  read_text_line_io [] [Bytes [0x62]; Failure; Bytes [0xA]] = (LErr, [0x62], [Bytes [0xA]]).
Proof. split; vm_compute; reflexivity. Qed.
(** There is always such a next part, and only one. *)
Theorem C85_next_part : forall src, exists line e rest, next_part src line e rest /\ forall line' e' rest', next_part src line' e' rest' -> line' = line /\ e' = e /\ rest' = rest.
Proof.
  intro src. destruct (part_exists src) as (line & e & rest & P). exists line, e, rest. split; [exact P|]. intros line' e' rest' Q. apply read_until_part in P, Q. rewrite P in Q.
  injection Q as -> E ->. destruct e, e'; try discriminate; auto.
Qed.
Print Assumptions C85_next_part.
(** In every case the bytes of the line are gone.  If the line was read but is not
    valid text, the buffer is empty afterwards; if it is not UTF-8 the buffer is
    as before; after a failure it has got the characters of the cut line. *)
Theorem C85_line_cases : forall buf src line e rest, next_part src line e rest ->
  (forall s, scalars s -> line = encode_all s -> e = Complete -> string_ok (buf ++ s) -> read_text_line_io buf src = (LOk (length line), buf ++ s, rest)) /\
  (forall s, scalars s -> line = encode_all s -> e = Complete -> ~ string_ok (buf ++ s) -> read_text_line_io buf src = (LErr, [], rest)) /\
  (forall s, scalars s -> line = encode_all s -> e = Cut -> read_text_line_io buf src = (LErr, buf ++ s, rest)) /\
  ((forall s, scalars s -> line <> encode_all s) -> read_text_line_io buf src = (LErr, buf, rest)).
Proof. exact text_line_cases. Qed.
Print Assumptions C85_line_cases.
(** So a valid TextString stays valid exactly when the source does not fail or the
    cut line happens to make valid text. *)
Theorem C85_valid_exact : forall buf src line e rest r buf' rest', next_part src line e rest -> read_text_line_io buf src = (r, buf', rest') -> string_ok buf ->
  (string_ok buf' <-> (e = Cut -> forall s, scalars s -> line = encode_all s -> string_ok (buf ++ s))).
Proof. exact text_line_valid_iff. Qed.
Print Assumptions C85_valid_exact.
Example C85_valid_example : next_part [Bytes (encode_all [0x301]); Failure] (encode_all [0x301]) Cut [] /\ string_ok [0x61; 0xA] /\
  read_text_line_io [0x61; 0xA] [Bytes (encode_all [0x301]); Failure] = (LErr, [0x61; 0xA; 0x301], []).
Proof.
  split; [|split; [apply basic_text_spec; vm_compute; reflexivity|vm_compute; reflexivity]].
  apply (part_cut [encode_all [0x301]] []). constructor; [|constructor]. split; [discriminate|]. intros [H|[H|[]]]; discriminate H.
Qed.
(** After a failure the caller's TextString can be invalid. *)
Theorem C85_valid_refuted : exists buf src buf' rest, string_ok buf /\ read_text_line_io buf src = (LErr, buf', rest) /\ ~ string_ok buf'.
Proof.
  exists [], [Bytes (encode_all [0x301]); Failure]. do 2 eexists. split; [apply basic_text_spec; reflexivity|]. split; [vm_compute; reflexivity|].
  intro H. apply basic_text_spec in H. vm_compute in H. discriminate.
Qed.
Print Assumptions C85_valid_refuted.
(** And an invalid line, even without a failure, loses the old contents. *)
Theorem C85_contents_refuted : exists buf src buf' rest line, string_ok buf /\ buf <> [] /\ next_part src line Complete rest /\ read_text_line_io buf src = (LErr, buf', rest) /\ buf' = [].
Proof.
  exists [0x61; 0xA], [Bytes [0x7; 0xA]], [], [], [0x7; 0xA]. split; [apply basic_text_spec; vm_compute; reflexivity|]. split; [discriminate|]. split.
  - apply (part_line [] [0x7] [] []); [constructor|]. intros [H|[]]. discriminate H.
  - split; [vm_compute; reflexivity|reflexivity].
Qed.
Print Assumptions C85_contents_refuted.
(** The lossy version, whatever from_text_lossy's reader does ([lossy],
    SpecString.v): as long as the source does not fail it never panics and leaves
    the TextString valid.  It converts the old contents together with the line. *)
Theorem C85_lossy_line : forall conv buf src line rest, (forall v, lossy v (conv v)) -> next_part src line Complete rest -> string_ok buf ->
  exists r buf', read_text_line_lossy_io conv buf src = Some (r, buf', rest) /\ string_ok buf' /\
  (r = LOk (length line) /\ (exists s, scalars s /\ line = encode_all s /\ lossy (buf ++ s) (Some buf')) \/ r = LErr /\ buf' = buf /\ ~ exists s, scalars s /\ line = encode_all s).
Proof. exact lossy_line_valid. Qed.
Print Assumptions C85_lossy_line.
Definition conv85 (v : list N) : option (list N) :=
  let '(rs, _, _) := reads (new_input false false) [Chunk v End] (repeat 136%nat 8) in lossy_result v (received rs).
Example C85_lossy_example : read_text_line_lossy_io conv85 [0x61; 0xA] [Bytes [0x7; 0xA; 0x62]] = Some (LOk 2, [0x61; 0xA; 0xFFFD; 0xA], [Bytes [0x62]]).
Proof. vm_compute. reflexivity. Qed.
(** So it can change the old contents instead of appending to them. *)
Theorem C85_lossy_append_refuted : exists buf src buf' rest n, string_ok buf /\ read_text_line_lossy_io conv85 buf src = Some (LOk n, buf', rest) /\ ~ exists t, buf' = buf ++ t.
Proof.
  exists [0x65], [Bytes (encode_all [0x301; 0xA])]. do 3 eexists. split; [apply basic_text_spec; vm_compute; reflexivity|]. split; [vm_compute; reflexivity|].
  intros [t H]. discriminate H.
Qed.
Print Assumptions C85_lossy_append_refuted.
Theorem C85_lossy_valid_refuted : exists buf src buf' rest, string_ok buf /\ read_text_line_lossy_io conv85 buf src = Some (LErr, buf', rest) /\ ~ string_ok buf'.
Proof.
  exists [], [Bytes (encode_all [0x7]); Failure]. do 2 eexists. split; [apply basic_text_spec; reflexivity|]. split; [vm_compute; reflexivity|].
  intro H. apply basic_text_spec in H. vm_compute in H. discriminate.
Qed.
Print Assumptions C85_lossy_valid_refuted.
(** How a source that does not fail is cut into pieces ([sound]: none is empty)
    does not matter: what is read depends on its bytes only. *)
Theorem C85_pieces : forall buf src, sound src -> exists r buf' rest, read_text_line_io buf src = (r, buf', rest) /\ sound rest /\ read_text_line buf (all_bytes src) = (r, buf', all_bytes rest).
Proof. exact text_line_pieces. Qed.
Print Assumptions C85_pieces.
Example C85_pieces_example : sound [Bytes [0x61]; Bytes [0xA; 0x62]] /\ read_text_line [] [0x61; 0xA; 0x62] = (LOk 2, [0x61; 0xA], [0x62]).
Proof. split; [|vm_compute; reflexivity]. constructor; [exists [0x61]|constructor; [exists [0xA; 0x62]|constructor]]; (split; [discriminate|reflexivity]). Qed.
Theorem C85_lossy_pieces : forall conv buf src, sound src ->
  match read_text_line_lossy_io conv buf src with
  | Some (r, buf', rest) => sound rest /\ read_text_line_lossy conv buf (all_bytes src) = Some (r, buf', all_bytes rest)
  | None => read_text_line_lossy conv buf (all_bytes src) = None
  end.
Proof. exact lossy_line_pieces. Qed.
Print Assumptions C85_lossy_pieces.

(** ** C37 and C50 *)
(** The same holds for the iterators over lines. *)
Theorem C37_pieces : forall debug src, sound src ->
  match next_line_io debug src with
  | Some (it, rest) => sound rest /\ next_line debug (all_bytes src) = Some (it, all_bytes rest)
  | None => next_line debug (all_bytes src) = None
  end.
Proof. exact next_pieces. Qed.
Print Assumptions C37_pieces.
Theorem C50_pieces : forall debug conv src, sound src ->
  match next_line_lossy_io debug conv src with
  | Some (it, rest) => sound rest /\ next_line_lossy debug conv (all_bytes src) = Some (it, all_bytes rest)
  | None => next_line_lossy debug conv (all_bytes src) = None
  end.
Proof. exact next_lossy_pieces. Qed.
Print Assumptions C50_pieces.
(** Even from a source that fails, a line an iterator yields is valid text without
    a line end, and is what the source gives next; in a release build, unless the
    file ends without a line end. *)
Theorem C37_failing_source : forall debug src l rest, next_line_io debug src = Some (Some (Line l), rest) -> debug = true \/ (exists u, next_part src (u ++ [0xA]) Complete rest) ->
  scalars l /\ string_ok l /\ ~ In 0xA l /\ next_part src (encode_all l ++ [0xA]) Complete rest.
Proof. exact next_io_line. Qed.
Print Assumptions C37_failing_source.
Example C37_failing_example : next_line_io true ex85 = Some (Some (Line [0x61; 0xE9]), [Bytes [0x62]; Failure; Bytes [0xA]]).
Proof. vm_compute. reflexivity. Qed.
(** But a failure cuts a line: what comes after it is taken for a line. *)
Theorem C37_failure_refuted : exists src src' l rest, next_line_io true src = Some (Some LineErr, src') /\ next_line_io true src' = Some (Some (Line l), rest) /\
  all_bytes src = encode_all [0x61; 0x62; 0xA] /\ l = [0x62].
Proof. exists [Bytes [0x61]; Failure; Bytes [0x62; 0xA]]. do 3 eexists. split; [vm_compute; reflexivity|]. split; [vm_compute; reflexivity|]. split; reflexivity. Qed.
Print Assumptions C37_failure_refuted.
