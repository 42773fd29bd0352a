(** Model of /repo/src/text_input.rs (TextInput, the implementation of
    TextReader and of the reading half of TextDuplexer). *)
From Coq Require Import NArith List Bool.
From Verif Require Import Base Ucd Norm Chars TextUtils Utf8.
Import ListNotations.
Local Open Scope N_scope.

(** layered_io::Status, used in text_input.rs:89 *)
Inductive status := Active | Push | End.
(** status == Status::active() *)
Definition is_active (s : status) : bool := match s with Active => true | _ => false end.
(** Status::is_end *)
Definition is_end (s : status) : bool := match s with End => true | _ => false end.

(** /repo/src/text_input.rs:573-597 State *)
Inductive state :=
| Ground (nl : bool) | Cr | Ff | Esc | CsiStart | Csi | Osc | Linux.
(** state == State::Ground(true) (text_input.rs:451) *)
Definition is_ground_nl (s : state) : bool := match s with Ground b => b | _ => false end.

(** /repo/src/text_input.rs:69-106 TextInput.  [iter] is what ssnfc_iter has
    still to yield; raw_string only carries data inside one call and is not
    kept. *)
Record input := mkinput {
  queue : list N;
  iter : list N;
  quick : nat;
  pending : status;
  expect_starter : bool;
  at_start : bool;
  nel_compat : bool;
  lsps_compat : bool;
  st : state
}.

(** text_input.rs:111-146 new, with_nel_compatibility, with_lsps_compatibility *)
Definition new_input (nel lsps : bool) : input :=
  mkinput [] [] 0 Active true true nel lsps (Ground true).

(** Assignments to the fields queue, ssnfc_iter and quick (text_input.rs:241-242, 262-272) *)
Definition set_q (i : input) (q : list N) (it : list N) (n : nat) : input :=
  mkinput q it n (pending i) (expect_starter i) (at_start i) (nel_compat i) (lsps_compat i) (st i).
(** Assignment to pending_status (text_input.rs:406, 484) *)
Definition set_pending (i : input) (p : status) : input :=
  mkinput (queue i) (iter i) (quick i) p (expect_starter i) (at_start i) (nel_compat i) (lsps_compat i) (st i).
(** Assignment to expect_starter (text_input.rs:311, 338, 407, 480) *)
Definition set_expect (i : input) (e : bool) : input :=
  mkinput (queue i) (iter i) (quick i) (pending i) e (at_start i) (nel_compat i) (lsps_compat i) (st i).
(** Assignment to at_start (text_input.rs:283) *)
Definition set_at_start (i : input) (a : bool) : input :=
  mkinput (queue i) (iter i) (quick i) (pending i) (expect_starter i) a (nel_compat i) (lsps_compat i) (st i).
(** Assignment to state (text_input.rs:296-300, 344-376, 438, 503) *)
Definition set_st (i : input) (s : state) : input :=
  mkinput (queue i) (iter i) (quick i) (pending i) (expect_starter i) (at_start i) (nel_compat i) (lsps_compat i) s.

(** queue.push_back(c); expect_starter = false; state = s, a recurring triple
    (text_input.rs:292-294, 325-327, 428-430, 452-454) *)
Definition push_set (i : input) (cs : list N) (s : state) : input :=
  mkinput (queue i ++ cs) (iter i) (quick i) (pending i) false (at_start i) (nel_compat i) (lsps_compat i) s.

(** text_input.rs:251: is the character a line feed or CGJ? *)
Definition is_boundary (c : N) : bool := (c =? LF) || (c =? CGJ).

(** text_input.rs:247-252: the index just after the last '\n' or CGJ. *)
Fixpoint last_boundary (q : list N) : option nat :=
  match q with
  | [] => None
  | c :: t => match last_boundary t with
              | Some n => Some (S n)
              | None => if is_boundary c then Some 1%nat else None
              end
  end.

(** text_input.rs:238-277 queue_next *)
Definition queue_next (i : input) : option (N * input) :=
  match quick i with
  | S n => match queue i with
           | c :: q => Some (c, set_q i q (iter i) n)
           | [] => None
           end
  | O =>
      match iter i with
      | c :: it => Some (c, set_q i (queue i) it 0)
      | [] =>
          match last_boundary (queue i) with
          | None => None
          | Some index =>
              let b := firstn index (queue i) in
              let rest := skipn index (queue i) in
              if (match is_nfc_stream_safe_quick b with Yes => true | _ => false end)
                 && forallb is_public_assigned b
              then match queue i with
                   | c :: q => Some (c, set_q i q [] (index - 1))
                   | [] => None
                   end
              else match pipeline b with
                   | c :: it => Some (c, set_q i rest it 0)
                   | [] => None
                   end
          end
      end
  end.

(** text_input.rs:299-322: a character in Ground that is not '\n', '\r', FF or ESC. *)
Definition ground_char (i : input) (c : N) : input :=
  let nl := (nel_compat i && (c =? NEL)) || (lsps_compat i && ((c =? LS) || (c =? PS))) in
  let c' := if nl then LF else c in
  let r := replace c' in
  let guard := expect_starter i && negb (opt_all is_basic_text_start (head_opt r)) in
  mkinput (queue i ++ (if guard then [CGJ] else []) ++ r) (iter i) (quick i) (pending i)
          false (at_start i) (nel_compat i) (lsps_compat i) (Ground nl).

(** text_input.rs:290-322: State::Ground *)
Definition step_ground (i : input) (c : N) : input :=
  if c =? LF then push_set i [LF] (Ground true)
  else if c =? CR then set_st i Cr
  else if c =? FF then set_st i Ff
  else if c =? ESC then set_st i Esc
  else ground_char i c.

(** text_input.rs:288-381: one iteration of the for loop.  A [continue] of the
    inner loop re-examines the character in Ground, which never continues. *)
Definition step (i : input) (c : N) : input :=
  match st i with
  | Ground _ => step_ground i c
  | Cr =>
      let i' := push_set i [LF] (Ground true) in
      if c =? LF then i' else step_ground i' c
  | Ff =>
      if c =? FF then i
      else step_ground (push_set i (if (c =? LF) || (c =? CR) then [] else [SP]) (Ground false)) c
  | Esc =>
      if c =? 0x5B then set_st i CsiStart
      else if c =? 0x5D then set_st i Osc
      else if c =? ESC then set_st i Esc
      else if in_range c 0x40 0x7E || (c =? CAN) then set_st i (Ground false)
      else step_ground (set_st i (Ground false)) c
  | CsiStart =>
      if c =? 0x5B then set_st i Linux
      else if in_range c 0x20 0x3F then set_st i Csi
      else if in_range c 0x40 0x7E then set_st i (Ground false)
      else if c =? CAN then set_st i (Ground false)
      else step_ground (set_st i (Ground false)) c
  | Csi =>
      if in_range c 0x20 0x3F then set_st i Csi
      else if in_range c 0x40 0x7E then set_st i (Ground false)
      else if c =? CAN then set_st i (Ground false)
      else step_ground (set_st i (Ground false)) c
  | Osc =>
      if (c =? BEL) || (c =? CAN) then set_st i (Ground false)
      else if c =? ESC then set_st i Esc
      else i
  | Linux =>
      if c <=? DEL then set_st i (Ground false)
      else step_ground (set_st i (Ground false)) c
  end.

(** text_input.rs:279-383 process_raw_string *)
Definition process_raw (i : input) (raw : list N) : input :=
  let raw' := if at_start i then match raw with c :: t => if c =? BOM then t else raw | [] => raw end else raw in
  fold_left step raw' (set_at_start i false).

(** text_input.rs:424-457: what is done when the inner status is not active. *)
Definition finish (i : input) (s : status) : input :=
  if is_active s then i
  else
    let i1 := match st i with
              | Ground _ => i
              | Cr => push_set i [LF] (Ground true)
              | Ff => push_set i [SP] (Ground false)
              | Esc | CsiStart | Csi | Osc | Linux => set_st i (Ground false)
              end in
    let i2 := match last_opt (queue i1) with
              | Some l => if is_basic_text_end l then i1
                          else set_q i1 (queue i1 ++ [CGJ]) (iter i1) (quick i1)
              | None => i1
              end in
    if is_end s then
      if is_ground_nl (st i2) then i2 else push_set i2 [LF] (Ground true)
    else i2.

(** The wrapped Utf8 stream: a script of reads.  Each call returns a chunk of
    whole characters with a status, or an error; after the script, or after an
    [End] status, every call returns no data and [End] (layered_io). *)
Inductive event := Chunk (cs : list N) (s : status) | Fail.

(** The call of the wrapped stream (text_input.rs:417) *)
Definition inner_read (script : list event) : option (list N * status) * list event :=
  match script with
  | [] => (Some ([], End), [])
  | Chunk cs End :: _ => (Some (cs, End), [])
  | Chunk cs s :: t => (Some (cs, s), t)
  | Fail :: t => (None, t)
  end.

(** text_input.rs:397-404, 460-471: the two loops that move characters to the
    caller's buffer.  [room] is buf.len() - nread.  The result says whether the
    queue ran empty.  Each character takes at least one byte, so [room] is enough
    fuel (drain_room in ReadFacts.v). *)
Fixpoint drain (fuel : nat) (room : nat) (i : input) : list N * bool * input :=
  match fuel with
  | O => ([], false, i)
  | S f =>
      match queue_next i with
      | None => ([], true, i)
      | Some (c, i') =>
          let room' := (room - utf8_len c)%nat in
          if Nat.ltb room' MAX_UTF8_SIZE then ([c], false, i')
          else let '(cs, e, i'') := drain f room' i' in (c :: cs, e, i'')
      end
  end.

(** The result of read_with_status (text_input.rs:388) *)
Inductive read_result :=
| ROk (n : nat) (s : status)   (* Ok((n, status)) *)
| RInvalid                     (* Err(InvalidInput): buffer too small *)
| RErr.                        (* the inner stream's error *)

(** text_input.rs:385-488 read_with_status.  [blen] is buf.len().  Returns the
    result, the characters written to the front of the buffer, the new state
    and the rest of the script. *)
Definition read (i : input) (script : list event) (blen : nat)
  : read_result * list N * input * list event :=
  if Nat.ltb blen NORMALIZATION_BUFFER_SIZE then (RInvalid, [], i, script)
  else
    let '(cs1, empty1, i1) := drain blen blen i in
    let n1 := str_len cs1 in
    if negb empty1 then (ROk n1 Active, cs1, i1, script)
    else if negb (is_active (pending i1)) then
      (* the status is reset before it is returned *)
      (ROk n1 Active, cs1, set_expect (set_pending i1 Active) true, script)
    else
      match inner_read script with
      | (None, script') => (RErr, cs1, i1, script')
      | (Some (raw, s), script') =>
          let i2 := finish (process_raw i1 raw) s in
          let '(cs2, empty2, i3) := drain (blen - n1) (blen - n1) i2 in
          let cs := cs1 ++ cs2 in
          if empty2
          then (ROk (str_len cs) s, cs, (if is_active s then i3 else set_expect i3 true), script')
          else (ROk (str_len cs) Active, cs, set_pending i3 s, script')
      end.

(** The caller's buffer after a call: the characters are encoded at its front;
    on success the following bytes are cleared up to a character boundary
    (text_input.rs:401, 410, 474); on an error they are left as they are. *)
Definition buffer_after (r : read_result) (cs : list N) (buf : list N) : list N :=
  let bytes := encode_all cs in
  match r with
  | ROk n _ => bytes ++ clear_to_char_boundary (skipn n buf)
  | _ => bytes ++ skipn (length bytes) buf
  end.

(** text_input.rs:501-508 abandon; [None] is the panic of the assertion. *)
Definition abandon_input (i : input) : option input :=
  match queue i with
  | [] => Some (set_st i (Ground true))
  | _ => None
  end.

(** Repeated reads with the given buffer sizes: everything delivered, and the
    results. *)
Fixpoint reads (i : input) (script : list event) (sizes : list nat)
  : list (read_result * list N) * input * list event :=
  match sizes with
  | [] => ([], i, script)
  | b :: bs =>
      let '(r, cs, i', script') := read i script b in
      let '(rs, i'', script'') := reads i' script' bs in
      ((r, cs) :: rs, i'', script'')
  end.

(** All the characters delivered by some reads. *)
Definition delivered (rs : list (read_result * list N)) : list N := flat_map snd rs.
