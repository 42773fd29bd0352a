(** The normalization functions of Norm.v for the character tables of another
    version of Unicode. *)
From Coq Require Import NArith List Bool.
From Verif Require Import Base Ucd Norm Chars TextUtils.
Import ListNotations.
Local Open Scope N_scope.

(** combining classes, canonical and compatibility decompositions, compositions *)
Record ucd := mkucd { t_ccc : N -> N; t_cd : N -> list N; t_kd : N -> list N; t_compose : N -> N -> option N }.
(** the tables of the version the repository uses *)
Definition present : ucd := mkucd ccc cd kd compose.

(** A later version: nothing changes about the characters that are assigned now
    (Unicode's stability policies for combining classes, decompositions and
    normalization), no decomposition is empty or longer than 30 characters (the
    policies allow 18), and U+34F does not become part of a composition. *)
Record later (t : ucd) : Prop := {
  later_ccc : forall c, is_assigned c = true -> t_ccc t c = ccc c;
  later_cd : forall c, is_assigned c = true -> t_cd t c = cd c;
  later_kd : forall c, is_assigned c = true -> t_kd t c = kd c;
  later_compose : forall a b, is_assigned a = true -> is_assigned b = true -> t_compose t a b = compose a b;
  later_nonempty : forall c, t_cd t c <> [];
  later_length : forall c, (length (t_kd t c) <= 30)%nat;
  later_cgj : forall c, t_compose t 0x34F c = None /\ t_compose t c 0x34F = None
}.

(** The functions of Norm.v, from other tables. *)
Section Tables.
  Variable t : ucd.
  Fixpoint ins_in (x : N) (l : list N) : list N :=
    match l with
    | [] => [x]
    | y :: r => if negb (t_ccc t y =? 0) && (t_ccc t y <? t_ccc t x) then y :: ins_in x r else x :: l
    end.
  Definition sort_in (l : list N) : list N := fold_right ins_in [] l.
  Fixpoint order_go_in (pending : list N) (s : list N) : list N :=
    match s with
    | [] => sort_in pending
    | c :: r => if t_ccc t c =? 0 then sort_in pending ++ c :: order_go_in [] r else order_go_in (pending ++ [c]) r
    end.
  Definition order_in (s : list N) : list N := order_go_in [] s.
  Definition nfd_in (s : list N) : list N := order_in (flat_map (t_cd t) s).
  Fixpoint rc_in (k : N) (buf : list N) (l : option N) (s : list N) : list N :=
    match s with
    | [] => k :: buf
    | ch :: r =>
        let cls := t_ccc t ch in
        match l with
        | None =>
            match t_compose t k ch with
            | Some x => rc_in x buf None r
            | None => if cls =? 0 then k :: rc_in ch buf None r else rc_in k (buf ++ [ch]) (Some cls) r
            end
        | Some lc =>
            if cls <=? lc then
              if cls =? 0 then k :: buf ++ rc_in ch [] None r else rc_in k (buf ++ [ch]) (Some cls) r
            else
              match t_compose t k ch with
              | Some x => rc_in x buf l r
              | None => rc_in k (buf ++ [ch]) (Some cls) r
              end
        end
    end.
  Fixpoint recomp_in (s : list N) : list N :=
    match s with
    | [] => []
    | ch :: r => if t_ccc t ch =? 0 then rc_in ch [] None r else ch :: recomp_in r
    end.
  Definition nfc_in (s : list N) : list N := recomp_in (nfd_in s).

  Fixpoint leading_in (l : list N) : nat :=
    match l with
    | [] => 0
    | c :: r => if negb (t_ccc t c =? 0) then S (leading_in r) else 0
    end%nat.
  Definition cl_leading_in (c : N) : nat := if (c <=? 0x7F) || is_hangul_syllable c then 0%nat else leading_in (t_kd t c).
  Definition cl_trailing_in (c : N) : nat := if (c <=? 0x7F) || is_hangul_syllable c then 0%nat else leading_in (rev (t_kd t c)).
  Definition count_next_in (n : nat) (c : N) : nat :=
    if Nat.eqb (cl_leading_in c) (length (t_kd t c)) then (n + length (t_kd t c))%nat else cl_trailing_in c.
  Fixpoint stream_safe_go_in (n : nat) (s : list N) : list N :=
    match s with
    | [] => []
    | c :: r => if Nat.ltb MAX_NONSTARTERS (n + cl_leading_in c)
                then CGJ :: c :: stream_safe_go_in (count_next_in 0 c) r
                else c :: stream_safe_go_in (count_next_in n c) r
    end.
  Definition stream_safe_in (s : list N) : list N := stream_safe_go_in 0 s.
End Tables.

(** A version with one character more, [r], made of [c] and [x]. *)
Definition adding (c x r : N) : ucd :=
  mkucd ccc (fun y => if y =? r then [c; x] else cd y) (fun y => if y =? r then [c; x] else kd y)
    (fun a b => if (a =? c) && (b =? x) then Some r else compose a b).

(** The scalar value that follows an unassigned one is U+34F. *)
Definition followed (s : list N) : Prop :=
  forall a c d b, s = a ++ c :: d :: b -> is_assigned c = false -> d = 0x34F.
(** The version takes a newly assigned character, alone, as it is. *)
Definition kept_alone (t : ucd) (s : list N) : Prop :=
  forall c, In c s -> is_assigned c = false -> nfc_in t [c] = [c].
(** The text is in Normalization Form C, and Stream-Safe, in every later version
    that takes its newly assigned characters, alone, as they are. *)
Definition protected (s : list N) : Prop :=
  forall t, later t -> kept_alone t s -> nfc_in t s = s /\ stream_safe_in t s = s.

(** Normalization Form C is closed under taking parts (UAX #15, section 3). *)
Definition parts_normal (t : ucd) : Prop :=
  forall a w b, nfc_in t (a ++ w ++ b) = a ++ w ++ b -> nfc_in t w = w.
(** Text in the Stream-Safe NFC of the version. *)
Definition normal_in (t : ucd) (s : list N) : Prop := nfc_in t s = s /\ stream_safe_in t s = s.
