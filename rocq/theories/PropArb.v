(** C55 and C25: any bytes. *)
From Coq Require Import NArith Arith List Bool Lia.
From Verif Require Import Base Ucd Norm Chars TextUtils NormFacts DocTable SpecText TextFacts Utf8 Utf8Facts Strings SpecString StringProps SpecMore Arbitrary ArbitraryProps SpecArb ArbExact.
Import ListNotations.
Local Open Scope N_scope.

(** From any bytes the Arbitrary instances make something without panicking; with
    [s] the longest text at the front of the bytes, what they make is valid exactly
    when the bytes are all UTF-8 or [s] is valid, and when they are not all UTF-8
    it is [s]. Every byte string has exactly one such [s]. *)
Theorem C55_arbitrary_str_exact : forall b s, utf8_front b s ->
  exists r, arbitrary is_basic_text b = Some r /\ (encodes string_ok r <-> b = encode_all s \/ string_ok s) /\ (b <> encode_all s -> r = encode_all s).
Proof. exact arbitrary_str_exact. Qed.
Print Assumptions C55_arbitrary_str_exact.
Theorem C55_arbitrary_substr_exact : forall b s, utf8_front b s ->
  exists r, arbitrary is_basic_text_substr b = Some r /\ (encodes substring_ok r <-> b = encode_all s \/ substring_ok s) /\ (b <> encode_all s -> r = encode_all s).
Proof. exact arbitrary_substr_exact. Qed.
Print Assumptions C55_arbitrary_substr_exact.
Theorem C55_front : forall b, exists s, utf8_front b s /\ forall t, utf8_front b t -> t = s.
Proof. intro b. destruct (front_exists b) as [s F]. exists s. split; [exact F|]. intros t G. exact (front_unique _ _ _ G F). Qed.
Print Assumptions C55_front.
Example C55_exact_example : utf8_front [0x61; 0x7; 0xC3] [0x61; 0x7] /\ arbitrary is_basic_text [0x61; 0x7; 0xC3] = Some [0x61; 0x7] /\ is_basic_text [0x61; 0x7] = false /\
  utf8_front [0xC3; 0xA9; 0xA; 0xC3] [0xE9; 0xA] /\ arbitrary is_basic_text [0xC3; 0xA9; 0xA; 0xC3] = Some (encode_all [0xE9; 0xA]) /\ is_basic_text [0xE9; 0xA] = true.
Proof.
  split; [apply (front_decode _ _ [0xC3]); vm_compute; reflexivity|]. do 2 (split; [vm_compute; reflexivity|]).
  split; [apply (front_decode _ _ [0xC3]); vm_compute; reflexivity|]. split; vm_compute; reflexivity.
Qed.
(** Bytes that are UTF-8 are accepted or refused as their text is; for others the
    error position is the end of the UTF-8 at the front. *)
Theorem C25_bytes_exact : forall from b s, utf8_front b s ->
  (b = encode_all s -> from_bytes from b = from s) /\ (b <> encode_all s -> from_bytes from b = TErr (Some (length (encode_all s)))).
Proof. exact bytes_exact. Qed.
Print Assumptions C25_bytes_exact.
Example C25_bytes_example : utf8_front [0xC3; 0xA9; 0xE2; 0x82] [0xE9] /\ from_bytes (str_from_text is_basic_text) [0xC3; 0xA9; 0xE2; 0x82] = TErr (Some 2%nat).
Proof. split; [apply (front_decode _ _ [0xE2; 0x82]); vm_compute; reflexivity|vm_compute; reflexivity]. Qed.
