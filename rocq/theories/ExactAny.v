(** The provided exact reads into any TextSubstr. *)
From Coq Require Import NArith Arith List Bool Lia.
From Verif Require Import Base Chars TextUtils Utf8 Utf8Facts Input ReadFacts ReadSession SpecText TextFacts SpecRead ReadProps ScalarFacts SpecPrompt Copy CopyProps ExactProps ExactBuf.
Import ListNotations.
Local Open Scope N_scope.

Lemma rest_cases : forall t n, scalars t -> (n <= str_len t)%nat ->
  (exists a b, t = a ++ b /\ str_len a = n /\ skipn n (encode_all t) = encode_all b) \/
  (~ whole_chars t n /\ exists x k b, Forall (fun y => is_char_boundary y = false) (x :: k) /\ skipn n (encode_all t) = (x :: k) ++ encode_all b /\ scalars b).
Proof.
  induction t as [|c t IH]; intros n S L.
  - left. exists [], []. assert (n = 0%nat) as -> by (cbn in L; lia). auto.
  - inversion S as [|? ? SC ST]; subst. destruct n as [|n]; [left; exists [], (c :: t); auto|]. change (str_len (c :: t)) with (utf8_len c + str_len t)%nat in L.
    pose proof (encode_length c) as EL. assert (EE : encode_all (c :: t) = encode c ++ encode_all t) by reflexivity. rewrite EE, skipn_app, EL.
    destruct (le_lt_dec (utf8_len c) (Datatypes.S n)) as [G|G].
    + rewrite (skipn_all2 (encode c)) by (rewrite EL; exact G). cbn [app]. destruct (IH (Datatypes.S n - utf8_len c)%nat ST) as [(a & b & -> & LA & E)|(NW & R)]; [lia| |].
      * left. exists (c :: a), b. split; [reflexivity|]. split; [|exact E]. change (str_len (c :: a)) with (utf8_len c + str_len a)%nat. lia.
      * right. split; [|exact R]. intros (a & b & E & LA). apply NW. destruct a as [|y a]; [cbn in LA; discriminate|]. injection E as <- ->. exists a, b. split; [reflexivity|].
        rewrite encode_all_length in *. change (str_len (c :: a)) with (utf8_len c + str_len a)%nat in LA. lia.
    + right. split.
      * intros (a & b & E & LA). rewrite encode_all_length in LA. destruct a as [|y a]; [discriminate|]. injection E as <- _. change (str_len (c :: a)) with (utf8_len c + str_len a)%nat in LA. lia.
      * destruct (encode_shape c SC) as (h & k & EK & _ & F). replace (Datatypes.S n - utf8_len c)%nat with 0%nat by lia. cbn [skipn]. rewrite EK in *. cbn [skipn length] in *.
        pose proof (Forall_skipn _ _ n _ F) as FS. destruct (skipn n k) as [|x k'] eqn:EN; [apply (f_equal (@length N)) in EN; rewrite skipn_length in EN; cbn in EN; lia|].
        exists x, k', t. auto.
Qed.
Lemma any_after : forall i sc t n s cs j sc', reached i sc -> scalars t -> read i sc (str_len t) = (ROk n s, cs, j, sc') ->
  n = str_len cs /\ (n <= str_len t)%nat /\ reached j sc' /\
  firstn n (buffer_after (ROk n s) cs (encode_all t)) = encode_all cs /\ decode (encode_all cs) = (cs, []) /\ is_basic_text_substr cs = true /\
  ((exists a b, t = a ++ b /\ str_len a = n /\ skipn n (buffer_after (ROk n s) cs (encode_all t)) = encode_all b) \/
   (~ whole_chars t n /\ exists b, decode (skipn n (buffer_after (ROk n s) cs (encode_all t))) = (b, []) /\ is_basic_text_substr b = false)).
Proof.
  intros i sc t n s cs j sc' RE ST R. destruct (reached_step _ _ _ _ _ _ _ RE R) as (RJ & SO & SC & W). destruct (read_fits _ _ _ _ _ _ _ _ W R) as [L B].
  split; [exact L|]. split; [exact B|]. split; [exact RJ|].
  assert (LE : length (encode_all cs) = n) by (rewrite L; apply encode_all_length). unfold buffer_after.
  assert (SK : skipn n (encode_all cs ++ clear_to_char_boundary (skipn n (encode_all t))) = clear_to_char_boundary (skipn n (encode_all t))).
  { rewrite skipn_app, LE, Nat.sub_diag. rewrite <- LE at 1. now rewrite skipn_all. }
  rewrite SK. split; [rewrite firstn_app, LE, Nat.sub_diag, firstn_O, app_nil_r; rewrite <- LE; apply firstn_all|].
  split; [pose proof (decode_encode cs [] SC eq_refl) as D; now rewrite app_nil_r in D|]. split; [now apply substr_spec|].
  destruct (rest_cases t n ST B) as [(a & b & E & LA & K)|(NW & x & k & b & F & K & SB)].
  - left. exists a, b. split; [exact E|]. split; [exact LA|]. rewrite K. apply clear_encoded. rewrite E in ST. now apply Forall_app in ST.
  - right. split; [exact NW|]. rewrite K, clear_conts by exact F. rewrite clear_encoded by exact SB. cbn [length repeat].
    exists (0 :: repeat 0 (length k) ++ b). split.
    + assert (EZ : forall m, encode_all (repeat 0 m) = repeat 0 m) by (induction m as [|m IH]; [reflexivity|]; cbn [repeat]; change (encode_all (0 :: repeat 0 m)) with (encode 0 ++ encode_all (repeat 0 m)); rewrite IH; reflexivity).
      assert (SZ : scalars (0 :: repeat 0 (length k) ++ b)).
      { apply Forall_cons; [reflexivity|]. apply Forall_app. split; [|exact SB]. apply Forall_forall. intros y Y. apply repeat_spec in Y. now subst. }
      pose proof (decode_encode _ [] SZ eq_refl) as D. rewrite app_nil_r in D. rewrite <- D. f_equal.
      change (0 :: repeat 0 (length k) ++ b) with ((0 :: repeat 0 (length k)) ++ b). rewrite encode_all_app. change (0 :: repeat 0 (length k)) with (repeat 0 (Datatypes.S (length k))). now rewrite EZ.
    + destruct (is_basic_text_substr (0 :: repeat 0 (length k) ++ b)) eqn:Q; [|reflexivity]. exfalso. apply substr_spec in Q. destruct Q as (_ & _ & A). apply Forall_inv in A.
      vm_compute in A. discriminate.
Qed.
Lemma whole_before : forall a b m, whole_chars (a ++ b) (str_len a + m) <-> whole_chars b m.
Proof.
  induction a as [|c a IH]; intros b m; [reflexivity|]. change (str_len (c :: a)) with (utf8_len c + str_len a)%nat. rewrite <- (IH b m). cbn [app]. split; intros (x & y & E & L).
  - rewrite encode_all_length in L. destruct x as [|d x]; [pose proof (utf8_len_pos c); cbn in L; lia|]. injection E as <- E. exists x, y. split; [exact E|].
    rewrite encode_all_length. change (str_len (c :: x)) with (utf8_len c + str_len x)%nat in L. lia.
  - exists (c :: x), y. split; [now rewrite E|]. rewrite encode_all_length in *. change (str_len (c :: x)) with (utf8_len c + str_len x)%nat. lia.
Qed.
Lemma whole_zero : forall t, whole_chars t 0.
Proof. intro t. exists [], t. auto. Qed.
Lemma encode_nil : forall t, encode_all t = [] -> t = [].
Proof. intros [|c t] H; [reflexivity|]. apply (f_equal (@length N)) in H. rewrite encode_all_length in H. pose proof (utf8_len_pos c). cbn in H. lia. Qed.
Lemma len_pos : forall c t, (0 < str_len (c :: t))%nat.
Proof. intros c t. pose proof (utf8_len_pos c). cbn. lia. Qed.
Lemma received_ok : forall n s cs rs, received ((ROk n s, cs) :: rs) = cs ++ received rs.
Proof. reflexivity. Qed.

Theorem any_exact : forall fuel i sc t e j sc', reached i sc -> scalars t -> substring_ok t -> default_exact fuel i sc (encode_all t) = Some (e, j, sc') ->
  (exists sizes rs, reads i sc sizes = (rs, j, sc') /\ (e = DefPanic <-> ~ whole_chars t (str_len (received rs)))) /\
  (e = DefOk -> exists u, read_exact false fuel i sc (str_len t) = Some (ExactOk, u, j, sc')) /\
  (e = DefEof -> exists u, read_exact false fuel i sc (str_len t) = Some (ExactEof, u, j, sc')).
Proof.
  induction fuel as [|f IH]; intros i sc t e j sc' RE ST SO H.
  - cbn [default_exact] in H. destruct (encode_all t) eqn:EN; [|discriminate]. apply encode_nil in EN. subst t. injection H as <- <- <-. split; [|split; [intros _; now exists []|discriminate]].
    exists [], []. split; [reflexivity|]. split; [discriminate|]. intro K. exfalso. apply K, whole_zero.
  - destruct t as [|c t].
    { injection H as <- <- <-. split; [|split; [intros _; now exists []|discriminate]]. exists [], []. split; [reflexivity|]. split; [discriminate|]. intro K. exfalso. apply K, whole_zero. }
    rewrite exact_step by apply len_pos. set (b := c :: t) in *.
    assert (H' : (let '(r, cs, i', sc') := read i sc (str_len b) in match std_result false r with
        | SOk O => Some (DefEof, i', sc')
        | SOk n => let buf' := buffer_after r cs (encode_all b) in
           match decode (firstn n buf'), decode (skipn n buf') with
           | (a, []), (b, []) => if is_basic_text_substr a && is_basic_text_substr b then default_exact f i' sc' (skipn n buf') else Some (DefPanic, i', sc')
           | _, _ => Some (DefPanic, i', sc')
           end
        | _ => Some (DefErr, i', sc') end) = Some (e, j, sc')).
    { rewrite <- (encode_all_length b). destruct (encode_all b) as [|x y] eqn:EB; [apply encode_nil in EB; discriminate EB|]. exact H. }
    clear H. destruct (read i sc (str_len b)) as [[[r cs] i1] sc1] eqn:ER.
    assert (NP : forall e, e <> DefPanic -> received [(r, cs)] = [] -> exists sizes rs, reads i sc sizes = (rs, i1, sc1) /\ (e = DefPanic <-> ~ whole_chars b (str_len (received rs)))).
    { intros e0 N0 Z. exists [str_len b], [(r, cs)]. split; [cbn [reads]; now rewrite ER|]. rewrite Z. split; [contradiction|]. intro K. exfalso. apply K, whole_zero. }
    destruct (std_result false r) as [[|n]| |] eqn:ES.
    + injection H' as <- <- <-. split; [|split; [discriminate|intros _; now exists []]]. apply NP; [discriminate|]. destruct (std_ok _ _ _ ES) as [s ->].
      destruct (any_after _ _ _ _ _ _ _ _ RE ST ER) as (L & _). destruct cs as [|x cs]; [reflexivity|]. pose proof (len_pos x cs). lia.
    + destruct (std_ok _ _ _ ES) as [s ->].
      destruct (any_after _ _ _ _ _ _ _ _ RE ST ER) as (L & B & RJ & F1 & D1 & B1 & C). cbv zeta in H'. rewrite F1, D1 in H'.
      destruct C as [(a & t' & E & LA & F2)|(NW & t' & D2 & B2)].
      * rewrite F2 in H'. assert (ST' : scalars t') by (rewrite E in ST; now apply Forall_app in ST). assert (SO' : substring_ok t') by (apply substr_spec; apply substr_spec in SO; rewrite E in SO; now apply substr_app in SO).
        pose proof (decode_encode t' [] ST' eq_refl) as D2. rewrite app_nil_r in D2. rewrite D2, B1 in H'. rewrite (proj2 (substr_spec t') SO') in H'. cbn [andb] in H'.
        destruct (IH _ _ _ _ _ _ RJ ST' SO' H') as ((sizes & rs & R & K1) & K2 & K3).
        assert (LB : (str_len b - Datatypes.S n)%nat = str_len t') by (rewrite E, str_len_app; lia). rewrite LB. split; [|split].
        -- exists (str_len b :: sizes), ((ROk (Datatypes.S n) s, cs) :: rs). split; [exact (reads_cons _ _ _ _ _ _ _ _ _ _ _ ER R)|]. rewrite received_ok, str_len_app, <- L, <- LA, E, whole_before. exact K1.
        -- intro Q. destruct (K2 Q) as [u ->]. now exists (cs ++ u).
        -- intro Q. destruct (K3 Q) as [u ->]. now exists (cs ++ u).
      * rewrite D2, B1, B2 in H'. cbn [andb] in H'. injection H' as <- <- <-. split; [|split; discriminate]. exists [str_len b], [(ROk (Datatypes.S n) s, cs)].
        split; [cbn [reads]; now rewrite ER|]. rewrite received_ok. cbn [received flat_map]. rewrite app_nil_r, <- L. tauto.
    + injection H' as <- <- <-. split; [|split; discriminate]. apply NP; [discriminate|]. destruct r as [n s| |]; [|reflexivity|reflexivity].
      assert (n = 0%nat) as -> by (destruct n, s; try discriminate ES; reflexivity). destruct (any_after _ _ _ _ _ _ _ _ RE ST ER) as (L & _). destruct cs as [|x cs]; [reflexivity|]. pose proof (len_pos x cs). lia.
    + injection H' as <- <- <-. split; [|split; discriminate]. apply NP; [discriminate|]. destruct r as [n s| |]; [|reflexivity|reflexivity]. destruct n, s; discriminate ES.
Qed.
(** the variant that also gives the status *)
Theorem any_exact_status : forall fuel i sc t e j sc', reached i sc -> scalars t -> substring_ok t -> default_exact_status fuel i sc (encode_all t) = Some (e, j, sc') ->
  exists sizes rs, reads i sc sizes = (rs, j, sc') /\
  (e = StPanic <-> ~ whole_chars t (str_len (received rs))) /\
  match e with
  | StOk s => str_len (received rs) = str_len t /\ s = Active /\ ~ reached_end rs
  | StEof => (str_len (received rs) < str_len t)%nat /\ reached_end rs
  | StErr => ~ reached_end rs
  | StPanic => True
  end.
Proof.
  induction fuel as [|f IH]; intros i sc t e j sc' RE ST SO H.
  - cbn [default_exact_status] in H. destruct (encode_all t) eqn:EN; [|discriminate]. apply encode_nil in EN. subst t. injection H as <- <- <-.
    exists [], []. split; [reflexivity|]. split; [split; [discriminate|]; intro K; exfalso; apply K, whole_zero|]. split; [reflexivity|]. split; [reflexivity|exact not_end_nil].
  - destruct t as [|c t].
    { injection H as <- <- <-. exists [], []. split; [reflexivity|]. split; [split; [discriminate|]; intro K; exfalso; apply K, whole_zero|]. split; [reflexivity|]. split; [reflexivity|exact not_end_nil]. }
    set (b := c :: t) in *.
    assert (H' : (let '(r, cs, i', sc') := read i sc (str_len b) in match r with
        | ROk n s =>
            let buf' := buffer_after r cs (encode_all b) in
            match decode (firstn n buf'), decode (skipn n buf') with
            | (a, []), (b, []) =>
                if is_basic_text_substr a && is_basic_text_substr b
                then if is_end s then Some ((match skipn n buf' with [] => StOk s | _ => StEof end), i', sc')
                     else default_exact_status f i' sc' (skipn n buf')
                else Some (StPanic, i', sc')
            | _, _ => Some (StPanic, i', sc')
            end
        | _ => Some (StErr, i', sc') end) = Some (e, j, sc')).
    { rewrite <- (encode_all_length b). destruct (encode_all b) as [|x y] eqn:EB; [apply encode_nil in EB; discriminate EB|]. exact H. }
    clear H. destruct (read i sc (str_len b)) as [[[r cs] i1] sc1] eqn:ER.
    assert (NP : reads i sc [str_len b] = ([(r, cs)], i1, sc1)) by (cbn [reads]; now rewrite ER).
    destruct r as [n s| |].
    + destruct (any_after _ _ _ _ _ _ _ _ RE ST ER) as (L & B & RJ & F1 & D1 & B1 & C). cbv zeta in H'. rewrite F1, D1 in H'.
      assert (RC : str_len (received [(ROk n s, cs)]) = n) by (rewrite received_ok; cbn [received flat_map]; now rewrite app_nil_r, <- L).
      destruct C as [(a & t' & E & LA & F2)|(NW & t' & D2 & B2)].
      * rewrite F2 in H'. assert (ST' : scalars t') by (rewrite E in ST; now apply Forall_app in ST). assert (SO' : substring_ok t') by (apply substr_spec; apply substr_spec in SO; rewrite E in SO; now apply substr_app in SO).
        pose proof (decode_encode t' [] ST' eq_refl) as D2. rewrite app_nil_r in D2. rewrite D2, B1 in H'. rewrite (proj2 (substr_spec t') SO') in H'. cbn [andb] in H'.
        assert (LB : str_len b = (n + str_len t')%nat) by (rewrite E, str_len_app; lia).
        destruct (is_end s) eqn:EE.
        -- assert (s = End) as -> by (destruct s; now try discriminate). exists [str_len b], [(ROk n End, cs)].
           assert (WC : whole_chars b n) by (exists a, t'; split; [exact E|]; now rewrite encode_all_length).
           destruct t' as [|x t'].
           { exfalso. cbn in LB. rewrite Nat.add_0_r in LB. subst n. rewrite <- LB in ER. exact (full_not_end _ _ _ _ _ _ RE ER). }
           assert (e = StEof /\ i1 = j /\ sc1 = sc') as (-> & -> & ->).
           { destruct (encode_all (x :: t')) eqn:EX; [apply encode_nil in EX; discriminate EX|]. injection H' as <- <- <-. auto. }
           split; [exact NP|]. rewrite RC. split; [split; [discriminate|contradiction]|]. split; [rewrite LB; pose proof (len_pos x t'); lia|]. exists [], n, cs. reflexivity.
        -- destruct (IH _ _ _ _ _ _ RJ ST' SO' H') as (sizes & rs & R & K1 & K2). exists (str_len b :: sizes), ((ROk n s, cs) :: rs). split; [exact (reads_cons _ _ _ _ _ _ _ _ _ _ _ ER R)|].
           assert (LR : str_len (received ((ROk n s, cs) :: rs)) = (n + str_len (received rs))%nat) by (now rewrite received_ok, str_len_app, <- L).
           assert (RI : reached_end ((ROk n s, cs) :: rs) <-> reached_end rs).
           { split.
             - intros (rs' & m & c' & E'). destruct rs' as [|x rs']; cbn in E'; inversion E'; subst; [discriminate EE|]. now exists rs', m, c'.
             - intros (rs' & m & c' & ->). now exists ((ROk n s, cs) :: rs'), m, c'. }
           rewrite LR. split; [rewrite E, <- LA, whole_before; exact K1|]. destruct e; rewrite ?RI; try exact K2.
           ++ destruct K2 as (Q1 & Q2 & Q3). split; [lia|auto].
           ++ destruct K2 as (Q1 & Q2). split; [lia|auto].
      * rewrite D2, B1, B2 in H'. cbn [andb] in H'. injection H' as <- <- <-. exists [str_len b], [(ROk n s, cs)]. split; [exact NP|]. rewrite RC. tauto.
    + injection H' as <- <- <-. exists [str_len b], [(RInvalid, cs)]. split; [exact NP|]. split; [split; [discriminate|]; intro K; exfalso; apply K, whole_zero|].
      intros (rs' & m & c' & E'). destruct rs' as [|? [|? ?]]; cbn in E'; discriminate.
    + injection H' as <- <- <-. exists [str_len b], [(RErr, cs)]. split; [exact NP|]. split; [split; [discriminate|]; intro K; exfalso; apply K, whole_zero|].
      intros (rs' & m & c' & E'). destruct rs' as [|? [|? ?]]; cbn in E'; discriminate.
Qed.
