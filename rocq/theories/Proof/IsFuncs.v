(* The validation functions answer exactly, NUL-terminated calls. *)
From Coq Require Import ZArith List Bool Lia ZifyBool.
From Verif Require Import Machine.
From Verif.Model Require Import Internal Decode Tables Predicate Str.
From Verif.Spec Require Import Utf Target Result.
From Verif.Proof Require Import Bits Encode DecodeFacts TextFacts ToFuncs.
Import ListNotations.
Local Open Scope Z_scope.

Lemma code_ok t : badRange (code t) = false.
Proof. destruct t; reflexivity. Qed.

(* what the code tests, target by target *)
Definition range32 (t : target) (c : Z) : bool :=
  match t with
  | Ascii => c <=? 0x7f
  | Ucs2 => (c <? 0xd800) || (0xdfff <? c) && (c <=? 0xffff)
  | Unicode => (c <? 0xd800) || (0xdfff <? c) && (c <=? 0x10ffff)
  | Utf16 => (c <? 0xd800) || (0xdfff <? c) && (c <=? 0x1fffff)
  | Utf8 => (c <? 0xd800) || (0xdfff <? c) && (c <? 0x80000000)
  | Ucs4 => (c <? 0xd800) || (0xdfff <? c)
  end.

Ltac flag_cases :=
  repeat match goal with
  | |- context [if ?b then _ else _] => let E := fresh "E" in destruct b eqn:E
  end.

Lemma charFlag_spec t c : 0 < c < 0x100000000 ->
  (Z.land (getCharEncodableRangeFlags c) (rangeFlagOf (code t)) =? 0) = negb (range32 t c).
Proof.
  intros Hc. unfold getCharEncodableRangeFlags, getUnicodeEncodableRangeFlag.
  rewrite land_80000000 by lia.
  destruct t; flag_cases; cbn [code range32];
    match goal with |- (?x =? 0) = _ => let v := eval vm_compute in (x =? 0) in change (x =? 0) with v end; lia.
Qed.

Definition lead8 (t : target) (b : Z) : bool :=
  match t with
  | Ascii => b <=? 0x7f
  | Ucs2 => (b <=? 0x7f) || (0xbf <? b) && (b <=? 0xef)
  | Utf16 | Unicode => (b <=? 0x7f) || (0xbf <? b) && (b <=? 0xf4)
  | Utf8 | Ucs4 => (b <=? 0x7f) || (0xbf <? b) && (b <=? 0xfd)
  end.

Lemma leadFlag_spec t b : 0 < b < 0x100 ->
  (Z.land (getRangeFlag8 b) (rangeFlagOf (code t)) =? 0) = negb (lead8 t b).
Proof.
  intros Hb. unfold getRangeFlag8.
  destruct t; flag_cases; cbn [code lead8];
    match goal with |- (?x =? 0) = _ => let v := eval vm_compute in (x =? 0) in change (x =? 0) with v end; lia.
Qed.

Lemma pass2 a b : a && b = true -> negb a || negb b = false.
Proof. now destruct a, b. Qed.
Lemma fail2 a b : a && b = false -> negb a || negb b = true.
Proof. now destruct a, b. Qed.

Lemma predicateEq_null T pred c : predicateEq pred nullPredicate = true -> pred32 T pred c = true.
Proof. unfold predicateEq, pred32. cbn. intros H. now replace (m_mask pred =? 0) with true by lia. Qed.
Lemma predicateEq_null16 T pred c : predicateEq pred nullPredicate = true -> pred16 T pred c = true.
Proof. unfold predicateEq, pred16. cbn. intros H. now replace (m_mask pred =? 0) with true by lia. Qed.
Lemma pred_skip T pred c :
  negb (predicateEq pred nullPredicate) && negb (pred32 T pred c) = negb (pred32 T pred c).
Proof.
  destruct (predicateEq pred nullPredicate) eqn:E; [|reflexivity]. now rewrite (predicateEq_null T _ c E).
Qed.
Lemma pred_skip16 T pred c :
  negb (predicateEq pred nullPredicate) && negb (pred16 T pred c) = negb (pred16 T pred c).
Proof.
  destruct (predicateEq pred nullPredicate) eqn:E; [|reflexivity]. now rewrite (predicateEq_null16 T _ c E).
Qed.

(* ---------------------------------------------------------------- isUtf8 *)

(* acceptance, following the loop *)
Inductive acc8 (seqok : Z -> list Z -> bool) (leadok : Z -> bool) : list Z -> Prop :=
| acc8_nil : acc8 seqok leadok []
| acc8_cut t : cut_short t -> leadok (hd 0 t) = true -> acc8 seqok leadok t
| acc8_seq c s rest : utf8_seq c s -> seqok c s = true -> acc8 seqok leadok rest -> acc8 seqok leadok (s ++ rest).

Lemma acc8_seq_inv seqok leadok c s rest : utf8_seq c s -> acc8 seqok leadok (s ++ rest) ->
  seqok c s = true /\ acc8 seqok leadok rest.
Proof.
  intros Hs H. remember (s ++ rest) as bs eqn:E. destruct H as [|t Ht Hl|c' s' rest' Hs' Hok Hr].
  - symmetry in E. apply app_eq_nil in E. destruct E as [-> _]. now apply seq_ne in Hs.
  - exfalso. eapply cut_no_seq; [exact Ht|exact Hs|exact E].
  - destruct (seq_unique _ _ _ _ _ _ Hs' Hs E) as (-> & -> & ->). auto.
Qed.
Lemma acc8_cut_inv seqok leadok t : cut_short t -> acc8 seqok leadok t -> leadok (hd 0 t) = true.
Proof.
  intros Ht H. destruct H as [|t _ Hl|c' s' rest' Hs' Hok Hr].
  - now apply cut_ne in Ht.
  - exact Hl.
  - exfalso. eapply cut_no_seq; [exact Ht|exact Hs'|reflexivity].
Qed.
Lemma acc8_reads seqok leadok bs : acc8 seqok leadok bs -> exists cs, reads_as cs bs.
Proof.
  induction 1 as [|t Ht Hl|c s rest Hs Hok Hr [cs IH]].
  - exists []. apply reads_as_nil.
  - exists []. now apply reads_as_cut.
  - exists (c :: cs). now apply reads_as_cons.
Qed.

Lemma acc8_iff seqok leadok (ok tail_ok : Z -> Prop) bs :
  (forall c s, utf8_seq c s -> (seqok c s = true <-> ok c)) ->
  (forall t, cut_short t -> (leadok (hd 0 t) = true <-> tail_ok (hd 0 t))) ->
  acc8 seqok leadok bs <-> acceptable8 ok tail_ok bs.
Proof.
  intros Hs Hl. split.
  - induction 1 as [|t Ht Htl|c s rest Hseq Hok Hr IH].
    + exists [], [], []. repeat split; [constructor|constructor|now left].
    + exists [], [], t. repeat split; [constructor|constructor|right]. split; [assumption|]. now apply Hl.
    + destruct IH as (cs & body & tail & -> & Hb & Hf & Ht). exists (c :: cs), (s ++ body), tail.
      rewrite app_assoc. repeat split; [constructor; assumption| |assumption].
      constructor; [|assumption]. now apply (Hs c s).
  - intros (cs & body & tail & -> & Hb & Hf & Ht). revert Hf. induction Hb as [|c s cs bs Hseq Hb IH]; intros Hf.
    + cbn [app]. destruct Ht as [->|[Ht Htl]]; [constructor|]. apply acc8_cut; [assumption|]. now apply Hl.
    + apply Forall_cons_inv in Hf. rewrite <- app_assoc. destruct Hf as [Hc Hf].
      econstructor; [exact Hseq| |auto]. now apply Hs.
Qed.

Lemma seq_hd c s rest : utf8_seq c s -> hd 0 (s ++ rest) = hd 0 s.
Proof. intros H. apply seq_ne in H. destruct s; [congruence|reflexivity]. Qed.

Lemma answer_false {P : Prop} : ~ P -> exists b : bool, Done false = Done b /\ (b = true <-> P).
Proof. intros H. exists false. split; [reflexivity|]. split; [discriminate|tauto]. Qed.
Lemma answer_true {P : Prop} : P -> exists b : bool, Done true = Done b /\ (b = true <-> P).
Proof. intros H. exists true. split; [reflexivity|]. split; auto. Qed.

Definition seqok8 (T : UnicodeTables) pred t (c : Z) (s : list Z) : bool :=
  lead8 t (hd 0 s) && range32 t c && pred32 T pred c.

Lemma isUtf8_loop_exact T pred t junk pl ll n : forall bs fuel, (length bs <= n)%nat -> (n < fuel)%nat -> text8 bs ->
  answers Done (isUtf8_loop T pred (rangeFlagOf (code t)) false fuel (bs ++ 0 :: junk) pl ll)
    (acc8 (seqok8 T pred t) (lead8 t) bs).
Proof.
  induction n as [|n IH]; intros bs fuel Hn Hf Hb; (destruct fuel as [|fuel]; [lia|]).
  { destruct bs; [|cbn in Hn; lia]. cbn. apply answer_true. constructor. }
  destruct bs as [|b bs]. { cbn. apply answer_true. constructor. }
  pose proof (Forall_cons_inv _ _ _ Hb) as [Hb0 _].
  cbn [isUtf8_loop app deref bind]. replace (b =? 0) with false by lia.
  rewrite leadFlag_spec by lia. destruct (lead8 t b) eqn:El; cbn [negb].
  2:{ apply answer_false. intros H. inversion H as [|t' Ht' Hl'|c s rest Hs Hok Hr Es].
      - subst. cbn in Hl'. congruence.
      - rewrite <- Es in *. unfold seqok8 in Hok. pose proof (seq_ne _ _ Hs).
        destruct s as [|x s]; [congruence|]. injection Es as -> _. cbn [hd] in Hok. rewrite El in Hok. discriminate. }
  change (b :: bs ++ 0 :: junk) with ((b :: bs) ++ 0 :: junk).
  destruct (scan_cases (b :: bs) junk Hb ltac:(discriminate)) as [c s rest E Hs D|Hc D|Hbad D];
    rewrite D; cbn [bind].
  - pose proof (seq_range _ _ Hs) as [Hr _].
    assert (Hlen : (length rest <= n)%nat).
    { rewrite E, app_length in Hn. pose proof (seq_ne _ _ Hs). destruct s; [congruence|cbn [length] in Hn; lia]. }
    assert (Hb' : text8 rest) by (rewrite E in Hb; apply text8_app in Hb; tauto).
    assert (Hhd : hd 0 s = b). { rewrite <- (seq_hd c s rest Hs), <- E. reflexivity. }
    replace (c =? 0) with false by lia. cbn [andb].
    rewrite charFlag_spec, pred_skip by lia. rewrite E.
    destruct (range32 t c && pred32 T pred c) eqn:Eok.
    + rewrite (pass2 _ _ Eok). cbn [incr bind].
      destruct (IH rest fuel Hlen ltac:(lia) Hb') as (a & Ha & Hiff). exists a. split; [exact Ha|].
      rewrite Hiff. split.
      * intros H. apply (acc8_seq _ _ c); [assumption| |assumption].
        unfold seqok8. rewrite Hhd, El. exact Eok.
      * intros H. now apply (acc8_seq_inv _ _ c s rest) in H.
    + rewrite (fail2 _ _ Eok).
      apply answer_false. intros H. apply (acc8_seq_inv _ _ c s rest) in H; [|assumption].
      destruct H as [H _]. unfold seqok8 in H. rewrite <- andb_assoc, Eok, andb_false_r in H. discriminate.
  - cbn. apply answer_true. now constructor.
  - apply answer_false. intros H. destruct (acc8_reads _ _ _ H) as [cs Hcs]. exact (Hbad _ Hcs).
Qed.


Lemma lead_of_seq c s : utf8_seq c s ->
  (c < 0x80 /\ hd 0 s = c) \/
  (0x80 <= c < 0x800 /\ 0xC0 <= hd 0 s <= 0xDF) \/
  (0x800 <= c < 0x10000 /\ 0xE0 <= hd 0 s <= 0xEF) \/
  (0x10000 <= c <= 0x10FFFF /\ 0xE0 <= hd 0 s <= 0xEF) \/
  (0x10000 <= c < 0x200000 /\ hd 0 s = 0xF0 + c / 0x40000) \/
  (0x200000 <= c < 0x80000000 /\ 0xF8 <= hd 0 s <= 0xFD).
Proof.
  intros H. destruct H as [c [Hc Hns]|c Hc].
  - unfold utf8_bytes. repeat match goal with |- context [if ?b then _ else _] => destruct b eqn:? end; cbn [hd].
    + lia. + right; left. change (64 ^ 1) with 64. lia.
    + right; right; left. change (64 ^ 2) with 4096. lia.
    + right; right; right; right; left. change (64 ^ 3) with 0x40000. lia.
    + right; right; right; right; right. change (64 ^ 4) with 0x1000000. lia.
    + right; right; right; right; right. change (64 ^ 5) with 0x40000000. lia.
  - right; right; right; left. split; [lia|]. destruct (utf16_units_supp c Hc) as (h & l & -> & Hh & _).
    cbn [flat_map]. unfold high_surrogate in Hh.
    unfold utf8_bytes. replace (h <? 0x80) with false by lia. replace (h <? 0x800) with false by lia.
    replace (h <? 0x10000) with true by lia. cbn [app hd]. change (64 ^ 2) with 4096. lia.
Qed.

Lemma seqok8_spec T pred t c s : utf8_seq c s ->
  seqok8 T pred t c s = true <-> range_isUtf8 t c /\ pred32 T pred c = true.
Proof.
  intros H. unfold seqok8. pose proof (seq_range _ _ H) as [Hr Hns]. unfold surrogate in Hns.
  pose proof (lead_of_seq _ _ H) as Hl.
  unfold range_isUtf8, documented, range32, lead8, bmp, scalar, surrogate.
  destruct (pred32 T pred c); [|split; [|intros []; discriminate]; rewrite andb_false_r; discriminate].
  rewrite andb_true_r. destruct t; lia.
Qed.

Lemma lead8_spec t s : cut_short s -> lead8 t (hd 0 s) = true <-> possible_lead t (hd 0 s).
Proof.
  intros H. assert (Hr : 0xC0 <= hd 0 s <= 0xFD).
  { destruct H as [b n conts0 Hl _ Hc|a b Ha Hb|a b x conts0 Ha Hb Hx _ Hc]; cbn [hd]; unfold lead in *; lia. }
  destruct t; cbn [lead8 possible_lead]; lia.
Qed.

Lemma isUtf8_exact T bs junk t pred : text8 bs ->
  answers Done (isUtf8 T (At (bs ++ 0 :: junk)) (code t) pred)
    (acceptable8 (fun c => range_isUtf8 t c /\ pred32 T pred c = true) (possible_lead t) bs).
Proof.
  intros Hb. unfold isUtf8, isUtf8_impl. rewrite code_ok. cbn [Z.eqb negb].
  assert (Hiff := acc8_iff (seqok8 T pred t) (lead8 t) _ _ bs (seqok8_spec T pred t) (lead8_spec t)).
  destruct bs as [|b bs].
  - cbn. apply answer_true. apply Hiff. constructor.
  - pose proof (Forall_cons_inv _ _ _ Hb) as [Hb0 _]. cbn [app deref bind]. replace (b =? 0) with false by lia.
    change (b :: bs ++ 0 :: junk) with ((b :: bs) ++ 0 :: junk).
    destruct (isUtf8_loop_exact T pred t junk (remaining ((b :: bs) ++ 0 :: junk) + 1) 0 (length (b :: bs)) (b :: bs)
      (S (length ((b :: bs) ++ 0 :: junk)))) as (a & Ha & Hi); [lia|rewrite app_length; lia|assumption|].
    exists a. split; [exact Ha|]. now rewrite Hi.
Qed.

(* ---------------------------------------------------------------- isUtf16 *)

Definition suppl (t : target) : bool := match t with Ascii | Ucs2 => false | _ => true end.

Lemma rangeFlag16_spec t c : 0 < c < 0x10000 ->
  (Z.land (getRangeFlag16 c) (rangeFlagOf (code t)) =? 0) =
  negb (if (0xD800 <=? c) && (c <=? 0xDBFF) then suppl t
        else if (0xDC00 <=? c) && (c <=? 0xDFFF) then false
        else match t with Ascii => c <=? 0x7f | _ => true end).
Proof.
  intros Hb. unfold getRangeFlag16.
  destruct t; flag_cases; cbn [code suppl];
    match goal with |- (?x =? 0) = _ => let v := eval vm_compute in (x =? 0) in change (x =? 0) with v end; lia.
Qed.
Lemma pairFlag_spec t : (Z.land k21BitUnicodeFlags (rangeFlagOf (code t)) =? 0) = negb (suppl t).
Proof. destruct t; reflexivity. Qed.

Definition ok16 (T : UnicodeTables) pred t (c : Z) : Prop :=
  documented t c /\ pred16 T pred (hd 0 (utf16_units c)) = true.

Lemma acc16_nil (ok : Z -> Prop) (tl : Prop) : acceptable16 ok tl [].
Proof. exists [], [], []. repeat split; [constructor|constructor|now left]. Qed.
Lemma acc16_last (ok : Z -> Prop) (tl : Prop) h : high_surrogate h -> tl -> acceptable16 ok tl [h].
Proof. intros Hh Ht. exists [], [], [h]. repeat split; [constructor|constructor|]. right. eauto. Qed.
Lemma acc16_cons (ok : Z -> Prop) (tl : Prop) c us : scalar c -> ok c -> acceptable16 ok tl us -> acceptable16 ok tl (utf16_units c ++ us).
Proof.
  intros Hc Hok (cs & b & t & -> & [Hb ->] & Hf & Ht). exists (c :: cs), (flat_map utf16_units (c :: cs)), t.
  cbn [flat_map]. rewrite app_assoc. repeat split; auto.
Qed.
Lemma acc16_reads (ok : Z -> Prop) (tl : Prop) us : acceptable16 ok tl us -> exists cs, reads_as16 cs us /\ Forall ok cs.
Proof.
  intros (cs & b & t & -> & Hb & Hf & Ht). exists cs. split; [|assumption]. exists b, t. repeat split; try apply Hb.
  destruct Ht as [->|[_ Ht]]; auto.
Qed.
Lemma acc16_inv (ok : Z -> Prop) (tl : Prop) us : acceptable16 ok tl us ->
  us = [] \/ (tl /\ exists h, us = [h] /\ high_surrogate h) \/
  exists c rest, us = utf16_units c ++ rest /\ scalar c /\ ok c /\ acceptable16 ok tl rest.
Proof.
  intros (cs & b & t & -> & [Hb ->] & Hf & Ht). destruct Hb as [|c cs Hc Hcs].
  - destruct Ht as [->|[Htl Ht]]; auto.
  - right; right. apply Forall_cons_inv in Hf. exists c, (flat_map utf16_units cs ++ t). cbn [flat_map].
    rewrite app_assoc. repeat split; try apply Hc; try tauto.
    exists cs, (flat_map utf16_units cs), t. repeat split; tauto.
Qed.

Lemma units_cases c : scalar c -> (bmp c /\ utf16_units c = [c]) \/
  exists h l, utf16_units c = [h; l] /\ high_surrogate h /\ low_surrogate l /\ c = pair_value h l.
Proof.
  intros [Hc Hn]. destruct (Z.ltb_spec c 0x10000).
  - left. split; [unfold bmp, surrogate in *; lia|]. apply utf16_units_bmp. lia.
  - right. destruct (utf16_units_supp c ltac:(lia)) as (h & l & E & Hh & Hl & Ec). exists h, l. auto.
Qed.

Lemma acc16_plain_inv (ok : Z -> Prop) (tl : Prop) c rest : bmp c -> acceptable16 ok tl (c :: rest) -> ok c /\ acceptable16 ok tl rest.
Proof.
  intros [Hc Hn] H. apply acc16_inv in H.
  destruct H as [E|[(_ & h & E & Hh)|(c' & r & E & Hs & Hok & Hr)]]; [discriminate| |].
  - injection E as -> _. unfold high_surrogate, surrogate in *. lia.
  - destruct (units_cases c' Hs) as [[Hb E']|(h & l & E' & Hh & _)]; rewrite E' in E; injection E as -> E.
    + now subst rest.
    + unfold high_surrogate, surrogate in *. lia.
Qed.
Lemma acc16_pair_inv (ok : Z -> Prop) (tl : Prop) h l rest : high_surrogate h -> low_surrogate l -> acceptable16 ok tl (h :: l :: rest) ->
  ok (pair_value h l) /\ acceptable16 ok tl rest.
Proof.
  intros Hh Hl H. apply acc16_inv in H.
  destruct H as [E|[(_ & h' & E & Hh')|(c' & r & E & Hs & Hok & Hr)]]; [discriminate|discriminate|].
  destruct (units_cases c' Hs) as [[[Hb1 Hb2] E']|(h' & l' & E' & Hh' & Hl' & Ec)]; rewrite E' in E.
  - injection E as -> _. unfold high_surrogate, surrogate in *. lia.
  - injection E as -> -> ->. now subst c'.
Qed.
Lemma acc16_last_inv (ok : Z -> Prop) (tl : Prop) h : high_surrogate h -> acceptable16 ok tl [h] -> tl.
Proof.
  intros Hh H. apply acc16_inv in H.
  destruct H as [E|[(Ht & _)|(c' & r & E & Hs & Hok & Hr)]]; [discriminate|exact Ht|].
  destruct (units_cases c' Hs) as [[[Hb1 Hb2] E']|(h' & l' & E' & Hh' & Hl' & Ec)]; rewrite E' in E.
  - injection E as -> _. unfold high_surrogate, surrogate in *. lia.
  - discriminate.
Qed.

Lemma suppl_spec t : suppl t = true <-> supplementary_target t.
Proof. unfold supplementary_target. destruct t; cbn; split; try discriminate; try (intros []; congruence); repeat split; discriminate. Qed.

Lemma isUtf16_loop_exact T pred t junk n : forall us, (length us <= n)%nat -> text16 us ->
  answers Done (isUtf16_loop T pred (rangeFlagOf (code t)) (us ++ 0 :: junk))
    (acceptable16 (ok16 T pred t) (supplementary_target t) us).
Proof.
  induction n as [|n IH]; intros us Hn Ht.
  { destruct us; [|cbn in Hn; lia]. cbn. apply answer_true. apply acc16_nil. }
  destruct us as [|u us]. { cbn. apply answer_true. apply acc16_nil. }
  pose proof (Forall_cons_inv _ _ _ Ht) as [Hu Htl].
  cbn [isUtf16_loop app]. replace (u =? 0) with false by lia.
  rewrite rangeFlag16_spec, isFirst_b by lia.
  destruct (scan16_cases (u :: us) Ht ltac:(discriminate)) as [c r E Hc|h l r E Hh Hl|h E Hh|h x r E Hh Hx|l r E Hl];
    injection E as -> ->.
  - assert (Hc' := Hc). destruct Hc' as [Hr Hns]. unfold surrogate in Hns.
    replace ((0xD800 <=? c) && (c <=? 0xDBFF)) with false by lia.
    replace ((0xDC00 <=? c) && (c <=? 0xDFFF)) with false by lia.
    rewrite charFlag_spec, pred_skip16 by lia.
    assert (Hok : ok16 T pred t c <-> range32 t c && pred16 T pred c = true).
    { unfold ok16. rewrite utf16_units_bmp by lia. cbn [hd]. rewrite andb_true_iff.
      enough (documented t c <-> range32 t c = true) by tauto.
      unfold documented, range32, bmp, scalar, surrogate. destruct t; lia. }
    destruct (match t with Ascii => c <=? 0x7f | _ => true end) eqn:Ef; cbn [negb].
    + destruct (range32 t c && pred16 T pred c) eqn:Eok.
      * rewrite (pass2 _ _ Eok).
        destruct (IH r ltac:(cbn in Hn; lia) Htl) as (a & Ha & Hi). exists a. split; [exact Ha|]. rewrite Hi. split.
        -- intros H. change (c :: r) with ([c] ++ r). rewrite <- (utf16_units_bmp c) by lia.
           apply acc16_cons; [unfold scalar, surrogate; lia|tauto|assumption].
        -- intros H. now apply acc16_plain_inv in H.
      * rewrite (fail2 _ _ Eok).
        apply answer_false. intros H. apply acc16_plain_inv in H; [|assumption]. destruct H as [H _]. apply Hok in H. discriminate.
    + apply answer_false. intros H. apply acc16_plain_inv in H; [|assumption]. destruct H as [[H _] _].
      destruct t; try discriminate. cbn in H. lia.
  - assert (0xD800 <= h <= 0xDBFF) by exact Hh. assert (0xDC00 <= l <= 0xDFFF) by exact Hl.
    replace ((0xD800 <=? h) && (h <=? 0xDBFF)) with true by lia. cbn [app].
    replace (l =? 0) with false by lia. rewrite isSecond_b.
    replace ((0xDC00 <=? l) && (l <=? 0xDFFF)) with true by lia. cbn [negb].
    rewrite pairFlag_spec, pred_skip16.
    pose proof (Forall_cons_inv _ _ _ Htl) as [_ Htr].
    destruct (pair_units h l Hh Hl) as (Eu & Hsc & Hrg).
    assert (Hok : ok16 T pred t (pair_value h l) <-> suppl t && pred16 T pred h = true).
    { unfold ok16. rewrite Eu. cbn [hd]. rewrite andb_true_iff.
      enough (documented t (pair_value h l) <-> suppl t = true) by tauto.
      unfold documented, suppl, bmp. unfold scalar, surrogate in *. destruct t; lia. }
    destruct (suppl t) eqn:Es; cbn [negb orb andb] in *.
    + destruct (pred16 T pred h) eqn:Ep; cbn [negb].
      * destruct (IH r ltac:(cbn in Hn; lia) Htr) as (a & Ha & Hi). exists a. split; [exact Ha|]. rewrite Hi. split.
        -- intros Hacc. change (h :: l :: r) with ([h; l] ++ r). rewrite <- Eu. apply acc16_cons; tauto.
        -- intros Hacc. now apply acc16_pair_inv in Hacc.
      * apply answer_false. intros Hacc. apply acc16_pair_inv in Hacc; try assumption. destruct Hacc as [Hacc _]. apply Hok in Hacc. congruence.
    + apply answer_false. intros Hacc. apply acc16_pair_inv in Hacc; try assumption. destruct Hacc as [Hacc _]. apply Hok in Hacc. discriminate.
  - assert (0xD800 <= h <= 0xDBFF) by exact Hh.
    replace ((0xD800 <=? h) && (h <=? 0xDBFF)) with true by lia. cbn [app].
    destruct (suppl t) eqn:Es; cbn [negb].
    + cbn. apply answer_true. apply acc16_last; [assumption|]. now apply suppl_spec.
    + apply answer_false. intros Hacc. apply acc16_last_inv in Hacc; [|assumption]. apply suppl_spec in Hacc. congruence.
  - assert (0xD800 <= h <= 0xDBFF) by exact Hh.
    replace ((0xD800 <=? h) && (h <=? 0xDBFF)) with true by lia. cbn [app].
    pose proof (Forall_cons_inv _ _ _ Htl) as [Hx0 _].
    assert (Hno : ~ acceptable16 (ok16 T pred t) (supplementary_target t) (h :: x :: r)).
    { intros Hacc. destruct (acc16_reads _ _ _ Hacc) as (cs & Hcs & _). eapply reads16_high_inv; eassumption. }
    replace (x =? 0) with false by lia. rewrite isSecond_b. unfold low_surrogate in Hx.
    replace ((0xDC00 <=? x) && (x <=? 0xDFFF)) with false by lia. cbn [negb].
    destruct (suppl t); apply answer_false; exact Hno.
  - assert (0xDC00 <= l <= 0xDFFF) by exact Hl.
    replace ((0xD800 <=? l) && (l <=? 0xDBFF)) with false by lia.
    replace ((0xDC00 <=? l) && (l <=? 0xDFFF)) with true by lia. cbn [negb].
    apply answer_false. intros Hacc. destruct (acc16_reads _ _ _ Hacc) as (cs & Hcs & _). eapply reads16_low_inv; eassumption.
Qed.

Lemma isUtf16_exact T us junk t pred : text16 us ->
  answers Done (isUtf16 T (At (us ++ 0 :: junk)) (code t) pred)
    (acceptable16 (ok16 T pred t) (supplementary_target t) us).
Proof.
  intros Ht. unfold isUtf16. rewrite code_ok. destruct us as [|u us].
  - cbn. apply answer_true. apply acc16_nil.
  - pose proof (Forall_cons_inv _ _ _ Ht) as [Hu _]. cbn [app deref bind]. replace (u =? 0) with false by lia.
    change (u :: us ++ 0 :: junk) with ((u :: us) ++ 0 :: junk).
    apply (isUtf16_loop_exact T pred t junk (length (u :: us))); [lia|assumption].
Qed.

(* ---------------------------------------------------------------- isUcs2, isUcs4 *)

Lemma isUcs2_loop_exact T pred t junk us : text16 us ->
  isUcs2_loop T pred (rangeFlagOf (code t)) (us ++ 0 :: junk) =
    Done (forallb (fun c => negb (isUtf16EscapedRange c) && range32 t c && pred16 T pred c) us).
Proof.
  induction us as [|u us IH]; intros H; [reflexivity|]. apply Forall_cons_inv in H. destruct H as [Hu H].
  cbn [app isUcs2_loop forallb]. replace (u =? 0) with false by lia.
  rewrite charFlag_spec, pred_skip16 by lia.
  destruct (isUtf16EscapedRange u); [reflexivity|]. cbn [negb andb].
  destruct (range32 t u); [|reflexivity]. cbn [negb orb andb].
  destruct (pred16 T pred u); [|reflexivity]. cbn [negb andb]. auto.
Qed.

Lemma isUcs4_loop_exact T pred t junk us : text32 us ->
  isUcs4_loop T pred (rangeFlagOf (code t)) (us ++ 0 :: junk) =
    Done (forallb (fun c => range32 t c && pred32 T pred c) us).
Proof.
  induction us as [|u us IH]; intros H; [reflexivity|]. apply Forall_cons_inv in H. destruct H as [Hu H].
  cbn [app isUcs4_loop forallb]. replace (u =? 0) with false by lia.
  rewrite charFlag_spec, pred_skip by lia.
  destruct (range32 t u); [|reflexivity]. cbn [negb orb andb].
  destruct (pred32 T pred u); [|reflexivity]. cbn [negb andb]. auto.
Qed.


Lemma isUcs2_exact T us junk t pred : text16 us ->
  answers Done (isUcs2 T (At (us ++ 0 :: junk)) (code t) pred)
    (Forall (fun c => bmp c /\ documented t c /\ pred16 T pred c = true) us).
Proof.
  intros Ht. exists (forallb (fun c => negb (isUtf16EscapedRange c) && range32 t c && pred16 T pred c) us). split.
  - unfold isUcs2. rewrite code_ok. destruct us as [|u us]; [reflexivity|].
    pose proof (Forall_cons_inv _ _ _ Ht) as [Hu _]. cbn [app deref bind]. replace (u =? 0) with false by lia.
    change (u :: us ++ 0 :: junk) with ((u :: us) ++ 0 :: junk). now apply isUcs2_loop_exact.
  - apply (forallb_spec _ _ (fun u => 0 < u < 0x10000)); [|exact Ht]. intros c Hc.
    destruct (pred16 T pred c); [|split; [lia|intros (_ & _ & H); discriminate]].
    unfold isUtf16EscapedRange. rewrite isFirst_b, isSecond_b.
    unfold documented, range32, bmp, scalar, surrogate. destruct t; lia.
Qed.

Lemma isUcs4_exact T us junk t pred : text32 us ->
  answers Done (isUcs4 T (At (us ++ 0 :: junk)) (code t) pred)
    (Forall (fun c => range_isUcs4 t c /\ pred32 T pred c = true) us).
Proof.
  intros Ht. exists (forallb (fun c => range32 t c && pred32 T pred c) us). split.
  - unfold isUcs4. rewrite code_ok. destruct us as [|u us]; [reflexivity|].
    pose proof (Forall_cons_inv _ _ _ Ht) as [Hu _]. cbn [app deref bind]. replace (u =? 0) with false by lia.
    change (u :: us ++ 0 :: junk) with ((u :: us) ++ 0 :: junk). now apply isUcs4_loop_exact.
  - apply (forallb_spec _ _ (fun u => 0 < u < 0x100000000)); [|exact Ht]. intros c Hc.
    destruct (pred32 T pred c); [|split; [lia|intros (_ & H); discriminate]].
    unfold range_isUcs4, documented, range32, bmp, scalar, surrogate. destruct t; lia.
Qed.
