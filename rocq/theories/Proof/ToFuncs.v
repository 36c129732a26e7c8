(* The conversion functions compute exactly what the encodings say. *)
From Coq Require Import ZArith List Bool Lia ZifyBool.
From Verif Require Import Machine.
From Verif.Model Require Import Internal Decode Tables Predicate Str.
From Verif.Spec Require Import Utf Target Result.
From Verif.Proof Require Import Bits Encode DecodeFacts TextFacts.
Import ListNotations.
Local Open Scope Z_scope.

Lemma isFirst_b c : isFirstHalfUtf16 c = (0xD800 <=? c) && (c <=? 0xDBFF).
Proof. unfold isFirstHalfUtf16. lia. Qed.
Lemma isSecond_b c : isSecondHalfUtf16 c = (0xDC00 <=? c) && (c <=? 0xDFFF).
Proof. unfold isSecondHalfUtf16. lia. Qed.

(* ---------------------------------------------------------------- from UTF-8 *)

(* the common shape of the three loops reading UTF-8 *)
Section Loop8.
Context (bad : Z -> bool) (enc : Z -> list Z).
Fixpoint from8_loop (fuel : nat) (p result : list Z) : outcome (list Z) :=
  match fuel with
  | O => OutOfFuel
  | S fuel =>
    do u <- deref p;
    if u =? 0 then Done result
    else
      do cp <- decodeUtf8 p;
      let '(c, p') := cp in
      match p' with
      | Null => Done []
      | At p' =>
        if bad c then Done []
        else if c =? 0 then Done result
        else do p'' <- incr p'; from8_loop fuel p'' (result ++ enc c)
      end
  end.
End Loop8.

Lemma toUcs4_8_loop_eq : toUcs4_8_loop = from8_loop (fun _ => false) (fun c => [c]).
Proof. reflexivity. Qed.
Lemma toUtf16_8_loop_eq : toUtf16_8_loop = from8_loop (fun c => negb (isUtf16Encodable c)) rawEncodeUtf16.
Proof. reflexivity. Qed.
Lemma toUcs2_8_loop_eq : toUcs2_8_loop = from8_loop (fun c => c >? 0xffff) (fun c => [wrap16 c]).
Proof. reflexivity. Qed.

Section From8.
Context (bad : Z -> bool) (enc : Z -> list Z).
Hypothesis bad0 : bad 0 = false.

Lemma from8_loop_exact junk n : forall bs fuel result, (length bs <= n)%nat -> (n < fuel)%nat -> text8 bs ->
  (forall cs, reads_as cs bs -> existsb bad cs = false ->
     from8_loop bad enc fuel (bs ++ 0 :: junk) result = Done (result ++ flat_map enc cs)) /\
  ((forall cs, reads_as cs bs -> existsb bad cs = true) ->
     from8_loop bad enc fuel (bs ++ 0 :: junk) result = Done []).
Proof.
  induction n as [|n IH]; intros bs fuel result Hn Hf Hb; (destruct fuel as [|fuel]; [lia|]).
  - destruct bs; [|cbn in Hn; lia]. cbn. split.
    + intros cs H _. apply reads_as_nil_inv in H. subst cs. cbn. now rewrite app_nil_r.
    + intros H. specialize (H [] reads_as_nil). discriminate.
  - destruct bs as [|b bs].
    { cbn. split.
      + intros cs H _. apply reads_as_nil_inv in H. subst cs. cbn. now rewrite app_nil_r.
      + intros H. specialize (H [] reads_as_nil). discriminate. }
    assert (Hb0 : (b =? 0) = false) by (apply Forall_cons_inv in Hb; lia).
    cbn [from8_loop app deref bind]. rewrite Hb0.
    change (b :: bs ++ 0 :: junk) with ((b :: bs) ++ 0 :: junk).
    destruct (scan_cases (b :: bs) junk Hb ltac:(discriminate)) as [c s rest E Hs D|Hc D|Hbad D];
      rewrite D; cbn [bind].
    + pose proof (seq_range _ _ Hs) as [Hr _].
      assert (Hlen : (length rest <= n)%nat).
      { rewrite E, app_length in Hn. pose proof (seq_ne _ _ Hs). destruct s; [congruence|cbn [length] in Hn; lia]. }
      assert (Hb' : text8 rest) by (rewrite E in Hb; apply text8_app in Hb; tauto).
      rewrite E. destruct (bad c) eqn:Eb.
      * split; [|auto]. intros cs H Hok. destruct (reads_as_seq_inv _ _ _ _ Hs H) as (cs' & -> & _).
        cbn [existsb] in Hok. rewrite Eb in Hok. discriminate.
      * replace (c =? 0) with false by lia. cbn [incr bind].
        destruct (IH rest fuel (result ++ enc c) Hlen ltac:(lia) Hb') as [H1 H2]. split.
        -- intros cs H Hok. destruct (reads_as_seq_inv _ _ _ _ Hs H) as (cs' & -> & Hr').
           cbn [existsb flat_map] in *. rewrite Eb in Hok. rewrite (H1 cs') by assumption.
           now rewrite <- app_assoc.
        -- intros H. apply H2. intros cs Hcs. specialize (H _ (reads_as_cons _ _ _ _ Hs Hcs)).
           cbn [existsb] in H. now rewrite Eb in H.
    + rewrite bad0. cbn. split.
      * intros cs H _. rewrite (reads_as_cut_inv _ _ Hc H). cbn. now rewrite app_nil_r.
      * intros H. specialize (H [] (reads_as_cut _ Hc)). discriminate.
    + split; [|auto]. intros cs H. exfalso. exact (Hbad _ H).
Qed.
End From8.

(* ... in terms of convert, which tests for the empty string first *)
Lemma convert_nul loop junk bs : text8 bs -> loop (0 :: junk) = Done [] ->
  convert (At (bs ++ 0 :: junk)) loop = loop (bs ++ 0 :: junk).
Proof.
  intros Hb H0. destruct bs as [|b bs]; cbn; [auto|].
  apply Forall_cons_inv in Hb. now replace (b =? 0) with false by lia.
Qed.

Lemma convert8_exact bad enc bs junk : bad 0 = false -> text8 bs ->
  let r := convert (At (bs ++ 0 :: junk)) (fun p => from8_loop bad enc (S (length p)) p []) in
  (forall cs, reads_as cs bs -> existsb bad cs = false -> r = Done (flat_map enc cs)) /\
  ((forall cs, reads_as cs bs -> existsb bad cs = true) -> r = Done []).
Proof.
  intros H0 Hb r. unfold r. rewrite convert_nul; [|assumption|reflexivity].
  apply (from8_loop_exact bad enc H0 junk (length bs)); [lia| |assumption].
  rewrite app_length. cbn [length]. lia.
Qed.

Lemma flat_map_single (l : list Z) : flat_map (fun c => [c]) l = l.
Proof. induction l; cbn; congruence. Qed.
Lemma flat_map_ext_in {A B} (f g : A -> list B) l : (forall x, In x l -> f x = g x) -> flat_map f l = flat_map g l.
Proof.
  induction l as [|x l IH]; intros H; [reflexivity|]. cbn. rewrite H by now left. f_equal.
  apply IH. intros y Hy. apply H. now right.
Qed.
Lemma existsb_false_iff {A} (f : A -> bool) P l : (forall x, In x l -> (f x = false <-> P x)) ->
  existsb f l = false <-> Forall P l.
Proof.
  intros H. rewrite Forall_forall. split.
  - intros E x Hx. apply H; [assumption|]. destruct (f x) eqn:Ex; [|reflexivity].
    rewrite <- E. symmetry. apply existsb_exists. eauto.
  - intros HP. destruct (existsb f l) eqn:E; [|reflexivity]. apply existsb_exists in E.
    destruct E as (x & Hx & Ex). specialize (HP x Hx). apply H in HP; congruence.
Qed.


Lemma toUcs4_8_exact bs junk : text8 bs ->
  exact_conversion (fun cs => reads_as cs bs) (fun cs => cs) (toUcs4_8 (At (bs ++ 0 :: junk))).
Proof.
  intros Hb. destruct (convert8_exact (fun _ => false) (fun c => [c]) bs junk eq_refl Hb) as [H1 H2].
  split.
  - intros cs H. unfold toUcs4_8. rewrite toUcs4_8_loop_eq, (H1 cs H); [now rewrite flat_map_single|].
    clear. induction cs; auto.
  - intros H. apply H2. intros cs Hcs. exfalso. exact (H _ Hcs).
Qed.

Lemma toUtf16_8_exact bs junk : text8 bs ->
  exact_conversion (fun cs => reads_as cs bs /\ Forall (fun c => c <= 0x10FFFF) cs)
    (flat_map utf16_units) (toUtf16_8 (At (bs ++ 0 :: junk))).
Proof.
  intros Hb. destruct (convert8_exact (fun c => negb (isUtf16Encodable c)) rawEncodeUtf16 bs junk eq_refl Hb) as [H1 H2].
  assert (Hiff : forall cs, reads_as cs bs ->
    (existsb (fun c => negb (isUtf16Encodable c)) cs = false <-> Forall (fun c => c <= 0x10FFFF) cs)).
  { intros cs Hcs. apply existsb_false_iff. intros c Hc. apply reads_as_range in Hcs.
    rewrite Forall_forall in Hcs. specialize (Hcs c Hc). unfold encodable8 in Hcs.
    rewrite isUtf16Encodable_spec by lia. lia. }
  unfold toUtf16_8. rewrite toUtf16_8_loop_eq. split.
  - intros cs [H HP]. rewrite (H1 cs H) by (apply Hiff; assumption). f_equal.
    apply flat_map_ext_in. intros c Hc. apply reads_as_range in H. rewrite Forall_forall in H, HP.
    specialize (H c Hc). specialize (HP c Hc). unfold encodable8 in H. apply rawEncodeUtf16_spec. lia.
  - intros H. apply H2. intros cs Hcs. destruct (existsb _ cs) eqn:E; [reflexivity|].
    apply Hiff in E; [|assumption]. exfalso. eapply H. eauto.
Qed.

Lemma toUcs2_8_exact bs junk : text8 bs ->
  exact_conversion (fun cs => reads_as cs bs /\ Forall (fun c => c <= 0xFFFF) cs)
    (fun cs => cs) (toUcs2_8 (At (bs ++ 0 :: junk))).
Proof.
  intros Hb. destruct (convert8_exact (fun c => c >? 0xffff) (fun c => [wrap16 c]) bs junk eq_refl Hb) as [H1 H2].
  assert (Hiff : forall cs, reads_as cs bs ->
    (existsb (fun c => c >? 0xffff) cs = false <-> Forall (fun c => c <= 0xFFFF) cs)).
  { intros cs Hcs. apply existsb_false_iff. intros c Hc. lia. }
  unfold toUcs2_8. rewrite toUcs2_8_loop_eq. split.
  - intros cs [H HP]. rewrite (H1 cs H) by (apply Hiff; assumption). f_equal.
    rewrite <- (flat_map_single cs) at 2. apply flat_map_ext_in. intros c Hc.
    apply reads_as_range in H. rewrite Forall_forall in H, HP.
    specialize (H c Hc). specialize (HP c Hc). unfold encodable8 in H. cbn in HP. now rewrite wrap16_id by lia.
  - intros H. apply H2. intros cs Hcs. destruct (existsb _ cs) eqn:E; [reflexivity|].
    apply Hiff in E; [|assumption]. exfalso. eapply H. eauto.
Qed.

(* ---------------------------------------------------------------- from UCS-4 *)

Section Loop32.
Context (ok : Z -> bool) (enc : Z -> list Z).
Fixpoint from32_loop (p result : list Z) : outcome (list Z) :=
  match p with
  | [] => Undefined
  | c :: p' =>
    if c =? 0 then Done result
    else if ok c then from32_loop p' (result ++ enc c) else Done []
  end.
End Loop32.

Lemma from32_loop_exact ok enc junk : forall us result, ~ In 0 us ->
  from32_loop ok enc (us ++ 0 :: junk) result =
    Done (if forallb ok us then result ++ flat_map enc us else []).
Proof.
  induction us as [|u us IH]; intros result Hz; cbn.
  - now rewrite app_nil_r.
  - assert (Hu : (u =? 0) = false) by (destruct (Z.eqb_spec u 0); [subst; exfalso; apply Hz; now left|reflexivity]).
    rewrite Hu. destruct (ok u); [|reflexivity]. rewrite IH by (intros Hi; apply Hz; now right).
    cbn. destruct (forallb ok us); [|reflexivity]. now rewrite app_assoc.
Qed.

Lemma convert_nul' loop junk us : ~ In 0 us -> loop (0 :: junk) = Done [] ->
  convert (At (us ++ 0 :: junk)) loop = loop (us ++ 0 :: junk).
Proof.
  intros Hz H0. destruct us as [|u us]; cbn; [auto|].
  destruct (Z.eqb_spec u 0); [subst; exfalso; apply Hz; now left|reflexivity].
Qed.

Lemma text32_no_zero us : text32 us -> ~ In 0 us.
Proof. unfold text32. rewrite Forall_forall. intros H Hi. apply H in Hi. lia. Qed.
Lemma text16_no_zero us : text16 us -> ~ In 0 us.
Proof. unfold text16. rewrite Forall_forall. intros H Hi. apply H in Hi. lia. Qed.

Definition ok_utf8_32 (c : Z) : bool :=
  (Z.land c 0x80000000 =? 0) && negb (isFirstHalfUtf16 c) && negb (isSecondHalfUtf16 c).
Definition ok_utf16_32 (c : Z) : bool :=
  negb (negb (isUtf16Encodable c) || isFirstHalfUtf16 c || isSecondHalfUtf16 c).
Definition ok_ucs2_32 (c : Z) : bool :=
  negb (isFirstHalfUtf16 c || isSecondHalfUtf16 c || (c >=? 0x10000)).

Lemma toUtf8_32_loop_eq : toUtf8_32_loop = from32_loop ok_utf8_32 encodeUtf8.
Proof. reflexivity. Qed.
Lemma toUtf16_32_loop_eq p : forall r, toUtf16_32_loop p r = from32_loop ok_utf16_32 rawEncodeUtf16 p r.
Proof.
  induction p as [|c p IH]; intros r; [reflexivity|]. cbn [toUtf16_32_loop from32_loop]. unfold ok_utf16_32.
  destruct (c =? 0); [reflexivity|].
  destruct (negb (isUtf16Encodable c) || isFirstHalfUtf16 c || isSecondHalfUtf16 c); cbn [negb]; auto.
Qed.
Lemma toUcs2_32_loop_eq p : forall r, toUcs2_32_loop p r = from32_loop ok_ucs2_32 (fun c => [wrap16 c]) p r.
Proof.
  induction p as [|c p IH]; intros r; [reflexivity|]. cbn [toUcs2_32_loop from32_loop]. unfold ok_ucs2_32.
  destruct (c =? 0); [reflexivity|].
  destruct (isFirstHalfUtf16 c || isSecondHalfUtf16 c || (c >=? 0x10000)); cbn [negb]; auto.
Qed.

Lemma ok_utf8_32_spec c : 0 < c < 0x100000000 -> ok_utf8_32 c = true <-> encodable8 c.
Proof.
  intros H. unfold ok_utf8_32, encodable8, surrogate. rewrite land_80000000 by lia.
  rewrite isFirst_b, isSecond_b. lia.
Qed.
Lemma ok_utf16_32_spec c : 0 < c < 0x100000000 -> ok_utf16_32 c = true <-> scalar c.
Proof.
  intros H. unfold ok_utf16_32, scalar, surrogate. rewrite isUtf16Encodable_spec by lia.
  rewrite isFirst_b, isSecond_b. lia.
Qed.
Lemma ok_ucs2_32_spec c : 0 < c < 0x100000000 -> ok_ucs2_32 c = true <-> bmp c.
Proof.
  intros H. unfold ok_ucs2_32, bmp, surrogate.
  rewrite isFirst_b, isSecond_b. lia.
Qed.

Lemma forallb_spec {A} (ok : A -> bool) (P R : A -> Prop) l :
  (forall x, R x -> (ok x = true <-> P x)) -> Forall R l -> forallb ok l = true <-> Forall P l.
Proof.
  intros H. induction 1 as [|x l Hx Hl IH]; cbn; [split; auto|].
  rewrite andb_true_iff, IH, (H x Hx). split; [intros []; constructor; auto|].
  intros H'. apply Forall_cons_inv in H'. exact H'.
Qed.


Lemma from32_exact ok enc P enc' us junk loop :
  text32 us -> (forall p r, loop p r = from32_loop ok enc p r) ->
  (forall c, 0 < c < 0x100000000 -> (ok c = true <-> P c)) ->
  (forall c, P c -> enc c = enc' c) ->
  encodes_or_empty P enc' us (convert (At (us ++ 0 :: junk)) (fun p => loop p [])).
Proof.
  intros Hus Hl Hok Henc. pose proof (text32_no_zero _ Hus) as Hz.
  rewrite convert_nul'; [|assumption|now rewrite Hl].
  rewrite Hl, from32_loop_exact by assumption. cbn [app].
  pose proof (forallb_spec ok P _ us Hok Hus) as Hf. split.
  - intros H. replace (forallb ok us) with true by (symmetry; tauto). f_equal.
    apply flat_map_ext_in. intros c Hc. apply Henc. rewrite Forall_forall in H. auto.
  - intros H. destruct (forallb ok us); [tauto|reflexivity].
Qed.

Lemma toUtf8_32_exact us junk : text32 us ->
  encodes_or_empty encodable8 utf8_bytes us (toUtf8_32 (At (us ++ 0 :: junk))).
Proof.
  intros H. apply (from32_exact ok_utf8_32 encodeUtf8); auto using ok_utf8_32_spec.
  intros c [Hc _]. apply encodeUtf8_spec. lia.
Qed.
Lemma toUtf16_32_exact us junk : text32 us ->
  encodes_or_empty scalar utf16_units us (toUtf16_32 (At (us ++ 0 :: junk))).
Proof.
  intros H. apply (from32_exact ok_utf16_32 rawEncodeUtf16); auto using ok_utf16_32_spec, toUtf16_32_loop_eq.
  intros c [Hc _]. apply rawEncodeUtf16_spec. lia.
Qed.
Lemma toUcs2_32_exact us junk : text32 us ->
  encodes_or_empty bmp (fun c => [c]) us (toUcs2_32 (At (us ++ 0 :: junk))).
Proof.
  intros H. apply (from32_exact ok_ucs2_32 (fun c => [wrap16 c])); auto using ok_ucs2_32_spec, toUcs2_32_loop_eq.
  intros c [Hc _]. now rewrite wrap16_id by lia.
Qed.

(* ---------------------------------------------------------------- from UTF-16 *)

Lemma utf16_units_bmp c : c < 0x10000 -> utf16_units c = [c].
Proof. intros H. unfold utf16_units. now replace (c <? 0x10000) with true by lia. Qed.

(* reading of a surrogate pair *)
Definition pair_value (h l : Z) : Z := 0x10000 + (h - 0xD800) * 0x400 + (l - 0xDC00).

Lemma reads16_nil : reads_as16 [] [].
Proof. exists [], []. repeat split; [constructor|now left]. Qed.
Lemma reads16_high h : high_surrogate h -> reads_as16 [] [h].
Proof. intros H. exists [], [h]. repeat split; [constructor|right; eauto]. Qed.
Lemma reads16_cons c cs us : scalar c -> reads_as16 cs us -> reads_as16 (c :: cs) (utf16_units c ++ us).
Proof.
  intros Hc (b & t & -> & [Hb ->] & Ht). exists (flat_map utf16_units (c :: cs)), t.
  cbn [flat_map]. rewrite app_assoc. repeat split; [constructor; assumption|exact Ht].
Qed.
Lemma reads16_inv cs us : reads_as16 cs us ->
  (cs = [] /\ (us = [] \/ exists h, us = [h] /\ high_surrogate h)) \/
  exists c cs' rest, cs = c :: cs' /\ us = utf16_units c ++ rest /\ scalar c /\ reads_as16 cs' rest.
Proof.
  intros (b & t & -> & [Hb ->] & Ht). destruct Hb as [|c cs Hc Hcs]; [left; auto|right].
  exists c, cs, (flat_map utf16_units cs ++ t). cbn [flat_map]. rewrite app_assoc. repeat split; try apply Hc.
  exists (flat_map utf16_units cs), t. repeat split; auto.
Qed.

Lemma pair_units h l : high_surrogate h -> low_surrogate l ->
  utf16_units (pair_value h l) = [h; l] /\ scalar (pair_value h l) /\ 0x10000 <= pair_value h l <= 0x10FFFF.
Proof.
  unfold high_surrogate, low_surrogate, pair_value, scalar, surrogate. intros Hh Hl. split; [|lia].
  unfold utf16_units.
  replace (0x10000 + (h - 0xD800) * 0x400 + (l - 0xDC00) <? 0x10000) with false by lia.
  f_equal; [lia|]. f_equal. lia.
Qed.

(* how a UTF-16 string starts *)
Inductive scan16 (us : list Z) : Prop :=
| s16_plain c rest : us = c :: rest -> bmp c -> scan16 us
| s16_pair h l rest : us = h :: l :: rest -> high_surrogate h -> low_surrogate l -> scan16 us
| s16_last h : us = [h] -> high_surrogate h -> scan16 us
| s16_high h x rest : us = h :: x :: rest -> high_surrogate h -> ~ low_surrogate x -> scan16 us
| s16_low l rest : us = l :: rest -> low_surrogate l -> scan16 us.

Lemma scan16_cases us : text16 us -> us <> [] -> scan16 us.
Proof.
  intros H Hne. destruct us as [|u us]; [congruence|]. apply Forall_cons_inv in H. destruct H as [Hu Hus].
  destruct (Z.ltb_spec u 0xD800); [eapply s16_plain; [reflexivity|]; unfold bmp, surrogate; lia|].
  destruct (Z.ltb_spec 0xDFFF u); [eapply s16_plain; [reflexivity|]; unfold bmp, surrogate; lia|].
  destruct (Z.ltb_spec 0xDBFF u); [eapply s16_low; [reflexivity|]; unfold low_surrogate; lia|].
  assert (Hh : high_surrogate u) by (unfold high_surrogate; lia).
  destruct us as [|x us]; [eapply s16_last; eauto|].
  destruct (Z.ltb_spec x 0xDC00); [eapply s16_high; eauto; unfold low_surrogate; lia|].
  destruct (Z.ltb_spec 0xDFFF x); [eapply s16_high; eauto; unfold low_surrogate; lia|].
  eapply s16_pair; eauto; unfold low_surrogate; lia.
Qed.

Lemma reads16_plain_inv c cs rest : bmp c -> reads_as16 cs (c :: rest) ->
  exists cs', cs = c :: cs' /\ reads_as16 cs' rest.
Proof.
  intros [Hc Hn] H. apply reads16_inv in H.
  destruct H as [[_ [E|(h & E & Hh)]]|(c' & cs' & r & -> & E & [Hs1 Hs2] & Hr)]; [discriminate| |].
  - injection E as -> ->. unfold high_surrogate, surrogate in *. lia.
  - destruct (Z.ltb_spec c' 0x10000).
    + rewrite utf16_units_bmp in E by lia. injection E as -> ->. eauto.
    + destruct (utf16_units_supp c' ltac:(lia)) as (h & l & E' & Hh & _). rewrite E' in E.
      injection E as -> _. unfold high_surrogate, surrogate in *. lia.
Qed.
Lemma reads16_pair_inv h l cs rest : high_surrogate h -> low_surrogate l -> reads_as16 cs (h :: l :: rest) ->
  exists cs', cs = pair_value h l :: cs' /\ reads_as16 cs' rest.
Proof.
  intros Hh Hl H. apply reads16_inv in H.
  destruct H as [[_ [E|(h' & E & Hh')]]|(c' & cs' & r & -> & E & [Hs1 Hs2] & Hr)]; [discriminate|discriminate|].
  destruct (Z.ltb_spec c' 0x10000).
  - rewrite utf16_units_bmp in E by lia. injection E as -> _. unfold high_surrogate, surrogate in *. lia.
  - destruct (utf16_units_supp c' ltac:(lia)) as (h' & l' & E' & Hh' & Hl' & Ec). rewrite E' in E.
    injection E as -> -> ->. exists cs'. split; [|assumption]. f_equal. unfold pair_value. lia.
Qed.
Lemma reads16_last_inv h cs : high_surrogate h -> reads_as16 cs [h] -> cs = [].
Proof.
  intros Hh H. apply reads16_inv in H.
  destruct H as [[-> _]|(c' & cs' & r & -> & E & [Hs1 Hs2] & Hr)]; [reflexivity|].
  destruct (Z.ltb_spec c' 0x10000).
  - rewrite utf16_units_bmp in E by lia. injection E as -> _. unfold high_surrogate, surrogate in *. lia.
  - destruct (utf16_units_supp c' ltac:(lia)) as (h' & l' & E' & _). rewrite E' in E. discriminate.
Qed.
Lemma reads16_high_inv h x cs rest : high_surrogate h -> ~ low_surrogate x -> ~ reads_as16 cs (h :: x :: rest).
Proof.
  intros Hh Hx H. apply reads16_inv in H.
  destruct H as [[_ [E|(h' & E & Hh')]]|(c' & cs' & r & -> & E & [Hs1 Hs2] & Hr)]; [discriminate|discriminate|].
  destruct (Z.ltb_spec c' 0x10000).
  - rewrite utf16_units_bmp in E by lia. injection E as -> _. unfold high_surrogate, surrogate in *. lia.
  - destruct (utf16_units_supp c' ltac:(lia)) as (h' & l' & E' & Hh' & Hl' & Ec). rewrite E' in E.
    injection E as -> -> ->. contradiction.
Qed.
Lemma reads16_low_inv l cs rest : low_surrogate l -> ~ reads_as16 cs (l :: rest).
Proof.
  intros Hl H. apply reads16_inv in H.
  destruct H as [[_ [E|(h' & E & Hh')]]|(c' & cs' & r & -> & E & [Hs1 Hs2] & Hr)]; [discriminate| |].
  - injection E as -> _. unfold high_surrogate, low_surrogate in *. lia.
  - destruct (Z.ltb_spec c' 0x10000).
    + rewrite utf16_units_bmp in E by lia. injection E as -> _. unfold low_surrogate, surrogate in *. lia.
    + destruct (utf16_units_supp c' ltac:(lia)) as (h' & l' & E' & Hh' & _). rewrite E' in E.
      injection E as -> _. unfold high_surrogate, low_surrogate in *. lia.
Qed.
Lemma reads16_nil_inv cs : reads_as16 cs [] -> cs = [].
Proof.
  intros H. apply reads16_inv in H. destruct H as [[-> _]|(c' & cs' & r & -> & E & _)]; [reflexivity|].
  unfold utf16_units in E. destruct (c' <? 0x10000); discriminate.
Qed.

(* rules for reading forward *)
Lemma reads16_plain c cs rest : bmp c -> reads_as16 cs rest -> reads_as16 (c :: cs) (c :: rest).
Proof.
  intros [Hc Hn] H. change (c :: rest) with ([c] ++ rest). rewrite <- (utf16_units_bmp c) by lia.
  apply reads16_cons; [|assumption]. unfold scalar, surrogate in *. lia.
Qed.
Lemma reads16_pair h l cs rest : high_surrogate h -> low_surrogate l -> reads_as16 cs rest ->
  reads_as16 (pair_value h l :: cs) (h :: l :: rest).
Proof.
  intros Hh Hl H. change (h :: l :: rest) with ([h; l] ++ rest).
  destruct (pair_units h l Hh Hl) as (E & Hs & _). rewrite <- E. now apply reads16_cons.
Qed.

Lemma reads16_unique us cs cs' : text16 us -> reads_as16 cs us -> reads_as16 cs' us -> cs = cs'.
Proof.
  assert (H : forall n us cs cs', (length us <= n)%nat -> text16 us -> reads_as16 cs us -> reads_as16 cs' us -> cs = cs').
  { clear. induction n as [|n IH]; intros us cs cs' Hn Ht H H'.
    - destruct us; [|cbn in Hn; lia]. apply reads16_nil_inv in H, H'. congruence.
    - destruct us as [|u us]; [apply reads16_nil_inv in H, H'; congruence|].
      destruct (scan16_cases (u :: us) Ht ltac:(discriminate)) as [c r E Hc|h l r E Hh Hl|h E Hh|h x r E Hh Hx|l r E Hl];
        injection E as -> ->.
      + destruct (reads16_plain_inv _ _ _ Hc H) as (a & -> & Ha), (reads16_plain_inv _ _ _ Hc H') as (b & -> & Hb).
        f_equal. apply (IH r); auto; [cbn in Hn; lia|]. now apply Forall_cons_inv in Ht.
      + destruct (reads16_pair_inv _ _ _ _ Hh Hl H) as (a & -> & Ha), (reads16_pair_inv _ _ _ _ Hh Hl H') as (b & -> & Hb).
        f_equal. apply (IH r); auto; [cbn in Hn; lia|]. apply Forall_cons_inv in Ht. destruct Ht as [_ Ht].
        now apply Forall_cons_inv in Ht.
      + apply reads16_last_inv in H, H'; congruence.
      + exfalso. eapply reads16_high_inv; eassumption.
      + exfalso. eapply reads16_low_inv; eassumption. }
  apply (H (length us)). lia.
Qed.

Lemma rawDecodeUtf16_spec h l : high_surrogate h -> low_surrogate l -> rawDecodeUtf16 h l = pair_value h l.
Proof.
  exact (rawDecodeUtf16_arith h l).
Qed.

(* toUcs4(const char16_t* ) *)
Lemma toUcs4_16_loop_exact junk n : forall us result, (length us <= n)%nat -> text16 us ->
  exact_conversion (fun cs => reads_as16 cs us) (fun cs => result ++ cs)
    (toUcs4_16_loop (us ++ 0 :: junk) result).
Proof.
  induction n as [|n IH]; intros us result Hn Ht.
  { destruct us; [|cbn in Hn; lia]. split.
    - intros cs H. apply reads16_nil_inv in H. subst. cbn. now rewrite app_nil_r.
    - intros H. exfalso. apply (H []). apply reads16_nil. }
  destruct us as [|u us].
  { split.
    - intros cs H. apply reads16_nil_inv in H. subst. cbn. now rewrite app_nil_r.
    - intros H. exfalso. apply (H []). apply reads16_nil. }
  pose proof (Forall_cons_inv _ _ _ Ht) as [Hu Htl].
  cbn [toUcs4_16_loop app]. replace (u =? 0) with false by lia.
  destruct (scan16_cases (u :: us) Ht ltac:(discriminate)) as [c r E Hc|h l r E Hh Hl|h E Hh|h x r E Hh Hx|l r E Hl];
    injection E as -> ->; rewrite ?isFirst_b, ?isSecond_b.
  - assert (Hns : ~ surrogate c) by apply Hc. unfold surrogate in Hns.
    replace ((0xD800 <=? c) && (c <=? 0xDBFF)) with false by lia.
    replace ((0xDC00 <=? c) && (c <=? 0xDFFF)) with false by lia.
    destruct (IH r (result ++ [c]) ltac:(cbn in Hn; lia) Htl) as [H1 H2]. split.
    + intros cs H. destruct (reads16_plain_inv _ _ _ Hc H) as (cs' & -> & H').
      rewrite (H1 _ H'), <- app_assoc. reflexivity.
    + intros H. apply H2. intros cs Hcs. apply (H (c :: cs)). now apply reads16_plain.
  - assert (0xD800 <= h <= 0xDBFF) by exact Hh. assert (0xDC00 <= l <= 0xDFFF) by exact Hl.
    replace ((0xD800 <=? h) && (h <=? 0xDBFF)) with true by lia. cbn [app].
    replace (l =? 0) with false by lia. rewrite isSecond_b.
    replace ((0xDC00 <=? l) && (l <=? 0xDFFF)) with true by lia. cbn [negb].
    rewrite rawDecodeUtf16_spec by assumption.
    pose proof (Forall_cons_inv _ _ _ Htl) as [_ Htr].
    destruct (IH r (result ++ [pair_value h l]) ltac:(cbn in Hn; lia) Htr) as [H1 H2]. split.
    + intros cs Hcs. destruct (reads16_pair_inv _ _ _ _ Hh Hl Hcs) as (cs' & -> & H').
      rewrite (H1 _ H'), <- app_assoc. reflexivity.
    + intros Hno. apply H2. intros cs Hcs. apply (Hno (pair_value h l :: cs)). now apply reads16_pair.
  - assert (0xD800 <= h <= 0xDBFF) by exact Hh.
    replace ((0xD800 <=? h) && (h <=? 0xDBFF)) with true by lia. cbn. split.
    + intros cs Hcs. rewrite (reads16_last_inv _ _ Hh Hcs), app_nil_r. reflexivity.
    + intros Hno. exfalso. apply (Hno []). now apply reads16_high.
  - assert (0xD800 <= h <= 0xDBFF) by exact Hh.
    replace ((0xD800 <=? h) && (h <=? 0xDBFF)) with true by lia. cbn [app].
    pose proof (Forall_cons_inv _ _ _ Htl) as [Hx0 _].
    replace (x =? 0) with false by lia. rewrite isSecond_b.
    unfold low_surrogate in Hx.
    replace ((0xDC00 <=? x) && (x <=? 0xDFFF)) with false by lia. cbn [negb]. split.
    + intros cs Hcs. exfalso. eapply reads16_high_inv; [exact Hh| |exact Hcs]. exact Hx.
    + reflexivity.
  - assert (0xDC00 <= l <= 0xDFFF) by exact Hl.
    replace ((0xD800 <=? l) && (l <=? 0xDBFF)) with false by lia.
    replace ((0xDC00 <=? l) && (l <=? 0xDFFF)) with true by lia. split.
    + intros cs Hcs. exfalso. eapply reads16_low_inv; [exact Hl|exact Hcs].
    + reflexivity.
Qed.

Lemma toUcs4_16_exact us junk : text16 us ->
  exact_conversion (fun cs => reads_as16 cs us) (fun cs => cs) (toUcs4_16 (At (us ++ 0 :: junk))).
Proof.
  intros H. unfold toUcs4_16. rewrite convert_nul'; [|now apply text16_no_zero|reflexivity].
  apply (toUcs4_16_loop_exact junk (length us)); [lia|assumption].
Qed.
